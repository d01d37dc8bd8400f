(** Lemmas on locations as XML *)
From Coq Require Import Ascii String List NArith ZArith Bool Lia.
From Verif Require Import PyBase PyUni PyStr PyRe M_Components M_Ahb M_Sgh M_Navigation M_Xml M_LocationXml.
From Verif Require Import L_Base S_Text L_Str L_Validators S_LocationXml.
Import ListNotations.
Local Open Scope list_scope.

(** ** character classes *)
(** every range lies inside one of the ranges [ts] *)
Definition ranges_within (rs ts : list (N * N)) : bool :=
  forallb (fun r => existsb (fun t => N.leb (fst t) (fst r) && N.leb (snd r) (snd t))%bool ts) rs.
Lemma ranges_within_sound rs ts c :
  ranges_within rs ts = true -> in_ranges rs c = true -> in_ranges ts c = true.
Proof.
  unfold ranges_within, in_ranges. rewrite forallb_forall, !existsb_exists.
  intros H ((a & b) & Hin & Hc). specialize (H _ Hin). apply existsb_exists in H as ((x & y) & Hin' & H).
  exists (x, y). split; [exact Hin'|]. cbn [fst snd] in *.
  apply andb_true_iff in Hc as [Ha Hb]. apply andb_true_iff in H as [Hx Hy].
  apply N.leb_le in Ha, Hb, Hx, Hy. apply andb_true_iff. split; apply N.leb_le; lia.
Qed.
(** no range overlaps one of the ranges [ts] *)
Definition ranges_apart (rs ts : list (N * N)) : bool :=
  forallb (fun r => forallb (fun t => N.ltb (snd t) (fst r) || N.ltb (snd r) (fst t))%bool ts) rs.
Lemma ranges_apart_sound rs ts c :
  ranges_apart rs ts = true -> in_ranges rs c = true -> in_ranges ts c = false.
Proof.
  unfold ranges_apart, in_ranges. rewrite forallb_forall, existsb_exists.
  intros H ((a & b) & Hin & Hc). specialize (H _ Hin). rewrite forallb_forall in H.
  apply not_true_iff_false. intros E. apply existsb_exists in E as ((x & y) & Hin' & E). specialize (H _ Hin').
  cbn [fst snd] in *.
  apply andb_true_iff in Hc as [Ha Hb]. apply andb_true_iff in E as [Hx Hy]. apply orb_true_iff in H.
  apply N.leb_le in Ha, Hb, Hx, Hy. rewrite !N.ltb_lt in H. lia.
Qed.
Lemma decimal_not_space c : is_decimal c = true -> is_space c = false.
Proof. apply (ranges_apart_sound decimal_ranges space_ranges). vm_compute. reflexivity. Qed.
Lemma AZ_not_space c : is_AZ c = true -> is_space c = false.
Proof.
  intros H. apply (ranges_apart_sound [(65, 90)%N] space_ranges); [vm_compute; reflexivity|].
  unfold in_ranges. cbn [existsb fst snd]. unfold is_AZ, in_range in H. now rewrite H.
Qed.
Definition xml_ranges : list (N * N) := [(9, 10); (13, 13); (32, 55295); (57344, 65533); (65536, 1114111)]%N.
Lemma xml_ranges_xml c : in_ranges xml_ranges c = true -> is_xml_char c = true.
Proof.
  unfold in_ranges, xml_ranges, is_xml_char. cbn [existsb fst snd]. intros H.
  rewrite !orb_true_iff, !andb_true_iff, !N.leb_le in H.
  rewrite !orb_true_iff, !andb_true_iff, !N.leb_le, !N.eqb_eq. lia.
Qed.
Lemma decimal_xml c : is_decimal c = true -> is_xml_char c = true.
Proof. intros H. apply xml_ranges_xml. revert H. apply (ranges_within_sound decimal_ranges xml_ranges). vm_compute. reflexivity. Qed.
Lemma AZ_xml c : is_AZ c = true -> is_xml_char c = true.
Proof.
  intros H. apply xml_ranges_xml. apply (ranges_within_sound [(65, 90)%N] xml_ranges); [vm_compute; reflexivity|].
  unfold in_ranges. cbn [existsb fst snd]. unfold is_AZ, in_range in H. now rewrite H.
Qed.

Lemma all_impl (p q : char -> bool) s : (forall c, p c = true -> q c = true) -> all p s -> all q s.
Proof. intros H. apply Forall_impl. exact H. Qed.
Definition not_space (c : char) : bool := negb (is_space c).
Lemma no_space_stripped s : all not_space s -> stripped s s.
Proof.
  unfold all. rewrite Forall_forall. intros H. exists [], []. cbn [app]. rewrite app_nil_r.
  split; [reflexivity|]. split; [constructor|]. split; [constructor|].
  assert (forall c, In c s -> is_space c = false).
  { intros c Hc. apply H in Hc. unfold not_space in Hc. now destruct (is_space c). }
  split; intros c r ->; apply H0; [now left|]. apply in_or_app. right. now left.
Qed.
Lemma not_space_decimal c : is_decimal c = true -> not_space c = true.
Proof. intros H. apply decimal_not_space in H. unfold not_space. now rewrite H. Qed.
Lemma not_space_AZ c : is_AZ c = true -> not_space c = true.
Proof. intros H. apply AZ_not_space in H. unfold not_space. now rewrite H. Qed.

Definition plain (s : pystr) : Prop := all is_xml_char s /\ all not_space s.
Lemma plain_app a b : plain a -> plain b -> plain (a ++ b).
Proof. intros [] []. split; apply all_app; auto. Qed.
Lemma plain_AZ s : all is_AZ s -> plain s.
Proof. intros H. split; eapply all_impl; try exact H; [apply AZ_xml|apply not_space_AZ]. Qed.
Lemma plain_decimal s : all is_decimal s -> plain s.
Proof. intros H. split; eapply all_impl; try exact H; [apply decimal_xml|apply not_space_decimal]. Qed.
Lemma plain_SG s : SG_key s -> plain s /\ s <> [].
Proof.
  intros (ds & -> & Hn & H). split; [|discriminate]. apply plain_app; [|now apply plain_decimal].
  apply plain_AZ. repeat constructor.
Qed.
Lemma plain_three s : three_capitals s -> plain s /\ s <> [].
Proof. intros [L H]. split; [now apply plain_AZ|]. now intros ->. Qed.
Lemma plain_digits n s : n_digits (S n) s -> plain s /\ s <> [].
Proof. intros [L H]. split; [now apply plain_decimal|]. now intros ->. Qed.
Lemma plain_qualifier s : capitals_then_digits s -> plain s.
Proof. intros (a & d & -> & Ha & Hd). apply plain_app; [now apply plain_AZ|now apply plain_decimal]. Qed.

(** ** texts *)
Lemma text_data_spec o : comes_back_as o (text_data o).
Proof.
  destruct o as [s|]; cbn [text_data]; [|constructor].
  destruct s as [|c r]; [constructor; constructor|]. set (s := c :: r). change (truthy s) with true. cbv iota.
  unfold or_none, otruthy. destruct (truthy (strip s)) eqn:T.
  - constructor; [apply strip_spec|now apply truthy_true].
  - constructor. apply strip_nil. destruct (strip s); [reflexivity|discriminate].
Qed.
Lemma comes_back_unique o a b : comes_back_as o a -> comes_back_as o b -> a = b.
Proof.
  assert (N : forall s t, blank s -> stripped s t -> t <> [] -> False).
  { intros s t B H N. apply stripped_unique in H. apply N. rewrite <- H. now apply strip_nil. }
  intros H1 H2. inversion H1; subst; inversion H2; subst; try reflexivity.
  - destruct (N s t); auto.
  - destruct (N s t); auto.
  - f_equal. apply stripped_unique in H, H4. congruence.
Qed.
Lemma text_data_clean s : s <> [] -> stripped s s -> text_data (Some s) = Some s.
Proof. intros N H. apply (comes_back_unique (Some s)); [apply text_data_spec|now constructor]. Qed.
Lemma text_data_plain s : plain s -> s <> [] -> text_data (Some s) = Some s.
Proof. intros [_ H] N. apply text_data_clean; [exact N|now apply no_space_stripped]. Qed.
Lemma set_text_ok s t : set_text s = Ok t <-> xml_text s /\ t = Some s.
Proof.
  unfold set_text. destruct (forallb is_xml_char s) eqn:E.
  - apply all_forallb in E. split; [intros [= <-]; now split|now intros [_ ->]].
  - split; [discriminate|]. intros [H _]. apply all_forallb in H. congruence.
Qed.

(** ** one attribute *)
Definition xopt (o : option pystr) : xvalue := match o with None => XNone | Some s => XStr s end.
Definition writable (o : option pystr) : Prop := forall s, o = Some s -> xml_text s.
Lemma attribute_to_xml_ok name o x : attribute_to_xml name o = Ok x ->
  writable o /\ el_tag x = name /\ (if is_nil (value_of x) then XNone else value_of x) = xopt (text_data o).
Proof.
  destruct o as [s|]; cbn [attribute_to_xml].
  - intros H. apply bind_ok in H as (t & H & [= <-]). apply set_text_ok in H as [Hx ->].
    split; [intros ? [= <-]; exact Hx|]. split; [reflexivity|].
    cbn [value_of map fold_left]. destruct (text_data (Some s)); reflexivity.
  - intros [= <-]. split; [intros ? [=]|]. split; [reflexivity|].
    cbn [value_of text_data]. vm_compute. reflexivity.
Qed.
Lemma attribute_to_xml_writes name o : writable o -> exists x, attribute_to_xml name o = Ok x.
Proof.
  destruct o as [s|]; intros W; cbn [attribute_to_xml]; [|eauto].
  eexists. apply bind_ok. exists (Some s). split; [|reflexivity]. apply set_text_ok. split; auto.
Qed.
Lemma attribute_to_xml_raise name o e : attribute_to_xml name o = Raise e -> e = ValueError /\ ~ writable o.
Proof.
  destruct o as [s|]; cbn [attribute_to_xml]; [|discriminate].
  unfold set_text. destruct (forallb is_xml_char s) eqn:E; cbn [bind]; [discriminate|intros [= <-]].
  split; [reflexivity|]. intros W. specialize (W s eq_refl). apply all_forallb in W. congruence.
Qed.
Lemma text_argument_xopt o : text_argument (xopt o) = Ok o.
Proof. now destruct o. Qed.
Lemma layer_from_texts k o q k' o' q' : text_argument k = Ok k' -> text_argument o = Ok o' -> text_argument q = Ok q' ->
  new_Layer_from k o q = new_Layer k' o' q'.
Proof. intros A B C. unfold new_Layer_from, new_Layer. rewrite A, B, C. reflexivity. Qed.
Lemma layer_from_ok k o q y : new_Layer_from k o q = Ok y <->
  exists k' o' q', text_argument k = Ok k' /\ text_argument o = Ok o' /\ text_argument q = Ok q' /\ new_Layer k' o' q' = Ok y.
Proof.
  split.
  - intros H. pose proof H as H'. unfold new_Layer_from in H'. apply bind_ok in H' as (k' & A & H'). apply bind_ok in H' as (? & _ & H').
    apply bind_ok in H' as (o' & B & H'). apply bind_ok in H' as (? & _ & H'). apply bind_ok in H' as (? & _ & H').
    apply bind_ok in H' as (q' & C & _). exists k', o', q'. rewrite (layer_from_texts _ _ _ _ _ _ A B C) in H. auto.
  - intros (k' & o' & q' & A & B & C & H). now rewrite (layer_from_texts _ _ _ _ _ _ A B C).
Qed.
Lemma location_from_texts ls s e q s' e' q' : text_argument s = Ok s' -> text_argument e = Ok e' -> text_argument q = Ok q' ->
  new_Location_from ls s e q = new_Location false ls s' e' q'.
Proof. intros A B C. unfold new_Location_from, new_Location. rewrite A, B, C. reflexivity. Qed.
Lemma location_from_ok ls s e q l : new_Location_from ls s e q = Ok l <->
  exists s' e' q', text_argument s = Ok s' /\ text_argument e = Ok e' /\ text_argument q = Ok q' /\ new_Location false ls s' e' q' = Ok l.
Proof.
  split.
  - intros H. pose proof H as H'. unfold new_Location_from in H'. apply bind_ok in H' as (? & _ & H'). apply bind_ok in H' as (s' & A & H').
    apply bind_ok in H' as (? & _ & H'). apply bind_ok in H' as (e' & B & H'). apply bind_ok in H' as (? & _ & H').
    apply bind_ok in H' as (q' & C & _). exists s', e', q'. rewrite (location_from_texts _ _ _ _ _ _ _ A B C) in H. auto.
  - intros (s' & e' & q' & A & B & C & H). now rewrite (location_from_texts _ _ _ _ _ _ _ A B C).
Qed.

(** ** a layer *)
Lemma layer_written y x : layer_to_xml_element y = Ok x ->
  el_tag x = u "ahbLocationLayer" /\ (exists d, value_of x = XDict d)
  /\ dict_to_layer (value_of x) = new_Layer (text_data (ly_key y)) (text_data (Some (ly_opening y))) (text_data (ly_qualifier y)).
Proof.
  unfold layer_to_xml_element. intros H.
  apply bind_ok in H as (k & Hk & H). apply bind_ok in H as (o & Ho & H). apply bind_ok in H as (q & Hq & [= <-]).
  apply attribute_to_xml_ok in Hk as (_ & Tk & Vk). apply attribute_to_xml_ok in Ho as (_ & To & Vo).
  apply attribute_to_xml_ok in Hq as (_ & Tq & Vq).
  split; [reflexivity|]. cbn [value_of map fold_left].
  rewrite Tk, To, Tq.
  cbn [push_data].
  replace (str_eqb (u "segment_group_key") (u "opening_segment_code")) with false by (vm_compute; reflexivity).
  cbv iota. cbn [push_data].
  replace (str_eqb (u "segment_group_key") (u "opening_qualifier")) with false by (vm_compute; reflexivity).
  replace (str_eqb (u "opening_segment_code") (u "opening_qualifier")) with false by (vm_compute; reflexivity).
  cbv iota. cbn [push_data text_data].
  split; [eauto|].
  unfold dict_to_layer, replace_nil_element_with_none. cbn [items bind map fst snd].
  rewrite Vk, Vo, Vq.
  unfold only_keywords. cbn [forallb fst].
  replace (str_in (u "segment_group_key") _) with true by (vm_compute; reflexivity).
  replace (str_in (u "opening_segment_code") _) with true by (vm_compute; reflexivity).
  replace (str_in (u "opening_qualifier") _) with true by (vm_compute; reflexivity).
  cbn [andb check bind].
  unfold keyword. cbn [dict_lookup].
  replace (str_eqb (u "segment_group_key") (u "segment_group_key")) with true by (vm_compute; reflexivity).
  replace (str_eqb (u "segment_group_key") (u "opening_segment_code")) with false by (vm_compute; reflexivity).
  replace (str_eqb (u "opening_segment_code") (u "opening_segment_code")) with true by (vm_compute; reflexivity).
  replace (str_eqb (u "segment_group_key") (u "opening_qualifier")) with false by (vm_compute; reflexivity).
  replace (str_eqb (u "opening_segment_code") (u "opening_qualifier")) with false by (vm_compute; reflexivity).
  replace (str_eqb (u "opening_qualifier") (u "opening_qualifier")) with true by (vm_compute; reflexivity).
  cbv iota. cbn [bind]. apply layer_from_texts; apply text_argument_xopt.
Qed.
Lemma layer_reads y x : valid_layer_object y -> layer_to_xml_element y = Ok x ->
  exists r, dict_to_layer (value_of x) = Ok r /\ layer_comes_back_as y r.
Proof.
  intros (Hk & Ho & Hq) H. apply layer_written in H as (_ & _ & ->).
  assert (Ek : text_data (ly_key y) = ly_key y).
  { destruct (ly_key y) as [k|]; [|reflexivity]. destruct (plain_SG k) as [P N]; [auto|]. now apply text_data_plain. }
  assert (Eo : text_data (Some (ly_opening y)) = Some (ly_opening y)).
  { destruct (plain_three _ Ho) as [P N]. now apply text_data_plain. }
  rewrite Ek, Eo. exists (mkLayer (ly_key y) (ly_opening y) (text_data (ly_qualifier y))). split.
  - apply new_Layer_ok. split; [reflexivity|]. split; [exact Hk|]. split; [exact Ho|].
    intros q E. apply Hq. destruct (ly_qualifier y) as [s|]; [|discriminate].
    assert (C : capitals_then_digits s) by auto. apply plain_qualifier in C.
    destruct s as [|c r]; [discriminate|]. rewrite text_data_plain in E by (auto; discriminate). congruence.
  - split; [reflexivity|]. split; [reflexivity|]. cbn [ly_qualifier]. apply text_data_spec.
Qed.
Lemma layer_writes y : valid_layer_object y -> exists x, layer_to_xml_element y = Ok x.
Proof.
  intros (Hk & Ho & Hq). unfold layer_to_xml_element.
  destruct (attribute_to_xml_writes (u "segment_group_key") (ly_key y)) as (a & Ha).
  { intros s E. now apply plain_SG, Hk. }
  destruct (attribute_to_xml_writes (u "opening_segment_code") (Some (ly_opening y))) as (b & Hb).
  { intros s [= <-]. now apply plain_three. }
  destruct (attribute_to_xml_writes (u "opening_qualifier") (ly_qualifier y)) as (c & Hc).
  { intros s E. now apply plain_qualifier, Hq. }
  eexists. apply bind_ok. exists a. split; [exact Ha|]. apply bind_ok. exists b. split; [exact Hb|].
  apply bind_ok. exists c. split; [exact Hc|reflexivity].
Qed.

(** ** children with the same tag *)
Definition grouped (tag : pystr) (vs : list xvalue) : list (pystr * xvalue) :=
  match vs with
  | [] => []
  | [v] => [(tag, v)]
  | _ => [(tag, XList vs)]
  end.
Lemma push_same tag v vs : (forall w, vs = [w] -> exists d, w = XDict d) ->
  push_data (grouped tag vs) tag v = grouped tag (vs ++ [v]).
Proof.
  intros H. assert (E : str_eqb tag tag = true) by now apply str_eqb_eq.
  destruct vs as [|a [|b r]]; cbn [grouped push_data app]; [reflexivity| |]; rewrite E.
  - destruct (H a eq_refl) as (d & ->). reflexivity.
  - reflexivity.
Qed.
Lemma fold_same tag cs : forall vs,
  Forall (fun c => el_tag c = tag /\ exists d, value_of c = XDict d) cs ->
  Forall (fun w => exists d, w = XDict d) vs ->
  fold_left (fun d c => push_data d (el_tag c) (value_of c)) cs (grouped tag vs)
  = grouped tag (vs ++ map value_of cs).
Proof.
  induction cs as [|c cs IH]; intros vs H Hv; cbn [fold_left map].
  - now rewrite app_nil_r.
  - inversion H as [|? ? (T & d & V) H']; subst. rewrite push_same.
    + rewrite IH; [now rewrite <- app_assoc|exact H'|].
      apply Forall_app. split; [exact Hv|]. constructor; [eauto|constructor].
    + intros w ->. inversion Hv; auto.
Qed.

Lemma value_of_children tag cs :
  value_of (Element tag [] None cs)
  = match fold_left (fun d c => push_data d (el_tag c) (value_of c)) cs [] with [] => XNone | d => XDict d end.
Proof.
  transitivity (let d := fold_left (fun d c => push_data d (el_tag c) (value_of c)) cs (@nil (pystr * xvalue)) in
                match d with [] => XNone | _ => XDict d end); [reflexivity|]. cbv zeta.
  destruct (fold_left (fun d c => push_data d (el_tag c) (value_of c)) cs []); reflexivity.
Qed.

(** ** a location *)
Lemma location_written l x : to_xml_element l = Ok x ->
  exists ls, mapM layer_to_xml_element (lo_layers l) = Ok ls
  /\ el_tag x = u "ahbLocation" /\ (exists d, value_of x = XDict d) /\ writable (lo_qualifier l)
  /\ xml_dict_to_location (value_of x)
     = let* layers := subscript (value_of (Element (u "layers") [] None ls)) (u "ahbLocationLayer") in
       let* layers := iterate layers in
       let* layers := mapM dict_to_layer layers in
       new_Location false layers (text_data (lo_segment l)) (text_data (lo_element l)) (text_data (lo_qualifier l)).
Proof.
  unfold to_xml_element. intros H.
  apply bind_ok in H as (ls & Hl & H). apply bind_ok in H as (s & Hs & H).
  apply bind_ok in H as (e & He & H). apply bind_ok in H as (q & Hq & [= <-]).
  apply attribute_to_xml_ok in Hs as (_ & Ts & Vs). apply attribute_to_xml_ok in He as (_ & Te & Ve).
  apply attribute_to_xml_ok in Hq as (Wq & Tq & Vq).
  exists ls. split; [exact Hl|]. split; [reflexivity|].
  set (lv := value_of (Element (u "layers") [] None ls)).
  assert (V : value_of (Element (u "ahbLocation") [] None [Element (u "layers") [] None ls; s; e; q])
              = XDict [(u "layers", lv); (u "segment_code", value_of s); (u "data_element_id", value_of e);
                       (u "qualifier", value_of q)]).
  { rewrite value_of_children.
    cbn [fold_left]. fold lv. rewrite Ts, Te, Tq. cbn [el_tag push_data].
    replace (str_eqb (u "layers") (u "segment_code")) with false by (vm_compute; reflexivity).
    cbv iota. cbn [push_data].
    replace (str_eqb (u "layers") (u "data_element_id")) with false by (vm_compute; reflexivity).
    replace (str_eqb (u "segment_code") (u "data_element_id")) with false by (vm_compute; reflexivity).
    cbv iota. cbn [push_data].
    replace (str_eqb (u "layers") (u "qualifier")) with false by (vm_compute; reflexivity).
    replace (str_eqb (u "segment_code") (u "qualifier")) with false by (vm_compute; reflexivity).
    replace (str_eqb (u "data_element_id") (u "qualifier")) with false by (vm_compute; reflexivity).
    reflexivity. }
  rewrite V. split; [eauto|]. split; [exact Wq|].
  unfold xml_dict_to_location. cbn [subscript dict_lookup items].
  replace (str_eqb (u "layers") (u "layers")) with true by (vm_compute; reflexivity).
  cbv iota. cbn [bind].
  destruct (subscript lv (u "ahbLocationLayer")) as [v|ex]; [|reflexivity]. cbn [bind].
  destruct (iterate v) as [vs|ex]; [|reflexivity]. cbn [bind].
  destruct (mapM dict_to_layer vs) as [rs|ex]; [|reflexivity]. cbn [bind].
  cbn [filter fst].
  replace (str_eqb (u "layers") (u "layers")) with true by (vm_compute; reflexivity).
  replace (str_eqb (u "segment_code") (u "layers")) with false by (vm_compute; reflexivity).
  replace (str_eqb (u "data_element_id") (u "layers")) with false by (vm_compute; reflexivity).
  replace (str_eqb (u "qualifier") (u "layers")) with false by (vm_compute; reflexivity).
  cbn [negb]. unfold replace_nil_element_with_none. cbn [items bind map fst snd].
  rewrite Vs, Ve, Vq. unfold only_keywords. cbn [forallb fst].
  replace (str_in (u "segment_code") _) with true by (vm_compute; reflexivity).
  replace (str_in (u "data_element_id") _) with true by (vm_compute; reflexivity).
  replace (str_in (u "qualifier") _) with true by (vm_compute; reflexivity).
  cbn [andb check bind].
  unfold keyword_or_none. cbn [dict_lookup].
  replace (str_eqb (u "segment_code") (u "segment_code")) with true by (vm_compute; reflexivity).
  replace (str_eqb (u "segment_code") (u "data_element_id")) with false by (vm_compute; reflexivity).
  replace (str_eqb (u "data_element_id") (u "data_element_id")) with true by (vm_compute; reflexivity).
  replace (str_eqb (u "segment_code") (u "qualifier")) with false by (vm_compute; reflexivity).
  replace (str_eqb (u "data_element_id") (u "qualifier")) with false by (vm_compute; reflexivity).
  replace (str_eqb (u "qualifier") (u "qualifier")) with true by (vm_compute; reflexivity).
  cbv iota. apply location_from_texts; apply text_argument_xopt.
Qed.

Lemma layers_value ls vs : mapM layer_to_xml_element vs = Ok ls ->
  value_of (Element (u "layers") [] None ls)
  = match grouped (u "ahbLocationLayer") (map value_of ls) with [] => XNone | d => XDict d end.
Proof.
  intros H. rewrite value_of_children.
  change (@nil (pystr * xvalue)) with (grouped (u "ahbLocationLayer") []).
  rewrite fold_same; [reflexivity| |constructor].
  apply mapM_ok in H. clear -H. induction H as [|y x vs ls Hy H IH]; constructor; [|exact IH].
  apply layer_written in Hy as (T & V & _). auto.
Qed.

Lemma mapM_intro {A B} (f : A -> result B) l r : Forall2 (fun a b => f a = Ok b) l r -> mapM f l = Ok r.
Proof. apply mapM_ok. Qed.

Lemma layers_read ys : Forall valid_layer_object ys -> forall ls, mapM layer_to_xml_element ys = Ok ls ->
  exists rs, mapM dict_to_layer (map value_of ls) = Ok rs /\ Forall2 layer_comes_back_as ys rs.
Proof.
  intros V ls H. apply mapM_ok in H. induction H as [|y x ys ls Hy H IH].
  - exists []. split; [reflexivity|constructor].
  - inversion V; subst. destruct IH as (rs & M & F); [assumption|].
    apply layer_reads in Hy as (r & Hr & C); [|assumption].
    exists (r :: rs). cbn [map mapM]. rewrite Hr. cbn [bind]. rewrite M. split; [reflexivity|now constructor].
Qed.

Lemma fields_read l : valid_location l ->
  text_data (lo_segment l) = lo_segment l /\ text_data (lo_element l) = lo_element l.
Proof.
  intros (_ & _ & _ & Hs & He). split.
  - destruct (lo_segment l) as [k|]; [|reflexivity]. destruct (plain_three k) as [P N]; [auto|]. now apply text_data_plain.
  - destruct (lo_element l) as [k|]; [|reflexivity]. destruct (plain_digits 3 k) as [P N]; [auto|]. now apply text_data_plain.
Qed.

Lemma location_reads l x : valid_location l -> 2 <= List.length (lo_layers l) -> to_xml_element l = Ok x ->
  exists r, xml_dict_to_location (value_of x) = Ok r /\ location_comes_back_as l r.
Proof.
  intros V L H. apply location_written in H as (ls & Hl & _ & _ & _ & ->).
  rewrite (layers_value _ _ Hl).
  destruct (layers_read (lo_layers l)) with (ls := ls) as (rs & M & F); [apply V|exact Hl|].
  assert (Len : List.length ls = List.length (lo_layers l)).
  { apply mapM_ok in Hl. clear -Hl. now induction Hl; cbn; [|f_equal]. }
  destruct ls as [|a [|b ls]]; cbn [List.length] in Len; try lia.
  cbn [map grouped subscript dict_lookup].
  replace (str_eqb (u "ahbLocationLayer") (u "ahbLocationLayer")) with true by (vm_compute; reflexivity).
  cbv iota. cbn [bind iterate]. cbn [map] in M. rewrite M. cbn [bind].
  destruct (fields_read l V) as [-> ->].
  exists (mkLocation false rs (lo_segment l) (lo_element l) (text_data (lo_qualifier l))). split.
  - apply new_Location_ok. split; [reflexivity|]. split; [|split; apply V].
    intros ->. inversion F as [E|]. rewrite <- E in Len. discriminate Len.
  - split; [reflexivity|]. split; [exact F|]. split; [reflexivity|]. split; [reflexivity|]. cbn [lo_qualifier]. apply text_data_spec.
Qed.

Lemma location_single l y x : lo_layers l = [y] -> to_xml_element l = Ok x ->
  xml_dict_to_location (value_of x) = Raise AttributeError.
Proof.
  intros E H. apply location_written in H as (ls & Hl & _ & _ & _ & ->).
  rewrite (layers_value _ _ Hl). rewrite E in Hl. apply mapM_ok in Hl.
  inversion Hl as [|? z ? ? Hz Hr]; subst. inversion Hr; subst.
  assert (Hd := Hz). apply layer_written in Hz as (_ & (d & Hv) & _).
  cbn [map grouped subscript dict_lookup].
  replace (str_eqb (u "ahbLocationLayer") (u "ahbLocationLayer")) with true by (vm_compute; reflexivity).
  cbv iota. cbn [bind]. rewrite Hv. cbn [iterate bind].
  unfold layer_to_xml_element in Hd.
  apply bind_ok in Hd as (k & Hk & H). apply bind_ok in H as (o & Ho & H). apply bind_ok in H as (q & Hq & [= <-]).
  apply attribute_to_xml_ok in Hk as (_ & Tk & _).
  rewrite value_of_children in Hv. cbn [fold_left push_data] in Hv.
  assert (N : forall i key v, push_data i key v <> []).
  { intros [|(a, w) i] key v; cbn [push_data]; [discriminate|]. destruct (str_eqb a key); discriminate. }
  destruct (push_data _ (el_tag q) (value_of q)) as [|(k0, v0) d'] eqn:E3.
  - exfalso. exact (N _ _ _ E3).
  - injection Hv as <-. reflexivity.
Qed.

Lemma location_writes l : valid_location l -> writable (lo_qualifier l) -> exists x, to_xml_element l = Ok x.
Proof.
  intros (_ & _ & Hl & Hs & He) W. unfold to_xml_element.
  assert (exists ls, mapM layer_to_xml_element (lo_layers l) = Ok ls) as (ls & Els).
  { induction Hl as [|y ys Hy _ (ls & IH)]; [exists []; reflexivity|].
    destruct (layer_writes y Hy) as (x & Hx). exists (x :: ls). cbn [mapM]. rewrite Hx. cbn [bind]. now rewrite IH. }
  destruct (attribute_to_xml_writes (u "segment_code") (lo_segment l)) as (a & Ha).
  { intros s E. now apply plain_three, Hs. }
  destruct (attribute_to_xml_writes (u "data_element_id") (lo_element l)) as (b & Hb).
  { intros s E. now apply (plain_digits 3), He. }
  destruct (attribute_to_xml_writes (u "qualifier") (lo_qualifier l)) as (c & Hc); [exact W|].
  eexists. apply bind_ok. exists ls. split; [exact Els|]. apply bind_ok. exists a. split; [exact Ha|].
  apply bind_ok. exists b. split; [exact Hb|]. apply bind_ok. exists c. split; [exact Hc|reflexivity].
Qed.
Lemma location_unwritable l : valid_location l -> ~ writable (lo_qualifier l) -> to_xml_element l = Raise ValueError.
Proof.
  intros V W.
  assert (V' : valid_location (mkLocation (lo_pseudo l) (lo_layers l) (lo_segment l) (lo_element l) None)) by exact V.
  destruct (location_writes _ V') as (x & Hx); [intros ? [=]|].
  unfold to_xml_element in *. cbn [lo_layers lo_segment lo_element lo_qualifier] in Hx.
  apply bind_ok in Hx as (ls & -> & H). apply bind_ok in H as (s & -> & H).
  apply bind_ok in H as (e & -> & _). cbn [bind].
  destruct (attribute_to_xml (u "qualifier") (lo_qualifier l)) as [z|ex] eqn:E.
  - apply attribute_to_xml_ok in E as (W' & _). contradiction.
  - apply attribute_to_xml_raise in E as [-> _]. reflexivity.
Qed.

(** ** what comes back unchanged *)
Lemma comes_back_same_iff o : comes_back_as o o <-> forall s, o = Some s -> clean s.
Proof.
  destruct o as [s|]; split.
  - intros H. inversion H; subst. intros ? [= <-]. split; assumption.
  - intros H. destruct (H s eq_refl). now constructor.
  - intros _ ? [=].
  - constructor.
Qed.
Lemma location_same_iff l : valid_location l -> (location_comes_back_as l l <-> nothing_to_trim l).
Proof.
  intros (Hp & _ & Hl & _). unfold location_comes_back_as, nothing_to_trim.
  rewrite comes_back_same_iff. split.
  - intros (_ & F & _ & _ & Q). split; [exact Q|]. clear -F. revert F. generalize (lo_layers l) as ys.
    induction ys as [|y ys IH]; intros F; constructor; inversion F; subst; auto.
    destruct H2 as (_ & _ & C). rewrite comes_back_same_iff in C. intros E. now destruct (C _ E).
  - intros [Q F]. split; [exact Hp|]. split; [|auto].
    clear -F Hl. induction Hl as [|y ys (_ & _ & Hy) _ IH]; constructor; inversion F; subst; auto.
    split; [reflexivity|]. split; [reflexivity|]. apply comes_back_same_iff. intros s E.
    split; [intros ->; contradiction|]. apply no_space_stripped. now apply plain_qualifier, Hy.
Qed.
Lemma location_comes_back_unique l a b :
  location_comes_back_as l a -> location_comes_back_as l b -> a = b.
Proof.
  destruct a as [p1 l1 s1 e1 q1], b as [p2 l2 s2 e2 q2]. unfold location_comes_back_as. cbn.
  intros (-> & F1 & -> & -> & Q1) (-> & F2 & -> & -> & Q2).
  rewrite (comes_back_unique _ _ _ Q1 Q2).
  replace l2 with l1; [reflexivity|]. clear -F1 F2. revert l2 F2.
  induction F1 as [|y [] ys rs (E1 & E2 & C) _ IH]; intros l2 F2; inversion F2 as [|? [] ? ? (E1' & E2' & C')]; subst; [reflexivity|].
  cbn in *. subst. rewrite (comes_back_unique _ _ _ C C'). f_equal. auto.
Qed.

(** ** layout *)
Lemma same_text_data a b : same_text a b -> text_data a = text_data b.
Proof.
  intros (t & Ha & Hb).
  assert (H : forall o, (o = None /\ t = [] \/ (exists s, o = Some s /\ stripped s t)) ->
              text_data o = match t with [] => None | _ => Some t end).
  { intros o [[-> ->]|(s & -> & S')]; [reflexivity|].
    apply (comes_back_unique (Some s)); [apply text_data_spec|].
    destruct t as [|c r]; [|constructor; [exact S'|discriminate]].
    constructor. apply stripped_unique in S'. now apply strip_nil. }
  now rewrite (H a Ha), (H b Hb).
Qed.
Lemma same_value : forall x y, same_but_layout x y -> value_of x = value_of y.
Proof.
  fix IH 3. intros x y H. destruct H as [tag attrib t t' cs cs' Ht Hcs].
  assert (E : forall d, fold_left (fun d c => push_data d (el_tag c) (value_of c)) cs d
                      = fold_left (fun d c => push_data d (el_tag c) (value_of c)) cs' d).
  { revert cs cs' Hcs. fix IHl 3. intros cs cs' Hcs d. destruct Hcs as [|c c' cs cs' Hc Hcs]; [reflexivity|].
    cbn [fold_left]. rewrite (IH c c' Hc).
    assert (T : el_tag c = el_tag c') by (destruct Hc; reflexivity). rewrite T.
    apply (IHl cs cs' Hcs). }
  cbn [value_of]. rewrite E, (same_text_data _ _ Ht). reflexivity.
Qed.
