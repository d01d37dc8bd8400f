(** Lemmas: which XML elements are locations *)
From Coq Require Import Ascii String List NArith ZArith Bool Lia.
From Verif Require Import PyBase PyStr PyRe M_Components M_Ahb M_Sgh M_Navigation M_Xml M_LocationXml.
From Verif Require Import L_Base S_Text L_Str L_Validators S_LocationXml L_LocationXml S_LocationRead.
Import ListNotations.
Local Open Scope list_scope.

(** ** dictionaries *)
Definition put (v : xvalue) (o : option xvalue) : xvalue :=
  match o with None => v | Some (XList l) => XList (l ++ [v]) | Some w => XList [w; v] end.
Lemma eqb_refl_str s : str_eqb s s = true.
Proof. now apply str_eqb_eq. Qed.
Lemma eqb_neq_str s t : s <> t -> str_eqb s t = false.
Proof. intros H. destruct (str_eqb s t) eqn:E; [apply str_eqb_eq in E; contradiction|reflexivity]. Qed.
Lemma push_lookup_same d k v : dict_lookup (push_data d k v) k = Some (put v (dict_lookup d k)).
Proof.
  induction d as [|[k' w] d IH]; cbn [push_data dict_lookup]; [now rewrite eqb_refl_str|]. destruct (str_eqb k' k) eqn:E; cbn [dict_lookup]; rewrite E; [|exact IH]. destruct w; reflexivity.
Qed.
Lemma push_lookup_other d k k' v : k <> k' -> dict_lookup (push_data d k v) k' = dict_lookup d k'.
Proof.
  intros N0. induction d as [|[k0 w] d IH]; cbn [push_data dict_lookup]; [now rewrite eqb_neq_str|]. destruct (str_eqb k0 k) eqn:E; cbn [dict_lookup]; [|now rewrite IH].
  apply str_eqb_eq in E. subst k0. now rewrite (eqb_neq_str k k' N0).
Qed.
Lemma push_keys d k v x : In x (map fst (push_data d k v)) <-> x = k \/ In x (map fst d).
Proof.
  induction d as [|[k0 w] d IH]; cbn [push_data map fst In]; [intuition|]. destruct (str_eqb k0 k) eqn:E; cbn [map fst In]; [apply str_eqb_eq in E; subst; intuition|]. rewrite IH. intuition.
Qed.
Lemma push_other_pairs d k v x y : x <> k -> In (x, y) (push_data d k v) <-> In (x, y) d.
Proof.
  intros N0. induction d as [|[k0 w] d IH]; cbn [push_data In]; [intuition congruence|]. destruct (str_eqb k0 k) eqn:E; cbn [In].
  - apply str_eqb_eq in E. subst k0. split; (intros [H|H]; [|auto]); injection H as H _; congruence.
  - rewrite IH. reflexivity.
Qed.
Lemma push_not_nil d k v : push_data d k v <> [].
Proof. destruct d as [|[k0 w] d]; cbn; [discriminate|]. destruct (str_eqb k0 k); discriminate. Qed.
Lemma lookup_none d k : dict_lookup d k = None <-> ~ In k (map fst d).
Proof.
  induction d as [|[k0 w] d IH]; cbn [dict_lookup map fst In]; [intuition|]. destruct (str_eqb k0 k) eqn:E; [apply str_eqb_eq in E; subst; split; [discriminate|intros H; exfalso; auto]|].
  rewrite IH. split; [intros H [K|K]; [subst; rewrite eqb_refl_str in E; discriminate|auto]|auto].
Qed.
Lemma lookup_map d (f : xvalue -> xvalue) k : dict_lookup (map (fun kv => (fst kv, f (snd kv))) d) k = option_map f (dict_lookup d k).
Proof. induction d as [|[k0 w] d IH]; cbn; [reflexivity|]. destruct (str_eqb k0 k); [reflexivity|exact IH]. Qed.
Lemma lookup_filter d name k : k <> name -> dict_lookup (filter (fun kv => negb (str_eqb (fst kv) name)) d) k = dict_lookup d k.
Proof.
  intros N0. induction d as [|[k0 w] d IH]; cbn [filter fst dict_lookup]; [reflexivity|]. destruct (str_eqb k0 name) eqn:E; cbn [negb dict_lookup].
  - apply str_eqb_eq in E. subst k0. rewrite (eqb_neq_str name k) by congruence. exact IH.
  - now rewrite IH.
Qed.

(** ** the dictionary of an element *)
Definition push_child (d : list (pystr * xvalue)) (c : element) : list (pystr * xvalue) := push_data d (el_tag c) (value_of c).
Definition attribute_items (l : list (pystr * pystr)) : list (pystr * xvalue) := map (fun kv => (u "@" ++ fst kv, XStr (snd kv))) l.
Lemma value_of_eq n l t cs : value_of (Element n l t cs)
  = let d := fold_left push_child cs (attribute_items l) in
    match d, text_data t with
    | [], None => XNone
    | [], Some t => XStr t
    | _, None => XDict d
    | _, Some t => XDict (push_data d (u "#text") (XStr t))
    end.
Proof. reflexivity. Qed.
Lemma value_no_list e : forall l, value_of e <> XList l.
Proof. destruct e as [n l t cs]. intros x. rewrite value_of_eq. cbv zeta. destruct (fold_left push_child cs (attribute_items l)), (text_data t); discriminate. Qed.
(** what the children with a tag make together *)
Definition group_value (vs : list xvalue) : option xvalue := match vs with [] => None | [v] => Some v | _ => Some (XList vs) end.
Lemma children_lookup cs k : forall d, dict_lookup d k = None -> dict_lookup (fold_left push_child cs d) k = group_value (map value_of (children_named k cs)).
Proof.
  intros d D. induction cs as [|c cs IH] using rev_ind; [exact D|]. rewrite fold_left_app. cbn [fold_left]. unfold push_child at 1. unfold children_named in *. rewrite filter_app, map_app. cbn [filter].
  destruct (str_eqb (el_tag c) k) eqn:E.
  - apply str_eqb_eq in E. subst k. rewrite push_lookup_same. rewrite IH. cbn [map].
    destruct (map value_of (filter (fun c0 => str_eqb (el_tag c0) (el_tag c)) cs)) as [|v [|w r]] eqn:M0; cbn [group_value put app]; [reflexivity| |reflexivity].
    assert (NL : forall l, v <> XList l). { intros l ->. assert (I : In (XList l) (map value_of (filter (fun c0 => str_eqb (el_tag c0) (el_tag c)) cs))) by (rewrite M0; now left). apply in_map_iff in I as (x & I & _). exact (value_no_list x l I). }
    destruct v; try reflexivity. exfalso. now apply (NL l).
  - cbn [map]. rewrite app_nil_r. rewrite push_lookup_other; [exact IH|]. intros K. rewrite K, eqb_refl_str in E. discriminate.
Qed.
Lemma children_keys cs : forall d x, In x (map fst (fold_left push_child cs d)) <-> In x (map el_tag cs) \/ In x (map fst d).
Proof.
  induction cs as [|c cs IH]; intros d x; cbn [fold_left map In]; [intuition|]. rewrite IH. unfold push_child at 1. rewrite push_keys. intuition.
Qed.
Lemma children_pairs cs k v : ~ In k (map el_tag cs) -> forall d, In (k, v) (fold_left push_child cs d) <-> In (k, v) d.
Proof.
  induction cs as [|c cs IH]; intros N0 d; cbn [fold_left]; [reflexivity|]. cbn [map In] in N0. rewrite IH by tauto. unfold push_child. apply push_other_pairs. intros ->. tauto.
Qed.
Lemma fold_not_nil cs d : cs <> [] \/ d <> [] -> fold_left push_child cs d <> [].
Proof.
  revert d. induction cs as [|c cs IH]; intros d H; cbn [fold_left]; [intuition|]. apply IH. right. apply push_not_nil.
Qed.
Lemma attribute_keys l x : In x (map fst (attribute_items l)) <-> exists k, In k (map fst l) /\ x = u "@" ++ k.
Proof.
  unfold attribute_items. rewrite map_map. cbn [fst]. rewrite in_map_iff. split.
  - intros (kv & <- & I). exists (fst kv). split; [now apply in_map|reflexivity].
  - intros (k & I & ->). apply in_map_iff in I as (kv & <- & I). now exists kv.
Qed.

Definition plain_name (k : pystr) : Prop := (forall r, k <> ch "@" :: r) /\ (forall r, k <> ch "#" :: r).
Definition plain_children (cs : list element) : Prop := forall c, In c cs -> plain_name (el_tag c).
(** what the dictionary [d] of an element holds *)
Definition describes (e : element) (d : list (pystr * xvalue)) : Prop :=
  (forall k, plain_name k -> dict_lookup d k = group_value (map value_of (children_named k (el_children e))))
  /\ (forall k, In k (map fst d) <-> (exists a, In a (map fst (el_attrib e)) /\ k = u "@" ++ a) \/ In k (map el_tag (el_children e)) \/ k = u "#text" /\ text_data (el_text e) <> None)
  /\ (forall k v, In (u "@" ++ k, v) d <-> exists x, v = XStr x /\ In (k, x) (el_attrib e)).
Lemma value_cases e : plain_children (el_children e) ->
  (exists d, value_of e = XDict d /\ describes e d /\ (el_attrib e <> [] \/ el_children e <> []))
  \/ el_attrib e = [] /\ el_children e = [] /\ value_of e = xopt (text_data (el_text e)).
Proof.
  destruct e as [n l t cs]. cbn [el_children el_attrib el_text]. intros P. rewrite value_of_eq. cbv zeta. set (d := fold_left push_child cs (attribute_items l)).
  assert (DL : forall k, plain_name k -> dict_lookup d k = group_value (map value_of (children_named k cs))).
  { intros k (N1 & N2). apply children_lookup. apply lookup_none. rewrite attribute_keys. intros (a & _ & ->). exact (N1 a eq_refl). }
  assert (DK : forall k, In k (map fst d) <-> (exists a, In a (map fst l) /\ k = u "@" ++ a) \/ In k (map el_tag cs)).
  { intros k. unfold d. rewrite children_keys, attribute_keys. tauto. }
  assert (DP : forall k v, In (u "@" ++ k, v) d <-> exists x, v = XStr x /\ In (k, x) l).
  { intros k v. unfold d. rewrite children_pairs.
    - unfold attribute_items. rewrite in_map_iff. split.
      + intros ([k0 x] & E & I). cbn [fst snd] in E. injection E as -> <-. now exists x.
      + intros (x & -> & I). exists (k, x). now split.
    - intros I. apply in_map_iff in I as (c & E & I). apply P in I as (N1 & _). exact (N1 k E). }
  assert (LD : l = [] \/ l <> []) by (destruct l; [now left|right; discriminate]). destruct LD as [-> |NL].
  - destruct cs as [|c cs].
    + right. split; [reflexivity|]. split; [reflexivity|]. unfold d. cbn. now destruct (text_data t).
    + left. assert (NE : d <> []) by (apply fold_not_nil; left; discriminate). destruct d as [|p d'] eqn:Dd; [congruence|]. rewrite <- Dd in *.
      destruct (text_data t) as [x|] eqn:T.
      * exists (push_data d (u "#text") (XStr x)). split; [rewrite Dd; reflexivity|]. split; [|right; discriminate]. split; [|split].
        -- intros k PN. rewrite push_lookup_other; [now apply DL|]. intros <-. destruct PN as (_ & PN). exact (PN _ eq_refl).
        -- intros k. rewrite push_keys, DK. cbn [el_attrib el_children el_text]. rewrite T. split; [intros [-> |H]; [right; right; split; [reflexivity|discriminate]|tauto]|tauto].
        -- intros k v. rewrite push_other_pairs by discriminate. apply DP.
      * exists d. split; [rewrite Dd; reflexivity|]. split; [|right; discriminate]. split; [exact DL|]. split; [|exact DP]. intros k. rewrite DK. cbn [el_attrib el_children el_text]. rewrite T. tauto.
  - left. assert (NE : d <> []) by (apply fold_not_nil; right; destruct l; [congruence|discriminate]). destruct d as [|p d'] eqn:Dd; [congruence|]. rewrite <- Dd in *.
      destruct (text_data t) as [x|] eqn:T.
      * exists (push_data d (u "#text") (XStr x)). split; [rewrite Dd; reflexivity|]. split; [|now left]. split; [|split].
        -- intros k PN. rewrite push_lookup_other; [now apply DL|]. intros <-. destruct PN as (_ & PN). exact (PN _ eq_refl).
        -- intros k. rewrite push_keys, DK. cbn [el_attrib el_children el_text]. rewrite T. split; [intros [-> |H]; [right; right; split; [reflexivity|discriminate]|tauto]|tauto].
        -- intros k v. rewrite push_other_pairs by discriminate. apply DP.
      * exists d. split; [rewrite Dd; reflexivity|]. split; [|now left]. split; [exact DL|]. split; [|exact DP]. intros k. rewrite DK. cbn [el_attrib el_children el_text]. rewrite T. tauto.
Qed.

(** ** children *)
Lemma named_only cs name c : only_child cs name c <-> children_named name cs = [c].
Proof.
  unfold only_child, children_named. split.
  - intros (a & b & -> & T & NI). rewrite filter_app. cbn [filter]. rewrite T, eqb_refl_str.
    assert (K : forall l, ~ In name (map el_tag l) -> filter (fun x => str_eqb (el_tag x) name) l = []).
    { clear. induction l as [|x l IH]; intros H; [reflexivity|]. cbn [filter]. cbn [map In] in H. rewrite eqb_neq_str by tauto. apply IH. tauto. }
    rewrite map_app, in_app_iff in NI. rewrite !K by tauto. reflexivity.
  - revert c. induction cs as [|x cs IH]; intros c H; [discriminate|]. cbn [filter] in H. destruct (str_eqb (el_tag x) name) eqn:E.
    + apply str_eqb_eq in E. injection H as -> H. exists [], cs. split; [reflexivity|]. split; [exact E|]. cbn [app]. intros I. apply in_map_iff in I as (y & T & I).
      assert (J : In y (filter (fun x => str_eqb (el_tag x) name) cs)) by (apply filter_In; split; [exact I|now apply str_eqb_eq]). rewrite H in J. destruct J.
    + destruct (IH c H) as (a & b & -> & T & NI). exists (x :: a), b. split; [reflexivity|]. split; [exact T|]. cbn [app map In]. intros [K|K]; [|now apply NI]. apply str_eqb_eq in K. congruence.
Qed.
Lemma named_none cs name : no_child cs name <-> children_named name cs = [].
Proof.
  unfold no_child, children_named. split.
  - induction cs as [|x cs IH]; intros H; [reflexivity|]. cbn [filter]. cbn [map In] in H. rewrite eqb_neq_str by tauto. apply IH. tauto.
  - intros H I. apply in_map_iff in I as (y & T & I). assert (J : In y (filter (fun x => str_eqb (el_tag x) name) cs)) by (apply filter_In; split; [exact I|now apply str_eqb_eq]). rewrite H in J. destruct J.
Qed.
Lemma tags_inv e : xml_tags e -> plain_name (el_tag e) /\ Forall xml_tags (el_children e).
Proof. intros [n l t cs H1 H2 H3]. now split. Qed.
Lemma tags_children e : xml_tags e -> plain_children (el_children e).
Proof. intros H c I. apply tags_inv in H as (_ & F). rewrite Forall_forall in F. now apply tags_inv, F. Qed.
Lemma named_in cs name c : In c (children_named name cs) -> In c cs.
Proof. intros H. now apply filter_In in H. Qed.

(** ** fields *)
Definition repl (v : xvalue) : xvalue := if is_nil v then XNone else v.
Lemma ends_spec s p : endswith s p = true <-> exists a, s = a ++ p.
Proof.
  unfold endswith. rewrite startswith_spec. split; intros (r & H).
  - exists (rev r). rewrite <- (rev_involutive s), H, rev_app_distr, rev_involutive. reflexivity.
  - exists (rev r). now rewrite H, rev_app_distr.
Qed.
Lemma is_nil_spec e d : describes e d -> is_nil (XDict d) = true <-> exists k a b, In (k, u "true") (el_attrib e) /\ k = u "ns" ++ a /\ k = b ++ u ":nil".
Proof.
  intros (_ & _ & DP). cbn [is_nil]. rewrite existsb_exists. split.
  - intros ([x v] & I & H). cbn [fst snd] in H. apply andb_true_iff in H as (H & T). apply andb_true_iff in H as (S1 & S2). apply startswith_spec in S1 as (r & ->). apply ends_spec in S2 as (b & E).
    change (u "@ns" ++ r) with (u "@" ++ (u "ns" ++ r)) in I, E. apply DP in I as (y & -> & I). apply str_eqb_eq in T. subst y.
    destruct b as [|c b]; [discriminate|]. injection E as _ E. now exists (u "ns" ++ r), r, b.
  - intros (k & a & b & I & E & E'). exists (u "@" ++ k, XStr (u "true")). split; [apply DP; now exists (u "true")|]. cbn [fst snd]. rewrite !andb_true_iff. split; [split|].
    + apply startswith_spec. exists a. now rewrite E.
    + apply ends_spec. exists (u "@" ++ b). now rewrite E'.
    + apply eqb_refl_str.
Qed.
Lemma field_spec c o : xml_tags c -> (text_argument (repl (value_of c)) = Ok o <-> field_element c o).
Proof.
  intros X. destruct (value_cases c (tags_children c X)) as [(d & V & D & NE)|(A & C & V)]; rewrite V; unfold repl.
  - pose proof (is_nil_spec c d D) as NI. destruct (is_nil (XDict d)).
    + cbn [text_argument]. destruct (proj1 NI eq_refl) as (k & a & b & I & E & E'). split.
      * intros H. injection H as <-. now apply (nil_field c k a b).
      * intros H. inversion H; subst; [reflexivity|]. cbn [el_attrib el_children] in NE. destruct NE; congruence.
    + split; [discriminate|]. intros H. inversion H as [e k' a' b' I E E'|]; subst.
      * exfalso. assert (F : false = true) by (apply NI; exists (u "ns" ++ a'), a', b'; auto). discriminate F.
      * cbn [el_attrib el_children] in NE. destruct NE; congruence.
  - assert (NI : is_nil (xopt (text_data (el_text c))) = false) by (destruct (text_data (el_text c)); reflexivity). rewrite NI, text_argument_xopt. destruct c as [n l t cs]. cbn [el_attrib el_children el_text] in *. subst l cs. split.
    + intros H. injection H as <-. apply text_field. apply text_data_spec.
    + intros H. f_equal. inversion H as [? k a b I|? ? ? CB]; subst; [destruct I|]. exact (comes_back_unique t _ _ (text_data_spec t) CB).
Qed.
(** the text of a keyword argument *)
Definition required_text (d : list (pystr * xvalue)) (name : pystr) : result (option pystr) := let* v := keyword d name in text_argument v.
Definition optional_text (d : list (pystr * xvalue)) (name : pystr) : result (option pystr) := text_argument (keyword_or_none d name).
Lemma required_spec cs d name o : Forall xml_tags cs -> dict_lookup d name = option_map repl (group_value (map value_of (children_named name cs))) ->
  (required_text d name = Ok o <-> required_field cs name o).
Proof.
  intros X L. unfold required_text, keyword, required_field. rewrite L. destruct (children_named name cs) as [|c [|c2 r]] eqn:E; cbn [map group_value option_map bind].
  - split; [discriminate|]. intros (c & K & _). apply named_only in K. congruence.
  - assert (Xc : xml_tags c) by (rewrite Forall_forall in X; apply X, (named_in cs name); rewrite E; now left). rewrite (field_spec c o Xc). split.
    + intros F. exists c. split; [now apply named_only|exact F].
    + intros (c' & K & F). apply named_only in K. congruence.
  - split; [discriminate|]. intros (c' & K & _). apply named_only in K. congruence.
Qed.
Lemma optional_spec cs d name o : Forall xml_tags cs -> dict_lookup d name = option_map repl (group_value (map value_of (children_named name cs))) ->
  (optional_text d name = Ok o <-> optional_field cs name o).
Proof.
  intros X L. pose proof (required_spec cs d name o X L) as R. unfold optional_field. rewrite <- R, named_none. unfold required_text, optional_text, keyword, keyword_or_none. rewrite L.
  destruct (children_named name cs) as [|c [|c2 r]] eqn:E; cbn [map group_value option_map bind text_argument].
  - split; [intros H; right; split; [reflexivity|congruence]|intros [H|(_ & ->)]; [discriminate|reflexivity]].
  - split; [auto|]. intros [H|(H & _)]; [exact H|discriminate].
  - split; [auto|]. intros [H|(H & _)]; [exact H|discriminate].
Qed.
Lemma keywords_spec d names x : only_keywords names d = Ok x <-> forall k, In k (map fst d) -> In k names.
Proof.
  unfold only_keywords. rewrite check_ok, forallb_forall. split.
  - intros H k I. apply in_map_iff in I as (kv & <- & I). now apply str_in_In, H.
  - intros H kv I. apply str_in_In, H. now apply in_map.
Qed.
Definition sanitized (d : list (pystr * xvalue)) : list (pystr * xvalue) := map (fun kv => (fst kv, repl (snd kv))) d.
Lemma sanitized_keys d : map fst (sanitized d) = map fst d.
Proof. unfold sanitized. rewrite map_map. reflexivity. Qed.
Lemma sanitized_lookup d k : dict_lookup (sanitized d) k = option_map repl (dict_lookup d k).
Proof. apply lookup_map. Qed.
Lemma text_none t : text_data t = None <-> comes_back_as t None.
Proof. split; [intros H; rewrite <- H; apply text_data_spec|]. intros H. exact (comes_back_unique t _ _ (text_data_spec t) H). Qed.
(** the keys of a dictionary are some of these names *)
Lemma only_children_spec e d names : describes e d -> (forall n, In n names -> plain_name n) ->
  ((forall k, In k (map fst d) -> In k names) <-> only_children e names).
Proof.
  intros (_ & DK & _) P. unfold only_children. rewrite <- text_none. split.
  - intros H. split; [|split].
    + destruct (el_attrib e) as [|[a x] l] eqn:E; [reflexivity|]. exfalso. assert (I : In (u "@" ++ a) names) by (apply H, DK; left; exists a; split; [now left|reflexivity]). destruct (P _ I) as (N0 & _). exact (N0 a eq_refl).
    + destruct (text_data (el_text e)) eqn:T; [|reflexivity]. exfalso. assert (I : In (u "#text") names) by (apply H, DK; right; right; split; [reflexivity|discriminate]). destruct (P _ I) as (_ & N0). exact (N0 _ eq_refl).
    + intros c I. apply H, DK. right. left. now apply in_map.
  - intros (A & T & C) k I. apply DK in I as [(a & I & _)|[I|(_ & I)]].
    + rewrite A in I. destruct I.
    + apply in_map_iff in I as (c & <- & I). now apply C.
    + congruence.
Qed.
Ltac plain := split; intros ? K; discriminate K.
Lemma plain_names n : In n [u "segment_group_key"; u "opening_segment_code"; u "opening_qualifier"; u "ahbLocationLayer"; u "layers"; u "segment_code"; u "data_element_id"; u "qualifier"; u "ahbLocation"; u "ahbLocations"] -> plain_name n.
Proof. intros H. cbn [In] in H. repeat (destruct H as [<-|H]; [plain|]). destruct H. Qed.

Lemma layer_spec c y : xml_tags c -> (dict_to_layer (value_of c) = Ok y <-> layer_element c y).
Proof.
  intros X. assert (Xc := X). apply tags_inv in Xc as (_ & Xc). unfold dict_to_layer, replace_nil_element_with_none, layer_element.
  destruct (value_cases c (tags_children c X)) as [(d & V & D & NE)|(A & C & V)]; rewrite V.
  - cbn [items bind]. change (map _ d) with (sanitized d).
    assert (L : forall n, plain_name n -> dict_lookup (sanitized d) n = option_map repl (group_value (map value_of (children_named n (el_children c))))) by (intros n P; rewrite sanitized_lookup; f_equal; now apply D).
    assert (OC : only_keywords [u "segment_group_key"; u "opening_segment_code"; u "opening_qualifier"] (sanitized d) = Ok tt <-> only_children c [u "segment_group_key"; u "opening_segment_code"; u "opening_qualifier"]).
    { rewrite keywords_spec, sanitized_keys. apply only_children_spec; [exact D|]. intros n I. apply plain_names. cbn [In] in *. tauto. }
    assert (R1 := fun o => required_spec _ _ (u "segment_group_key") o Xc (L (u "segment_group_key") ltac:(plain))). assert (R2 := fun o => required_spec _ _ (u "opening_segment_code") o Xc (L (u "opening_segment_code") ltac:(plain))). assert (R3 := fun o => required_spec _ _ (u "opening_qualifier") o Xc (L (u "opening_qualifier") ltac:(plain))).
    rewrite <- OC. rewrite bind_ok. split.
    + intros ([] & K & H). apply bind_ok in H as (vk & I1 & H). apply bind_ok in H as (vo & I2 & H). apply bind_ok in H as (vq & I3 & H). apply layer_from_ok in H as (k & o & q & J1 & J2 & J3 & H).
      assert (H1 : required_text (sanitized d) (u "segment_group_key") = Ok k) by (unfold required_text; now rewrite I1). assert (H2 : required_text (sanitized d) (u "opening_segment_code") = Ok o) by (unfold required_text; now rewrite I2). assert (H3 : required_text (sanitized d) (u "opening_qualifier") = Ok q) by (unfold required_text; now rewrite I3).
      destruct o as [o|]; [|unfold new_Layer in H; apply bind_ok in H as (? & _ & H); discriminate].
      apply new_Layer_ok in H as (-> & VL). cbn [ly_key ly_opening ly_qualifier]. rewrite <- R1, <- R2, <- R3. split; [exact K|]. split; [exact H1|]. split; [exact H2|]. split; [exact H3|exact VL].
    + intros (K & H1 & H2 & H3 & VL). rewrite <- R1 in H1. rewrite <- R2 in H2. rewrite <- R3 in H3. exists tt. split; [exact K|]. apply bind_ok in H1 as (vk & -> & J1). apply bind_ok in H2 as (vo & -> & J2). apply bind_ok in H3 as (vq & -> & J3). cbn [bind]. rewrite (layer_from_texts _ _ _ _ _ _ J1 J2 J3). apply new_Layer_ok. split; [now destruct y|exact VL].
  - split; [destruct (text_data (el_text c)); discriminate|]. intros (_ & (x & K & _) & _). rewrite C in K. destruct K as ([|] & b & K & _); discriminate.
Qed.

(** ** locations *)
Lemma filter_keys d name k : In k (map fst (filter (fun kv : pystr * xvalue => negb (str_eqb (fst kv) name)) d)) <-> In k (map fst d) /\ k <> name.
Proof.
  rewrite !in_map_iff. split.
  - intros (kv & <- & I). apply filter_In in I as (I & N0). split; [now exists kv|]. intros E. rewrite E, eqb_refl_str in N0. discriminate.
  - intros ((kv & <- & I) & N0). exists kv. split; [reflexivity|]. apply filter_In. split; [exact I|]. now rewrite eqb_neq_str.
Qed.
Lemma group_some vs v : group_value vs = Some v -> (vs = [v] \/ exists a b r, vs = a :: b :: r /\ v = XList vs).
Proof. destruct vs as [|a [|b r]]; cbn [group_value]; [discriminate| |]; intros H; injection H as <-; [now left|right; eauto]. Qed.
Lemma layers_spec xs ys : Forall xml_tags xs -> (mapM dict_to_layer (map value_of xs) = Ok ys <-> Forall2 layer_element xs ys).
Proof.
  intros X. rewrite mapM_ok. revert ys. induction X as [|x xs Hx X IH]; intros ys; cbn [map].
  - split; intros H; inversion H; constructor.
  - split; intros H; inversion H as [|? ? ? ? H1 H2]; subst; (constructor; [now apply layer_spec|now apply IH]).
Qed.
Lemma location_spec e l : xml_tags e -> (xml_dict_to_location (value_of e) = Ok l <-> location_content e l).
Proof.
  intros X. assert (Xc := X). apply tags_inv in Xc as (_ & Xc). unfold xml_dict_to_location, location_content.
  destruct (value_cases e (tags_children e X)) as [(d & V & D & NE)|(A & C & V)]; rewrite V.
  2:{ split; [destruct (text_data (el_text e)); discriminate|]. intros (_ & (x & K & _) & _). rewrite C in K. destruct K as ([|] & b & K & _); discriminate. }
  assert (LL : dict_lookup d (u "layers") = group_value (map value_of (children_named (u "layers") (el_children e)))) by (apply D, plain_names; cbn; auto 20).
  set (left := filter (fun kv : pystr * xvalue => negb (str_eqb (fst kv) (u "layers"))) d).
  assert (L : forall n, plain_name n -> n <> u "layers" -> dict_lookup (sanitized left) n = option_map repl (group_value (map value_of (children_named n (el_children e))))).
  { intros n P N0. rewrite sanitized_lookup. f_equal. unfold left. rewrite lookup_filter by exact N0. now apply D. }
  assert (OC : only_keywords [u "segment_code"; u "data_element_id"; u "qualifier"] (sanitized left) = Ok tt <-> only_children e [u "layers"; u "segment_code"; u "data_element_id"; u "qualifier"]).
  { rewrite keywords_spec, sanitized_keys. rewrite <- (only_children_spec e d); [|exact D|intros n I; apply plain_names; cbn [In] in *; tauto]. unfold left. split.
    - intros H k I. destruct (str_dec k (u "layers")) as [-> |N0]; [now left|]. right. apply H, filter_keys. now split.
    - intros H k I. apply filter_keys in I as (I & N0). destruct (H k I) as [K|K]; [congruence|exact K]. }
  assert (R1 := fun o => optional_spec _ _ (u "segment_code") o Xc (L (u "segment_code") ltac:(plain) ltac:(discriminate))).
  assert (R2 := fun o => optional_spec _ _ (u "data_element_id") o Xc (L (u "data_element_id") ltac:(plain) ltac:(discriminate))).
  assert (R3 := fun o => optional_spec _ _ (u "qualifier") o Xc (L (u "qualifier") ltac:(plain) ltac:(discriminate))).
  assert (TL : forall ys, (let* layers := subscript (XDict d) (u "layers") in let* layer_dicts := subscript layers (u "ahbLocationLayer") in let* layer_dicts := iterate layer_dicts in mapM dict_to_layer layer_dicts) = Ok ys
               <-> exists ls, only_child (el_children e) (u "layers") ls /\ (let layers := children_named (u "ahbLocationLayer") (el_children ls) in 2 <= List.length layers /\ Forall2 layer_element layers ys)).
  { intros ys. cbn [subscript]. rewrite LL. split.
    - intros H. apply bind_ok in H as (v & H1 & H). destruct (group_value _) as [v'|] eqn:G; [|discriminate]. injection H1 as ->. apply group_some in G as [G|(a & b & r & _ & ->)]; [|discriminate].
      destruct (children_named (u "layers") (el_children e)) as [|ls [|]] eqn:CN; try discriminate. injection G as <-. exists ls. split; [now apply named_only|]. cbv zeta.
      assert (Xl : xml_tags ls) by (rewrite Forall_forall in Xc; apply Xc, (named_in _ (u "layers")); rewrite CN; now left).
      apply bind_ok in H as (w & H2 & H). apply bind_ok in H as (it & H3 & H).
      destruct (value_cases ls (tags_children ls Xl)) as [(d2 & V2 & D2 & _)|(_ & _ & V2)]; rewrite V2 in H2; [|destruct (text_data (el_text ls)); discriminate]. cbn [subscript] in H2.
      assert (L2 : dict_lookup d2 (u "ahbLocationLayer") = group_value (map value_of (children_named (u "ahbLocationLayer") (el_children ls)))) by (apply D2, plain_names; cbn; auto 20).
      rewrite L2 in H2. destruct (group_value _) as [w'|] eqn:G; [|discriminate]. injection H2 as ->.
      assert (XX : Forall xml_tags (children_named (u "ahbLocationLayer") (el_children ls))) by (apply tags_inv in Xl as (_ & Xl); rewrite Forall_forall in *; intros x I; apply Xl; now apply named_in in I).
      apply group_some in G as [G|(a & b & r & G & ->)].
      + exfalso. destruct (children_named (u "ahbLocationLayer") (el_children ls)) as [|x [|]]; try discriminate. injection G as <-. inversion XX as [|? ? Xx _]; subst.
        destruct (value_cases x (tags_children x Xx)) as [(d3 & V3 & D3 & NE3)|(_ & _ & V3)]; rewrite V3 in H3.
        * cbn [iterate] in H3. injection H3 as <-. destruct d3 as [|[k0 v0] d3]; [|cbn in H; discriminate].
          destruct D3 as (_ & DK & _). destruct NE3 as [NE3|NE3].
          -- destruct (el_attrib x) as [|[a0 x0] l0]; [congruence|]. destruct (proj2 (DK (u "@" ++ a0))). left. exists a0. split; [now left|reflexivity].
          -- destruct (el_children x) as [|c0 l0]; [congruence|]. destruct (proj2 (DK (el_tag c0))). right. left. now left.
        * destruct (text_data (el_text x)) as [[|c0 t0]|] eqn:T; cbn [xopt iterate] in H3; [|injection H3 as <-; cbn in H; discriminate|discriminate].
          pose proof (text_data_spec (el_text x)) as CB. rewrite T in CB. inversion CB; congruence.
      + cbn [iterate] in H3. injection H3 as <-. split.
        * apply (f_equal (@List.length xvalue)) in G. rewrite map_length in G. rewrite G. cbn [List.length]. lia.
        * now apply layers_spec.
    - intros (ls & OC1 & LE & F). apply named_only in OC1. rewrite OC1. cbn [map group_value bind].
      assert (Xl : xml_tags ls) by (rewrite Forall_forall in Xc; apply Xc, (named_in _ (u "layers")); rewrite OC1; now left).
      assert (XX : Forall xml_tags (children_named (u "ahbLocationLayer") (el_children ls))) by (apply tags_inv in Xl as (_ & Xl); rewrite Forall_forall in *; intros x I; apply Xl; now apply named_in in I).
      destruct (value_cases ls (tags_children ls Xl)) as [(d2 & V2 & D2 & _)|(_ & C2 & _)]; [|rewrite C2 in LE; cbn in LE; lia]. rewrite V2. cbn [subscript].
      assert (L2 : dict_lookup d2 (u "ahbLocationLayer") = group_value (map value_of (children_named (u "ahbLocationLayer") (el_children ls)))) by (apply D2, plain_names; cbn; auto 20).
      rewrite L2. apply layers_spec in F; [|exact XX]. destruct (children_named (u "ahbLocationLayer") (el_children ls)) as [|a [|b r]]; cbn [List.length] in LE; try lia. cbn [map group_value bind iterate] in *. exact F. }
  rewrite <- OC. split.
  - intros H. apply bind_ok in H as (lv & H1 & H). apply bind_ok in H as (lds & H2 & H). apply bind_ok in H as (it & H3 & H). apply bind_ok in H as (ys & H4 & H).
    assert (TY : exists ls, only_child (el_children e) (u "layers") ls /\ (let layers := children_named (u "ahbLocationLayer") (el_children ls) in 2 <= List.length layers /\ Forall2 layer_element layers ys)) by (apply TL; rewrite H1; cbn [bind]; rewrite H2; cbn [bind]; rewrite H3; exact H4).
    cbn [items bind] in H. fold left in H. unfold replace_nil_element_with_none in H. cbn [items bind] in H. change (map _ left) with (sanitized left) in H.
    apply bind_ok in H as ([] & K & H). apply location_from_ok in H as (s & de & q & S1 & S2 & S3 & H). apply new_Location_ok in H as (-> & VL). cbn [lo_layers lo_segment lo_element lo_qualifier].
    rewrite <- R1, <- R2, <- R3. split; [exact K|]. split; [exact TY|]. split; [exact S1|]. split; [exact S2|]. split; [exact S3|].
    split; [reflexivity|]. cbn [lo_layers lo_segment lo_element]. destruct VL as (V1 & V2 & V3). split; [exact V1|]. split; [|now split]. destruct TY as (ls & _ & _ & F). clear -F. induction F as [|x y xs ys (_ & _ & _ & _ & Y) F IH]; constructor; assumption.
  - intros (K & TY & S1 & S2 & S3 & VL). apply TL in TY. apply bind_ok in TY as (lv & H1 & TY). apply bind_ok in TY as (lds & H2 & TY). apply bind_ok in TY as (it & H3 & TY). rewrite H1. cbn [bind]. rewrite H2. cbn [bind]. rewrite H3. cbn [bind]. rewrite TY. cbn [bind items].
    fold left. unfold replace_nil_element_with_none. cbn [items bind]. change (map _ left) with (sanitized left). rewrite K. cbn [bind]. rewrite <- R1 in S1. rewrite <- R2 in S2. rewrite <- R3 in S3. rewrite (location_from_texts _ _ _ _ _ _ _ S1 S2 S3).
    apply new_Location_ok. destruct VL as (P & V1 & _ & V2 & V3). split; [destruct l; cbn in *; now subst|]. split; [exact V1|now split].
Qed.

Lemma element_spec e l : xml_tags e -> (from_xml_element e = Ok l <-> location_element e l).
Proof.
  intros X. unfold from_xml_element, parse, location_element. cbn [subscript dict_lookup]. rewrite <- (location_spec e l X). destruct (str_eqb (el_tag e) (u "ahbLocation")) eqn:E; cbn [bind].
  - apply str_eqb_eq in E. tauto.
  - split; [discriminate|]. intros (K & _). rewrite K, eqb_refl_str in E. discriminate.
Qed.
Lemma contents_spec xs ls : Forall xml_tags xs -> (mapM xml_dict_to_location (map value_of xs) = Ok ls <-> Forall2 location_content xs ls).
Proof.
  intros X. rewrite mapM_ok. revert ls. induction X as [|x xs Hx X IH]; intros ls; cbn [map].
  - split; intros H; inversion H; constructor.
  - split; intros H; inversion H as [|? ? ? ? H1 H2]; subst; (constructor; [now apply location_spec|now apply IH]).
Qed.
Lemma content_dict e l : xml_tags e -> location_content e l -> exists d, value_of e = XDict d.
Proof.
  intros X H. apply location_spec in H; [|exact X]. unfold xml_dict_to_location in H. apply bind_ok in H as (v & H & _). destruct (value_of e); try discriminate. eauto.
Qed.
Lemma elements_spec e ls : xml_tags e -> (from_xml_elements e = Ok ls <-> locations_element e ls).
Proof.
  intros X. assert (Xc := X). apply tags_inv in Xc as (_ & Xc). unfold from_xml_elements, parse, locations_element. cbn [subscript dict_lookup]. destruct (str_eqb (el_tag e) (u "ahbLocations")) eqn:E; cbn [bind].
  2:{ split; [discriminate|]. intros (K & _). rewrite K, eqb_refl_str in E. discriminate. }
  apply str_eqb_eq in E. cbv zeta.
  assert (XX : Forall xml_tags (children_named (u "ahbLocation") (el_children e))) by (rewrite Forall_forall in *; intros x I; apply Xc; now apply named_in in I).
  destruct (value_cases e (tags_children e X)) as [(d & V & D & NE)|(A & C & V)]; rewrite V; cbn [subscript].
  2:{ split; [destruct (text_data (el_text e)); discriminate|]. intros (_ & K & _). rewrite C in K. now destruct K. }
  assert (L : dict_lookup d (u "ahbLocation") = group_value (map value_of (children_named (u "ahbLocation") (el_children e)))) by (apply D, plain_names; cbn; auto 20).
  rewrite L. set (xs := children_named (u "ahbLocation") (el_children e)) in *. destruct xs as [|x [|x2 rest]] eqn:Q; cbn [map group_value bind].
  - split; [discriminate|]. intros (_ & K & _). now destruct K.
  - inversion XX as [|? ? Xx _]; subst. split.
    + intros H. split; [exact E|]. split; [discriminate|]. destruct (value_of x) eqn:Vx; try discriminate; [exfalso; exact (value_no_list x _ Vx)|].
      rewrite <- Vx in H. apply bind_ok in H as (l & H & K). injection K as <-. constructor; [|constructor]. now apply location_spec.
    + intros (_ & _ & F). inversion F as [|? l ? ls' H F']; subst. inversion F'; subst. destruct (content_dict x l Xx H) as (d' & Vx). rewrite Vx. rewrite <- Vx. apply location_spec in H; [|exact Xx]. now rewrite H.
  - split.
    + intros H. split; [exact E|]. split; [discriminate|]. now apply (contents_spec (x :: x2 :: rest)).
    + intros (_ & _ & F). now apply (contents_spec (x :: x2 :: rest)) in F.
Qed.

(** ** errors *)
Definition location_error (x : exn) : Prop := In x [KeyError; TypeError; AttributeError; ValueError].
Ltac err := unfold location_error; cbn [In]; auto 10.
Lemma bind_raise {A B} (r : result A) (f : A -> result B) x : bind r f = Raise x -> r = Raise x \/ exists a, r = Ok a /\ f a = Raise x.
Proof. destruct r as [a|e]; cbn [bind]; intros H; [right; now exists a|left; congruence]. Qed.
Lemma mapM_raise {A B} (f : A -> result B) l x : mapM f l = Raise x -> exists a, In a l /\ f a = Raise x.
Proof.
  induction l as [|a l IH]; cbn [mapM]; [discriminate|]. intros H. apply bind_raise in H as [H|(b & _ & H)]; [exists a; split; [now left|exact H]|].
  apply bind_raise in H as [H|(bs & _ & H)]; [|discriminate]. destruct (IH H) as (a' & I & F). exists a'. split; [now right|exact F].
Qed.
Lemma subscript_error v k x : subscript v k = Raise x -> location_error x.
Proof. destruct v as [| | |d]; cbn [subscript]; try (intros [= <-]; err). destruct (dict_lookup d k); [discriminate|intros [= <-]; err]. Qed.
Lemma keyword_error d k x : keyword d k = Raise x -> location_error x.
Proof. unfold keyword. destruct (dict_lookup d k); [discriminate|]. intros [= <-]. err. Qed.
Lemma argument_error v x : text_argument v = Raise x -> location_error x.
Proof. destruct v; try discriminate; intros [= <-]; err. Qed.
Lemma optional_error r o x : check_optional (check_re r) o = Raise x -> location_error x.
Proof. destruct o as [o|]; [|discriminate]. cbn. intros H. apply check_re_raise in H as ->. err. Qed.
Lemma replace_error v x : replace_nil_element_with_none v = Raise x -> location_error x.
Proof. unfold replace_nil_element_with_none. destruct v; try discriminate; intros [= <-]; err. Qed.
Lemma only_error n d x : only_keywords n d = Raise x -> location_error x.
Proof. intros H. apply check_raise in H as (_ & <-). err. Qed.
Lemma layer_error v x : dict_to_layer v = Raise x -> location_error x.
Proof.
  unfold dict_to_layer. intros H. apply bind_raise in H as [H|(d & _ & H)]; [exact (replace_error _ _ H)|]. apply bind_raise in H as [H|([] & _ & H)]; [exact (only_error _ _ _ H)|].
  apply bind_raise in H as [H|(k & _ & H)]; [exact (keyword_error _ _ _ H)|]. apply bind_raise in H as [H|(o & _ & H)]; [exact (keyword_error _ _ _ H)|]. apply bind_raise in H as [H|(q & _ & H)]; [exact (keyword_error _ _ _ H)|].
  unfold new_Layer_from in H. apply bind_raise in H as [H|(k' & _ & H)]; [exact (argument_error _ _ H)|]. apply bind_raise in H as [H|(? & _ & H)]; [exact (optional_error _ _ _ H)|].
  apply bind_raise in H as [H|(o' & _ & H)]; [exact (argument_error _ _ H)|]. apply bind_raise in H as [H|(? & _ & H)]; [destruct o'; [discriminate|]; injection H as <-; err|]. apply bind_raise in H as [H|(? & _ & H)]; [apply check_re_raise in H as ->; err|].
  apply bind_raise in H as [H|(q' & _ & H)]; [exact (argument_error _ _ H)|]. apply bind_raise in H as [H|(? & _ & H)]; [exact (optional_error _ _ _ H)|discriminate].
Qed.
Lemma dict_error v x : xml_dict_to_location v = Raise x -> location_error x.
Proof.
  unfold xml_dict_to_location. intros H. apply bind_raise in H as [H|(l1 & _ & H)]; [exact (subscript_error _ _ _ H)|]. apply bind_raise in H as [H|(l2 & _ & H)]; [exact (subscript_error _ _ _ H)|].
  apply bind_raise in H as [H|(l3 & _ & H)]; [destruct l2; try discriminate; injection H as <-; err|]. apply bind_raise in H as [H|(l4 & _ & H)]; [apply mapM_raise in H as (a & _ & H); exact (layer_error _ _ H)|].
  apply bind_raise in H as [H|(d & _ & H)]; [destruct v; try discriminate; injection H as <-; err|]. cbv zeta in H. apply bind_raise in H as [H|(d' & _ & H)]; [exact (replace_error _ _ H)|].
  apply bind_raise in H as [H|([] & _ & H)]; [exact (only_error _ _ _ H)|]. unfold new_Location_from in H. apply bind_raise in H as [H|(? & _ & H)]; [apply check_raise in H as (_ & <-); err|].
  apply bind_raise in H as [H|(? & _ & H)]; [exact (argument_error _ _ H)|]. apply bind_raise in H as [H|(? & _ & H)]; [exact (optional_error _ _ _ H)|].
  apply bind_raise in H as [H|(? & _ & H)]; [exact (argument_error _ _ H)|]. apply bind_raise in H as [H|(? & _ & H)]; [exact (optional_error _ _ _ H)|].
  apply bind_raise in H as [H|(? & _ & H)]; [exact (argument_error _ _ H)|discriminate].
Qed.
