(** What loading a JSON value yields. *)
From Coq Require Import Ascii String List NArith ZArith Bool Lia.
From Verif Require Import PyBase PyStr PyRe M_Components M_Ahb M_Sgh M_Schema
  S_Text S_Numbers S_FlatAhb S_ValuePool S_DeepAhb S_Json L_Base L_Str L_Validators L_FlatAhb L_ValuePool L_Numbers L_Uuid L_Json.
Import ListNotations.
Local Open Scope list_scope.

Lemma get_with_dict {A} (f : json -> A) m k o :
  get_with f m k o = match dict_get k o with Some v => f v | None => m end.
Proof. induction o as [|[k' v] o IH]; [reflexivity|]. cbn [get_with dict_get]. destruct (str_eqb k k'); auto. Qed.
Lemma only_known_spec names o : only_known names o = Ok tt <-> only_keys names o.
Proof.
  unfold only_known, only_keys. rewrite check_ok, forallb_forall. split.
  - intros H k Hk. apply in_map_iff in Hk as (kv & <- & Hk). apply str_in_In, H, Hk.
  - intros H kv Hkv. apply str_in_In, H, in_map, Hkv.
Qed.
Lemma load_str_ok j s : load_str j = Ok s <-> j = JStr s.
Proof. destruct j; cbn; split; congruence. Qed.
Lemma nonnull_ok {A} (f : json -> result A) j x : (f JNull <> Ok x) -> nonnull f j = Ok x <-> f j = Ok x.
Proof. intros H. destruct j; cbn [nonnull]; try reflexivity. split; [discriminate|congruence]. Qed.

Lemma required_str_ok k o s : required load_str k o = Ok s <-> text o k s.
Proof.
  unfold required, text, field. rewrite get_with_dict. destruct (dict_get k o) as [v|]; [|split; discriminate].
  rewrite nonnull_ok by discriminate. rewrite load_str_ok. split; congruence.
Qed.
Lemma required_nullable_str_ok k o v : required_nullable load_str k o = Ok v <-> text_or_null o k v.
Proof.
  unfold required_nullable, text_or_null, text, field. rewrite get_with_dict. destruct (dict_get k o) as [j|].
  - destruct j, v; cbn; split; congruence.
  - destruct v; split; discriminate.
Qed.
Lemma default_none_str_ok k o v : default_none load_str k o = Ok v <-> text_or_nothing o k v.
Proof.
  unfold default_none, text_or_nothing, text, nothing, field. rewrite get_with_dict. destruct (dict_get k o) as [j|].
  - destruct j, v; cbn; split; try congruence; try (intros [|]; congruence); auto.
  - destruct v; split; try discriminate; auto.
Qed.
Lemma optional_nullable_str_ok k o x : optional_nullable load_str k o = Ok x
  <-> match x with None => dict_get k o = None | Some v => text_or_null o k v end.
Proof.
  unfold optional_nullable, text_or_null, text, field. rewrite get_with_dict. destruct (dict_get k o) as [j|].
  - destruct j, x as [[?|]|]; cbn; split; congruence.
  - destruct x as [[s|]|]; cbn; split; congruence.
Qed.
Lemma optional_nullable_or_default k o d v :
  (exists x, optional_nullable load_str k o = Ok x /\ v = or_default x d) <-> text_or_default o k d v.
Proof.
  unfold text_or_default. split.
  - intros (x & H & ->). apply optional_nullable_str_ok in H. destruct x as [x|]; cbn [or_default]; auto.
  - intros [[H ->]|H].
    + exists None. split; [now apply optional_nullable_str_ok|reflexivity].
    + exists (Some v). split; [now apply optional_nullable_str_ok|reflexivity].
Qed.
Lemma default_none_ok {A} (f : json -> result A) (R : json -> A -> Prop) k o v :
  (forall j x, f j = Ok x <-> R j x) -> (forall x, f JNull <> Ok x) ->
  default_none f k o = Ok v <-> value_or_nothing R o k v.
Proof.
  intros H N. unfold default_none, value_or_nothing, nothing, field. rewrite get_with_dict. destruct (dict_get k o) as [j|].
  - assert (E : forall x, nullable f j = Ok (Some x) <-> f j = Ok x).
    { intros x. destruct j; cbn [nullable]; [split; [intros [=]|intros K; now apply N in K]|match goal with |- context [f ?z] => destruct (f z) as [?|?]; split; intros [=]; subst; reflexivity end..]. }
    destruct v as [x|].
    + rewrite E. split; [intros K; exists j; split; [reflexivity|now apply H]|intros (j' & [= <-] & K); now apply H].
    + split; [|intros [K|K]; [discriminate|]; injection K as ->; reflexivity].
      destruct j; auto; cbn [nullable]; match goal with |- context [f ?z] => destruct (f z); discriminate end.
  - destruct v; split; try discriminate; auto. intros (j & [=] & _).
Qed.

Lemma load_items_ok {A} (f : json -> result A) (R : json -> A -> Prop) l : forall xs,
  (forall j x, In j l -> In x xs -> (f j = Ok x <-> R j x)) -> (forall x, f JNull <> Ok x) ->
  load_items f l = Ok xs <-> Forall2 R l xs.
Proof.
  induction l as [|j l IH]; intros xs H N; cbn [load_items].
  - split; [intros [= <-]; constructor|intros K; inversion K; reflexivity].
  - split.
    + destruct (both (nonnull f j) (load_items f l)) as [[a r]|e] eqn:E; [|discriminate]. intros [= <-].
      apply both_ok in E as [E1 E2]. cbn [fst snd] in *. constructor.
      * apply (H j a); [now left|now left|]. apply (nonnull_ok f j a) in E1; [exact E1|apply N].
      * apply IH; [intros; apply H; now right|exact N|assumption].
    + intros K. inversion K as [|? x ? r K1 K2]; subst.
      assert (both (nonnull f j) (load_items f l) = Ok (x, r)) as ->; [|reflexivity].
      apply both_ok. cbn [fst snd]. split.
      * apply nonnull_ok; [apply N|]. apply H; [now left|now left|exact K1].
      * apply IH; [intros; apply H; now right|exact N|assumption].
Qed.
Lemma load_list_field {A} (f : json -> result A) (R : json -> A -> Prop) k o xs :
  (forall j x, f j = Ok x <-> R j x) -> (forall x, f JNull <> Ok x) ->
  (exists v, optional (load_list f) k o = Ok v /\ argument v = Ok xs) <-> list_field R o k xs.
Proof.
  intros H N. unfold optional, field. rewrite get_with_dict. split.
  - intros (v & E & K). destruct v as [v|]; [|discriminate]. injection K as ->.
    destruct (dict_get k o) as [j|] eqn:D; [|discriminate]. unfold present, nonnull in E.
    destruct j; try discriminate. cbn [load_list] in E. destruct (load_items f l) as [ys|] eqn:L; [|discriminate]. injection E as ->.
    econstructor; [exact D|]. apply (load_items_ok f R); auto.
  - intros [js D F]. unfold field in D. rewrite D. exists (Some xs). split; [|reflexivity]. unfold present, nonnull. cbn [load_list].
    apply (load_items_ok f R) in F; auto. now rewrite F.
Qed.
Lemma required_list_field {A} (f : json -> result A) (R : json -> A -> Prop) k o xs :
  (forall j x, f j = Ok x <-> R j x) -> (forall x, f JNull <> Ok x) ->
  required (load_list f) k o = Ok xs <-> list_field R o k xs.
Proof.
  intros H N. unfold required. rewrite get_with_dict. split.
  - destruct (dict_get k o) as [j|] eqn:D; [|discriminate]. unfold nonnull. intros E.
    destruct j; try discriminate. cbn [load_list] in E. econstructor; [exact D|]. apply (load_items_ok f R); auto.
  - intros [js D F]. unfold field in D. rewrite D. unfold nonnull. cbn [load_list]. apply (load_items_ok f R); auto.
Qed.
Lemma opt_list_field_ok {A} (f : json -> result A) (R : json -> A -> Prop) k o v :
  (forall j x, In x (olist v) -> (f j = Ok x <-> R j x)) -> (forall x, f JNull <> Ok x) ->
  get_with (fun v => match v with
                     | JNull => Ok None
                     | JList l => match load_items f l with Ok x => Ok (Some x) | Raise e => Raise e end
                     | _ => Raise ValidationError
                     end) (Ok None) k o = Ok v <-> opt_list_field R o k v.
Proof.
  intros H N. rewrite get_with_dict. split.
  - destruct (dict_get k o) as [j|] eqn:D; [|intros [= <-]; constructor; now left].
    destruct j; try discriminate; [intros [= <-]; constructor; now right|].
    destruct (load_items f l) as [xs|] eqn:L; [|discriminate]. intros [= <-]. econstructor; [exact D|].
    apply (load_items_ok f R); [intros; now apply H|exact N|exact L].
  - intros K; inversion K as [D|js xs D F]; subst; [destruct D as [-> | ->]; reflexivity|]. unfold field in D. rewrite D.
    rewrite (proj2 (load_items_ok f R js xs (fun j x _ Hx => H j x Hx) N) F). reflexivity.
Qed.
Lemma default_none_list {A} (f : json -> result A) k o :
  default_none (load_list f) k o
  = get_with (fun v => match v with
                     | JNull => Ok None
                     | JList l => match load_items f l with Ok x => Ok (Some x) | Raise e => Raise e end
                     | _ => Raise ValidationError
                     end) (Ok None) k o.
Proof. unfold default_none. rewrite !get_with_dict. destruct (dict_get k o) as [[]|]; reflexivity. Qed.

Lemma load_int_ok j z : load_int j = Ok z <-> is_integer j z.
Proof.
  unfold is_integer. destruct j as [|b|z'|[z'|]|s|l|o]; cbn [load_int]; split; try discriminate; try (intros [?|[?|(? & ? & _)]]; discriminate).
  - intros [= ->]. auto.
  - intros [[= ->]|[?|(? & ? & _)]]; [reflexivity|discriminate..].
  - intros [= ->]. auto.
  - intros [?|[[= ->]|(? & ? & _)]]; [discriminate|reflexivity|discriminate].
  - destruct (py_int 10 s) as [x|] eqn:E; [|discriminate]. intros [= ->]. right; right. exists s. split; [reflexivity|]. apply py_int_spec; auto.
  - intros [?|[?|(s' & [= <-] & E)]]; [discriminate|discriminate|]. apply py_int_spec in E; [|now left]. now rewrite E.
Qed.
Lemma load_uuid_ok j n : load_uuid j = Ok n <-> is_uuid j n.
Proof.
  unfold is_uuid. destruct j as [|b|z'|z'|s|l|o]; cbn [load_uuid]; split; try discriminate; try (intros (? & ? & _); discriminate).
  - destruct (uuid_of_str s) as [x|] eqn:E; [|discriminate]. intros [= ->]. exists s. split; [reflexivity|]. now apply uuid_spec.
  - intros (s' & [= <-] & E). apply uuid_spec in E. now rewrite E.
Qed.
Lemma uuid_of_str_bound s n : uuid_of_str s = Some n -> (n < 2 ^ 128)%N.
Proof.
  unfold uuid_of_str. destruct (Nat.eqb _ 32); [|discriminate]. destruct (py_int 16 _) as [z|]; [|discriminate].
  destruct (Z.leb_spec 0 z); [|discriminate]. destruct (Z.ltb_spec z (2 ^ 128)); [|discriminate].
  cbn [andb]. intros [= <-]. change (2 ^ 128)%Z with (Z.of_N (2 ^ 128)) in *. lia.
Qed.

Ltac splits := repeat match goal with
  | H : _ /\ _ |- _ => destruct H
  | H : both _ _ = Ok (_, _) |- _ => apply both_ok in H; cbn [fst snd] in H; destruct H
  | x : unit |- _ => destruct x
  end.
Ltac joins := repeat match goal with |- both _ _ = Ok (_, _) => apply both_ok; cbn [fst snd]; split end.

(** ** the classes *)
Lemma load_line_ok j l : load_line j = Ok l <-> describes_line j l.
Proof.
  unfold describes_line. split.
  - destruct j as [| | | | | |o]; try discriminate. unfold load_line. intros H. apply bind_ok in H as (t & H & K).
    destruct t as [[[[[[[[[[[guid g] s] si] d] v] n] e] c] sn] i] []].
    apply new_AhbLine_ok in K as (-> & K1 & K2). cbn [al_expression al_index] in K1, K2.
    splits. exists o. cbn [al_guid al_group al_segment al_segment_id al_element al_entry al_name al_expression al_conditions al_section al_index].
    assert (G : value_or_nothing is_uuid o (u "guid") guid) by (apply (default_none_ok load_uuid is_uuid); [apply load_uuid_ok|discriminate|assumption]).
    split; [reflexivity|]. split; [now apply only_known_spec|]. split; [exact G|].
    do 9 (split; [apply default_none_str_ok; assumption|]).
    split; [apply (default_none_ok load_int is_integer); [apply load_int_ok|discriminate|assumption]|].
    split; [exact K1|]. split; [exact K2|]. cbn [al_guid]. intros m ->. destruct G as (jg & _ & s' & _ & Hu). now apply uuid_spec, uuid_of_str_bound in Hu.
  - intros (o & -> & Hk & Hg & H1 & H2 & H3 & H4 & H5 & H6 & H7 & H8 & H9 & Hi & V1 & V2 & V3). unfold load_line. apply bind_ok.
    exists (al_guid l, al_group l, al_segment l, al_segment_id l, al_element l, al_entry l, al_name l, al_expression l, al_conditions l, al_section l, al_index l, tt).
    split; [|apply new_AhbLine_ok; split; [destruct l; reflexivity|split; [exact V1|exact V2]]].
    joins; try (apply default_none_str_ok; assumption).
    + apply (default_none_ok load_uuid is_uuid); [apply load_uuid_ok|discriminate|assumption].
    + apply (default_none_ok load_int is_integer); [apply load_int_ok|discriminate|assumption].
    + now apply only_known_spec.
Qed.

Lemma load_meta_ok j m : load_meta j = Ok m <-> describes_meta j m.
Proof.
  unfold describes_meta. split.
  - destruct j as [| | | | | |o]; try discriminate. unfold load_meta. intros H. apply bind_ok in H as ([[[[p v] de] di] []] & H & K).
    apply new_Meta_ok in K as (-> & K). splits. exists o. cbn [me_pruefi me_version me_description me_direction].
    split; [reflexivity|]. split; [now apply only_known_spec|]. split; [now apply required_str_ok|].
    split; [apply optional_nullable_or_default; eauto|]. split; [apply optional_nullable_or_default; eauto|].
    split; [apply optional_nullable_or_default; eauto|]. exact K.
  - intros (o & -> & Hk & Hp & Hv & Hde & Hdi & V). unfold load_meta.
    apply optional_nullable_or_default in Hv as (v & Hv & Ev). apply optional_nullable_or_default in Hde as (de & Hde & Ede).
    apply optional_nullable_or_default in Hdi as (di & Hdi & Edi). apply bind_ok. exists (me_pruefi m, v, de, di, tt).
    split; [joins; auto; [now apply required_str_ok|now apply only_known_spec]|].
    change maus_VERSION with (u "0.3.0"). rewrite <- Ev, <- Ede, <- Edi. apply new_Meta_ok. destruct m; auto.
Qed.

Lemma load_meta_field o m :
  (exists v, optional load_meta (u "meta") o = Ok v /\ argument v = Ok m)
  <-> exists jm, field o (u "meta") jm /\ describes_meta jm m.
Proof.
  unfold optional, field. rewrite get_with_dict. split.
  - intros (v & E & K). destruct v as [v|]; [|discriminate]. injection K as ->.
    destruct (dict_get (u "meta") o) as [j|]; [|discriminate]. exists j. split; [reflexivity|]. apply load_meta_ok.
    unfold present in E. destruct (nonnull load_meta j) as [x|] eqn:L; [|discriminate]. injection E as ->. apply (nonnull_ok load_meta) in L; [exact L|discriminate].
  - intros (j & -> & H). exists (Some m). split; [|reflexivity]. apply load_meta_ok in H. unfold present.
    apply (nonnull_ok load_meta) in H; [|discriminate]. now rewrite H.
Qed.

Lemma load_line_null x : load_line JNull <> Ok x. Proof. discriminate. Qed.
Lemma load_flat_ok j a : load_flat j = Ok a <-> describes_flat j a.
Proof.
  unfold describes_flat. split.
  - destruct j as [| | | | | |o]; try discriminate. unfold load_flat. intros H. apply bind_ok in H as ([[m ls] []] & H & K).
    apply bind_ok in K as (m' & Em & K). apply bind_ok in K as (ls' & El & K). apply new_Flat_ok in K as (-> & K1 & K2).
    splits. exists o. cbn [fa_meta fa_lines].
    assert (Hm : exists jm, field o (u "meta") jm /\ describes_meta jm m') by (apply load_meta_field; eauto).
    assert (Hl : list_field describes_line o (u "lines") ls') by (apply (load_list_field load_line describes_line); [apply load_line_ok|discriminate|eauto]).
    split; [reflexivity|]. split; [now apply only_known_spec|]. split; [exact Hm|]. split; [exact Hl|].
    unfold valid_flat. cbn [fa_meta fa_lines]. split; [destruct Hm as (jm & _ & o' & Hm); apply Hm|]. split; [|auto].
    destruct Hl as [js _ F]. clear - F. induction F as [|x y l l' H _ IH]; constructor; [destruct H as (? & H); apply H|exact IH].
  - intros (o & -> & Hk & Hm & Hl & V1 & V2 & V3 & V4). unfold load_flat.
    apply load_meta_field in Hm as (m & Hm & Em).
    apply (load_list_field load_line describes_line) in Hl as (ls & Hl & El); [|apply load_line_ok|discriminate].
    apply bind_ok. exists (m, ls, tt). split; [joins; auto; now apply only_known_spec|]. apply bind_ok. exists (fa_meta a). split; [exact Em|].
    apply bind_ok. exists (fa_lines a). split; [exact El|]. apply new_Flat_ok. destruct a; auto.
Qed.

Lemma load_entry_ok j e : load_entry j = Ok e <-> describes_entry j e.
Proof.
  unfold describes_entry. split.
  - destruct j as [| | | | | |o]; try discriminate. unfold load_entry. intros H. apply bind_ok in H as ([[[q m] x] []] & H & K).
    apply new_Entry_ok in K as (-> & K). splits. exists o. cbn [ve_qualifier ve_meaning ve_expression].
    split; [reflexivity|]. split; [now apply only_known_spec|]. do 3 (split; [now apply required_str_ok|]). split; assumption.
  - intros (o & -> & Hk & H1 & H2 & H3 & V). unfold load_entry. apply bind_ok. exists (ve_qualifier e, ve_meaning e, ve_expression e, tt).
    split; [joins; try (now apply required_str_ok); now apply only_known_spec|]. apply new_Entry_ok. destruct e; auto.
Qed.

Section Deep.
  Variable ca : pystr -> option bool.
  Lemma load_type_field o d t :
    (exists a, optional (load_type ca) (u "value_type") o = Ok a /\ check_type d a = Ok t) <-> type_field ca o d t.
  Proof.
    unfold optional. rewrite get_with_dict. split.
    - intros (a & H & C). destruct (dict_get (u "value_type") o) as [j|] eqn:D.
      + unfold present in H. destruct j; try discriminate. cbn [nonnull load_type] in H.
        destruct (str_eqb_spec s (u "TEXT")) as [-> |N1]; [injection H as <-; injection C as <-; now apply (type_given ca o d TEXT)|].
        destruct (str_eqb_spec s (u "DATETIME")) as [-> |N2]; [injection H as <-; injection C as <-; now apply (type_given ca o d DATETIME)|].
        destruct (str_eqb_spec s (u "VALUE_POOL")) as [-> |N3]; [injection H as <-; injection C as <-; now apply (type_given ca o d VALUE_POOL)|].
        destruct (ca s) as [[|]|] eqn:E; [|injection H as <-; discriminate|discriminate]. injection H as <-. injection C as <-.
        apply (type_attribute ca o d s); [exact D| |exact E]. intros [K|[K|[K|[]]]]; congruence.
      + injection H as <-. injection C as <-. now apply type_default.
    - intros [D|t' D|s D N E]; unfold text, field in *; rewrite D.
      + exists None. auto.
      + exists (Some (AMember t')). destruct t'; split; reflexivity.
      + exists (Some ANone). split; [|reflexivity]. unfold present. cbn [nonnull load_type].
        destruct (str_eqb_spec s (u "TEXT")) as [-> |N1]; [exfalso; apply N; cbn; auto|].
        destruct (str_eqb_spec s (u "DATETIME")) as [-> |N2]; [exfalso; apply N; cbn; auto|].
        destruct (str_eqb_spec s (u "VALUE_POOL")) as [-> |N3]; [exfalso; apply N; cbn; auto|]. now rewrite E.
  Qed.
  Lemma load_disc_field o d :
    (exists v, optional_nullable load_str (u "discriminator") o = Ok v /\ argument v = Ok d) <-> text_or_null o (u "discriminator") d.
  Proof.
    split.
    - intros (v & H & E). destruct v as [v|]; [|discriminate]. injection E as ->. now apply optional_nullable_str_ok in H.
    - intros H. exists (Some d). split; [now apply optional_nullable_str_ok|reflexivity].
  Qed.

  Lemma load_free_text_ok j f : load_free_text ca j = Ok f
    <-> exists o, j = JObj o /\ valid_element (DFree f)
        /\ only_keys [u "discriminator"; u "data_element_id"; u "entered_input"; u "value_type"; u "ahb_expression"] o
        /\ text_or_null o (u "discriminator") (ft_discriminator f) /\ text o (u "data_element_id") (ft_id f)
        /\ text_or_nothing o (u "entered_input") (ft_input f) /\ type_field ca o TEXT (ft_type f)
        /\ text o (u "ahb_expression") (ft_expression f).
  Proof.
    split.
    - destruct j as [| | | | | |o]; try discriminate. unfold load_free_text, load_common. intros H.
      apply bind_ok in H as ([[[[[d i] inp] t] e] []] & H & K). apply bind_ok in K as (d' & Ed & K).
      apply bind_ok in K as (i' & Ei & K). apply bind_ok in K as (t' & Et & K).
      destruct e as [e|]; [|unfold new_FreeText in K; rewrite Ei in K; discriminate].
      apply new_FreeText_ok in K as (-> & V). splits. exists o. cbn [ft_discriminator ft_id ft_input ft_type ft_expression valid_element].
      split; [reflexivity|]. split; [auto|]. split; [now apply only_known_spec|]. split; [apply load_disc_field; eauto|].
      split; [now apply required_str_ok|]. split; [now apply default_none_str_ok|]. split; [apply load_type_field; eauto|].
      match goal with H : required_nullable _ _ _ = _ |- _ => apply required_nullable_str_ok in H; exact H end.
    - intros (o & -> & (V1 & V2 & V3) & Hk & Hd & Hi & Hin & Ht & He). unfold load_free_text, load_common.
      apply load_disc_field in Hd as (d & Hd & Ed). apply load_type_field in Ht as (t & Ht & Et).
      apply bind_ok. exists (d, ft_id f, ft_input f, t, Some (ft_expression f), tt).
      split; [joins; auto; [now apply required_str_ok|now apply default_none_str_ok|now apply required_nullable_str_ok|now apply only_known_spec]|].
      apply bind_ok. exists (ft_discriminator f). split; [exact Ed|]. apply bind_ok. exists (ft_id f). split; [now apply check_data_element_ok|].
      apply bind_ok. exists (ft_type f). split; [exact Et|]. apply new_FreeText_ok. destruct f; auto.
  Qed.
  Lemma load_pool_ok j p : load_pool ca j = Ok p
    <-> exists o, j = JObj o /\ valid_element (DPool p)
        /\ only_keys [u "discriminator"; u "data_element_id"; u "entered_input"; u "value_type"; u "value_pool"] o
        /\ text_or_null o (u "discriminator") (vp_discriminator p) /\ text o (u "data_element_id") (vp_id p)
        /\ text_or_nothing o (u "entered_input") (vp_input p) /\ type_field ca o VALUE_POOL (vp_type p)
        /\ list_field describes_entry o (u "value_pool") (vp_pool p).
  Proof.
    split.
    - destruct j as [| | | | | |o]; try discriminate. unfold load_pool, load_common. intros H.
      apply bind_ok in H as ([[[[[d i] inp] t] e] []] & H & K). apply bind_ok in K as (d' & Ed & K).
      apply bind_ok in K as (i' & Ei & K). apply bind_ok in K as (t' & Et & K).
      apply new_ValuePool_ok in K as (-> & V). splits. exists o. cbn [vp_discriminator vp_id vp_input vp_type vp_pool valid_element].
      assert (Hl : list_field describes_entry o (u "value_pool") e) by (apply (required_list_field load_entry); [apply load_entry_ok|discriminate|assumption]).
      split; [reflexivity|]. split.
      { split; [assumption|]. split; [assumption|]. destruct Hl as [js _ F]. clear - F. induction F as [|x y l l' H _ IH]; constructor; [destruct H as (? & H); apply H|exact IH]. }
      split; [now apply only_known_spec|]. split; [apply load_disc_field; eauto|].
      split; [now apply required_str_ok|]. split; [now apply default_none_str_ok|]. split; [apply load_type_field; eauto|]. exact Hl.
    - intros (o & -> & (V1 & V2 & V3) & Hk & Hd & Hi & Hin & Ht & He). unfold load_pool, load_common.
      apply load_disc_field in Hd as (d & Hd & Ed). apply load_type_field in Ht as (t & Ht & Et).
      apply bind_ok. exists (d, vp_id p, vp_input p, t, vp_pool p, tt).
      split; [joins; auto; [now apply required_str_ok|now apply default_none_str_ok| |now apply only_known_spec]|].
      { apply (required_list_field load_entry describes_entry); [apply load_entry_ok|discriminate|exact He]. }
      apply bind_ok. exists (vp_discriminator p). split; [exact Ed|]. apply bind_ok. exists (vp_id p). split; [now apply check_data_element_ok|].
      apply bind_ok. exists (vp_type p). split; [exact Et|]. apply new_ValuePool_ok. destruct p; auto.
  Qed.
  Lemma dict_get_in {V} k (o : list (pystr * V)) v : dict_get k o = Some v -> In k (map fst o).
  Proof.
    induction o as [|[k' v'] o IH]; [discriminate|]. cbn [dict_get map fst In]. destruct (str_eqb_spec k k') as [-> |N]; [now left|]. intros H. right. auto.
  Qed.
  Lemma load_element_ok j d : load_element ca j = Ok d <-> describes_element ca j d.
  Proof.
    unfold describes_element. split.
    - destruct j as [| | | | | |o]; try discriminate. unfold load_element. destruct (str_in (u "value_pool") (map fst o)).
      + intros H. apply bind_ok in H as (p & H & [= <-]). now apply load_pool_ok.
      + intros H. apply bind_ok in H as (f & H & [= <-]). now apply load_free_text_ok.
    - intros (o & -> & H). unfold load_element. destruct d as [f|p].
      + assert (str_in (u "value_pool") (map fst o) = false) as ->.
        { apply str_in_nIn. intros K. destruct H as (_ & Hk & _). apply Hk in K.
          assert (E : str_in (u "value_pool") [u "discriminator"; u "data_element_id"; u "entered_input"; u "value_type"; u "ahb_expression"] = true) by now apply str_in_In.
          vm_compute in E. discriminate. }
        apply bind_ok. exists f. split; [|reflexivity]. apply load_free_text_ok. exists o. auto.
      + assert (str_in (u "value_pool") (map fst o) = true) as ->.
        { apply str_in_In. destruct H as (_ & _ & _ & _ & _ & _ & [js D _]). eapply dict_get_in. exact D. }
        apply bind_ok. exists p. split; [|reflexivity]. apply load_pool_ok. exists o. auto.
  Qed.

  Lemma load_section_field o v : optional load_str (u "section_name") o = Ok v
    <-> match v with Some n => text o (u "section_name") n | None => dict_get (u "section_name") o = None end.
  Proof.
    unfold optional, text, field. rewrite get_with_dict. destruct (dict_get (u "section_name") o) as [j|].
    - destruct j, v; cbn; split; congruence.
    - destruct v; cbn; split; congruence.
  Qed.
  Lemma load_segment_ok j s : load_segment ca j = Ok s <-> describes_segment ca j s.
  Proof.
    unfold describes_segment. split.
    - destruct j as [| | | | | |o]; try discriminate. unfold load_segment. intros H.
      apply bind_ok in H as ([[[[[d e] es] sn] si] []] & H & K). apply bind_ok in K as (es' & Ee & K).
      destruct e as [e|]; [|discriminate]. apply new_Segment_ok in K as (-> & V1 & V2). splits. exists o.
      cbn [seg_discriminator seg_expression seg_elements seg_section seg_id seg_index].
      assert (Hl : list_field (describes_element ca) o (u "data_elements") es') by (apply (load_list_field (load_element ca)); [apply load_element_ok|discriminate|eauto]).
      split; [reflexivity|]. split; [now apply only_known_spec|]. split; [now apply required_str_ok|].
      split; [match goal with H : required_nullable _ _ _ = _ |- _ => apply required_nullable_str_ok in H; exact H end|].
      split; [exact Hl|]. split; [now apply load_section_field|].
      split.
      { assert (T : text_or_default o (u "segment_id") None (or_default si None)) by (apply optional_nullable_or_default; eauto).
        unfold text_or_nothing, nothing. destruct T as [[T ->]|T]; [auto|]. unfold text_or_null in T. destruct (or_default si None); auto. }
      split; [reflexivity|]. split; [exact V1|]. split; [|exact V2].
      cbn [seg_elements]. destruct Hl as [js _ F]. clear - F. induction F as [|x y l l' H _ IH]; constructor; [destruct H as (? & _ & H & _); exact H|exact IH].
    - intros (o & -> & Hk & Hd & He & Hl & Hs & Hi & Ei & V1 & V2 & V3). unfold load_segment.
      apply (load_list_field (load_element ca) (describes_element ca)) in Hl as (es & Hl & El); [|apply load_element_ok|discriminate].
      assert (T : text_or_default o (u "segment_id") None (seg_id s)).
      { unfold text_or_default, text_or_null. unfold text_or_nothing, nothing in Hi. destruct (seg_id s); [auto|]. destruct Hi; auto. }
      apply optional_nullable_or_default in T as (si & Hsi & Esi).
      apply bind_ok. exists (seg_discriminator s, Some (seg_expression s), es, seg_section s, si, tt).
      split; [joins; auto; [now apply required_str_ok|now apply required_nullable_str_ok|now apply load_section_field|now apply only_known_spec]|].
      apply bind_ok. exists (seg_elements s). split; [exact El|]. rewrite <- Esi. apply new_Segment_ok. destruct s; cbn in *. subst. auto.
  Qed.

  Lemma load_group_ok g : forall j, load_group ca j = Ok g <-> describes_group ca j g.
  Proof.
    induction g as [d e i ss gs IH] using group_ind'. intros j. rewrite Forall_forall in IH. split.
    - destruct j as [| | | | | |o]; try discriminate. cbn [load_group]. intros H.
      apply bind_ok in H as ([[[[d' e'] ss'] gs'] []] & H & K). destruct e' as [e'|]; [|discriminate].
      apply new_Group_ok in K as ([= -> -> -> -> ->] & V). splits. constructor.
      + now apply only_known_spec.
      + now apply required_str_ok.
      + match goal with H : required_nullable _ _ _ = _ |- _ => apply required_nullable_str_ok in H; exact H end.
      + exact V.
      + rewrite default_none_list in *. apply (opt_list_field_ok (load_segment ca)); [intros; apply load_segment_ok|discriminate|assumption].
      + apply (opt_list_field_ok (load_group ca)); [intros; now apply IH|discriminate|assumption].
    - intros H. inversion H as [o d' e' ss' gs' Hk Hd He V Hs Hg]; subst. cbn [load_group]. apply bind_ok.
      exists (d, Some e, ss, gs, tt). split; [|now apply new_Group_ok]. joins.
      + now apply required_str_ok.
      + now apply required_nullable_str_ok.
      + rewrite default_none_list. apply (opt_list_field_ok (load_segment ca) (describes_segment ca)); [intros; apply load_segment_ok|discriminate|assumption].
      + apply (opt_list_field_ok (load_group ca) (describes_group ca)); [intros; now apply IH|discriminate|assumption].
      + now apply only_known_spec.
  Qed.
  Lemma load_deep_ok j a : load_deep ca j = Ok a <-> describes_deep ca j a.
  Proof.
    unfold describes_deep. split.
    - destruct j as [| | | | | |o]; try discriminate. unfold load_deep. intros H. apply bind_ok in H as ([[m ls] []] & H & K).
      apply bind_ok in K as (m' & Em & K). apply bind_ok in K as (ls' & El & [= <-]). splits. exists o. cbn [da_meta da_lines].
      split; [reflexivity|]. split; [now apply only_known_spec|]. split; [apply load_meta_field; eauto|].
      apply (load_list_field (load_group ca)); [intros; apply load_group_ok|discriminate|eauto].
    - intros (o & -> & Hk & Hm & Hl). unfold load_deep. apply load_meta_field in Hm as (m & Hm & Em).
      apply (load_list_field (load_group ca) (describes_group ca)) in Hl as (ls & Hl & El); [|intros; apply load_group_ok|discriminate].
      apply bind_ok. exists (m, ls, tt). split; [joins; auto; now apply only_known_spec|]. apply bind_ok. exists (da_meta a). split; [exact Em|].
      apply bind_ok. exists (da_lines a). split; [exact El|]. destruct a; reflexivity.
  Qed.

  Lemma described_group_valid g : forall j, describes_group ca j g -> valid_group_tree g.
  Proof.
    induction g as [d e i ss gs IH] using group_ind'. intros j H. inversion H as [o d' e' ss' gs' Hk Hd He V Hs Hg]; subst.
    rewrite Forall_forall in IH.
    assert (S : forall s, direct_segment (mkGroup d e None ss gs) s -> valid_segment s).
    { intros s (l & E & Hin). cbn [g_segments] in E. subst ss. inversion Hs as [|js xs _ F]; subst.
      clear - F Hin. induction F as [|x y l l' H _ IH]; [destruct Hin|destruct Hin as [-> |Hin]; [destruct H as (? & H); apply H|auto]]. }
    assert (G : forall h, In h (olist gs) -> valid_group_tree h).
    { intros h Hin. destruct gs as [l|]; [|destruct Hin]. cbn [olist] in Hin. inversion Hg as [|js xs _ F]; subst.
      assert (exists j, describes_group ca j h) as (j & Hj).
      { clear - F Hin. induction F as [|x y l l' H _ IH]; [destruct Hin|destruct Hin as [-> |Hin]; eauto]. }
      eapply IH; eauto. }
    assert (C : forall h, inside (mkGroup d e None ss gs) h -> h = mkGroup d e None ss gs \/ exists g, In g (olist gs) /\ inside g h).
    { intros h Hh. clear -Hh. induction Hh as [|h k l Hh IH E Hin]; [now left|]. right. destruct IH as [-> |(g & Hg & IH)].
      - cbn [g_groups] in E. subst gs. exists k. split; [exact Hin|apply inside_self].
      - exists g. split; [exact Hg|]. eapply inside_deeper; eauto. }
    split.
    - intros h Hh. apply C in Hh as [-> |(g & Hin & Hi)]; [exact V|]. now apply (proj1 (G g Hin)).
    - intros s (h & Hh & Hs'). apply C in Hh as [-> |(g & Hin & Hi)]; [auto|]. apply (proj2 (G g Hin)). exists h. auto.
  Qed.
  Lemma described_deep_valid j a : describes_deep ca j a -> valid_deep a.
  Proof.
    intros (o & _ & _ & (jm & _ & Hm) & [js _ F]). 
    assert (G : forall g, In g (da_lines a) -> valid_group_tree g).
    { intros g Hin. assert (exists j, describes_group ca j g) as (j' & Hj).
      { clear - F Hin. induction F as [|x y l l' H _ IH]; [destruct Hin|destruct Hin as [-> |Hin]; eauto]. }
      eapply described_group_valid; eauto. }
    split; [|split].
    - destruct Hm as (? & H). apply H.
    - intros g (line & Hl & Hi). now apply (proj1 (G line Hl)).
    - intros s (g & (line & Hl & Hi) & Hd). apply (proj2 (G line Hl)). exists g. auto.
  Qed.
End Deep.

Lemma load_sgh_ok h : forall j, load_sgh j = Ok h <-> describes_sgh j h.
Proof.
  induction h as [k op subs IH] using sgh_ind'. intros j. rewrite Forall_forall in IH. split.
  - destruct j as [| | | | | |o]; try discriminate. cbn [load_sgh]. intros H.
    apply bind_ok in H as ([[[k' op'] subs'] []] & H & K). apply bind_ok in K as (subs'' & Es & [= -> -> ->]).
    destruct subs' as [subs'|]; [|discriminate]. injection Es as ->. splits. constructor.
    + now apply only_known_spec.
    + now apply required_nullable_str_ok.
    + now apply required_str_ok.
    + match goal with H : get_with _ _ _ _ = _ |- _ => rewrite get_with_dict in H; rename H into D end.
      destruct (dict_get (u "sub_hierarchy") o) as [j|] eqn:E; [|discriminate]. destruct j; try discriminate.
      * injection D as <-. now constructor.
      * destruct (load_items load_sgh l) as [xs|] eqn:L; [|discriminate]. injection D as <-. econstructor; [exact E|].
        apply (load_items_ok load_sgh describes_sgh); [|discriminate|exact L]. intros j x _ Hx. now apply IH.
  - intros H. inversion H as [o k' op' subs' Hk Hg Ho Hs]; subst. cbn [load_sgh]. apply bind_ok. exists (k, op, Some subs, tt).
    split; [|reflexivity]. joins.
    + now apply required_nullable_str_ok.
    + now apply required_str_ok.
    + rewrite get_with_dict. destruct Hs as [D|js xs D F]; unfold field in D; rewrite D; [reflexivity|].
      apply (load_items_ok load_sgh describes_sgh) in F; [now rewrite F| |discriminate]. intros j x _ Hx. now apply IH.
    + now apply only_known_spec.
Qed.
