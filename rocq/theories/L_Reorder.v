(** The order of the keys does not matter for loading. *)
From Coq Require Import Ascii String List NArith ZArith Bool Permutation.
From Verif Require Import PyBase PyStr PyRe M_Components M_Ahb M_Sgh M_Schema M_Matching M_Xml M_MigXml M_Cli
  L_Base L_ValuePool L_Load S_DeepAhb S_Cli.
Import ListNotations.
Local Open Scope list_scope.

Lemma json_induction (P : json -> Prop) :
  P JNull -> (forall b, P (JBool b)) -> (forall z, P (JInt z)) -> (forall t, P (JFloat t)) -> (forall s, P (JStr s)) ->
  (forall l, Forall P l -> P (JList l)) -> (forall o, Forall (fun kv => P (snd kv)) o -> P (JObj o)) -> forall j, P j.
Proof.
  intros H1 H2 H3 H4 H5 HL HO. fix IH 1. intros [|b|z|t|s|l|o]; [exact H1|apply H2|apply H3|apply H4|apply H5| |].
  - apply HL. induction l as [|x l IHl]; constructor; [apply IH|exact IHl].
  - apply HO. induction o as [|[k v] o IHo]; constructor; [apply IH|exact IHo].
Qed.

Lemma keys_same o o1 : Forall2 (fun a b : pystr * json => fst b = fst a /\ reordered (snd a) (snd b)) o o1 -> map fst o1 = map fst o.
Proof. induction 1 as [|a b o o1 [E _] _ IH]; [reflexivity|]. cbn. now rewrite E, IH. Qed.
Lemma get_permutation {V} k (o o' : list (pystr * V)) : NoDup (map fst o) -> Permutation o o' -> dict_get k o' = dict_get k o.
Proof.
  intros N P. assert (N' : NoDup (map fst o')) by (eapply Permutation_NoDup; [apply Permutation_map; exact P|exact N]).
  destruct (dict_get k o) as [v|] eqn:E.
  - apply dict_get_NoDup in E; [|exact N]. apply dict_get_NoDup; [exact N'|]. eapply Permutation_in; eassumption.
  - apply dict_get_None in E. apply dict_get_None. intros H. apply E.
    eapply Permutation_in; [apply Permutation_map, Permutation_sym; exact P|exact H].
Qed.
Lemma get_related k o o1 : Forall2 (fun a b : pystr * json => fst b = fst a /\ reordered (snd a) (snd b)) o o1 ->
  opt_related reordered (dict_get k o) (dict_get k o1).
Proof.
  induction 1 as [|[k1 v1] [k2 v2] o o1 [E R] _ IH]; cbn [dict_get]; [constructor|]. cbn [fst snd] in E, R. subst k2.
  destruct (str_eqb k k1); [now constructor|exact IH].
Qed.
Lemma opt_reordered_refl o : opt_related reordered o o.
Proof. destruct o; constructor. constructor. Qed.

Definition similar (o o' : list (pystr * json)) : Prop :=
  (forall k, opt_related reordered (dict_get k o) (dict_get k o'))
  /\ forall k, In k (map fst o) <-> In k (map fst o').
Lemma similar_refl o : similar o o.
Proof. split; [intros k; apply opt_reordered_refl|tauto]. Qed.
Lemma reordered_inv o j' : reordered (JObj o) j' -> exists o', j' = JObj o' /\ similar o o'.
Proof.
  intros H. inversion H as [| |? o1 o' N F P]; subst; [exists o; split; [reflexivity|apply similar_refl]|].
  exists o'. split; [reflexivity|]. pose proof (keys_same _ _ F) as K. split.
  - intros k. assert (N1 : NoDup (map fst o1)) by now rewrite K. rewrite (get_permutation k o1 o' N1 P). now apply get_related.
  - intros k. rewrite <- K. split; intros I; (eapply Permutation_in; [|exact I]); apply Permutation_map; [exact P|now apply Permutation_sym].
Qed.
Lemma reordered_list_inv l j' : reordered (JList l) j' -> exists l', j' = JList l' /\ Forall2 reordered l l'.
Proof.
  intros H. inversion H as [|? l' F|]; subst; [exists l; split; [reflexivity|]|eauto].
  clear H. induction l as [|x l IH]; constructor; [constructor|exact IH].
Qed.

(** [f] does not look at the order of keys *)
Definition respectful {A} (f : json -> A) : Prop := forall j j', reordered j j' -> f j = f j'.
Lemma get_with_dict {A} (f : json -> A) m k o : get_with f m k o = match dict_get k o with Some v => f v | None => m end.
Proof. induction o as [|[k' v] o IH]; [reflexivity|]. cbn [get_with dict_get]. destruct (str_eqb k k'); auto. Qed.
Lemma get_with_similar {A} (f : json -> A) m k o o' : similar o o' ->
  (forall v v', reordered v v' -> dict_get k o = Some v -> f v = f v') -> get_with f m k o = get_with f m k o'.
Proof.
  intros [G _] R. rewrite !get_with_dict. specialize (G k).
  destruct (dict_get k o) as [x|]; inversion G; subst; auto.
Qed.
Ltac same_shape H := inversion H; subst; reflexivity.
Lemma respectful_str : respectful load_str.
Proof. intros j j' H. same_shape H. Qed.
Lemma respectful_uuid : respectful load_uuid.
Proof. intros j j' H. same_shape H. Qed.
Lemma respectful_int : respectful load_int.
Proof. intros j j' H. same_shape H. Qed.
Lemma respectful_type ca : respectful (load_type ca).
Proof. intros j j' H. same_shape H. Qed.
Lemma respectful_nonnull {A} (f : json -> result A) : respectful f -> respectful (nonnull f).
Proof. intros R j j' H. specialize (R j j' H). inversion H; subst; cbn [nonnull]; auto. Qed.
Lemma respectful_nullable {A} (f : json -> result A) : respectful f -> respectful (nullable f).
Proof. intros R j j' H. specialize (R j j' H). inversion H; subst; cbn [nullable]; try reflexivity; now rewrite R. Qed.
Lemma respectful_present {A} (f : json -> result A) : respectful f -> respectful (present f).
Proof. intros R j j' H. unfold present. now rewrite (R j j' H). Qed.
Lemma items_respect {A} (f : json -> result A) l l' : Forall2 reordered l l' ->
  Forall (fun j => forall j', reordered j j' -> f j = f j') l -> load_items f l = load_items f l'.
Proof.
  induction 1 as [|j j' l l' R _ IH]; intros F; [reflexivity|]. inversion F as [|? ? Hj Hl]; subst. cbn [load_items].
  rewrite (IH Hl). replace (nonnull f j') with (nonnull f j); [reflexivity|].
  specialize (Hj j' R). inversion R; subst; cbn [nonnull]; auto.
Qed.
Lemma respectful_items {A} (f : json -> result A) : respectful f -> respectful (load_list f).
Proof.
  intros R j j' H. destruct j as [| | | | |l|]; try (inversion H; subst; reflexivity).
  apply reordered_list_inv in H as (l' & -> & F). cbn [load_list]. apply items_respect; [exact F|].
  apply Forall_forall. intros x _ x'. apply R.
Qed.
Lemma known_similar names o o' : similar o o' -> only_known names o = only_known names o'.
Proof.
  intros [_ K]. unfold only_known. f_equal.
  assert (X : forall p : list (pystr * json), forallb (fun kv => str_in (fst kv) names) p = true <-> forall k, In k (map fst p) -> str_in k names = true).
  { intros p. rewrite forallb_forall. split; intros H.
    - intros k I. apply in_map_iff in I as ([k' v] & <- & I). exact (H _ I).
    - intros kv I. apply H. now apply in_map. }
  apply eq_true_iff_eq. rewrite !X. split; intros H k I; apply H, K, I.
Qed.
Ltac respect := repeat first
  [ apply respectful_str | apply respectful_uuid | apply respectful_int | apply respectful_type
  | apply respectful_nonnull | apply respectful_nullable | apply respectful_present | apply respectful_items | assumption ].
Ltac fields S0 :=
  unfold required, required_nullable, optional, optional_nullable, default_none;
  repeat match goal with
  | |- context [@get_with ?A ?f ?m ?k ?o] =>
      lazymatch type of S0 with similar o ?o' =>
        rewrite (@get_with_similar A f m k o o' S0) by (intros ? ? R0 _; revert R0; match goal with |- reordered ?v ?v' -> ?g ?v = ?g ?v' => enough (respectful g) by auto end; respect)
      end
  | |- context [only_known ?n ?o] =>
      lazymatch type of S0 with similar o ?o' => rewrite (known_similar n o o' S0) end
  end.
Ltac loader f := intros j j' Hre; destruct j as [| | | | | |o]; try (inversion Hre; subst; reflexivity);
  apply reordered_inv in Hre as (o' & -> & S0); unfold f.
Lemma respectful_line : respectful load_line.
Proof. loader load_line. fields S0. reflexivity. Qed.
Lemma respectful_meta : respectful load_meta.
Proof. loader load_meta. fields S0. reflexivity. Qed.
Lemma respectful_flat : respectful load_flat.
Proof. pose proof respectful_meta. pose proof respectful_line. loader load_flat. fields S0. reflexivity. Qed.
Lemma respectful_entry : respectful load_entry.
Proof. loader load_entry. fields S0. reflexivity. Qed.
Lemma respectful_common ca o o' : similar o o' -> load_common ca o = load_common ca o'.
Proof. intros S0. unfold load_common. fields S0. reflexivity. Qed.
Lemma respectful_free_text ca : respectful (load_free_text ca).
Proof. loader load_free_text. rewrite (respectful_common ca o o' S0). fields S0. reflexivity. Qed.
Lemma respectful_pool ca : respectful (load_pool ca).
Proof. pose proof respectful_entry. loader load_pool. rewrite (respectful_common ca o o' S0). fields S0. reflexivity. Qed.
Lemma respectful_element ca : respectful (load_element ca).
Proof.
  intros j j' H. pose proof (respectful_pool ca j j' H) as HP. pose proof (respectful_free_text ca j j' H) as HF.
  destruct j as [| | | | | |o]; try (inversion H; subst; reflexivity). apply reordered_inv in H as (o' & -> & S0).
  cbn [load_element]. rewrite HP, HF. destruct S0 as [_ K].
  replace (str_in (u "value_pool") (map fst o')) with (str_in (u "value_pool") (map fst o)); [reflexivity|].
  apply eq_true_iff_eq. rewrite !str_in_In. apply K.
Qed.
Lemma respectful_segment ca : respectful (load_segment ca).
Proof. pose proof (respectful_element ca). loader load_segment. fields S0. reflexivity. Qed.

Lemma sgh_both j : (forall j', reordered j j' -> load_sgh j = load_sgh j')
  /\ (forall l, j = JList l -> forall l', Forall2 reordered l l' -> load_items load_sgh l = load_items load_sgh l').
Proof.
  induction j as [|b|z|t|s|l IH|o IH] using json_induction; try (split; [intros j' H; inversion H; subst; reflexivity|discriminate]).
  - split; [intros j' H; inversion H; subst; reflexivity|]. intros l0 [= <-] l' F. apply items_respect; [exact F|].
    eapply Forall_impl; [|exact IH]. intros j [H _]. exact H.
  - split; [|discriminate]. intros j' H. apply reordered_inv in H as (o' & -> & S0). cbn [load_sgh].
    match goal with |- context [get_with ?f ?m (u "sub_hierarchy") o] => rewrite (get_with_similar f m (u "sub_hierarchy") o o' S0) end.
    + fields S0. reflexivity.
    + intros v v' R G. apply dict_get_In in G. rewrite Forall_forall in IH. specialize (IH _ G). cbn [snd] in IH. destruct IH as [_ IH].
      destruct v as [| | | | |l|]; try (inversion R; subst; reflexivity).
      apply reordered_list_inv in R as (l' & -> & F). now rewrite (IH l eq_refl l' F).
Qed.
Lemma respectful_sgh : respectful load_sgh.
Proof. intros j j' H. now apply sgh_both. Qed.
Lemma group_both ca j : (forall j', reordered j j' -> load_group ca j = load_group ca j')
  /\ (forall l, j = JList l -> forall l', Forall2 reordered l l' -> load_items (load_group ca) l = load_items (load_group ca) l').
Proof.
  pose proof (respectful_segment ca).
  induction j as [|b|z|t|s|l IH|o IH] using json_induction; try (split; [intros j' H'; inversion H'; subst; reflexivity|discriminate]).
  - split; [intros j' H'; inversion H'; subst; reflexivity|]. intros l0 [= <-] l' F. apply items_respect; [exact F|].
    eapply Forall_impl; [|exact IH]. intros j [H' _]. exact H'.
  - split; [|discriminate]. intros j' H'. apply reordered_inv in H' as (o' & -> & S0). cbn [load_group].
    match goal with |- context [get_with ?f ?m (u "segment_groups") o] => rewrite (get_with_similar f m (u "segment_groups") o o' S0) end.
    + fields S0. reflexivity.
    + intros v v' R G. apply dict_get_In in G. rewrite Forall_forall in IH. specialize (IH _ G). cbn [snd] in IH. destruct IH as [_ IH].
      destruct v as [| | | | |l|]; try (inversion R; subst; reflexivity).
      apply reordered_list_inv in R as (l' & -> & F). now rewrite (IH l eq_refl l' F).
Qed.
Lemma respectful_group ca : respectful (load_group ca).
Proof. intros j j' H. now apply group_both. Qed.
Lemma respectful_deep ca : respectful (load_deep ca).
Proof. pose proof respectful_meta. pose proof (respectful_group ca). loader load_deep. fields S0. reflexivity. Qed.

(** ** sorting *)
Lemma insert_permutation k v o : Permutation ((k, v) :: o) (insert_key k v o).
Proof.
  induction o as [|[k' v'] o IH]; [reflexivity|]. cbn [insert_key]. destruct (str_leb k k'); [reflexivity|].
  rewrite perm_swap. now constructor.
Qed.
Lemma sort_permutation o : Permutation o (sort_items o).
Proof. induction o as [|[k v] o IH]; [reflexivity|]. cbn [sort_items]. rewrite <- insert_permutation. now constructor. Qed.
Lemma sorted_reordered j : unique_keys j -> reordered j (sort_keys j).
Proof.
  induction j as [|b|z|t|s|l IH|o IH] using json_induction; intros U; try apply reordered_same.
  - inversion U; subst. cbn [sort_keys]. apply reordered_list. induction l as [|x l IHl]; constructor.
    + inversion IH; subst. inversion H0; subst. auto.
    + apply IHl; [now inversion IH|constructor; now inversion H0|now inversion H0].
  - inversion U as [| | | | | |? N F]; subst. cbn [sort_keys]. eapply reordered_obj; [exact N| |apply sort_permutation].
    clear N U. induction o as [|[k v] o IHo]; constructor.
    + cbn. inversion IH; subst. inversion F; subst. auto.
    + apply IHo; [now inversion IH|now inversion F].
Qed.

(** ** dumped values have unique keys *)
Fixpoint distinct (l : list pystr) : bool := match l with [] => true | k :: r => negb (str_in k r) && distinct r end.
Lemma distinct_NoDup l : distinct l = true -> NoDup l.
Proof.
  induction l as [|k l IH]; intros H; constructor; cbn in H; apply andb_prop in H as [H1 H2]; auto.
  intros I. apply str_in_In in I. now rewrite I in H1.
Qed.
Lemma unique_opt {A} (f : A -> json) o : (forall a, o = Some a -> unique_keys (f a)) -> unique_keys (dump_opt f o).
Proof. destruct o; intros H; [apply H; reflexivity|constructor]. Qed.
Ltac unique_object := apply unique_obj;
  [apply distinct_NoDup; vm_compute; reflexivity
  |repeat match goal with
   | |- Forall _ (_ :: _) => apply Forall_cons; cbn [snd]
   | |- Forall _ [] => apply Forall_nil
   end;
   try match goal with
   | |- unique_keys (JStr _) => constructor
   | |- unique_keys (dump_opt JStr _) => apply unique_opt; intros; constructor
   | |- unique_keys (dump_opt JInt _) => apply unique_opt; intros; constructor
   | |- unique_keys (dump_opt (fun _ => JStr _) _) => apply unique_opt; intros; constructor
   end].
Lemma unique_map {A} (f : A -> json) l : (forall a, In a l -> unique_keys (f a)) -> unique_keys (JList (map f l)).
Proof. intros H. constructor. apply Forall_forall. intros j I. apply in_map_iff in I as (a & <- & I). auto. Qed.
Lemma unique_meta m : unique_keys (dump_meta m).
Proof. unfold dump_meta. unique_object. Qed.
Lemma unique_line l : unique_keys (dump_line l).
Proof. unfold dump_line. unique_object. Qed.
Lemma unique_flat a : unique_keys (dump_flat a).
Proof. unfold dump_flat. unique_object; [apply unique_meta|apply unique_map; intros; apply unique_line]. Qed.
Lemma unique_entry e : unique_keys (dump_entry e).
Proof. unfold dump_entry. unique_object. Qed.
Lemma unique_element d : unique_keys (dump_element d).
Proof.
  destruct d as [f|p]; cbn [dump_element]; [unfold dump_free_text; destruct (ft_input f)|unfold dump_pool; destruct (vp_input p)];
    cbn [dump_input app]; unique_object; try constructor; apply Forall_forall; intros j I; apply in_map_iff in I as (x & <- & I); apply unique_entry.
Qed.
Lemma unique_segment s : unique_keys (dump_segment s).
Proof. unfold dump_segment. unique_object. apply unique_map. intros; apply unique_element. Qed.
Lemma unique_group g : unique_keys (dump_group g).
Proof.
  induction g as [d e i ss gs IH] using group_ind'. cbn [dump_group]. unique_object.
  - apply unique_opt. intros l _. apply unique_map. intros; apply unique_segment.
  - destruct gs as [l|]; [|constructor]. apply unique_map. rewrite Forall_forall in IH. exact IH.
Qed.
Lemma unique_deep a : unique_keys (dump_deep a).
Proof. unfold dump_deep. unique_object; [apply unique_meta|apply unique_map; intros; apply unique_group]. Qed.
Lemma unique_sgh h : unique_keys (dump_sgh h).
Proof.
  induction h as [k o subs IH] using sgh_ind'. cbn [dump_sgh]. unique_object.
  destruct subs as [l|]; [|constructor]. apply unique_map. rewrite Forall_forall in IH. exact IH.
Qed.

(** ** dumped values have no floats *)
Lemma free_opt {A} (f : A -> json) o : (forall a, o = Some a -> float_free (f a)) -> float_free (dump_opt f o).
Proof. destruct o; intros H; [apply H; reflexivity|constructor]. Qed.
Ltac free_object := apply free_obj;
  repeat match goal with
   | |- Forall _ (_ :: _) => apply Forall_cons; cbn [snd]
   | |- Forall _ [] => apply Forall_nil
   end;
   try match goal with
   | |- float_free (JStr _) => constructor
   | |- float_free (dump_opt JStr _) => apply free_opt; intros; constructor
   | |- float_free (dump_opt JInt _) => apply free_opt; intros; constructor
   | |- float_free (dump_opt (fun _ => JStr _) _) => apply free_opt; intros; constructor
   end.
Lemma free_map {A} (f : A -> json) l : (forall a, In a l -> float_free (f a)) -> float_free (JList (map f l)).
Proof. intros H. constructor. apply Forall_forall. intros j I. apply in_map_iff in I as (a & <- & I). auto. Qed.
Lemma free_meta m : float_free (dump_meta m).
Proof. unfold dump_meta. free_object. Qed.
Lemma free_line l : float_free (dump_line l).
Proof. unfold dump_line. free_object. Qed.
Lemma free_flat a : float_free (dump_flat a).
Proof. unfold dump_flat. free_object; [apply free_meta|apply free_map; intros; apply free_line]. Qed.
Lemma free_entry e : float_free (dump_entry e).
Proof. unfold dump_entry. free_object. Qed.
Lemma free_element d : float_free (dump_element d).
Proof.
  destruct d as [f|p]; cbn [dump_element]; [unfold dump_free_text; destruct (ft_input f)|unfold dump_pool; destruct (vp_input p)];
    cbn [dump_input app]; free_object; try constructor; apply Forall_forall; intros j I; apply in_map_iff in I as (x & <- & I); apply free_entry.
Qed.
Lemma free_segment s : float_free (dump_segment s).
Proof. unfold dump_segment. free_object. apply free_map. intros; apply free_element. Qed.
Lemma free_group g : float_free (dump_group g).
Proof.
  induction g as [d e i ss gs IH] using group_ind'. cbn [dump_group]. free_object.
  - apply free_opt. intros l _. apply free_map. intros; apply free_segment.
  - destruct gs as [l|]; [|constructor]. apply free_map. rewrite Forall_forall in IH. exact IH.
Qed.
Lemma free_deep a : float_free (dump_deep a).
Proof. unfold dump_deep. free_object; [apply free_meta|apply free_map; intros; apply free_group]. Qed.
Lemma free_sgh h : float_free (dump_sgh h).
Proof.
  induction h as [k o subs IH] using sgh_ind'. cbn [dump_sgh]. free_object.
  destruct subs as [l|]; [|constructor]. apply free_map. rewrite Forall_forall in IH. exact IH.
Qed.

(** ** reordered values *)
Lemma reordered_unique j : forall j', reordered j j' -> unique_keys j -> unique_keys j'.
Proof.
  induction j as [|b|z|t|s|l IH|o IH] using json_induction; intros j' R U; try (inversion R; subst; exact U).
  - inversion R as [|? l' F|]; subst; [exact U|]. inversion U as [| | | | |? Ul|]; subst. constructor. revert IH Ul. clear R U.
    induction F as [|x y l l' Rx _ IHF]; intros IH Ul; [constructor|]. inversion IH; subst. inversion Ul; subst. constructor; auto.
  - inversion R as [| |? o1 o' Nd F P]; subst; [exact U|]. inversion U as [| | | | | |? N Ul]; subst.
    constructor; [eapply Permutation_NoDup; [apply Permutation_map; exact P|]; rewrite (keys_same o o1 F); exact N|].
    eapply Permutation_Forall; [exact P|]. clear - IH Ul F. induction F as [|x y o o1 [_ Rx] _ IHF]; [constructor|].
    inversion IH; subst. inversion Ul; subst. constructor; auto.
Qed.
Lemma reordered_free j : forall j', reordered j j' -> float_free j -> float_free j'.
Proof.
  induction j as [|b|z|t|s|l IH|o IH] using json_induction; intros j' R U; try (inversion R; subst; exact U).
  - inversion R as [|? l' F|]; subst; [exact U|]. inversion U as [| | | |? Ul|]; subst. constructor. revert IH Ul. clear R U.
    induction F as [|x y l l' Rx _ IHF]; intros IH Ul; [constructor|]. inversion IH; subst. inversion Ul; subst. constructor; auto.
  - inversion R as [| |? o1 o' Nd F P]; subst; [exact U|]. inversion U as [| | | | |? Ul]; subst.
    constructor. eapply Permutation_Forall; [exact P|]. clear - IH Ul F. induction F as [|x y o o1 [_ Rx] _ IHF]; [constructor|].
    inversion IH; subst. inversion Ul; subst. constructor; auto.
Qed.
