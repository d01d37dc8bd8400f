(** Lemmas about comparing and writing deep AHBs. *)
From Coq Require Import Ascii String List NArith ZArith Bool Permutation Sorted.
From Verif Require Import PyBase PyStr PyRe M_Components M_Ahb M_Sgh M_Navigation M_Matching M_Schema M_Xml M_MigXml M_Cli
  L_Base L_FlatAhb S_DeepAhb L_DeepAhb S_Json L_Json L_Load S_Cli L_Reorder.
Import ListNotations.
Local Open Scope list_scope.

Lemma oeqb_str (a b : option pystr) : opt_eqb str_eqb a b = true <-> a = b.
Proof. apply opt_eqb_eq. apply str_eqb_eq. Qed.
Lemma deep_eqb_eq a b : deep_eqb a b = true <-> a = b.
Proof.
  unfold deep_eqb. rewrite andb_true_iff, (list_eqb_eq _ group_eqb_eq).
  assert (M : forall x y, meta_eqb x y = true <-> x = y).
  { intros [p v d r] [p' v' d' r']. unfold meta_eqb. cbn. rewrite ?andb_true_iff, ?str_eqb_eq, ?ostr_eqb_eq, ?oeqb_str.
    split; [intuition congruence|intros [=]; intuition]. }
  rewrite M. destruct a, b. cbn. split; [intros [-> ->]; reflexivity|intros [=]; auto].
Qed.

Lemma some_eq {A} (a b : A) : Some a = Some b <-> a = b.
Proof. split; congruence. Qed.
Lemma elements_eq l l' : Forall2 (@eq DataElement) l l' <-> l = l'.
Proof.
  split; [induction 1; congruence|intros ->; induction l'; constructor; auto].
Qed.
Lemma segment_same s s' : segments_related eq (fun _ _ => True) s s' <-> segment_reset_index s = segment_reset_index s'.
Proof.
  unfold segments_related. rewrite elements_eq. destruct s, s'. unfold segment_reset_index. cbn.
  split; [intros (-> & -> & _ & -> & -> & ->); reflexivity|intros [=]; subst; auto 10].
Qed.
Lemma map_same {A} (R : A -> A -> Prop) (f : A -> A) l : Forall (fun a => forall a', R a a' <-> f a = f a') l ->
  forall l', Forall2 R l l' <-> map f l = map f l'.
Proof.
  induction 1 as [|a l H _ IH]; intros [|a' l']; cbn [map]; try (split; [intros K; inversion K|discriminate]).
  - split; constructor.
  - split; [intros K; inversion K; subst; f_equal; [now apply H|now apply IH]|].
    intros K. assert (f a = f a' /\ map f l = map f l') as [K1 K2] by (split; congruence). constructor; [now apply H|now apply IH].
Qed.
Lemma group_same g : forall g', groups_related eq (fun _ _ => True) g g' <-> group_reset_index g = group_reset_index g'.
Proof.
  induction g as [d e i ss gs IH] using group_ind'. intros [d' e' i' ss' gs']. cbn [group_reset_index].
  assert (S0 : opt_related (Forall2 (segments_related eq (fun _ _ => True))) ss ss'
               <-> option_map (map segment_reset_index) ss = option_map (map segment_reset_index) ss').
  { destruct ss as [l|], ss' as [l'|]; cbn; try (split; [intros K; inversion K|discriminate]); [|split; constructor].
    rewrite (some_eq (map segment_reset_index l) (map segment_reset_index l')).
    rewrite <- (map_same (segments_related eq (fun _ _ => True)) segment_reset_index l); [split; [intros K; now inversion K|now constructor]|].
    apply Forall_forall. intros s _ s'. apply segment_same. }
  assert (G0 : opt_related (Forall2 (groups_related eq (fun _ _ => True))) gs gs'
               <-> match gs with Some l => Some (map group_reset_index l) | None => None end
                   = match gs' with Some l => Some (map group_reset_index l) | None => None end).
  { destruct gs as [l|], gs' as [l'|]; cbn; try (split; [intros K; inversion K|discriminate]); [|split; constructor].
    rewrite (some_eq (map group_reset_index l) (map group_reset_index l')).
    rewrite <- (map_same (groups_related eq (fun _ _ => True)) group_reset_index l IH). split; [intros K; now inversion K|now constructor]. }
  split.
  - intros K. inversion K; subst. f_equal; [now apply S0|now apply G0].
  - intros K. injection K as -> -> K1 K2. constructor; [exact I|now apply S0|now apply G0].
Qed.
Lemma same_iff a b : same_but_index a b <-> deep_reset_index a = deep_reset_index b.
Proof.
  destruct a as [m ls], b as [m' ls']. unfold same_but_index, ahbs_related, deep_reset_index. cbn.
  rewrite (map_same _ group_reset_index ls) by (apply Forall_forall; intros; apply group_same).
  split; [intros [-> ->]; reflexivity|]. intros K. split; congruence.
Qed.

(** ** sorted keys *)
Lemma insert_sorted k v o : StronglySorted (fun a b => str_leb a b = true) (map fst o) ->
  StronglySorted (fun a b => str_leb a b = true) (map fst (insert_key k v o)).
Proof.
  induction o as [|[k' v'] o IH]; intros H; cbn [insert_key map fst]; [repeat constructor|].
  destruct (str_leb k k') eqn:E; cbn [map fst] in *.
  - constructor; [exact H|]. apply StronglySorted_inv in H as [_ H]. constructor; [exact E|].
    eapply Forall_impl; [|exact H]. intros a. now apply str_leb_trans.
  - apply StronglySorted_inv in H as [H1 H2]. constructor; [auto|].
    assert (E' : str_leb k' k = true) by (destruct (str_leb_total k k'); congruence).
    apply Forall_forall. intros x I. apply in_map_iff in I as ([y w] & <- & I). cbn.
    apply (Permutation_in _ (Permutation_sym (insert_permutation k v o))) in I. destruct I as [[= -> ->]|I]; [exact E'|].
    rewrite Forall_forall in H2. apply H2. apply (in_map fst) in I. exact I.
Qed.
Lemma sort_ascending j : unique_keys j -> ascending_keys (sort_keys j).
Proof.
  induction j as [|b|z|t|s|l IH|o IH] using json_induction; intros U; cbn [sort_keys]; try constructor.
  - inversion U as [| | | | |l' F|]; subst. apply Forall_forall. intros x I. apply in_map_iff in I as (y & <- & I).
    rewrite Forall_forall in IH, F. auto.
  - inversion U as [| | | | | |o' N F]; subst. set (o1 := map _ o).
    assert (K : map fst o1 = map fst o) by (subst o1; rewrite map_map; apply map_ext; now intros [k v]).
    apply sorted_nodup_less.
    + clear. induction o1 as [|[k v] o1 IH]; cbn [sort_items]; [constructor|now apply insert_sorted].
    + eapply Permutation_NoDup; [apply Permutation_map, sort_permutation|]. now rewrite K.
  - inversion U as [| | | | | |o' N F]; subst. set (o1 := map _ o).
    apply Forall_forall. intros kv I. apply (Permutation_in _ (Permutation_sym (sort_permutation o1))) in I.
    subst o1. apply in_map_iff in I as ([k v] & <- & I). cbn. rewrite Forall_forall in IH, F. apply (IH _ I), (F _ I).
Qed.
Lemma groups_forget {R I} g : forall g', groups_related R I g g' -> groups_related R (fun _ _ => True) g g'.
Proof.
  assert (S0 : forall s s', segments_related R I s s' -> segments_related R (fun _ _ => True) s s') by (unfold segments_related; tauto).
  induction g as [d e i ss gs IH] using group_ind'. intros g' H. inversion H as [? ? ? ? ? ss' ? gs' _ HS HG]; subst; clear H. constructor; [exact Logic.I| |].
  - destruct HS as [|l l' HS]; constructor. eapply Forall2_impl; [|exact HS]. exact S0.
  - destruct HG as [|l l' HG]; constructor. cbn [olist] in IH. induction HG as [|x y l l' Hxy HG IHl]; constructor; inversion IH; subst; auto.
Qed.

(** ** sorting is canonical *)
Lemma insert_comm k1 v1 k2 v2 o : k1 <> k2 -> insert_key k1 v1 (insert_key k2 v2 o) = insert_key k2 v2 (insert_key k1 v1 o).
Proof.
  intros N. induction o as [|[k v] o IH].
  - cbn. destruct (str_leb k1 k2) eqn:A, (str_leb k2 k1) eqn:B; try reflexivity.
    + destruct N. now apply str_leb_antisym.
    + destruct (str_leb_total k1 k2); congruence.
  - cbn [insert_key]. destruct (str_leb k2 k) eqn:A2, (str_leb k1 k) eqn:A1; cbn [insert_key]; rewrite ?A1, ?A2.
    + destruct (str_leb k1 k2) eqn:A, (str_leb k2 k1) eqn:B; try reflexivity.
      * destruct N. now apply str_leb_antisym.
      * destruct (str_leb_total k1 k2); congruence.
    + destruct (str_leb k1 k2) eqn:A; [|reflexivity]. rewrite (str_leb_trans _ _ _ A A2) in A1. discriminate.
    + destruct (str_leb k2 k1) eqn:A; [|reflexivity]. rewrite (str_leb_trans _ _ _ A A1) in A2. discriminate.
    + now rewrite IH.
Qed.
Lemma sort_items_permutation o o' : Permutation o o' -> NoDup (map fst o) -> sort_items o = sort_items o'.
Proof.
  induction 1 as [|[k v] o o' P IH|[k1 v1] [k2 v2] o|o1 o2 o3 P1 IH1 P2 IH2]; intros N.
  - reflexivity.
  - cbn [sort_items]. rewrite IH; [reflexivity|]. now inversion N.
  - cbn [sort_items]. apply insert_comm. cbn in N. inversion N as [|? ? K _]; subst. intros ->. apply K. now left.
  - rewrite IH1 by exact N. apply IH2. eapply Permutation_NoDup; [apply Permutation_map; exact P1|exact N].
Qed.
Lemma sort_canonical j : forall j', reordered j j' -> sort_keys j = sort_keys j'.
Proof.
  induction j as [|b|z|t|s|l IH|o IH] using json_induction; intros j' R; try (inversion R; subst; reflexivity).
  - inversion R as [|? l' F|]; subst; [reflexivity|]. cbn [sort_keys]. f_equal. clear R.
    induction F as [|x y l l' Rx _ IHF]; [reflexivity|]. inversion IH; subst. cbn [map]. f_equal; auto.
  - inversion R as [| |? o1 o' Nd F P]; subst; [reflexivity|]. cbn [sort_keys]. f_equal.
    set (f := fun kv : pystr * json => let (k, v) := kv in (k, sort_keys v)).
    assert (E : map f o = map f o1).
    { clear - IH F. induction F as [|[k x] [k' y] o o1 [K Rx] _ IHF]; [reflexivity|]. inversion IH; subst. cbn [map].
      cbn [fst snd] in *. subst k'. f_equal; [|auto]. cbn. f_equal. auto. }
    rewrite E. apply sort_items_permutation; [now apply Permutation_map|].
    rewrite <- E. rewrite map_map. assert (K : map (fun x => fst (f x)) o = map fst o) by (apply map_ext; now intros [k v]). now rewrite K.
Qed.
(** ** indexes are not written *)
Lemma dump_segment_reset s : dump_segment (segment_reset_index s) = dump_segment s.
Proof. reflexivity. Qed.
Lemma dump_group_reset g : dump_group (group_reset_index g) = dump_group g.
Proof.
  induction g as [d e i ss gs IH] using group_ind'. cbn [group_reset_index dump_group].
  assert (S0 : dump_opt (fun l => JList (map dump_segment l)) (option_map (map segment_reset_index) ss) = dump_opt (fun l => JList (map dump_segment l)) ss).
  { destruct ss as [l|]; [|reflexivity]. cbn [option_map dump_opt]. rewrite map_map. reflexivity. }
  rewrite S0. destruct gs as [l|]; [|reflexivity]. cbn [option_map]. rewrite map_map.
  assert (G0 : map (fun x => dump_group (group_reset_index x)) l = map dump_group l) by (apply map_ext_in; rewrite Forall_forall in IH; exact IH).
  now rewrite G0.
Qed.
Lemma dump_deep_reset a : dump_deep (deep_reset_index a) = dump_deep a.
Proof.
  destruct a as [m l]. unfold dump_deep, deep_reset_index. cbn [da_meta da_lines]. rewrite map_map.
  assert (G0 : map (fun x => dump_group (group_reset_index x)) l = map dump_group l) by (apply map_ext; apply dump_group_reset).
  now rewrite G0.
Qed.
Lemma same_dump a b : same_but_index a b -> dump_deep a = dump_deep b.
Proof. intros H. apply same_iff in H. rewrite <- (dump_deep_reset a), <- (dump_deep_reset b). now rewrite H. Qed.
