(** Lemmas about M_Virtual.v *)
From Coq Require Import Ascii String List NArith ZArith Bool Arith Lia Permutation.
From Verif Require Import PyBase PyStr M_Components M_Xml M_MigXml M_Virtual L_Base L_Qualifiers S_MigXml S_Virtual.
Import ListNotations.
Local Open Scope list_scope.

Lemma pos_eqb_eq a b : pos_eqb a b = true <-> a = b.
Proof.
  revert b. induction a as [|i a IH]; intros [|j b]; cbn; try (split; congruence).
  rewrite andb_true_iff, Nat.eqb_eq, IH. split; [intros [-> ->]; reflexivity|intros [= -> ->]; auto].
Qed.
Lemma pos_eqb_refl a : pos_eqb a a = true.
Proof. now apply pos_eqb_eq. Qed.
Lemma pos_eqb_neq a b : pos_eqb a b = false <-> a <> b.
Proof. rewrite <- pos_eqb_eq. destruct (pos_eqb a b); split; congruence. Qed.

Lemma node_rect' (P : node -> Prop) : (forall i t a x cs, (forall c, In c cs -> P c) -> P (Node i t a x cs)) -> forall n, P n.
Proof.
  intros H. fix IH 1. intros [i t a x cs]. apply H. induction cs as [|c cs IHc]; [contradiction|].
  intros d [<- |D]; [apply IH|now apply IHc].
Qed.
Lemma element_rect' (P : element -> Prop) : (forall t a x cs, (forall c, In c cs -> P c) -> P (Element t a x cs)) -> forall e, P e.
Proof.
  intros H. fix IH 1. intros [t a x cs]. apply H. induction cs as [|c cs IHc]; [contradiction|].
  intros d [<- |D]; [apply IH|now apply IHc].
Qed.

(** all the nodes of a tree with their identities, without children *)
Fixpoint flat (n : node) : list (pos * element) :=
  match n with Node i t a x cs => (i, Element t a x []) :: flat_map flat cs end.
Definition ids (l : list node) : list pos := map fst (flat_map flat l).

Definition labels (p : pos) := fix each (i : nat) (l : list element) : list node :=
  match l with [] => [] | c :: r => label (p ++ [i]) c :: each (S i) r end.
Lemma label_eq p t a x cs : label p (Element t a x cs) = Node p t a x (labels p 0 cs).
Proof. reflexivity. Qed.

Lemma map_flat_map {A B C} (f : B -> C) (g : A -> list B) l : map f (flat_map g l) = flat_map (fun a => map f (g a)) l.
Proof. induction l as [|a l IH]; [reflexivity|]. cbn [flat_map]. now rewrite map_app, IH. Qed.
Lemma flat_map_congr {A B} (f g : A -> list B) l : (forall a, In a l -> f a = g a) -> flat_map f l = flat_map g l.
Proof. induction l as [|a l IH]; intros H; [reflexivity|]. cbn [flat_map]. rewrite (H a) by now left. rewrite IH; [reflexivity|]. intros b B0. apply H. now right. Qed.

Lemma flat_map_map {A B C} (f : B -> list C) (g : A -> B) l : flat_map f (map g l) = flat_map (fun a => f (g a)) l.
Proof. induction l as [|a l IH]; [reflexivity|]. cbn. now rewrite IH. Qed.
Lemma erase_flat n : all_elements (erase n) = map snd (flat n).
Proof.
  induction n as [i t a x cs IH] using node_rect'. cbn [erase all_elements flat map snd]. f_equal.
  rewrite map_flat_map, flat_map_map. now apply flat_map_congr.
Qed.
Lemma erase_label p e : erase (label p e) = e.
Proof.
  revert p. induction e as [t a x cs IH] using element_rect'. intros p. rewrite label_eq. cbn [erase]. f_equal.
  generalize 0 as i. induction cs as [|c cs IHc]; intros i; [reflexivity|]. cbn [labels map]. rewrite IH by now left.
  f_equal. apply IHc. intros d D. apply IH. now right.
Qed.
Lemma erase_labels p cs : forall i, map erase (labels p i cs) = cs.
Proof. induction cs as [|c cs IH]; intros i; [reflexivity|]. cbn [labels map]. now rewrite erase_label, IH. Qed.

Lemma label_ids_prefix p e : forall k, In k (map fst (flat (label p e))) -> exists s, k = p ++ s.
Proof.
  revert p. induction e as [t a x cs IH] using element_rect'. intros p k. rewrite label_eq. cbn [flat map fst].
  intros [<- |K]; [exists []; now rewrite app_nil_r|].
  assert (G : forall i l, (forall c, In c l -> In c cs) -> In k (map fst (flat_map flat (labels p i l))) -> exists j s, i <= j /\ k = p ++ j :: s).
  { intros i l. revert i. induction l as [|c l IHl]; intros i Hc H; [contradiction|]. cbn [labels flat_map] in H.
    rewrite map_app in H. apply in_app_or in H as [H|H].
    - apply IH in H as (s & ->); [|apply Hc; now left]. exists i, s. split; [lia|]. now rewrite <- app_assoc.
    - apply IHl in H as (j & s & L & ->); [|intros d D; apply Hc; now right]. exists j, s. split; [lia|reflexivity]. }
  apply (G 0 cs) in K as (j & s & _ & ->); [eauto|auto].
Qed.
Lemma labels_ids_prefix p l : forall i k, In k (ids (labels p i l)) -> exists j s, i <= j /\ k = p ++ j :: s.
Proof.
  induction l as [|c l IHl]; intros i k H; [contradiction|]. unfold ids in H. cbn [labels flat_map] in H.
  rewrite map_app in H. apply in_app_or in H as [H|H].
  - apply label_ids_prefix in H as (s & ->). exists i, s. split; [lia|]. now rewrite <- app_assoc.
  - apply IHl in H as (j & s & L & ->). exists j, s. split; [lia|reflexivity].
Qed.
Lemma NoDup_app {A} (a b : list A) : NoDup a -> NoDup b -> (forall x, In x a -> ~ In x b) -> NoDup (a ++ b).
Proof.
  induction a as [|x a IH]; intros Ha Hb D; [exact Hb|]. inversion Ha as [|? ? N Ha']; subst. cbn. constructor.
  - intros H. apply in_app_or in H as [H|H]; [now apply N|]. apply (D x); [now left|exact H].
  - apply IH; auto. intros y Y. apply D. now right.
Qed.
Lemma NoDup_app_remove_l {A} (a b : list A) : NoDup (a ++ b) -> NoDup b.
Proof. induction a as [|x a IH]; intros H; [exact H|]. cbn in H. inversion H; auto. Qed.
Lemma NoDup_app_remove_r {A} (a b : list A) : NoDup (a ++ b) -> NoDup a.
Proof.
  induction a as [|x a IH]; intros H; [constructor|]. cbn in H. inversion H as [|? ? N H']; subst. constructor; auto.
  intros X. apply N. apply in_or_app. now left.
Qed.
Lemma label_nodup p e : NoDup (map fst (flat (label p e))).
Proof.
  revert p. induction e as [t a x cs IH] using element_rect'. intros p. rewrite label_eq. cbn [flat map fst].
  constructor.
  - intros H. apply (labels_ids_prefix p cs 0) in H as (j & s & _ & E). apply (f_equal (@List.length nat)) in E.
    rewrite app_length in E. cbn in E. lia.
  - change (NoDup (ids (labels p 0 cs))). generalize 0 as i. induction cs as [|c cs IHc]; intros i; [constructor|].
    unfold ids. cbn [labels flat_map]. rewrite map_app. apply NoDup_app.
    + apply IH. now left.
    + apply IHc. intros d D. apply IH. now right.
    + intros k K K'. apply label_ids_prefix in K as (s & ->). apply labels_ids_prefix in K' as (j & s' & L & E).
      rewrite <- app_assoc in E. apply app_inv_head in E. injection E as -> _. lia.
Qed.

(** ** one group *)

Lemma insert_child_perm i x l : Permutation (x :: l) (insert_child i x l).
Proof.
  unfold insert_child. set (j := match i with O => _ | S j => j end).
  transitivity (x :: firstn j l ++ skipn j l); [now rewrite firstn_skipn|]. apply Permutation_middle.
Qed.
Lemma fold_insert_perm i fs : forall l, Permutation (fs ++ l) (fold_left (fun l f => insert_child i f l) fs l).
Proof.
  induction fs as [|f fs IH]; intros l; [reflexivity|]. cbn [fold_left]. rewrite <- IH.
  transitivity (fs ++ f :: l); [apply Permutation_middle|]. apply Permutation_app_head. apply insert_child_perm.
Qed.
Lemma filter_perm {A} (f : A -> bool) (a b : list A) : Permutation a b -> Permutation (filter f a) (filter f b).
Proof.
  induction 1 as [|x a b H IH|x y a|a b c H1 IH1 H2 IH2]; cbn.
  - constructor.
  - destruct (f x); [now constructor|exact IH].
  - destruct (f y), (f x); try reflexivity; constructor.
  - now transitivity (filter f b).
Qed.
Lemma flat_map_perm {A B} (f : A -> list B) (a b : list A) : Permutation a b -> Permutation (flat_map f a) (flat_map f b).
Proof.
  induction 1 as [|x a b H IH|x y a|a b c H1 IH1 H2 IH2]; cbn.
  - constructor.
  - now apply Permutation_app_head.
  - rewrite !app_assoc. apply Permutation_app_tail. apply Permutation_app_comm.
  - now transitivity (flat_map f b).
Qed.

Lemma node_id_in n : In (node_id n) (map fst (flat n)).
Proof. destruct n. now left. Qed.
Lemma in_ids n l : In n l -> forall k, In k (map fst (flat n)) -> In k (ids l).
Proof. intros H k K. unfold ids. rewrite map_flat_map. apply in_flat_map. eauto. Qed.
Lemma children_ids n : forall c, In c (node_children n) -> In (node_id c) (ids (node_children n)).
Proof. intros c C. apply (in_ids c); [exact C|apply node_id_in]. Qed.
Lemma flat_children n : map fst (flat n) = node_id n :: ids (node_children n).
Proof. destruct n. reflexivity. Qed.
Lemma ids_app a b : ids (a ++ b) = ids a ++ ids b.
Proof. unfold ids. now rewrite flat_map_app, map_app. Qed.
Lemma ids_cons n l : ids (n :: l) = node_id n :: ids (node_children n) ++ ids l.
Proof. unfold ids. cbn [flat_map]. rewrite map_app, flat_children. reflexivity. Qed.
Lemma ids_perm a b : Permutation a b -> Permutation (ids a) (ids b).
Proof. intros H. unfold ids. apply Permutation_map. now apply flat_map_perm. Qed.

Lemma index_of_middle k A g B : ~ In k (map node_id A) -> node_id g = k -> index_of_node k (A ++ g :: B) = Some (List.length A).
Proof.
  induction A as [|a A IH]; intros N E; cbn.
  - now rewrite E, pos_eqb_refl.
  - rewrite (proj2 (pos_eqb_neq _ _)) by (intros X; apply N; now left). rewrite IH; auto. intros X. apply N. now right.
Qed.
Lemma remove_none k l : (forall n, In n l -> node_id n <> k) -> remove_child k l = l.
Proof.
  induction l as [|n l IH]; intros H; [reflexivity|]. cbn. rewrite (proj2 (pos_eqb_neq _ _)) by (apply H; now left). cbn.
  f_equal. apply IH. intros m M. apply H. now right.
Qed.
Lemma remove_app k a b : remove_child k (a ++ b) = remove_child k a ++ remove_child k b.
Proof. apply filter_app. Qed.
Lemma remove_head k g l : node_id g = k -> remove_child k (g :: l) = remove_child k l.
Proof. intros <-. cbn. now rewrite pos_eqb_refl. Qed.

Lemma nodup_ids_neq g A B : NoDup (ids (A ++ g :: B)) ->
  (forall n, In n A \/ In n B \/ In n (node_children g) -> node_id n <> node_id g).
Proof.
  rewrite ids_app, ids_cons. intros N n H E.
  assert (K : NoDup (node_id g :: ids A ++ ids (node_children g) ++ ids B)).
  { eapply Permutation_NoDup; [|exact N]. symmetry. apply Permutation_middle. }
  inversion K as [|? ? K1 _]; subst. apply K1. rewrite <- E. rewrite !in_app_iff.
  destruct H as [H|[H|H]]; [left|right; right|right; left]; (eapply in_ids; [exact H|apply node_id_in]).
Qed.

Lemma unpack_group_middle g A B : NoDup (ids (A ++ g :: B)) ->
  unpack_group (A ++ g :: B) (node_id g) =
  remove_child (node_id g) (fold_left (fun l f => insert_child (List.length A) f l) (node_children g) (A ++ g :: B)).
Proof.
  intros N. unfold unpack_group. rewrite index_of_middle; auto.
  - rewrite nth_error_app2, Nat.sub_diag by lia. reflexivity.
  - intros H. apply in_map_iff in H as (n & E & H). eapply nodup_ids_neq in N; [apply N; exact E|now left].
Qed.
Lemma unpack_group_perm g A B : NoDup (ids (A ++ g :: B)) ->
  Permutation (node_children g ++ A ++ B) (unpack_group (A ++ g :: B) (node_id g)).
Proof.
  intros N. rewrite unpack_group_middle by exact N. pose proof (nodup_ids_neq _ _ _ N) as D. unfold remove_child.
  rewrite <- (filter_perm _ _ _ (fold_insert_perm _ _ _)).
  change (Permutation (node_children g ++ A ++ B) (remove_child (node_id g) (node_children g ++ A ++ g :: B))).
  rewrite !remove_app, remove_head by reflexivity. rewrite !remove_none; [reflexivity| | |]; intros n H; apply D; auto.
Qed.

Lemma unpack_groups_perm vs : forall rest l, NoDup (ids l) -> Permutation l (rest ++ vs) ->
  Permutation (rest ++ flat_map node_children vs) (fold_left unpack_group (map node_id vs) l).
Proof.
  induction vs as [|v vs IH]; intros rest l N P.
  - cbn. rewrite app_nil_r in *. now symmetry.
  - cbn [flat_map map fold_left].
    assert (V : In v l) by (apply (Permutation_in v (Permutation_sym P)); apply in_elt).
    apply in_split in V as (A & B & ->). pose proof (unpack_group_perm v A B N) as Q.
    assert (R : Permutation (A ++ B) (rest ++ vs)).
    { apply Permutation_cons_inv with v. rewrite Permutation_middle, P. symmetry. apply Permutation_middle. }
    transitivity ((node_children v ++ rest) ++ flat_map node_children vs).
    { rewrite !app_assoc. apply Permutation_app_tail. apply Permutation_app_comm. }
    apply IH.
    + apply (Permutation_NoDup (ids_perm _ _ Q)). rewrite ids_app.
      rewrite ids_app, ids_cons in N. rewrite ids_app.
      assert (K : NoDup (node_id v :: ids (node_children v) ++ ids A ++ ids B)).
      { eapply Permutation_NoDup; [|exact N]. rewrite <- Permutation_middle. constructor.
        rewrite !app_assoc. apply Permutation_app_tail. apply Permutation_app_comm. }
      now inversion K.
    + rewrite <- Q, <- app_assoc. now apply Permutation_app_head.
Qed.
Lemma filter_partition {A} (f : A -> bool) l : Permutation l (filter (fun x => negb (f x)) l ++ filter f l).
Proof.
  induction l as [|x l IH]; [constructor|]. cbn. destruct (f x); cbn.
  - rewrite <- Permutation_middle. now constructor.
  - now constructor.
Qed.
Lemma unpack_children_perm l : NoDup (ids l) ->
  Permutation (filter (fun n => negb (virtual_node n)) l ++ flat_map node_children (filter virtual_node l)) (unpack_children l).
Proof. intros N. apply unpack_groups_perm; [exact N|apply filter_partition]. Qed.

(** ** all the groups *)

Definition virtual_flat (x : pos * element) : Prop := virtual_element (snd x) = true.
Lemma flat_group n : flat n = (node_id n, alone (erase n)) :: flat_map flat (node_children n).
Proof. destruct n. reflexivity. Qed.
Lemma virtual_node_flat n : virtual_node n = virtual_element (alone (erase n)).
Proof. destruct n. reflexivity. Qed.

Lemma flat_map_flat_map {A B C} (f : B -> list C) (g : A -> list B) l : flat_map f (flat_map g l) = flat_map (fun a => flat_map f (g a)) l.
Proof. induction l as [|a l IH]; [reflexivity|]. cbn. now rewrite flat_map_app, IH. Qed.
Lemma flat_groups l : Permutation (flat_map flat l) (flat_map flat (flat_map node_children l) ++ map (fun n => (node_id n, alone (erase n))) l).
Proof.
  induction l as [|n l IH]; [constructor|]. cbn [flat_map map]. rewrite flat_group, flat_map_app, <- Permutation_middle. cbn [app].
  constructor. rewrite <- app_assoc. now apply Permutation_app_head.
Qed.
Lemma unpack_children_flat l : NoDup (ids l) -> exists gs,
  Forall virtual_flat gs /\ Permutation (flat_map flat l) (flat_map flat (unpack_children l) ++ gs).
Proof.
  intros N. exists (map (fun n => (node_id n, alone (erase n))) (filter virtual_node l)). split.
  - apply Forall_forall. intros x H. apply in_map_iff in H as (n & <- & H). apply filter_In in H as [_ H].
    unfold virtual_flat. cbn. now rewrite <- virtual_node_flat.
  - rewrite <- (flat_map_perm flat _ _ (unpack_children_perm l N)), flat_map_app, <- app_assoc, <- flat_groups, <- flat_map_app.
    apply flat_map_perm, filter_partition.
Qed.

Lemma nodup_child c l : NoDup (ids l) -> In c l -> NoDup (map fst (flat c)).
Proof.
  intros N H. apply in_split in H as (A & B & ->). rewrite ids_app in N. apply NoDup_app_remove_l in N.
  unfold ids in N. cbn [flat_map] in N. rewrite map_app in N. now apply NoDup_app_remove_r in N.
Qed.
Lemma nodup_children n : NoDup (map fst (flat n)) -> NoDup (ids (node_children n)).
Proof. rewrite flat_children. now inversion 1. Qed.
Lemma flat_maps_perm {A B} (f g : A -> list B) (P : B -> Prop) l :
  (forall a, In a l -> exists gs, Forall P gs /\ Permutation (f a) (g a ++ gs)) ->
  exists gs, Forall P gs /\ Permutation (flat_map f l) (flat_map g l ++ gs).
Proof.
  induction l as [|a l IH]; intros H; [exists []; split; constructor|].
  destruct (H a) as (g1 & F1 & P1); [now left|]. destruct IH as (g2 & F2 & P2); [intros b B0; apply H; now right|].
  exists (g1 ++ g2). split; [apply Forall_app; auto|]. cbn [flat_map]. rewrite P1, P2, <- !app_assoc.
  apply Permutation_app_head. rewrite !app_assoc. apply Permutation_app_tail. apply Permutation_app_comm.
Qed.
Lemma unpack_at_flat k n : NoDup (map fst (flat n)) -> exists gs,
  Forall virtual_flat gs /\ Permutation (flat n) (flat (unpack_at k n) ++ gs).
Proof.
  induction n as [i t a x cs IH] using node_rect'. intros N. pose proof (nodup_children _ N) as N'. cbn [node_children] in N'.
  cbn [unpack_at]. destruct (pos_eqb i k); cbn [flat app].
  - destruct (unpack_children_flat cs N') as (gs & F & P). exists gs. split; [exact F|]. now constructor.
  - rewrite flat_map_map.
    destruct (flat_maps_perm flat (fun c => flat (unpack_at k c)) virtual_flat cs) as (gs & F & P).
    { intros c C. apply IH; [exact C|]. now apply nodup_child with cs. }
    exists gs. split; [exact F|]. constructor. rewrite P. reflexivity.
Qed.
Lemma unpack_at_nodup k n : NoDup (map fst (flat n)) -> NoDup (map fst (flat (unpack_at k n))).
Proof.
  intros N. destruct (unpack_at_flat k n N) as (gs & _ & P). apply (Permutation_map fst) in P. rewrite map_app in P.
  apply (Permutation_NoDup P) in N. now apply NoDup_app_remove_r in N.
Qed.
Lemma unpack_all_flat ks : forall n, NoDup (map fst (flat n)) -> exists gs,
  Forall virtual_flat gs /\ Permutation (flat n) (flat (fold_left (fun n k => unpack_at k n) ks n) ++ gs).
Proof.
  induction ks as [|k ks IH]; intros n N; [exists []; rewrite app_nil_r; split; [constructor|reflexivity]|].
  destruct (unpack_at_flat k n N) as (g1 & F1 & P1). destruct (IH (unpack_at k n)) as (g2 & F2 & P2); [now apply unpack_at_nodup|].
  exists (g2 ++ g1). split; [apply Forall_app; auto|]. cbn [fold_left]. rewrite P1, P2. now rewrite app_assoc.
Qed.
Lemma unpack_at_top k n : node_id (unpack_at k n) = node_id n /\ alone (erase (unpack_at k n)) = alone (erase n).
Proof. destruct n as [i t a x cs]. cbn [unpack_at]. destruct (pos_eqb i k); split; reflexivity. Qed.
Lemma unpack_all_top ks : forall n, alone (erase (fold_left (fun n k => unpack_at k n) ks n)) = alone (erase n).
Proof. induction ks as [|k ks IH]; intros n; [reflexivity|]. cbn. rewrite IH. apply unpack_at_top. Qed.

(** ** nothing virtual is left *)

Fixpoint all_nodes (n : node) : list node := match n with Node _ _ _ _ cs => n :: flat_map all_nodes cs end.
Lemma all_nodes_eq n : all_nodes n = n :: flat_map all_nodes (node_children n).
Proof. destruct n; reflexivity. Qed.

Lemma unpack_at_absent k n : ~ In k (map fst (flat n)) -> unpack_at k n = n.
Proof.
  induction n as [i t a x cs IH] using node_rect'. intros H. cbn [unpack_at]. rewrite flat_children in H. cbn [node_id node_children] in H.
  rewrite (proj2 (pos_eqb_neq _ _)) by (intros ->; apply H; now left). f_equal.
  rewrite <- (map_id cs) at 2. apply map_ext_in. intros c C. apply IH; [exact C|]. intros K. apply H. right. now apply in_ids with c.
Qed.
Lemma all_nodes_ids m n : In m (all_nodes n) -> forall k, In k (map fst (flat m)) -> In k (map fst (flat n)).
Proof.
  induction n as [i t a x cs IH] using node_rect'. intros [<- |H] k K; [exact K|]. apply in_flat_map in H as (c & C & H).
  rewrite flat_children. right. apply in_ids with c; [exact C|]. now apply (IH c C H).
Qed.
Lemma virtual_unpack_at k n : virtual_node (unpack_at k n) = virtual_node n.
Proof. rewrite !virtual_node_flat. now rewrite (proj2 (unpack_at_top k n)). Qed.

Lemma unpack_at_nodes k n : NoDup (map fst (flat n)) -> forall m', In m' (all_nodes (unpack_at k n)) ->
  exists m, In m (all_nodes n) /\ node_id m' = node_id m /\ virtual_node m' = virtual_node m
    /\ (node_id m = k -> Permutation (filter (fun n => negb (virtual_node n)) (node_children m)
                                      ++ flat_map node_children (filter virtual_node (node_children m))) (node_children m'))
    /\ (node_id m <> k -> node_children m' = map (unpack_at k) (node_children m)).
Proof.
  induction n as [i t a x cs IH] using node_rect'. intros N m' H. pose proof (nodup_children _ N) as N'. cbn [node_children] in N'.
  cbn [unpack_at] in H. destruct (pos_eqb i k) eqn:E.
  - apply pos_eqb_eq in E as ->. destruct H as [<- |H].
    + exists (Node k t a x cs). cbn [node_id node_children virtual_node]. split; [now left|]. split; [reflexivity|]. split; [reflexivity|].
      split; [intros _; now apply unpack_children_perm|congruence].
    + apply in_flat_map in H as (c & C & H). apply (Permutation_in c (Permutation_sym (unpack_children_perm cs N'))) in C.
      assert (M : In m' (flat_map all_nodes cs)).
      { apply in_app_or in C as [C|C].
        - apply filter_In in C as [C _]. apply in_flat_map. eauto.
        - apply in_flat_map in C as (g & G & C). apply filter_In in G as [G _]. apply in_flat_map. exists g. split; [exact G|].
          rewrite all_nodes_eq. right. apply in_flat_map. eauto. }
      assert (K : ~ In k (map fst (flat m'))).
      { intros K. rewrite flat_children in N. inversion N as [|? ? N1 _]; subst. apply N1. cbn [node_id node_children].
        apply in_flat_map in M as (d & D & M). apply in_ids with d; [exact D|]. now apply all_nodes_ids with m'. }
      exists m'. split; [now right|]. split; [reflexivity|]. split; [reflexivity|]. split.
      * intros X. exfalso. apply K. rewrite <- X. apply node_id_in.
      * intros _. rewrite <- (map_id (node_children m')) at 1. apply map_ext_in. intros d D. symmetry. apply unpack_at_absent.
        intros X. apply K. rewrite flat_children. right. now apply in_ids with d.
  - destruct H as [<- |H].
    + exists (Node i t a x cs). cbn [node_id node_children virtual_node]. split; [now left|]. split; [reflexivity|]. split; [reflexivity|].
      split; [|reflexivity]. intros ->. rewrite pos_eqb_refl in E. discriminate.
    + rewrite flat_map_map in H. apply in_flat_map in H as (c & C & H).
      apply IH in H as (m & M & R); [|exact C|now apply nodup_child with cs]. exists m. split; [|exact R]. right. apply in_flat_map. eauto.
Qed.

(** no virtual node has a virtual child *)
Definition flat_groups_only (n : node) : Prop :=
  forall m c, In m (all_nodes n) -> virtual_node m = true -> In c (node_children m) -> virtual_node c = false.
(** the nodes with virtual children are among [ks] *)
Definition only_at (ks : list pos) (n : node) : Prop :=
  forall m c, In m (all_nodes n) -> In c (node_children m) -> virtual_node c = true -> In (node_id m) ks.

Lemma in_all_nodes_child m n c : In m (all_nodes n) -> In c (node_children m) -> In c (all_nodes n).
Proof.
  induction n as [i t a x cs IH] using node_rect'. intros [<- |H] C.
  - right. apply in_flat_map. exists c. split; [exact C|]. rewrite all_nodes_eq. now left.
  - right. apply in_flat_map in H as (d & D & H). apply in_flat_map. exists d. split; [exact D|]. now apply (IH d D).
Qed.
Lemma unpacked_child k n m m' c : NoDup (map fst (flat n)) -> flat_groups_only n -> In m (all_nodes n) ->
  Permutation (filter (fun n => negb (virtual_node n)) (node_children m)
               ++ flat_map node_children (filter virtual_node (node_children m))) (node_children m') ->
  node_id m = k -> In c (node_children m') -> virtual_node c = false.
Proof.
  intros N F M P _ C. apply (Permutation_in c (Permutation_sym P)) in C. apply in_app_or in C as [C|C].
  - apply filter_In in C as [_ C]. now apply negb_true_iff.
  - apply in_flat_map in C as (g & G & C). apply filter_In in G as [G V]. apply (F g c); auto. now apply in_all_nodes_child with m.
Qed.
Lemma unpack_at_keeps k ks n : NoDup (map fst (flat n)) -> flat_groups_only n -> only_at (k :: ks) n ->
  flat_groups_only (unpack_at k n) /\ only_at ks (unpack_at k n).
Proof.
  intros N F O. split.
  - intros m' c M V C. destruct (unpack_at_nodes k n N m' M) as (m & Mm & I & Vm & A & B).
    destruct (list_eq_dec Nat.eq_dec (node_id m) k) as [E|E].
    + now apply (unpacked_child k n m m' c N F Mm (A E) E).
    + rewrite (B E) in C. apply in_map_iff in C as (d & <- & D). rewrite virtual_unpack_at. apply (F m d); auto. congruence.
  - intros m' c M C V. destruct (unpack_at_nodes k n N m' M) as (m & Mm & I & Vm & A & B). rewrite I.
    destruct (list_eq_dec Nat.eq_dec (node_id m) k) as [E|E].
    + rewrite (unpacked_child k n m m' c N F Mm (A E) E C) in V. discriminate.
    + rewrite (B E) in C. apply in_map_iff in C as (d & <- & D). rewrite virtual_unpack_at in V.
      destruct (O m d Mm D V) as [X|X]; [congruence|exact X].
Qed.
Lemma unpack_all_keeps ks : forall n, NoDup (map fst (flat n)) -> flat_groups_only n -> only_at ks n ->
  only_at [] (fold_left (fun n k => unpack_at k n) ks n).
Proof.
  induction ks as [|k ks IH]; intros n N F O; [exact O|]. cbn [fold_left].
  destruct (unpack_at_keeps k ks n N F O) as [F' O']. apply IH; auto. now apply unpack_at_nodup.
Qed.
Lemma only_at_parents n : only_at (parents n) n.
Proof.
  induction n as [i t a x cs IH] using node_rect'. intros m c M C V. destruct M as [<- |M].
  - cbn [parents node_id node_children] in *. rewrite (proj2 (existsb_exists virtual_node cs)); [now left|]. eauto.
  - apply in_flat_map in M as (d & D & M). cbn [parents]. apply in_or_app. right. apply in_flat_map. exists d. split; [exact D|].
    now apply (IH d D m c).
Qed.

Lemma virtual_group_alone e : virtual_group (alone e) <-> virtual_group e.
Proof. destruct e. reflexivity. Qed.
Lemma virtual_element_iff e : virtual_element e = true <-> virtual_group e.
Proof.
  unfold virtual_element, is_virtual, virtual_group. rewrite andb_true_iff, str_eqb_eq, ostr_eqb_eq.
  pose proof (attr_carries e (u "meta.virtual") (u "true")) as A. unfold attr in A. rewrite A. reflexivity.
Qed.
Lemma virtual_node_iff n : virtual_node n = true <-> virtual_group (erase n).
Proof. rewrite virtual_node_flat, virtual_element_iff. apply virtual_group_alone. Qed.
Lemma virtual_node_false n : ~ virtual_group (erase n) -> virtual_node n = false.
Proof. intros H. destruct (virtual_node n) eqn:E; [|reflexivity]. now apply virtual_node_iff in E. Qed.

Lemma erase_children n : el_children (erase n) = map erase (node_children n).
Proof. destruct n; reflexivity. Qed.
Lemma below_node n f : below (erase n) f -> exists m c, In m (all_nodes n) /\ In c (node_children m) /\ f = erase c.
Proof.
  revert f. induction n as [i t a x cs IH] using node_rect'. intros f H. inversion H as [c C|c f' C B]; subst;
  rewrite erase_children in C; cbn [node_children] in C; apply in_map_iff in C as (d & <- & D).
  - exists (Node i t a x cs), d. split; [now left|]. split; [exact D|reflexivity].
  - apply IH in B as (m & c & M & C & ->); [|exact D]. exists m, c. split; [right; apply in_flat_map; eauto|]. auto.
Qed.
Lemma all_nodes_below n m : In m (all_nodes n) -> m = n \/ below (erase n) (erase m).
Proof.
  induction n as [i t a x cs IH] using node_rect'. intros [<- |H]; [now left|]. right. apply in_flat_map in H as (c & C & H).
  assert (I : In (erase c) (el_children (erase (Node i t a x cs)))) by (cbn; now apply in_map).
  destruct (IH c C H) as [-> |B]; [now apply below_child|now apply below_deeper with (erase c)].
Qed.

(** ** the order of the children *)

Lemma insert_middle (A : list node) y l x : insert_child (S (List.length A)) x (A ++ y :: l) = A ++ x :: y :: l.
Proof. unfold insert_child. now rewrite firstn_app, skipn_app, Nat.sub_diag, firstn_all, skipn_all, firstn_O, app_nil_r. Qed.
Lemma fold_insert_middle (A : list node) fs : forall y l,
  fold_left (fun l f => insert_child (S (List.length A)) f l) fs (A ++ y :: l) = A ++ rev fs ++ y :: l.
Proof.
  induction fs as [|f fs IH]; intros y l; [reflexivity|]. cbn [fold_left rev]. rewrite insert_middle, IH, <- !app_assoc. reflexivity.
Qed.
Lemma insert_first (l : list node) z x : insert_child 0 x (l ++ [z]) = (l ++ [x]) ++ [z].
Proof.
  unfold insert_child. rewrite app_length. cbn [List.length]. replace (List.length l + 1 - 1) with (List.length l) by lia.
  now rewrite firstn_app, skipn_app, Nat.sub_diag, firstn_all, skipn_all, firstn_O, app_nil_r, <- app_assoc.
Qed.
Lemma fold_insert_first fs : forall (l : list node) z, fold_left (fun l f => insert_child 0 f l) fs (l ++ [z]) = (l ++ fs) ++ [z].
Proof.
  induction fs as [|f fs IH]; intros l z; [now rewrite app_nil_r|]. cbn [fold_left]. rewrite insert_first, IH, <- (app_assoc l). reflexivity.
Qed.

Lemma labels_app p a : forall i b, labels p i (a ++ b) = labels p i a ++ labels p (i + List.length a) b.
Proof.
  induction a as [|x a IH]; intros i b; [cbn; now rewrite Nat.add_0_r|]. cbn [labels app List.length]. rewrite IH. do 3 f_equal. lia.
Qed.
Lemma labels_length p a : forall i, List.length (labels p i a) = List.length a.
Proof. induction a as [|x a IH]; intros i; [reflexivity|]. cbn. now rewrite IH. Qed.
Lemma virtual_label p e : virtual_node (label p e) = virtual_element e.
Proof. destruct e; reflexivity. Qed.
Lemma label_children p e : node_children (label p e) = labels p 0 (el_children e).
Proof. destruct e; reflexivity. Qed.
Lemma label_id p e : node_id (label p e) = p.
Proof. destruct e; reflexivity. Qed.
Lemma no_virtual_labels p l : (forall c, In c l -> ~ virtual_group c) -> forall i, filter virtual_node (labels p i l) = [].
Proof.
  induction l as [|c l IH]; intros H i; [reflexivity|]. cbn [labels filter]. rewrite virtual_label.
  assert (V : virtual_element c = false).
  { destruct (virtual_element c) eqn:V; [|reflexivity]. apply virtual_element_iff in V. exfalso. apply (H c); [now left|exact V]. }
  rewrite V. apply IH. intros d D. apply H. now right.
Qed.
Lemma existsb_filter {A} (f : A -> bool) l : filter f l = [] -> existsb f l = false.
Proof. induction l as [|x l IH]; [reflexivity|]. cbn. destruct (f x); [discriminate|exact IH]. Qed.
Lemma no_parents p e : (forall f, below e f -> ~ virtual_group f) -> parents (label p e) = [].
Proof.
  revert p. induction e as [t a x cs IH] using element_rect'. intros p H. rewrite label_eq. cbn [parents].
  rewrite existsb_filter by (apply no_virtual_labels; intros c C; apply H; now apply below_child). cbn [app].
  assert (G : forall l i, (forall c, In c l -> In c cs) -> flat_map parents (labels p i l) = []).
  { induction l as [|c l IHl]; intros i Hc; [reflexivity|]. cbn [labels flat_map]. rewrite IH, IHl; [reflexivity| | |].
    - intros d D. apply Hc. now right.
    - apply Hc. now left.
    - intros f F. apply H. apply below_deeper with c; [apply Hc; now left|exact F]. }
  now apply G.
Qed.
Lemma no_parents_labels p l : (forall c f, In c l -> below c f -> ~ virtual_group f) -> forall i, flat_map parents (labels p i l) = [].
Proof.
  induction l as [|c l IH]; intros H i; [reflexivity|]. cbn [labels flat_map]. rewrite no_parents by (intros f F; apply (H c); [now left|exact F]).
  apply IH. intros d f D F. apply (H d f); [now right|exact F].
Qed.

(** a document whose only virtual group is a child of the root *)
Lemma unpack_one t a x before g behind :
  virtual_group g -> (forall f, below g f -> ~ virtual_group f) ->
  (forall c, In c (before ++ behind) -> ~ virtual_group c /\ forall f, below c f -> ~ virtual_group f) ->
  let l := labels [] 0 before ++ label [List.length before] g :: labels [] (S (List.length before)) behind in
  NoDup (ids l)
  /\ unpack_virtual_groups (Element t a x (before ++ g :: behind))
     = Element t a x (map erase (unpack_group l [List.length before])).
Proof.
  intros V Vg Vc l.
  assert (L : label [] (Element t a x (before ++ g :: behind)) = Node [] t a x l).
  { rewrite label_eq, labels_app. reflexivity. }
  assert (N : NoDup (ids l)).
  { change l with (node_children (Node [] t a x l)). rewrite <- L. apply nodup_children, label_nodup. }
  split; [exact N|]. unfold unpack_virtual_groups. rewrite L.
  assert (F : filter virtual_node l = [label [List.length before] g]).
  { unfold l. rewrite filter_app. cbn [filter]. rewrite virtual_label, (proj2 (virtual_element_iff g) V).
    rewrite !no_virtual_labels; [reflexivity| |]; intros c C; apply Vc; apply in_or_app; auto. }
  assert (P : parents (Node [] t a x l) = [[]]).
  { cbn [parents]. assert (X : existsb virtual_node l = true).
    { apply existsb_exists. exists (label [List.length before] g). split; [apply in_elt|]. now rewrite virtual_label, (proj2 (virtual_element_iff g)). }
    rewrite X. unfold l. rewrite flat_map_app. cbn [flat_map]. rewrite no_parents by exact Vg.
    rewrite !no_parents_labels; [reflexivity| |]; intros c f C B; (apply (Vc c); [apply in_or_app; auto|exact B]). }
  rewrite P. cbn [fold_left unpack_at pos_eqb erase]. unfold unpack_children. rewrite F. cbn [map fold_left]. now rewrite label_id.
Qed.
Lemma labels_no_id k p i l : (forall j s, i <= j -> k <> p ++ j :: s) -> remove_child k (labels p i l) = labels p i l.
Proof.
  intros H. apply remove_none. intros n I E. assert (K : In k (ids (labels p i l))) by (rewrite <- E; apply in_ids with n; [exact I|apply node_id_in]).
  apply labels_ids_prefix in K as (j & s & L & ->). now apply (H j s L).
Qed.
Lemma unpack_behind t a x before y g behind :
  virtual_group g -> (forall f, below g f -> ~ virtual_group f) ->
  (forall c, In c (before ++ y :: behind) -> ~ virtual_group c /\ forall f, below c f -> ~ virtual_group f) ->
  unpack_virtual_groups (Element t a x (before ++ y :: g :: behind))
  = Element t a x (before ++ rev (el_children g) ++ y :: behind).
Proof.
  intros V Vg Vc. destruct (unpack_one t a x (before ++ [y]) g behind V Vg) as [N E]; [now rewrite <- app_assoc|].
  rewrite <- app_assoc in E. cbn [app] in E. rewrite E. f_equal. clear E.
  pose proof (nodup_ids_neq _ _ _ N) as D. rewrite <- (label_id [List.length (before ++ [y])] g) at 2.
  rewrite unpack_group_middle by exact N. rewrite labels_length, app_length. cbn [List.length]. rewrite Nat.add_1_r.
  rewrite labels_app. cbn [labels app]. rewrite <- app_assoc. cbn [app].
  rewrite labels_app in D. rewrite <- (labels_length [] before 0), fold_insert_middle.
  rewrite (labels_length [] before 0). rewrite label_children.
  assert (R : forall l, (forall n, In n l -> node_id n <> node_id (label [List.length (before ++ [y])] g)) -> remove_child (node_id (label [List.length (before ++ [y])] g)) l = l) by (intros; now apply remove_none).
  rewrite app_length in R, D. cbn [List.length] in R, D. rewrite Nat.add_1_r in R, D.
  rewrite !remove_app. change (?z :: ?g :: ?r) with ([z] ++ [g] ++ r). rewrite !remove_app, (remove_head _ (label [S (List.length before)] g) []) by reflexivity.
  change (remove_child ?k []) with (@nil node). rewrite !R; [|..].
  - cbn [app]. rewrite !map_app. cbn [map]. rewrite map_rev, !erase_labels, erase_label. reflexivity.
  - intros n I. apply D. now right; left.
  - intros n I. apply D. left. apply in_or_app. right. exact I.
  - intros n I. apply in_rev in I. apply D. right. right. now rewrite label_children.
  - intros n I. apply D. left. apply in_or_app. now left.
Qed.
Lemma unpack_first t a x g behind z :
  virtual_group g -> (forall f, below g f -> ~ virtual_group f) ->
  (forall c, In c (behind ++ [z]) -> ~ virtual_group c /\ forall f, below c f -> ~ virtual_group f) ->
  unpack_virtual_groups (Element t a x (g :: behind ++ [z])) = Element t a x (behind ++ el_children g ++ [z]).
Proof.
  intros V Vg Vc. destruct (unpack_one t a x [] g (behind ++ [z]) V Vg Vc) as [N E]. cbn [app labels List.length] in *. rewrite E. f_equal. clear E.
  pose proof (nodup_ids_neq (label [0] g) [] _ N) as D. pose proof (unpack_group_middle (label [0] g) [] _ N) as U.
  cbn [app List.length] in U. rewrite label_id in U at 1. rewrite U. clear U. rewrite labels_app in *. cbn [labels] in *.
  rewrite app_comm_cons, fold_insert_first. cbn [app].
  assert (R : forall l, (forall n, In n l -> node_id n <> node_id (label [0] g)) -> remove_child (node_id (label [0] g)) l = l) by (intros; now apply remove_none).
  rewrite remove_head by reflexivity. rewrite !remove_app, !R.
  - rewrite label_children, !map_app, !erase_labels. cbn [map]. rewrite erase_label, <- app_assoc. reflexivity.
  - intros n I. apply D. right. left. apply in_or_app. now right.
  - intros n I. apply D. right. now right.
  - intros n I. apply D. right. left. apply in_or_app. now left.
Qed.
Lemma unpack_only t a x g :
  virtual_group g -> (forall f, below g f -> ~ virtual_group f) ->
  unpack_virtual_groups (Element t a x [g]) = Element t a x (el_children g).
Proof.
  intros V Vg. destruct (unpack_one t a x [] g [] V Vg) as [N E]; [intros c []|]. cbn [app labels List.length] in *. rewrite E. f_equal. clear E.
  pose proof (nodup_ids_neq (label [0] g) [] _ N) as D. pose proof (unpack_group_middle (label [0] g) [] _ N) as U.
  cbn [app List.length] in U. rewrite label_id in U at 1. rewrite U. clear U.
  change [label [0] g] with ([] ++ [label [0] g]). rewrite fold_insert_first. cbn [app].
  rewrite remove_app, remove_head by reflexivity. cbn [remove_child filter]. rewrite app_nil_r, remove_none.
  - now rewrite label_children, erase_labels.
  - intros n I. apply D. right. now right.
Qed.
