(** The result of M_Virtual.v is exactly the one S_Virtual.v describes. *)
From Coq Require Import Ascii String List NArith ZArith Bool Arith Lia Permutation.
From Verif Require Import PyBase PyStr M_Components M_Xml M_MigXml M_Virtual L_Base L_Qualifiers S_MigXml S_Virtual L_Virtual.
Import ListNotations.
Local Open Scope list_scope.

Definition mem (K : list pos) (k : pos) : bool := existsb (pos_eqb k) K.
Lemma mem_In K k : mem K k = true <-> In k K.
Proof.
  unfold mem. rewrite existsb_exists. split.
  - intros (x & I & E). apply pos_eqb_eq in E. now subst.
  - intros I. exists k. split; [exact I|apply pos_eqb_refl].
Qed.
Lemma mem_not K k : mem K k = false <-> ~ In k K.
Proof. rewrite <- mem_In. destruct (mem K k); split; congruence. Qed.

(** ** the children of one node *)
Definition mark (K : list pos) (n : node) : bool * element := (mem K (node_id n), erase n).
Lemma mark_other k K n : node_id n <> k -> mark (k :: K) n = mark K n.
Proof. intros H. unfold mark, mem. cbn [existsb]. now rewrite (proj2 (pos_eqb_neq _ _)) by exact H. Qed.
Lemma mark_others k K l : (forall n, In n l -> node_id n <> k) -> map (mark (k :: K)) l = map (mark K) l.
Proof. intros H. apply map_ext_in. intros n I. apply mark_other. now apply H. Qed.
Lemma mark_none K l : (forall n, In n l -> ~ In (node_id n) K) -> map (mark K) l = map kept (map erase l).
Proof. intros H. rewrite map_map. apply map_ext_in. intros n I. unfold mark, kept. f_equal. apply mem_not. now apply H. Qed.

Lemma filter_head {A} (f : A -> bool) l x r : filter f l = x :: r ->
  exists a b, l = a ++ x :: b /\ filter f a = [] /\ f x = true /\ filter f b = r.
Proof.
  induction l as [|y l IH]; cbn; [discriminate|]. destruct (f y) eqn:F.
  - intros [= -> <-]. exists [], l. auto.
  - intros H. destruct (IH H) as (a & b & -> & Fa & Fx & Fb). exists (y :: a), b. cbn. rewrite F. auto.
Qed.
Lemma filter_none {A} (f : A -> bool) l : filter f l = [] <-> forall x, In x l -> f x = false.
Proof.
  induction l as [|y l IH]; cbn; [split; [intros _ x []|reflexivity]|]. destruct (f y) eqn:F; split.
  - discriminate.
  - intros H. rewrite (H y) in F by now left. discriminate.
  - intros H x [<- |I]; [exact F|]. now apply IH.
  - intros H. apply IH. intros x I. apply H. now right.
Qed.

Lemma rev_cases {A} (l : list A) : l = [] \/ exists a x, l = a ++ [x].
Proof. destruct l as [|y l] using rev_ind; [now left|right; eauto]. Qed.

Lemma unpack_group_behind g A y B : NoDup (ids (A ++ y :: g :: B)) ->
  unpack_group (A ++ y :: g :: B) (node_id g) = A ++ rev (node_children g) ++ y :: B.
Proof.
  intros N. replace (A ++ y :: g :: B) with ((A ++ [y]) ++ g :: B) in * by now rewrite <- app_assoc.
  pose proof (nodup_ids_neq _ _ _ N) as D. rewrite unpack_group_middle by exact N. rewrite <- app_assoc. cbn [app].
  replace (List.length (A ++ [y])) with (S (List.length A)) by (rewrite app_length; cbn; lia).
  rewrite fold_insert_middle. rewrite !remove_app. change (y :: g :: B) with ([y] ++ g :: B). rewrite remove_app, (remove_head _ g B) by reflexivity.
  rewrite !remove_none; [reflexivity|..]; intros n I; apply D.
  - now right; left.
  - left. apply in_or_app. now right.
  - right. right. now apply in_rev.
  - left. apply in_or_app. now left.
Qed.
Lemma unpack_group_front g B z : NoDup (ids (g :: B ++ [z])) ->
  unpack_group (g :: B ++ [z]) (node_id g) = B ++ node_children g ++ [z].
Proof.
  intros N. pose proof (nodup_ids_neq g [] _ N) as D. pose proof (unpack_group_middle g [] (B ++ [z]) N) as M. cbn [app List.length] in M. rewrite M. clear M.
  rewrite app_comm_cons, fold_insert_first. cbn [app]. rewrite remove_head by reflexivity. rewrite !remove_app, !remove_none; [now rewrite <- app_assoc|..]; intros n I; apply D.
  - right. left. apply in_or_app. now right.
  - right. now right.
  - right. left. apply in_or_app. now left.
Qed.
Lemma unpack_group_alone g : NoDup (ids [g]) -> unpack_group [g] (node_id g) = node_children g.
Proof.
  intros N. pose proof (nodup_ids_neq g [] [] N) as D. pose proof (unpack_group_middle g [] [] N) as M. cbn [app List.length] in M. rewrite M. clear M.
  change [g] with ([] ++ [g]). rewrite fold_insert_first. cbn [app]. rewrite remove_app, remove_head by reflexivity.
  cbn [remove_child filter]. rewrite app_nil_r. apply remove_none. intros n I. apply D. right. now right.
Qed.

Lemma unpack_groups_each K : forall l, NoDup (ids l) -> NoDup K -> map node_id (filter (fun n => mem K (node_id n)) l) = K ->
  unpack_each (map (mark K) l) (map erase (fold_left unpack_group K l)).
Proof.
  induction K as [|k K IH]; intros l N ND F.
  - cbn [fold_left]. rewrite mark_none by (intros n _ []). constructor.
  - destruct (filter (fun n => mem (k :: K) (node_id n)) l) as [|g vs] eqn:E; [discriminate|]. cbn [map] in F. injection F as G Fv.
    apply filter_head in E as (A & B & -> & FA & _ & FB). inversion ND as [|? ? Nk ND']; subst k. cbn [fold_left].
    pose proof (nodup_ids_neq _ _ _ N) as D. rewrite filter_none in FA.
    assert (MA : forall n, In n A -> ~ In (node_id n) (node_id g :: K)) by (intros n I; apply mem_not; now apply FA).
    assert (FB' : map node_id (filter (fun n => mem K (node_id n)) B) = K).
    { transitivity (map node_id vs); [|exact Fv]. rewrite <- FB. f_equal. apply filter_ext_in. intros n I. unfold mem. cbn [existsb].
      rewrite (proj2 (pos_eqb_neq _ _)); [reflexivity|]. apply D. now right; left. }
    assert (KB : forall k, In k K -> In k (ids B)).
    { intros k I. rewrite <- FB' in I. apply in_map_iff in I as (n & <- & I). apply filter_In in I as [I _]. apply (in_ids n); [exact I|apply node_id_in]. }
    assert (MC : forall n, In n (node_children g) -> ~ In (node_id n) K).
    { intros n I I'. apply KB in I'. rewrite ids_app, ids_cons in N. apply NoDup_app_remove_l in N. inversion N as [|? ? _ N']; subst.
      apply children_ids in I. apply in_split in I as (a & b & Ia). rewrite Ia, <- app_assoc in N'. cbn in N'. apply NoDup_app_remove_l in N'.
      inversion N' as [|? ? N1 _]; subst. apply N1. apply in_or_app. now right. }
    assert (PN : NoDup (ids (unpack_group (A ++ g :: B) (node_id g)))).
    { apply (Permutation_NoDup (ids_perm _ _ (unpack_group_perm g A B N))).
      rewrite ids_app, ids_cons in N. rewrite !ids_app. apply NoDup_remove in N as [N _].
      eapply Permutation_NoDup; [|exact N]. rewrite !app_assoc. apply Permutation_app_tail. apply Permutation_app_comm. }
    assert (PF : forall C : list node, (forall n, In n C -> In n A \/ In n (node_children g)) -> filter (fun n => mem K (node_id n)) C = []).
    { intros C HC. apply filter_none. intros n I. apply mem_not. destruct (HC n I) as [I'|I']; [|now apply MC]. intros X. apply (MA n I'). now right. }
    assert (MB : map (mark (node_id g :: K)) B = map (mark K) B) by (apply mark_others; intros n I; apply D; now right; left).
    assert (MA' : map (mark (node_id g :: K)) A = map (mark K) A) by (apply mark_others; intros n I; apply D; now left).
    assert (MG : mark (node_id g :: K) g = (true, erase g)) by (unfold mark, mem; cbn [existsb]; now rewrite pos_eqb_refl).
    assert (MAk : Forall (fun x => fst x = false) (map (mark K) A)).
    { apply Forall_forall. intros w I. apply in_map_iff in I as (n & <- & I). unfold mark. cbn [fst]. apply mem_not. intros X. apply (MA n I). now right. }
    assert (CH : map kept (el_children (erase g)) = map (mark K) (node_children g)) by (rewrite erase_children; symmetry; now apply mark_none).
    rewrite map_app. cbn [map]. rewrite MG, MB, MA'.
    destruct (rev_cases A) as [-> |(A' & y & ->)].
    + cbn [app map] in *. destruct (rev_cases B) as [-> |(B' & z & ->)].
      * rewrite unpack_group_alone in * by exact N. eapply each_next; [apply next_alone|]. rewrite CH. apply IH; [exact PN|exact ND'|].
        rewrite PF by (intros n I; now right). rewrite <- FB'. reflexivity.
      * rewrite unpack_group_front in * by exact N. rewrite map_app. cbn [map]. eapply each_next; [apply next_in_front|]. rewrite CH.
        change [mark K z] with (map (mark K) [z]). rewrite <- !map_app. apply IH; [exact PN|exact ND'|].
        rewrite !filter_app, (PF (node_children g)) by (intros n I; now right). cbn [app]. rewrite <- filter_app. exact FB'.
    + rewrite <- app_assoc in *. cbn [app] in *. rewrite unpack_group_behind in * by exact N.
      rewrite map_app in *. cbn [map app] in *. rewrite <- app_assoc. cbn [app]. eapply each_next; [apply next_behind; exact MAk|].
      rewrite CH, <- map_rev. change (mark K y :: map (mark K) B) with (map (mark K) (y :: B)). rewrite <- !map_app. apply IH; [exact PN|exact ND'|].
      rewrite !filter_app. change (y :: B) with ([y] ++ B). rewrite filter_app.
      rewrite (PF A') by (intros n I; left; apply in_or_app; now left). rewrite (PF (rev (node_children g))) by (intros n I; right; now apply in_rev).
      rewrite (PF [y]) by (intros n I; left; apply in_or_app; now right). exact FB'.
Qed.

Lemma nodup_ids_of l : NoDup (ids l) -> NoDup (map node_id l).
Proof.
  induction l as [|n l IH]; intros N; [constructor|]. rewrite ids_cons in N. inversion N as [|? ? H N']; subst. cbn. constructor.
  - intros I. apply H. apply in_or_app. right. apply in_map_iff in I as (m & <- & I). apply (in_ids m); [exact I|apply node_id_in].
  - apply IH. now apply NoDup_app_remove_l in N'.
Qed.
Lemma NoDup_map_filter {A B} (f : A -> B) (p : A -> bool) l : NoDup (map f l) -> NoDup (map f (filter p l)).
Proof.
  induction l as [|x l IH]; intros N; [constructor|]. cbn in N. inversion N as [|? ? H N']; subst. cbn. destruct (p x); [|auto].
  cbn. constructor; [|auto]. intros I. apply H. apply in_map_iff in I as (y & <- & I). apply in_map. now apply filter_In in I.
Qed.
Lemma NoDup_map_eq {A B} (f : A -> B) l x y : NoDup (map f l) -> In x l -> In y l -> f x = f y -> x = y.
Proof.
  induction l as [|z l IH]; intros N Ix Iy E; [contradiction|]. cbn in N. inversion N as [|? ? H N']; subst.
  destruct Ix as [-> |Ix], Iy as [-> |Iy]; auto; exfalso; apply H; [rewrite E|rewrite <- E]; now apply in_map.
Qed.

Lemma unpack_children_each l : NoDup (ids l) -> exists marks,
  Forall2 (fun c x => snd x = c /\ (fst x = true <-> virtual_group c)) (map erase l) marks
  /\ unpack_each marks (map erase (unpack_children l)).
Proof.
  intros N. set (K := map node_id (filter virtual_node l)).
  assert (V : forall n, In n l -> mem K (node_id n) = virtual_node n).
  { intros n I. destruct (virtual_node n) eqn:V.
    - apply mem_In. apply in_map. apply filter_In. auto.
    - apply mem_not. intros X. apply in_map_iff in X as (m & E & M). apply filter_In in M as [M W].
      apply (NoDup_map_eq node_id l) in E; auto; [congruence|now apply nodup_ids_of]. }
  exists (map (mark K) l). split.
  - assert (G : forall r, (forall n, In n r -> In n l) -> Forall2 (fun c x => snd x = c /\ (fst x = true <-> virtual_group c)) (map erase r) (map (mark K) r)).
    { induction r as [|n r IH]; intros H; [constructor|]. cbn [map]. constructor; [|apply IH; intros m M; apply H; now right].
      unfold mark. cbn [fst snd]. split; [reflexivity|]. rewrite V by (apply H; now left). apply virtual_node_iff. }
    apply G. auto.
  - unfold unpack_children. fold K. apply unpack_groups_each; [exact N|apply NoDup_map_filter; now apply nodup_ids_of|].
    unfold K at 2. f_equal. now apply filter_ext_in.
Qed.

(** ** the whole tree *)
Definition unpack_all (ks : list pos) (n : node) : node := fold_left (fun n k => unpack_at k n) ks n.
Lemma unpack_all_inside ks : forall i t a x cs, ~ In i ks -> unpack_all ks (Node i t a x cs) = Node i t a x (map (unpack_all ks) cs).
Proof.
  induction ks as [|k ks IH]; intros i t a x cs H; [cbn; now rewrite map_id|]. unfold unpack_all in *. cbn [fold_left unpack_at].
  rewrite (proj2 (pos_eqb_neq _ _)) by (intros ->; apply H; now left). rewrite IH by (intros I; apply H; now right). now rewrite map_map.
Qed.
Lemma unpack_at_ids k n : NoDup (map fst (flat n)) -> forall j, In j (map fst (flat (unpack_at k n))) -> In j (map fst (flat n)).
Proof.
  intros N j I. destruct (unpack_at_flat k n N) as (gs & _ & P). apply (Permutation_map fst) in P. rewrite map_app in P.
  apply (Permutation_in _ (Permutation_sym P)). apply in_or_app. now left.
Qed.
Lemma unpack_all_relevant (S0 : list pos) ks : forall n, NoDup (map fst (flat n)) -> (forall j, In j (map fst (flat n)) -> In j S0) ->
  unpack_all ks n = unpack_all (filter (mem S0) ks) n.
Proof.
  induction ks as [|k ks IH]; intros n N H; [reflexivity|]. unfold unpack_all in *. cbn [fold_left filter]. destruct (mem S0 k) eqn:M.
  - cbn [fold_left]. apply IH; [now apply unpack_at_nodup|]. intros j J. apply H. now apply unpack_at_ids in J.
  - rewrite unpack_at_absent; [now apply IH|]. intros I. apply H in I. apply mem_In in I. congruence.
Qed.
Lemma parents_ids n : forall k, In k (parents n) -> In k (map fst (flat n)).
Proof.
  induction n as [i t a x cs IH] using node_rect'. intros k. cbn [parents flat map fst]. intros I. apply in_app_or in I as [I|I].
  - left. destruct (existsb virtual_node cs); [now destruct I|contradiction].
  - right. apply in_flat_map in I as (c & C & I). rewrite map_flat_map. apply in_flat_map. exists c. split; [exact C|]. now apply IH.
Qed.
Lemma parents_in_ids l k : In k (flat_map parents l) -> In k (ids l).
Proof. intros I. apply in_flat_map in I as (c & C & I). apply (in_ids c); [exact C|]. now apply parents_ids. Qed.
Lemma filter_all {A} (f : A -> bool) l : (forall x, In x l -> f x = true) -> filter f l = l.
Proof. induction l as [|x l IH]; intros H; [reflexivity|]. cbn. rewrite (H x) by now left. f_equal. apply IH. intros y Y. apply H. now right. Qed.
Lemma NoDup_disjoint {A} (a b : list A) x : NoDup (a ++ b) -> In x a -> ~ In x b.
Proof.
  intros N I I'. apply in_split in I as (p & q & ->). rewrite <- app_assoc in N. apply NoDup_app_remove_l in N. cbn in N.
  inversion N as [|? ? H _]; subst. apply H. apply in_or_app. now right.
Qed.
Lemma relevant_parents l c (S0 : list pos) : NoDup (ids l) -> In c l -> (forall j, In j S0 -> In j (map fst (flat c))) ->
  filter (mem S0) (flat_map parents l) = filter (mem S0) (parents c).
Proof.
  intros N I H. apply in_split in I as (A & B & ->). rewrite flat_map_app. cbn [flat_map]. rewrite !filter_app.
  rewrite ids_app in N. assert (Nc : NoDup (map fst (flat c) ++ ids B)).
  { apply NoDup_app_remove_l in N. unfold ids in *. cbn [flat_map] in N. now rewrite map_app in N. }
  assert (EA : filter (mem S0) (flat_map parents A) = []).
  { apply filter_none. intros k K. apply mem_not. intros M. apply parents_in_ids in K. apply (NoDup_disjoint _ _ k N K).
    apply H in M. unfold ids. cbn [flat_map]. rewrite map_app. apply in_or_app. now left. }
  assert (EB : filter (mem S0) (flat_map parents B) = []).
  { apply filter_none. intros k K. apply mem_not. intros M. apply parents_in_ids in K. apply H in M. now apply (NoDup_disjoint _ _ k Nc M). }
  now rewrite EA, EB, app_nil_r.
Qed.

Lemma unpack_children_none l : existsb virtual_node l = false -> unpack_children l = l.
Proof.
  intros H. unfold unpack_children. replace (filter virtual_node l) with (@nil node); [reflexivity|]. symmetry. apply filter_none.
  intros x I. destruct (virtual_node x) eqn:V; [|reflexivity]. rewrite <- H. symmetry. apply existsb_exists. eauto.
Qed.
Lemma unpack_all_step i t a x cs : NoDup (map fst (flat (Node i t a x cs))) ->
  unpack_all (parents (Node i t a x cs)) (Node i t a x cs) = Node i t a x (map (fun c => unpack_all (parents c) c) (unpack_children cs)).
Proof.
  intros N. rewrite flat_children in N. cbn [node_id node_children] in N. inversion N as [|? ? Ni N']; subst.
  assert (E : unpack_all (parents (Node i t a x cs)) (Node i t a x cs) = unpack_all (flat_map parents cs) (Node i t a x (unpack_children cs))).
  { cbn [parents]. destruct (existsb virtual_node cs) eqn:V; cbn [app].
    - unfold unpack_all. cbn [fold_left unpack_at]. now rewrite pos_eqb_refl.
    - now rewrite unpack_children_none by exact V. }
  rewrite E, unpack_all_inside by (intros I; apply Ni; now apply parents_in_ids). f_equal. apply map_ext_in. intros c I.
  pose proof (Permutation_in _ (Permutation_sym (unpack_children_perm cs N')) I) as I'. apply in_app_or in I' as [I'|I'].
  - apply filter_In in I' as [I' _]. assert (Nc : NoDup (map fst (flat c))) by now apply nodup_child with cs.
    rewrite (unpack_all_relevant (map fst (flat c))) by auto. rewrite (relevant_parents cs c) by auto. now rewrite <- unpack_all_relevant by auto.
  - apply in_flat_map in I' as (v & Iv & I'). apply filter_In in Iv as [Iv _]. assert (Nv : NoDup (map fst (flat v))) by now apply nodup_child with cs.
    rewrite flat_children in Nv. inversion Nv as [|? ? Hv Nv']; subst. assert (Nc : NoDup (map fst (flat c))) by now apply nodup_child with (node_children v).
    rewrite (unpack_all_relevant (map fst (flat c))) by auto. rewrite (relevant_parents cs v); [|exact N'|exact Iv|].
    2:{ intros j J. rewrite flat_children. right. now apply (in_ids c). }
    assert (Pv : filter (mem (map fst (flat c))) (parents v) = filter (mem (map fst (flat c))) (flat_map parents (node_children v))).
    { destruct v as [vi vt va vx vcs]. cbn [parents node_children node_id] in *. rewrite filter_app. replace (filter (mem (map fst (flat c))) (if existsb virtual_node vcs then [vi] else [])) with (@nil pos); [reflexivity|].
      symmetry. apply filter_none. intros k K. apply mem_not. intros M. destruct (existsb virtual_node vcs); [|contradiction]. destruct K as [<- |[]]. apply Hv. now apply (in_ids c). }
    rewrite Pv, (relevant_parents (node_children v) c) by auto. now rewrite <- unpack_all_relevant by auto.
Qed.

Lemma flat_child_smaller c l : In c l -> List.length (flat c) <= List.length (flat_map flat l).
Proof. intros I. apply in_split in I as (A & B & ->). rewrite flat_map_app, app_length. cbn [flat_map]. rewrite app_length. lia. Qed.
Lemma unpack_all_unpacked m : forall n, List.length (flat n) <= m -> NoDup (map fst (flat n)) -> unpacked (erase n) (erase (unpack_all (parents n) n)).
Proof.
  induction m as [|m IH]; intros [i t a x cs] L N; [cbn in L; lia|]. rewrite unpack_all_step by exact N. cbn [erase].
  assert (N' : NoDup (ids cs)) by now apply nodup_children in N.
  destruct (unpack_children_each cs N') as (marks & F & U). apply (Unpacked t a x (map erase cs) marks _ _ F U). rewrite map_map. cbn [flat] in L. cbn [List.length] in L.
  assert (B : forall c, In c (unpack_children cs) -> List.length (flat c) <= m /\ NoDup (map fst (flat c))).
  { intros c I. pose proof (Permutation_in _ (Permutation_sym (unpack_children_perm cs N')) I) as I'. apply in_app_or in I' as [I'|I'].
    - apply filter_In in I' as [I' _]. split; [|now apply nodup_child with cs]. apply flat_child_smaller in I'. lia.
    - apply in_flat_map in I' as (v & Iv & I'). apply filter_In in Iv as [Iv _]. split.
      + apply flat_child_smaller in Iv, I'. rewrite (flat_group v) in Iv. cbn [List.length] in Iv. lia.
      + apply nodup_child with (node_children v); [|exact I']. apply nodup_children. now apply nodup_child with cs. }
  clear - IH B. revert B. generalize (unpack_children cs) as l. induction l as [|c l IHl]; intros B; cbn [map]; constructor.
  - apply IH; apply B; now left.
  - apply IHl. intros d D. apply B. now right.
Qed.

(** ** there is one result *)
Lemma first_marked_unique (A B A' B' : list (bool * element)) g g' :
  Forall (fun x => fst x = false) A -> Forall (fun x => fst x = false) A' -> A ++ (true, g) :: B = A' ++ (true, g') :: B' -> A = A' /\ g = g' /\ B = B'.
Proof.
  revert A'. induction A as [|a A IH]; intros [|a' A'] F F' E; cbn in E.
  - injection E as -> ->. auto.
  - injection E as <- _. inversion F'. discriminate.
  - injection E as -> _. inversion F. discriminate.
  - injection E as -> E. inversion F; inversion F'; subst. destruct (IH A' ltac:(assumption) ltac:(assumption) E) as (-> & -> & ->). auto.
Qed.
Lemma unpack_next_cases l l' : unpack_next l l' -> exists A g B, l = A ++ (true, g) :: B /\ Forall (fun x => fst x = false) A
  /\ l' = match rev A with
          | [] => match rev B with [] => map kept (el_children g) | z :: r => rev r ++ map kept (el_children g) ++ [z] end
          | y :: r => rev r ++ rev (map kept (el_children g)) ++ y :: B
          end.
Proof.
  intros H. inversion H as [before y g B F|g B z|g]; subst.
  - exists (before ++ [y]), g, B. rewrite <- app_assoc, rev_app_distr. cbn [app rev]. rewrite rev_involutive. auto.
  - exists [], g, (B ++ [z]). rewrite rev_app_distr. cbn [app rev]. rewrite rev_involutive. auto.
  - exists [], g, []. auto.
Qed.
Lemma unpack_next_unique l a b : unpack_next l a -> unpack_next l b -> a = b.
Proof.
  intros Ha Hb. apply unpack_next_cases in Ha as (A & g & B & -> & F & ->). apply unpack_next_cases in Hb as (A' & g' & B' & E & F' & ->).
  destruct (first_marked_unique _ _ _ _ _ _ F F' E) as (-> & -> & ->). reflexivity.
Qed.
Lemma unpack_next_kept l l' : ~ unpack_next (map kept l) l'.
Proof.
  intros H. apply unpack_next_cases in H as (A & g & B & E & _). assert (I : In (true, g) (map kept l)) by (rewrite E; apply in_or_app; right; now left).
  apply in_map_iff in I as (e & X & _). discriminate.
Qed.
Lemma kept_inj l : forall l', map kept l = map kept l' -> l = l'.
Proof. induction l as [|x l IH]; intros [|y l'] E; try discriminate; [reflexivity|]. injection E as -> E. f_equal. now apply IH. Qed.
Lemma unpack_each_unique l a : unpack_each l a -> forall b, unpack_each l b -> a = b.
Proof.
  induction 1 as [l|l l' a H U IH]; intros b Ub.
  - remember (map kept l) as k eqn:E. destruct Ub as [l2|l2 l' b H _]; [now apply kept_inj|]. subst. now apply unpack_next_kept in H.
  - destruct Ub as [l2|l2 l2' b H2 U2]; [now apply unpack_next_kept in H|]. apply IH. now rewrite (unpack_next_unique _ _ _ H H2).
Qed.
Lemma marks_unique cs : forall m m', Forall2 (fun c x => snd x = c /\ (fst x = true <-> virtual_group c)) cs m ->
  Forall2 (fun c x => snd x = c /\ (fst x = true <-> virtual_group c)) cs m' -> m = m'.
Proof.
  induction cs as [|c cs IH]; intros m m' F F'; inversion F as [|? x ? r [S1 V1] F1]; inversion F' as [|? x' ? r' [S2 V2] F2]; subst; [reflexivity|].
  f_equal; [|now apply IH]. destruct x as [v e], x' as [v' e']. cbn [fst snd] in *. subst. f_equal. rewrite <- V2 in V1. destruct v, v'; auto; destruct V1; intuition congruence.
Qed.
Lemma unpacked_unique : forall d e, unpacked d e -> forall e', unpacked d e' -> e = e'.
Proof.
  fix IH 3. intros d e H e' H'. destruct H as [t a x cs marks cs1 cs2 M U F]. inversion H' as [? ? ? ? marks' cs1' cs2' M' U' F']; subst.
  pose proof (marks_unique _ _ _ M M') as <-. pose proof (unpack_each_unique _ _ U _ U') as <-. f_equal. clear - IH F F'.
  revert cs2' F'. induction F as [|c c' l l' R F IHF]; intros cs2' F'; inversion F' as [|? d ? l2 R' F2]; subst; [reflexivity|]. f_equal; [|now apply IHF].
  now apply (IH c c' R).
Qed.
