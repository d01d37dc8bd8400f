(** Lemmas about flat AHBs. *)
From Coq Require Import Ascii String List NArith ZArith Bool Lia Arith Sorted Permutation.
From Verif Require Import PyBase PyStr PyRe M_Components M_Ahb M_Sgh M_Navigation
  S_Text S_FlatAhb L_Base L_Str L_Re L_Validators.
Import ListNotations.
Local Open Scope list_scope.

(** ** distinct keys in order of first occurrence *)
Lemma first_occurrences_nil {A} : first_occurrences (@nil A) [].
Proof.
  split; [constructor|]. split; [tauto|]. intros g1 x g2 y g3 H. destruct g1; discriminate.
Qed.
Lemma first_occurrences_old {A} (ks gs : list A) k : first_occurrences ks gs -> In k ks -> first_occurrences (ks ++ [k]) gs.
Proof.
  intros (H1 & H2 & H3) Hk. split; [exact H1|]. split.
  - intros x. rewrite H2, in_app_iff. cbn. intuition congruence.
  - intros g1 x g2 y g3 E. destruct (H3 _ _ _ _ _ E) as (l1 & l2 & -> & Hy).
    exists l1, (l2 ++ [k]). split; [now rewrite <- app_assoc|exact Hy].
Qed.
Lemma first_occurrences_new {A} (ks gs : list A) k : first_occurrences ks gs -> ~ In k ks -> first_occurrences (ks ++ [k]) (gs ++ [k]).
Proof.
  intros (H1 & H2 & H3) Hk. split; [|split].
  - apply Permutation.Permutation_NoDup with (l := k :: gs); [apply Permutation.Permutation_cons_append|].
    constructor; [now rewrite H2|exact H1].
  - intros x. rewrite !in_app_iff, H2. tauto.
  - intros g1 x g2 y g3 E. destruct g3 as [|z g3 _] using rev_ind.
    + replace (g1 ++ x :: g2 ++ [y]) with ((g1 ++ x :: g2) ++ [y]) in E by now rewrite <- app_assoc.
      apply app_inj_tail in E as [E ->].
      assert (Hx : In x ks) by (apply H2; rewrite E; apply in_or_app; right; now left).
      apply in_split in Hx as (l1 & l2 & ->). exists l1, (l2 ++ [y]). split; [now rewrite <- app_assoc|].
      intros Hy. apply Hk. apply in_or_app. now left.
    + replace (g1 ++ x :: g2 ++ y :: g3 ++ [z]) with ((g1 ++ x :: g2 ++ y :: g3) ++ [z]) in E
        by (rewrite <- app_assoc; cbn; f_equal; f_equal; rewrite <- app_assoc; reflexivity).
      apply app_inj_tail in E as [E _]. destruct (H3 _ _ _ _ _ E) as (l1 & l2 & -> & Hy).
      exists l1, (l2 ++ [k]). split; [now rewrite <- app_assoc|exact Hy].
Qed.
Lemma available_groups_snoc ls l :
  get_available_segment_groups (ls ++ [l])
  = if ostr_in (al_group l) (get_available_segment_groups ls) then get_available_segment_groups ls
    else get_available_segment_groups ls ++ [al_group l].
Proof. unfold get_available_segment_groups. now rewrite fold_left_app. Qed.
Lemma available_groups_spec ls : first_occurrences (map al_group ls) (get_available_segment_groups ls).
Proof.
  induction ls as [|l ls IH] using rev_ind; [apply first_occurrences_nil|].
  rewrite available_groups_snoc, map_app. cbn [map].
  destruct (ostr_in (al_group l) (get_available_segment_groups ls)) eqn:E.
  - apply ostr_in_In in E. apply first_occurrences_old; [exact IH|]. now apply IH.
  - apply ostr_in_nIn in E. apply first_occurrences_new; [exact IH|]. intros H. apply E. now apply IH.
Qed.

Lemma first_occurrences_unique {A} (ks gs gs' : list A) : (forall x y : A, {x = y} + {x <> y}) ->
  first_occurrences ks gs -> first_occurrences ks gs' -> gs = gs'.
Proof.
  intros dec. revert gs gs'. induction ks as [|k ks IH] using rev_ind; intros gs gs' (N1 & I1 & O1) (N2 & I2 & O2).
  - destruct gs as [|x gs]; [|exfalso; apply (I1 x); now left].
    destruct gs' as [|x gs']; [reflexivity|exfalso; apply (I2 x); now left].
  - assert (R : forall gs, NoDup gs -> (forall k0, In k0 gs <-> In k0 (ks ++ [k])) ->
       (forall g1 x g2 y g3, gs = g1 ++ x :: g2 ++ y :: g3 -> exists l1 l2, ks ++ [k] = l1 ++ x :: l2 /\ ~ In y l1) ->
       first_occurrences ks (if in_dec dec k ks then gs else removelast gs)
       /\ (if in_dec dec k ks then True else gs = removelast gs ++ [k])).
    { clear gs gs' N1 I1 O1 N2 I2 O2. intros gs N I O. destruct (in_dec dec k ks) as [Hk|Hk].
      - split; [|exact Logic.I]. split; [exact N|]. split.
        + intros x. rewrite I, in_app_iff. cbn. intuition congruence.
        + intros g1 x g2 y g3 E. destruct (O _ _ _ _ _ E) as (l1 & l2 & E' & Hy).
          destruct l2 as [|z l2 _] using rev_ind.
          * apply app_inj_tail in E' as [-> ->].
            assert (Hy' : In y (l1 ++ [x])) by (apply I; rewrite E; apply in_or_app; right; right; apply in_or_app; right; now left).
            apply in_app_or in Hy' as [Hy'|[Hy'|[]]]; [contradiction|]. subst y.
            rewrite E in N. apply NoDup_remove_2 in N. exfalso. apply N. apply in_or_app. right. apply in_or_app. right. now left.
          * exists l1, l2. split; [|exact Hy].
            assert (E2 : ks ++ [k] = (l1 ++ x :: l2) ++ [z]) by now rewrite <- app_assoc.
            now apply app_inj_tail in E2 as [-> _].
      - assert (Hg : In k gs) by (apply I, in_or_app; right; now left).
        apply in_split in Hg as (g1 & g2 & ->).
        destruct g2 as [|y g2].
        2:{ exfalso. destruct (O g1 k [] y g2 eq_refl) as (l1 & l2 & E & Hy).
            assert (Hy' : In y (ks ++ [k])) by (apply I; apply in_or_app; right; right; now left).
            apply NoDup_remove_2 in N.
            apply in_app_or in Hy' as [Hy'|[Hy'|[]]]; [|subst y; apply N, in_or_app; right; now left].
            destruct l2 as [|z l2 _] using rev_ind.
            - apply app_inj_tail in E as [-> _]. contradiction.
            - assert (E2 : ks ++ [k] = (l1 ++ k :: l2) ++ [z]) by now rewrite <- app_assoc.
              apply app_inj_tail in E2 as [-> _]. apply Hk, in_or_app. right. now left. }
        rewrite removelast_app1. split; [|reflexivity].
        assert (Nk : NoDup g1 /\ ~ In k g1).
        { split; [now apply NoDup_remove_1 in N; rewrite app_nil_r in N|].
          apply NoDup_remove_2 in N. now rewrite app_nil_r in N. }
        split; [apply Nk|]. split.
        + intros x. specialize (I x). rewrite !in_app_iff in I. cbn in I. split.
          * intros Hx. destruct (proj1 I (or_introl Hx)) as [H|[<-|[]]]; [exact H|]. now apply Nk in Hx.
          * intros Hx. destruct (proj2 I (or_introl Hx)) as [H|[<-|[]]]; [exact H|contradiction].
        + intros h1 x h2 y h3 E. destruct (O h1 x h2 y (h3 ++ [k])) as (l1 & l2 & E' & Hy).
          { rewrite E, <- app_assoc. cbn. f_equal. f_equal. now rewrite <- app_assoc. }
          destruct l2 as [|z l2 _] using rev_ind.
          * apply app_inj_tail in E' as [-> ->].
            exfalso. apply Nk. rewrite E. apply in_or_app. right. now left.
          * exists l1, l2. split; [|exact Hy].
            assert (E2 : ks ++ [k] = (l1 ++ x :: l2) ++ [z]) by now rewrite <- app_assoc.
            now apply app_inj_tail in E2 as [-> _]. }
    destruct (R gs N1 I1 O1) as [F1 L1]. destruct (R gs' N2 I2 O2) as [F2 L2].
    destruct (in_dec dec k ks); [now apply IH|].
    rewrite L1, L2. f_equal. now apply IH.
Qed.

(** ** stable sort *)
Section Sort.
  Context {A : Type} (le : A -> A -> bool).
  Hypothesis total : forall x y, le x y = true \/ le y x = true.
  Hypothesis trans : forall x y z, le x y = true -> le y z = true -> le x z = true.
  Let R x y := le x y = true.

  Lemma sort_insert_in x l y : In y (sort_insert le x l) <-> y = x \/ In y l.
  Proof.
    induction l as [|z l IH]; cbn; [intuition congruence|]. destruct (le x z); cbn; [intuition congruence|]. rewrite IH. tauto.
  Qed.
  Lemma sort_insert_perm x l : Permutation (x :: l) (sort_insert le x l).
  Proof.
    induction l as [|z l IH]; cbn; [apply Permutation_refl|]. destruct (le x z); [apply Permutation_refl|].
    eapply perm_trans; [apply perm_swap|]. now constructor.
  Qed.
  Lemma stable_sort_perm l : Permutation l (stable_sort le l).
  Proof.
    induction l as [|x l IH]; cbn; [constructor|]. eapply perm_trans; [|apply sort_insert_perm]. now constructor.
  Qed.
  Lemma sort_insert_sorted x l : StronglySorted R l -> StronglySorted R (sort_insert le x l).
  Proof.
    induction 1 as [|z l H IH F]; cbn; [repeat constructor|]. destruct (le x z) eqn:E.
    - constructor; [now constructor|]. constructor; [exact E|].
      eapply Forall_impl; [|exact F]. intros y Hy. now apply trans with z.
    - constructor; [exact IH|]. apply Forall_forall. intros y Hy. apply sort_insert_in in Hy as [->|Hy].
      + destruct (total x z); [congruence|assumption].
      + rewrite Forall_forall in F. now apply F.
  Qed.
  Lemma stable_sort_sorted l : StronglySorted R (stable_sort le l).
  Proof. induction l as [|x l IH]; cbn; [constructor|now apply sort_insert_sorted]. Qed.

  (** elements that compare equal keep their order *)
  Lemma sort_insert_filter (P : A -> bool) x l :
    (P x = true -> forall y, P y = true -> le x y = true) ->
    filter P (sort_insert le x l) = if P x then x :: filter P l else filter P l.
  Proof.
    intros H. induction l as [|z l IH]; cbn; [reflexivity|]. destruct (le x z) eqn:E; cbn; [reflexivity|].
    destruct (P z) eqn:Pz; rewrite IH; destruct (P x) eqn:Px; try reflexivity.
    specialize (H eq_refl z Pz). congruence.
  Qed.
  Lemma stable_sort_filter (P : A -> bool) l :
    (forall x y, P x = true -> P y = true -> le x y = true) ->
    filter P (stable_sort le l) = filter P l.
  Proof.
    intros H. induction l as [|x l IH]; cbn; [reflexivity|].
    rewrite sort_insert_filter, IH by auto. reflexivity.
  Qed.
End Sort.

Lemma str_leb_total a b : str_leb a b = true \/ str_leb b a = true.
Proof.
  revert b; induction a as [|x a IH]; intros [|y b]; cbn; auto.
  destruct (N.ltb_spec x y) as [H|H]; [auto|]. destruct (N.ltb_spec y x) as [K|K]; [auto|].
  assert (x = y) as -> by lia. rewrite N.eqb_refl. apply IH.
Qed.
Lemma str_leb_trans a b c : str_leb a b = true -> str_leb b c = true -> str_leb a c = true.
Proof.
  revert b c; induction a as [|x a IH]; intros [|y b] [|z c]; cbn; auto; try discriminate.
  destruct (N.ltb_spec x y) as [H|H].
  - destruct (N.ltb_spec y z) as [K|K]; intros _.
    + intros _. destruct (N.ltb_spec x z); [reflexivity|lia].
    + destruct (N.eqb_spec y z); [|discriminate]. intros _. destruct (N.ltb_spec x z); [reflexivity|lia].
  - destruct (N.eqb_spec x y) as [->|]; [|discriminate]. intros H1.
    destruct (N.ltb_spec y z); [reflexivity|]. destruct (N.eqb_spec y z); [|discriminate]. apply IH. exact H1.
Qed.
Lemma str_leb_antisym a b : str_leb a b = true -> str_leb b a = true -> a = b.
Proof.
  revert b; induction a as [|x a IH]; intros [|y b]; cbn; auto; try discriminate.
  destruct (N.ltb_spec x y) as [H|H].
  - intros _. destruct (N.ltb_spec y x); [lia|]. destruct (N.eqb_spec y x); [lia|discriminate].
  - destruct (N.eqb_spec x y) as [->|]; [|discriminate]. intros H1.
    destruct (N.ltb_spec y y); [lia|]. rewrite N.eqb_refl. intros H2. f_equal. auto.
Qed.
Lemma str_leb_refl a : str_leb a a = true.
Proof. destruct (str_leb_total a a); assumption. Qed.

(** a list sorted by a natural number is the concatenation of its classes *)
Lemma sorted_classes {A} (f : A -> nat) n l : forall s,
  StronglySorted (fun x y => Nat.leb (f x) (f y) = true) l -> (forall x, In x l -> s <= f x < s + n) ->
  l = flat_map (fun i => filter (fun x => Nat.eqb (f x) i) l) (seq s n).
Proof.
  revert l. induction n as [|n IH]; intros l s S B.
  - destruct l as [|x l]; [reflexivity|]. specialize (B x (or_introl eq_refl)). lia.
  - cbn [seq flat_map].
    assert (D : l = filter (fun x => Nat.eqb (f x) s) l ++ filter (fun x => negb (Nat.eqb (f x) s)) l).
    { clear IH. induction S as [|x l S IHS F]; [reflexivity|]. cbn [filter].
      destruct (Nat.eqb_spec (f x) s) as [E|E]; cbn [negb].
      - cbn. f_equal. apply IHS. intros y Hy. apply B. now right.
      - assert (Z : filter (fun x => Nat.eqb (f x) s) l = []).
        { assert (G : forall y, In y l -> f y <> s).
          { rewrite Forall_forall in F. intros y Hy. specialize (F y Hy). apply Nat.leb_le in F.
            specialize (B x (or_introl eq_refl)). lia. }
          clear -G. induction l as [|y l IH]; [reflexivity|]. cbn. destruct (Nat.eqb_spec (f y) s) as [E|_].
          - exfalso. apply (G y); [now left|exact E].
          - apply IH. intros z Hz. apply G. now right. }
        rewrite Z. cbn. f_equal. rewrite Z in IHS. cbn in IHS. apply IHS. intros y Hy. apply B. now right. }
    rewrite D at 1. f_equal.
    set (m := filter (fun x => negb (Nat.eqb (f x) s)) l) in *.
    assert (Sm : StronglySorted (fun x y => Nat.leb (f x) (f y) = true) m).
    { unfold m. clear -S. induction S as [|x l S IHS F]; cbn; [constructor|]. destruct (negb _); [|exact IHS].
      constructor; [exact IHS|]. apply Forall_forall. intros y Hy. apply filter_In in Hy as [Hy _].
      rewrite Forall_forall in F. auto. }
    rewrite (IH m (Datatypes.S s)) at 1; [|exact Sm|].
    + assert (Hq : forall i, In i (seq (Datatypes.S s) n) ->
                 filter (fun x => Nat.eqb (f x) i) m = filter (fun x => Nat.eqb (f x) i) l).
      { intros i Hi. apply in_seq in Hi. unfold m. clear -Hi. induction l as [|x l IH]; [reflexivity|]. cbn.
        destruct (Nat.eqb_spec (f x) s) as [E|E]; cbn.
        - destruct (Nat.eqb_spec (f x) i); [lia|]. exact IH.
        - destruct (Nat.eqb (f x) i); [now rewrite IH|exact IH]. }
      clear -Hq. induction (seq (Datatypes.S s) n) as [|i is IH]; [reflexivity|]. cbn. rewrite Hq by now left.
      f_equal. apply IH. intros j Hj. apply Hq. now right.
    + intros x Hx. unfold m in Hx. apply filter_In in Hx as [Hx Hne]. specialize (B x Hx).
      destruct (Nat.eqb_spec (f x) s); [discriminate|]. lia.
Qed.

(** ** sort_lines_by_segment_groups *)
Lemma index_of_ok k gs n : index_of k gs = Ok n -> nth_error gs n = Some k /\ ~ In k (firstn n gs).
Proof.
  revert n; induction gs as [|g gs IH]; intros n; cbn [index_of]; [discriminate|].
  destruct (ostr_eqb_spec k g) as [->|E].
  - intros [= <-]. cbn. auto.
  - intros H. apply bind_ok in H as (m & Hm & [= <-]). apply IH in Hm as [H1 H2]. cbn. split; [exact H1|].
    intros [H|H]; [congruence|contradiction].
Qed.
Lemma index_of_in k gs : In k gs -> exists n, index_of k gs = Ok n.
Proof.
  induction gs as [|g gs IH]; [intros []|]. cbn [index_of]. intros [->|H].
  - rewrite ostr_eqb_refl. eauto.
  - destruct (ostr_eqb k g); [eauto|]. destruct (IH H) as [n ->]. cbn. eauto.
Qed.

Definition with_group (k : option pystr) (l : AhbLine) : bool := ostr_eqb (al_group l) k.
Definition grouped (gs : list (option pystr)) (ls : list AhbLine) : list AhbLine :=
  flat_map (fun k => filter (with_group k) ls) gs.

Lemma filter_map {A B} (f : A -> B) P l : filter P (map f l) = map f (filter (fun x => P (f x)) l).
Proof. induction l as [|x l IH]; cbn; [reflexivity|]. destruct (P (f x)); cbn; now rewrite IH. Qed.
Lemma filter_ext' {A} (P Q : A -> bool) l : (forall x, In x l -> P x = Q x) -> filter P l = filter Q l.
Proof.
  induction l as [|x l IH]; cbn; [reflexivity|]. intros H. rewrite (H x) by now left.
  rewrite IH; [reflexivity|]. intros y Hy. apply H. now right.
Qed.

Lemma sorted_lines_grouped ls gs :
  NoDup gs -> (forall l, In l ls -> In (al_group l) gs) ->
  sorted_lines_by_segment_groups ls gs = Ok (grouped gs ls).
Proof.
  intros ND I. unfold sorted_lines_by_segment_groups.
  set (le1 := fun a b : AhbLine => str_leb (ostr_or_empty (al_group a)) (ostr_or_empty (al_group b))).
  set (ls1 := stable_sort le1 ls).
  assert (T1 : forall x y, le1 x y = true \/ le1 y x = true) by (intros; apply str_leb_total).
  assert (Tr1 : forall x y z, le1 x y = true -> le1 y z = true -> le1 x z = true) by (intros x y z; apply str_leb_trans).
  assert (F1 : forall k, filter (with_group k) ls1 = filter (with_group k) ls).
  { intros k. apply stable_sort_filter. intros x y Hx Hy. apply ostr_eqb_eq in Hx, Hy. unfold le1. rewrite Hx, Hy. apply str_leb_refl. }
  assert (I1 : forall l, In l ls1 -> In (al_group l) gs).
  { intros l Hl. apply I. eapply Permutation_in; [|exact Hl]. apply Permutation_sym, stable_sort_perm. }
  set (key := fun l => match index_of (al_group l) gs with Ok n => n | Raise _ => 0 end).
  assert (K : forall l, In l ls1 -> index_of (al_group l) gs = Ok (key l)).
  { intros l Hl. unfold key. destruct (index_of_in _ _ (I1 l Hl)) as [n ->]. reflexivity. }
  assert (M : mapM (fun l => let* k := index_of (al_group l) gs in Ok (k, l)) ls1 = Ok (map (fun l => (key l, l)) ls1)).
  { clear -K. induction ls1 as [|l ls1 IH]; [reflexivity|]. cbn [mapM map]. rewrite K by now left. cbn [bind].
    rewrite IH; [reflexivity|]. intros x Hx. apply K. now right. }
  rewrite M. cbn [bind]. f_equal.
  set (keyed := map (fun l => (key l, l)) ls1).
  set (le2 := fun a b : nat * AhbLine => Nat.leb (fst a) (fst b)).
  assert (T2 : forall x y, le2 x y = true \/ le2 y x = true).
  { intros x y. unfold le2. rewrite !Nat.leb_le. lia. }
  assert (Tr2 : forall x y z, le2 x y = true -> le2 y z = true -> le2 x z = true).
  { intros x y z. unfold le2. rewrite !Nat.leb_le. lia. }
  assert (B : forall x, In x (stable_sort le2 keyed) -> 0 <= fst x < 0 + List.length gs).
  { intros x Hx. apply (Permutation_in (l' := keyed)) in Hx; [|apply Permutation_sym, stable_sort_perm].
    unfold keyed in Hx. apply in_map_iff in Hx as (l & <- & Hl). cbn [fst].
    pose proof (index_of_ok _ _ _ (K l Hl)) as [Hn _]. split; [lia|]. apply nth_error_Some. congruence. }
  rewrite (sorted_classes fst (List.length gs) _ 0 (stable_sort_sorted le2 T2 Tr2 keyed) B).
  assert (F2 : forall i, filter (fun x => Nat.eqb (fst x) i) (stable_sort le2 keyed) = filter (fun x => Nat.eqb (fst x) i) keyed).
  { intros i. apply stable_sort_filter. intros x y Hx Hy. apply Nat.eqb_eq in Hx, Hy. unfold le2. apply Nat.leb_le. lia. }
  unfold grouped.
  assert (G : forall s pre post, gs = pre ++ post -> s = List.length pre ->
    map snd (flat_map (fun i => filter (fun x => Nat.eqb (fst x) i) (stable_sort le2 keyed)) (seq s (List.length post)))
    = flat_map (fun k => filter (with_group k) ls) post).
  { intros s pre post. revert s pre. induction post as [|g post IH]; intros s pre E Es; [reflexivity|].
    cbn [List.length seq flat_map]. rewrite map_app. f_equal.
    - rewrite F2. unfold keyed. rewrite filter_map, map_map. cbn [fst snd]. rewrite map_id, <- F1.
      apply filter_ext'. intros l Hl. pose proof (index_of_ok _ _ _ (K l Hl)) as [Hn _].
      unfold with_group. destruct (ostr_eqb_spec (al_group l) g) as [Eg|Eg].
      + apply Nat.eqb_eq. assert (Hs : nth_error gs s = Some g) by (rewrite E, Es, nth_error_app2, Nat.sub_diag by lia; reflexivity).
        apply (proj1 (NoDup_nth_error gs) ND); [apply nth_error_Some; congruence|congruence].
      + apply Nat.eqb_neq. intros Hk. apply Eg. rewrite Hk, E, Es, nth_error_app2, Nat.sub_diag in Hn by lia. cbn in Hn. congruence.
    - apply (IH (Datatypes.S s) (pre ++ [g])); [now rewrite <- app_assoc|rewrite app_length; cbn; lia]. }
  exact (G 0 [] gs eq_refl eq_refl).
Qed.

Lemma grouped_filter gs ls k : NoDup gs -> In k gs -> filter (with_group k) (grouped gs ls) = filter (with_group k) ls.
Proof.
  intros ND Hk. unfold grouped.
  assert (Z : forall gs, ~ In k gs -> filter (with_group k) (flat_map (fun k => filter (with_group k) ls) gs) = []).
  { clear. induction gs as [|g gs IH]; [reflexivity|]. intros H. cbn [flat_map]. rewrite filter_app, IH by (intros K; apply H; now right).
    rewrite app_nil_r. assert (Hg : g <> k) by (intros ->; apply H; now left). clear -Hg.
    induction ls as [|l ls IH]; [reflexivity|]. cbn. destruct (with_group g l) eqn:E; [|exact IH]. cbn.
    apply ostr_eqb_eq in E. unfold with_group at 1. rewrite E. destruct (ostr_eqb_spec g k); [congruence|exact IH]. }
  induction ND as [|g gs Hg ND IH]; [destruct Hk|]. cbn [flat_map]. rewrite filter_app.
  destruct (ostr_dec g k) as [->|E].
  - rewrite Z, app_nil_r by exact Hg. clear. induction ls as [|l ls IH]; [reflexivity|]. cbn.
    destruct (with_group k l) eqn:E; [cbn; rewrite E, IH; reflexivity|exact IH].
  - destruct Hk as [Hk|Hk]; [congruence|]. rewrite IH by exact Hk.
    rewrite <- app_nil_l. f_equal. clear -E. induction ls as [|l ls IH]; [reflexivity|]. cbn.
    destruct (with_group g l) eqn:G; [|exact IH]. cbn. apply ostr_eqb_eq in G. unfold with_group at 1. rewrite G.
    destruct (ostr_eqb_spec g k); [congruence|exact IH].
Qed.
Lemma in_grouped gs ls l : In l (grouped gs ls) <-> In l ls /\ In (al_group l) gs.
Proof.
  unfold grouped. rewrite in_flat_map. split.
  - intros (k & Hk & H). apply filter_In in H as [H E]. apply ostr_eqb_eq in E. split; [exact H|congruence].
  - intros [H K]. exists (al_group l). split; [exact K|]. apply filter_In. split; [exact H|apply ostr_eqb_refl].
Qed.

Lemma sorted_lines_of_ahb ls :
  sorted_lines_by_segment_groups ls (get_available_segment_groups ls) = Ok (grouped (get_available_segment_groups ls) ls).
Proof.
  destruct (available_groups_spec ls) as (ND & I & _). apply sorted_lines_grouped; [exact ND|].
  intros l Hl. apply I. now apply in_map.
Qed.

Lemma first_occurrences_nodup {A} (l : list A) : NoDup l -> first_occurrences l l.
Proof.
  intros ND. split; [exact ND|]. split; [tauto|]. intros g1 x g2 y g3 ->. exists g1, (g2 ++ y :: g3). split; [reflexivity|].
  intros H. apply in_split in H as (a & b & ->). rewrite <- app_assoc in ND. cbn in ND.
  apply NoDup_remove_2 in ND. apply ND. apply in_or_app. right. apply in_or_app. right. right. apply in_or_app. right. now left.
Qed.

(** appending elements already seen, or classes in order *)
Lemma first_occurrences_app_same {A} (ks gs : list A) k (l : list A) :
  (forall x y : A, {x = y} + {x <> y}) ->
  first_occurrences ks gs -> ~ In k ks -> l <> [] -> (forall x, In x l -> x = k) -> first_occurrences (ks ++ l) (gs ++ [k]).
Proof.
  intros dec F Hk Hn Hl. destruct l as [|x l]; [congruence|]. assert (x = k) as -> by (apply Hl; now left).
  replace (ks ++ k :: l) with ((ks ++ [k]) ++ l) by now rewrite <- app_assoc.
  assert (F' : first_occurrences (ks ++ [k]) (gs ++ [k])) by now apply first_occurrences_new.
  assert (Hl' : forall y, In y l -> y = k) by (intros y Hy; apply Hl; now right).
  clear Hl Hn F. revert F' Hl'. generalize (gs ++ [k]). intros gs'.
  induction l as [|y l IH] using rev_ind; intros F Hl'; [now rewrite app_nil_r|].
  rewrite app_assoc. apply first_occurrences_old.
  - apply IH; [exact F|]. intros z Hz. apply Hl'. apply in_or_app. now left.
  - rewrite (Hl' y) by (apply in_or_app; right; now left). apply in_or_app. left. apply in_or_app. right. now left.
Qed.
Lemma grouped_groups gs ls : NoDup gs -> (forall k, In k gs -> In k (map al_group ls)) ->
  get_available_segment_groups (grouped gs ls) = gs.
Proof.
  intros ND I. apply (first_occurrences_unique (map al_group (grouped gs ls))); [apply ostr_dec|apply available_groups_spec|].
  unfold grouped. revert ND I. induction gs as [|g gs IH] using rev_ind; intros ND I; [apply first_occurrences_nil|].
  rewrite flat_map_app, map_app. cbn [flat_map]. rewrite app_nil_r.
  assert (NDg : NoDup gs /\ ~ In g gs).
  { split; [apply NoDup_remove_1 in ND; now rewrite app_nil_r in ND|]. apply NoDup_remove_2 in ND. now rewrite app_nil_r in ND. }
  apply first_occurrences_app_same.
  - apply ostr_dec.
  - apply IH; [apply NDg|]. intros k Hk. apply I. apply in_or_app. now left.
  - intros H. apply NDg. apply in_map_iff in H as (l & <- & Hl). fold (grouped gs ls) in Hl. now apply in_grouped in Hl.
  - assert (Hg : In g (map al_group ls)) by (apply I, in_or_app; right; now left).
    apply in_map_iff in Hg as (l & Hl & Hin). intros E.
    assert (In (al_group l) (map al_group (filter (with_group g) ls))).
    { apply in_map. apply filter_In. split; [exact Hin|]. unfold with_group. rewrite Hl. apply ostr_eqb_refl. }
    rewrite E in H. destruct H.
  - intros x Hx. apply in_map_iff in Hx as (l & <- & Hl). apply filter_In in Hl as [_ Hl]. now apply ostr_eqb_eq in Hl.
Qed.
Lemma grouped_twice gs ls : NoDup gs -> grouped gs (grouped gs ls) = grouped gs ls.
Proof.
  intros ND. unfold grouped at 1 3. 
  assert (H : forall l, (forall k, In k l -> In k gs) ->
     flat_map (fun k => filter (with_group k) (grouped gs ls)) l = flat_map (fun k => filter (with_group k) ls) l).
  { induction l as [|k l IH]; [reflexivity|]. intros Hl. cbn [flat_map].
    rewrite grouped_filter by (try assumption; apply Hl; now left). f_equal. apply IH. intros x Hx. apply Hl. now right. }
  now apply H.
Qed.

(** ** chunks *)
Lemma split_when_go_spec {A} (p : A -> A -> bool) l : forall prev cur,
  exists c cs, split_when_go p prev (prev :: cur) l = (rev cur ++ prev :: c) :: cs
    /\ concat ((prev :: c) :: cs) = prev :: l
    /\ (forall d, In d ((prev :: c) :: cs) -> d <> [] /\ forall x y, adjacent x y d -> p x y = false)
    /\ (forall d e x y, adjacent d e ((prev :: c) :: cs) -> (exists r, d = r ++ [x]) -> (exists r, e = y :: r) -> p x y = true).
Proof.
  induction l as [|z l IH]; intros prev cur; cbn [split_when_go].
  - exists [], []. split; [reflexivity|]. split; [reflexivity|]. split.
    + intros d [<-|[]]. split; [discriminate|]. intros x y (l1 & l2 & H). destruct l1 as [|? [|? ?]]; discriminate.
    + intros d e x y (l1 & l2 & H). destruct l1 as [|? [|? ?]]; discriminate.
  - destruct (p prev z) eqn:E.
    + destruct (IH z []) as (c & cs & -> & H1 & H2 & H3). cbn [rev app].
      exists [], ((z :: c) :: cs). split; [reflexivity|]. split; [|split].
      * cbn [concat app] in *. now rewrite H1.
      * intros d [<-|Hd]; [|now apply H2]. split; [discriminate|]. intros x y (l1 & l2 & H). destruct l1 as [|? [|? ?]]; discriminate.
      * intros d e x y (l1 & l2 & H) (r1 & Hr1) (r2 & Hr2). destruct l1 as [|a l1].
        -- injection H as <- <- _. destruct r1 as [|? [|? ?]]; [|discriminate|discriminate]. injection Hr1 as <-. injection Hr2 as <- _. exact E.
        -- injection H as _ H. eapply H3; [exists l1, l2; exact H|eauto|eauto].
    + destruct (IH z (prev :: cur)) as (c & cs & -> & H1 & H2 & H3).
      exists (z :: c), cs. split; [cbn [rev]; rewrite <- app_assoc; reflexivity|]. split; [|split].
      * cbn [concat app] in *. now rewrite H1.
      * intros d [<-|Hd].
        -- split; [discriminate|]. intros x y (l1 & l2 & H). destruct l1 as [|a l1].
           ++ injection H as <- <- _. exact E.
           ++ injection H as _ H. apply (H2 (z :: c) (or_introl eq_refl)). now exists l1, l2.
        -- apply H2. now right.
      * intros d e x y (l1 & l2 & H) (r1 & Hr1) (r2 & Hr2). destruct l1 as [|a l1].
        -- injection H as <- E1. destruct r1 as [|b r1]; [discriminate|]. injection Hr1 as <- Hr1.
           eapply (H3 (z :: c) e); [exists [], l2; cbn; now rewrite E1|eauto|eauto].
        -- injection H as _ H. eapply (H3 d e); [exists ((z :: c) :: l1), l2; cbn; now rewrite H|eauto|eauto].
Qed.
Lemma split_when_spec {A} (p : A -> A -> bool) l : is_chunking (fun x y => p x y = true) l (split_when p l).
Proof.
  destruct l as [|x l]; cbn [split_when].
  - split; [reflexivity|]. split; [intros c []|]. intros c d x y (l1 & l2 & H). destruct l1; discriminate.
  - destruct (split_when_go_spec p l x []) as (c & cs & -> & H1 & H2 & H3). cbn [rev app].
    split; [exact H1|]. split; [|exact H3]. intros d Hd. split; [now apply H2|].
    intros a b Hab. apply not_true_iff_false. now apply (H2 d Hd).
Qed.

Lemma adjacent_cons {A} (x y a : A) l : adjacent x y l -> adjacent x y (a :: l).
Proof. intros (l1 & l2 & ->). exists (a :: l1), l2. reflexivity. Qed.
Lemma adjacent_head {A} (x y : A) l : adjacent x y (x :: y :: l).
Proof. exists [], l. reflexivity. Qed.

Lemma is_chunking_unique {A} (cut : A -> A -> Prop) cs : forall l ds,
  is_chunking cut l cs -> is_chunking cut l ds -> cs = ds.
Proof.
  assert (Nil : forall ds, is_chunking cut [] ds -> ds = []).
  { intros [|d ds] (H & H1 & _); [reflexivity|]. destruct (H1 d (or_introl eq_refl)) as [Hd _].
    destruct d; [congruence|discriminate]. }
  induction cs as [|c cs IH]; intros l ds Hc Hd.
  - destruct Hc as (H & _). cbn in H. subst l. symmetry. now apply Nil.
  - destruct ds as [|d ds].
    + destruct Hd as (H & _). cbn in H. subst l. apply Nil in Hc. discriminate.
    + assert (T : forall c cs, is_chunking cut (concat (c :: cs)) (c :: cs) -> is_chunking cut (concat cs) cs).
      { clear. intros c cs (_ & H1 & H2). split; [reflexivity|]. split.
        - intros e He. apply H1. now right.
        - intros e f x y Hef. apply H2. now apply adjacent_cons. }
      assert (E : c = d).
      { destruct Hc as (C0 & C1 & C2), Hd as (D0 & D1 & D2). cbn [concat] in C0, D0.
        rewrite <- D0 in C0. clear D0 IH T Nil l.
        destruct (C1 c (or_introl eq_refl)) as [Nc Ac]. destruct (D1 d (or_introl eq_refl)) as [Nd Ad].
        (* comparable prefixes *)
        assert (P : forall c d r s : list A, c ++ r = d ++ s -> (exists t, d = c ++ t) \/ (exists t, c = d ++ t)).
        { clear. induction c as [|a c IH]; intros d r s H; [left; now exists d|].
          destruct d as [|b d]; [right; now exists (a :: c)|]. injection H as -> H.
          destruct (IH _ _ _ H) as [[t ->]|[t ->]]; [left|right]; now exists t. }
        assert (Q : forall c d cs ds, c <> [] ->
            (forall e, In e (c :: cs) -> e <> []) ->
            (forall x y, adjacent x y d -> ~ cut x y) ->
            (forall e f x y, adjacent e f (c :: cs) -> (exists r, e = r ++ [x]) -> (exists r, f = y :: r) -> cut x y) ->
            c ++ concat cs = d ++ concat ds -> (exists t, d = c ++ t) -> c = d).
        { clear. intros c d cs ds Nc NE Ad C2 H (t & ->). destruct t as [|y t]; [now rewrite app_nil_r|].
          rewrite <- app_assoc in H. apply app_inv_head in H. exfalso.
          destruct cs as [|e cs]; [discriminate|]. destruct e as [|z e]; [exact (NE [] (or_intror (or_introl eq_refl)) eq_refl)|].
          cbn in H. injection H as -> _. destruct (@exists_last _ c Nc) as (c' & x & ->).
          apply (Ad x y).
          - exists c', t. now rewrite <- app_assoc.
          - eapply (C2 (c' ++ [x]) (y :: e)); [apply adjacent_head|eauto|eauto]. }
        destruct (P _ _ _ _ C0) as [Hp|Hp].
        - eapply Q; [exact Nc|intros e He; exact (proj1 (C1 e He))|exact Ad|exact C2|exact C0|exact Hp].
        - symmetry. eapply Q; [exact Nd|intros e He; exact (proj1 (D1 e He))|exact Ac|exact D2|symmetry; exact C0|exact Hp]. }
      subst d. f_equal. destruct Hc as (C0 & C1 & C2), Hd as (D0 & D1 & D2).
      assert (Ec : concat cs = concat ds) by (cbn in C0, D0; apply (app_inv_head c); congruence).
      apply (IH (concat cs)); [apply (T c); split; [reflexivity|]; split; assumption|].
      rewrite Ec. apply (T c). split; [reflexivity|]. split; assumption.
Qed.

Lemma is_chunking_ext {A} (P Q : A -> A -> Prop) l cs : (forall x y, P x y <-> Q x y) -> is_chunking P l cs -> is_chunking Q l cs.
Proof.
  intros E (H0 & H1 & H2). split; [exact H0|]. split.
  - intros c Hc. split; [now apply H1|]. intros x y Hxy. rewrite <- E. now apply (H1 c Hc).
  - intros c d x y Hcd Hx Hy. apply E. eapply H2; eassumption.
Qed.
Lemma switches_enters x y : switches_from_no_sg_to_sg x y = true <-> enters_group x y.
Proof.
  unfold switches_from_no_sg_to_sg, enters_group. rewrite andb_true_iff, is_none_true, is_some_true.
  split; intros [H1 H2]; (split; [exact H1|]).
  - destruct H2 as [a ->]. discriminate.
  - destruct (al_group y); [eauto|congruence].
Qed.
Lemma line_chunks ls : is_chunking enters_group ls (split_when switches_from_no_sg_to_sg ls).
Proof. eapply is_chunking_ext; [|apply split_when_spec]. apply switches_enters. Qed.

Lemma count_of_filter {A} (P : A -> Prop) (f : A -> bool) l n :
  (forall x, f x = true <-> P x) -> count_of P l n <-> n = List.length (filter f l).
Proof.
  intros E. split.
  - induction 1 as [|x l n Hx H IH|x l n Hx H IH]; cbn; [reflexivity| |].
    + apply E in Hx. rewrite Hx. cbn. now rewrite IH.
    + destruct (f x) eqn:F; [exfalso; apply Hx, E, F|exact IH].
  - intros ->. induction l as [|x l IH]; cbn; [constructor|]. destruct (f x) eqn:F; cbn.
    + constructor; [now apply E|exact IH].
    + constructor; [intros H; apply E in H; congruence|exact IH].
Qed.

(** ** acceptance *)
Lemma check_line_ok l :
  (let* _ := check_line_data_element l in let* _ := check_line_segment_group l in check_line_segment_code l) = Ok tt
  <-> accepted_line l.
Proof.
  unfold accepted_line. split.
  - intros H. apply bind_ok in H as ([] & H1 & H). apply bind_ok in H as ([] & H2 & H3).
    unfold check_line_data_element, check_line_segment_group, check_line_segment_code in *. split; [|split].
    + intros s E. rewrite E in H2. apply check_ok in H2. now apply match_segment_group.
    + intros s E. rewrite E in H3. apply check_ok in H3. now apply match_segment_code.
    + intros s E. rewrite E in H1. apply check_ok in H1. now apply match_data_element.
  - intros (H1 & H2 & H3). apply bind_ok. exists tt. split.
    { unfold check_line_data_element. destruct (al_element l) as [s|]; [|reflexivity]. apply check_ok, match_data_element. now apply H3. }
    apply bind_ok. exists tt. split.
    { unfold check_line_segment_group. destruct (al_group l) as [s|]; [|reflexivity]. apply check_ok, match_segment_group. now apply H1. }
    unfold check_line_segment_code. destruct (al_segment l) as [s|]; [|reflexivity]. apply check_ok, match_segment_code. now apply H2.
Qed.
Lemma check_line_raise l e :
  (let* _ := check_line_data_element l in let* _ := check_line_segment_group l in check_line_segment_code l) = Raise e -> e = ValueError.
Proof.
  unfold check_line_data_element, check_line_segment_group, check_line_segment_code.
  destruct (al_element l) as [s|]; [destruct (matches re_data_element s); cbn [check bind]; [|congruence]|cbn [bind]];
  (destruct (al_group l) as [t|]; [destruct (matches re_segment_group t); cbn [check bind]; [|congruence]|cbn [bind]]);
  (destruct (al_segment l) as [r|]; [destruct (matches re_segment_code r); cbn [check]; congruence|congruence]).
Qed.

Definition contains_control (c : list AhbLine) : Prop := exists l, In l c /\ al_section l = Some (u "Abschnitts-Kontrollsegment").
Lemma contains_control_spec c : existsb (fun l => ostr_eqb (al_section l) (Some (u "Abschnitts-Kontrollsegment"))) c = true <-> contains_control c.
Proof.
  rewrite existsb_exists. unfold contains_control. split; intros (l & H & E); exists l; (split; [exact H|]).
  - apply ostr_eqb_eq in E. exact E.
  - rewrite E. apply ostr_eqb_refl.
Qed.

Lemma check_nearly_ok ls :
  check_nearly_all_lines_have_a_segment_group ls = Ok tt
  <-> List.length (filter (existsb (fun l => ostr_eqb (al_section l) (Some (u "Abschnitts-Kontrollsegment"))))
                     (split_when switches_from_no_sg_to_sg ls)) <= 2.
Proof.
  unfold check_nearly_all_lines_have_a_segment_group, remove_grouped_ahb_lines_containing_section_name.
  destruct (Nat.ltb_spec 2 (List.length (filter (existsb (fun l => ostr_eqb (al_section l) (Some (u "Abschnitts-Kontrollsegment"))))
                     (split_when switches_from_no_sg_to_sg ls)))) as [H|H]; split; intros K; try discriminate; try lia. reflexivity.
Qed.
Lemma check_flat_lines_ok ls :
  check_flat_lines ls = Ok tt
  <-> Forall accepted_line ls
      /\ List.length (filter (existsb (fun l => ostr_eqb (al_section l) (Some (u "Abschnitts-Kontrollsegment"))))
                     (split_when switches_from_no_sg_to_sg ls)) <= 2.
Proof.
  unfold check_flat_lines. rewrite bind_ok, Forall_forall. split.
  - intros ([] & H1 & H2). apply check_nearly_ok in H1. split; [|exact H1].
    intros l Hl. apply check_line_ok. apply for_each_ok in H2. rewrite Forall_forall in H2. now apply H2.
  - intros (H1 & H2). exists tt. split; [now apply check_nearly_ok|]. apply for_each_ok, Forall_forall.
    intros l Hl. apply check_line_ok. now apply H1.
Qed.
Lemma for_each_raise {A} (f : A -> result unit) l e : for_each f l = Raise e -> exists a, In a l /\ f a = Raise e.
Proof.
  induction l as [|a l IH]; cbn; [discriminate|]. destruct (f a) as [[]|e'] eqn:E; cbn [bind].
  - intros H. destruct (IH H) as (b & Hb & Eb). exists b. auto.
  - intros [= <-]. exists a. auto.
Qed.
Lemma check_flat_lines_raise ls e : check_flat_lines ls = Raise e -> e = ValueError.
Proof.
  unfold check_flat_lines. unfold check_nearly_all_lines_have_a_segment_group.
  destruct (Nat.ltb 2 _); cbn [bind]; [congruence|]. intros H. apply for_each_raise in H as (l & _ & H). now apply check_line_raise in H.
Qed.

(** ** sorting keeps an AHB valid *)
Fixpoint switches {A} (p : A -> A -> bool) (x : A) (l : list A) : nat :=
  match l with
  | [] => 0
  | y :: r => (if p x y then 1 else 0) + switches p y r
  end.
Lemma split_when_go_length {A} (p : A -> A -> bool) l : forall x cur,
  List.length (split_when_go p x cur l) = S (switches p x l).
Proof. induction l as [|y l IH]; intros x cur; cbn; [reflexivity|]. destruct (p x y); cbn; now rewrite IH. Qed.

Lemma switches_some_only l x :
  (forall y, In y (x :: l) -> al_group y <> None) -> switches switches_from_no_sg_to_sg x l = 0.
Proof.
  revert x; induction l as [|y l IH]; intros x H; cbn; [reflexivity|].
  rewrite IH by (intros z Hz; apply H; now right). unfold switches_from_no_sg_to_sg.
  assert (is_none (al_group x) = false) as ->; [|reflexivity].
  destruct (al_group x) eqn:E; [reflexivity|]. exfalso. apply (H x); [now left|exact E].
Qed.
Lemma switches_none_then_some l1 l2 x :
  (forall y, In y (x :: l1) -> al_group y = None) -> (forall y, In y l2 -> al_group y <> None) ->
  switches switches_from_no_sg_to_sg x (l1 ++ l2) <= 1.
Proof.
  revert x; induction l1 as [|y l1 IH]; intros x H1 H2.
  - cbn. destruct l2 as [|y l2]; cbn; [lia|]. rewrite switches_some_only by exact H2. destruct (switches_from_no_sg_to_sg x y); lia.
  - cbn. unfold switches_from_no_sg_to_sg at 1. rewrite (H1 y) by (right; now left). cbn. rewrite andb_false_r.
    apply IH; [intros z Hz; apply H1; now right|exact H2].
Qed.
Lemma switches_three l0 l1 l2 x :
  (forall y, In y (x :: l0) -> al_group y <> None) ->
  (forall y, In y l1 -> al_group y = None) -> (forall y, In y l2 -> al_group y <> None) ->
  switches switches_from_no_sg_to_sg x (l0 ++ l1 ++ l2) <= 1.
Proof.
  revert x; induction l0 as [|y l0 IH]; intros x H0 H1 H2.
  - assert (Ex : is_none (al_group x) = false).
    { destruct (al_group x) eqn:E; [reflexivity|]. exfalso. apply (H0 x); [now left|exact E]. }
    cbn [app]. destruct l1 as [|y l1]; cbn [app].
    + destruct l2 as [|y l2]; cbn; [lia|]. unfold switches_from_no_sg_to_sg at 1. rewrite Ex. cbn.
      rewrite switches_some_only by exact H2. lia.
    + cbn [switches]. unfold switches_from_no_sg_to_sg at 1. rewrite Ex. cbn. now apply switches_none_then_some.
  - assert (Ex : is_none (al_group x) = false).
    { destruct (al_group x) eqn:E; [reflexivity|]. exfalso. apply (H0 x); [now left|exact E]. }
    cbn [app switches]. unfold switches_from_no_sg_to_sg at 1. rewrite Ex. cbn.
    apply IH; [intros z Hz; apply H0; now right|exact H1|exact H2].
Qed.
Lemma grouped_few_switches gs ls : NoDup gs -> List.length (split_when switches_from_no_sg_to_sg (grouped gs ls)) <= 2.
Proof.
  intros ND. unfold grouped.
  assert (S : exists g0 g1 g2, gs = g0 ++ g1 ++ g2 /\ ~ In None g0 /\ ~ In None g2 /\ (forall k, In k g1 -> k = None)).
  { destruct (in_dec ostr_dec None gs) as [H|H].
    - apply in_split in H as (g0 & g2 & ->). exists g0, [None], g2. repeat split.
      + intros K. apply NoDup_remove_2 in ND. apply ND, in_or_app. now left.
      + intros K. apply NoDup_remove_2 in ND. apply ND, in_or_app. now right.
      + intros k [<-|[]]. reflexivity.
    - exists gs, [], []. rewrite !app_nil_r. repeat split; auto; intros k []. }
  destruct S as (g0 & g1 & g2 & -> & N0 & N2 & N1). rewrite !flat_map_app.
  assert (G : forall g l, In l (flat_map (fun k => filter (with_group k) ls) g) -> In (al_group l) g).
  { intros g l Hl. apply in_flat_map in Hl as (k & Hk & Hl). apply filter_In in Hl as [_ Hl]. apply ostr_eqb_eq in Hl. congruence. }
  set (a := flat_map _ g0). set (b := flat_map _ g1). set (c := flat_map _ g2).
  assert (Ha : forall l, In l a -> al_group l <> None) by (intros l Hl E; apply G in Hl; rewrite E in Hl; contradiction).
  assert (Hb : forall l, In l b -> al_group l = None) by (intros l Hl; apply G in Hl; auto).
  assert (Hc : forall l, In l c -> al_group l <> None) by (intros l Hl E; apply G in Hl; rewrite E in Hl; contradiction).
  destruct a as [|x a].
  - cbn [app]. destruct b as [|y b].
    + cbn [app]. destruct c as [|z c]; cbn; [lia|]. rewrite split_when_go_length, switches_some_only by exact Hc. lia.
    + cbn. rewrite split_when_go_length. pose proof (switches_none_then_some b c y Hb Hc). lia.
  - cbn. rewrite split_when_go_length. pose proof (switches_three a b c x Ha Hb Hc). lia.
Qed.
Lemma filter_length_le {A} (p : A -> bool) l : List.length (filter p l) <= List.length l.
Proof. induction l as [|x l IH]; cbn; [lia|]. destruct (p x); cbn; lia. Qed.

Lemma sort_lines_ok m ls :
  Forall accepted_line ls ->
  sort_lines_by_segment_groups (mkFlat m ls) = Ok (mkFlat m (grouped (get_available_segment_groups ls) ls)).
Proof.
  intros F. unfold sort_lines_by_segment_groups, get_segment_groups. cbn [fa_lines fa_meta].
  rewrite sorted_lines_of_ahb. cbn [bind].
  assert (check_flat_lines (grouped (get_available_segment_groups ls) ls) = Ok tt) as ->; [|reflexivity].
  apply check_flat_lines_ok. split.
  - rewrite Forall_forall in *. intros l Hl. apply in_grouped in Hl as [Hl _]. auto.
  - eapply Nat.le_trans; [apply filter_length_le|]. apply grouped_few_switches. apply available_groups_spec.
Qed.

(** ** discriminators *)
Lemma split_first {A} (c : A) a b a' b' : ~ In c a -> ~ In c a' -> a ++ c :: b = a' ++ c :: b' -> a = a' /\ b = b'.
Proof.
  revert a'; induction a as [|x a IH]; intros [|y a'] Ha Ha' E.
  - injection E as ->. auto.
  - injection E as <- _. exfalso. apply Ha'. now left.
  - injection E as -> _. exfalso. apply Ha. now left.
  - injection E as -> E. destruct (IH a') as [-> ->]; auto; intros H; [apply Ha|apply Ha']; now right.
Qed.
Lemma not_in_all p s c : all p s -> p c = false -> ~ In c s.
Proof. intros H Hc Hin. unfold all in H. rewrite Forall_forall in H. apply H in Hin. congruence. Qed.
Lemma not_in_newline t c : maybe_newline t -> c <> chr_newline -> ~ In c t.
Proof. intros [->| ->] Hc; [intros []|]. intros [H|[]]. congruence. Qed.
(** a character that occurs in no accepted field *)
Definition foreign (c : char) : Prop :=
  is_AZ c = false /\ is_letter c = false /\ is_decimal c = false /\ c <> chr_newline.
Lemma accepted_group_no c s : foreign c -> accepted_group s -> ~ In c s.
Proof.
  intros (H1 & H2 & H3 & H4) (k & t & -> & (ds & -> & _ & Hd) & Ht) Hin.
  rewrite !in_app_iff in Hin. destruct Hin as [[Hin|Hin]|Hin].
  - vm_compute in Hin. destruct Hin as [<-|[<-|[]]]; discriminate.
  - eapply not_in_all; eassumption.
  - eapply not_in_newline; eassumption.
Qed.
Lemma accepted_segment_no c s : foreign c -> accepted_segment s -> ~ In c s.
Proof.
  intros (H1 & H2 & H3 & H4) (k & t & -> & (_ & Hk) & Ht) Hin. rewrite in_app_iff in Hin. destruct Hin as [Hin|Hin].
  - eapply not_in_all; eassumption.
  - eapply not_in_newline; eassumption.
Qed.
Lemma accepted_element_no c s : foreign c -> accepted_element s -> ~ In c s.
Proof.
  intros (H1 & H2 & H3 & H4) (k & t & -> & Hk & Ht) Hin. rewrite in_app_iff in Hin. destruct Hin as [Hin|Hin].
  - destruct Hk as [[_ Hk]|[[_ Hk]|(a & d & -> & _ & Ha & _ & Hd)]]; [eapply not_in_all; eassumption|eapply not_in_all; eassumption|].
    rewrite in_app_iff in Hin. destruct Hin as [Hin|Hin]; [exact (not_in_all _ _ _ Ha H2 Hin)|exact (not_in_all _ _ _ Hd H3 Hin)].
  - eapply not_in_newline; eassumption.
Qed.
Lemma str_of_ostr_no c v : foreign c -> (forall s, v = Some s -> ~ In c s) -> ~ In c (str_of_ostr v).
Proof.
  intros (H1 & H2 & H3 & H4) Hv. destruct v as [s|]; [now apply Hv|]. vm_compute. intros Hin.
  repeat (destruct Hin as [<-|Hin]; [vm_compute in H2; discriminate|]). destruct Hin.
Qed.
Lemma str_of_ostr_inj a b : a <> Some (u "None") -> b <> Some (u "None") -> str_of_ostr a = str_of_ostr b -> a = b.
Proof. destruct a as [a|], b as [b|]; cbn [str_of_ostr]; intros Ha Hb E; congruence. Qed.
Lemma accepted_segment_not_None : ~ accepted_segment (u "None").
Proof.
  intros H. apply match_segment_code in H. vm_compute in H. discriminate.
Qed.
Lemma accepted_element_not_None : ~ accepted_element (u "None").
Proof. intros H. apply match_data_element in H. vm_compute in H. discriminate. Qed.
Lemma accepted_group_truthy s : accepted_group s -> truthy s = true.
Proof. intros (k & t & -> & (ds & -> & _) & _). reflexivity. Qed.

Definition base_discriminator (l : AhbLine) : pystr :=
  (if otruthy (al_group l) then str_of_ostr (al_group l) ++ u "->" else [])
  ++ str_of_ostr (al_segment l) ++ u "->" ++ str_of_ostr (al_element l).

Lemma foreign_gt : foreign 62%N. Proof. repeat split; vm_compute; congruence. Qed.
Lemma foreign_paren : foreign 40%N. Proof. repeat split; vm_compute; congruence. Qed.
Lemma foreign_dash : foreign 45%N. Proof. repeat split; vm_compute; congruence. Qed.

Lemma line_fields_no c l : foreign c -> accepted_line l ->
  ~ In c (str_of_ostr (al_group l)) /\ ~ In c (str_of_ostr (al_segment l)) /\ ~ In c (str_of_ostr (al_element l)).
Proof.
  intros F (H1 & H2 & H3). split; [|split]; (apply str_of_ostr_no; [exact F|]); intros s E.
  - apply (accepted_group_no c s F (H1 s E)).
  - apply (accepted_segment_no c s F (H2 s E)).
  - apply (accepted_element_no c s F (H3 s E)).
Qed.
Lemma base_discriminator_no_paren l : accepted_line l -> ~ In 40%N (base_discriminator l).
Proof.
  intros A. destruct (line_fields_no _ l foreign_paren A) as (H1 & H2 & H3). unfold base_discriminator.
  assert (Hs : ~ In 40%N (u "->")) by (vm_compute; intuition discriminate).
  rewrite !in_app_iff. destruct (otruthy (al_group l)); [rewrite in_app_iff|]; cbn [In]; tauto.
Qed.
Lemma base_discriminator_inj a b :
  accepted_line a -> accepted_line b -> base_discriminator a = base_discriminator b ->
  al_group a = al_group b /\ al_segment a = al_segment b /\ al_element a = al_element b.
Proof.
  intros Aa Ab. destruct (line_fields_no _ a foreign_dash Aa) as (Ga & Sa & Ea).
  destruct (line_fields_no _ b foreign_dash Ab) as (Gb & Sb & Eb).
  assert (I : str_of_ostr (al_segment a) = str_of_ostr (al_segment b) -> str_of_ostr (al_element a) = str_of_ostr (al_element b) ->
              al_segment a = al_segment b /\ al_element a = al_element b).
  { intros E1 E2. split; (apply str_of_ostr_inj; [| |assumption]); intros K.
    - apply accepted_segment_not_None, Aa, K.
    - apply accepted_segment_not_None, Ab, K.
    - apply accepted_element_not_None, Aa, K.
    - apply accepted_element_not_None, Ab, K. }
  unfold base_discriminator. change (u "->") with [45%N; 62%N].
  assert (T : forall l, accepted_line l -> otruthy (al_group l) = is_some (al_group l)).
  { intros l (H & _). destruct (al_group l) as [s|]; [|reflexivity]. cbn. now rewrite (accepted_group_truthy s (H s eq_refl)). }
  rewrite (T a Aa), (T b Ab). destruct (al_group a) as [ga|] eqn:EGa, (al_group b) as [gb|] eqn:EGb; cbn [is_some is_none negb str_of_ostr] in *.
  - rewrite <- !app_assoc. cbn [app]. intros E. apply split_first in E as [-> E]; [|exact Ga|exact Gb].
    injection E as E. apply split_first in E as [E1 E]; [|exact Sa|exact Sb]. injection E as E2. split; [reflexivity|auto].
  - rewrite <- !app_assoc. cbn [app]. intros E. apply split_first in E as [_ E]; [|exact Ga|exact Sb].
    injection E as E. exfalso. apply Eb. rewrite <- E. apply in_or_app. right. now left.
  - rewrite <- !app_assoc. cbn [app]. intros E. apply split_first in E as [_ E]; [|exact Sa|exact Gb].
    injection E as E. exfalso. apply Ea. rewrite E. apply in_or_app. right. now left.
  - cbn [app]. intros E. apply split_first in E as [E1 E]; [|exact Sa|exact Sb]. injection E as E2. split; [reflexivity|auto].
Qed.
Lemma get_discriminator_base l inc :
  get_discriminator l inc = base_discriminator l ++ (if otruthy (al_name l) && inc then u " (" ++ str_of_ostr (al_name l) ++ u ")" else []).
Proof. unfold get_discriminator, base_discriminator. rewrite <- !app_assoc. reflexivity. Qed.
Lemma discriminator_inj a b inc :
  accepted_line a -> accepted_line b -> get_discriminator a inc = get_discriminator b inc ->
  al_group a = al_group b /\ al_segment a = al_segment b /\ al_element a = al_element b
  /\ (inc = true -> or_none (al_name a) = or_none (al_name b)).
Proof.
  intros Aa Ab. rewrite !get_discriminator_base.
  pose proof (base_discriminator_no_paren a Aa) as Na. pose proof (base_discriminator_no_paren b Ab) as Nb.
  assert (K : forall x, ~ In 40%N (base_discriminator x) -> ~ In 40%N (base_discriminator x ++ [32%N])).
  { intros x Hx H. apply in_app_or in H as [H|[H|[]]]; [contradiction|discriminate]. }
  change (u " (") with [32%N; 40%N].
  assert (U : forall x (v : pystr), base_discriminator x ++ ([32%N; 40%N] ++ v ++ u ")") = (base_discriminator x ++ [32%N]) ++ 40%N :: v ++ u ")").
  { intros x v. rewrite <- !app_assoc. reflexivity. }
  unfold or_none.
  destruct (otruthy (al_name a)) eqn:Ta, (otruthy (al_name b)) eqn:Tb, inc; cbn [andb]; rewrite ?U, ?app_nil_r; intros E;
    try (destruct (base_discriminator_inj a b Aa Ab E) as (E1 & E2 & E3); repeat split; try assumption; discriminate).
  - apply split_first in E as [E E']; [|now apply K|now apply K]. apply app_inv_tail in E.
    apply app_inv_tail in E'. destruct (base_discriminator_inj a b Aa Ab E) as (E1 & E2 & E3). repeat split; try assumption.
    intros _. destruct (al_name a), (al_name b); cbn in *; congruence.
  - exfalso. apply Nb. rewrite <- E. apply in_or_app. right. now left.
  - exfalso. apply Na. rewrite E. apply in_or_app. right. now left.
Qed.
