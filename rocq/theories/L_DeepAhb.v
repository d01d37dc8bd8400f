(** Lemmas about deep AHBs. *)
From Coq Require Import Ascii String List NArith ZArith Bool Lia Arith Permutation Sorted.
From Verif Require Import PyBase PyStr M_Components M_Ahb S_Text S_FlatAhb S_DeepAhb L_Base L_Str L_FlatAhb.
Import ListNotations.
Local Open Scope list_scope.

Lemma NoDup_app_intro {A} (a b : list A) : NoDup a -> NoDup b -> (forall x, In x a -> ~ In x b) -> NoDup (a ++ b).
Proof.
  induction a as [|x a IH]; cbn; intros Ha Hb D; [exact Hb|]. inversion Ha; subst. constructor.
  - rewrite in_app_iff. intros [H|H]; [contradiction|]. now apply (D x (or_introl eq_refl)).
  - apply IH; auto.
Qed.

(** ** nesting *)
Fixpoint preorder (g : SegmentGroup) : list SegmentGroup :=
  g :: match g with
       | mkGroup _ _ _ _ (Some gs) => flat_map preorder gs
       | mkGroup _ _ _ _ None => []
       end.
Definition nested (g : SegmentGroup) : list SegmentGroup := flat_map preorder (olist (g_groups g)).
Lemma preorder_eq g : preorder g = g :: nested g.
Proof. destruct g as [d e i ss [gs|]]; reflexivity. Qed.

Lemma preorder_lists g : lists_preorder g (preorder g).
Proof.
  induction g as [d e i ss gs IH] using group_ind'. rewrite preorder_eq. constructor. unfold nested. cbn [g_groups].
  induction IH as [|g l Hg _ IHl]; cbn [flat_map]; constructor; assumption.
Qed.
Lemma nested_lists g : lists_preorder_all (olist (g_groups g)) (nested g).
Proof.
  unfold nested. induction (olist (g_groups g)) as [|x l IH]; cbn [flat_map]; constructor; [apply preorder_lists|assumption].
Qed.
(** [lists_preorder] determines the list *)
Lemma preorder_unique : (forall g l, lists_preorder g l -> l = preorder g) /\ (forall gs l, lists_preorder_all gs l -> l = flat_map preorder gs).
Proof.
  assert (A : forall gs, Forall (fun g => forall l, lists_preorder g l -> l = preorder g) gs -> forall l, lists_preorder_all gs l -> l = flat_map preorder gs).
  { induction gs as [|g gs IH]; intros F l H; inversion H; subst; [reflexivity|]. inversion F; subst. cbn. f_equal; auto. }
  assert (C : forall g l, lists_preorder g l -> l = preorder g).
  { induction g as [d e i ss gs IH] using group_ind'. intros l H. inversion H; subst. rewrite preorder_eq. f_equal. unfold nested. cbn [g_groups] in *. now apply A. }
  split; [exact C|]. intros gs. apply A. rewrite Forall_forall. auto.
Qed.

Lemma inside_trans a b c : inside a b -> inside b c -> inside a c.
Proof. intros H K. revert H. induction K as [|h k l K IH E Hin]; intros H; [exact H|]. econstructor; [apply IH; exact H|exact E|exact Hin]. Qed.
Lemma inside_child g k l : g_groups g = Some l -> In k l -> inside g k.
Proof. intros E H. econstructor; [constructor|exact E|exact H]. Qed.
Lemma inside_inv g h : inside g h -> h = g \/ exists k l, g_groups g = Some l /\ In k l /\ inside k h.
Proof.
  induction 1 as [|h k l H IH E Hin]; [now left|]. right. destruct IH as [-> |(k' & l' & E' & H' & I)].
  - exists k, l. repeat split; [exact E|exact Hin|constructor].
  - exists k', l'. repeat split; [exact E'|exact H'|]. econstructor; [exact I|exact E|exact Hin].
Qed.
Lemma in_preorder g h : In h (preorder g) <-> inside g h.
Proof.
  revert h. induction g as [d e i ss gs IH] using group_ind'. intros h. rewrite preorder_eq. unfold nested. cbn [g_groups In].
  rewrite in_flat_map. rewrite Forall_forall in IH. split.
  - intros [<-|(k & Hk & Hh)]; [constructor|]. destruct gs as [l|]; [|destruct Hk]. cbn in Hk, IH.
    eapply inside_trans; [eapply inside_child; [reflexivity|exact Hk]|]. now apply IH.
  - intros H. apply inside_inv in H as [-> |(k & l & E & Hk & H)]; [now left|right]. cbn in E. subst gs. exists k. split; [exact Hk|]. now apply IH.
Qed.
Lemma in_nested g h : In h (nested g) <-> exists k l, g_groups g = Some l /\ In k l /\ inside k h.
Proof.
  unfold nested. rewrite in_flat_map. split.
  - intros (k & Hk & Hh). destruct (g_groups g) as [l|]; [|destruct Hk]. exists k, l. repeat split; [exact Hk|now apply in_preorder].
  - intros (k & l & E & Hk & Hh). rewrite E. exists k. split; [exact Hk|now apply in_preorder].
Qed.

Lemma filter_flat_map {A B} (p : B -> bool) (f : A -> list B) l : filter p (flat_map f l) = flat_map (fun x => filter p (f x)) l.
Proof. induction l as [|x l IH]; cbn; [reflexivity|]. rewrite filter_app. now rewrite IH. Qed.
Lemma query_spec p g : query_segment_group p g = filter p (preorder g).
Proof.
  induction g as [d e i ss gs IH] using group_ind'. rewrite preorder_eq. unfold nested. cbn [query_segment_group g_groups filter].
  destruct gs as [l|]; cbn [olist flat_map filter] in *.
  - rewrite filter_flat_map. rewrite Forall_forall in IH. rewrite (flat_map_ext_in _ _ _ IH).
    destruct (p (mkGroup d e i ss (Some l))); reflexivity.
  - destruct (p (mkGroup d e i ss None)); reflexivity.
Qed.
Lemma existsb_group g l : existsb (group_eqb g) l = true <-> In g l.
Proof.
  rewrite existsb_exists. split; [intros (x & H & E); apply group_eqb_eq in E as ->; exact H|].
  intros H. exists g. split; [exact H|now apply group_eqb_eq].
Qed.
Lemma group_dec (x y : SegmentGroup) : {x = y} + {x <> y}.
Proof. destruct (group_eqb x y) eqn:E; [left; now apply group_eqb_eq|right; intros K; apply group_eqb_eq in K; congruence]. Qed.

Definition add_new (result : list SegmentGroup) (x : SegmentGroup) : list SegmentGroup :=
  if existsb (group_eqb x) result then result else result ++ [x].
Lemma add_all_old l result : (forall x, In x l -> In x result) -> fold_left add_new l result = result.
Proof.
  revert result; induction l as [|x l IH]; intros result H; cbn; [reflexivity|].
  unfold add_new at 2. assert (existsb (group_eqb x) result = true) as -> by (apply existsb_group, H; now left).
  apply IH. intros y Hy. apply H. now right.
Qed.

(** one top level line *)
Definition line_step (p : SegmentGroup -> bool) (result : list SegmentGroup) (line : SegmentGroup) : list SegmentGroup :=
  let result := result ++ filter p (nested line) in
  if p line then if in_dec group_dec line result then result else result ++ [line] else result.
Lemma fold_left_ext {A B} (f g : A -> B -> A) l x : (forall a b, f a b = g a b) -> fold_left f l x = fold_left g l x.
Proof. intros H. revert x; induction l as [|b l IH]; intros x; cbn; [reflexivity|]. rewrite H. apply IH. Qed.
Lemma find_segment_groups_eq a p : find_segment_groups a p = fold_left (line_step p) (da_lines a) [].
Proof.
  unfold find_segment_groups. apply fold_left_ext. intros result line. cbv zeta.
  rewrite query_spec, preorder_eq. cbn [filter].
  assert (F : flat_map (query_segment_group p) (olist (g_groups line)) = filter p (nested line)).
  { unfold nested. rewrite filter_flat_map. apply flat_map_ext_in. intros x _. apply query_spec. }
  rewrite F. unfold line_step.
  change (fun (result0 : list SegmentGroup) line_result => if existsb (group_eqb line_result) result0 then result0 else result0 ++ [line_result]) with add_new.
  destruct (p line).
  - cbn [fold_left]. rewrite add_all_old.
    + unfold add_new. destruct (in_dec group_dec line (result ++ filter p (nested line))) as [H|H].
      * apply existsb_group in H. now rewrite H.
      * destruct (existsb (group_eqb line) _) eqn:E; [apply existsb_group in E; contradiction|reflexivity].
    + intros x Hx. unfold add_new. destruct (existsb _ _); [|apply in_or_app; left]; apply in_or_app; now right.
  - apply add_all_old. intros x Hx. apply in_or_app. now right.
Qed.

Lemma in_line_step p result line g :
  In g (line_step p result line) <-> In g result \/ (inside line g /\ p g = true).
Proof.
  unfold line_step. rewrite <- in_preorder, preorder_eq. cbn [In].
  destruct (p line) eqn:E.
  - destruct (in_dec group_dec line (result ++ filter p (nested line))) as [H|H].
    + rewrite in_app_iff, filter_In in *. split; [tauto|]. intros [K|[[-> |K] K']]; tauto.
    + rewrite !in_app_iff, filter_In. cbn [In]. split; [|intros [K|[[-> |K] K']]; tauto]. intros [[K|K]|[<-|[]]]; tauto.
  - rewrite in_app_iff, filter_In. split; [tauto|]. intros [K|[[-> |K] K']]; [tauto|congruence|tauto].
Qed.
Lemma in_find_segment_groups a p g : In g (find_segment_groups a p) <-> group_of a g /\ p g = true.
Proof.
  rewrite find_segment_groups_eq. unfold group_of.
  assert (G : forall ls result, In g (fold_left (line_step p) ls result) <-> In g result \/ ((exists line, In line ls /\ inside line g) /\ p g = true)).
  { induction ls as [|line ls IH]; intros result; cbn [fold_left].
    - split; [tauto|]. intros [H|((l & [] & _) & _)]. exact H.
    - rewrite IH, in_line_step. split.
      + intros [[H|[H H']]|((l & Hl & H) & H')]; [tauto| |]; right; (split; [|exact H']).
        * exists line. split; [now left|exact H].
        * exists l. split; [now right|exact H].
      + intros [H|((l & [<-|Hl] & H) & H')]; [tauto|tauto|]. right. split; [eauto|exact H']. }
  rewrite G. cbn. tauto.
Qed.

(** ** segments *)
Lemma in_olist_segments g s : In s (olist (g_segments g)) <-> direct_segment g s.
Proof.
  unfold direct_segment. destruct (g_segments g) as [l|]; cbn; split; [eauto| |tauto|]; intros (l' & E & H); congruence.
Qed.
Lemma group_find_segments_spec p g :
  group_find_segments p true g = flat_map (fun h => filter p (olist (g_segments h))) (preorder g).
Proof.
  induction g as [d e i ss gs IH] using group_ind'. rewrite preorder_eq. unfold nested. cbn [group_find_segments flat_map g_segments g_groups].
  f_equal. destruct gs as [l|]; [|reflexivity]. cbn [olist] in *. rewrite Forall_forall in IH.
  rewrite (flat_map_ext_in _ _ _ IH). clear. induction l as [|x l IHl]; cbn; [reflexivity|]. now rewrite flat_map_app, IHl.
Qed.
Lemma in_group_find_segments p g s : In s (group_find_segments p true g) <-> segment_inside g s /\ p s = true.
Proof.
  rewrite group_find_segments_spec, in_flat_map. unfold segment_inside. split.
  - intros (h & Hh & Hs). apply filter_In in Hs as [Hs Hp]. apply in_olist_segments in Hs. apply in_preorder in Hh. eauto.
  - intros ((h & Hh & Hs) & Hp). exists h. split; [now apply in_preorder|]. apply filter_In. split; [now apply in_olist_segments|exact Hp].
Qed.
Lemma in_find_segments a gp sp s :
  In s (find_segments a gp sp)
  <-> sp s = true /\ ((exists g, group_of a g /\ gp g = true /\ segment_inside g s)
                      \/ exists line, In line (da_lines a) /\ direct_segment line s).
Proof.
  unfold find_segments. rewrite in_app_iff, !in_flat_map. split.
  - intros [(g & Hg & Hs)|(line & Hl & Hs)].
    + apply in_find_segment_groups in Hg as [Hg Hp]. apply in_group_find_segments in Hs as [Hs Hq]. split; [exact Hq|]. left. eauto.
    + apply filter_In in Hs as [Hs Hq]. apply in_olist_segments in Hs. split; [exact Hq|]. right. eauto.
  - intros [Hq [(g & Hg & Hp & Hs)|(line & Hl & Hs)]].
    + left. exists g. split; [now apply in_find_segment_groups|now apply in_group_find_segments].
    + right. exists line. split; [exact Hl|]. apply filter_In. split; [now apply in_olist_segments|exact Hq].
Qed.
Lemma segment_inside_of a g s : group_of a g -> segment_inside g s -> segment_of a s.
Proof. intros (line & Hl & I) (h & J & D). exists h. split; [exists line; split; [exact Hl|eapply inside_trans; eassumption]|exact D]. Qed.
Lemma in_all_segments a s : In s (find_segments a (fun _ => true) (fun _ => true)) <-> segment_of a s.
Proof.
  rewrite in_find_segments. split.
  - intros [_ [(g & Hg & _ & Hs)|(line & Hl & Hs)]]; [eapply segment_inside_of; eassumption|].
    exists line. split; [exists line; split; [exact Hl|constructor]|exact Hs].
  - intros (g & Hg & D). split; [reflexivity|]. left. exists g. repeat split; [exact Hg|]. exists g. split; [constructor|exact D].
Qed.

(** ** value pools *)
Lemma in_segment_value_pools s p : In p (segment_value_pools s) <-> In (DPool p) (seg_elements s).
Proof.
  unfold segment_value_pools. rewrite in_flat_map. split.
  - intros ([f|q] & Hd & H); [destruct H|]. destruct H as [-> |[]]. exact Hd.
  - intros H. exists (DPool p). split; [exact H|now left].
Qed.
Definition pools_in_order (a : DeepAhb) : list ValuePool :=
  flat_map segment_value_pools (find_segments a (fun _ => true) (fun _ => true))
  ++ flat_map group_value_pools (find_segment_groups a (fun _ => true)).
Lemma in_pools_in_order a p : In p (pools_in_order a) <-> pool_of a p.
Proof.
  unfold pools_in_order, pool_of. rewrite in_app_iff, !in_flat_map. split.
  - intros [(s & Hs & Hp)|(g & Hg & Hp)].
    + apply in_all_segments in Hs. apply in_segment_value_pools in Hp. eauto.
    + unfold group_value_pools in Hp. apply in_flat_map in Hp as (s & Hs & Hp). apply in_group_find_segments in Hs as [Hs _].
      apply in_find_segment_groups in Hg as [Hg _]. apply in_segment_value_pools in Hp. exists s. split; [eapply segment_inside_of; eassumption|exact Hp].
  - intros (s & Hs & Hp). left. exists s. split; [now apply in_all_segments|now apply in_segment_value_pools].
Qed.
Lemma ostr_in_In' x l : ostr_in x l = true <-> In x l.
Proof.
  unfold ostr_in. rewrite existsb_exists. split.
  - intros (y & H & E). apply ostr_eqb_eq in E as ->. exact H.
  - intros H. exists x. split; [exact H|apply ostr_eqb_refl].
Qed.
Lemma add_pools_spec l : exists result added,
  fold_left add_pool_to_result l ([], []) = (result, added)
  /\ (forall d, In d added <-> In d (map vp_discriminator result))
  /\ NoDup (map vp_discriminator result)
  /\ (forall p, In p result -> exists l1 l2, l = l1 ++ p :: l2 /\ ~ In (vp_discriminator p) (map vp_discriminator l1))
  /\ (forall p, In p l -> In (vp_discriminator p) (map vp_discriminator result)).
Proof.
  induction l as [|p l IH] using rev_ind.
  - exists [], []. repeat split; try constructor; try (intros ? []); intros [].
  - destruct IH as (result & added & E & A & ND & F & C). rewrite fold_left_app, E. cbn [fold_left add_pool_to_result].
    assert (Fl : forall q, In q result -> exists l1 l2, l ++ [p] = l1 ++ q :: l2 /\ ~ In (vp_discriminator q) (map vp_discriminator l1)).
    { intros q Hq. destruct (F q Hq) as (l1 & l2 & -> & H). exists l1, (l2 ++ [p]). split; [now rewrite <- app_assoc|exact H]. }
    destruct (ostr_in (vp_discriminator p) added) eqn:O.
    + apply ostr_in_In' in O. exists result, added. split; [reflexivity|]. split; [exact A|]. split; [exact ND|]. split; [exact Fl|].
      intros q Hq. apply in_app_or in Hq as [Hq|[<-|[]]]; [auto|]. now apply A.
    + assert (N : ~ In (vp_discriminator p) (map vp_discriminator result)) by (rewrite <- A, <- ostr_in_In'; congruence).
      assert (existsb (pool_eqb p) result = false) as ->.
      { destruct (existsb _ _) eqn:X; [|reflexivity]. apply existsb_exists in X as (q & Hq & Q). apply pool_eqb_eq in Q as <-.
        exfalso. apply N. now apply in_map. }
      exists (result ++ [p]), (vp_discriminator p :: added). split; [reflexivity|]. rewrite map_app. cbn [map]. split; [|split; [|split]].
      * intros d. rewrite in_app_iff. cbn [In]. rewrite A. tauto.
      * apply NoDup_app_intro; [exact ND|repeat constructor; intros []|]. intros x H [<-|[]]. contradiction.
      * intros q Hq. apply in_app_or in Hq as [Hq|[<-|[]]]; [auto|]. exists l, []. split; [reflexivity|].
        intros H. apply in_map_iff in H as (q & Eq & Hq). apply N. rewrite <- Eq. auto.
      * intros q Hq. rewrite in_app_iff. apply in_app_or in Hq as [Hq|[<-|[]]]; [left; auto|right; now left].
Qed.
Lemma add_pools_first l added0 :
  added0 = [] ->
  first_of_each vp_discriminator l (fst (fold_left add_pool_to_result l ([], added0)))
  /\ forall d, In d (snd (fold_left add_pool_to_result l ([], added0))) <-> In d (map vp_discriminator l).
Proof.
  intros ->. induction l as [|p l [F A]] using rev_ind; [split; [constructor|intros d; cbn; tauto]|].
  rewrite fold_left_app. cbn [fold_left]. destruct (add_pools_spec l) as (result & added & E & _ & _ & R & _).
  rewrite E in *. cbn [fst snd] in *. cbn [add_pool_to_result].
  destruct (ostr_in (vp_discriminator p) added) eqn:O.
  - apply ostr_in_In' in O. apply A in O. cbn [fst snd]. split; [now apply first_known|]. intros d. rewrite map_app, in_app_iff. cbn [map In].
    rewrite A. split; [auto|]. intros [H|[<-|[]]]; assumption.
  - assert (N : ~ In (vp_discriminator p) (map vp_discriminator l)) by (rewrite <- A, <- ostr_in_In'; congruence).
    assert (existsb (pool_eqb p) result = false) as ->.
    { destruct (existsb _ _) eqn:X; [|reflexivity]. apply existsb_exists in X as (q & Hq & Q). apply pool_eqb_eq in Q as <-.
      exfalso. apply N. apply in_map. destruct (R p Hq) as (l1 & l2 & -> & _). apply in_or_app. right. now left. }
    cbn [fst snd]. split; [now apply first_new|]. intros d. rewrite map_app, in_app_iff. cbn [map In]. rewrite A. tauto.
Qed.
Lemma first_of_each_known {A K : Type} (key : A -> K) l l' r :
  (forall x, In x l' -> In (key x) (map key l)) -> first_of_each key (l ++ l') r -> first_of_each key l r.
Proof.
  intros H F. induction l' as [|x l' IH] using rev_ind; [now rewrite app_nil_r in F|].
  apply IH; [intros y Hy; apply H, in_or_app; now left|].
  rewrite app_assoc in F. remember ((l ++ l') ++ [x]) as w eqn:E. destruct F as [|w r y F N|w r y F _]; [destruct (l ++ l'); discriminate| |].
  - apply app_inj_tail in E as [-> ->]. exfalso. apply N. rewrite map_app. apply in_or_app. left. apply H, in_or_app. right. now left.
  - apply app_inj_tail in E as [-> ->]. exact F.
Qed.
Lemma first_pools a :
  first_of_each vp_discriminator (flat_map segment_value_pools (find_segments a (fun _ => true) (fun _ => true))) (get_all_value_pools a).
Proof.
  unfold get_all_value_pools. fold (pools_in_order a). apply first_of_each_known with (l' := flat_map group_value_pools (find_segment_groups a (fun _ => true))).
  - intros p Hp. apply in_map. assert (P : pool_of a p) by (apply in_pools_in_order; unfold pools_in_order; apply in_or_app; now right).
    destruct P as (s & Hs & P). apply in_flat_map. exists s. split; [now apply in_all_segments|now apply in_segment_value_pools].
  - now apply add_pools_first.
Qed.
Lemma lists_pools_app a b p q : lists_pools a p -> lists_pools b q -> lists_pools (a ++ b) (p ++ q).
Proof. induction 1; cbn; intros; try constructor; auto. Qed.
Lemma pools_of_segments segments : lists_pools (flat_map seg_elements segments) (flat_map segment_value_pools segments).
Proof.
  induction segments as [|s l IH]; cbn; [constructor|]. apply lists_pools_app; [|exact IH].
  unfold segment_value_pools. induction (seg_elements s) as [|[t|p] ds IHd]; cbn; constructor; exact IHd.
Qed.
Lemma lists_pools_det ds p : lists_pools ds p -> forall q, lists_pools ds q -> q = p.
Proof. induction 1; intros q K; inversion K; subst; auto. f_equal. auto. Qed.

(** ** expressions *)
Lemma in_set_add x y s : In x (set_add s y) <-> x = y \/ In x s.
Proof.
  unfold set_add. destruct (str_in y s) eqn:E; cbn; [|split; intros [H|H]; auto].
  assert (In y s) by (apply existsb_exists in E as (z & Hz & E); apply str_eqb_eq in E as ->; exact Hz). split; [auto|]. intros [-> |H']; assumption.
Qed.
Lemma set_add_nodup y s : NoDup s -> NoDup (set_add s y).
Proof.
  intros H. unfold set_add. destruct (str_in y s) eqn:E; [exact H|]. constructor; [|exact H].
  intros K. assert (str_in y s = true); [|congruence]. apply existsb_exists. exists y. split; [exact K|apply str_eqb_refl].
Qed.
Lemma in_set_add_truthy x y s : In x (set_add_truthy s y) <-> (x = y /\ x <> []) \/ In x s.
Proof.
  unfold set_add_truthy. destruct y as [|c y]; cbn [truthy]; [|rewrite in_set_add]; split; auto.
  - intros [[-> K]|H]; [congruence|exact H].
  - intros [-> |H]; [left; split; congruence|auto].
  - intros [[H _]|H]; auto.
Qed.
Lemma set_add_truthy_nodup y s : NoDup s -> NoDup (set_add_truthy s y).
Proof. intros H. unfold set_add_truthy. destruct (truthy y); [now apply set_add_nodup|exact H]. Qed.
Lemma in_add_all x l s : In x (fold_left set_add_truthy l s) <-> (In x l /\ x <> []) \/ In x s.
Proof.
  revert s; induction l as [|y l IH]; intros s; cbn; [tauto|]. rewrite IH, in_set_add_truthy. intuition congruence.
Qed.
Lemma add_all_nodup l s : NoDup s -> NoDup (fold_left set_add_truthy l s).
Proof. revert s; induction l as [|y l IH]; intros s H; cbn; [exact H|]. apply IH. now apply set_add_truthy_nodup. Qed.

Definition segment_expressions (s : Segment) : list pystr := seg_expression s :: flat_map element_expressions (seg_elements s).
Lemma segment_fold ss s :
  fold_left (fun s segment => fold_left set_add_truthy (flat_map element_expressions (seg_elements segment)) (set_add_truthy s (seg_expression segment))) ss s
  = fold_left set_add_truthy (flat_map segment_expressions ss) s.
Proof. revert s; induction ss as [|x ss IH]; intros s; cbn; [reflexivity|]. rewrite fold_left_app. apply IH. Qed.
Lemma fold_left_map' {A B C} (f : C -> B -> C) (h : A -> B) l c : fold_left (fun s x => f s (h x)) l c = fold_left f (map h l) c.
Proof. revert c; induction l as [|x l IH]; intros c; cbn; auto. Qed.
Definition expressions_in_order (a : DeepAhb) : list pystr :=
  flat_map segment_expressions (find_segments a (fun _ => true) (fun _ => true))
  ++ map g_expression (find_segment_groups a (fun _ => true)).
Lemma get_all_expressions_eq a :
  get_all_expressions a = stable_sort str_leb (fold_left set_add_truthy (expressions_in_order a) []).
Proof.
  unfold get_all_expressions, expressions_in_order. rewrite segment_fold, fold_left_app.
  now rewrite (fold_left_map' set_add_truthy g_expression).
Qed.
Lemma in_expressions_in_order a e : In e (expressions_in_order a) <-> expression_of a e.
Proof.
  unfold expressions_in_order. rewrite in_app_iff, in_flat_map, in_map_iff. split.
  - intros [(s & Hs & He)|(g & <- & Hg)].
    + apply in_all_segments in Hs. destruct He as [<-|He]; [now constructor|]. apply in_flat_map in He as ([f|p] & Hd & He); cbn in He.
      * destruct He as [<-|[]]. econstructor; eassumption.
      * apply in_map_iff in He as (x & <- & Hx). econstructor; eassumption.
    + apply in_find_segment_groups in Hg as [Hg _]. now constructor.
  - intros [g Hg|s Hs|s f Hs Hf|s p x Hs Hp Hx].
    + right. exists g. split; [reflexivity|]. now apply in_find_segment_groups.
    + left. exists s. split; [now apply in_all_segments|now left].
    + left. exists s. split; [now apply in_all_segments|right]. apply in_flat_map. exists (DFree f). split; [exact Hf|now left].
    + left. exists s. split; [now apply in_all_segments|right]. apply in_flat_map. exists (DPool p). split; [exact Hp|]. cbn. now apply in_map.
Qed.
Lemma str_leb_less a b : str_leb a b = true -> a <> b -> code_point_less a b.
Proof.
  revert b; induction a as [|x a IH]; intros [|y b]; cbn; intros H N; try congruence.
  - exists [], [], (y :: b). repeat split. left. split; [reflexivity|discriminate].
  - destruct (N.ltb_spec x y) as [L|L].
    + exists [], (x :: a), (y :: b). repeat split. right. exists x, y, a, b. auto.
    + destruct (N.eqb_spec x y) as [-> |E]; [|discriminate].
      destruct (IH b H) as (c & a' & b' & -> & -> & K); [congruence|]. exists (y :: c), a', b'. auto.
Qed.
Lemma sorted_nodup_less l : StronglySorted (fun a b => str_leb a b = true) l -> NoDup l -> StronglySorted code_point_less l.
Proof.
  induction 1 as [|x l S IH F]; intros ND; constructor; inversion ND as [|? ? Hn ND']; subst; [auto|].
  rewrite Forall_forall in *. intros y Hy. apply str_leb_less; [auto|]. intros ->. contradiction.
Qed.

(** ** updates *)
Lemma Forall2_map_r {A B} (R : A -> B -> Prop) f l : (forall x, In x l -> R x (f x)) -> Forall2 R l (map f l).
Proof. induction l as [|x l IH]; cbn; intros H; constructor; [apply H; now left|apply IH; intros; apply H; now right]. Qed.
Lemma reset_related g : groups_related eq (fun _ i => i = None) g (group_reset_index g).
Proof.
  induction g as [d e i ss gs IH] using group_ind'. cbn [group_reset_index]. constructor; [reflexivity| |].
  - destruct ss as [l|]; cbn; constructor. apply Forall2_map_r. intros s _. unfold segments_related. cbn.
    repeat split. induction (seg_elements s); constructor; auto.
  - destruct gs as [l|]; cbn in *; constructor. rewrite Forall_forall in IH. now apply Forall2_map_r.
Qed.
Lemma reset_twice g : group_reset_index (group_reset_index g) = group_reset_index g.
Proof.
  induction g as [d e i ss gs IH] using group_ind'. cbn [group_reset_index]. f_equal.
  - destruct ss as [l|]; cbn; [|reflexivity]. f_equal. rewrite map_map. apply map_ext. reflexivity.
  - destruct gs as [l|]; cbn in *; [|reflexivity]. f_equal. rewrite map_map. rewrite Forall_forall in IH. now apply map_ext_in.
Qed.
Lemma element_replaced f d : input_replaced f d (element_replace_input f d).
Proof.
  unfold input_replaced, element_replace_input.
  assert (E : de_discriminator d = discriminator_of d) by (destruct d; reflexivity). rewrite E.
  split; [|split].
  - intros disc -> R. rewrite R. destruct d; cbn; auto.
  - intros disc -> R. now rewrite R.
  - intros ->. reflexivity.
Qed.
Lemma inputs_related f g : groups_related (input_replaced f) eq g (group_replace_inputs f g).
Proof.
  induction g as [d e i ss gs IH] using group_ind'. cbn [group_replace_inputs]. constructor; [reflexivity| |].
  - destruct ss as [l|]; cbn; constructor. apply Forall2_map_r. intros s _. unfold segments_related. cbn.
    repeat split. apply Forall2_map_r. intros x _. apply element_replaced.
  - destruct gs as [l|]; cbn in *; constructor. rewrite Forall_forall in IH. now apply Forall2_map_r.
Qed.
