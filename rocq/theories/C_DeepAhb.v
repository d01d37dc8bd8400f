(** C26-C31: queries and updates of deep AHBs. *)
From Coq Require Import Ascii String List NArith ZArith Bool Lia Arith Permutation Sorted.
From Verif Require Import PyBase PyStr M_Components M_Ahb S_Text S_FlatAhb S_DeepAhb L_Base L_Str L_FlatAhb L_DeepAhb.
Import ListNotations.
Local Open Scope list_scope.

(** an AHB with three levels of groups *)
Definition ex_free (d : option string) (x : string) : DataElement := DFree (mkFreeText (option_map u d) (u "3039") None None (u x)).
Definition ex_vp (d : option string) (q x : string) : DataElement :=
  DPool (mkPool (option_map u d) (u "3035") None (Some VALUE_POOL) [mkEntry (u q) (u "meaning") (u x)]).
Definition ex_segment (d x : string) (es : list DataElement) : Segment := mkSegment (u d) (u x) (Some 7%Z) es (Some (u "section")) None.
Definition ex_sg3 : SegmentGroup := mkGroup (u "SG3") (u "Muss [3]") (Some 3%Z) (Some [ex_segment "CTA" "Kann" [ex_vp (Some "c"%string) "IC" "X"]]) None.
Definition ex_sg2 : SegmentGroup :=
  mkGroup (u "SG2") (u "Muss") (Some 2%Z) (Some [ex_segment "NAD" "Muss" [ex_vp (Some "a"%string) "MS" "X [1]"; ex_free (Some "b"%string) "X"]]) (Some [ex_sg3]).
Definition ex_root : SegmentGroup :=
  mkGroup (u "root") (u "Muss") (Some 1%Z) (Some [ex_segment "UNH" "Muss" [ex_vp None "D" "X"]]) (Some [ex_sg2]).
Definition ex_deep : DeepAhb := mkDeep (mkMeta (u "11042") None None None) [ex_root].
Example ex_sg3_in_ahb : group_of ex_deep ex_sg3.
Proof.
  exists ex_root. split; [now left|]. eapply inside_deeper; [eapply inside_deeper; [constructor|reflexivity|now left]|reflexivity|now left].
Qed.

(** * C26 find_segment_groups is sound and complete *)
Theorem C26_sound_and_complete a predicate g :
  In g (find_segment_groups a predicate) <-> group_of a g /\ predicate g = true.
Proof. apply in_find_segment_groups. Qed.
Theorem C26_order a predicate : found predicate (da_lines a) (find_segment_groups a predicate).
Proof.
  rewrite find_segment_groups_eq. induction (da_lines a) as [|line ls IH] using rev_ind; [constructor|].
  rewrite fold_left_app. cbn [fold_left]. set (r := fold_left (line_step predicate) ls []) in *. clearbody r. unfold line_step.
  destruct (predicate line) eqn:E; [destruct (in_dec group_dec line (r ++ filter predicate (nested line))) as [H|H]|].
  - replace (r ++ filter predicate (nested line)) with (r ++ filter predicate (nested line) ++ []) by now rewrite app_nil_r.
    apply found_line; [exact IH|apply nested_lists|intros [_ K]; contradiction|auto].
  - rewrite <- app_assoc. apply found_line; [exact IH|apply nested_lists|auto|intros [K|K]; [congruence|contradiction]].
  - replace (r ++ filter predicate (nested line)) with (r ++ filter predicate (nested line) ++ []) by now rewrite app_nil_r.
    apply found_line; [exact IH|apply nested_lists|intros [K _]; congruence|auto].
Qed.
(** [found] determines the result, so the two theorems describe it completely *)
Theorem C26_order_is_unique predicate ls r r' : found predicate ls r -> found predicate ls r' -> r' = r.
Proof.
  destruct preorder_unique as [_ P]. intros H. revert r'. induction H as [|ls r line inner top H IH L T N]; intros r' H'.
  - inversion H' as [|ls' ? ? ? ? ? ? ? ? E]; [reflexivity|]. destruct ls'; discriminate.
  - remember (ls ++ [line]) as l eqn:El. destruct H' as [|ls' r'' line' inner' top' H' L' T' N']; [destruct ls; discriminate|].
    apply app_inj_tail in El as [-> ->]. rewrite (IH _ H') in *. rewrite (P _ _ L), (P _ _ L') in *.
    do 2 f_equal. destruct (predicate line) eqn:E.
    + destruct (in_dec group_dec line (r ++ filter predicate (flat_map preorder (olist (g_groups line))))) as [K|K].
      * rewrite N, N' by auto. reflexivity.
      * rewrite T, T' by auto. reflexivity.
    + rewrite N, N' by auto. reflexivity.
Qed.
(** the documented "not in result" does not make the results distinct: nested groups are not checked *)
Theorem C26_results_are_distinct_refuted : ~ (forall a p, NoDup (find_segment_groups a p)).
Proof.
  intros H. specialize (H (mkDeep (da_meta ex_deep) [mkGroup (u "root") (u "Muss") None None (Some [ex_sg3; ex_sg3])]) (fun _ => true)).
  vm_compute in H. inversion H as [|? ? K]. apply K. now left.
Qed.
Print Assumptions C26_sound_and_complete.
Print Assumptions C26_order.
Print Assumptions C26_order_is_unique.
Print Assumptions C26_results_are_distinct_refuted.
Example C26_example : find_segment_groups ex_deep (fun g => negb (str_eqb (g_discriminator g) (u "SG2"))) = [ex_sg3; ex_root].
Proof. vm_compute. reflexivity. Qed.

(** * C27 find_segments *)
Theorem C27_exactly a group_predicate segment_predicate s :
  In s (find_segments a group_predicate segment_predicate)
  <-> segment_predicate s = true
      /\ ((exists g, group_of a g /\ group_predicate g = true /\ segment_inside g s)
          \/ exists line, In line (da_lines a) /\ direct_segment line s).
Proof. apply in_find_segments. Qed.
(** complete: nothing is missed *)
Theorem C27_complete a gp sp g s :
  group_of a g -> gp g = true -> segment_inside g s -> sp s = true -> In s (find_segments a gp sp).
Proof. intros H1 H2 H3 H4. apply in_find_segments. split; [exact H4|]. left. eauto. Qed.
(** sound up to the group predicate *)
Theorem C27_sound a gp sp s : In s (find_segments a gp sp) -> segment_of a s /\ sp s = true.
Proof.
  intros H. apply in_find_segments in H as [Hq [(g & Hg & _ & Hs)|(line & Hl & Hs)]]; (split; [|exact Hq]).
  - eapply segment_inside_of; eassumption.
  - exists line. split; [exists line; split; [exact Hl|constructor]|exact Hs].
Qed.
Theorem C27_results_are_in_matching_groups_refuted :
  ~ (forall a gp sp s, In s (find_segments a gp sp) -> exists g, group_of a g /\ gp g = true /\ segment_inside g s).
Proof.
  intros H. destruct (H ex_deep (fun _ => false) (fun _ => true) (ex_segment "UNH" "Muss" [ex_vp None "D" "X"])) as (g & _ & K & _).
  - vm_compute. now left.
  - discriminate.
Qed.
Theorem C27_each_segment_once_refuted :
  ~ (forall a, NoDup (find_segments a (fun _ => true) (fun _ => true))).
Proof.
  intros H. specialize (H ex_deep). vm_compute in H. inversion H as [|? ? K]. apply K. do 3 right. now left.
Qed.
(** the results are in this order and have this multiplicity: for each group found by find_segment_groups its
    segments and those of the groups nested in it; at the end the direct segments of the top level groups *)
Theorem C27_order a gp sp groups :
  found gp (da_lines a) groups ->
  exists lists, Forall2 (lists_segments sp) groups lists
    /\ find_segments a gp sp = concat lists ++ filter sp (flat_map (fun line => olist (g_segments line)) (da_lines a)).
Proof.
  intros H. apply (C26_order_is_unique _ _ _ _ (C26_order a gp)) in H as ->.
  exists (map (group_find_segments sp true) (find_segment_groups a gp)). split.
  - induction (find_segment_groups a gp) as [|g gs IH]; cbn [map]; constructor; [|exact IH].
    exists (preorder g). split; [apply preorder_lists|]. now rewrite group_find_segments_spec, filter_flat_map.
  - unfold find_segments. now rewrite <- flat_map_concat_map, filter_flat_map.
Qed.
(** the same method of a single group, with and without the recursive search *)
Theorem C27_segment_group sp g :
  lists_segments sp g (group_find_segments sp true g)
  /\ group_find_segments sp false g = filter sp (olist (g_segments g)).
Proof.
  split.
  - exists (preorder g). split; [apply preorder_lists|]. now rewrite group_find_segments_spec, filter_flat_map.
  - destruct g. cbn. apply app_nil_r.
Qed.
(** [lists_segments] determines the list *)
Theorem C27_order_is_unique sp g l l' : lists_segments sp g l -> lists_segments sp g l' -> l' = l.
Proof.
  intros (gs & H & ->) (gs' & H' & ->). apply (proj1 preorder_unique) in H as ->, H' as ->. reflexivity.
Qed.
Print Assumptions C27_exactly.
Print Assumptions C27_order.
Print Assumptions C27_segment_group.
Print Assumptions C27_order_is_unique.
Print Assumptions C27_complete.
Print Assumptions C27_sound.
Print Assumptions C27_results_are_in_matching_groups_refuted.
Print Assumptions C27_each_segment_once_refuted.
Example C27_example :
  find_segments ex_deep (fun g => str_eqb (g_discriminator g) (u "SG3")) (fun s => negb (str_eqb (seg_discriminator s) (u "UNH")))
  = [ex_segment "CTA" "Kann" [ex_vp (Some "c"%string) "IC" "X"]].
Proof. vm_compute. reflexivity. Qed.

(** * C28 get_all_value_pools *)
Theorem C28_one_pool_per_discriminator a :
  (forall p, In p (get_all_value_pools a) -> pool_of a p)
  /\ (forall p, pool_of a p -> exists p', In p' (get_all_value_pools a) /\ vp_discriminator p' = vp_discriminator p)
  /\ NoDup (map vp_discriminator (get_all_value_pools a)).
Proof.
  unfold get_all_value_pools. fold (pools_in_order a).
  destruct (add_pools_spec (pools_in_order a)) as (result & added & -> & _ & ND & F & C). cbn [fst]. split; [|split; [|exact ND]].
  - intros p Hp. destruct (F p Hp) as (l1 & l2 & E & _). apply in_pools_in_order. rewrite E. apply in_or_app. right. now left.
  - intros p Hp. apply in_pools_in_order in Hp. specialize (C p Hp). apply in_map_iff in C as (p' & E & H). eauto.
Qed.
(** if discriminators are unique in the AHB (the assumption in the source), all pools are returned *)
Theorem C28_all_pools_if_discriminators_are_unique a :
  (forall p q, pool_of a p -> pool_of a q -> vp_discriminator p = vp_discriminator q -> p = q) ->
  forall p, In p (get_all_value_pools a) <-> pool_of a p.
Proof.
  intros U p. destruct (C28_one_pool_per_discriminator a) as (S & C & _). split; [apply S|].
  intros Hp. destruct (C p Hp) as (p' & Hp' & E). now rewrite <- (U p' p (S p' Hp') Hp E).
Qed.
Theorem C28_all_pools_refuted : ~ (forall a p, pool_of a p -> In p (get_all_value_pools a)).
Proof.
  set (p1 := mkPool None (u "3035") None None [mkEntry (u "A1") (u "m") (u "X")]).
  set (p2 := mkPool None (u "3035") None None [mkEntry (u "A2") (u "m") (u "X")]).
  set (s := mkSegment (u "NAD") (u "Muss") None [DPool p1; DPool p2] None None).
  set (g := mkGroup (u "root") (u "Muss") None (Some [s]) None).
  intros H. specialize (H (mkDeep (da_meta ex_deep) [g]) p2).
  assert (P : pool_of (mkDeep (da_meta ex_deep) [g]) p2).
  { exists s. split; [|right; now left]. exists g. split; [exists g; split; [now left|constructor]|]. exists [s]. split; [reflexivity|now left]. }
  specialize (H P). vm_compute in H. destruct H as [H|[]]. discriminate.
Qed.
(** a segment returns its value pools in the order of its data elements, a group those of its segments and of the
    groups nested in it in document order *)
Theorem C28_segment s : lists_pools (seg_elements s) (segment_value_pools s).
Proof. unfold segment_value_pools. induction (seg_elements s) as [|[t|p] l IH]; cbn; constructor; exact IH. Qed.
Theorem C28_segment_group g segments :
  lists_segments (fun _ => true) g segments ->
  lists_pools (flat_map seg_elements segments) (group_value_pools g).
Proof.
  intros H. apply (C27_order_is_unique _ _ _ _ (proj1 (C27_segment_group _ g))) in H as ->. unfold group_value_pools.
  apply pools_of_segments.
Qed.
(** of each discriminator the AHB returns the pool that comes first in the order of find_segments *)
Theorem C28_first_of_each_discriminator a pools :
  lists_pools (flat_map seg_elements (find_segments a (fun _ => true) (fun _ => true))) pools ->
  first_of_each vp_discriminator pools (get_all_value_pools a).
Proof.
  intros H. rewrite (lists_pools_det _ _ (pools_of_segments _) _ H). apply first_pools.
Qed.
Print Assumptions C28_segment.
Print Assumptions C28_segment_group.
Print Assumptions C28_first_of_each_discriminator.
Print Assumptions C28_one_pool_per_discriminator.
Print Assumptions C28_all_pools_if_discriminators_are_unique.
Print Assumptions C28_all_pools_refuted.
Example C28_example : map vp_discriminator (get_all_value_pools ex_deep) = [Some (u "a"); Some (u "c"); None].
Proof. vm_compute. reflexivity. Qed.

(** * C29 get_all_expressions *)
Theorem C29_expressions a e : In e (get_all_expressions a) <-> expression_of a e /\ e <> [].
Proof.
  rewrite get_all_expressions_eq, <- in_expressions_in_order.
  assert (P : In e (stable_sort str_leb (fold_left set_add_truthy (expressions_in_order a) []))
              <-> In e (fold_left set_add_truthy (expressions_in_order a) [])).
  { split; apply Permutation_in; [apply Permutation_sym|]; apply stable_sort_perm. }
  rewrite P, in_add_all. cbn. tauto.
Qed.
(** ascending and therefore without duplicates *)
Theorem C29_ascending a : StronglySorted code_point_less (get_all_expressions a).
Proof.
  rewrite get_all_expressions_eq. apply sorted_nodup_less.
  - apply (stable_sort_sorted str_leb str_leb_total str_leb_trans).
  - eapply Permutation_NoDup; [apply stable_sort_perm|]. apply add_all_nodup. constructor.
Qed.
Theorem C29_each_once a : NoDup (get_all_expressions a).
Proof.
  rewrite get_all_expressions_eq. eapply Permutation_NoDup; [apply stable_sort_perm|]. apply add_all_nodup. constructor.
Qed.
Print Assumptions C29_expressions.
Print Assumptions C29_ascending.
Print Assumptions C29_each_once.
Example C29_example : get_all_expressions ex_deep = [u "Kann"; u "Muss"; u "Muss [3]"; u "X"; u "X [1]"].
Proof. vm_compute. reflexivity. Qed.

(** * C30 replace_inputs_based_on_discriminator *)
Theorem C30_inputs_replaced a f : ahbs_related (input_replaced f) eq a (replace_inputs_based_on_discriminator a f).
Proof. split; [reflexivity|]. apply Forall2_map_r. intros g _. apply inputs_related. Qed.
Print Assumptions C30_inputs_replaced.
Definition ex_input (d : DataElement) : option pystr := match d with DFree f => ft_input f | DPool p => vp_input p end.
(** the only data element with the discriminator b gets the new input, a replacement by None clears it again *)
Example C30_example :
  let set v d := if str_eqb d (u "b") then mkReplacement true v else mkReplacement false (Some (u "never")) in
  let inputs a := map (fun s => map ex_input (seg_elements s)) (find_segments a (fun g => str_eqb (g_discriminator g) (u "SG2")) (fun _ => true)) in
  let a1 := replace_inputs_based_on_discriminator ex_deep (set (Some (u "new"))) in
  inputs a1 = [[None; Some (u "new")]; [None]; [None]]
  /\ replace_inputs_based_on_discriminator a1 (set None) = ex_deep.
Proof. split; vm_compute; reflexivity. Qed.

(** * C31 reset_ahb_line_index *)
Theorem C31_all_reset_nothing_else_changed a : ahbs_related eq (fun _ i => i = None) a (deep_reset_index a).
Proof. split; [reflexivity|]. apply Forall2_map_r. intros g _. apply reset_related. Qed.
Theorem C31_every_group_and_segment a :
  (forall g, group_of (deep_reset_index a) g -> g_index g = None)
  /\ forall s, segment_of (deep_reset_index a) s -> seg_index s = None.
Proof.
  assert (G : forall g h, inside (group_reset_index g) h -> exists k, h = group_reset_index k).
  { intros g h H. induction H as [|h k l H [k' ->] E Hin]; [eauto|]. destruct k' as [d e i ss [gs|]]; cbn in E; [|discriminate].
    injection E as <-. apply in_map_iff in Hin as (x & <- & _). eauto. }
  assert (A : forall g, group_of (deep_reset_index a) g -> exists k, g = group_reset_index k).
  { intros g (line & Hl & H). cbn in Hl. apply in_map_iff in Hl as (x & <- & _). eauto. }
  split.
  - intros g H. destruct (A g H) as ([d e i ss gs] & ->). reflexivity.
  - intros s (g & H & l & E & Hs). destruct (A g H) as ([d e i [ss|] gs] & ->); cbn in E; [|discriminate].
    injection E as <-. apply in_map_iff in Hs as (x & <- & _). reflexivity.
Qed.
Theorem C31_twice a : deep_reset_index (deep_reset_index a) = deep_reset_index a.
Proof. unfold deep_reset_index. cbn. f_equal. rewrite map_map. apply map_ext. apply reset_twice. Qed.
(** the same methods called on a single group or a single segment *)
Theorem C31_single_group g : groups_related eq (fun _ i => i = None) g (group_reset_index g).
Proof. apply reset_related. Qed.
Theorem C31_single_segment s :
  segments_related eq (fun _ i => i = None) s (segment_reset_index s).
Proof.
  destruct s as [d e n els i]. unfold segments_related. cbn. repeat split; auto.
  induction els; constructor; auto.
Qed.
Print Assumptions C31_single_group.
Print Assumptions C31_single_segment.
Print Assumptions C31_all_reset_nothing_else_changed.
Print Assumptions C31_every_group_and_segment.
Print Assumptions C31_twice.
Example C31_example : map g_index (find_segment_groups ex_deep (fun _ => true)) = [Some 2%Z; Some 3%Z; Some 1%Z]
  /\ map g_index (find_segment_groups (deep_reset_index ex_deep) (fun _ => true)) = [None; None; None].
Proof. split; vm_compute; reflexivity. Qed.
