(** Properties C94 to C96: functions of the user that remember something between their calls or raise exceptions. *)
From Coq Require Import Ascii String List NArith ZArith Bool Lia.
From Verif Require Import PyBase PyStr M_Components M_Ahb M_Callbacks S_FlatAhb S_ValuePool S_DeepAhb S_Callbacks
  L_Base L_ValuePool L_DeepAhb L_Callbacks C_ValuePool C_DeepAhb.
Import ListNotations.
Local Open Scope list_scope.

(** * C94 replace_inputs_based_on_discriminator *)
(** the data elements are treated one after the other, those of nested groups first; an exception leaves what has been
    done so far and nothing else *)
Theorem C94_exactly {W} (f : pystr -> W -> W * result Replacement) a w w' a' x :
  replace_inputs_asking W f a w = (w', (a', x))
  <-> same_shape a a' /\ replaced_in_turn f (all_elements_in_turn a) (all_elements_in_turn a') w w' x.
Proof.
  split.
  - intros E. apply ahb_turn in E as (H & K). auto.
  - intros (S0 & H). destruct (replace_inputs_asking W f a w) as [w1 [a1 x1]] eqn:E. apply ahb_turn in E as (H1 & S1).
    destruct (turn_det f _ _ _ _ _ H _ _ _ H1) as (E & -> & ->). rewrite (ahb_determined f a a1 a' S1 S0 E). reflexivity.
Qed.

Lemma turn_fixed {W} (f : pystr -> W -> W * result Replacement) g l l' w w' x :
  (forall disc w w' r, f disc w = (w', Ok r) -> r = g disc) -> replaced_in_turn f l l' w w' x ->
  (x = None -> Forall2 (fun d d' => d' = element_replace_input g d) l l') /\ Forall2 (fun d d' => d' = d \/ d' = element_replace_input g d) l l'.
Proof.
  intros G H. assert (Refl : forall l : list DataElement, Forall2 (fun d d' => d' = d \/ d' = element_replace_input g d) l l) by (induction l0; constructor; auto).
  assert (D : forall d, discriminator_of d = de_discriminator d) by (now intros []).
  induction H as [w|d l l' w w' x Hd H (IH1 & IH2)|d d' disc r l l' w w' w'' x Hd Hf Hr Ho H (IH1 & IH2)|d disc r l l' w w' w'' x Hd Hf Hr H (IH1 & IH2)|d disc e l w w' Hd Hf];
    [split; [intros _|]; constructor
    |split; [intros E; constructor; [|auto]; unfold element_replace_input; rewrite <- D, Hd; reflexivity|constructor; [now left|exact IH2]]
    |
    |
    |split; [discriminate|apply Refl]].
  - assert (E : d' = element_replace_input g d) by (unfold element_replace_input; rewrite <- D, Hd, <- (G _ _ _ _ Hf), Hr; eapply (only_input_det f); [exact Ho|]; destruct d; cbn; auto 6).
    split; [intros E0; constructor; auto|constructor; auto].
  - assert (E : d = element_replace_input g d) by (unfold element_replace_input; rewrite <- D, Hd, <- (G _ _ _ _ Hf), Hr; reflexivity).
    split; [intros E0; constructor; auto|constructor; auto].
Qed.
Lemma replace_twice g d : element_replace_input g (element_replace_input g d) = element_replace_input g d.
Proof.
  unfold element_replace_input at 2 3. destruct (de_discriminator d) as [disc|] eqn:E; [|unfold element_replace_input; now rewrite E].
  destruct (rp_found (g disc)) eqn:F.
  - unfold element_replace_input. destruct d; cbn in *; rewrite E, F; reflexivity.
  - unfold element_replace_input. now rewrite E, F.
Qed.
(** what a function remembers is irrelevant if its answers do not depend on it *)
Theorem C94_fixed_answers {W} (f : pystr -> W -> W * result Replacement) g a w :
  (forall disc w, snd (f disc w) = Ok (g disc)) ->
  snd (replace_inputs_asking W f a w) = (replace_inputs_based_on_discriminator a g, None).
Proof.
  intros G. destruct (replace_inputs_asking W f a w) as [w' [a' x]] eqn:E. cbn. apply ahb_turn in E as (H & S0).
  assert (x = None) as ->.
  { clear S0. induction H as [| | | |d disc e l w w' Hd Hf]; auto. specialize (G disc w). rewrite Hf in G. discriminate. }
  f_equal. assert (G' : forall disc w w' r, f disc w = (w', Ok r) -> r = g disc) by (intros disc v v' r E; specialize (G disc v); rewrite E in G; now injection G).
  apply replaced_exactly_ahb, ahb_shape; [exact S0|]. now apply (proj1 (turn_fixed f g _ _ _ _ _ G' H)).
Qed.
(** after an interruption the call can be repeated: the result is the same as without the interruption *)
Theorem C94_can_be_repeated {W} (f : pystr -> W -> W * result Replacement) g a w w' a' x :
  (forall disc w w' r, f disc w = (w', Ok r) -> r = g disc) ->
  replace_inputs_asking W f a w = (w', (a', x)) ->
  replace_inputs_based_on_discriminator a' g = replace_inputs_based_on_discriminator a g.
Proof.
  intros G E. apply ahb_turn in E as (H & S0). destruct (turn_fixed f g _ _ _ _ _ G H) as (_ & F).
  eapply replace_related_ahb; [|apply ahb_shape; [exact S0|exact F]]. cbn. intros d d' [-> | ->]; [reflexivity|apply replace_twice].
Qed.
(** a function that gives up at its third call: two inputs have been replaced *)
Definition gives_up (disc : pystr) (n : nat) : nat * result Replacement :=
  match n with O => (O, Raise KeyError) | S m => (m, Ok (mkReplacement true (Some disc))) end.
Definition all_inputs (a : DeepAhb) : list (option pystr) := map ex_input (all_elements_in_turn a).
Theorem C94_all_or_nothing_refuted :
  ~ (forall (f : pystr -> nat -> nat * result Replacement) a w w' a' e, replace_inputs_asking nat f a w = (w', (a', Some e)) -> a' = a).
Proof.
  intros H. specialize (H gives_up ex_deep 2 0 (fst (snd (replace_inputs_asking nat gives_up ex_deep 2))) KeyError).
  assert (E : replace_inputs_asking nat gives_up ex_deep 2 = (0, (fst (snd (replace_inputs_asking nat gives_up ex_deep 2)), Some KeyError))) by (vm_compute; reflexivity).
  apply H in E. apply (f_equal all_inputs) in E. vm_compute in E. discriminate.
Qed.
Print Assumptions C94_exactly.
Print Assumptions C94_fixed_answers.
Print Assumptions C94_can_be_repeated.
Print Assumptions C94_all_or_nothing_refuted.
Example C94_instance :
  map discriminator_of (all_elements_in_turn ex_deep) = [Some (u "c"); Some (u "a"); Some (u "b"); None]
  /\ (let '(w, (a, x)) := replace_inputs_asking nat gives_up ex_deep 2 in (w, all_inputs a, x)) = (0, [Some (u "c"); Some (u "a"); None; None], Some KeyError)
  /\ (let '(w, (a, x)) := replace_inputs_asking nat gives_up ex_deep 7 in (w, all_inputs a, x)) = (4, [Some (u "c"); Some (u "a"); Some (u "b"); None], None).
Proof. repeat split; vm_compute; reflexivity. Qed.

(** * C95 find_segment_groups and find_segments *)
Theorem C95_groups {W} (p : SegmentGroup -> W -> W * result bool) a w w' r :
  find_segment_groups_asking W p a w = (w', r)
  <-> exists questions answers x, asked_for (da_lines a) questions /\ interview p questions answers w w' x
      /\ match x with
         | None => exists groups, groups_found (da_lines a) answers groups /\ r = Ok groups
         | Some e => r = Raise e
         end.
Proof.
  split.
  - intros E. apply find_groups_found in E as (bs & o & I & K). exists (questions (da_lines a)), bs, o. split; [now apply asked_for_iff|]. auto.
  - intros (qs & bs & x & Q & I & K). apply asked_for_iff in Q as ->. destruct (find_segment_groups_asking W p a w) as [w1 r1] eqn:E.
    apply find_groups_found in E as (bs1 & o & I1 & K1). destruct (interview_det p _ _ _ _ _ I _ _ _ I1) as (-> & -> & ->). f_equal.
    destruct x as [e|]; [congruence|]. destruct K as (g & F & ->), K1 as (g1 & F1 & ->). f_equal. eapply groups_found_det; eassumption.
Qed.
Theorem C95_segments {W} (gp : SegmentGroup -> W -> W * result bool) (sp : Segment -> W -> W * result bool) a w w' r :
  find_segments_asking W gp sp a w = (w', r)
  <-> (exists questions answers e, asked_for (da_lines a) questions /\ interview gp questions answers w w' (Some e) /\ r = Raise e)
      \/ exists questions answers w1 groups segments answers' x,
           asked_for (da_lines a) questions /\ interview gp questions answers w w1 None /\ groups_found (da_lines a) answers groups
           /\ asked_segments (da_lines a) groups segments /\ interview sp segments answers' w1 w' x
           /\ r = match x with None => Ok (chosen segments answers') | Some e => Raise e end.
Proof.
  split.
  - intros E. apply find_segments_found in E as [(bs & e & I & ->)|(bs & groups & w1 & bs' & o & I & F & I' & ->)].
    + left. exists (questions (da_lines a)), bs, e. split; [now apply asked_for_iff|auto].
    + right. exists (questions (da_lines a)), bs, w1, groups, (segment_questions (da_lines a) groups), bs', o. split; [now apply asked_for_iff|]. split; [exact I|]. split; [exact F|]. split; [now apply asked_segments_iff|auto].
  - destruct (find_segments_asking W gp sp a w) as [w2 r2] eqn:E. apply find_segments_found in E.
    intros [(qs & bs & e & Q & I & ->)|(qs & bs & w1 & groups & ss & bs' & x & Q & I & F & Qs & I' & ->)]; apply asked_for_iff in Q as ->.
    + destruct E as [(bs1 & e1 & I1 & ->)|(bs1 & g1 & v1 & bs1' & o1 & I1 & _)]; destruct (interview_det gp _ _ _ _ _ I _ _ _ I1) as (_ & Ew & Ex); congruence.
    + apply asked_segments_iff in Qs as ->. destruct E as [(bs1 & e1 & I1 & ->)|(bs1 & g1 & v1 & bs1' & o1 & I1 & F1 & I1' & ->)]; destruct (interview_det gp _ _ _ _ _ I _ _ _ I1) as (Eb & Ew & Ex); [discriminate|]. subst.
      assert (g1 = groups) as -> by (eapply groups_found_det; eassumption). destruct (interview_det sp _ _ _ _ _ I' _ _ _ I1') as (-> & -> & ->). reflexivity.
Qed.
Lemma collect_fixed {W A B} (h : A -> W -> W * result (list B)) k l :
  (forall x w, In x l -> snd (h x w) = Ok (k x)) -> forall w, snd (collect_each W h l w) = Ok (flat_map k l).
Proof.
  induction l as [|x l IH]; intros H w; [reflexivity|]. cbn [collect_each flat_map]. pose proof (H x w (or_introl eq_refl)) as E. destruct (h x w) as [w1 r1]. cbn in E. subst r1.
  pose proof (IH (fun y v I => H y v (or_intror I)) w1) as E. destruct (collect_each W h l w1) as [w2 r2]. cbn in E. subst r2. reflexivity.
Qed.
Section Fixed.
  Context {W : Type} (gp : SegmentGroup -> W -> W * result bool) (sp : Segment -> W -> W * result bool) (gq : SegmentGroup -> bool) (sq : Segment -> bool).
  Hypothesis group_answers : forall g w, snd (gp g w) = Ok (gq g).
  Hypothesis segment_answers : forall s w, snd (sp s w) = Ok (sq s).
  Lemma query_fixed g : forall w, snd (query_asking W gp g w) = Ok (query_segment_group gq g).
  Proof.
    induction g as [d e i ss gs IH] using group_ind'. rewrite Forall_forall in IH. intros w. cbn [query_asking query_segment_group].
    pose proof (group_answers (mkGroup d e i ss gs) w) as E. destruct (gp (mkGroup d e i ss gs) w) as [w1 r1]. cbn in E. subst r1. destruct gs as [l|].
    - pose proof (collect_fixed (query_asking W gp) (query_segment_group gq) l (fun g v I => IH g I v) w1) as E. destruct (collect_each W (query_asking W gp) l w1) as [w2 r2]. cbn in E. subst r2. reflexivity.
    - cbn. now rewrite app_nil_r.
  Qed.
  (** what the predicate remembers is irrelevant if its answers do not depend on it *)
  Theorem C95_groups_fixed_answers a w : snd (find_segment_groups_asking W gp a w) = Ok (find_segment_groups a gq).
  Proof.
    unfold find_segment_groups_asking, find_segment_groups.
    set (step := fun (result : list SegmentGroup) (line : SegmentGroup) => _). change (fold_left _ (da_lines a) []) with (fold_left step (da_lines a) []).
    generalize (@nil SegmentGroup) as result. revert w. induction (da_lines a) as [|line lines IH]; intros w result; [reflexivity|].
    cbn [find_groups_loop fold_left]. pose proof (collect_fixed (query_asking W gp) (query_segment_group gq) (olist (g_groups line)) (fun g v _ => query_fixed g v) w) as E.
    destruct (collect_each W (query_asking W gp) (olist (g_groups line)) w) as [w1 r1]. cbn in E. subst r1.
    pose proof (query_fixed line w1) as E. destruct (query_asking W gp line w1) as [w2 r2]. cbn [snd] in E. subst r2. apply IH.
  Qed.
  Lemma segment_fixed s w : snd (segment_asking W sp s w) = Ok (if sq s then [s] else []).
  Proof. unfold segment_asking. pose proof (segment_answers s w) as E. destruct (sp s w) as [w1 r1]. cbn in E. subst r1. reflexivity. Qed.
  Lemma flat_map_filter {A} (q : A -> bool) l : flat_map (fun x => if q x then [x] else []) l = filter q l.
  Proof. induction l as [|x l IH]; [reflexivity|]. cbn. rewrite IH. now destruct (q x). Qed.
  Lemma group_segments_fixed g : forall w, snd (group_find_segments_asking W sp g w) = Ok (group_find_segments sq true g).
  Proof.
    induction g as [d e i ss gs IH] using group_ind'. rewrite Forall_forall in IH. intros w. cbn [group_find_segments_asking group_find_segments].
    pose proof (collect_fixed (segment_asking W sp) _ (olist ss) (fun s v _ => segment_fixed s v) w) as E. destruct (collect_each W (segment_asking W sp) (olist ss) w) as [w1 r1]. cbn [snd] in E. subst r1.
    rewrite flat_map_filter. destruct gs as [l|]; [|cbn; now rewrite app_nil_r].
    pose proof (collect_fixed (group_find_segments_asking W sp) (group_find_segments sq true) l (fun g v I => IH g I v) w1) as E. destruct (collect_each W (group_find_segments_asking W sp) l w1) as [w2 r2]. cbn in E. subst r2. reflexivity.
  Qed.
  Theorem C95_segments_fixed_answers a w : snd (find_segments_asking W gp sp a w) = Ok (find_segments a gq sq).
  Proof.
    unfold find_segments_asking, find_segments. pose proof (C95_groups_fixed_answers a w) as E. destruct (find_segment_groups_asking W gp a w) as [w1 r1]. cbn in E. subst r1.
    pose proof (collect_fixed (group_find_segments_asking W sp) (group_find_segments sq true) (find_segment_groups a gq) (fun g v _ => group_segments_fixed g v) w1) as E.
    destruct (collect_each W (group_find_segments_asking W sp) (find_segment_groups a gq) w1) as [w2 r2]. cbn [snd] in E. subst r2.
    assert (D : forall line v, In line (da_lines a) -> snd (collect_each W (segment_asking W sp) (olist (g_segments line)) v) = Ok (filter sq (olist (g_segments line)))).
    { intros line v _. rewrite <- flat_map_filter. apply collect_fixed. intros s v' _. apply segment_fixed. }
    pose proof (collect_fixed (fun line => collect_each W (segment_asking W sp) (olist (g_segments line))) (fun line => filter sq (olist (g_segments line))) (da_lines a) D w2) as E.
    destruct (collect_each W (fun line => collect_each W (segment_asking W sp) (olist (g_segments line))) (da_lines a) w2) as [w3 r3]. cbn [snd] in E. subst r3. reflexivity.
  Qed.
End Fixed.
(** nested groups are asked for twice *)
Theorem C95_one_question_per_group_refuted :
  ~ (forall a groups, (forall g, In g groups <-> group_of a g) -> NoDup groups ->
       fst (find_segment_groups_asking nat (fun _ n => (S n, Ok true)) a 0) = List.length groups).
Proof.
  intros H. specialize (H ex_deep (preorder ex_root)). assert (E : 5 = 3); [|discriminate].
  etransitivity; [|etransitivity; [apply H|]]; [vm_compute; reflexivity| | |vm_compute; reflexivity].
  - intros g. rewrite in_preorder. unfold group_of. cbn. split; [intros K; exists ex_root; auto|intros (line & [<-|[]] & K); exact K].
  - vm_compute. repeat constructor; cbn; intuition discriminate.
Qed.
Print Assumptions C95_groups.
Print Assumptions C95_segments.
Print Assumptions C95_groups_fixed_answers.
Print Assumptions C95_segments_fixed_answers.
Print Assumptions C95_one_question_per_group_refuted.
(** a predicate that says yes to the second, fourth, ... question and one that raises at its third question *)
Definition every_other {A} (_ : A) (n : nat) : nat * result bool := (S n, Ok (Nat.odd n)).
Definition raises_at (k : nat) {A} (_ : A) (n : nat) : nat * result bool := (S n, if Nat.eqb n k then Raise KeyError else Ok true).
Definition found_names (r : nat * result (list SegmentGroup)) : nat * result (list pystr) :=
  (fst r, let* l := snd r in Ok (map g_discriminator l)).
Example C95_instance :
  found_names (find_segment_groups_asking nat every_other ex_deep 0) = (5, Ok [u "SG3"; u "SG2"])
  /\ found_names (find_segment_groups_asking nat (raises_at 2) ex_deep 0) = (3, Raise KeyError)
  /\ (let r := find_segments_asking nat every_other every_other ex_deep 0 in (fst r, let* l := snd r in Ok (map seg_discriminator l)))
     = (9, Ok [u "CTA"; u "CTA"])
  /\ fst (find_segments_asking nat every_other (raises_at 6) ex_deep 0) = 7
  /\ snd (find_segments_asking nat every_other (raises_at 6) ex_deep 0) = Raise KeyError.
Proof. repeat split; vm_compute; reflexivity. Qed.

(** * C96 replace_value_pool with a merger *)
(** The merger is asked once for every mapped qualifier, in the order of the qualifiers' first occurrences, until it
    raises an exception or a qualifier turns out to be mapped to something invalid.  The answers are used as if they
    came from a function [f] without memory.  An exception of the merger leaves the pool as if the mapping had only been
    about the qualifiers before. *)
Theorem C96_merger {W} (merger : pystr -> pystr -> W -> W * result pystr) mapping p w w' p' x :
  replace_value_pool_asking W merger mapping p w = (w', (p', x)) ->
  exists before behind questions answers o f,
    first_occurrences (map ve_qualifier (vp_pool p)) (before ++ behind)
    /\ Forall2 (merger_question (vp_pool p)) (filter (is_mapped mapping) before) questions
    /\ interview (fun q => merger (fst q) (snd q)) questions answers w w' o
    /\ Forall2 (fun q m => m = f (fst q) (snd q)) (firstn (List.length answers) questions) answers
    /\ match o with
       | None => replace_value_pool mapping (Some f) p = (p', x)
                 /\ (x = None -> behind = [])
                 /\ (x <> None -> exists t q, before = t ++ [q] /\ ~ valid_image (fun q => dict_get q mapping) q)
       | Some e => x = Some e /\ exists t q, before = t ++ [q] /\ is_mapped mapping q = true
                   /\ replace_value_pool (only t mapping) (Some f) p = (p', None)
       end.
Proof.
  unfold replace_value_pool_asking. destruct (replace_loop_asking W merger mapping (entries_by_qualifier (vp_pool p)) (vp_pool p) w) as [w1 [pool x1]] eqn:E. intros [= <- <- <-].
  pose proof (entries_by_qualifier_keys (vp_pool p)) as K.
  assert (ND : NoDup (map fst (entries_by_qualifier (vp_pool p)))) by apply K.
  destruct (loop_asking merger mapping (vp_pool p) (entries_by_qualifier (vp_pool p)) (vp_pool p) w w1 pool x1) as (a & b & qs & bs & o & f & Eab & Q & I & F & H); auto.
  { apply NoDup_map_fst_snd. }
  { intros q i In0. apply entries_by_qualifier_spec in In0 as (e & ? & ? & ?). eauto 6. }
  exists (map fst a), (map fst b), qs, bs, o, f. rewrite Eab, map_app in K. split; [exact K|]. split; [exact Q|]. split; [exact I|]. split; [exact F|]. destruct o as [e|].
  - destruct H as (-> & a' & q & i & -> & Mq & R). split; [reflexivity|]. exists (map fst a'), q. rewrite map_app. split; [reflexivity|]. split; [exact Mq|].
    unfold replace_value_pool. rewrite Eab, <- app_assoc, replace_loop_app.
    assert (R' : replace_loop (only (map fst a') mapping) (Some f) a' (vp_pool p) = (pool, None)).
    { rewrite <- R. apply replace_loop_same. intros q0 i0 I0. split; [|reflexivity]. rewrite dict_get_only.
      assert (str_in q0 (map fst a') = true) as -> by (apply str_in_In; apply in_map_iff; exists (q0, i0); auto). reflexivity. }
    rewrite R', replace_loop_unmapped; [reflexivity|]. intros q0 i0 I0. rewrite dict_get_only.
    assert (str_in q0 (map fst a') = false) as ->; [|reflexivity]. apply str_in_nIn. intros J.
    rewrite Eab, <- app_assoc, map_app in ND. apply (in_map fst) in I0. cbn [fst] in I0. revert ND J I0. clear. generalize (map fst a') as l, (map fst ([(q, i)] ++ b)) as l'. intros l l'.
    induction l as [|y l IH]; cbn; [tauto|]. intros N J I0. inversion N; subst. destruct J as [-> |J]; [|now apply IH]. apply H1. apply in_or_app. now right.
  - destruct H as (R & K1 & K2). split; [unfold replace_value_pool; now rewrite R|]. split; [intros E0; now rewrite (K1 E0)|].
    intros Nx. destruct (K2 Nx) as (a' & q & i & -> & V). exists (map fst a'), q. rewrite map_app. auto.
Qed.
(** a merger that has fixed answers: the model of C32 and C33 *)
Theorem C96_fixed_answers {W} (f : pystr -> pystr -> pystr) mapping p (w : W) :
  replace_value_pool_asking W (fun meaning q w => (w, Ok (f meaning q))) mapping p w = (w, replace_value_pool mapping (Some f) p).
Proof.
  assert (H : forall todo pool, replace_loop_asking W (fun meaning q w => (w, Ok (f meaning q))) mapping todo pool w = (w, replace_loop mapping (Some f) todo pool)).
  { induction todo as [|[q i] todo IH]; intros pool; cbn [replace_loop_asking replace_loop]; [reflexivity|]. unfold replace_one_asking, replace_one.
    destruct (dict_get q mapping) as [new|]; [|apply IH]. destruct (nth_error pool i) as [e|]; [|apply IH].
    destruct (check_is_edifact_qualifier new) as [[]|x]; [|reflexivity]. destruct new; [apply IH|reflexivity]. }
  unfold replace_value_pool_asking, replace_value_pool. rewrite H. now destruct (replace_loop _ _ _ _).
Qed.
(** the merger raises an exception for the second qualifier: the first one has been replaced *)
Definition ex_three : ValuePool := ex_pool [ex_entry "A1" "a" "X"; ex_entry "A2" "b" "Y"; ex_entry "A3" "c" "Z"].
Definition ex_three_mapping : list (pystr * option pystr) := [(u "A1", Some (u "B1")); (u "A2", Some (u "B2")); (u "A3", Some (u ""))].
(** adds the number of the question to the meaning and raises an exception at the question [k] *)
Definition numbers (k : nat) (meaning q : pystr) (n : nat) : nat * result pystr :=
  (S n, if Nat.eqb n k then Raise KeyError else Ok (meaning ++ q ++ [48 + N.of_nat n])%N).
Theorem C96_all_or_nothing_refuted :
  ~ (forall (merger : pystr -> pystr -> nat -> nat * result pystr) mapping p w w' p' e,
       replace_value_pool_asking nat merger mapping p w = (w', (p', Some e)) -> p' = p).
Proof.
  intros H. specialize (H (numbers 1) ex_three_mapping ex_three 0 2 (ex_pool [ex_entry "B1" "aA10" "X"; ex_entry "A2" "b" "Y"; ex_entry "A3" "c" "Z"]) KeyError).
  assert (K : replace_value_pool_asking nat (numbers 1) ex_three_mapping ex_three 0
              = (2, (ex_pool [ex_entry "B1" "aA10" "X"; ex_entry "A2" "b" "Y"; ex_entry "A3" "c" "Z"], Some KeyError))) by (vm_compute; reflexivity).
  apply H in K. vm_compute in K. discriminate.
Qed.
Print Assumptions C96_merger.
Print Assumptions C96_fixed_answers.
Print Assumptions C96_all_or_nothing_refuted.
(** the merger raises; it does not raise but the third qualifier has an invalid image, which is checked after the
    merger has been asked; only the second qualifier is mapped *)
Example C96_instance :
  replace_value_pool_asking nat (numbers 1) ex_three_mapping ex_three 0
    = (2, (ex_pool [ex_entry "B1" "aA10" "X"; ex_entry "A2" "b" "Y"; ex_entry "A3" "c" "Z"], Some KeyError))
  /\ replace_value_pool_asking nat (numbers 7) ex_three_mapping ex_three 0
    = (3, (ex_pool [ex_entry "B1" "aA10" "X"; ex_entry "B2" "bA21" "Y"; ex_entry "A3" "cA32" "Z"], Some ValueError))
  /\ replace_value_pool_asking nat (numbers 7) [(u "A2", Some (u "A1"))] ex_three 0
    = (1, (ex_pool [ex_entry "A1" "a" "X"; ex_entry "A1" "bA20" "Y"; ex_entry "A3" "c" "Z"], None)).
Proof. repeat split; vm_compute; reflexivity. Qed.
