(** Properties C12 - C18, C68: look-ahead, hierarchy changes and locations. *)
From Coq Require Import Ascii String List NArith ZArith Bool Arith Lia.
From Verif Require Import PyBase PyStr PyRe M_Components M_Ahb M_Sgh M_Navigation
  S_Prefix S_Text S_Sgh S_Navigation L_Base L_Prefix L_Validators L_Sgh L_Navigation L_Locations C_Sgh C_FlatAhb.
Import ListNotations.
Local Open Scope list_scope.

(** lines for the examples, for the hierarchy [ex_sgh] of C_Sgh:
    UNH BGM | SG2 NAD+MS | SG3 CTA | SG2 NAD+MR | SG4 IDE | SG8 SEQ | SG9 QTY | SG8 (again) | SG5 LOC | UNT *)
Definition ex_lines : list AhbLine :=
  [ ex_line None (Some "UNH") None None None (Some "Muss") None;
    ex_line None (Some "BGM") (Some "1001") (Some "E03") None (Some "X") None;
    ex_line (Some "SG2") None None None None (Some "Muss") None;
    ex_line (Some "SG2") (Some "NAD") (Some "3035") (Some "MS") None (Some "X") None;
    ex_line (Some "SG3") (Some "CTA") (Some "3139") (Some "IC") None (Some "X") None;
    ex_line (Some "SG2") None None None None (Some "Muss") None;
    ex_line (Some "SG2") (Some "NAD") (Some "3035") (Some "MR") None (Some "X") None;
    ex_line (Some "SG4") (Some "IDE") (Some "7495") (Some "24") None (Some "X") None;
    ex_line (Some "SG8") (Some "SEQ") (Some "1229") (Some "Z01") None (Some "X") None;
    ex_line (Some "SG9") (Some "QTY") (Some "6063") (Some "265") None (Some "X") None;
    ex_line (Some "SG8") (Some "SEQ") (Some "1229") (Some "Z02") None (Some "X") None;
    ex_line (Some "SG5") (Some "LOC") (Some "3227") (Some "172") None (Some "X") None;
    ex_line None (Some "UNT") None None None (Some "Muss") None;
    ex_line None None None None None (Some "Muss") None ]%string.

(** C12: look-ahead.  One entry per line; the second component is the value of the first line
    at or behind the position; the first component is the line itself as long as there is such
    a line, in the tail it is the line before (for the first line: the last one) *)
Definition looks_ahead (f : AhbLine -> option pystr) (lines : list AhbLine) (r : list (AhbLine * option pystr)) : Prop :=
  List.length r = List.length lines
  /\ forall i l v, nth_error r i = Some (l, v) ->
       next_at f lines i v
       /\ (v <> None -> nth_error lines i = Some l)
       /\ (v = None -> nth_error lines (match i with O => List.length lines - 1 | S j => j end) = Some l).
Lemma enhance_looks_ahead f lines : exists r,
  enhance_with_next_line_that_fulfills_predicate (fun l => is_some (f l)) f lines = Ok r /\ looks_ahead f lines r.
Proof.
  destruct (enhance_spec f lines) as (r & E & M & P). exists r. split; [exact E|]. split.
  - rewrite <- (map_length snd r), M. apply ahead_length.
  - intros i l v H. split; [|exact (P i l v H)]. apply (map_nth_error snd) in H. rewrite M in H. cbn [snd] in H.
    assert (Hi : i < List.length lines) by (rewrite <- (ahead_length f lines); apply nth_error_Some; congruence).
    rewrite ahead_nth in H by exact Hi. injection H as <-. apply first_some_next.
Qed.
Theorem C12_next_segment (lines : list AhbLine) :
  exists r, enhance_with_next_segment lines = Ok r /\ looks_ahead al_segment lines r.
Proof. exact (enhance_looks_ahead al_segment lines). Qed.
Print Assumptions C12_next_segment.
Theorem C12_next_value_pool_entry (lines : list AhbLine) :
  exists r, enhance_with_next_value_pool_entry lines = Ok r /\ looks_ahead al_entry lines r.
Proof. exact (enhance_looks_ahead al_entry lines). Qed.
Print Assumptions C12_next_value_pool_entry.
(** what [next_at] describes is unique *)
Theorem C12_next_is_unique f (lines : list AhbLine) i v w : next_at f lines i v -> next_at f lines i w -> v = w.
Proof. exact (next_at_unique f lines i v w). Qed.
Print Assumptions C12_next_is_unique.
Example C12_instance :
  exists r, enhance_with_next_value_pool_entry ex_lines = Ok r
  /\ map snd r = map (option_map u) [Some "E03"; Some "E03"; Some "MS"; Some "MS"; Some "IC"; Some "MR"; Some "MR"; Some "24"; Some "Z01"; Some "265"; Some "Z02"; Some "172"; None; None]%string
  /\ nth_error (map fst r) 12 = nth_error ex_lines 11.
Proof. eexists. split; [vm_compute; reflexivity|]. split; vm_compute; reflexivity. Qed.

(** C13 *)
Theorem C13_changes_line_by_line (lines : list AhbLine) (h : Sgh) :
  exists r, determine_hierarchy_changes lines h = Ok r /\ map fst r = lines.
Proof.
  rewrite determine_hierarchy_changes_eq. eexists. split; [reflexivity|]. now rewrite change_loop_lines, items_lines.
Qed.
Print Assumptions C13_changes_line_by_line.
Theorem C13_locations_line_by_line (h : Sgh) (lines : list AhbLine) (r : list (AhbLine * Location)) :
  determine_locations h lines = Ok r -> map fst r = lines.
Proof.
  intros H. apply determine_locations_steps in H as [L P]. apply nth_ext with (d := ex_line None None None None None None None) (d' := ex_line None None None None None None None).
  - now rewrite map_length.
  - intros n Hn. rewrite map_length, L in Hn. destruct (nth_error lines n) as [l|] eqn:E; [|apply nth_error_None in E; lia].
    destruct (P n l E) as (y & Hy & base & _ & Hf & _). cbn in Hf. subst l.
    erewrite nth_error_nth; [|apply map_nth_error; exact Hy]. symmetry. now apply nth_error_nth.
Qed.
Print Assumptions C13_locations_line_by_line.

(** C16: which changes are reported *)
Theorem C16_reported_changes (lines : list AhbLine) (h : Sgh) r i line c prev :
  determine_hierarchy_changes lines h = Ok r -> nth_error r i = Some (line, c) -> previous_key lines i prev ->
  (al_group line = prev <-> c = STAY \/ c = MOVE_TO_NEIGHBOUR_SAME_KEY)
  /\ (al_group line <> prev /\ key_below h (al_group line) prev <-> c = DIVE_INTO_SUB_GROUP)
  /\ (al_group line <> prev /\ ~ key_below h (al_group line) prev <-> c = LEAVE_TO_PARENT_AND_DIVE_INTO_SUB_GROUP)
  /\ c <> LEAVE_TO_PARENT /\ c <> MOVE_TO_NEIGHBOUR_DIFFERENT_KEY.
Proof.
  rewrite determine_hierarchy_changes_eq. intros [= <-] H Hp. destruct (change_at _ _ _ _ _ H) as [Hl _].
  pose proof (item_classified h lines i line prev Hl Hp) as C. pose proof (item_change h lines i line Hl) as HI.
  assert (HE : snd (fst (fst (item_at h lines i line))) = c) by congruence. rewrite HE in C.
  destruct C as [(E & [-> | ->])|[(E & B & ->)|(E & B & ->)]]; repeat split; intros; try discriminate; try tauto; intuition discriminate.
Qed.
Print Assumptions C16_reported_changes.
(** the helper that compares a line with a key: another key, and either the key is that of the root or the line's key is below it *)
Theorem C16_line_below_a_key line k h :
  this_line_is_hierarchically_below_the_previous_sg_key line k h = true
  <-> al_group line <> k /\ (sgh_key h = k \/ key_below h (al_group line) k).
Proof.
  unfold this_line_is_hierarchically_below_the_previous_sg_key.
  destruct (ostr_eqb (al_group line) k) eqn:E; [apply ostr_eqb_eq in E; split; [discriminate|tauto]|].
  assert (N : al_group line <> k) by (intros X; apply ostr_eqb_eq in X; congruence).
  destruct (ostr_eqb (sgh_key h) k) eqn:R; [apply ostr_eqb_eq in R; tauto|].
  assert (N' : sgh_key h <> k) by (intros X; apply ostr_eqb_eq in X; congruence).
  rewrite C09_sg_is_hierarchically_below. unfold key_below. split; [intros (_ & H)|intros (_ & [H|H])]; tauto.
Qed.
Print Assumptions C16_line_below_a_key.
Example C16_line_below_a_key_instance :
  let line := ex_line (Some "SG9"%string) (Some "QTY"%string) None None None None None in
  this_line_is_hierarchically_below_the_previous_sg_key line (Some (u "SG4")) ex_sgh = true
  /\ this_line_is_hierarchically_below_the_previous_sg_key line None ex_sgh = true
  /\ this_line_is_hierarchically_below_the_previous_sg_key line (Some (u "SG2")) ex_sgh = false
  /\ this_line_is_hierarchically_below_the_previous_sg_key line (Some (u "SG9")) ex_sgh = false.
Proof. repeat split; vm_compute; reflexivity. Qed.

(** a neighbour group with the same key is reported iff the next segment is the one that opened
    the group, its qualifier is another one, and this or the previous line has no segment code
    (or this is the first line) *)
Theorem C16_neighbour_with_same_key (lines : list AhbLine) (h : Sgh) r i line c s q ns nq :
  determine_hierarchy_changes lines h = Ok r -> nth_error r i = Some (line, c) ->
  last_opening lines r i s q -> next_at al_segment lines i ns -> next_at al_entry lines i nq ->
  (c = MOVE_TO_NEIGHBOUR_SAME_KEY <->
   previous_key lines i (al_group line) /\ ns = s /\ nq <> q
   /\ (al_segment line = None \/ i = 0 \/ exists j l, i = S j /\ nth_error lines j = Some l /\ al_segment l = None)).
Proof.
  rewrite determine_hierarchy_changes_eq. intros [= <-] H Ho Hs Hq. destruct (change_at _ _ _ _ _ H) as [Hl Hc]. cbv zeta in Hc.
  assert (Hi : i < List.length lines) by (apply nth_error_Some; congruence).
  assert (Ens : ns = first_some al_segment (skipn i lines)) by (eapply next_at_unique; [exact Hs|apply first_some_next]).
  assert (Enq : nq = first_some al_entry (skipn i lines)) by (eapply next_at_unique; [exact Hq|apply first_some_next]).
  pose proof (opening_state h lines i (Nat.lt_le_incl _ _ Hi)) as Ho'.
  set (st := state_at h initial (items lines) i) in *. rewrite <- Ens, <- Enq in Hc.
  assert (Hos : s = cs_last_opening_segment st /\ q = cs_last_opening_qualifier st).
  { destruct Ho as [(j & l & c1 & Hj & Hc1 & Hn1 & Hst & Hj1 & Hj2)|(Hst & -> & ->)], Ho' as [(j' & l' & c1' & Hj' & Hc1' & Hn1' & Hst' & Hj1' & Hj2')|(Hst' & -> & ->)].
    - assert (j = j') as <-.
      { destruct (Nat.lt_trichotomy j j') as [K|[K|K]]; [|exact K|]; exfalso; [apply Hn1'; eapply (Hst j'); [lia|exact Hc1']|apply Hn1; eapply (Hst' j); [lia|exact Hc1]]. }
      split; [exact (next_at_unique _ _ _ _ _ Hj1 Hj1')|exact (next_at_unique _ _ _ _ _ Hj2 Hj2')].
    - exfalso. apply Hn1. exact (Hst' j l c1 Hj Hc1).
    - exfalso. apply Hn1'. exact (Hst j' l' c1' Hj' Hc1').
    - auto. }
  destruct Hos as [-> ->].
  pose proof (previous_state h lines i (Nat.lt_le_incl _ _ Hi)) as Hp. fold st in Hp.
  assert (Hready : (if is_none (al_segment line) then true else cs_segment_code_was_none st) = true
                   <-> al_segment line = None \/ i = 0 \/ exists j l, i = S j /\ nth_error lines j = Some l /\ al_segment l = None).
  { pose proof (ready_state h lines i (Nat.lt_le_incl _ _ Hi)) as HR. fold st in HR. destruct (al_segment line) as [x|]; cbn [is_none]; [|split; auto].
    rewrite HR. split; [auto|]. intros [K|K]; [discriminate|exact K]. }
  rewrite <- Hready. clear Hready.
  assert (Hprev : previous_key lines i (al_group line) <-> al_group line = match cs_previous_line st with None => None | Some p => al_group p end).
  { split; [|intros ->; exact Hp]. intros Hp2. destruct Hp as [[-> Hp]|(j & l & -> & Hn & Hp)], Hp2 as [[E ->]|(j' & l' & E & Hn' & <-)]; try discriminate; [congruence|].
    injection E as <-. congruence. }
  rewrite Hprev.
  destruct (change_cases line (cs_previous_line st) ns nq (cs_last_opening_segment st) (cs_last_opening_qualifier st)
    (if is_none (al_segment line) then true else cs_segment_code_was_none st) h) as [[E [(C & A1 & A2 & A3)|(C & A)]]|[(E & _ & C)|(E & _ & C)]];
    rewrite Hc, C; split; try discriminate; tauto.
Qed.
Print Assumptions C16_neighbour_with_same_key.
(** the last opening segment and qualifier are always defined *)
Theorem C16_last_opening_exists (lines : list AhbLine) (h : Sgh) r i :
  determine_hierarchy_changes lines h = Ok r -> i <= List.length lines -> exists s q, last_opening lines r i s q.
Proof. rewrite determine_hierarchy_changes_eq. intros [= <-] Hi. eexists. eexists. exact (opening_state h lines i Hi). Qed.
Print Assumptions C16_last_opening_exists.

Lemma location_step_implemented h st x : snd (fst (fst x)) <> LEAVE_TO_PARENT -> location_step h st x <> Raise NotImplementedError.
Proof.
  destruct x as [[[line c] ns] nq], st as [layers res]. cbn [fst snd]. intros Hc H. cbn [location_step] in H.
  assert (B : forall {A B} (m : result A) (f : A -> result B) e, bind m f = Raise e -> m = Raise e \/ exists a, m = Ok a /\ f a = Raise e).
  { intros A B [a|e'] f e K; cbn in K; [right; eauto|left; congruence]. }
  assert (BL : forall k o q, new_Layer k o q <> Raise NotImplementedError).
  { intros k [o|] q K; [apply new_Layer_raise in K; discriminate|apply new_Layer_none in K as [K|K]; discriminate]. }
  assert (BO : forall a b d e f, new_Location a b d e f <> Raise NotImplementedError) by (intros * K; apply new_Location_raise in K; discriminate).
  assert (BP : forall (l : list Layer), pop_last l <> Raise NotImplementedError) by (intros [|a l]; discriminate).
  assert (BA : forall X (l : list X), last_of l <> Raise NotImplementedError) by (intros X l K; apply last_of_raise in K as [_ K]; discriminate).
  assert (BE : forall new, (let* loc := new_Location false new ns (al_element line) (al_entry line) in Ok (new, res ++ [(line, loc)])) <> Raise NotImplementedError).
  { intros new K. apply B in K as [K|(a & _ & K)]; [exact (BO _ _ _ _ _ K)|discriminate]. }
  assert (BG : forall k g ls, construct_pseudo_location k g ls <> Raise NotImplementedError).
  { intros k g. induction g as [k' o subs IH] using sgh_ind'. intros ls K. cbn [construct_pseudo_location] in K.
    apply B in K as [K|(a & _ & K)]; [exact (BL _ _ _ K)|]. destruct (ostr_eqb k k').
    - apply B in K as [K|(b & _ & K)]; [exact (BO _ _ _ _ _ K)|discriminate].
    - destruct subs as [l|]; [|discriminate]. cbn [olist] in IH. revert K. induction l as [|g l IHl]; intros K; [discriminate|].
      inversion IH as [|g' l' Hg Hl]; subst. apply B in K as [K|(b & _ & K)]; [exact (Hg _ K)|]. destruct b; [discriminate|]. exact (IHl Hl K). }
  assert (BF : forall x y, find_common_ancestor x y <> Raise NotImplementedError).
  { intros x y K. destruct (lo_pseudo x) eqn:X; [|destruct (lo_pseudo y) eqn:Y].
    - rewrite find_common_ancestor_pseudo in K by auto. cbv zeta in K. destruct (Nat.eqb _ 0); discriminate.
    - rewrite find_common_ancestor_pseudo in K by auto. cbv zeta in K. destruct (Nat.eqb _ 0); discriminate.
    - rewrite find_common_ancestor_plain in K by auto. cbv zeta in K. destruct (Nat.eqb _ 0); discriminate. }
  assert (BN : forall a b, nonneg_difference a b <> Raise NotImplementedError) by (intros a b; unfold nonneg_difference; destruct (Nat.ltb a b); discriminate).
  assert (BV : forall n k ls, leave_layers n k ls <> Raise NotImplementedError).
  { intros n k. induction n as [|n IH]; intros ls K; cbn [leave_layers] in K; [discriminate|].
    apply B in K as [K|(a & _ & K)]; [exact (BP _ K)|]. apply B in K as [K|(b & _ & K)]; [exact (BA _ _ K)|].
    apply B in K as [K|(d & _ & K)]; [|exact (IH _ K)]. destruct (ostr_eqb _ _); [exact (BP _ K)|discriminate]. }
  apply B in H as [H|(base & _ & H)].
  { unfold first_line_update in H. apply B in H as [H|(a & _ & H)]; [exact (BA _ _ H)|]. destruct (_ && _); [|discriminate].
    apply B in H as [H|(b & _ & H)]; [exact (BL _ _ _ H)|discriminate]. }
  destruct c; try congruence.
  - exact (BE _ H).
  - apply B in H as [H|(a & _ & H)]; [exact (BP _ H)|]. apply B in H as [H|(b & _ & H)]; [exact (BL _ _ _ H)|]. exact (BE _ H).
  - apply B in H as [H|(b & _ & H)]; [exact (BL _ _ _ H)|]. exact (BE _ H).
  - apply B in H as [H|(a & _ & H)]; [exact (BA _ _ H)|]. apply B in H as [H|(b & _ & H)]; [exact (BA _ _ H)|].
    apply B in H as [H|(d & _ & H)].
    { unfold find_common_ancestor_from_sgh in H. apply B in H as [H|([x|] & _ & H)]; [exact (BG _ _ _ H)| |discriminate].
      apply B in H as [H|([y|] & _ & H)]; [exact (BG _ _ _ H)|exact (BF _ _ H)|discriminate]. }
    apply B in H as [H|(e & _ & H)].
    { unfold calculate_distance in H. apply B in H as [H|(x & _ & H)]; [exact (BF _ _ H)|]. apply B in H as [H|(y & _ & H)]; [exact (BN _ _ H)|].
      apply B in H as [H|(z & _ & H)]; [exact (BN _ _ H)|discriminate]. }
    apply B in H as [H|(f & _ & H)]; [exact (BV _ _ _ H)|]. apply B in H as [H|(g & _ & H)]; [exact (BL _ _ _ H)|]. exact (BE _ H).
Qed.
Theorem C16_never_not_implemented (h : Sgh) (lines : list AhbLine) : determine_locations h lines <> Raise NotImplementedError.
Proof.
  intros H. rewrite determine_locations_eq in H. destruct (new_Layer (sgh_key h) (Some (sgh_opening h)) None) as [l0|e] eqn:E; cbn [bind] in H.
  2:{ apply new_Layer_raise in E as ->. discriminate. }
  assert (K : foldM (location_step h) ([l0], []) (annotate h initial (items lines)) <> Raise NotImplementedError).
  { assert (A : forall x, In x (annotate h initial (items lines)) -> snd (fst (fst x)) <> LEAVE_TO_PARENT) by (intros x Hx; now apply annotate_change in Hx).
    revert A. generalize ([l0], @nil (AhbLine * Location)). generalize (annotate h initial (items lines)). clear. intros xs.
    induction xs as [|x xs IH]; intros st A K; cbn [foldM] in K; [discriminate|].
    destruct (location_step h st x) as [st'|e] eqn:E; cbn [bind] in K; [exact (IH st' (fun y Hy => A y (or_intror Hy)) K)|].
    injection K as ->. exact (location_step_implemented h st x (A x (or_introl eq_refl)) E). }
  destruct (foldM _ _ _) as [st|e]; cbn [bind] in H; [discriminate|]. congruence.
Qed.
Print Assumptions C16_never_not_implemented.

Example C16_instance :
  exists r, determine_hierarchy_changes ex_lines ex_sgh = Ok r
  /\ map snd r = [STAY; STAY; DIVE_INTO_SUB_GROUP; STAY; DIVE_INTO_SUB_GROUP; LEAVE_TO_PARENT_AND_DIVE_INTO_SUB_GROUP; STAY;
                  LEAVE_TO_PARENT_AND_DIVE_INTO_SUB_GROUP; DIVE_INTO_SUB_GROUP; DIVE_INTO_SUB_GROUP; LEAVE_TO_PARENT_AND_DIVE_INTO_SUB_GROUP;
                  LEAVE_TO_PARENT_AND_DIVE_INTO_SUB_GROUP; LEAVE_TO_PARENT_AND_DIVE_INTO_SUB_GROUP; STAY].
Proof. eexists. split; vm_compute; reflexivity. Qed.
(** two neighbouring groups with the same key *)
Definition ex_neighbours : list AhbLine :=
  [ ex_line None (Some "UNH") None None None (Some "Muss") None;
    ex_line (Some "SG2") (Some "NAD") (Some "3035") (Some "MS") None (Some "X") None;
    ex_line (Some "SG2") None None None None (Some "Muss") None;
    ex_line (Some "SG2") (Some "NAD") (Some "3035") (Some "MR") None (Some "X") None ]%string.
Example C16_neighbour_instance :
  exists r, determine_hierarchy_changes ex_neighbours ex_sgh = Ok r
  /\ map snd r = [STAY; DIVE_INTO_SUB_GROUP; MOVE_TO_NEIGHBOUR_SAME_KEY; STAY].
Proof. eexists. split; vm_compute; reflexivity. Qed.

(** C14 *)
Theorem C14_location_of_its_line (h : Sgh) (lines : list AhbLine) r i line loc :
  determine_locations h lines = Ok r -> nth_error r i = Some (line, loc) ->
  nth_error lines i = Some line
  /\ lo_element loc = al_element line /\ lo_qualifier loc = al_entry line
  /\ next_at al_segment lines i (lo_segment loc).
Proof.
  intros H Hr. apply determine_locations_steps in H as [L P].
  assert (Hi : i < List.length lines) by (rewrite <- L; apply nth_error_Some; congruence).
  destruct (nth_error lines i) as [l|] eqn:E; [|apply nth_error_None in E; lia].
  destruct (P i l E) as (y & Hy & base & _ & Hf & Hs & _). rewrite Hr in Hy. injection Hy as <-. cbn in Hf. subst l.
  cbn [fst snd item_at] in Hs. rewrite Hs. cbn [lo_element lo_qualifier lo_segment]. repeat split. apply first_some_next.
Qed.
Print Assumptions C14_location_of_its_line.
Theorem C14_last_layer (h : Sgh) (lines : list AhbLine) r i line loc :
  determine_locations h lines = Ok r ->
  sgh_key h = None \/ (forall first rest, lines = first :: rest -> al_group first <> None) ->
  nth_error r i = Some (line, loc) ->
  exists outer layer, lo_layers loc = outer ++ [layer] /\ ly_key layer = al_group line.
Proof. intros H Hr. exact (last_layer_key h lines r H Hr i line loc). Qed.
Print Assumptions C14_last_layer.
(** without the condition on the root: a hierarchy whose root has a key, and a first line without one *)
Theorem C14_last_layer_refuted :
  ~ forall h lines r i line loc, determine_locations h lines = Ok r -> nth_error r i = Some (line, loc) ->
      exists outer layer, lo_layers loc = outer ++ [layer] /\ ly_key layer = al_group line.
Proof.
  intros H. specialize (H (mkSgh (Some (u "SG1")) (u "RFF") None) [ex_line None (Some "UNH") None None None (Some "Muss") None]%string).
  edestruct H with (i := 0) as (outer & layer & E & K); [vm_compute; reflexivity|reflexivity|].
  destruct outer as [|a [|b outer]]; try discriminate. injection E as <-. discriminate.
Qed.
Print Assumptions C14_last_layer_refuted.

(** C18 *)
Theorem C18_layers_of_neighbouring_lines (h : Sgh) (lines : list AhbLine) r changes i line1 loc1 line2 loc2 c :
  determine_locations h lines = Ok r -> determine_hierarchy_changes lines h = Ok changes ->
  nth_error r i = Some (line1, loc1) -> nth_error r (S i) = Some (line2, loc2) -> nth_error changes (S i) = Some (line2, c) ->
  (c = STAY -> lo_layers loc2 = lo_layers loc1)
  /\ (c <> STAY -> exists outer opening qualifier,
        next_at al_segment lines (S i) (Some opening) /\ next_at al_entry lines (S i) qualifier
        /\ lo_layers loc2 = outer ++ [mkLayer (al_group line2) opening qualifier]
        /\ (c = MOVE_TO_NEIGHBOUR_SAME_KEY -> exists old, lo_layers loc1 = outer ++ [old])
        /\ (c = DIVE_INTO_SUB_GROUP -> outer = lo_layers loc1)
        /\ (c = LEAVE_TO_PARENT_AND_DIVE_INTO_SUB_GROUP -> is_prefix outer (lo_layers loc1))).
Proof.
  intros H HC H1 H2 Hc. apply determine_locations_steps in H as [L P]. rewrite determine_hierarchy_changes_eq in HC. injection HC as <-.
  assert (Hi : S i < List.length lines) by (rewrite <- L; apply nth_error_Some; congruence).
  destruct (nth_error lines (S i)) as [l|] eqn:E; [|apply nth_error_None in E; lia].
  pose proof (item_change h lines (S i) l E) as HI. assert (l = line2) as -> by congruence.
  assert (HE : snd (fst (fst (item_at h lines (S i) line2))) = c) by congruence. clear HI Hc.
  destruct (P (S i) line2 E) as (y & Hy & base & HB & Hf & Hs & _ & HV & HS & HN & _). rewrite H2 in Hy. injection Hy as <-. cbn [fst snd] in *.
  rewrite HE in *. clear HE.
  assert (base = lo_layers loc1) as ->.
  { cbn [layers_before] in HB. rewrite H1 in HB. cbn [snd] in HB. destruct r; [discriminate|]. exact HB. }
  split; [exact HS|]. intros Hns. destruct HV as [HV|(o & Ho & _)]; [congruence|]. specialize (HN o Ho). cbn [item_at fst snd] in *.
  assert (N1 : next_at al_segment lines (S i) (Some o)) by (rewrite <- Ho; apply first_some_next).
  pose proof (first_some_next al_entry lines (S i)) as N2.
  destruct c; cbn [new_layers_of] in HN; try congruence; try contradiction.
  - destruct HN as (p & old & -> & ->). exists p, o. eexists. split; [exact N1|]. split; [exact N2|]. split; [reflexivity|]. split; [eauto|]. split; discriminate.
  - exists (lo_layers loc1), o. eexists. split; [exact N1|]. split; [exact N2|]. split; [exact HN|]. split; [discriminate|]. split; [reflexivity|discriminate].
  - destruct HN as (p & Hp & ->). exists p, o. eexists. split; [exact N1|]. split; [exact N2|]. split; [reflexivity|]. split; [discriminate|]. split; [discriminate|auto].
Qed.
Print Assumptions C18_layers_of_neighbouring_lines.

(** C15 *)
Theorem C15_layers_follow_the_hierarchy (h : Sgh) (lines : list AhbLine) r :
  distinct_keys h -> well_named h -> sgh_key h = None -> disciplined h None lines ->
  determine_locations h lines = Ok r ->
  forall i line loc, nth_error r i = Some (line, loc) ->
    exists p n, node_at h p = Some n /\ sgh_key n = al_group line
      /\ map ly_key (lo_layers loc) = map sgh_key (nodes_on_path h p).
Proof.
  intros D W R HD H i line loc Hr. rewrite determine_locations_eq in H. apply bind_ok in H as (l0 & H0 & H). apply new_Layer_ok in H0 as [-> V0].
  apply bind_ok in H as ([layers res] & H & E). injection E as <-. cbn [snd] in Hr.
  destruct (path_loop h D W R lines initial [plain_layer h] []) as [_ Q].
  - exists [], h. repeat split; auto.
  - reflexivity.
  - exact HD.
  - destruct (Q _ _ H) as (new & -> & F). cbn [app] in Hr. clear -F Hr. revert i Hr; induction F as [|l y ls ys (Hf & Hp) F IH]; intros [|i] Hr; try discriminate.
    + injection Hr as ->. cbn [fst snd] in *. subst l. exact Hp.
    + exact (IH i Hr).
Qed.
Print Assumptions C15_layers_follow_the_hierarchy.

(** C17: on disciplined lines the call returns iff the texts that become parts of locations and
    layers have the required format *)
Definition acceptable_lines (lines : list AhbLine) (changes : list (AhbLine * Change)) : Prop :=
  forall i line c ns nq, nth_error changes i = Some (line, c) -> next_at al_segment lines i ns -> next_at al_entry lines i nq ->
    acceptable_segment ns /\ acceptable_element (al_element line)
    /\ (i = 0 -> acceptable_qualifier nq)
    /\ (c <> STAY -> ns <> None /\ acceptable_qualifier nq).
Theorem C17_returns_iff_acceptable (h : Sgh) (lines : list AhbLine) changes :
  distinct_keys h -> well_named h -> sgh_key h = None -> disciplined h None lines ->
  determine_hierarchy_changes lines h = Ok changes ->
  (exists r, determine_locations h lines = Ok r) <-> acceptable_lines lines changes.
Proof.
  intros D W R HD HC. rewrite determine_hierarchy_changes_eq in HC. injection HC as <-.
  destruct (path_loop h D W R lines initial [plain_layer h] []) as [Q _].
  { exists [], h. repeat split; auto. } { reflexivity. } { exact HD. }
  rewrite determine_locations_eq, (well_named_layer h W). cbn [bind].
  transitivity (exists r, foldM (location_step h) ([plain_layer h], []) (annotate h initial (items lines)) = Ok r).
  { split.
    - intros (r & H). apply bind_ok in H as (st & H & _). eauto.
    - intros (st & ->). cbn [bind]. eauto. }
  rewrite Q. unfold acceptable_all, acceptable_lines, acceptable. split.
  - intros A i line c ns nq Hc Hs Hq. destruct (change_at _ _ _ _ _ Hc) as [Hl _]. pose proof (item_change h lines i line Hl) as HI.
    assert (HE : snd (fst (fst (item_at h lines i line))) = c) by congruence.
    assert (Ens : ns = first_some al_segment (skipn i lines)) by (eapply next_at_unique; [exact Hs|apply first_some_next]).
    assert (Enq : nq = first_some al_entry (skipn i lines)) by (eapply next_at_unique; [exact Hq|apply first_some_next]).
    specialize (A i (item_at h lines i line)). rewrite annotate_nth, items_nth, Hl in A. destruct (A eq_refl) as (A1 & A2 & A3 & A4).
    cbn [fst snd item_at] in A1, A2, A3. rewrite HE in A4. cbn [fst snd item_at] in A4. rewrite <- Ens, <- ?Enq in *.
    split; [exact A1|]. split; [exact A2|]. split; [intros ->; apply A3; reflexivity|exact A4].
  - intros A i x Hx. rewrite annotate_nth, items_nth in Hx. destruct (nth_error lines i) as [l|] eqn:Hl; [|discriminate]. injection Hx as <-.
    specialize (A i l _ _ _ (item_change h lines i l Hl) (first_some_next al_segment lines i) (first_some_next al_entry lines i)).
    destruct A as (A1 & A2 & A3 & A4). cbn [fst snd item_at] in *. split; [exact A1|]. split; [exact A2|]. split; [|exact A4].
    destruct i; [intros _; apply A3; reflexivity|discriminate].
Qed.
Print Assumptions C17_returns_iff_acceptable.

(** the discipline is needed: root > SG1 > SG2 > SG3 > SG4; the lines skip SG1 and come back to SG2 *)
Definition ex_deep_sgh : Sgh :=
  mkSgh None (u "UNH") (Some [mkSgh (Some (u "SG1")) (u "RFF") (Some [mkSgh (Some (u "SG2")) (u "NAD") (Some
    [mkSgh (Some (u "SG3")) (u "CTA") (Some [mkSgh (Some (u "SG4")) (u "IDE") None])])])]).
Definition ex_skipping : list AhbLine :=
  [ ex_line (Some "SG2") (Some "NAD") None None None (Some "Muss") None;
    ex_line (Some "SG3") (Some "CTA") None None None (Some "Muss") None;
    ex_line (Some "SG4") (Some "IDE") None None None (Some "Muss") None;
    ex_line (Some "SG2") (Some "NAD") None None None (Some "Muss") None ]%string.
Theorem C17_skipping_a_level_refuted :
  ~ forall h lines changes, distinct_keys h -> well_named h -> sgh_key h = None ->
      (forall l, In l lines -> exists n, occurs_in n h /\ sgh_key n = al_group l) ->
      determine_hierarchy_changes lines h = Ok changes -> acceptable_lines lines changes ->
      exists r, determine_locations h lines = Ok r.
Proof.
  intros H. specialize (H ex_deep_sgh ex_skipping).
  edestruct H as (r & E).
  - apply distinct_keys_NoDup. vm_compute. repeat constructor; cbn; intuition discriminate.
  - intros n Hn. assert (In (label n) (flattened ex_deep_sgh)) as K by (apply in_flattened; destruct Hn as (p & Hp); eauto).
    destruct n as [k o s]. unfold label in K. cbn [sgh_key sgh_opening] in *. vm_compute in K.
    repeat (destruct K as [K|K]; [injection K as <- <-; split; [intros kk E; (discriminate || (injection E as <-; apply full_segment_group; vm_compute; reflexivity))|apply full_three_letters; vm_compute; reflexivity]|]). destruct K.
  - reflexivity.
  - intros l Hl.
    assert (K : In (al_group l) (map fst (flattened ex_deep_sgh))).
    { cbn in Hl. destruct Hl as [<-|[<-|[<-|[<-|[]]]]]; vm_compute; intuition. }
    apply in_flattened_key in K as (n & Hn & Hk). eauto.
  - reflexivity.
  - intros i line c ns nq Hc Hs Hq. pose proof (first_some_next al_segment ex_skipping i) as Hs'. pose proof (first_some_next al_entry ex_skipping i) as Hq'.
    rewrite (next_at_unique _ _ _ _ _ Hs Hs'), (next_at_unique _ _ _ _ _ Hq Hq'). clear ns nq Hs Hq Hs' Hq'.
    destruct i as [|[|[|[|i]]]]; [| | | |vm_compute in Hc; destruct i; discriminate]; vm_compute in Hc; injection Hc as <- <-;
      (split; [intros v E; injection E as <-; apply full_three_letters; vm_compute; reflexivity|]; split; [intros v E; discriminate|];
       split; [intros _ v E; discriminate|intros _; split; [discriminate|intros v E; discriminate]]).
  - vm_compute in E. discriminate.
Qed.
Print Assumptions C17_skipping_a_level_refuted.
Example C17_skipping_raises : determine_locations ex_deep_sgh ex_skipping = Raise ValueError.
Proof. vm_compute. reflexivity. Qed.

(** the hypotheses of C15 and C17 hold of the example *)
Example C15_disciplined : disciplined ex_sgh None ex_lines.
Proof.
  cbn [disciplined ex_lines]. cbn [al_group ex_line option_map].
  repeat match goal with |- _ /\ _ => split | |- True => exact I end.
  - exists []. eexists. exists []. eexists. repeat split; try reflexivity. now left.
  - exists []. eexists. exists []. eexists. repeat split; try reflexivity. now left.
  - exists []. eexists. exists [0]. eexists. repeat split; try reflexivity. right. exists [], 0. split; [reflexivity|apply is_prefix_nil].
  - exists [0]. eexists. exists [0]. eexists. repeat split; try reflexivity. right. exists [], 0. split; [reflexivity|apply is_prefix_nil].
  - exists [0]. eexists. exists [0; 0]. eexists. repeat split; try reflexivity. right. exists [0], 0. split; [reflexivity|apply is_prefix_refl].
  - exists [0; 0]. eexists. exists [0]. eexists. repeat split; try reflexivity. right. exists [], 0. split; [reflexivity|apply is_prefix_nil].
  - exists [0]. eexists. exists [0]. eexists. repeat split; try reflexivity. right. exists [], 0. split; [reflexivity|apply is_prefix_nil].
  - exists [0]. eexists. exists [1]. eexists. repeat split; try reflexivity. right. exists [], 1. split; [reflexivity|apply is_prefix_nil].
  - exists [1]. eexists. exists [1; 1]. eexists. repeat split; try reflexivity. right. exists [1], 1. split; [reflexivity|apply is_prefix_refl].
  - exists [1; 1]. eexists. exists [1; 1; 0]. eexists. repeat split; try reflexivity. right. exists [1; 1], 0. split; [reflexivity|apply is_prefix_refl].
  - exists [1; 1; 0]. eexists. exists [1; 1]. eexists. repeat split; try reflexivity. right. exists [1], 1. split; [reflexivity|]. exists [1; 0]. reflexivity.
  - exists [1; 1]. eexists. exists [1; 0]. eexists. repeat split; try reflexivity. right. exists [1], 0. split; [reflexivity|]. exists [1]. reflexivity.
  - exists [1; 0]. eexists. exists []. eexists. repeat split; try reflexivity. now left.
  - exists []. eexists. exists []. eexists. repeat split; try reflexivity. now left.
Qed.
Example C15_instance :
  distinct_keys ex_sgh /\ well_named ex_sgh /\ sgh_key ex_sgh = None
  /\ exists r, determine_locations ex_sgh ex_lines = Ok r
  /\ map (fun x => map ly_key (lo_layers (snd x))) r =
     map (fun ks => None :: map (fun k => Some (u k)) ks)
       [[]; []; ["SG2"]; ["SG2"]; ["SG2"; "SG3"]; ["SG2"]; ["SG2"]; ["SG4"]; ["SG4"; "SG8"]; ["SG4"; "SG8"; "SG9"]; ["SG4"; "SG8"]; ["SG4"; "SG5"]; []; []]%string.
Proof. split; [exact ex_sgh_distinct|]. split; [exact ex_sgh_well_named|]. split; [reflexivity|]. eexists. split; vm_compute; reflexivity. Qed.

(** C68 *)
Theorem C68_opening_segment_line_border (this next : AhbLine) (next_filled : option pystr) (opening : pystr) :
  is_opening_segment_line_border this next next_filled opening = true
  <-> al_section this <> al_section next /\ al_segment this <> None /\ al_segment next = None /\ next_filled = Some opening.
Proof.
  unfold is_opening_segment_line_border.
  destruct (ostr_eqb_spec (al_section this) (al_section next)) as [E|E]; [split; [discriminate|tauto]|]. cbn [negb andb].
  destruct (al_segment next) as [n|] eqn:N.
  - cbn [is_none negb]. destruct (negb (ostr_eqb (al_segment this) (Some opening)) && true && is_none (al_segment this)); split; try discriminate; intros (_ & _ & K & _); discriminate.
  - cbn [is_none negb]. destruct (al_segment this) as [t|] eqn:T.
    + cbn [is_none]. rewrite andb_false_r. destruct (ostr_eqb_spec next_filled (Some opening)) as [F|F]; split; try discriminate; try reflexivity; [|tauto].
      intros _. repeat split; auto; discriminate.
    + cbn. split; [discriminate|tauto].
Qed.
Print Assumptions C68_opening_segment_line_border.
Example C68_instance :
  is_opening_segment_line_border (ex_line (Some "SG2"%string) (Some "NAD"%string) None None None None (Some "Absender"%string))
    (ex_line (Some "SG2"%string) None None None None None (Some "Empfaenger"%string)) (Some (u "NAD")) (u "NAD") = true.
Proof. reflexivity. Qed.
