(** Lemmas about hierarchy changes and locations. *)
From Coq Require Import Ascii String List NArith ZArith Bool Lia Arith.
From Verif Require Import PyBase PyStr PyRe M_Components M_Ahb M_Sgh M_Navigation
  S_Prefix S_Text S_Sgh S_Navigation L_Base L_Prefix L_Validators L_Sgh.
Import ListNotations.
Local Open Scope list_scope.

(** ** look-ahead *)
Fixpoint first_some (f : AhbLine -> option pystr) (lines : list AhbLine) : option pystr :=
  match lines with
  | [] => None
  | l :: r => match f l with Some v => Some v | None => first_some f r end
  end.
Fixpoint ahead (f : AhbLine -> option pystr) (lines : list AhbLine) : list (option pystr) :=
  match lines with [] => [] | _ :: r => first_some f lines :: ahead f r end.

Lemma ahead_length f lines : List.length (ahead f lines) = List.length lines.
Proof. induction lines as [|l r IH]; cbn; auto. Qed.
Lemma ahead_nth f lines i : i < List.length lines -> nth_error (ahead f lines) i = Some (first_some f (skipn i lines)).
Proof.
  revert i; induction lines as [|l r IH]; intros [|i] H; cbn in H; try lia; [reflexivity|]. cbn [ahead nth_error skipn]. apply IH. lia.
Qed.
Lemma first_some_next f lines i : next_at f lines i (first_some f (skipn i lines)).
Proof.
  revert i; induction lines as [|l r IH]; intros i.
  - right. rewrite skipn_nil. split; [reflexivity|]. intros [|k] l' _ H; discriminate.
  - destruct i as [|i].
    + cbn [skipn first_some]. destruct (f l) as [v|] eqn:E.
      * left. exists 0, l. repeat split; [lia|exact E|discriminate|]. intros k l' H. lia.
      * specialize (IH 0). cbn [skipn] in IH. destruct IH as [(j & x & Hj & Hn & Hf & Hv & Hk)|[Hv Hk]].
        -- left. exists (S j), x. repeat split; [lia|exact Hn|exact Hf|exact Hv|]. intros [|k] l' Hr Hl; [cbn in Hl; congruence|].
           apply (Hk k); [lia|exact Hl].
        -- right. split; [exact Hv|]. intros [|k] l' Hr Hl; [cbn in Hl; congruence|]. apply (Hk k); [lia|exact Hl].
    + cbn [skipn]. destruct (IH i) as [(j & x & Hj & Hn & Hf & Hv & Hk)|[Hv Hk]].
      * left. exists (S j), x. repeat split; [lia|exact Hn|exact Hf|exact Hv|]. intros [|k] l' Hr Hl; [lia|]. apply (Hk k); [lia|exact Hl].
      * right. split; [exact Hv|]. intros [|k] l' Hr Hl; [lia|]. apply (Hk k); [lia|exact Hl].
Qed.
Lemma next_at_unique f lines i v w : next_at f lines i v -> next_at f lines i w -> v = w.
Proof.
  intros [(j & x & Hj & Hn & Hf & Hv & Hk)|[Hv Hk]] [(j' & x' & Hj' & Hn' & Hf' & Hv' & Hk')|[Hv' Hk']].
  - destruct (Nat.lt_trichotomy j j') as [L|[-> |L]].
    + rewrite (Hk' j x) in Hf by (auto; lia). congruence.
    + congruence.
    + rewrite (Hk j' x') in Hf' by (auto; lia). congruence.
  - rewrite (Hk' j x) in Hf by auto. congruence.
  - rewrite (Hk j' x') in Hf' by auto. congruence.
  - congruence.
Qed.

Section Enhance.
  Variable f : AhbLine -> option pystr.
  Let pred l := is_some (f l).
  Lemma find_first lines : match find pred lines with Some m => f m = first_some f lines /\ f m <> None | None => first_some f lines = None end.
  Proof.
    induction lines as [|l r IH]; cbn [find first_some]; [reflexivity|]. unfold pred at 1. destruct (f l) as [v|] eqn:E; cbn [is_some is_none negb].
    - split; [exact E|congruence].
    - exact IH.
  Qed.
  (** the loop covers the lines up to the last one that fulfils the predicate *)
  Lemma enhance_loop_spec lines : exists n, n <= List.length lines
    /\ enhance_loop pred f lines = combine (firstn n lines) (ahead f (firstn n lines ++ skipn n lines))
    /\ first_some f (skipn n lines) = None
    /\ forall i, i < n -> first_some f (skipn i lines) <> None.
  Proof.
    induction lines as [|l r (n & Hn & E & T & P)]; [exists 0; repeat split; intros; lia|].
    cbn [enhance_loop]. pose proof (find_first (l :: r)) as F. unfold pred at 1. destruct (f l) as [v|] eqn:El; cbn [is_some is_none negb].
    - exists (S n). split; [cbn; lia|]. split; [|split; [exact T|]].
      + cbn [firstn skipn app combine ahead first_some]. rewrite El. f_equal. exact E.
      + intros [|i] Hi; cbn [skipn first_some]; [rewrite El; discriminate|apply P; lia].
    - destruct (find pred (l :: r)) as [m|] eqn:Em.
      + destruct F as [F1 F2]. exists (S n). split; [cbn; lia|]. split; [|split; [exact T|]].
        * cbn [firstn skipn app combine ahead]. rewrite firstn_skipn, <- F1. f_equal. rewrite firstn_skipn in E. exact E.
        * intros [|i] Hi; cbn [skipn]; [rewrite <- F1; exact F2|apply P; lia].
      + exists 0. split; [lia|]. split; [reflexivity|]. split; [exact F|]. intros i Hi; lia.
  Qed.
  Definition shifted (n i : nat) : nat := match i with O => n - 1 | S j => j end.
  Lemma py_index_shifted (lines : list AhbLine) i : i < List.length lines ->
    exists l, py_index lines (Z.of_nat i - 1)%Z = Ok l /\ nth_error lines (shifted (List.length lines) i) = Some l.
  Proof.
    intros H. unfold py_index. destruct i as [|i]; cbn [shifted].
    - cbn [Z.of_nat]. change (0 - 1)%Z with (-1)%Z. cbn [Z.ltb Z.compare].
      assert (E : (-1 + Z.of_nat (List.length lines) <? 0)%Z = false) by (apply Z.ltb_ge; lia). rewrite E.
      replace (Z.to_nat (-1 + Z.of_nat (List.length lines))) with (List.length lines - 1) by lia.
      destruct (nth_error lines (List.length lines - 1)) as [l|] eqn:N; [eauto|]. apply nth_error_None in N. lia.
    - replace (Z.of_nat (S i) - 1)%Z with (Z.of_nat i) by lia.
      assert (E : (Z.of_nat i <? 0)%Z = false) by (apply Z.ltb_ge; lia). rewrite E, E, Nat2Z.id.
      destruct (nth_error lines i) as [l|] eqn:N; [eauto|]. apply nth_error_None in N. lia.
  Qed.
  Lemma enhance_tail_spec (lines : list AhbLine) missing : forall k, k + missing = List.length lines ->
    exists r, enhance_tail lines missing (Z.of_nat k - 1)%Z = Ok r /\ List.length r = missing
      /\ map snd r = repeat None missing
      /\ forall i l v, nth_error r i = Some (l, v) -> nth_error lines (shifted (List.length lines) (k + i)) = Some l.
  Proof.
    induction missing as [|m IH]; intros k H; cbn [enhance_tail].
    - exists []. repeat split. intros [|i] l v K; discriminate.
    - destruct (py_index_shifted lines k) as (l & -> & Hl); [lia|]. cbn [bind].
      destruct (IH (S k)) as (r & E & L & M & P); [lia|]. replace (Z.of_nat (S k) - 1)%Z with (Z.of_nat k - 1 + 1)%Z in E by lia.
      rewrite E. cbn [bind]. exists ((l, None) :: r). split; [reflexivity|]. split; [cbn; congruence|]. split; [cbn; congruence|].
      intros [|i] l' v K; [injection K as <- <-; now rewrite Nat.add_0_r|]. rewrite Nat.add_succ_r. cbn in K. exact (P i l' v K).
  Qed.
  Lemma ahead_tail lines n : first_some f (skipn n lines) = None -> ahead f (skipn n lines) = repeat None (List.length lines - n).
  Proof.
    rewrite <- skipn_length. generalize (skipn n lines). clear. induction l as [|x r IH]; cbn; [reflexivity|]. destruct (f x); [discriminate|].
    intros H. now rewrite H, IH.
  Qed.
  Lemma ahead_firstn lines n : n <= List.length lines -> ahead f lines = firstn n (ahead f lines) ++ ahead f (skipn n lines).
  Proof.
    revert n; induction lines as [|x r IH]; intros [|n] H; cbn in H; try lia; [reflexivity|reflexivity|].
    cbn [ahead firstn skipn app]. f_equal. apply IH. lia.
  Qed.
  Lemma combine_firstn_l {A B} (a : list A) (b : list B) n : combine (firstn n a) b = combine (firstn n a) (firstn n b).
  Proof. revert a b; induction n as [|n IH]; intros [|x a] [|y b]; cbn; try reflexivity. now rewrite IH. Qed.
  Lemma combine_split' {A B} (a : list A) (b : list B) : List.length a = List.length b -> map fst (combine a b) = a /\ map snd (combine a b) = b.
  Proof.
    revert b; induction a as [|x a IH]; intros [|y b] H; cbn in *; try discriminate; [auto|].
    destruct (IH b) as [-> ->]; [congruence|auto].
  Qed.
  Lemma enhance_spec lines : exists r,
    enhance_with_next_line_that_fulfills_predicate pred f lines = Ok r
    /\ map snd r = ahead f lines
    /\ forall i l v, nth_error r i = Some (l, v) ->
         (v <> None -> nth_error lines i = Some l) /\ (v = None -> nth_error lines (shifted (List.length lines) i) = Some l).
  Proof.
    unfold enhance_with_next_line_that_fulfills_predicate. destruct (enhance_loop_spec lines) as (n & Hn & E & T & P).
    rewrite firstn_skipn in E. rewrite E. rewrite combine_firstn_l.
    assert (Lf : List.length (firstn n lines) = List.length (firstn n (ahead f lines))) by (rewrite !firstn_length, ahead_length; reflexivity).
    destruct (combine_split' _ _ Lf) as [Cf Cs].
    assert (Lc : List.length (combine (firstn n lines) (firstn n (ahead f lines))) = n) by (rewrite combine_length, <- Lf, firstn_length; lia).
    rewrite Lc. destruct (enhance_tail_spec lines (List.length lines - n) n) as (r & -> & L & M & Q); [lia|]. cbn [bind].
    eexists. split; [reflexivity|]. split.
    - rewrite map_app, Cs, M. rewrite <- (ahead_tail lines n T). symmetry. now apply ahead_firstn.
    - intros i l v H. destruct (Nat.lt_ge_cases i n) as [Hi|Hi].
      + rewrite nth_error_app1 in H by lia.
        assert (H1 : nth_error (map fst (combine (firstn n lines) (firstn n (ahead f lines)))) i = Some l) by (rewrite (map_nth_error fst _ _ H); reflexivity).
        assert (H2 : nth_error (map snd (combine (firstn n lines) (firstn n (ahead f lines)))) i = Some v) by (rewrite (map_nth_error snd _ _ H); reflexivity).
        rewrite Cf in H1. rewrite Cs in H2.
        assert (F1 : forall {A} (x : list A) k j, j < k -> nth_error (firstn k x) j = nth_error x j).
        { clear. intros A x k; revert x; induction k as [|k IH]; intros [|y x] [|j] H; cbn; try lia; try reflexivity. apply IH. lia. }
        rewrite F1 in H1 by exact Hi. rewrite F1 in H2 by exact Hi. split; [auto|]. intros ->.
        rewrite ahead_nth in H2 by lia. injection H2 as H2. exfalso. exact (P i Hi H2).
      + rewrite nth_error_app2 in H by lia. rewrite Lc in H.
        assert (Hv : v = None).
        { apply (map_nth_error snd) in H. rewrite M in H. cbn in H. apply nth_error_In, repeat_spec in H. exact H. }
        split; [congruence|]. intros _. specialize (Q _ _ _ H). now replace (n + (i - n)) with i in Q by lia.
  Qed.
End Enhance.
Lemma next_segments lines : exists r, enhance_with_next_segment lines = Ok r /\ map snd r = ahead al_segment lines.
Proof. destruct (enhance_spec al_segment lines) as (r & E & M & _). eauto. Qed.
Lemma next_entries lines : exists r, enhance_with_next_value_pool_entry lines = Ok r /\ map snd r = ahead al_entry lines.
Proof. destruct (enhance_spec al_entry lines) as (r & E & M & _). eauto. Qed.

(** ** the lines with the look-ahead *)
Fixpoint items (lines : list AhbLine) : list (AhbLine * option pystr * option pystr) :=
  match lines with
  | [] => []
  | l :: r => (l, first_some al_segment lines, first_some al_entry lines) :: items r
  end.
Lemma items_combine lines : combine (combine lines (ahead al_segment lines)) (ahead al_entry lines) = items lines.
Proof. induction lines as [|l r IH]; cbn [ahead combine items]; [reflexivity|]. now rewrite IH. Qed.
Lemma items_nth lines i : nth_error (items lines) i = match nth_error lines i with
  | Some l => Some (l, first_some al_segment (skipn i lines), first_some al_entry (skipn i lines)) | None => None end.
Proof. revert i; induction lines as [|l r IH]; intros [|i]; cbn [items nth_error skipn]; auto. Qed.

Definition initial : ChangeState := mkCS true None (Some (u "UNH")) None.
Lemma determine_hierarchy_changes_eq lines h : determine_hierarchy_changes lines h = Ok (change_loop h initial (items lines)).
Proof.
  unfold determine_hierarchy_changes. destruct (next_segments lines) as (r & -> & Mr), (next_entries lines) as (s & -> & Ms).
  cbn [bind]. rewrite Mr, Ms. unfold zip3_strict. rewrite !ahead_length, Nat.eqb_refl. cbn [andb bind]. now rewrite items_combine.
Qed.
Lemma change_loop_lines h st l : map fst (change_loop h st l) = map (fun x => fst (fst x)) l.
Proof. revert st; induction l as [|x r IH]; intros st; cbn [change_loop map]; [reflexivity|]. destruct (change_step h st x). cbn. now rewrite IH. Qed.
Lemma items_lines lines : map (fun x => fst (fst x)) (items lines) = lines.
Proof. induction lines as [|l r IH]; cbn [items map]; [reflexivity|]. cbn. now rewrite IH. Qed.

(** the states of the loop *)
Fixpoint state_at (h : Sgh) (st : ChangeState) (l : list (AhbLine * option pystr * option pystr)) (i : nat) {struct i} : ChangeState :=
  match i, l with
  | S j, x :: r => state_at h (fst (change_step h st x)) r j
  | _, _ => st
  end.
Lemma change_loop_nth h st l i : nth_error (change_loop h st l) i =
  match nth_error l i with Some x => Some (fst (fst x), snd (change_step h (state_at h st l i) x)) | None => None end.
Proof.
  revert st l; induction i as [|i IH]; intros st [|x r]; cbn [change_loop nth_error state_at]; try reflexivity.
  - now destruct (change_step h st x).
  - destruct (change_step h st x) as [st' c] eqn:E. cbn [nth_error fst]. apply IH.
Qed.
Lemma state_at_S h st l i x : nth_error l i = Some x -> state_at h st l (S i) = fst (change_step h (state_at h st l i) x).
Proof.
  revert st l; induction i as [|i IH]; intros st [|y r] H; cbn in H; try discriminate.
  - injection H as ->. reflexivity.
  - cbn [state_at] in *. now apply IH.
Qed.

(** ** what is reported *)
Lemma change_cases this prev ns nq los loq ready h :
  let pk := match prev with None => None | Some p => al_group p end in
  let c := determine_hierarchy_change this prev ns nq los loq ready h in
  (al_group this = pk /\ ((c = MOVE_TO_NEIGHBOUR_SAME_KEY /\ ns = los /\ nq <> loq /\ ready = true)
                          \/ (c = STAY /\ ~ (ns = los /\ nq <> loq /\ ready = true))))
  \/ (al_group this <> pk /\ key_below h (al_group this) pk /\ c = DIVE_INTO_SUB_GROUP)
  \/ (al_group this <> pk /\ ~ key_below h (al_group this) pk /\ c = LEAVE_TO_PARENT_AND_DIVE_INTO_SUB_GROUP).
Proof.
  intros pk c. unfold c, determine_hierarchy_change. fold pk. destruct (ostr_eqb_spec (al_group this) pk) as [E|E].
  - left. split; [exact E|]. destruct (ostr_eqb_spec ns los) as [E1|E1]; cbn [negb]; [|right; split; [reflexivity|tauto]].
    destruct (ostr_eqb_spec nq loq) as [E2|E2]; cbn [orb]; [right; split; [reflexivity|tauto]|].
    assert (Dead : is_none los && ostr_eqb ns (Some (u "UNH")) = false).
    { destruct los as [o|]; [reflexivity|]. subst ns. reflexivity. }
    rewrite Dead. destruct ready; [left; auto|right; split; [reflexivity|intros (_ & _ & K); discriminate]].
  - right. destruct (sg_is_hierarchically_below h (al_group this) pk) eqn:B.
    + left. apply sg_is_hierarchically_below_spec in B as [_ B]. auto.
    + right. split; [exact E|]. split; [|reflexivity]. intros K. assert (sg_is_hierarchically_below h (al_group this) pk = true); [|congruence].
      apply sg_is_hierarchically_below_spec. auto.
Qed.

Lemma previous_state h lines i : i <= List.length lines ->
  previous_key lines i (match cs_previous_line (state_at h initial (items lines) i) with None => None | Some p => al_group p end).
Proof.
  destruct i as [|i]; intros H; [left; destruct lines; auto|]. right.
  destruct (nth_error lines i) as [l|] eqn:N; [|apply nth_error_None in N; lia].
  exists i, l. split; [reflexivity|]. split; [exact N|].
  assert (Hx : nth_error (items lines) i = Some (l, first_some al_segment (skipn i lines), first_some al_entry (skipn i lines))) by (rewrite items_nth, N; reflexivity).
  rewrite (state_at_S _ _ _ _ _ Hx). reflexivity.
Qed.
Lemma change_at h lines i l c : nth_error (change_loop h initial (items lines)) i = Some (l, c) ->
  nth_error lines i = Some l /\ let st := state_at h initial (items lines) i in
  c = determine_hierarchy_change l (cs_previous_line st) (first_some al_segment (skipn i lines)) (first_some al_entry (skipn i lines))
        (cs_last_opening_segment st) (cs_last_opening_qualifier st) (if is_none (al_segment l) then true else cs_segment_code_was_none st) h.
Proof.
  intros H. rewrite change_loop_nth, items_nth in H. destruct (nth_error lines i) as [l'|] eqn:N; [|discriminate].
  injection H as <- <-. cbn [fst]. split; reflexivity.
Qed.

(** the readiness for a change: this or the previous line has no segment code, or it is the first line *)
Lemma ready_state h lines i : i <= List.length lines ->
  cs_segment_code_was_none (state_at h initial (items lines) i) = true
  <-> i = 0 \/ exists j l, i = S j /\ nth_error lines j = Some l /\ al_segment l = None.
Proof.
  destruct i as [|i]; intros H; [destruct lines; cbn; split; auto|].
  destruct (nth_error lines i) as [l|] eqn:N; [|apply nth_error_None in N; lia].
  assert (Hx : nth_error (items lines) i = Some (l, first_some al_segment (skipn i lines), first_some al_entry (skipn i lines))) by (rewrite items_nth, N; reflexivity).
  rewrite (state_at_S _ _ _ _ _ Hx). cbn [change_step fst cs_segment_code_was_none].
  destruct (al_segment l) as [s|] eqn:E; cbn [is_some is_none negb].
  - split; [discriminate|]. intros [K|(j & l' & [= <-] & N' & E')]; [discriminate|congruence].
  - split; [intros _; right; eauto|reflexivity].
Qed.
Lemma opening_state h lines i : i <= List.length lines ->
  last_opening lines (change_loop h initial (items lines)) i
    (cs_last_opening_segment (state_at h initial (items lines) i)) (cs_last_opening_qualifier (state_at h initial (items lines) i)).
Proof.
  induction i as [|i IH]; intros H.
  - right. split; [intros k l' c' K; lia|]. destruct lines; split; reflexivity.
  - destruct (nth_error lines i) as [l|] eqn:N; [|apply nth_error_None in N; lia].
    assert (Hx : nth_error (items lines) i = Some (l, first_some al_segment (skipn i lines), first_some al_entry (skipn i lines))) by (rewrite items_nth, N; reflexivity).
    pose proof (change_loop_nth h initial (items lines) i) as C. rewrite Hx in C. cbn [fst] in C.
    rewrite (state_at_S _ _ _ _ _ Hx). set (st := state_at h initial (items lines) i) in *.
    cbn [change_step] in *. cbn [snd fst] in *. set (c := determine_hierarchy_change _ _ _ _ _ _ _ _) in *.
    cbn [cs_last_opening_segment cs_last_opening_qualifier].
    assert (D : c = STAY \/ c <> STAY) by (destruct c; (now left) || (right; discriminate)).
    destruct D as [D|D].
    + rewrite D. cbn [is_segment_group_change]. destruct IH as [(j & l0 & c0 & Hj & Hc & Hn & Hs & Hx1 & Hx2)|(Hs & E1 & E2)]; [lia| |].
      * left. exists j, l0, c0. repeat split; try assumption; [lia|]. intros k l' c' Hk Hc'.
        destruct (Nat.eq_dec k i) as [-> |]; [congruence|]. apply (Hs k l'); [lia|exact Hc'].
      * right. repeat split; try assumption. intros k l' c' Hk Hc'. destruct (Nat.eq_dec k i) as [-> |]; [congruence|]. apply (Hs k l'); [lia|exact Hc'].
    + assert (G : is_segment_group_change c = true) by (destruct c; congruence || reflexivity). rewrite G.
      left. exists i, l, c. repeat split; [lia|exact C|exact D| | |]; [intros k l' c' Hk; lia| |]; apply first_some_next.
Qed.

(** ** determine_locations as one loop *)
Fixpoint annotate (h : Sgh) (st : ChangeState) (l : list (AhbLine * option pystr * option pystr))
  : list ((AhbLine * Change) * option pystr * option pystr) :=
  match l with
  | [] => []
  | x :: r => let (st', c) := change_step h st x in ((fst (fst x), c), snd (fst x), snd x) :: annotate h st' r
  end.
Lemma annotate_combine h st lines :
  combine (combine (change_loop h st (items lines)) (ahead al_segment lines)) (ahead al_entry lines) = annotate h st (items lines).
Proof.
  revert st; induction lines as [|l r IH]; intros st; cbn [items change_loop ahead combine annotate]; [reflexivity|].
  destruct (change_step h st (l, first_some al_segment (l :: r), first_some al_entry (l :: r))) as [st' c]. cbn [combine fst snd]. now rewrite IH.
Qed.
Lemma determine_locations_eq h lines : determine_locations h lines =
  (let* starting_layer := new_Layer (sgh_key h) (Some (sgh_opening h)) None in
   let* st := foldM (location_step h) ([starting_layer], []) (annotate h initial (items lines)) in Ok (snd st)).
Proof.
  unfold determine_locations. destruct (new_Layer (sgh_key h) (Some (sgh_opening h)) None); cbn [bind]; [|reflexivity].
  rewrite determine_hierarchy_changes_eq. cbn [bind]. destruct (next_segments lines) as (r & -> & Mr), (next_entries lines) as (s & -> & Ms).
  cbn [bind]. now rewrite Mr, Ms, annotate_combine.
Qed.
Lemma annotate_nth h st l i : nth_error (annotate h st l) i =
  match nth_error l i with Some x => Some ((fst (fst x), snd (change_step h (state_at h st l i) x)), snd (fst x), snd x) | None => None end.
Proof.
  revert st l; induction i as [|i IH]; intros st [|x r]; cbn [annotate nth_error state_at]; try reflexivity.
  - now destruct (change_step h st x).
  - destruct (change_step h st x) as [st' c] eqn:E. cbn [nth_error fst]. apply IH.
Qed.

(** ** one iteration *)
(** the layers after an iteration, given those before *)
Definition new_layers_of (c : Change) (old : list Layer) (n : Layer) (new : list Layer) : Prop :=
  match c with
  | STAY => new = old
  | MOVE_TO_NEIGHBOUR_SAME_KEY => exists p o, old = p ++ [o] /\ new = p ++ [n]
  | DIVE_INTO_SUB_GROUP => new = old ++ [n]
  | LEAVE_TO_PARENT_AND_DIVE_INTO_SUB_GROUP => exists p, is_prefix p old /\ new = p ++ [n]
  | _ => False
  end.
Lemma pop_last_ok {A} (l l' : list A) : pop_last l = Ok l' <-> exists x, l = l' ++ [x].
Proof.
  unfold pop_last. split.
  - destruct l as [|a l]; [discriminate|]. intros [= <-]. exists (List.last (a :: l) a). apply app_removelast_last. discriminate.
  - intros (x & ->). destruct (l' ++ [x]) as [|a r] eqn:E; [destruct l'; discriminate|]. rewrite <- E. now rewrite removelast_app1.
Qed.
Lemma leave_layers_prefix n key : forall layers layers', leave_layers n key layers = Ok layers' -> is_prefix layers' layers.
Proof.
  induction n as [|n IH]; intros layers layers' H; cbn [leave_layers] in H.
  - injection H as <-. apply is_prefix_refl.
  - apply bind_ok in H as (l1 & H1 & H). apply bind_ok in H as (x & Hx & H). apply bind_ok in H as (l2 & H2 & H).
    apply pop_last_ok in H1 as (y & ->). apply IH in H. eapply is_prefix_trans; [exact H|].
    destruct (ostr_eqb (ly_key x) key).
    + apply pop_last_ok in H2 as (z & ->). exists [z; y]. now rewrite <- app_assoc.
    + injection H2 as <-. exists [y]. reflexivity.
Qed.
Lemma new_Layer_any key o q l : new_Layer key o q = Ok l -> exists o', o = Some o' /\ l = mkLayer key o' q /\ valid_layer key o' q.
Proof.
  destruct o as [o|].
  - intros H. apply new_Layer_ok in H as [-> V]. eauto.
  - intros H. unfold new_Layer in H. apply bind_ok in H as (a & _ & H). discriminate.
Qed.

(** layers before the branch is taken *)
Definition base_layers (h : Sgh) (layers : list Layer) (res : list (AhbLine * Location)) (nq : option pystr) (base : list Layer) : Prop :=
  match res with
  | [] => base = layers /\ (exists p l, layers = p ++ [l] /\ ly_qualifier l <> None)
          \/ exists p l, layers = p ++ [l] /\ ly_qualifier l = None /\ base = p ++ [mkLayer (sgh_key h) (sgh_opening h) nq]
             /\ valid_layer (sgh_key h) (sgh_opening h) nq
  | _ :: _ => base = layers
  end.
Lemma first_line_update_ok h layers res nq base : first_line_update h layers res nq = Ok base -> base_layers h layers res nq base.
Proof.
  unfold first_line_update, base_layers. intros H. apply bind_ok in H as (l & Hl & H). apply last_of_ok in Hl as (p & ->).
  destruct res as [|x res]; cbn [List.length Nat.eqb] in H; [|rewrite andb_false_r in H; congruence].
  rewrite andb_true_r in H. destruct (ly_qualifier l) as [q|] eqn:Q; cbn [is_none] in H.
  - injection H as <-. left. split; [reflexivity|]. exists p, l. split; [reflexivity|congruence].
  - apply bind_ok in H as (n & Hn & H). injection H as <-. apply new_Layer_ok in Hn as [-> V]. right.
    exists p, l. rewrite removelast_app1. auto.
Qed.

Lemma location_step_ok h layers res line c ns nq st' :
  location_step h (layers, res) ((line, c), ns, nq) = Ok st' ->
  c <> MOVE_TO_NEIGHBOUR_DIFFERENT_KEY ->
  exists base new loc, base_layers h layers res nq base
    /\ st' = (new, res ++ [(line, loc)]) /\ loc = mkLocation false new ns (al_element line) (al_entry line)
    /\ valid_location_fields new ns (al_element line)
    /\ (c = STAY \/ exists o, ns = Some o /\ valid_layer (al_group line) o nq)
    /\ (c = STAY -> new = base)
    /\ (forall o, ns = Some o -> new_layers_of c base (mkLayer (al_group line) o nq) new)
    /\ (c = LEAVE_TO_PARENT_AND_DIVE_INTO_SUB_GROUP -> exists r0 last_result, res = r0 ++ [last_result]).
Proof.
  intros H Hc. cbn [location_step] in H. apply bind_ok in H as (base & HB & H). apply first_line_update_ok in HB.
  assert (EM : forall new, (let* loc := new_Location false new ns (al_element line) (al_entry line) in Ok (new, res ++ [(line, loc)])) = Ok st' ->
     st' = (new, res ++ [(line, mkLocation false new ns (al_element line) (al_entry line))]) /\ valid_location_fields new ns (al_element line)).
  { intros new K. apply bind_ok in K as (loc & Kl & K). apply new_Location_ok in Kl as [-> V]. injection K as <-. auto. }
  destruct c; cbn [new_layers_of].
  - apply EM in H as [-> V]. exists base, base. eexists. split; [exact HB|]. split; [reflexivity|]. split; [reflexivity|]. split; [exact V|].
    split; [now left|]. split; [reflexivity|]. split; [reflexivity|discriminate].
  - apply bind_ok in H as (l1 & H1 & H). apply pop_last_ok in H1 as (o & ->). apply bind_ok in H as (n & Hn & H).
    apply new_Layer_any in Hn as (o' & -> & -> & VL). apply EM in H as [-> V].
    eexists. eexists. eexists. split; [exact HB|]. split; [reflexivity|]. split; [reflexivity|]. split; [exact V|].
    split; [right; eauto|]. split; [discriminate|]. split; [|discriminate]. intros x [= <-]. exists l1, o. auto.
  - congruence.
  - apply bind_ok in H as (n & Hn & H). apply new_Layer_any in Hn as (o' & -> & -> & VL). apply EM in H as [-> V].
    eexists. eexists. eexists. split; [exact HB|]. split; [reflexivity|]. split; [reflexivity|]. split; [exact V|].
    split; [right; eauto|]. split; [discriminate|]. split; [|discriminate]. intros x [= <-]. reflexivity.
  - discriminate.
  - apply bind_ok in H as (lr & Hlr & H). apply last_of_ok in Hlr as (r0 & Hr0). apply bind_ok in H as (ll & _ & H). apply bind_ok in H as (ca & _ & H).
    apply bind_ok in H as (d & _ & H). apply bind_ok in H as (l1 & H1 & H). apply leave_layers_prefix in H1.
    apply bind_ok in H as (n & Hn & H). apply new_Layer_any in Hn as (o' & -> & -> & VL). apply EM in H as [-> V].
    eexists. eexists. eexists. split; [exact HB|]. split; [reflexivity|]. split; [reflexivity|]. split; [exact V|].
    split; [right; eauto|]. split; [discriminate|]. split; [|eauto]. intros x [= <-]. exists l1. auto.
Qed.

(** the changes that occur *)
Lemma snd_step_cases h st x : let c := snd (change_step h st x) in c <> MOVE_TO_NEIGHBOUR_DIFFERENT_KEY /\ c <> LEAVE_TO_PARENT.
Proof.
  destruct x as [[l ns] nq]. cbn [change_step snd].
  destruct (change_cases l (cs_previous_line st) ns nq (cs_last_opening_segment st) (cs_last_opening_qualifier st)
     (if is_none (al_segment l) then true else cs_segment_code_was_none st) h) as [[_ [[-> _]|[-> _]]]|[(_ & _ & ->)|(_ & _ & ->)]]; split; discriminate.
Qed.
Lemma annotate_change h st l x : In x (annotate h st l) -> snd (fst (fst x)) <> MOVE_TO_NEIGHBOUR_DIFFERENT_KEY /\ snd (fst (fst x)) <> LEAVE_TO_PARENT.
Proof.
  revert st; induction l as [|y r IH]; intros st H; cbn [annotate] in H; [destruct H|].
  pose proof (snd_step_cases h st y) as C. destruct (change_step h st y) as [st' c]. destruct H as [<-|H]; [exact C|eapply IH; exact H].
Qed.

(** ** the whole loop, position by position *)
Definition steps_to (h : Sgh) (x : (AhbLine * Change) * option pystr * option pystr) (res : list (AhbLine * Location)) (layers : list Layer) (y : AhbLine * Location) : Prop :=
  exists base, base_layers h layers res (snd x) base
    /\ fst y = fst (fst (fst x))
    /\ snd y = mkLocation false (lo_layers (snd y)) (snd (fst x)) (al_element (fst y)) (al_entry (fst y))
    /\ valid_location_fields (lo_layers (snd y)) (snd (fst x)) (al_element (fst y))
    /\ (snd (fst (fst x)) = STAY \/ exists o, snd (fst x) = Some o /\ valid_layer (al_group (fst y)) o (snd x))
    /\ (snd (fst (fst x)) = STAY -> lo_layers (snd y) = base)
    /\ (forall o, snd (fst x) = Some o -> new_layers_of (snd (fst (fst x))) base (mkLayer (al_group (fst y)) o (snd x)) (lo_layers (snd y)))
    /\ (snd (fst (fst x)) = LEAVE_TO_PARENT_AND_DIVE_INTO_SUB_GROUP -> res <> []).
Lemma location_loop h xs : (forall x, In x xs -> snd (fst (fst x)) <> MOVE_TO_NEIGHBOUR_DIFFERENT_KEY) ->
  forall layers0 layers' res', foldM (location_step h) (layers0, []) xs = Ok (layers', res') ->
  List.length res' = List.length xs
  /\ layers' = match rev res' with [] => layers0 | y :: _ => lo_layers (snd y) end
  /\ forall i x, nth_error xs i = Some x -> exists y, nth_error res' i = Some y
       /\ steps_to h x (firstn i res') (match i with O => layers0 | S j => match nth_error res' j with Some z => lo_layers (snd z) | None => [] end end) y.
Proof.
  induction xs as [|x xs IH] using rev_ind; intros HC layers0 layers' res' H.
  - injection H as <- <-. repeat split. intros [|i] x K; discriminate.
  - rewrite foldM_app in H. apply bind_ok in H as ([layers res] & H1 & H). cbn [foldM] in H. apply bind_ok in H as (st & H & K). injection K as ->.
    destruct (IH (fun y Hy => HC y (in_or_app _ _ _ (or_introl Hy))) _ _ _ H1) as (L & LL & P). clear IH.
    destruct x as [[[line c] ns] nq].
    assert (Hc : c <> MOVE_TO_NEIGHBOUR_DIFFERENT_KEY) by (apply (HC (line, c, ns, nq)), in_or_app; right; now left).
    apply location_step_ok in H as (base & new & loc & HB & E & -> & V & HV & HS & HN & HR); [|exact Hc]. injection E as -> ->.
    rewrite !app_length. cbn [List.length]. split; [congruence|]. split; [rewrite rev_app_distr; reflexivity|].
    intros i x Hx. destruct (Nat.lt_ge_cases i (List.length xs)) as [Hi|Hi].
    + rewrite nth_error_app1 in Hx by exact Hi. destruct (P i x Hx) as (y & Hy & SY). exists y. split; [rewrite nth_error_app1 by lia; exact Hy|].
      rewrite firstn_app. replace (i - List.length res) with 0 by lia. cbn [firstn]. rewrite app_nil_r.
      destruct i as [|i]; [exact SY|]. rewrite nth_error_app1 by lia. exact SY.
    + assert (i = List.length xs) as -> by (assert (i < List.length (xs ++ [(line, c, ns, nq)])) by (apply nth_error_Some; congruence); rewrite app_length in *; cbn in *; lia).
      rewrite nth_error_app2, Nat.sub_diag in Hx by lia. injection Hx as <-. rewrite <- L.
      eexists. split; [rewrite nth_error_app2, Nat.sub_diag by lia; reflexivity|]. rewrite firstn_app, Nat.sub_diag, firstn_all. cbn [firstn]. rewrite app_nil_r.
      assert (EL : match List.length res with 0 => layers0 | S j => match nth_error (res ++ [(line, mkLocation false new ns (al_element line) (al_entry line))]) j with Some z => lo_layers (snd z) | None => [] end end = layers).
      { rewrite LL. destruct res as [|y0 r0] eqn:Er; [reflexivity|]. rewrite <- Er in *. assert (Hne : res <> []) by (rewrite Er; discriminate).
        destruct (@exists_last _ res Hne) as (r1 & z & Ez). rewrite Ez, rev_app_distr. cbn [rev app].
        rewrite app_length. cbn [List.length]. rewrite Nat.add_1_r. rewrite <- app_assoc, nth_error_app2, Nat.sub_diag by lia. reflexivity. }
      rewrite EL. exists base. cbn [fst snd lo_layers]. repeat (split; [assumption || reflexivity|]). intros E. destruct (HR E) as (r0 & z & ->). destruct r0; discriminate.
Qed.
