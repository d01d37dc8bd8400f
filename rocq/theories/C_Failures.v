(** Property C90: which exceptions determine_locations and to_deep_ahb raise, and at which line. *)
From Coq Require Import Ascii String List NArith ZArith Bool Arith Lia.
From Verif Require Import PyBase PyStr PyRe M_Components M_Ahb M_Sgh M_Navigation M_Matching
  S_Prefix S_Text S_Sgh S_Navigation L_Base L_Prefix L_Validators L_Sgh L_Navigation L_Locations L_Failures
  C_Sgh C_FlatAhb C_Navigation C_Matching.
Import ListNotations.
Local Open Scope list_scope.

(** ** disciplined lines *)

(** what is required of line [i] (see acceptable_lines in C_Navigation.v) *)
Definition acceptable_line (lines : list AhbLine) (changes : list (AhbLine * Change)) (i : nat) : Prop :=
  forall line c ns nq, nth_error changes i = Some (line, c) -> next_at al_segment lines i ns -> next_at al_entry lines i nq ->
    acceptable_segment ns /\ acceptable_element (al_element line)
    /\ (i = 0 -> acceptable_qualifier nq)
    /\ (c <> STAY -> ns <> None /\ acceptable_qualifier nq).

(** a group is entered at line [i], but there is no segment any more; in the first line the
    qualifier is looked at before *)
Definition enters_without_segment (lines : list AhbLine) (changes : list (AhbLine * Change)) (i : nat) : Prop :=
  (exists line c, nth_error changes i = Some (line, c) /\ c <> STAY) /\ next_at al_segment lines i None
  /\ (i = 0 -> forall nq, next_at al_entry lines i nq -> acceptable_qualifier nq).

Theorem C90_first_bad_line (h : Sgh) (lines : list AhbLine) changes e :
  distinct_keys h -> well_named h -> sgh_key h = None -> disciplined h None lines ->
  determine_hierarchy_changes lines h = Ok changes ->
  (determine_locations h lines = Raise e <->
   exists i, i < List.length lines /\ ~ acceptable_line lines changes i /\ (forall j, j < i -> acceptable_line lines changes j)
     /\ (e = TypeError /\ enters_without_segment lines changes i \/ e = ValueError /\ ~ enters_without_segment lines changes i)).
Proof.
  intros D W R HD HC.
  assert (HC' : changes = change_loop h initial (items lines)) by (rewrite determine_hierarchy_changes_eq in HC; now injection HC as <-).
  assert (Fw : forall e, determine_locations h lines = Raise e ->
    exists i, i < List.length lines /\ ~ acceptable_line lines changes i /\ (forall j, j < i -> acceptable_line lines changes j)
     /\ (e = TypeError /\ enters_without_segment lines changes i \/ e = ValueError /\ ~ enters_without_segment lines changes i)).
  { clear e. intros e H. rewrite determine_locations_eq, (well_named_layer h W) in H. cbn [bind] in H.
    apply bind_raise in H as [H|(st & _ & H)]; [|discriminate].
    destruct (failure_loop h D W R lines e initial [plain_layer h] []) as (i & x & Hx & F & NA & BA); [|reflexivity|exact HD|exact H|].
    { exists [], h. repeat split; auto. }
    assert (Item : forall j y, nth_error (annotate h initial (items lines)) j = Some y -> exists l, nth_error lines j = Some l /\ y = item_at h lines j l).
    { intros j y Hy. rewrite annotate_nth, items_nth in Hy. destruct (nth_error lines j) as [l|]; [|discriminate]. injection Hy as <-. eauto. }
    assert (Acc : forall j l, nth_error lines j = Some l -> acceptable_line lines changes j <->
              acceptable (match j with O => true | S _ => false end) l (snd (fst (fst (item_at h lines j l)))) (snd (fst (item_at h lines j l))) (snd (item_at h lines j l))).
    { intros j l Hl. pose proof (item_change h lines j l Hl) as HI. rewrite <- HC' in HI.
      assert (Hs : next_at al_segment lines j (snd (fst (item_at h lines j l)))) by apply first_some_next.
      assert (Hq : next_at al_entry lines j (snd (item_at h lines j l))) by apply first_some_next.
      unfold acceptable_line, acceptable. split.
      - intros A. destruct (A _ _ _ _ HI Hs Hq) as (A1 & A2 & A3 & A4). split; [exact A1|]. split; [exact A2|]. split; [|exact A4]. intros Hj. apply A3. destruct j; [reflexivity|discriminate].
      - intros (A1 & A2 & A3 & A4) line c ns nq Hc Hns Hnq. rewrite HI in Hc. injection Hc as <- <-.
        rewrite (next_at_unique _ _ _ _ _ Hns Hs), (next_at_unique _ _ _ _ _ Hnq Hq).
        split; [exact A1|]. split; [exact A2|]. split; [|exact A4]. intros ->. now apply A3. }
    destruct (Item i x Hx) as (l & Hl & ->).
    exists i. split; [apply nth_error_Some; congruence|]. split; [|split].
    - intros A. apply NA. apply (Acc i l Hl) in A. cbn [item_at fst snd] in *. destruct i; exact A.
    - intros j Hj. assert (exists l', nth_error lines j = Some l') as (l' & Hl').
      { destruct (nth_error lines j) eqn:E; [eauto|]. apply nth_error_None in E. assert (i < List.length lines) by (apply nth_error_Some; congruence). lia. }
      apply (Acc j l' Hl').
      assert (Hy : nth_error (annotate h initial (items lines)) j = Some (item_at h lines j l')) by (rewrite annotate_nth, items_nth, Hl'; reflexivity).
      specialize (BA j _ Hj Hy). cbn [item_at fst snd] in *. destruct j; exact BA.
    - pose proof (item_change h lines i l Hl) as HI. rewrite <- HC' in HI.
      assert (Hs : next_at al_segment lines i (snd (fst (item_at h lines i l)))) by apply first_some_next.
      assert (Hq : next_at al_entry lines i (snd (item_at h lines i l))) by apply first_some_next.
      assert (EQ : enters_without_segment lines changes i <->
                no_segment_to_open_with (match i with O => true | S _ => false end) (snd (fst (fst (item_at h lines i l)))) (snd (fst (item_at h lines i l))) (snd (item_at h lines i l))).
      { unfold enters_without_segment, no_segment_to_open_with. split.
        - intros ((line & c & Hc & Nc) & Hn & A). rewrite HI in Hc. injection Hc as <- <-. split; [|split; [exact Nc|exact (next_at_unique _ _ _ _ _ Hs Hn)]].
          intros Hi. apply A; [destruct i; [reflexivity|discriminate]|exact Hq].
        - intros (A & Nc & Hn). split; [eauto|]. split; [rewrite <- Hn; exact Hs|]. intros -> nq Hnq. rewrite (next_at_unique _ _ _ _ _ Hnq Hq). now apply A. }
      rewrite EQ. unfold failure in F. destruct i; exact F. }
  split; [apply Fw|]. intros (i & Hi & NA & BA & F).
  destruct (determine_locations h lines) as [r|e'] eqn:E.
  - exfalso. apply NA. assert (A : acceptable_lines lines changes) by (apply (C17_returns_iff_acceptable h lines changes D W R HD HC); eauto).
    intros line c ns nq Hc. exact (A i line c ns nq Hc).
  - destruct (Fw e' eq_refl) as (i' & Hi' & NA' & BA' & F').
    assert (i' = i) as ->.
    { destruct (Nat.lt_trichotomy i i') as [L|[L|L]]; [elim (NA (BA' i L))|symmetry; exact L|elim (NA' (BA i' L))]. }
    f_equal. destruct F as [[-> F]|[-> F]], F' as [[-> F']|[-> F']]; tauto.
Qed.
Print Assumptions C90_first_bad_line.

(** both exceptions occur: a group is entered and no segment follows; a data element that has no
    four digits *)
Definition ex_bad_end : list AhbLine :=
  [ ex_line None (Some "UNH") None None None (Some "Muss") None;
    ex_line (Some "SG2") None None None None (Some "Muss") None ]%string.
Definition ex_bad_element : list AhbLine :=
  [ ex_line None (Some "UNH") None None None (Some "Muss") None;
    ex_line (Some "SG2") (Some "NAD") (Some "303") (Some "MS") None (Some "X") None ]%string.
Example C90_first_bad_line_instance :
  disciplined ex_sgh None ex_bad_end /\ disciplined ex_sgh None ex_bad_element
  /\ determine_locations ex_sgh ex_bad_end = Raise TypeError /\ determine_locations ex_sgh ex_bad_element = Raise ValueError.
Proof.
  assert (M : may_follow ex_sgh None None) by (exists []; eexists; exists []; eexists; repeat split; try reflexivity; now left).
  assert (M2 : may_follow ex_sgh None (Some (u "SG2"))).
  { exists []. eexists. exists [0]. eexists. repeat split; try reflexivity. right. exists [], 0. split; [reflexivity|apply is_prefix_nil]. }
  repeat split; try exact M; try exact M2; vm_compute; reflexivity.
Qed.

(** ** any lines *)
Theorem C90_location_exceptions (h : Sgh) (lines : list AhbLine) e :
  determine_locations h lines = Raise e -> In e [ValueError; TypeError; AttributeError; IndexError].
Proof. intros H. apply error_locations in H. unfold location_error in H. cbn. intuition congruence. Qed.
Print Assumptions C90_location_exceptions.
(** each of them occurs; IndexError needs a group without a key inside of the hierarchy *)
Definition ex_line_of (group : option string) : AhbLine := ex_line group (Some "NAD"%string) None None None None None.
Example C90_location_exceptions_instance :
  determine_locations ex_sgh ex_bad_element = Raise ValueError
  /\ determine_locations ex_sgh ex_bad_end = Raise TypeError
  /\ determine_locations ex_sgh (map ex_line_of [None; Some "SG2"; Some "SG7"]%string) = Raise AttributeError
  /\ determine_locations (mkSgh None (u "UNH") (Some [mkSgh (Some (u "SG2")) (u "NAD") (Some [mkSgh None (u "CTA") (Some [mkSgh (Some (u "SG3")) (u "COM") None])])]))
       (map ex_line_of [None; Some "SG2"; None; Some "SG3"; None]%string) = Raise IndexError.
Proof. repeat split; vm_compute; reflexivity. Qed.

(** ** to_deep_ahb *)
Definition conversion_error (reader : Location -> result EdifactStack) (e : exn) : Prop :=
  In e [ValueError; TypeError; AttributeError; AssertionError; UnboundLocalError] \/ (e <> ValueError /\ exists l, reader l = Raise e).

Lemma error_blank v e : check_not_blank v = Raise e -> e = ValueError.
Proof. destruct v as [s|]; cbn; [|congruence]. destruct (negb (truthy s)); [congruence|]. destruct (Nat.eqb _ _); congruence. Qed.
Lemma error_str v e : check_is_str v = Raise e -> e = TypeError.
Proof. destruct v; cbn; congruence. Qed.
Lemma error_check b x e : check b x = Raise e -> e = x.
Proof. destruct b; cbn; congruence. Qed.
Lemma error_optional {A} (v : A -> result unit) o e : check_optional v o = Raise e -> exists a, v a = Raise e.
Proof. destruct o as [a|]; cbn; [eauto|discriminate]. Qed.
Lemma error_element d i e : check_data_element d i = Raise e -> e = ValueError \/ e = TypeError.
Proof.
  unfold check_data_element. intros H. apply bind_raise in H as [H|(? & _ & H)]; [apply error_optional in H as (a & H); apply error_blank in H; auto|].
  apply bind_raise in H as [H|(? & _ & H)]; [apply error_str in H; auto|]. apply bind_raise in H as [H|(? & _ & H)]; [apply error_check in H; auto|discriminate].
Qed.
Lemma error_entry q m x e : new_ValuePoolEntry q m x = Raise e -> e = ValueError \/ e = TypeError.
Proof.
  unfold new_ValuePoolEntry. intros H. apply bind_raise in H as [H|(? & _ & H)].
  { unfold check_is_edifact_qualifier in H. destruct q as [q|]; cbn in H; repeat match type of H with context [if ?b then _ else _] => destruct b end; try discriminate; injection H as <-; auto. }
  apply bind_raise in H as [H|(? & _ & H)]; [apply error_str in H; auto|]. apply bind_raise in H as [H|(? & _ & H)]; [apply error_str in H; auto|].
  apply bind_raise in H as [H|(? & _ & H)]; [apply error_blank in H; auto|]. apply bind_raise in H as [H|(? & _ & H)]; [apply error_str in H; auto|discriminate].
Qed.
Lemma error_entries lines e : value_pool_entries lines = Raise e -> In e [ValueError; TypeError; AttributeError].
Proof.
  induction lines as [|l r IH]; cbn [value_pool_entries]; [discriminate|]. destruct (negb _); [exact IH|]. destruct (al_name l) as [n|]; [|intros [= <-]; cbn; tauto].
  intros H. apply bind_raise in H as [H|(? & _ & H)]; [apply error_entry in H; cbn; intuition congruence|]. apply bind_raise in H as [H|(? & _ & H)]; [auto|discriminate].
Qed.
Lemma error_merge lines stack e : merge_lines_with_same_data_element lines stack = Raise e -> In e [ValueError; TypeError; AttributeError].
Proof.
  unfold merge_lines_with_same_data_element. intros H. apply bind_raise in H as [H|(? & C & H)]; [apply error_check in H; cbn; intuition congruence|].
  destruct lines as [|l r]; [discriminate C|]. cbv zeta in H. destruct (is_some (al_entry l)).
  - apply bind_raise in H as [H|(? & _ & H)].
    + unfold new_ValuePool in H. apply bind_raise in H as [H|(? & _ & H)]; [apply error_element in H; cbn; intuition congruence|discriminate].
    + apply bind_raise in H as [H|(? & _ & H)]; [exact (error_entries _ _ H)|discriminate].
  - apply bind_raise in H as [H|(? & _ & H)]; [|destruct (derive_data_type_from_segment_code _); discriminate].
    unfold new_FreeText in H. apply bind_raise in H as [H|(? & _ & H)]; [apply error_element in H; cbn; intuition congruence|].
    apply bind_raise in H as [H|(? & _ & H)]; [apply error_str in H; cbn; intuition congruence|].
    apply bind_raise in H as [H|(? & _ & H)]; [apply error_blank in H; cbn; intuition congruence|discriminate].
Qed.

Section Deep.
  Variable reader : Location -> result EdifactStack.
  Variable str_of_location : Location -> pystr.
  Let bad := conversion_error reader.

  Lemma bad_value : bad ValueError. Proof. left. cbn; tauto. Qed.
  Lemma bad_type : bad TypeError. Proof. left. cbn; tauto. Qed.
  Lemma bad_attribute : bad AttributeError. Proof. left. cbn; tauto. Qed.
  Lemma bad_unbound : bad UnboundLocalError. Proof. left. cbn; tauto. Qed.
  Lemma bad_assertion : bad AssertionError. Proof. left. cbn; tauto. Qed.

  Lemma error_retry n p e : retry_stack reader n p = Raise e -> bad e.
  Proof.
    induction n as [|n IH]; cbn [retry_stack]; [discriminate|]. destruct (reader p) as [s|e'] eqn:E; [discriminate|].
    destruct e'; intros H; try (injection H as <-; right; split; [discriminate|eauto]); auto.
  Qed.
  Lemma error_lookup p g e : lookup_stack reader p g = Raise e -> bad e.
  Proof.
    unfold lookup_stack. destruct (reader p) as [s|e'] eqn:E; [discriminate|].
    destruct e'; intros H; try (injection H as <-; right; split; [discriminate|eauto]).
    destruct (Nat.ltb _ _); [|discriminate]. destruct g as [|[l q] g]; [discriminate|]. exact (error_retry _ _ _ H).
  Qed.
  Lemma error_up n : forall r ps e, go_up n r ps = Raise e -> e = ValueError.
  Proof. induction n as [|n IH]; intros r [|p ps] e; cbn [go_up]; try discriminate; [congruence|apply IH]. Qed.
  Lemma error_down n heap : forall r ps e, go_down n heap r ps = Raise e -> e = ValueError \/ e = UnboundLocalError.
  Proof.
    induction n as [|n IH]; intros [r|] ps e; cbn [go_down]; try discriminate; [|intros [= <-]; auto].
    intros H. apply bind_raise in H as [H|(g & _ & H)]; [apply last_of_raise in H as [_ ->]; auto|exact (IH _ _ _ H)].
  Qed.
  Lemma error_open st p path l e : open_group st p path l = Raise e -> bad e.
  Proof.
    unfold open_group. intros H. apply bind_raise in H as [H|(g & _ & H)].
    { unfold new_SegmentGroup in H. apply bind_raise in H as [H|(? & _ & H)]; [apply error_str in H as ->; exact bad_type|].
      apply bind_raise in H as [H|(? & _ & H)]; [apply error_blank in H as ->; exact bad_value|discriminate]. }
    cbv zeta in H. destruct (str_eqb _ _); [discriminate|]. destruct (ds_previous st) as [pp|]; [|injection H as <-; exact bad_unbound].
    destruct (is_sub_location_of p pp).
    - destruct (ds_sg_here st); [discriminate|injection H as <-; exact bad_unbound].
    - apply bind_raise in H as [H|(d & _ & H)].
      { assert (e = ValueError) as ->; [|exact bad_value]. unfold calculate_distance in H. apply bind_raise in H as [H|(? & _ & H)]; [now apply new_Location_raise in H|].
        unfold nonneg_difference in H. apply bind_raise in H as [H|(? & _ & H)]; [destruct (Nat.ltb _ _); congruence|].
        apply bind_raise in H as [H|(? & _ & H)]; [destruct (Nat.ltb _ _); congruence|discriminate]. }
      apply bind_raise in H as [H|([sg ps] & _ & H)]; [apply error_up in H as ->; exact bad_value|].
      apply bind_raise in H as [H|([sg' ps'] & _ & H)]; [apply error_down in H as [-> | ->]; [exact bad_value|exact bad_unbound]|].
      destruct sg'; [discriminate|injection H as <-; exact bad_unbound].
  Qed.
  Lemma error_add st p stack ls f l e : add_segment str_of_location st p stack ls f l = Raise e -> bad e.
  Proof.
    unfold add_segment. intros H. apply bind_raise in H as [H|(? & _ & H)]; [apply error_check in H as ->; exact bad_assertion|].
    apply bind_raise in H as [H|(? & _ & H)]; [apply error_check in H as ->; exact bad_assertion|].
    destruct (find _ _) as [y|]; [|discriminate]. cbv zeta in H. apply bind_raise in H as [H|(? & _ & H)].
    - unfold new_Segment in H. apply bind_raise in H as [H|(? & _ & H)]; [apply error_str in H as ->; exact bad_type|].
      apply bind_raise in H as [H|(? & _ & H)]; [apply error_blank in H as ->; exact bad_value|].
      apply bind_raise in H as [H|(? & _ & H)]; [apply error_optional in H as (? & H); apply error_check in H as ->; exact bad_value|discriminate].
    - destruct (ds_segments_here st); [discriminate|injection H as <-; exact bad_unbound].
  Qed.
  Lemma error_deep_step st x e : deep_step reader str_of_location st x = Raise e -> bad e.
  Proof.
    destruct x as [key g]. unfold deep_step. destruct (negb _); [discriminate|]. cbv zeta. intros H.
    apply bind_raise in H as [H|(stack & _ & H)]; [exact (error_lookup _ _ _ H)|].
    destruct (existsb _ _).
    - destruct (negb _); [discriminate|]. apply bind_raise in H as [H|(d & _ & H)].
      + apply error_merge in H. left. cbn in *. intuition congruence.
      + destruct (ds_elements_here st); [discriminate|injection H as <-; exact bad_value].
    - apply bind_raise in H as [H|(f & _ & H)]; [destruct (map fst g); [injection H as <-; exact bad_value|discriminate]|].
      apply bind_raise in H as [H|(l & _ & H)]; [apply last_of_raise in H as [_ ->]; exact bad_value|].
      apply bind_raise in H as [H|(o & _ & H)].
      { unfold opens_group in H. apply bind_raise in H as [H|(? & _ & H)]; [apply last_of_raise in H as [_ ->]; exact bad_value|discriminate]. }
      apply bind_raise in H as [H|(st' & _ & H)]; [|exact (error_add _ _ _ _ _ _ _ H)].
      destruct o; [|discriminate]. destruct stack as [s|]; [exact (error_open _ _ _ _ _ H)|discriminate].
  Qed.
End Deep.

Theorem C90_conversion_exceptions reader str_of_location flat h e flat' :
  to_deep_ahb reader str_of_location flat h = (Raise e, flat') ->
  In e [ValueError; TypeError; AttributeError; IndexError; AssertionError; UnboundLocalError] \/ (e <> ValueError /\ exists l, reader l = Raise e).
Proof.
  unfold to_deep_ahb. intros [= H _]. apply bind_raise in H as [H|(located & _ & H)]; [apply C90_location_exceptions in H; left; cbn in *; intuition congruence|].
  apply bind_raise in H as [H|(st & _ & H)]; [|discriminate].
  assert (K : conversion_error reader e); [|unfold conversion_error in K; cbn in *; intuition congruence].
  revert H. generalize initial_deep_state. generalize (groupby (fun x => remove_qualifier (snd x)) located). intros xs.
  induction xs as [|x xs IH]; intros st H; cbn [foldM] in H; [discriminate|].
  apply bind_raise in H as [H|(st' & _ & H)]; [exact (error_deep_step _ _ _ _ _ H)|exact (IH _ H)].
Qed.
Print Assumptions C90_conversion_exceptions.
(** an exception after the locations have been determined is never an IndexError of the converter *)
Theorem C90_no_index_error reader str_of_location flat h located e flat' :
  determine_locations h (fa_lines flat) = Ok located -> to_deep_ahb reader str_of_location flat h = (Raise e, flat') -> conversion_error reader e.
Proof.
  unfold to_deep_ahb. intros HL [= H _]. rewrite HL in H. cbn [bind] in H.
  apply bind_raise in H as [H|(st & _ & H)]; [|discriminate].
  revert H. generalize initial_deep_state. generalize (groupby (fun x => remove_qualifier (snd x)) located). intros xs.
  induction xs as [|x xs IH]; intros st H; cbn [foldM] in H; [discriminate|].
  apply bind_raise in H as [H|(st' & _ & H)]; [exact (error_deep_step _ _ _ _ _ H)|exact (IH _ H)].
Qed.
Print Assumptions C90_no_index_error.

(** each of them occurs: a value pool entry without a name; a segment line followed by a line
    without segment; a file that does not begin with the message; an exception of the reader *)
Definition ex_nameless : list AhbLine :=
  [ ex_line None (Some "UNH") None None None (Some "Muss") (Some "Kopf");
    ex_line None (Some "UNH") (Some "0065") (Some "UTILMD") None (Some "X") (Some "Kopf") ]%string.
Definition ex_headed : list AhbLine :=
  [ ex_line None (Some "UNH") None None None (Some "Muss") (Some "Kopf");
    ex_line None None None None None None (Some "Kopf");
    ex_line None (Some "UNH") (Some "0062") None None (Some "X") (Some "Kopf") ]%string.
Definition ex_without_message : list AhbLine :=
  [ ex_line None (Some "BGM") None None None (Some "Muss") (Some "Beginn") ]%string.
Example C90_conversion_exceptions_instance :
  ex_deep ex_nameless = Raise AttributeError /\ ex_deep ex_headed = Raise AssertionError /\ ex_deep ex_without_message = Raise UnboundLocalError
  /\ fst (to_deep_ahb (fun _ => Raise IndexError) ex_str (ex_flat ex_deep_lines) ex_sgh) = Raise IndexError.
Proof. repeat split; vm_compute; reflexivity. Qed.
