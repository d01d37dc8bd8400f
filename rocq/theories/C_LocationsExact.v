(** Property C89: the locations of disciplined lines are completely determined. *)
From Coq Require Import Ascii String List NArith ZArith Bool Arith Lia.
From Verif Require Import PyBase PyStr PyRe M_Components M_Ahb M_Sgh M_Navigation
  S_Prefix S_Text S_Sgh S_Navigation S_LocationsExact L_Base L_Prefix L_Sgh L_Navigation L_Locations L_LocationsExact
  C_Sgh C_FlatAhb C_Navigation.
Import ListNotations.
Local Open Scope list_scope.

(** the location of line [i]: its own element and qualifier, the next segment, and one layer for
    every group on the way from the message to the group of the line *)
Definition location_of (h : Sgh) (lines : list AhbLine) (changes : list (AhbLine * Change)) (i : nat) (line : AhbLine) (loc : Location) : Prop :=
  lo_pseudo loc = false /\ lo_element loc = al_element line /\ lo_qualifier loc = al_entry line
  /\ next_at al_segment lines i (lo_segment loc)
  /\ exists p n, node_at h p = Some n /\ sgh_key n = al_group line
     /\ Forall2 (layer_for h lines changes i) (map sgh_key (nodes_on_path h p)) (lo_layers loc).

Theorem C89_locations_exactly (h : Sgh) (lines : list AhbLine) changes (r : list (AhbLine * Location)) :
  distinct_keys h -> well_named h -> sgh_key h = None -> disciplined h None lines ->
  determine_hierarchy_changes lines h = Ok changes ->
  (determine_locations h lines = Ok r <->
   acceptable_lines lines changes /\ map fst r = lines
   /\ forall i line loc, nth_error r i = Some (line, loc) -> location_of h lines changes i line loc).
Proof.
  intros D W R HD HC.
  assert (F : forall r', determine_locations h lines = Ok r' -> map fst r' = lines /\ forall i line loc, nth_error r' i = Some (line, loc) -> location_of h lines changes i line loc).
  { intros r' H. split; [exact (C13_locations_line_by_line h lines r' H)|]. intros i line loc Hr.
    destruct (C14_location_of_its_line h lines r' i line loc H Hr) as (Hl & E1 & E2 & E3).
    split; [|split; [exact E1|split; [exact E2|split; [exact E3|exact (layers_exact h lines r' changes D W R HD H HC i line loc Hr)]]]].
    destruct (determine_locations_steps h lines r' H) as [_ P].
    destruct (P i line Hl) as (y & Hy & base & _ & _ & E & _). rewrite Hr in Hy. injection Hy as <-. cbn [snd] in E. rewrite E. reflexivity. }
  split.
  - intros H. split; [|exact (F r H)]. apply (C17_returns_iff_acceptable h lines changes D W R HD HC). eauto.
  - intros (A & Hf & HL). apply (C17_returns_iff_acceptable h lines changes D W R HD HC) in A as (r' & H'). rewrite H'. f_equal.
    destruct (F r' H') as [Hf' HL'].
    assert (Len : List.length r = List.length r') by (rewrite <- (map_length fst r), <- (map_length fst r'); congruence).
    apply nth_error_ext. intros i. destruct (nth_error r' i) as [[l' loc']|] eqn:E', (nth_error r i) as [[l loc]|] eqn:E.
    + assert (l' = l) as ->.
      { assert (nth_error (map fst r') i = nth_error (map fst r) i) as K by congruence. rewrite !nth_error_map, E, E' in K. now injection K. }
      destruct (HL i l loc E) as (P1 & P2 & P3 & P4 & p & n & Hp & Hn & P5), (HL' i l loc' E') as (Q1 & Q2 & Q3 & Q4 & q & m & Hq & Hm & Q5).
      assert (q = p) as -> by (eapply D; [exact Hq|exact Hp|congruence]).
      assert (lo_layers loc' = lo_layers loc) as EL.
      { clear - P5 Q5. revert Q5. generalize (lo_layers loc'). induction P5 as [|k a ks ls Ha _ IH]; intros ls' Q5; inversion Q5; subst; [reflexivity|].
        f_equal; [eapply layer_for_unique; eassumption|auto]. }
      pose proof (next_at_unique _ _ _ _ _ P4 Q4) as ES.
      destruct loc as [a1 a2 a3 a4 a5], loc' as [b1 b2 b3 b4 b5]. cbn in *. congruence.
    + apply nth_error_None in E. assert (i < List.length r') by (apply nth_error_Some; congruence). lia.
    + apply nth_error_None in E'. assert (i < List.length r) by (apply nth_error_Some; congruence). lia.
    + reflexivity.
Qed.
Print Assumptions C89_locations_exactly.

(** what [layer_for] describes is unique *)
Theorem C89_layer_is_unique h lines changes i key a b :
  layer_for h lines changes i key a -> layer_for h lines changes i key b -> a = b.
Proof. exact (layer_for_unique h lines changes i key a b). Qed.
Print Assumptions C89_layer_is_unique.

(** Two lines inside a common group (at position [p]) share the layers down to this group if neither
    the group nor a group around it is entered between them. *)
Theorem C89_shared_outer_layers (h : Sgh) (lines : list AhbLine) changes (r : list (AhbLine * Location)) i j line1 loc1 line2 loc2 p s t n m :
  distinct_keys h -> well_named h -> sgh_key h = None -> disciplined h None lines ->
  determine_hierarchy_changes lines h = Ok changes -> determine_locations h lines = Ok r ->
  i <= j -> nth_error r i = Some (line1, loc1) -> nth_error r j = Some (line2, loc2) ->
  node_at h (p ++ s) = Some n -> sgh_key n = al_group line1 ->
  node_at h (p ++ t) = Some m -> sgh_key m = al_group line2 ->
  (forall key k, In key (map sgh_key (nodes_on_path h p)) -> i < k <= j -> ~ entered_at changes key k) ->
  firstn (S (List.length p)) (lo_layers loc1) = firstn (S (List.length p)) (lo_layers loc2).
Proof.
  intros D W R HD HC HL Hij H1 H2 Hn En Hm Em N.
  apply (C89_locations_exactly h lines changes r D W R HD HC) in HL as (_ & _ & HL).
  destruct (HL i line1 loc1 H1) as (_ & _ & _ & _ & p1 & n1 & Hp1 & Hn1 & F1), (HL j line2 loc2 H2) as (_ & _ & _ & _ & p2 & n2 & Hp2 & Hn2 & F2).
  assert (p1 = p ++ s) as -> by (eapply D; [exact Hp1|exact Hn|congruence]).
  assert (p2 = p ++ t) as -> by (eapply D; [exact Hp2|exact Hm|congruence]).
  assert (K1 : keys h p = firstn (S (List.length p)) (keys h (p ++ s))) by (apply keys_prefix; congruence).
  assert (K2 : keys h p = firstn (S (List.length p)) (keys h (p ++ t))) by (apply keys_prefix; congruence).
  fold (keys h (p ++ s)) in F1. fold (keys h (p ++ t)) in F2. fold (keys h p) in N.
  assert (FN : forall A B (P : A -> B -> Prop) c l l', Forall2 P l l' -> Forall2 P (firstn c l) (firstn c l')).
  { clear. intros A B P c. induction c as [|c IH]; intros l l' F; [constructor|]. destruct F; cbn; constructor; auto. }
  apply FN with (c := S (List.length p)) in F1, F2. rewrite <- K1 in F1. rewrite <- K2 in F2.
  clear - F1 F2 N Hij. revert F1 F2. generalize (firstn (S (List.length p)) (lo_layers loc1)), (firstn (S (List.length p)) (lo_layers loc2)).
  induction (keys h p) as [|k ks IH]; intros ls1 ls2 F1 F2; inversion F1 as [|k1 a ks1 ls1' Ha F1']; inversion F2 as [|k2 b ks2 ls2' Hb F2']; subst; [reflexivity|].
  f_equal; [|apply IH; [intros key k' Hin; apply N; now right|exact F1'|exact F2']].
  assert (Ha' : layer_for h lines changes j k a).
  { assert (N2 : forall c, i < c <= j -> ~ entered_at changes k c) by (intros c; apply N; now left).
    clear - N2 Ha Hij. induction Hij as [|j Hij IH]; [exact Ha|].
    apply layer_for_later; [apply N2; lia|]. apply IH. intros k' Hk'. apply N2. lia. }
  exact (layer_for_unique _ _ _ _ _ _ _ Ha' Hb).
Qed.
Print Assumptions C89_shared_outer_layers.

(** the hypotheses hold of the example of C_Navigation, and the layers of its tenth line (QTY in
    SG9) and of its last one *)
Example C89_instance :
  distinct_keys ex_sgh /\ well_named ex_sgh /\ sgh_key ex_sgh = None /\ disciplined ex_sgh None ex_lines
  /\ exists r, determine_locations ex_sgh ex_lines = Ok r
  /\ option_map (fun x => lo_layers (snd x)) (nth_error r 9)
     = Some [mkLayer None (u "UNH") (Some (u "E03")); mkLayer (Some (u "SG4")) (u "IDE") (Some (u "24"));
             mkLayer (Some (u "SG8")) (u "SEQ") (Some (u "Z01")); mkLayer (Some (u "SG9")) (u "QTY") (Some (u "265"))]
  /\ option_map (fun x => lo_layers (snd x)) (nth_error r 13) = Some [mkLayer None (u "UNT") None].
Proof.
  split; [exact ex_sgh_distinct|]. split; [exact ex_sgh_well_named|]. split; [reflexivity|]. split; [exact C15_disciplined|].
  eexists. split; [vm_compute; reflexivity|]. split; vm_compute; reflexivity.
Qed.
