(** Properties C19 - C25: flat AHBs. *)
From Coq Require Import Ascii String List NArith ZArith Bool Arith Lia Permutation.
From Verif Require Import PyBase PyStr PyRe M_Components M_Ahb S_Text S_FlatAhb L_Base L_Str L_Validators L_FlatAhb.
Import ListNotations.
Local Open Scope list_scope.

(** ** lines for the examples *)
Definition ex_line (group segment element entry name expression section : option string) : AhbLine :=
  mkLine None (option_map u group) (option_map u segment) (option_map u element) None (option_map u entry)
         (option_map u name) (option_map u expression) None (option_map u section) None.
Definition ex_flat_lines : list AhbLine :=
  [ ex_line None (Some "UNH") None None None (Some "Muss") None;
    ex_line (Some "SG2") (Some "NAD") (Some "3035") (Some "MS") (Some "Absender") (Some "X") None;
    ex_line (Some "SG3") (Some "CTA") None None None (Some "Kann") None;
    ex_line (Some "SG2") (Some "NAD") (Some "3035") (Some "MR") (Some "Empf") (Some "X") None;
    ex_line None (Some "UNT") (Some "00074") None None (Some "X") None ]%string.

(** C19 *)
Theorem C19_segment_groups (a : FlatAhb) :
  first_occurrences (map al_group (fa_lines a)) (get_segment_groups a).
Proof. exact (available_groups_spec (fa_lines a)). Qed.
Print Assumptions C19_segment_groups.

Example C19_instance (m : Meta) :
  get_segment_groups (mkFlat m ex_flat_lines) = [None; Some (u "SG2"); Some (u "SG3")].
Proof. vm_compute. reflexivity. Qed.

(** C20: sorting.  [has_group k] keeps the lines of the group [k] *)
Definition has_group (k : option pystr) (l : AhbLine) : bool := ostr_eqb (al_group l) k.

Theorem C20_sorting (a b : FlatAhb) :
  sort_lines_by_segment_groups a = Ok b ->
  fa_meta b = fa_meta a
  /\ Permutation (fa_lines a) (fa_lines b)
  /\ (forall k, filter (has_group k) (fa_lines b) = filter (has_group k) (fa_lines a))
  /\ get_segment_groups b = get_segment_groups a
  /\ (forall l1 x l2 y l3 z, fa_lines b = l1 ++ x :: l2 ++ y :: l3 -> al_group x = al_group y -> In z l2 -> al_group z = al_group x)
  /\ sort_lines_by_segment_groups b = Ok b.
Proof.
  intros H. unfold sort_lines_by_segment_groups, get_segment_groups in H. rewrite sorted_lines_of_ahb in H. cbn [bind] in H.
  apply bind_ok in H as ([] & Hc & [= <-]). cbn [fa_meta fa_lines].
  destruct (available_groups_spec (fa_lines a)) as (ND & I & O).
  set (gs := get_available_segment_groups (fa_lines a)) in *.
  assert (Hall : forall l, In l (fa_lines a) -> In (al_group l) gs) by (intros l Hl; apply I; now apply in_map).
  assert (G : get_available_segment_groups (grouped gs (fa_lines a)) = gs) by (apply grouped_groups; [exact ND|intros k Hk; now apply I]).
  assert (F : forall k, filter (has_group k) (grouped gs (fa_lines a)) = filter (has_group k) (fa_lines a)).
  { intros k. destruct (in_dec ostr_dec k gs) as [Hk|Hk]; [now apply grouped_filter|].
    assert (Z : forall l, (forall x, In x l -> In x (fa_lines a)) -> filter (has_group k) l = []).
    { intros l Hl. induction l as [|x l IH]; [reflexivity|]. cbn. unfold has_group at 1.
      destruct (ostr_eqb_spec (al_group x) k) as [E|E].
      - exfalso. apply Hk. rewrite <- E. apply Hall, Hl. now left.
      - apply IH. intros y Hy. apply Hl. now right. }
    rewrite !Z; auto. intros x Hx. now apply in_grouped in Hx. }
  split; [reflexivity|]. split; [|split; [exact F|split; [exact G|split]]].
  - assert (P : forall gs ls, NoDup gs -> (forall l, In l ls -> In (al_group l) gs) -> Permutation ls (grouped gs ls)).
    { clear. intros gs. induction gs as [|g gs IH]; intros ls ND H.
      - destruct ls as [|l ls]; [constructor|]. destruct (H l (or_introl eq_refl)).
      - unfold grouped. cbn [flat_map].
        assert (E : flat_map (fun k => filter (with_group k) ls) gs
                    = grouped gs (filter (fun l => negb (with_group g l)) ls)).
        { unfold grouped. apply flat_map_ext_in. intros k Hk. 
          assert (k <> g) by (intros ->; inversion ND; contradiction).
          clear -H0. induction ls as [|l ls IH]; [reflexivity|]. cbn.
          destruct (with_group g l) eqn:Eg; cbn.
          - apply ostr_eqb_eq in Eg. unfold with_group at 1. destruct (ostr_eqb_spec (al_group l) k); [congruence|exact IH].
          - rewrite IH. reflexivity. }
        rewrite E. apply perm_trans with (filter (with_group g) ls ++ filter (fun l => negb (with_group g l)) ls).
        + clear. induction ls as [|l ls IH]; [constructor|]. cbn. destruct (with_group g l); cbn; [now constructor|].
          now apply Permutation_cons_app.
        + apply Permutation_app_head. apply IH; [now inversion ND|]. intros l Hl. apply filter_In in Hl as [Hl Hn].
          destruct (H l Hl) as [E'|E']; [|exact E']. unfold with_group in Hn. rewrite E', ostr_eqb_refl in Hn. discriminate. }
    now apply P.
  - intros l1 x l2 y l3 z E Exy Hz.
    clear -ND E Exy Hz. revert l1 x l2 y l3 z E Exy Hz. unfold grouped. generalize (fa_lines a) as ls. intros ls.
    induction ND as [|g gs Hg ND IH]; intros l1 x l2 y l3 z E Exy Hz; [destruct l1; discriminate|].
    cbn [flat_map] in E. fold (grouped gs ls) in E.
    assert (A : forall l, In l (filter (with_group g) ls) -> al_group l = g).
    { intros l Hl. apply filter_In in Hl as [_ Hl]. now apply ostr_eqb_eq in Hl. }
    assert (B : forall l, In l (grouped gs ls) -> al_group l <> g).
    { intros l Hl El. apply in_grouped in Hl as [_ Hl]. now rewrite El in Hl. }
    revert E A. generalize (filter (with_group g) ls) as f. intros f. revert l1. induction f as [|w f IHf]; intros l1 E A.
    + eapply IH; eassumption.
    + destruct l1 as [|w' l1].
      * injection E as -> E. rewrite (A x) in * by now left.
        assert (Hy : In y f). 
        { assert (In y (f ++ grouped gs ls)) as Hy by (rewrite E; apply in_or_app; right; now left).
          apply in_app_or in Hy as [Hy|Hy]; [exact Hy|]. exfalso. apply (B y Hy). now symmetry. }
        assert (P : exists f', f = l2 ++ y :: f' \/ In z f \/ exists q, l2 = f ++ q).
        { exists []. clear -E Hz. revert l2 E Hz. induction f as [|w f IH]; intros l2 E Hz.
          - right. right. now exists l2.
          - destruct l2 as [|w' l2]; [destruct Hz|]. injection E as -> E. destruct Hz as [->|Hz]; [right; left; now left|].
            destruct (IH l2 E Hz) as [->|[H|(q & ->)]]; [left; reflexivity|right; left; now right|right; right; now exists q]. }
        destruct P as (f' & [->|[Hzf|(q & ->)]]).
        -- apply A. right. apply in_or_app. now left.
        -- apply A. now right.
        -- rewrite <- app_assoc in E. apply app_inv_head in E.
           assert (Hy' : In y (grouped gs ls)) by (rewrite E; apply in_or_app; right; now left).
           exfalso. apply (B y Hy'). now symmetry.
      * injection E as _ E. eapply IHf; [exact E|]. intros l Hl. apply A. now right.
  - unfold sort_lines_by_segment_groups, get_segment_groups. cbn [fa_lines fa_meta].
    rewrite sorted_lines_of_ahb, G, grouped_twice by exact ND. cbn [bind]. rewrite Hc. reflexivity.
Qed.
Print Assumptions C20_sorting.

Example C20_instance (m : Meta) :
  exists b, sort_lines_by_segment_groups (mkFlat m ex_flat_lines) = Ok b
  /\ map al_group (fa_lines b) = [None; None; Some (u "SG2"); Some (u "SG2"); Some (u "SG3")]
  /\ map al_entry (fa_lines b) = [None; None; Some (u "MS"); Some (u "MR"); None].
Proof. eexists. split; [vm_compute; reflexivity|]. split; vm_compute; reflexivity. Qed.

(** C21: an AHB that was accepted can always be sorted (and the sorted lines are accepted) *)
Theorem C21_sorting_never_raises (m : Meta) (ls : list AhbLine) (a : FlatAhb) :
  new_FlatAhb m ls = Ok a ->
  exists b, sort_lines_by_segment_groups a = Ok b /\ new_FlatAhb (fa_meta b) (fa_lines b) = Ok b.
Proof.
  unfold new_FlatAhb. intros H. apply bind_ok in H as ([] & Hc & [= <-]).
  apply check_flat_lines_ok in Hc as [F _]. eexists. split; [exact (sort_lines_ok m ls F)|]. cbn [fa_lines fa_meta].
  pose proof (sort_lines_ok m ls F) as S. unfold sort_lines_by_segment_groups, get_segment_groups in S. cbn [fa_lines fa_meta] in S.
  rewrite sorted_lines_of_ahb in S. cbn [bind] in S. apply bind_ok in S as ([] & S & _). now rewrite S.
Qed.
Print Assumptions C21_sorting_never_raises.

Example C21_instance (m : Meta) : exists a, new_FlatAhb m ex_flat_lines = Ok a.
Proof. eexists. vm_compute. reflexivity. Qed.

(** C22: when the lines of a flat AHB are accepted *)
Definition control_chunk (c : list AhbLine) : Prop :=
  exists l, In l c /\ al_section l = Some (u "Abschnitts-Kontrollsegment").
Theorem C22_acceptance (m : Meta) (ls : list AhbLine) :
  let accepted := Forall accepted_line ls
                  /\ exists cs n, is_chunking enters_group ls cs /\ count_of control_chunk cs n /\ n <= 2 in
  (accepted -> new_FlatAhb m ls = Ok (mkFlat m ls)) /\ (~ accepted -> new_FlatAhb m ls = Raise ValueError).
Proof.
  intros accepted.
  assert (E : check_flat_lines ls = Ok tt <-> accepted).
  { rewrite check_flat_lines_ok. unfold accepted. split.
    - intros [F L]. split; [exact F|]. exists (split_when switches_from_no_sg_to_sg ls). eexists. split; [apply line_chunks|].
      split; [|exact L]. apply (count_of_filter _ _ _ _ contains_control_spec). reflexivity.
    - intros [F (cs & n & H & C & L)]. split; [exact F|].
      rewrite <- (is_chunking_unique _ _ _ _ H (line_chunks ls)).
      apply (count_of_filter _ _ _ _ contains_control_spec) in C. lia. }
  unfold new_FlatAhb. split.
  - intros A. apply E in A. now rewrite A.
  - intros A. destruct (check_flat_lines ls) as [[]|e] eqn:C; [exfalso; apply A, E; reflexivity|].
    apply check_flat_lines_raise in C. now subst e.
Qed.
Print Assumptions C22_acceptance.

(** the chunks meant in the statement are determined by the lines *)
Theorem C22_chunks_are_unique (ls : list AhbLine) (cs ds : list (list AhbLine)) :
  is_chunking enters_group ls cs -> is_chunking enters_group ls ds -> cs = ds.
Proof. exact (is_chunking_unique enters_group cs ls ds). Qed.
Print Assumptions C22_chunks_are_unique.

(** "only at the beginning and the end there are lines without a segment group" *)
Definition documented_rule (ls : list AhbLine) : Prop :=
  exists a b c, ls = a ++ b ++ c /\ Forall (fun l => al_group l = None) a
    /\ Forall (fun l => al_group l <> None) b /\ Forall (fun l => al_group l = None) c.

(** the documented rule suffices ... *)
Theorem C22_documented_rule_suffices (m : Meta) (ls : list AhbLine) :
  Forall accepted_line ls -> documented_rule ls -> new_FlatAhb m ls = Ok (mkFlat m ls).
Proof.
  intros F (a & b & c & -> & Ha & Hb & Hc). unfold new_FlatAhb.
  assert (check_flat_lines (a ++ b ++ c) = Ok tt) as ->; [|reflexivity].
  apply check_flat_lines_ok. split; [exact F|]. eapply Nat.le_trans; [apply filter_length_le|].
  rewrite Forall_forall in Ha, Hb, Hc.
  assert (N : forall l x, (forall y, In y l -> al_group y = None) -> switches switches_from_no_sg_to_sg x l = 0).
  { clear. induction l as [|y l IH]; intros x H; [reflexivity|]. cbn. rewrite IH by (intros z Hz; apply H; now right).
    unfold switches_from_no_sg_to_sg. rewrite (H y) by now left. cbn. now rewrite andb_false_r. }
  assert (S : forall l x, al_group x <> None -> (forall y, In y l -> al_group y <> None) ->
              switches switches_from_no_sg_to_sg x (l ++ c) = 0).
  { clear -N Hc. induction l as [|y l IH]; intros x Hx H; [now apply N|]. cbn.
    rewrite IH by (try (apply H; now left); intros z Hz; apply H; now right).
    unfold switches_from_no_sg_to_sg. destruct (al_group x); [reflexivity|congruence]. }
  assert (T : forall l x, al_group x = None -> (forall y, In y l -> al_group y = None) ->
              switches switches_from_no_sg_to_sg x (l ++ b ++ c) <= 1).
  { clear -N Hc Hb S. induction l as [|y l IH]; intros x Hx H.
    - cbn. destruct b as [|y b]; cbn; [rewrite N by exact Hc; lia|].
      rewrite S; [destruct (switches_from_no_sg_to_sg x y); lia|apply Hb; now left|intros z Hz; apply Hb; now right].
    - cbn. unfold switches_from_no_sg_to_sg at 1. rewrite (H y) by now left. cbn. rewrite andb_false_r. cbn.
      apply IH; [apply H; now left|intros z Hz; apply H; now right]. }
  destruct a as [|x a]; cbn [app].
  - destruct b as [|x b]; cbn [app].
    + destruct c as [|x c]; cbn; [lia|]. rewrite split_when_go_length, N; [lia|]. intros y Hy. apply Hc. now right.
    + cbn. rewrite split_when_go_length, S; [lia|apply Hb; now left|intros y Hy; apply Hb; now right].
  - cbn. rewrite split_when_go_length. pose proof (T a x (Ha x (or_introl eq_refl)) (fun y Hy => Ha y (or_intror Hy))). lia.
Qed.
Print Assumptions C22_documented_rule_suffices.

(** ... but it is not necessary: lines without a group in the middle are accepted *)
Definition ex_undocumented : list AhbLine :=
  [ ex_line None (Some "UNH") None None None None None;
    ex_line (Some "SG1") (Some "RFF") None None None None None;
    ex_line None (Some "BGM") None None None None None;
    ex_line (Some "SG2") (Some "NAD") None None None None None;
    ex_line None (Some "DTM") None None None None None;
    ex_line (Some "SG4") (Some "IDE") None None None None None;
    ex_line None (Some "UNT") None None None None None ]%string.
Theorem C22_documented_rule_is_enforced_refuted :
  exists m ls, new_FlatAhb m ls = Ok (mkFlat m ls) /\ ~ documented_rule ls.
Proof.
  exists (mkMeta (u "11042") None None None), ex_undocumented. split; [vm_compute; reflexivity|].
  intros (a & b & c & E & Ha & Hb & Hc). apply (f_equal (map al_group)) in E. rewrite !map_app in E.
  assert (Ga : Forall (fun g => g = None) (map al_group a)) by (apply Forall_map; exact Ha).
  assert (Gb : Forall (fun g => g <> None) (map al_group b)) by (apply Forall_map; exact Hb).
  assert (Gc : Forall (fun g => g = None) (map al_group c)) by (apply Forall_map; exact Hc).
  revert E Ga Gb Gc. generalize (map al_group a) (map al_group b) (map al_group c). clear. intros a b c E Ga Gb Gc.
  assert (E' : [None; Some (u "SG1"); None; Some (u "SG2"); None; Some (u "SG4"); None] = a ++ b ++ c) by exact E.
  clear E. repeat match goal with
  | H : Forall (fun g => g = None) (Some _ :: _) |- _ => inversion H; subst; discriminate
  | H : Forall (fun g => g = None) (None :: _) |- _ => inversion H; subst; clear H
  | H : Forall (fun g => g <> None) (None :: _) |- _ => inversion H; subst; congruence
  | H : Forall (fun g => g <> None) (Some _ :: _) |- _ => inversion H; subst; clear H
  | H : [] = [] |- _ => clear H
  | H : _ :: _ = a ++ _ |- _ => destruct a; cbn [app] in H; [|injection H as <- H]
  | H : _ :: _ = b ++ _ |- _ => destruct b; cbn [app] in H; [|injection H as <- H]
  | H : _ :: _ = c |- _ => subst c
  | H : _ :: _ = [] |- _ => discriminate
  end.
Qed.
Print Assumptions C22_documented_rule_is_enforced_refuted.

Example C22_instance (m : Meta) :
  let control := (ex_line (Some "SG1") (Some "UNS") None None None None (Some "Abschnitts-Kontrollsegment"))%string in
  let root := (ex_line None (Some "UNH") None None None None None)%string in
  new_FlatAhb m [control; root; control; root] = Ok (mkFlat m [control; root; control; root])
  /\ new_FlatAhb m [control; root; control; root; control] = Raise ValueError
  /\ new_FlatAhb m [ex_line (Some "XY1") None None None None None None]%string = Raise ValueError.
Proof. repeat split; vm_compute; reflexivity. Qed.

(** C23: the three checks of a line *)
Theorem C23_group_key (l : AhbLine) (s : pystr) : al_group l = Some s ->
  (check_line_segment_group l = Ok tt <-> exists k t, s = k ++ t /\ SG_key k /\ maybe_newline t).
Proof. intros E. unfold check_line_segment_group. rewrite E, check_ok. apply match_segment_group. Qed.
Print Assumptions C23_group_key.
Theorem C23_segment_code (l : AhbLine) (s : pystr) : al_segment l = Some s ->
  (check_line_segment_code l = Ok tt <-> exists k t, s = k ++ t /\ capitals k /\ maybe_newline t).
Proof. intros E. unfold check_line_segment_code. rewrite E, check_ok. apply match_segment_code. Qed.
Print Assumptions C23_segment_code.
Theorem C23_data_element (l : AhbLine) (s : pystr) : al_element l = Some s ->
  (check_line_data_element l = Ok tt
   <-> exists k t, s = k ++ t /\ (n_digits 4 k \/ n_digits 5 k \/ letters_then_four_digits k) /\ maybe_newline t).
Proof. intros E. unfold check_line_data_element. rewrite E, check_ok. apply match_data_element. Qed.
Print Assumptions C23_data_element.
(** absent fields are accepted *)
Theorem C23_absent (l : AhbLine) :
  (al_group l = None -> check_line_segment_group l = Ok tt)
  /\ (al_segment l = None -> check_line_segment_code l = Ok tt)
  /\ (al_element l = None -> check_line_data_element l = Ok tt).
Proof.
  unfold check_line_segment_group, check_line_segment_code, check_line_data_element.
  split; [|split]; intros ->; reflexivity.
Qed.
Print Assumptions C23_absent.
(** the reading "the key is SG and digits, nothing else" is wrong *)
Theorem C23_no_trailing_newline_refuted :
  exists l s, al_group l = Some s /\ check_line_segment_group l = Ok tt /\ ~ SG_key s.
Proof.
  exists (mkLine None (Some (u "SG4" ++ [chr_newline])) None None None None None None None None None), (u "SG4" ++ [chr_newline]).
  split; [reflexivity|]. split; [vm_compute; reflexivity|]. intros H. apply full_segment_group in H. vm_compute in H. discriminate.
Qed.
Print Assumptions C23_no_trailing_newline_refuted.
Example C23_instance :
  let line g s e := ex_line g s e None None None None in
  check_line_segment_group (line (Some "SG12") None None)%string = Ok tt
  /\ check_line_segment_group (line (Some "SG") None None)%string = Raise ValueError
  /\ check_line_segment_code (line None (Some "DTM") None)%string = Ok tt
  /\ check_line_segment_code (line None (Some "Dtm") None)%string = Raise ValueError
  /\ check_line_data_element (line None None (Some "R0001"))%string = Ok tt
  /\ check_line_data_element (line None None (Some "123456"))%string = Raise ValueError.
Proof. repeat split; vm_compute; reflexivity. Qed.

(** C24 *)
Theorem C24_holds_any_information (l : AhbLine) :
  holds_any_information l = true
  <-> exists s, In (Some s) [al_group l; al_segment l; al_element l; al_entry l; al_name l; al_expression l] /\ ~ blank s.
Proof.
  assert (H : forall v, has_text v = true <-> exists s, v = Some s /\ ~ blank s).
  { intros [s|]; cbn [has_text]; [|split; [discriminate|intros (s & [=] & _)]]. rewrite Nat.ltb_lt. split.
    - intros L. exists s. split; [reflexivity|]. intros B. apply strip_nil in B. rewrite B in L. cbn in L. lia.
    - intros (t & [= <-] & B). destruct (strip s) eqn:E; [exfalso; now apply B, strip_nil|cbn; lia]. }
  unfold holds_any_information. rewrite !orb_true_iff, !H. cbn [In]. split.
  - intros [[[[[(s & -> & B)|(s & -> & B)]|(s & -> & B)]|(s & -> & B)]|(s & -> & B)]|(s & -> & B)]; exists s; tauto.
  - intros (s & [E|[E|[E|[E|[E|[E|[]]]]]]] & B); rewrite E; eauto 10.
Qed.
Print Assumptions C24_holds_any_information.
Example C24_instance :
  holds_any_information (ex_line None None None None (Some " x ") None None)%string = true
  /\ holds_any_information (ex_line (Some " ") None None None (Some "") None (Some "section"))%string = false.
Proof. split; vm_compute; reflexivity. Qed.

(** C25: the discriminator depends on four fields only; on the lines of a flat AHB it
    determines them (an empty name counts like no name) *)
Theorem C25_discriminator_depends_on (a b : AhbLine) (inc : bool) :
  al_group a = al_group b -> al_segment a = al_segment b -> al_element a = al_element b ->
  (inc = true -> al_name a = al_name b) -> get_discriminator a inc = get_discriminator b inc.
Proof.
  intros H1 H2 H3 H4. unfold get_discriminator. rewrite H1, H2, H3. destruct inc; [now rewrite H4|].
  now rewrite !andb_false_r.
Qed.
Print Assumptions C25_discriminator_depends_on.
Theorem C25_discriminator_determines (a b : AhbLine) (inc : bool) :
  accepted_line a -> accepted_line b -> get_discriminator a inc = get_discriminator b inc ->
  al_group a = al_group b /\ al_segment a = al_segment b /\ al_element a = al_element b
  /\ (inc = true -> al_name a <> Some [] -> al_name b <> Some [] -> al_name a = al_name b).
Proof.
  intros Aa Ab E. destruct (discriminator_inj a b inc Aa Ab E) as (E1 & E2 & E3 & E4).
  repeat split; try assumption. intros Hi Na Nb. specialize (E4 Hi). unfold or_none in E4.
  destruct (al_name a) as [[|x n]|], (al_name b) as [[|y m]|]; cbn in E4; try congruence; try (exfalso; now apply Na); try (exfalso; now apply Nb).
Qed.
Print Assumptions C25_discriminator_determines.
(** it is not unique: two lines of one accepted flat AHB can share it *)
Theorem C25_discriminator_is_unique_refuted :
  exists m ls a b, new_FlatAhb m ls = Ok (mkFlat m ls) /\ In a ls /\ In b ls
    /\ line_eqb a b = false /\ al_guid a <> al_guid b /\ al_entry a <> al_entry b
    /\ get_discriminator a true = get_discriminator b true.
Proof.
  set (line g e := mkLine (Some g) (Some (u "SG2")) (Some (u "NAD")) (Some (u "3035")) None (Some (u e)) None (Some (u "X")) None None None).
  exists (mkMeta (u "11042") None None None), [line 1%N "MS"%string; line 2%N "MR"%string], (line 1%N "MS"%string), (line 2%N "MR"%string).
  split; [vm_compute; reflexivity|]. split; [now left|]. split; [right; now left|].
  split; [vm_compute; reflexivity|]. split; [cbn; congruence|]. split; [|vm_compute; reflexivity].
  intros H. vm_compute in H. discriminate.
Qed.
Print Assumptions C25_discriminator_is_unique_refuted.
Example C25_instance :
  Forall accepted_line ex_flat_lines
  /\ map (fun l => get_discriminator l true) (firstn 2 ex_flat_lines) = [u "UNH->None"; u "SG2->NAD->3035 (Absender)"].
Proof.
  split; [|vm_compute; reflexivity].
  assert (H : exists a, new_FlatAhb (mkMeta [] None None None) ex_flat_lines = Ok a) by (eexists; vm_compute; reflexivity).
  destruct H as (a & H). unfold new_FlatAhb in H. apply bind_ok in H as ([] & H & _). now apply check_flat_lines_ok in H.
Qed.
