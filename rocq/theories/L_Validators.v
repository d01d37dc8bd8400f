(** What the validators of the code accept. *)
From Coq Require Import List NArith ZArith Bool Ascii String Lia Arith.
From Verif Require Import PyBase PyUni PyStr PyRe M_Components M_Ahb M_Sgh M_Navigation S_Text L_Base L_Str L_Re.
Import ListNotations.
Local Open Scope list_scope.

Lemma check_not_blank_ok v : check_not_blank v = Ok tt <-> exists s, v = Some s /\ ~ blank s.
Proof.
  unfold check_not_blank. destruct v as [s|].
  - destruct (truthy s) eqn:T; cbn [negb].
    + destruct (Nat.eqb_spec (List.length (strip s)) 0) as [E|E].
      * split; [discriminate|]. intros (t & [= <-] & H). exfalso. apply H, strip_nil. now apply length_zero_iff_nil.
      * split; [|reflexivity]. intros _. exists s. split; [reflexivity|]. intros H. apply strip_nil in H. rewrite H in E. now apply E.
    + split; [discriminate|]. intros (t & [= <-] & H). destruct s; [|discriminate]. exfalso. apply H. constructor.
  - split; [discriminate|intros (t & [=] & _)].
Qed.
Lemma check_not_blank_raise v e : check_not_blank v = Raise e -> e = ValueError.
Proof.
  unfold check_not_blank. destruct v as [s|]; [|congruence].
  destruct (negb (truthy s)); [congruence|]. destruct (Nat.eqb _ 0); congruence.
Qed.

Lemma check_re_ok r s : check_re r s = Ok tt <-> fullmatches r s = true.
Proof. apply check_ok. Qed.
Lemma check_optional_ok {A} (v : A -> result unit) o :
  check_optional v o = Ok tt <-> forall a, o = Some a -> v a = Ok tt.
Proof.
  destruct o as [a|]; cbn.
  - split; [intros H b [= <-]; exact H|intros H; now apply H].
  - split; [intros _ a [=]|reflexivity].
Qed.

Lemma app_eol {X} (w t : list X) : w ++ t = w ++ [] -> t = [].
Proof. apply app_inv_head. Qed.

(** ** re.fullmatch: the final $ adds nothing *)
Lemma full_digits n s : fullmatches (re_digits n) s = true <-> n_digits n s.
Proof.
  unfold re_digits, n_digits. rewrite fullmatches_acc, acc_bol_seq, acc_seq. split.
  - intros (m & H & Hm). apply acc_rep_char in H as (w & -> & L & F). apply acc_eol in Hm as [<- _].
    rewrite app_nil_r. now rewrite <- all_forallb.
  - intros [L H]. exists []. split; [apply acc_rep_char; exists s; rewrite app_nil_r, all_forallb; auto|].
    cbn. auto.
Qed.
Lemma full_segment_group s : fullmatches re_segment_group s = true <-> SG_key s.
Proof.
  unfold re_segment_group, SG_key. rewrite fullmatches_acc, acc_bol_seq, acc_seq. split.
  - intros (m & H & Hm). apply acc_lit in H as ->. apply acc_seq in Hm as (k & H & He).
    apply acc_plus_char in H as (w & -> & Hn & F). apply acc_eol in He as [<- _].
    exists w. rewrite app_nil_r, <- all_forallb. auto.
  - intros (ds & -> & Hn & H). exists ds. split; [now apply acc_lit|]. apply acc_seq. exists [].
    split; [apply acc_plus_char; exists ds; rewrite app_nil_r, all_forallb; auto|cbn; auto].
Qed.
Lemma full_three_letters s : fullmatches re_three_letters s = true <-> three_capitals s.
Proof.
  unfold re_three_letters, three_capitals. rewrite fullmatches_acc, acc_bol_seq, acc_seq. split.
  - intros (m & H & Hm). apply acc_rep_char in H as (w & -> & L & F). apply acc_eol in Hm as [<- _].
    rewrite app_nil_r. now rewrite <- all_forallb.
  - intros [L H]. exists []. split; [apply acc_rep_char; exists s; rewrite app_nil_r, all_forallb; auto|].
    cbn. auto.
Qed.
Lemma full_opening_qualifier s : fullmatches re_opening_qualifier s = true <-> capitals_then_digits s.
Proof.
  unfold re_opening_qualifier, capitals_then_digits. rewrite fullmatches_acc, acc_bol_seq, acc_seq. split.
  - intros (m & H & Hm). apply acc_star_char in H as (a & -> & Fa). apply acc_seq in Hm as (k & H & He).
    apply acc_star_char in H as (d & -> & Fd). apply acc_eol in He as [<- _].
    exists a, d. rewrite app_nil_r, <- !all_forallb. auto.
  - intros (a & d & -> & Ha & Hd). exists d. split; [apply acc_star_char; exists a; rewrite all_forallb; auto|].
    apply acc_seq. exists []. split; [apply acc_star_char; exists d; rewrite app_nil_r, all_forallb; auto|cbn; auto].
Qed.

(** ** re.match with a final $: a trailing line feed is accepted *)
Lemma match_segment_group s :
  matches re_segment_group s = true <-> exists k t, s = k ++ t /\ SG_key k /\ maybe_newline t.
Proof.
  unfold re_segment_group. rewrite matches_acc. split.
  - intros (s' & H). rewrite acc_bol_seq in H; apply acc_seq in H as (m & H & Hm).
    apply acc_lit in H as ->. apply acc_seq in Hm as (k & H & He).
    apply acc_plus_char in H as (w & -> & Hn & F). apply acc_eol in He as [-> Hk].
    exists (u "SG" ++ w), k. rewrite app_assoc. repeat split; [|exact Hk]. exists w. rewrite <- all_forallb. auto.
  - intros (k & t & -> & (ds & -> & Hn & H) & Ht). exists t. apply acc_bol_seq, acc_seq.
    exists (ds ++ t). split; [apply acc_lit; now rewrite app_assoc|]. apply acc_seq. exists t.
    split; [apply acc_plus_char; exists ds; rewrite all_forallb; auto|cbn; auto].
Qed.
Lemma match_segment_code s :
  matches re_segment_code s = true <-> exists k t, s = k ++ t /\ capitals k /\ maybe_newline t.
Proof.
  unfold re_segment_code, capitals. rewrite matches_acc. split.
  - intros (s' & H). rewrite acc_bol_seq in H; apply acc_seq in H as (m & H & He).
    apply acc_plus_char in H as (w & -> & Hn & F). apply acc_eol in He as [-> Hk].
    exists w, m. rewrite <- all_forallb. auto.
  - intros (k & t & -> & (Hn & H) & Ht). exists t. apply acc_bol_seq, acc_seq. exists t.
    split; [apply acc_plus_char; exists k; rewrite all_forallb; auto|cbn; auto].
Qed.
Lemma acc_digits_eol n s s' :
  acc (re_digits n) 0 s s' <-> exists k, s = k ++ s' /\ n_digits n k /\ maybe_newline s'.
Proof.
  unfold re_digits, n_digits. rewrite acc_bol_seq, acc_seq. split.
  - intros (m & H & He). apply acc_rep_char in H as (w & -> & L & F). apply acc_eol in He as [-> Hk].
    exists w. rewrite <- all_forallb. auto.
  - intros (k & -> & [L H] & Ht). exists s'. split; [apply acc_rep_char; exists k; rewrite all_forallb; auto|cbn; auto].
Qed.
Lemma match_data_element s :
  matches re_data_element s = true
  <-> exists k t, s = k ++ t /\ (n_digits 4 k \/ n_digits 5 k \/ letters_then_four_digits k) /\ maybe_newline t.
Proof.
  unfold re_data_element. rewrite matches_acc. split.
  - intros (s' & [H|[H|H]]).
    + apply acc_digits_eol in H as (k & -> & Hk & Ht). exists k, s'. auto.
    + apply acc_digits_eol in H as (k & -> & Hk & Ht). exists k, s'. auto.
    + rewrite acc_bol_seq in H; apply acc_seq in H as (m & H & Hm). apply acc_plus_char in H as (a & -> & Hn & Fa).
      apply acc_seq in Hm as (k & H & He). apply acc_rep_char in H as (d & -> & L & Fd).
      apply acc_eol in He as [-> Hk].
      exists (a ++ d), k. rewrite app_assoc. repeat split; [|exact Hk]. right; right.
      exists a, d. unfold n_digits. rewrite <- !all_forallb. auto.
  - intros (k & t & -> & [H|[H|(a & d & -> & Hn & Ha & L & Hd)]] & Ht); exists t; rewrite !acc_alt.
    + left. apply acc_digits_eol. exists k. auto.
    + right; left. apply acc_digits_eol. exists k. auto.
    + right; right. apply acc_bol_seq, acc_seq. exists (d ++ t).
      split; [apply acc_plus_char; exists a; rewrite all_forallb, app_assoc; auto|].
      apply acc_seq. exists t. split; [apply acc_rep_char; exists d; rewrite all_forallb; auto|cbn; auto].
Qed.

(** ** layers and locations *)
Definition valid_layer (key : option pystr) (opening : pystr) (qualifier : option pystr) : Prop :=
  (forall k, key = Some k -> SG_key k) /\ three_capitals opening
  /\ (forall q, qualifier = Some q -> capitals_then_digits q).

Lemma new_Layer_ok key opening qualifier l :
  new_Layer key (Some opening) qualifier = Ok l
  <-> l = mkLayer key opening qualifier /\ valid_layer key opening qualifier.
Proof.
  unfold new_Layer, valid_layer. cbn [check_is_str bind]. rewrite bind_ok. split.
  - intros ([] & H1 & H). apply bind_ok in H as ([] & H2 & H). apply bind_ok in H as ([] & H3 & [= <-]).
    split; [reflexivity|]. split; [|split].
    + intros k ->. now apply full_segment_group, check_re_ok.
    + apply full_three_letters, check_re_ok, H2.
    + intros q ->. now apply full_opening_qualifier, check_re_ok.
  - intros (-> & H1 & H2 & H3). exists tt. split.
    { apply check_optional_ok. intros k Hk. apply check_re_ok, full_segment_group. auto. }
    apply bind_ok. exists tt. split; [apply check_re_ok, full_three_letters, H2|].
    apply bind_ok. exists tt. split; [|reflexivity].
    apply check_optional_ok. intros q Hq. apply check_re_ok, full_opening_qualifier. auto.
Qed.
Lemma check_re_raise r s e : check_re r s = Raise e -> e = ValueError.
Proof. intros H. apply check_raise in H as [_ H]. auto. Qed.
Lemma new_Layer_none key q e : new_Layer key None q = Raise e -> e = ValueError \/ e = TypeError.
Proof.
  unfold new_Layer. destruct key as [k|]; cbn [check_optional bind check_is_str]; [|intros [= <-]; auto].
  destruct (check_re re_segment_group k) as [[]|e'] eqn:E; cbn [bind]; [intros [= <-]; auto|].
  apply check_re_raise in E as ->. intros [= <-]; auto.
Qed.
Lemma new_Layer_raise key o q e : new_Layer key (Some o) q = Raise e -> e = ValueError.
Proof.
  unfold new_Layer. cbn [check_is_str bind].
  destruct (check_optional (check_re re_segment_group) key) as [[]|e1] eqn:E1; cbn [bind].
  2:{ destruct key as [k|]; [|discriminate]. apply check_re_raise in E1 as ->. congruence. }
  destruct (check_re re_three_letters o) as [[]|e2] eqn:E2; cbn [bind].
  2:{ apply check_re_raise in E2 as ->. congruence. }
  destruct (check_optional (check_re re_opening_qualifier) q) as [[]|e3] eqn:E3; cbn [bind]; [discriminate|].
  destruct q as [k|]; [|discriminate]. apply check_re_raise in E3 as ->. congruence.
Qed.

Definition valid_location_fields (layers : list Layer) (segment element : option pystr) : Prop :=
  layers <> [] /\ (forall s, segment = Some s -> three_capitals s) /\ (forall d, element = Some d -> n_digits 4 d).
Lemma new_Location_ok p layers segment element qualifier l :
  new_Location p layers segment element qualifier = Ok l
  <-> l = mkLocation p layers segment element qualifier /\ valid_location_fields layers segment element.
Proof.
  unfold new_Location, valid_location_fields. rewrite bind_ok. split.
  - intros ([] & H1 & H). apply bind_ok in H as ([] & H2 & H). apply bind_ok in H as ([] & H3 & [= <-]).
    apply check_ok in H1. split; [reflexivity|]. split; [|split].
    + intros ->. discriminate.
    + intros k ->. now apply full_three_letters, check_re_ok.
    + intros k ->. now apply full_digits, check_re_ok.
  - intros (-> & H1 & H2 & H3). exists tt. split.
    { apply check_ok. destruct layers; [congruence|reflexivity]. }
    apply bind_ok. exists tt. split.
    { apply check_optional_ok. intros k Hk. apply check_re_ok, full_three_letters. auto. }
    apply bind_ok. exists tt. split; [|reflexivity].
    apply check_optional_ok. intros q Hq. apply check_re_ok, full_digits. auto.
Qed.
Lemma new_Location_raise p layers segment element qualifier e :
  new_Location p layers segment element qualifier = Raise e -> e = ValueError.
Proof.
  unfold new_Location.
  destruct (check _ ValueError) as [[]|e1] eqn:E1; cbn [bind].
  2:{ apply check_raise in E1 as [_ <-]. congruence. }
  destruct (check_optional _ segment) as [[]|e1'] eqn:E2; cbn [bind].
  2:{ destruct segment as [k|]; [|discriminate]. apply check_re_raise in E2 as ->. congruence. }
  destruct (check_optional _ element) as [[]|e3] eqn:E3; cbn [bind]; [discriminate|].
  destruct element as [k|]; [|discriminate]. apply check_re_raise in E3 as ->. congruence.
Qed.
