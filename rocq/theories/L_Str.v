(** Facts about Python strings. *)
From Coq Require Import List NArith ZArith Bool Ascii String Lia Arith.
From Verif Require Import PyBase PyUni PyStr S_Text L_Base.
Import ListNotations.
Local Open Scope list_scope.

#[global] Opaque is_space is_decimal is_word upper_is_self is_cased is_case_ignorable lower_char.

Lemma lstrip_spec s : exists a, s = a ++ lstrip s /\ blank a
  /\ (forall c r, lstrip s = c :: r -> is_space c = false).
Proof.
  induction s as [|c s (a & E & Ha & H)]; cbn [lstrip].
  - exists []. repeat split; [constructor|]. intros c r [=].
  - destruct (is_space c) eqn:Hc.
    + exists (c :: a). cbn. rewrite <- E. repeat split; [now constructor|exact H].
    + exists []. repeat split; [constructor|]. intros d r [= <- <-]. exact Hc.
Qed.

Lemma lstrip_all_space s : lstrip s = [] <-> blank s.
Proof.
  induction s as [|c s IH]; cbn [lstrip]; [split; [constructor|reflexivity]|].
  destruct (is_space c) eqn:Hc.
  - rewrite IH. split; [now constructor|intros H; now inversion H].
  - split; [discriminate|intros H; inversion H; congruence].
Qed.

Lemma blank_rev s : blank (rev s) <-> blank s.
Proof. unfold blank, all. rewrite !Forall_forall. split; intros H x Hx; apply H; [now apply in_rev; rewrite rev_involutive|now apply in_rev]. Qed.

Lemma rstrip_spec s : exists b, s = rstrip s ++ b /\ blank b
  /\ (forall c r, rstrip s = r ++ [c] -> is_space c = false).
Proof.
  unfold rstrip. destruct (lstrip_spec (rev s)) as (a & E & Ha & H).
  exists (rev a). repeat split.
  - rewrite <- rev_app_distr, <- E. now rewrite rev_involutive.
  - now apply blank_rev.
  - intros c r Er. apply (f_equal (@rev _)) in Er. rewrite rev_involutive, rev_app_distr in Er.
    exact (H _ _ Er).
Qed.

Lemma strip_spec s : stripped s (strip s).
Proof.
  unfold strip. destruct (lstrip_spec s) as (a & Ea & Ha & H1).
  destruct (rstrip_spec (lstrip s)) as (b & Eb & Hb & H2).
  exists a, b. rewrite <- Eb. repeat split; try assumption.
  intros c r Er. rewrite Er in Eb. cbn in Eb. exact (H1 _ _ Eb).
Qed.

Lemma blank_app a b : blank (a ++ b) <-> blank a /\ blank b.
Proof. apply Forall_app. Qed.

Lemma lstrip_app a t : blank a -> lstrip (a ++ t) = lstrip t.
Proof.
  intros H. induction H as [|c a Hc Ha IH]; [reflexivity|]. cbn [app lstrip]. now rewrite Hc.
Qed.
Lemma lstrip_head c r : is_space c = false -> lstrip (c :: r) = c :: r.
Proof. intros H. cbn [lstrip]. now rewrite H. Qed.
Lemma rstrip_app t b : blank b -> rstrip (t ++ b) = rstrip t.
Proof. intros H. unfold rstrip. rewrite rev_app_distr, lstrip_app; [reflexivity|now apply blank_rev]. Qed.

Lemma stripped_unique s t : stripped s t -> strip s = t.
Proof.
  intros (a & b & -> & Ha & Hb & H1 & H2). unfold strip. rewrite lstrip_app by assumption.
  destruct t as [|c t].
  - cbn [app]. apply lstrip_all_space in Hb. rewrite Hb. reflexivity.
  - cbn [app]. rewrite lstrip_head by (eapply H1; reflexivity).
    change (c :: t ++ b) with ((c :: t) ++ b). rewrite rstrip_app by assumption.
    unfold rstrip. assert (Hn : c :: t <> []) by discriminate.
    destruct (exists_last Hn) as (r & d & E). rewrite E, rev_app_distr. cbn [rev app].
    rewrite lstrip_head by (eapply H2; exact E). cbn [rev]. now rewrite rev_involutive.
Qed.

Lemma strip_nil s : strip s = [] <-> blank s.
Proof.
  split.
  - intros E. destruct (strip_spec s) as (a & b & Es & Ha & Hb & _). rewrite E in Es. cbn in Es. subst.
    now apply blank_app.
  - intros H. apply stripped_unique. exists s, []. repeat split; try assumption; try constructor.
    + now rewrite app_nil_r.
    + intros ? ? [=].
    + intros ? [|] [=].
Qed.

Lemma strip_involutive s : strip (strip s) = strip s.
Proof.
  destruct (strip_spec s) as (a & b & Es & Ha & Hb & H1 & H2).
  apply stripped_unique. exists [], []. cbn. rewrite app_nil_r.
  repeat split; try assumption; constructor.
Qed.
Lemma stripped_id s :
  (forall c r, s = c :: r -> is_space c = false) -> (forall c r, s = r ++ [c] -> is_space c = false) ->
  strip s = s.
Proof.
  intros H1 H2. apply stripped_unique. exists [], []. cbn. rewrite app_nil_r. repeat split; try assumption; constructor.
Qed.

(** ** prefixes *)
Lemma startswith_spec s pre : startswith s pre = true <-> exists r, s = pre ++ r.
Proof.
  revert s; induction pre as [|p pre IH]; intros s; cbn [startswith].
  - split; [intros _; now exists s|destruct s; reflexivity].
  - destruct s as [|c s]; [cbn [startswith]; split; [discriminate|intros [r [=]]]|].
    cbn [startswith]. rewrite andb_true_iff, N.eqb_eq, IH. split.
    + intros [-> [r ->]]. now exists r.
    + intros [r [= -> ->]]. split; [reflexivity|now exists r].
Qed.
Lemma startswith_nil s : startswith s [] = true.
Proof. destruct s; reflexivity. Qed.

Lemma contains_spec s sub : contains s sub = true <-> exists a b, s = a ++ sub ++ b.
Proof.
  induction s as [|c s IH]; cbn [contains].
  - rewrite orb_false_r, startswith_spec. split.
    + intros [r E]. exists [], r. exact E.
    + intros (a & b & E). destruct a as [|x a]; [|discriminate]. now exists b.
  - rewrite orb_true_iff, startswith_spec, IH. split.
    + intros [[r E]|(a & b & ->)]; [exists [], r; exact E|now exists (c :: a), b].
    + intros (a & b & E). destruct a as [|x a]; [left; now exists b|].
      right. injection E as -> ->. now exists a, b.
Qed.

Lemma all_app p a b : all p (a ++ b) <-> all p a /\ all p b.
Proof. apply Forall_app. Qed.
Lemma all_forallb p s : forallb p s = true <-> all p s.
Proof. unfold all. rewrite forallb_forall, Forall_forall. reflexivity. Qed.

Lemma truthy_true s : truthy s = true <-> s <> [].
Proof. destruct s; cbn; split; congruence. Qed.
Lemma otruthy_true o : otruthy o = true <-> exists s, o = Some s /\ s <> [].
Proof.
  destruct o as [s|]; cbn.
  - rewrite truthy_true. split; [eauto|intros (t & [= <-] & H); exact H].
  - split; [congruence|intros (t & [=] & _)].
Qed.
