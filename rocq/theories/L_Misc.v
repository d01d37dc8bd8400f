(** Lemmas about words in lower case texts. *)
From Coq Require Import Ascii String List NArith Bool Lia.
From Verif Require Import PyUni PyBase PyStr PyRe M_Components M_Misc L_Base L_Re S_Text L_Str L_Validators L_Names S_Misc.
Import ListNotations.
Local Open Scope list_scope.
#[local] Transparent lower_char is_decimal.

(** letters that are the lower case form of themselves and their ASCII capital only *)
Definition plain (k : char) : bool :=
  (in_range 97 122 k && negb (N.eqb k 105)
   && forallb (fun kv => negb (N.eqb (snd kv) k) || N.eqb (fst kv + 32) k) lower_pairs
   && match assoc_N (k - 32) lower_pairs with Some d => N.eqb d k | None => false end
   && is_none (assoc_N k lower_pairs))%N%bool.
Definition piece (before : pystr) (c : char) (r : pystr) : pystr :=
  (if c =? 931 then if next_is_cased before && negb (next_is_cased r) then [962] else [963] else lower_char c)%N.
Lemma lower_cons b c r : lower_go b (c :: r) = piece b c r ++ lower_go (c :: b) r.
Proof. reflexivity. Qed.
Lemma plain_range k : plain k = true -> (97 <= k <= 122)%N /\ k <> 105%N.
Proof.
  unfold plain, in_range. intros H. repeat (apply andb_prop in H; destruct H as [H ?]).
  apply N.leb_le in H. split; [|intros ->; discriminate].
  match goal with X : (k <=? 122)%N = true |- _ => apply N.leb_le in X end. lia.
Qed.
Lemma plain_piece k b c r : plain k = true -> In k (piece b c r) -> letter_in_any_case k c.
Proof.
  intros P H. destruct (plain_range k P) as [[R1 R2] R3]. unfold piece in H.
  destruct (N.eqb_spec c 931).
  { destruct (_ && _)%bool; destruct H as [H|[]]; lia. }
  unfold lower_char in H. destruct (N.eqb_spec c 304).
  { destruct H as [H|[H|[]]]; lia. }
  destruct (assoc_N c lower_pairs) as [d|] eqn:E.
  - destruct H as [->|[]]. right. apply assoc_In in E.
    unfold plain in P. repeat (apply andb_prop in P; destruct P as [P ?]).
    match goal with X : forallb _ _ = true |- _ => rewrite forallb_forall in X; specialize (X _ E); simpl in X end.
    rewrite N.eqb_refl in *. simpl in *. now apply N.eqb_eq.
  - destruct H as [->|[]]. now left.
Qed.
Lemma piece_plain k b c r : plain k = true -> letter_in_any_case k c -> piece b c r = [k].
Proof.
  intros P H. destruct (plain_range k P) as [[R1 R2] R3].
  unfold plain in P. repeat (apply andb_prop in P; destruct P as [P ?]).
  assert (A : c <> 931%N) by (destruct H; lia). assert (B : c <> 304%N) by (destruct H; lia).
  unfold piece, lower_char. destruct (N.eqb_spec c 931); [easy|]. destruct (N.eqb_spec c 304); [easy|].
  destruct H as [->|H].
  - destruct (assoc_N k lower_pairs); [discriminate|easy].
  - replace (k - 32)%N with c in * by lia. destruct (assoc_N c lower_pairs) as [d|]; [|discriminate].
    f_equal. now apply N.eqb_eq.
Qed.
Lemma piece_nonempty b c r : piece b c r <> [].
Proof.
  unfold piece, lower_char. destruct (c =? 931)%N; [destruct (_ && _)%bool; discriminate|].
  destruct (c =? 304)%N; [discriminate|]. destruct (assoc_N c lower_pairs); discriminate.
Qed.
Lemma word_prefix w : forall b s t, forallb plain w = true -> lower_go b s = w ++ t ->
  exists x r, s = x ++ r /\ Forall2 letter_in_any_case w x.
Proof.
  induction w as [|k w IH]; intros b s t P E.
  { exists [], s. split; [easy|constructor]. }
  simpl in P. apply andb_prop in P. destruct P as [P Pw].
  destruct s as [|c s]; [discriminate|]. rewrite lower_cons in E.
  assert (K : letter_in_any_case k c).
  { destruct (piece b c s) as [|k' p] eqn:Q; [now apply piece_nonempty in Q|].
    simpl in E. injection E as -> _. apply (plain_piece k b c s P). rewrite Q. now left. }
  rewrite (piece_plain k b c s P K) in E. simpl in E. assert (E' : lower_go (c :: b) s = w ++ t) by congruence.
  destruct (IH _ _ _ Pw E') as (x & r & -> & F). exists (c :: x), r. split; [easy|]. now constructor.
Qed.
Lemma prefix_word w : forall b x r, forallb plain w = true -> Forall2 letter_in_any_case w x ->
  exists t, lower_go b (x ++ r) = w ++ t.
Proof.
  induction w as [|k w IH]; intros b x r P F; inversion F; subst.
  { now eexists. }
  simpl in P. apply andb_prop in P. destruct P as [P Pw].
  change ((y :: l') ++ r) with (y :: (l' ++ r)). rewrite lower_cons, (piece_plain k _ _ _ P) by easy.
  destruct (IH (y :: b) l' r Pw) as (t & E); [easy|]. exists t. simpl. now rewrite E.
Qed.
Lemma lower_word w s : w <> [] -> forallb plain w = true ->
  (contains (lower s) w = true <-> mentions_word w s).
Proof.
  intros N P. unfold lower. generalize (@nil char) at 1 as b.
  enough (H : forall b, contains (lower_go b s) w = true <-> mentions_word w s) by (intros b; apply H).
  induction s as [|c s IH]; intros b.
  - rewrite contains_spec. split.
    + intros (x & y & E). destruct x; [|discriminate]. destruct w; [easy|discriminate].
    + intros (a & x & t & E & F). destruct a; [|discriminate]. destruct x; [|discriminate]. inversion F. now subst.
  - rewrite contains_spec. split.
    + intros (x & y & E). destruct x as [|x0 x].
      { destruct (word_prefix w b (c :: s) y P E) as (z & r & E' & F). exists [], z, r. now rewrite E'. }
      rewrite lower_cons in E.
      assert (T : exists x' , lower_go (c :: b) s = x' ++ w ++ y).
      { destruct (piece b c s) as [|p0 p] eqn:Q; [now apply piece_nonempty in Q|].
        assert (L : p = [] \/ exists k, p = [k] /\ (k = 775)%N).
        { unfold piece, lower_char in Q. destruct (c =? 931)%N; [destruct (_ && _)%bool; injection Q as _ <-; now left|].
          destruct (c =? 304)%N; [injection Q as _ <-; right; now exists 775%N|].
          destruct (assoc_N c lower_pairs); injection Q as _ <-; now left. }
        simpl in E. assert (E1 : p ++ lower_go (c :: b) s = x ++ w ++ y) by congruence.
        destruct L as [->|(k & -> & ->)]; [now exists x|].
        destruct x as [|x1 x].
        - destruct w as [|k w]; [easy|]. simpl in E1. assert (k = 775%N) by congruence. subst k.
          now simpl in P.
        - simpl in E1. exists x. congruence. }
      destruct T as (x' & T).
      assert (M : mentions_word w s) by (apply (IH (c :: b)); apply contains_spec; eauto).
      destruct M as (a & z & t & -> & F). now exists (c :: a), z, t.
    + intros (a & x & t & E & F). destruct a as [|a0 a].
      { simpl in E. rewrite E. destruct (prefix_word w b x t P F) as (r & ->). now exists [], r. }
      simpl in E. assert (a0 = c /\ s = a ++ x ++ t) as [-> E'] by (split; congruence).
      assert (C : contains (lower_go (c :: b) s) w = true) by (apply IH; now exists a, x, t).
      apply contains_spec in C. destruct C as (p & q & C). exists (piece b c s ++ p), q.
      rewrite lower_cons, C. now rewrite app_assoc.
Qed.
Lemma gas_word s : contains (lower s) (u "gas") = true <-> mentions_word (u "gas") s.
Proof. apply lower_word; [discriminate|now vm_compute]. Qed.
Lemma strom_word s : contains (lower s) (u "strom") = true <-> mentions_word (u "strom") s.
Proof. apply lower_word; [discriminate|now vm_compute]. Qed.
Lemma pruefi_shape s : fullmatches re_PRUEFI s = true <-> five_digits s.
Proof.
  rewrite fullmatches_acc. unfold re_PRUEFI. rewrite acc_bol_seq, acc_seq. split.
  - intros (m & A & B). destruct A as (c & -> & H).
    apply acc_seq in B. destruct B as (m' & B & D). destruct D as [<- _].
    apply acc_rep_char in B. destruct B as (w & -> & L & F).
    exists c, w. rewrite app_nil_r. split; [easy|]. split; [|split; [easy|now apply all_forallb]].
    unfold is_19, in_range in H. apply andb_prop in H. destruct H as [H1 H2]. apply N.leb_le in H1, H2. lia.
  - intros (c & ds & -> & R & L & F). exists ds. split.
    + apply acc_char. exists c. split; [easy|]. unfold is_19, in_range. apply andb_true_intro. split; apply N.leb_le; lia.
    + apply acc_seq. exists []. split; [|cbn; auto].
      apply acc_rep_char. exists ds. rewrite app_nil_r, all_forallb. auto.
Qed.
