(** The classes of characters of PyStr.v and M_Xml.v are those of S_Chars.v. *)
From Coq Require Import Ascii String List NArith Bool Lia.
From Verif Require Import PyBase PyUni PyStr M_Xml S_Chars.
Import ListNotations.
Local Open Scope list_scope.
Local Open Scope N_scope.

Lemma in_range_spec a b c : in_range a b c = true <-> a <= c <= b.
Proof. unfold in_range. now rewrite andb_true_iff, !N.leb_le. Qed.
Lemma in_ranges_spec rs c : in_ranges rs c = true <-> exists r, In r rs /\ fst r <= c <= snd r.
Proof.
  unfold in_ranges. rewrite existsb_exists. split; intros (r & I & H); exists r; (split; [exact I|]); now rewrite andb_true_iff, !N.leb_le in *.
Qed.

(** *** decimal digits *)
Definition decades (r : N * N) : list N := map (fun i => fst r + 10 * N.of_nat i) (seq 0 (N.to_nat ((snd r + 1 - fst r) / 10))).
Lemma decades_zeros : flat_map decades decimal_ranges = zeros.
Proof. vm_compute. reflexivity. Qed.
Lemma complete_decades : forall r, In r decimal_ranges -> fst r <= snd r /\ (snd r + 1 - fst r) mod 10 = 0.
Proof.
  assert (K : forallb (fun r => (fst r <=? snd r) && ((snd r + 1 - fst r) mod 10 =? 0)) decimal_ranges = true) by (vm_compute; reflexivity).
  intros r I. rewrite forallb_forall in K. specialize (K r I). now rewrite andb_true_iff, N.leb_le, N.eqb_eq in K.
Qed.
Lemma in_decade r c : fst r <= snd r -> (snd r + 1 - fst r) mod 10 = 0 ->
  (fst r <= c <= snd r <-> exists zero v, In zero (decades r) /\ v <= 9 /\ c = zero + v /\ (c - fst r) mod 10 = v).
Proof.
  destruct r as [a b]. unfold decades. cbn [fst snd]. intros L M. set (k := (b + 1 - a) / 10).
  assert (E : b + 1 - a = 10 * k) by (unfold k; rewrite (N.div_mod (b + 1 - a) 10) at 1 by lia; lia). split.
  - intros H. set (i := (c - a) / 10). set (v := (c - a) mod 10).
    assert (D : c - a = 10 * i + v) by (apply N.div_mod; lia). assert (V : v < 10) by (apply N.mod_lt; lia).
    exists (a + 10 * i), v. split; [|split; [lia|split; [lia|reflexivity]]]. apply in_map_iff. exists (N.to_nat i). split; [lia|]. apply in_seq. lia.
  - intros (z & v & I & V & C & _). apply in_map_iff in I as (i & <- & I). apply in_seq in I. lia.
Qed.
Lemma zeros_apart : forall z z' c, In z zeros -> In z' zeros -> z <= c <= z + 9 -> z' <= c <= z' + 9 -> z = z'.
Proof.
  assert (K : forallb (fun z => forallb (fun z' => (z =? z') || (z + 9 <? z') || (z' + 9 <? z)) zeros) zeros = true) by (vm_compute; reflexivity).
  intros z z' c I I' H H'. rewrite forallb_forall in K. specialize (K z I). rewrite forallb_forall in K. specialize (K z' I').
  rewrite !orb_true_iff, N.eqb_eq, !N.ltb_lt in K. lia.
Qed.
Lemma in_zeros r z : In r decimal_ranges -> In z (decades r) -> In z zeros.
Proof. intros I J. rewrite <- decades_zeros. apply in_flat_map. eauto. Qed.

Lemma decimal_spec c : is_decimal c = true <-> exists v, decimal_digit c v.
Proof.
  unfold is_decimal. rewrite in_ranges_spec. split.
  - intros (r & I & H). destruct (complete_decades r I) as [L M]. apply (in_decade r c L M) in H as (z & v & J & V & C & _).
    exists v, z. split; [now apply in_zeros with r|auto].
  - intros (v & z & I & V & ->). rewrite <- decades_zeros in I. apply in_flat_map in I as (r & J & I). exists r. split; [exact J|].
    destruct (complete_decades r J) as [L M]. destruct r as [a b]. unfold decades in I. cbn [fst snd] in *. apply in_map_iff in I as (i & <- & I). apply in_seq in I.
    assert (E : b + 1 - a = 10 * ((b + 1 - a) / 10)) by (rewrite (N.div_mod (b + 1 - a) 10) at 1 by lia; lia). lia.
Qed.
Lemma digit_value_spec c v : decimal_digit c v -> digit_value c = v.
Proof.
  intros (z & I & V & C). unfold digit_value. destruct (find _ decimal_ranges) as [r|] eqn:F.
  - apply find_some in F as [J F]. rewrite andb_true_iff, !N.leb_le in F. destruct (complete_decades r J) as [L M].
    apply (in_decade r c L M) in F as (z' & v' & K & V' & C' & ->). apply (in_zeros _ _ J) in K. assert (z = z') by (apply (zeros_apart z z' c); auto; lia). lia.
  - exfalso. assert (D : is_decimal c = true) by (apply decimal_spec; exists v, z; auto). unfold is_decimal in D. apply in_ranges_spec in D as (r & J & D).
    apply (find_none _ _ F) in J. rewrite andb_false_iff, !N.leb_gt in J. lia.
Qed.

(** *** whitespace *)
Lemma space_spec c : is_space c = true <-> whitespace c.
Proof.
  unfold is_space, whitespace, in_ranges, space_ranges. cbn [existsb fst snd In]. rewrite !orb_true_iff, !andb_true_iff, !N.leb_le. split.
  - intros H. lia.
  - intros H. repeat (destruct H as [<- |H]; [lia|]). contradiction.
Qed.

Lemma xml_char_spec c : c <= 1114111 -> (is_xml_char c = true <-> xml_character c).
Proof. intros L. unfold is_xml_char, xml_character. rewrite !orb_true_iff, !andb_true_iff, !N.leb_le, !N.eqb_eq. lia. Qed.
