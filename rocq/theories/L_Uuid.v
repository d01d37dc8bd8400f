(** Reading a printed UUID. *)
From Coq Require Import Ascii String List NArith ZArith Bool Lia.
From Verif Require Import PyBase PyStr M_Schema L_Base L_Str.
Import ListNotations.
Local Open Scope list_scope.

Definition is_hex_digit (c : char) : bool :=
  match digit_in 16 c with Some _ => (negb (N.eqb c 95) && negb (N.eqb c chr_dash) && negb (N.eqb c 117) && negb (N.eqb c 123) && negb (N.eqb c 125)
     && negb (is_int_space c) && negb (N.eqb c 43) && negb (N.eqb c 120) && negb (N.eqb c 88))%bool | None => false end.

Lemma below_16 (P : N -> bool) :
  forallb P [0;1;2;3;4;5;6;7;8;9;10;11;12;13;14;15]%N = true -> forall d, (d < 16)%N -> P d = true.
Proof.
  intros H d L. rewrite forallb_forall in H. apply H.
  assert (In d (map N.of_nat (seq 0 16))) as K; [|exact K].
  apply in_map_iff. exists (N.to_nat d). split; [lia|]. apply in_seq. lia.
Qed.
Lemma hex_digit_ok d : (d < 16)%N -> digit_in 16 (hex_digit d) = Some d.
Proof.
  intros L. pose proof (below_16 (fun d => match digit_in 16 (hex_digit d) with Some x => N.eqb x d | None => false end)
                          ltac:(vm_compute; reflexivity) d L) as H.
  cbv beta in H. destruct (digit_in 16 (hex_digit d)); [|discriminate]. apply N.eqb_eq in H. now subst.
Qed.
Lemma hex_digit_is d : (d < 16)%N -> is_hex_digit (hex_digit d) = true.
Proof. apply (below_16 (fun d => is_hex_digit (hex_digit d))). vm_compute. reflexivity. Qed.

Lemma hex_all k : forall n, Forall (fun c => is_hex_digit c = true) (hex k n).
Proof.
  induction k as [|k IH]; intros n; cbn [hex]; [constructor|]. apply Forall_app. split; [apply IH|].
  constructor; [|constructor]. apply hex_digit_is. apply N.mod_lt. discriminate.
Qed.
Lemma hex_length k : forall n, List.length (hex k n) = k.
Proof. induction k as [|k IH]; intros n; cbn [hex]; [reflexivity|]. rewrite app_length, IH. cbn [List.length]. lia. Qed.

Definition hex_value (c : char) : N := match digit_in 16 c with Some d => d | None => 0%N end.
Lemma int_digits_plain s : forall acc, s <> [] -> Forall (fun c => is_hex_digit c = true) s ->
  int_digits 16 acc s = Some (fold_left (fun a c => a * 16 + hex_value c)%N s acc).
Proof.
  induction s as [|c s IH]; intros acc N0 H; [congruence|]. inversion H as [|? ? Hc Hs]; subst. cbn [int_digits fold_left].
  unfold hex_value at 2. unfold is_hex_digit in Hc. destruct (digit_in 16 c) as [d|]; [|discriminate].
  destruct s as [|c' s]; [reflexivity|].
  assert (E : N.eqb c' 95 = false).
  { inversion Hs as [|? ? Hc' _]; subst. unfold is_hex_digit in Hc'. destruct (digit_in 16 c'); [|discriminate].
    destruct (N.eqb c' 95); [discriminate|reflexivity]. }
  rewrite E. apply IH; [discriminate|exact Hs].
Qed.
Lemma hex_fold k : forall n acc,
  fold_left (fun a c => a * 16 + hex_value c)%N (hex k n) acc = (acc * 16 ^ N.of_nat k + n mod 16 ^ N.of_nat k)%N.
Proof.
  induction k as [|k IH]; intros n acc; cbn [hex].
  - cbn [fold_left]. rewrite N.pow_0_r, N.mod_1_r. lia.
  - rewrite fold_left_app, IH. cbn [fold_left]. unfold hex_value. rewrite hex_digit_ok by (apply N.mod_lt; discriminate).
    rewrite Nat2N.inj_succ, N.pow_succ_r'.
    rewrite N.mod_mul_r by (try discriminate; apply N.pow_nonzero; discriminate).
    ring.
Qed.

Lemma drop_while_none p s : Forall (fun c => p c = false) s -> drop_while p s = s.
Proof. destruct 1 as [|c s H _]; cbn [drop_while]; [reflexivity|]. now rewrite H. Qed.
Lemma strip_with_none p s : Forall (fun c => p c = false) s -> strip_with p s = s.
Proof.
  intros H. unfold strip_with. rewrite (drop_while_none p s H), drop_while_none; [apply rev_involutive|]. now apply Forall_rev.
Qed.
Lemma replace_none s o old new : Forall (fun c => c <> o) s -> replace s (o :: old) new = s.
Proof.
  unfold replace. induction 1 as [|c s H _ IH]; cbn [replace_go]; [reflexivity|].
  assert (startswith (c :: s) (o :: old) = false) as ->.
  { cbn [startswith]. destruct (N.eqb_spec c o); [congruence|reflexivity]. }
  now rewrite IH.
Qed.
Definition not_char (c x : char) : bool := negb (N.eqb x c).
Lemma replace_char s c : replace s [c] [] = @filter char (not_char c) s.
Proof.
  unfold replace. induction s as [|x s IH]; cbn [replace_go filter]; [reflexivity|].
  cbn [startswith]. rewrite startswith_nil, andb_true_r. cbn [List.length Nat.sub app].
  unfold not_char at 1. destruct (N.eqb x c); cbn [negb]; [exact IH|]. now rewrite IH.
Qed.

Lemma uuid_round_trip n : (n < 2 ^ 128)%N -> uuid_of_str (str_of_uuid n) = Some n.
Proof.
  intros L. unfold uuid_of_str, str_of_uuid.
  set (h := hex 32 n). assert (Hh : Forall (fun c => is_hex_digit c = true) h) by apply hex_all.
  assert (Lh : List.length h = 32) by apply hex_length.
  assert (Vh : forall acc, fold_left (fun a c => a * 16 + hex_value c)%N h acc = (acc * 16 ^ N.of_nat 32 + n mod 16 ^ N.of_nat 32)%N) by (intros; apply hex_fold).
  clearbody h.
  set (t := firstn 8 h ++ [chr_dash] ++ firstn 4 (skipn 8 h) ++ [chr_dash] ++ firstn 4 (skipn 12 h)
                ++ [chr_dash] ++ firstn 4 (skipn 16 h) ++ [chr_dash] ++ skipn 20 h).
  assert (Ht : Forall (fun c => c = chr_dash \/ is_hex_digit c = true) t).
  { assert (H : Forall (fun c => c = chr_dash \/ is_hex_digit c = true) h) by (eapply Forall_impl; [|exact Hh]; auto).
    assert (F : forall a b, Forall (fun c => c = chr_dash \/ is_hex_digit c = true) (firstn a (skipn b h))).
    { intros a b. rewrite Forall_forall in *. intros x Hx. apply H.
      rewrite <- (firstn_skipn b h), <- (firstn_skipn a (skipn b h)). apply in_app_iff. right. apply in_app_iff. now left. }
    assert (D : Forall (fun c => c = chr_dash \/ is_hex_digit c = true) [chr_dash]) by (constructor; [now left|constructor]).
    unfold t. repeat (apply Forall_app; split); auto.
    - apply (F 8 0).
    - pose proof (F (List.length (skipn 20 h)) 20) as F20. rewrite firstn_all in F20. exact F20. }
  assert (Et : @filter char (not_char chr_dash) t = h).
  { assert (K : forall a b, @filter char (not_char chr_dash) (firstn a (skipn b h)) = firstn a (skipn b h)).
    { assert (K0 : forall l, Forall (fun c => is_hex_digit c = true) l -> @filter char (not_char chr_dash) l = l).
      { induction 1 as [|c l Hc _ IH]; cbn [filter]; [reflexivity|]. rewrite IH. unfold is_hex_digit in Hc.
        unfold not_char at 1. destruct (digit_in 16 c); [|discriminate]. destruct (N.eqb c chr_dash); [|reflexivity]. rewrite !andb_false_r in Hc; cbn in Hc. rewrite ?andb_false_r in Hc. discriminate. }
      intros a b. apply K0. rewrite Forall_forall in *. intros x Hx. apply Hh.
      rewrite <- (firstn_skipn b h), <- (firstn_skipn a (skipn b h)). apply in_app_iff. right. apply in_app_iff. now left. }
    unfold t. rewrite !filter_app.
    change (@filter char (not_char chr_dash) [chr_dash]) with (@nil char). cbn [app].
    rewrite !K. rewrite (K 8 0 : filter _ (firstn 8 h) = _).
    pose proof (K (List.length (skipn 20 h)) 20) as K2. rewrite firstn_all in K2. rewrite K2.
    do 32 (destruct h as [|? h]; [discriminate|]). destruct h; [reflexivity|discriminate]. }
  clearbody t.
  assert (H117 : Forall (fun c => c <> 117%N) t).
  { eapply Forall_impl; [|exact Ht]. intros c [-> |Hc]; [discriminate|]. intros ->. vm_compute in Hc. discriminate. }
  change (u "urn:") with (117%N :: u "rn:"). rewrite (replace_none t 117%N _ _ H117).
  change (u "uuid:") with (117%N :: u "uid:"). rewrite (replace_none t 117%N _ _ H117).
  rewrite strip_with_none.
  2:{ eapply Forall_impl; [|exact Ht]. intros c [-> |Hc]; [reflexivity|].
      destruct (N.eqb_spec c 123) as [-> |]; [vm_compute in Hc; discriminate|].
      destruct (N.eqb_spec c 125) as [-> |]; [vm_compute in Hc; discriminate|]. reflexivity. }
  rewrite replace_char, Et, Lh, Nat.eqb_refl.
  assert (E : py_int 16 h = Some (Z.of_N n)).
  { unfold py_int. rewrite strip_with_none.
    2:{ eapply Forall_impl; [|exact Hh]. intros c Hc. unfold is_hex_digit in Hc. destruct (digit_in 16 c); [|discriminate].
        destruct (is_int_space c); [|reflexivity]. cbn in Hc. rewrite ?andb_false_r in Hc. discriminate. }
    assert (S : match h with
                | [] => (false, [])
                | c :: r => if N.eqb c 45 then (true, r) else if N.eqb c 43 then (false, r) else (false, h)
                end = (false, h)).
    { destruct h as [|c r]; [reflexivity|]. inversion Hh as [|? ? Hc _]; subst.
      destruct (N.eqb_spec c 45) as [-> |]; [vm_compute in Hc; discriminate|].
      destruct (N.eqb_spec c 43) as [-> |]; [vm_compute in Hc; discriminate|]. reflexivity. }
    rewrite S.
    assert (D : drop_0x 16 h = h).
    { destruct h as [|c [|x r]]; try reflexivity. cbn [drop_0x]. inversion Hh as [|? ? _ Hr]; subst. inversion Hr as [|? ? Hx _]; subst.
      destruct (N.eqb_spec x 120) as [-> |]; [vm_compute in Hx; discriminate|].
      destruct (N.eqb_spec x 88) as [-> |]; [vm_compute in Hx; discriminate|]. now rewrite andb_false_r. }
    rewrite D, int_digits_plain; [|intros ->; discriminate|exact Hh]. cbn [option_map]. rewrite Vh. f_equal. f_equal.
    rewrite N.mul_0_l, N.add_0_l. apply N.mod_small. exact L. }
  rewrite E.
  assert (Z.leb 0 (Z.of_N n) = true) as -> by (apply Z.leb_le; lia).
  assert (Z.ltb (Z.of_N n) (2 ^ 128) = true) as ->.
  { apply Z.ltb_lt. change (2 ^ 128)%Z with (Z.of_N (2 ^ 128)). lia. }
  cbn [andb]. now rewrite N2Z.id.
Qed.
