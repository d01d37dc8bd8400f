(** Writing JSON texts, UTF-8 and line ends. *)
From Coq Require Import Ascii String List NArith ZArith Bool Lia.
From Verif Require Import PyBase PyStr M_Components M_Ahb M_Schema M_Cli M_JsonText L_Base L_ValuePool L_Paths S_Text S_FlatAhb S_Csv L_Csv S_DeepAhb S_Cli L_Reorder S_JsonText L_JsonText.
Import ListNotations.
Local Open Scope list_scope.
Ltac Zify.zify_post_hook ::= Z.to_euclidean_division_equations.

(** ** strings *)
Lemma control_hex c : (c < 32)%N -> hex_digits_are (hex 4 c) c.
Proof.
  intros H.
  assert (A : forallb (fun k => match hex 4 (N.of_nat k) with [a; b; x; y] => match hex4 a b x y with Some m => N.eqb m (N.of_nat k) | None => false end | _ => false end) (seq 0 32) = true) by (vm_compute; reflexivity).
  rewrite forallb_forall in A. specialize (A (N.to_nat c)). rewrite N2Nat.id in A.
  assert (I0 : In (N.to_nat c) (seq 0 32)) by (apply in_seq; lia). specialize (A I0).
  destruct (hex 4 c) as [|a [|b [|x [|y [|]]]]]; try discriminate. destruct (hex4 a b x y) as [m|] eqn:E; [|discriminate].
  apply N.eqb_eq in A. subst m. now apply hex4_spec.
Qed.
Lemma encoded_string s : string_text s (flat_map encode_char s).
Proof.
  induction s as [|c s IH]; [constructor|]. cbn [flat_map]. unfold encode_char at 1.
  destruct (N.eqb_spec c 34) as [-> |N1]; [apply string_short; [cbn; tauto|exact IH]|].
  destruct (N.eqb_spec c 92) as [-> |N2]; [apply string_short; [cbn; tauto|exact IH]|].
  destruct (N.eqb_spec c 10) as [-> |N3]; [apply string_short; [cbn; tauto|exact IH]|].
  destruct (N.eqb_spec c 13) as [-> |N4]; [apply string_short; [cbn; tauto|exact IH]|].
  destruct (N.eqb_spec c 9) as [-> |N5]; [apply string_short; [cbn; tauto|exact IH]|].
  destruct (N.eqb_spec c 12) as [-> |N6]; [apply string_short; [cbn; tauto|exact IH]|].
  destruct (N.eqb_spec c 8) as [-> |N7]; [apply string_short; [cbn; tauto|exact IH]|].
  destruct (N.ltb_spec c 32) as [L|L].
  - change ([92%N; 117%N] ++ hex 4 c) with (u "\u" ++ hex 4 c). rewrite <- app_assoc. apply string_escape; [now apply control_hex| |exact IH].
    intros [H _]. unfold high in H. lia.
  - cbn [app]. now apply string_char.
Qed.

(** ** integers *)
Lemma digits_text fuel : forall n acc, (n < 10 ^ N.of_nat fuel)%N -> fuel <> 0 ->
  exists d, digits_go fuel n acc = d ++ acc /\ integer_digits d /\ decimal_value d n.
Proof.
  induction fuel as [|f IH]; intros n acc H F; [congruence|]. cbn [digits_go].
  rewrite Nat2N.inj_succ, N.pow_succ_r' in H.
  destruct (N.eqb_spec (n / 10) 0) as [E|E].
  - exists [(48 + n mod 10)%N]. split; [reflexivity|]. split.
    + destruct (N.eq_dec n 0) as [-> |Nz]; [left; reflexivity|]. right. exists (48 + n mod 10)%N, []. split; [reflexivity|]. split; [|constructor]. lia.
    + apply decimal_value_spec. unfold digits_value. cbn [fold_left]. lia.
  - destruct f as [|f]; [cbn in H; lia|].
    destruct (IH (n / 10)%N ((48 + n mod 10)%N :: acc)) as (d & Ed & Di & Dv); [lia|discriminate|].
    exists (d ++ [(48 + n mod 10)%N]). rewrite Ed. split; [now rewrite <- app_assoc|]. split.
    + destruct Di as [-> |(c & d' & -> & C & A)].
      * exfalso. apply decimal_value_spec in Dv. cbn in Dv. lia.
      * right. exists c, (d' ++ [(48 + n mod 10)%N]). split; [reflexivity|]. split; [exact C|]. apply Forall_app. split; [exact A|].
        constructor; [lia|constructor].
    + apply decimal_value_spec in Dv. apply decimal_value_spec. rewrite digits_value_snoc, Dv. lia.
Qed.
Lemma number_text n : integer_digits (str_of_N n) /\ decimal_value (str_of_N n) n.
Proof.
  unfold str_of_N. destruct (digits_text (S (N.size_nat n)) n [] (size_bound n)) as (d & E & H); [discriminate|].
  rewrite E, app_nil_r. exact H.
Qed.
Lemma encoded_integer z : integer_text (str_of_Z z) z.
Proof.
  destruct z as [|p|p]; cbn [str_of_Z].
  - destruct (number_text 0) as [D V]. exists (str_of_N 0), 0%N. split; [exact D|]. split; [exact V|]. now left.
  - destruct (number_text (Npos p)) as [D V]. exists (str_of_N (Npos p)), (Npos p). split; [exact D|]. split; [exact V|]. now left.
  - destruct (number_text (Npos p)) as [D V]. exists (str_of_N (Npos p)), (Npos p). split; [exact D|]. split; [exact V|]. now right.
Qed.

(** ** values *)
Lemma newline_whitespace level : whitespace (newline_indent level).
Proof.
  constructor; [cbn; tauto|]. apply Forall_forall. intros c H. apply repeat_spec in H as ->. cbn. tauto.
Qed.
Lemma nil_whitespace : whitespace [].
Proof. constructor. Qed.
Lemma dict_of_unique {V} (o : list (pystr * V)) : NoDup (map fst o) -> dict_of o = o.
Proof.
  induction o as [|[k v] o IH] using rev_ind; intros N; [reflexivity|]. rewrite dict_of_snoc. rewrite map_app in N. cbn [map fst] in N.
  pose proof (NoDup_remove _ _ _ N) as [N1 N2]. rewrite app_nil_r in N1, N2. rewrite IH by exact N1. now apply dict_set_new.
Qed.
Lemma unique_last_wins {V} (o : list (pystr * V)) : NoDup (map fst o) -> last_wins o o.
Proof. intros N. rewrite <- (dict_of_unique o N) at 2. apply last_wins_dict_of. Qed.

Section Values.
  Variable float_value : pystr -> option Z.
  Notation json_text := (json_text float_value).

  Lemma join_elements nl w' (l : list json) (f : json -> pystr) : whitespace nl -> whitespace w' -> l <> [] -> (forall j, In j l -> json_text j (f j)) ->
    elements_text float_value l (nl ++ join (u "," ++ nl) (map f l) ++ w').
  Proof.
    intros W W' N H. induction l as [|v [|v' l] IH]; [congruence| |].
    - cbn [map join]. apply last_element; [exact W|apply H; now left|exact W'].
    - change (join (u "," ++ nl) (map f (v :: v' :: l))) with (f v ++ (u "," ++ nl) ++ join (u "," ++ nl) (map f (v' :: l))).
      replace (nl ++ (f v ++ (u "," ++ nl) ++ join (u "," ++ nl) (map f (v' :: l))) ++ w')
        with (nl ++ f v ++ [] ++ u "," ++ (nl ++ join (u "," ++ nl) (map f (v' :: l)) ++ w')) by (cbn [app]; now rewrite <- !app_assoc).
      apply more_elements; [exact W|apply H; now left|apply nil_whitespace|]. apply IH; [discriminate|]. intros j I. apply H. now right.
  Qed.
  Lemma join_members nl w' (o : list (pystr * json)) (f : pystr * json -> pystr) : whitespace nl -> whitespace w' -> o <> [] ->
    (forall m, In m o -> member_text float_value m (f m)) -> members_text float_value o (nl ++ join (u "," ++ nl) (map f o) ++ w').
  Proof.
    intros W W' N H. induction o as [|v [|v' l] IH]; [congruence| |].
    - cbn [map join]. apply last_member; [exact W|apply H; now left|exact W'].
    - change (join (u "," ++ nl) (map f (v :: v' :: l))) with (f v ++ (u "," ++ nl) ++ join (u "," ++ nl) (map f (v' :: l))).
      replace (nl ++ (f v ++ (u "," ++ nl) ++ join (u "," ++ nl) (map f (v' :: l))) ++ w')
        with (nl ++ f v ++ [] ++ u "," ++ (nl ++ join (u "," ++ nl) (map f (v' :: l)) ++ w')) by (cbn [app]; now rewrite <- !app_assoc).
      apply more_members; [exact W|apply H; now left|apply nil_whitespace|]. apply IH; [discriminate|]. intros j I. apply H. now right.
  Qed.

  Lemma encoded_value j : float_free j -> unique_keys j -> forall level, json_text j (iterencode level j).
  Proof.
    induction j as [|b|z|t|s|l IH|o IH] using json_induction; intros F U level.
    - apply text_null.
    - destruct b; constructor.
    - apply text_integer. apply encoded_integer.
    - inversion F.
    - cbn [iterencode]. apply text_string. apply encoded_string.
    - inversion F as [| | | |? Fl|]; subst. inversion U as [| | | | |? Ul|]; subst. rewrite Forall_forall in *.
      destruct l as [|v l]; [apply (text_empty_list float_value [] nil_whitespace)|].
      change (iterencode level (JList (v :: l))) with (u "[" ++ newline_indent (S level)
             ++ join (u "," ++ newline_indent (S level)) (map (iterencode (S level)) (v :: l)) ++ newline_indent level ++ u "]").
      rewrite (app_assoc (join _ _)), (app_assoc (newline_indent (S level))). apply text_list.
      apply join_elements; [apply newline_whitespace|apply newline_whitespace|discriminate|]. intros j I. auto.
    - inversion F as [| | | | |? Fl]; subst. inversion U as [| | | | | |? Nd Ul]; subst. rewrite Forall_forall in *.
      destruct o as [|v l]; [apply (text_empty_object float_value [] nil_whitespace)|].
      set (f := fun kv : pystr * json => match kv with (k, v) => encode_string k ++ u ": " ++ iterencode (S level) v end).
      change (iterencode level (JObj (v :: l))) with (u "{" ++ newline_indent (S level)
             ++ join (u "," ++ newline_indent (S level)) (map f (v :: l)) ++ newline_indent level ++ u "}").
      rewrite (app_assoc (join _ _)), (app_assoc (newline_indent (S level))). apply (text_object float_value (v :: l)).
      + apply join_members; [apply newline_whitespace|apply newline_whitespace|discriminate|]. intros [k x] I.
        unfold f, encode_string.
        match goal with |- S_JsonText.member_text _ _ ?x0 => replace x0
          with (u """" ++ flat_map encode_char k ++ u """" ++ [] ++ u ":" ++ [32%N] ++ iterencode (S level) x) by (cbn [app]; now rewrite <- !app_assoc) end.
        apply member; [apply encoded_string|apply nil_whitespace|constructor; [cbn; tauto|constructor]|].
        specialize (IH _ I). specialize (Fl _ I). specialize (Ul _ I). now apply IH.
      + now apply unique_last_wins.
  Qed.
End Values.

(** ** UTF-8 *)
Lemma is_scalar_spec c : is_scalar c = true <-> scalar_value c.
Proof. unfold is_scalar, scalar_value. rewrite orb_true_iff, andb_true_iff, !N.ltb_lt, N.leb_le. tauto. Qed.
Lemma utf8_encoded c : scalar_value c -> utf8_char c (encode_utf8_char c).
Proof.
  unfold scalar_value, encode_utf8_char. intros H. destruct (N.ltb_spec c 128); [now constructor|].
  destruct (N.ltb_spec c 2048).
  { rewrite (N.div_mod' c 64) at 1. rewrite N.mul_comm. apply two_bytes; lia. }
  destruct (N.ltb_spec c 65536).
  { assert (E : c = (c / 4096 * 4096 + c / 64 mod 64 * 64 + c mod 64)%N) by lia.
    rewrite E at 1. apply three_bytes; try lia. unfold scalar_value. lia. }
  assert (E : c = (c / 262144 * 262144 + c / 4096 mod 64 * 4096 + c / 64 mod 64 * 64 + c mod 64)%N) by lia.
  rewrite E at 1. apply four_bytes; try lia. unfold scalar_value. lia.
Qed.
Lemma utf8_char_inv c b : utf8_char c b -> scalar_value c /\ b = encode_utf8_char c.
Proof.
  intros [c0 H|a x Ha Hx L|a x d Ha Hx Hd L Sc|a x d e Ha Hx Hd He L Sc]; unfold encode_utf8_char.
  - split; [unfold scalar_value; lia|]. destruct (N.ltb_spec c0 128); [reflexivity|lia].
  - split; [unfold scalar_value; lia|]. destruct (N.ltb_spec (a * 64 + x) 128); [lia|]. destruct (N.ltb_spec (a * 64 + x) 2048); [|lia].
    repeat f_equal; lia.
  - split; [exact Sc|]. set (y := (a * 4096 + x * 64 + d)%N) in *. destruct (N.ltb_spec y 128); [lia|]. destruct (N.ltb_spec y 2048); [lia|]. destruct (N.ltb_spec y 65536); [|lia].
    subst y. repeat f_equal; lia.
  - split; [exact Sc|]. set (y := (a * 262144 + x * 4096 + d * 64 + e)%N) in *. destruct (N.ltb_spec y 128); [lia|]. destruct (N.ltb_spec y 2048); [lia|]. destruct (N.ltb_spec y 65536); [lia|].
    subst y. repeat f_equal; lia.
Qed.
Lemma encode_utf8_spec s b : encode_utf8 s = Ok b <-> utf8_text s b.
Proof.
  unfold encode_utf8. split.
  - destruct (forallb is_scalar s) eqn:A; [|discriminate]. intros [= <-]. induction s as [|c s IH]; [constructor|].
    cbn [forallb] in A. apply andb_prop in A as [A1 A2]. cbn [flat_map]. constructor; [apply utf8_encoded; now apply is_scalar_spec|auto].
  - intros H. assert (K : forallb is_scalar s = true /\ flat_map encode_utf8_char s = b).
    { induction H as [|c s b b' C _ [IH1 IH2]]; [now split|]. apply utf8_char_inv in C as [C ->]. cbn [forallb flat_map].
      apply is_scalar_spec in C. rewrite C, IH1, IH2. now split. }
    destruct K as [-> ->]. reflexivity.
Qed.
Lemma encode_utf8_raises s e : encode_utf8 s = Raise e <-> e = ValueError /\ ~ Forall scalar_value s.
Proof.
  unfold encode_utf8. destruct (forallb is_scalar s) eqn:A.
  - split; [discriminate|]. intros [_ N]. exfalso. apply N. rewrite forallb_forall in A. apply Forall_forall. intros c I. apply is_scalar_spec. auto.
  - split; [intros [= <-]|intros [-> _]; reflexivity]. split; [reflexivity|]. intros F. rewrite Forall_forall in F.
    assert (T : forallb is_scalar s = true) by (apply forallb_forall; intros c I; apply is_scalar_spec; auto). congruence.
Qed.
Lemma continuation_spec b : is_continuation b = true <-> exists x, (b = 128 + x /\ x < 64)%N.
Proof.
  unfold is_continuation, in_range. rewrite andb_true_iff, !N.leb_le. split; [intros H; exists (b - 128)%N; lia|intros (x & -> & H); lia].
Qed.
Lemma decode_complete s b : utf8_text s b -> decode_utf8 b = Ok s.
Proof.
  induction 1 as [|c s b b' C T IH]; [reflexivity|].
  destruct C as [c0 H|a x Ha Hx L|a x d Ha Hx Hd L Sc|a x d e Ha Hx Hd He L Sc]; cbn [app decode_utf8].
  - destruct (N.ltb_spec c0 128); [|lia]. rewrite IH. reflexivity.
  - destruct (N.ltb_spec (192 + a) 128); [lia|]. unfold in_range. destruct (N.leb_spec 194 (192 + a)); [|lia]. destruct (N.leb_spec (192 + a) 223); [|lia]. cbn [andb].
    rewrite (proj2 (continuation_spec (128 + x))) by eauto. rewrite IH. cbn [bind]. do 2 f_equal. lia.
  - destruct (N.ltb_spec (224 + a) 128); [lia|]. unfold in_range. destruct (N.leb_spec (224 + a) 223); [lia|]. rewrite andb_false_r.
    destruct (N.leb_spec 224 (224 + a)); [|lia]. destruct (N.leb_spec (224 + a) 239); [|lia]. cbn [andb].
    rewrite (proj2 (continuation_spec (128 + x))) by eauto. rewrite (proj2 (continuation_spec (128 + d))) by eauto. cbn [andb].
    replace ((224 + a - 224) * 4096 + (128 + x - 128) * 64 + (128 + d - 128))%N with (a * 4096 + x * 64 + d)%N by lia.
    apply is_scalar_spec in Sc. rewrite Sc. destruct (N.leb_spec 2048 (a * 4096 + x * 64 + d)); [|lia]. cbn [andb]. rewrite IH. reflexivity.
  - unfold scalar_value in Sc. destruct (N.ltb_spec (240 + a) 128); [lia|]. unfold in_range. destruct (N.leb_spec (240 + a) 223); [lia|]. rewrite andb_false_r.
    destruct (N.leb_spec (240 + a) 239); [lia|]. rewrite andb_false_r.
    destruct (N.leb_spec 240 (240 + a)); [|lia]. destruct (N.leb_spec (240 + a) 244); [|lia]. cbn [andb].
    rewrite (proj2 (continuation_spec (128 + x))) by eauto. rewrite (proj2 (continuation_spec (128 + d))) by eauto. rewrite (proj2 (continuation_spec (128 + e))) by eauto. cbn [andb].
    replace ((240 + a - 240) * 262144 + (128 + x - 128) * 4096 + (128 + d - 128) * 64 + (128 + e - 128))%N with (a * 262144 + x * 4096 + d * 64 + e)%N by lia.
    apply is_scalar_spec in Sc. rewrite Sc. destruct (N.leb_spec 65536 (a * 262144 + x * 4096 + d * 64 + e)); [|lia]. cbn [andb]. rewrite IH. reflexivity.
Qed.
Ltac ok_is E := match type of E with Ok ?z = Ok ?s => assert (s = z) as -> by congruence; clear E end.
Lemma decode_sound n : forall b, List.length b <= n -> forall s, decode_utf8 b = Ok s -> utf8_text s b.
Proof.
  induction n as [|n IH]; intros b Len s H; [destruct b; [injection H as <-; constructor|cbn in Len; lia]|].
  destruct b as [|b0 r0]; [injection H as <-; constructor|]. cbn [List.length] in Len. cbn [decode_utf8] in H.
  destruct (N.ltb_spec b0 128).
  { apply bind_ok in H as (s' & H & E). ok_is E. apply IH in H; [|lia]. apply (utf8_more b0 s' [b0] r0); [now constructor|exact H]. }
  destruct (in_range 194%N 223%N b0) eqn:R1.
  { unfold in_range in R1. apply andb_prop in R1 as [R1 R2]. apply N.leb_le in R1, R2. destruct r0 as [|b1 r1]; [discriminate|]. cbn [List.length] in Len.
    destruct (is_continuation b1) eqn:C; [|discriminate]. apply continuation_spec in C as (x & -> & X).
    apply bind_ok in H as (s' & H & E). ok_is E. apply IH in H; [|lia].
    assert (exists a, b0 = 192 + a)%N as (a & ->) by (exists (b0 - 192)%N; lia).
    replace ((192 + a - 192) * 64 + (128 + x - 128))%N with (a * 64 + x)%N by lia.
    apply (utf8_more (a * 64 + x)%N s' [192 + a; 128 + x]%N r1); [apply two_bytes; lia|exact H]. }
  destruct (in_range 224%N 239%N b0) eqn:R2.
  { unfold in_range in R2. apply andb_prop in R2 as [R2 R3]. apply N.leb_le in R2, R3. destruct r0 as [|b1 [|b2 r2]]; try discriminate. cbn [List.length] in Len.
    destruct (is_continuation b1) eqn:C1; [|discriminate]. destruct (is_continuation b2) eqn:C2; [|discriminate].
    apply continuation_spec in C1 as (x & -> & X), C2 as (y & -> & Y). cbn [andb] in H.
    assert (exists a, b0 = 224 + a)%N as (a & ->) by (exists (b0 - 224)%N; lia).
    replace ((224 + a - 224) * 4096 + (128 + x - 128) * 64 + (128 + y - 128))%N with (a * 4096 + x * 64 + y)%N in H by lia.
    destruct (N.leb_spec 2048 (a * 4096 + x * 64 + y)); [|discriminate]. destruct (is_scalar (a * 4096 + x * 64 + y)%N) eqn:Sc; [|discriminate]. cbn [andb] in H.
    apply bind_ok in H as (s' & H & E). ok_is E. apply IH in H; [|lia].
    apply (utf8_more _ s' [224 + a; 128 + x; 128 + y]%N r2); [apply three_bytes; try lia; now apply is_scalar_spec|exact H]. }
  destruct (in_range 240%N 244%N b0) eqn:R3; [|discriminate].
  unfold in_range in R3. apply andb_prop in R3 as [R3 R4]. apply N.leb_le in R3, R4. destruct r0 as [|b1 [|b2 [|b3 r3]]]; try discriminate. cbn [List.length] in Len.
  destruct (is_continuation b1) eqn:C1; [|discriminate]. destruct (is_continuation b2) eqn:C2; [|discriminate]. destruct (is_continuation b3) eqn:C3; [|discriminate].
  apply continuation_spec in C1 as (x & -> & X), C2 as (y & -> & Y), C3 as (z & -> & Z). cbn [andb] in H.
  assert (exists a, b0 = 240 + a)%N as (a & ->) by (exists (b0 - 240)%N; lia).
  replace ((240 + a - 240) * 262144 + (128 + x - 128) * 4096 + (128 + y - 128) * 64 + (128 + z - 128))%N with (a * 262144 + x * 4096 + y * 64 + z)%N in H by lia.
  destruct (N.leb_spec 65536 (a * 262144 + x * 4096 + y * 64 + z)); [|discriminate]. destruct (is_scalar (a * 262144 + x * 4096 + y * 64 + z)%N) eqn:Sc; [|discriminate]. cbn [andb] in H.
  apply bind_ok in H as (s' & H & E). ok_is E. apply IH in H; [|lia].
  apply (utf8_more _ s' [240 + a; 128 + x; 128 + y; 128 + z]%N r3); [apply four_bytes; try lia; now apply is_scalar_spec|exact H].
Qed.
Lemma decode_raises n : forall b, List.length b <= n -> forall e, decode_utf8 b = Raise e -> e = ValueError.
Proof.
  induction n as [|n IH]; intros b Len e H; [destruct b; [discriminate|cbn in Len; lia]|].
  destruct b as [|b0 r0]; [discriminate|]. cbn [List.length] in Len. cbn [decode_utf8] in H. cbv zeta in H.
  assert (K : forall r c, List.length r <= n -> (let* s := decode_utf8 r in Ok (c :: s)) = Raise e -> e = ValueError).
  { intros r c L Hr. destruct (decode_utf8 r) as [?|x] eqn:E; [discriminate|]. cbn [bind] in Hr. injection Hr as <-. exact (IH r L x E). }
  repeat match type of H with
  | Raise _ = Raise _ => now injection H
  | (let* s := decode_utf8 _ in Ok (_ :: s)) = _ => eapply K; [|exact H]; cbn [List.length] in Len |- *; lia
  | context [match ?y with _ => _ end] => is_var y; destruct y
  | context [if ?b then _ else _] => destruct b
  end.
Qed.

(** ** line ends *)
Lemma newlines_spec s t : universal_newlines s = t <-> line_feeds s t.
Proof.
  split.
  - intros <-. assert (G : forall n s, List.length s <= n -> line_feeds s (universal_newlines s)); [|exact (G _ s (le_n _))].
    clear s. induction n as [|n IH]; intros s L; [destruct s; [constructor|cbn in L; lia]|].
    destruct s as [|c r]; [constructor|]. cbn [List.length] in L. cbn [universal_newlines]. destruct (N.eqb_spec c 13) as [-> |N].
    + destruct r as [|d r']; [apply (feeds_cr [] []); [discriminate|constructor]|]. cbn [List.length] in L. destruct (N.eqb_spec d 10) as [-> |N].
      * apply feeds_crlf. apply IH. lia.
      * apply feeds_cr; [congruence|]. apply IH. cbn [List.length]. lia.
    + apply feeds_other; [exact N|]. apply IH. lia.
  - induction 1 as [|s t H IH|s t N H IH|c s t N H IH]; [reflexivity| | |].
    + cbn. now rewrite IH.
    + cbn [universal_newlines]. change (13 =? 13)%N with true. cbn match. destruct s as [|d s]; [inversion H; reflexivity|].
      destruct (N.eqb_spec d 10) as [-> |_]; [exfalso; now apply (N s)|]. now rewrite IH.
    + cbn [universal_newlines]. apply N.eqb_neq in N. rewrite N. now rewrite IH.
Qed.
Lemma feeds_split t' : forall s, line_feeds s t' -> forall a b, t' = a ++ b -> exists a0 b0, s = a0 ++ b0 /\ line_feeds a0 a /\ line_feeds b0 b.
Proof.
  intros s H. induction H as [|s t H IH|s t N H IH|c s t N H IH]; intros a b E.
  - symmetry in E. apply app_eq_nil in E as [-> ->]. exists [], []. repeat split; constructor.
  - destruct a as [|x a]; [exists [], (13 :: 10 :: s)%N; split; [reflexivity|]; split; [constructor|]; cbn in E; subst b; now constructor|].
    injection E as <- E. destruct (IH a b E) as (a0 & b0 & -> & A & B). exists (13 :: 10 :: a0)%N, b0. split; [reflexivity|]. split; [now constructor|exact B].
  - destruct a as [|x a]; [exists [], (13 :: s)%N; split; [reflexivity|]; split; [constructor|]; cbn in E; subst b; now constructor|].
    injection E as <- E. destruct (IH a b E) as (a0 & b0 & -> & A & B). exists (13 :: a0)%N, b0. split; [reflexivity|]. split; [|exact B].
    constructor; [|exact A]. intros r ->. now apply (N (r ++ b0)).
  - destruct a as [|x a]; [exists [], (c :: s)%N; split; [reflexivity|]; split; [constructor|]; cbn in E; subst b; now constructor|].
    injection E as <- E. destruct (IH a b E) as (a0 & b0 & -> & A & B). exists (c :: a0)%N, b0. split; [reflexivity|]. split; [now constructor|exact B].
Qed.
Lemma feeds_app s a b : line_feeds s (a ++ b) -> exists a0 b0, s = a0 ++ b0 /\ line_feeds a0 a /\ line_feeds b0 b.
Proof. intros H. exact (feeds_split _ _ H a b eq_refl). Qed.
Lemma feeds_same s t : line_feeds s t -> ~ In 10%N t -> s = t.
Proof.
  induction 1 as [|s t H IH|s t N H IH|c s t N H IH]; intros K; [reflexivity|exfalso; apply K; now left|exfalso; apply K; now left|].
  f_equal. apply IH. intros I. apply K. now right.
Qed.
Lemma feeds_whitespace s t : line_feeds s t -> (whitespace t <-> whitespace s).
Proof.
  unfold whitespace. induction 1 as [|s t H IH|s t N H IH|c s t N H IH]; [tauto| | |]; rewrite ?Forall_cons_iff; cbn [In]; intuition auto.
Qed.
(** no line end, no backslash escape crosses *)
Definition plain (t : pystr) : Prop := ~ In 10%N t /\ ~ In 13%N t.
Lemma plain_app a b : plain a -> plain b -> plain (a ++ b).
Proof. unfold plain. rewrite !in_app_iff. tauto. Qed.
Lemma plain_cons c a : c <> 10%N -> c <> 13%N -> plain a -> plain (c :: a).
Proof. unfold plain. cbn [In]. intuition congruence. Qed.
Lemma plain_hex t n : hex_digits_are t n -> plain t.
Proof.
  intros H. inversion H as [a b c d x y z w A B C D]; subst. assert (G : forall e v, hex_digit_is e v -> e <> 10%N /\ e <> 13%N) by (intros e v [? K|? K|? K]; lia).
  apply G in A, B, C, D. unfold plain. cbn [In]. intuition congruence.
Qed.
Lemma plain_string s t : string_text s t -> plain t.
Proof.
  induction 1 as [|c s t C N1 N2 T IH|e c s t E T IH|x y n m s t X Y Hi Lo T IH|x n s t X NP T IH].
  - split; intros [].
  - apply plain_cons; [lia|lia|exact IH].
  - apply plain_cons; [discriminate|discriminate|]. assert (e <> 10%N /\ e <> 13%N) as [E1 E2].
    { cbn [In short_escapes] in E. decompose [or] E; try contradiction; match goal with K : _ = (e, c) |- _ => injection K as <- <- end; split; discriminate. }
    now apply plain_cons.
  - apply plain_app; [split; intros [K|[K|[]]]; discriminate|]. apply plain_app; [eapply plain_hex; eassumption|].
    apply plain_app; [split; intros [K|[K|[]]]; discriminate|]. apply plain_app; [eapply plain_hex; eassumption|exact IH].
  - apply plain_app; [split; intros [K|[K|[]]]; discriminate|]. apply plain_app; [eapply plain_hex; eassumption|exact IH].
Qed.
Lemma plain_digits d : ascii_digits d -> plain d.
Proof. induction 1 as [|c d C _ IH]; [split; intros []|]. apply plain_cons; [lia|lia|exact IH]. Qed.
Lemma plain_integer_digits d : integer_digits d -> plain d.
Proof. intros [-> |(c & d' & -> & C & A)]; [split; intros [K|[]]; discriminate|]. apply plain_cons; [lia|lia|now apply plain_digits]. Qed.
Lemma plain_nil : plain [].
Proof. split; intros []. Qed.
Lemma plain_sign sg : sg = [] \/ sg = u "-" -> plain sg.
Proof. intros [-> | ->]; [apply plain_nil|split; intros [K|[]]; discriminate]. Qed.
Lemma plain_integer t z : integer_text t z -> plain t.
Proof.
  intros (d & n & D & _ & [[-> _]|[-> _]]); [now apply plain_integer_digits|]. apply plain_app; [now apply plain_sign; right|now apply plain_integer_digits].
Qed.
Lemma plain_fraction f : fraction_text f -> plain f.
Proof. intros (d & -> & _ & A). apply plain_app; [split; intros [K|[]]; discriminate|now apply plain_digits]. Qed.
Lemma plain_exponent f : exponent_text f -> plain f.
Proof.
  intros (e & sg & d & -> & He & Hs & _ & A). apply plain_app; [destruct He as [-> | ->]; split; intros [K|[]]; discriminate|].
  apply plain_app; [|now apply plain_digits]. destruct Hs as [-> |[-> | ->]]; [apply plain_nil|split; intros [K|[]]; discriminate..].
Qed.
Lemma plain_float t : float_text t -> plain t.
Proof.
  intros (sg & d & f & e & -> & Sg & D & H). apply plain_app; [now apply plain_sign|]. apply plain_app; [now apply plain_integer_digits|].
  destruct H as [[F [-> |E]]|[-> E]].
  - apply plain_app; [now apply plain_fraction|apply plain_nil].
  - apply plain_app; [now apply plain_fraction|now apply plain_exponent].
  - apply plain_app; [apply plain_nil|now apply plain_exponent].
Qed.

Lemma newlines_plain a b : ~ In 13%N a -> universal_newlines (a ++ b) = a ++ universal_newlines b.
Proof.
  induction a as [|c a IH]; intros H; [reflexivity|]. cbn [app universal_newlines]. destruct (N.eqb_spec c 13) as [-> |]; [exfalso; apply H; now left|].
  rewrite IH; [reflexivity|]. intros I. apply H. now right.
Qed.
Lemma newlines_stop c b : c <> 10%N -> forall a, universal_newlines (a ++ c :: b) = universal_newlines a ++ universal_newlines (c :: b).
Proof.
  intros N a. assert (G : forall n a, List.length a <= n -> universal_newlines (a ++ c :: b) = universal_newlines a ++ universal_newlines (c :: b)); [|exact (G _ a (le_n _))].
  clear a. induction n as [|n IH]; intros a L; [destruct a; [reflexivity|cbn in L; lia]|]. destruct a as [|x a]; [reflexivity|]. cbn [List.length] in L.
  change ((x :: a) ++ c :: b) with (x :: (a ++ c :: b)).
  change (universal_newlines (x :: a)) with (if N.eqb x 13 then match a with d :: r' => if N.eqb d 10 then 10%N :: universal_newlines r' else 10%N :: universal_newlines a | [] => [10%N] end else x :: universal_newlines a).
  change (universal_newlines (x :: a ++ c :: b)) with (if N.eqb x 13 then match a ++ c :: b with d :: r' => if N.eqb d 10 then 10%N :: universal_newlines r' else 10%N :: universal_newlines (a ++ c :: b) | [] => [10%N] end else x :: universal_newlines (a ++ c :: b)).
  destruct (N.eqb x 13).
  - destruct a as [|d a].
    + cbn [app]. apply N.eqb_neq in N. rewrite N. reflexivity.
    + change ((d :: a) ++ c :: b) with (d :: (a ++ c :: b)). cbn match. destruct (N.eqb d 10).
      * rewrite IH; [reflexivity|cbn in L; lia].
      * change (d :: a ++ c :: b) with ((d :: a) ++ c :: b). rewrite IH by lia. reflexivity.
  - rewrite IH by lia. reflexivity.
Qed.
Lemma newlines_end c b : c <> 10%N -> c <> 13%N -> forall a, universal_newlines (a ++ c :: b) = universal_newlines a ++ c :: universal_newlines b.
Proof.
  intros N1 N2 a. rewrite newlines_stop by exact N1. f_equal. cbn [universal_newlines]. apply N.eqb_neq in N2. now rewrite N2.
Qed.
Lemma newlines_whitespace w : whitespace w -> whitespace (universal_newlines w).
Proof. intros W. apply (feeds_whitespace w). - now apply newlines_spec. - exact W. Qed.

Section Lines.
  Variable float_value : pystr -> option Z.
  Notation json_text := (json_text float_value).
  Notation elements_text := (elements_text float_value).
  Notation members_text := (members_text float_value).
  Notation member_text := (member_text float_value).

  Lemma value_lines j t rest : json_text j t -> forall a, universal_newlines (a ++ t ++ rest) = universal_newlines a ++ universal_newlines (t ++ rest).
  Proof.
    intros T a. destruct (value_head float_value j t T) as (c & r & -> & V). cbn [app]. apply newlines_stop. intros ->. apply V. cbn. tauto.
  Qed.
  Lemma plain_same t rest : plain t -> exists t2, universal_newlines (t ++ rest) = t2 ++ universal_newlines rest /\ t2 = t.
  Proof. intros [_ P]. exists t. split; [now apply newlines_plain|reflexivity]. Qed.

  Lemma lines_forward :
    (forall j t, json_text j t -> forall rest, exists t2, universal_newlines (t ++ rest) = t2 ++ universal_newlines rest /\ json_text j t2)
    /\ (forall l t, elements_text l t -> forall c rest, c <> 10%N -> c <> 13%N -> exists t2, universal_newlines (t ++ c :: rest) = t2 ++ c :: universal_newlines rest /\ elements_text l t2)
    /\ (forall l t, members_text l t -> forall c rest, c <> 10%N -> c <> 13%N -> exists t2, universal_newlines (t ++ c :: rest) = t2 ++ c :: universal_newlines rest /\ members_text l t2)
    /\ (forall m t, member_text m t -> forall rest, exists t2, universal_newlines (t ++ rest) = t2 ++ universal_newlines rest /\ member_text m t2).
  Proof.
    apply json_text_all.
    - intros rest. exists (u "null"). split; [reflexivity|constructor].
    - intros rest. exists (u "true"). split; [reflexivity|constructor].
    - intros rest. exists (u "false"). split; [reflexivity|constructor].
    - intros t H rest. destruct (plain_same t rest) as (t2 & E & ->); [|exists t; split; [exact E|now constructor]].
      cbn [In] in H. destruct H as [<- |[<- |[<- |[]]]]; split; cbn; intuition discriminate.
    - intros t z H rest. destruct (plain_same t rest) as (t2 & E & ->); [eapply plain_integer; eassumption|]. exists t; split; [exact E|now constructor].
    - intros t H rest. destruct (plain_same t rest) as (t2 & E & ->); [now apply plain_float|]. exists t; split; [exact E|now constructor].
    - intros s t H rest. exists (u """" ++ t ++ u """"). split; [|now constructor]. apply newlines_plain.
      apply plain_app; [split; intros [K|[]]; discriminate|]. apply plain_app; [eapply plain_string; eassumption|split; intros [K|[]]; discriminate].
    - intros w W rest. exists (u "[" ++ universal_newlines w ++ u "]"). rewrite <- !app_assoc. split; [|constructor; now apply newlines_whitespace].
      rewrite newlines_plain by (intros [K|[]]; discriminate). f_equal. change (u "]" ++ rest) with (93%N :: rest). now rewrite newlines_end.
    - intros l t T IH rest. destruct (IH 93%N rest) as (t2 & E & T2); [discriminate|discriminate|]. exists (u "[" ++ t2 ++ u "]"). split; [|now constructor].
      rewrite <- !app_assoc. rewrite newlines_plain by (intros [K|[]]; discriminate). f_equal. exact E.
    - intros w W rest. exists (u "{" ++ universal_newlines w ++ u "}"). rewrite <- !app_assoc. split; [|constructor; now apply newlines_whitespace].
      rewrite newlines_plain by (intros [K|[]]; discriminate). f_equal. change (u "}" ++ rest) with (125%N :: rest). now rewrite newlines_end.
    - intros l o t T IH LW rest. destruct (IH 125%N rest) as (t2 & E & T2); [discriminate|discriminate|]. exists (u "{" ++ t2 ++ u "}"). split; [|econstructor; eassumption].
      rewrite <- !app_assoc. rewrite newlines_plain by (intros [K|[]]; discriminate). f_equal. exact E.
    - intros v w t w' W V IH W' c rest N1 N2. rewrite <- !app_assoc. rewrite (value_lines v) by exact V. destruct (IH (w' ++ c :: rest)) as (t2 & E & T2). rewrite E.
      rewrite newlines_end by assumption. exists (universal_newlines w ++ t2 ++ universal_newlines w'). rewrite <- !app_assoc. split; [reflexivity|].
      constructor; [now apply newlines_whitespace|exact T2|now apply newlines_whitespace].
    - intros v w t w' l t' W V IH W' T IHT c rest N1 N2. rewrite <- !app_assoc. rewrite (value_lines v) by exact V. destruct (IH (w' ++ u "," ++ t' ++ c :: rest)) as (t2 & E & T2). rewrite E.
      change (u "," ++ t' ++ c :: rest) with (44%N :: t' ++ c :: rest). rewrite newlines_end by discriminate. destruct (IHT c rest N1 N2) as (t3 & E3 & T3). rewrite E3.
      exists (universal_newlines w ++ t2 ++ universal_newlines w' ++ u "," ++ t3). rewrite <- !app_assoc. split; [reflexivity|].
      constructor; [now apply newlines_whitespace|exact T2|now apply newlines_whitespace|exact T3].
    - intros v w t w' W V IH W' c rest N1 N2. rewrite <- !app_assoc.
      assert (Q : universal_newlines (w ++ t ++ w' ++ c :: rest) = universal_newlines w ++ universal_newlines (t ++ w' ++ c :: rest)) by (destruct V; apply newlines_stop; discriminate).
      rewrite Q. destruct (IH (w' ++ c :: rest)) as (t2 & E & T2). rewrite E.
      rewrite newlines_end by assumption. exists (universal_newlines w ++ t2 ++ universal_newlines w'). rewrite <- !app_assoc. split; [reflexivity|].
      constructor; [now apply newlines_whitespace|exact T2|now apply newlines_whitespace].
    - intros v w t w' l t' W V IH W' T IHT c rest N1 N2. rewrite <- !app_assoc.
      assert (Q : universal_newlines (w ++ t ++ w' ++ u "," ++ t' ++ c :: rest) = universal_newlines w ++ universal_newlines (t ++ w' ++ u "," ++ t' ++ c :: rest)) by (destruct V; apply newlines_stop; discriminate).
      rewrite Q. destruct (IH (w' ++ u "," ++ t' ++ c :: rest)) as (t2 & E & T2). rewrite E.
      change (u "," ++ t' ++ c :: rest) with (44%N :: t' ++ c :: rest). rewrite newlines_end by discriminate. destruct (IHT c rest N1 N2) as (t3 & E3 & T3). rewrite E3.
      exists (universal_newlines w ++ t2 ++ universal_newlines w' ++ u "," ++ t3). rewrite <- !app_assoc. split; [reflexivity|].
      constructor; [now apply newlines_whitespace|exact T2|now apply newlines_whitespace|exact T3].
    - intros k kt w w' v t K W W' V IH rest. destruct (IH rest) as (t2 & E & T2).
      exists (u """" ++ kt ++ u """" ++ universal_newlines w ++ u ":" ++ universal_newlines w' ++ t2). rewrite <- !app_assoc. split; [|constructor; auto using newlines_whitespace].
      rewrite newlines_plain by (intros [X|[]]; discriminate). f_equal. rewrite newlines_plain by (apply (plain_string k kt K)). f_equal.
      rewrite newlines_plain by (intros [X|[]]; discriminate). f_equal. change (u ":" ++ w' ++ t ++ rest) with (58%N :: w' ++ t ++ rest). rewrite newlines_end by discriminate.
      rewrite (value_lines v) by exact V. now rewrite E.
  Qed.

  Lemma document_forward j t : document_text float_value j t -> document_text float_value j (universal_newlines t).
  Proof.
    intros (w & v & w' & -> & W & V & W'). rewrite (value_lines j) by exact V. destruct (proj1 lines_forward j v V w') as (t2 & E & T2). rewrite E.
    exists (universal_newlines w), t2, (universal_newlines w'). split; [reflexivity|]. auto using newlines_whitespace.
  Qed.

  Lemma lines_backward :
    (forall j t, json_text j t -> forall s, line_feeds s t -> json_text j s)
    /\ (forall l t, elements_text l t -> forall s, line_feeds s t -> elements_text l s)
    /\ (forall l t, members_text l t -> forall s, line_feeds s t -> members_text l s)
    /\ (forall m t, member_text m t -> forall s, line_feeds s t -> member_text m s).
  Proof.
    apply json_text_all.
    - intros s F. apply feeds_same in F as ->; [constructor|cbn; intuition discriminate].
    - intros s F. apply feeds_same in F as ->; [constructor|cbn; intuition discriminate].
    - intros s F. apply feeds_same in F as ->; [constructor|cbn; intuition discriminate].
    - intros t H s F. apply feeds_same in F as ->; [now constructor|]. cbn [In] in H. destruct H as [<- |[<- |[<- |[]]]]; cbn; intuition discriminate.
    - intros t z H s F. apply feeds_same in F as ->; [now constructor|]. apply (plain_integer t z H).
    - intros t H s F. apply feeds_same in F as ->; [now constructor|]. apply (plain_float t H).
    - intros x t H s F. apply feeds_same in F as ->; [now constructor|]. pose proof (plain_string x t H) as [P _]. rewrite !in_app_iff. cbn. intuition discriminate.
    - intros w W s F. apply feeds_app in F as (a & s1 & -> & A & F). apply feeds_same in A as ->; [|cbn; intuition discriminate].
      apply feeds_app in F as (w0 & b & -> & F0 & B). apply feeds_same in B as ->; [|cbn; intuition discriminate].
      constructor. now apply (feeds_whitespace w0 w F0).
    - intros l t T IH s F. apply feeds_app in F as (a & s1 & -> & A & F). apply feeds_same in A as ->; [|cbn; intuition discriminate].
      apply feeds_app in F as (w0 & b & -> & F0 & B). apply feeds_same in B as ->; [|cbn; intuition discriminate].
      constructor. now apply IH.
    - intros w W s F. apply feeds_app in F as (a & s1 & -> & A & F). apply feeds_same in A as ->; [|cbn; intuition discriminate].
      apply feeds_app in F as (w0 & b & -> & F0 & B). apply feeds_same in B as ->; [|cbn; intuition discriminate].
      constructor. now apply (feeds_whitespace w0 w F0).
    - intros l o t T IH LW s F. apply feeds_app in F as (a & s1 & -> & A & F). apply feeds_same in A as ->; [|cbn; intuition discriminate].
      apply feeds_app in F as (w0 & b & -> & F0 & B). apply feeds_same in B as ->; [|cbn; intuition discriminate].
      econstructor; [|exact LW]. now apply IH.
    - intros v w t w' W V IH W' s F. apply feeds_app in F as (w0 & s1 & -> & F0 & F).
      apply feeds_app in F as (t0 & w1 & -> & Ft & F1).
      constructor; [now apply (feeds_whitespace w0 w F0)|now apply IH|now apply (feeds_whitespace w1 w' F1)].
    - intros v w t w' l t' W V IH W' T IHT s F. apply feeds_app in F as (w0 & s1 & -> & F0 & F).
      apply feeds_app in F as (t0 & s2 & -> & Ft & F). apply feeds_app in F as (w1 & s3 & -> & F1 & F).
      apply feeds_app in F as (a & s4 & -> & A & F). apply feeds_same in A as ->; [|cbn; intuition discriminate].
      constructor; [now apply (feeds_whitespace w0 w F0)|now apply IH|now apply (feeds_whitespace w1 w' F1)|now apply IHT].
    - intros v w t w' W V IH W' s F. apply feeds_app in F as (w0 & s1 & -> & F0 & F).
      apply feeds_app in F as (t0 & w1 & -> & Ft & F1).
      constructor; [now apply (feeds_whitespace w0 w F0)|now apply IH|now apply (feeds_whitespace w1 w' F1)].
    - intros v w t w' l t' W V IH W' T IHT s F. apply feeds_app in F as (w0 & s1 & -> & F0 & F).
      apply feeds_app in F as (t0 & s2 & -> & Ft & F). apply feeds_app in F as (w1 & s3 & -> & F1 & F).
      apply feeds_app in F as (a & s4 & -> & A & F). apply feeds_same in A as ->; [|cbn; intuition discriminate].
      constructor; [now apply (feeds_whitespace w0 w F0)|now apply IH|now apply (feeds_whitespace w1 w' F1)|now apply IHT].
    - intros k kt w w' v t K W W' V IH s F.
      apply feeds_app in F as (a & s1 & -> & A & F). apply feeds_same in A as ->; [|cbn; intuition discriminate].
      apply feeds_app in F as (kt0 & s2 & -> & A & F). apply feeds_same in A as ->; [|apply (plain_string k kt K)].
      apply feeds_app in F as (a & s3 & -> & A & F). apply feeds_same in A as ->; [|cbn; intuition discriminate].
      apply feeds_app in F as (w0 & s4 & -> & F0 & F).
      apply feeds_app in F as (a & s5 & -> & A & F). apply feeds_same in A as ->; [|cbn; intuition discriminate].
      apply feeds_app in F as (w1 & t0 & -> & F1 & Ft).
      constructor; [exact K|now apply (feeds_whitespace w0 w F0)|now apply (feeds_whitespace w1 w' F1)|now apply IH].
  Qed.
  Lemma document_lines j t : document_text float_value j (universal_newlines t) <-> document_text float_value j t.
  Proof.
    split; [|apply document_forward]. intros (w & v & w' & E & W & V & W'). apply newlines_spec in E.
    apply feeds_app in E as (w0 & s1 & -> & F0 & E). apply feeds_app in E as (v0 & w1 & -> & Fv & F1).
    exists w0, v0, w1. split; [reflexivity|]. split; [now apply (feeds_whitespace w0 w F0)|]. split; [now apply (proj1 lines_backward j v V)|now apply (feeds_whitespace w1 w' F1)].
  Qed.
  Lemma loads_lines t : loads float_value (universal_newlines t) = loads float_value t.
  Proof.
    destruct (loads float_value t) as [j|e] eqn:E.
    - apply loads_spec. apply document_lines. now apply loads_spec.
    - destruct (loads float_value (universal_newlines t)) as [j|e'] eqn:E'.
      + apply loads_spec in E'. apply (proj1 (document_lines j t)) in E'. apply loads_spec in E'. congruence.
      + apply loads_raises in E as ->. now apply loads_raises in E' as ->.
  Qed.
End Lines.

(** ** files *)
Lemma scalar_ascii c : (c < 128)%N -> scalar_value c.
Proof. unfold scalar_value. lia. Qed.
Lemma scalar_u (t : pystr) : forallb (fun c => N.ltb c 128) t = true -> Forall scalar_value t.
Proof. intros H. rewrite forallb_forall in H. apply Forall_forall. intros c I. apply scalar_ascii. apply N.ltb_lt. auto. Qed.
Lemma hex_ascii k : forall n, Forall scalar_value (hex k n).
Proof.
  induction k as [|k IH]; intros n; [constructor|]. cbn [hex]. apply Forall_app. split; [apply IH|]. constructor; [|constructor].
  apply scalar_ascii. unfold hex_digit. destruct (N.ltb_spec (n mod 16) 10); lia.
Qed.
Lemma encode_char_scalar c : Forall scalar_value (encode_char c) <-> scalar_value c.
Proof.
  unfold encode_char.
  repeat match goal with |- context [(c =? ?k)%N] => destruct (N.eqb_spec c k) as [-> |];
    [split; intros _; [apply scalar_ascii; reflexivity|now apply scalar_u]|] end.
  destruct (N.ltb_spec c 32).
  - split; intros _; [unfold scalar_value; lia|]. apply Forall_app. split; [now apply scalar_u|apply hex_ascii].
  - rewrite Forall_cons_iff. intuition constructor.
Qed.
Lemma encode_string_scalar s : Forall scalar_value (encode_string s) <-> Forall scalar_value s.
Proof.
  unfold encode_string. rewrite !Forall_app. assert (Q : Forall scalar_value [34%N]) by now apply scalar_u.
  assert (G : Forall scalar_value (flat_map encode_char s) <-> Forall scalar_value s); [|tauto].
  induction s as [|c s IH]; [split; constructor|]. cbn [flat_map]. rewrite Forall_app, Forall_cons_iff, encode_char_scalar. tauto.
Qed.
Lemma newline_scalar level : Forall scalar_value (newline_indent level).
Proof. constructor; [now apply scalar_ascii|]. apply Forall_forall. intros c H. apply repeat_spec in H as ->. now apply scalar_ascii. Qed.
Lemma join_scalar sep l : Forall scalar_value sep -> Forall scalar_value (join sep l) <-> Forall (Forall scalar_value) l.
Proof.
  intros Sp. induction l as [|a [|b l] IH]; [split; constructor| |].
  - cbn [join]. split; [intros H; constructor; [exact H|constructor]|intros H; now inversion H].
  - change (join sep (a :: b :: l)) with (a ++ sep ++ join sep (b :: l)). rewrite !Forall_app, IH, (Forall_cons_iff _ a). tauto.
Qed.
Lemma digits_scalar d : ascii_digits d -> Forall scalar_value d.
Proof. intros A. eapply Forall_impl; [|exact A]. cbn. intros c H. unfold scalar_value. lia. Qed.
Lemma integer_scalar t z : integer_text t z -> Forall scalar_value t.
Proof.
  assert (G : forall d, integer_digits d -> Forall scalar_value d).
  { intros d [-> |(c & d' & -> & C & A)]; [now apply scalar_u|]. constructor; [unfold scalar_value; lia|now apply digits_scalar]. }
  intros (d & n & D & _ & [[-> _]|[-> _]]); [now apply G|]. apply Forall_app. split; [now apply scalar_u|now apply G].
Qed.
Lemma encodable_list l : encodable (JList l) <-> Forall encodable l.
Proof.
  unfold encodable. rewrite Forall_forall. split.
  - intros H j I s Sj. apply H. econstructor; eassumption.
  - intros H s Sj. inversion Sj; subst. eapply H; eassumption.
Qed.
Lemma encodable_obj o : encodable (JObj o) <-> Forall (fun kv => Forall scalar_value (fst kv) /\ encodable (snd kv)) o.
Proof.
  unfold encodable. rewrite Forall_forall. split.
  - intros H [k v] I. split; [apply H; econstructor; exact I|]. intros s Sj. apply H. eapply in_value; eassumption.
  - intros H s Sj. inversion Sj as [| |o' k v I|o' k v s' I Sv]; subst.
    + exact (proj1 (H _ I)).
    + exact (proj2 (H _ I) _ Sv).
Qed.
Lemma encoded_scalar j : float_free j -> forall level, Forall scalar_value (iterencode level j) <-> encodable j.
Proof.
  induction j as [|b|z|t|s|l IH|o IH] using json_induction; intros F level.
  - split; [intros _ s H; inversion H|intros _; now apply scalar_u].
  - split; [intros _ s H; inversion H|intros _; destruct b; now apply scalar_u].
  - split; [intros _ s H; inversion H|intros _; apply (integer_scalar _ z); apply encoded_integer].
  - inversion F.
  - cbn [iterencode]. rewrite encode_string_scalar. split; [intros H s' Hs; inversion Hs; now subst|]. intros H. apply H. constructor.
  - inversion F as [| | | |? Fl|]; subst. rewrite encodable_list. destruct l as [|v l]; [split; [constructor|intros _; now apply scalar_u]|].
    change (iterencode level (JList (v :: l))) with (u "[" ++ newline_indent (S level)
             ++ join (u "," ++ newline_indent (S level)) (map (iterencode (S level)) (v :: l)) ++ newline_indent level ++ u "]").
    rewrite !Forall_app, join_scalar by (apply Forall_app; split; [now apply scalar_u|apply newline_scalar]).
    rewrite Forall_map. rewrite !Forall_forall in *. split.
    + intros (_ & _ & H & _) j I. apply (IH j I (Fl j I) (S level)). auto.
    + intros H. rewrite <- !Forall_forall. split; [now apply scalar_u|]. split; [apply newline_scalar|]. split; [|split; [apply newline_scalar|now apply scalar_u]].
      apply Forall_forall. intros j I. apply (IH j I (Fl j I) (S level)). auto.
  - inversion F as [| | | | |? Fl]; subst. rewrite encodable_obj. destruct o as [|v l]; [split; [constructor|intros _; now apply scalar_u]|].
    set (f := fun kv : pystr * json => match kv with (k, v) => encode_string k ++ u ": " ++ iterencode (S level) v end).
    change (iterencode level (JObj (v :: l))) with (u "{" ++ newline_indent (S level)
             ++ join (u "," ++ newline_indent (S level)) (map f (v :: l)) ++ newline_indent level ++ u "}").
    rewrite !Forall_app, join_scalar by (apply Forall_app; split; [now apply scalar_u|apply newline_scalar]).
    assert (G : forall m, In m (v :: l) -> Forall scalar_value (f m) <-> Forall scalar_value (fst m) /\ encodable (snd m)).
    { intros [k x] I. unfold f. rewrite !Forall_app, encode_string_scalar. rewrite Forall_forall in IH, Fl. specialize (IH _ I (Fl _ I) (S level)). cbn [fst snd] in *.
      assert (Q : Forall scalar_value (u ": ")) by now apply scalar_u. tauto. }
    rewrite Forall_map. split.
    + intros (_ & _ & H & _). rewrite Forall_forall in *. intros m I. apply G; auto.
    + intros H. split; [now apply scalar_u|]. split; [apply newline_scalar|]. split; [|split; [apply newline_scalar|now apply scalar_u]].
      rewrite Forall_forall in *. intros m I. apply G; auto.
Qed.

Lemma reordered_encodable j : forall j', reordered j j' -> encodable j <-> encodable j'.
Proof.
  induction j as [|b|z|t|s|l IH|o IH] using json_induction; intros j' R; try (inversion R; subst; reflexivity).
  - inversion R as [|? l' F|]; subst; [reflexivity|]. rewrite !encodable_list. clear R.
    induction F as [|x y l l' Rx _ IHF]; [reflexivity|]. inversion IH as [|? ? Hx Hl]; subst. rewrite !Forall_cons_iff. rewrite (Hx y Rx), (IHF Hl). reflexivity.
  - inversion R as [| |? o1 o' Nd F P]; subst; [reflexivity|]. rewrite !encodable_obj.
    transitivity (Forall (fun kv => Forall scalar_value (fst kv) /\ encodable (snd kv)) o1).
    + clear - IH F. induction F as [|[k x] [k' y] o o1 [K Rx] _ IHF]; [reflexivity|]. inversion IH as [|? ? Hx Hl]; subst. rewrite !Forall_cons_iff.
      cbn [fst snd] in *. subst k'. rewrite (Hx _ Rx), (IHF Hl). reflexivity.
    + split; intros H; eapply Permutation.Permutation_Forall; try exact H; [exact P|now apply Permutation.Permutation_sym].
Qed.

(** *** Sorting what is in order *)
Lemma less_str_leb a b : code_point_less a b -> str_leb a b = true.
Proof.
  intros (c & a' & b' & -> & -> & K). induction c as [|x c IH]; cbn [app str_leb].
  - destruct K as [[-> N]|(x & y & r & r' & -> & -> & L)].
    + now destruct b'.
    + cbn [str_leb]. now rewrite (proj2 (N.ltb_lt x y) L).
  - now rewrite N.ltb_irrefl, N.eqb_refl.
Qed.
Lemma sorted_already j : ascending_keys j -> sort_keys j = j.
Proof.
  induction j as [|b|z|v|y|l IH|m IH] using json_induction; intros A; try reflexivity; cbn [sort_keys]; f_equal.
  - inversion A as [| | | | |? Al|]; subst. rewrite Forall_forall in *. rewrite <- (map_id l) at 2. apply map_ext_in. auto.
  - inversion A as [| | | | | |? Sm Am]; subst.
    assert (E : map (fun kv => match kv with (k, v) => (k, sort_keys v) end) m = m).
    { rewrite Forall_forall in *. rewrite <- (map_id m) at 2. apply map_ext_in. intros [k v] I. specialize (IH _ I). specialize (Am _ I). cbn in *. now rewrite IH. }
    rewrite E. clear - Sm. induction m as [|[k v] m IH]; [reflexivity|]. cbn [map fst] in Sm. apply Sorted.StronglySorted_inv in Sm as [M F].
    cbn [sort_items]. rewrite IH by exact M. destruct m as [|[k' v'] m]; [reflexivity|]. cbn [insert_key].
    inversion F as [|? ? C _]; subst. now rewrite (less_str_leb _ _ C).
Qed.
