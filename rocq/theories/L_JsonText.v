(** Reading and writing JSON texts. *)
From Coq Require Import Ascii String List NArith ZArith Bool Lia.
From Verif Require Import PyBase PyStr M_Components M_Ahb M_Schema M_Cli M_JsonText L_Base L_ValuePool S_Text S_FlatAhb S_Csv L_Csv S_DeepAhb S_Cli S_JsonText.
Import ListNotations.
Local Open Scope list_scope.

(** ** whitespace *)
Lemma is_space_spec c : is_json_space c = true <-> In c [32; 9; 10; 13]%N.
Proof.
  unfold is_json_space. rewrite !orb_true_iff, !N.eqb_eq. cbn [In]. intuition congruence.
Qed.
Lemma skip_split s : exists w, s = w ++ skip_space s /\ whitespace w.
Proof.
  induction s as [|c s (w & E & W)]; [exists []; split; [reflexivity|constructor]|].
  cbn [skip_space]. destruct (is_json_space c) eqn:C.
  - exists (c :: w). split; [cbn; congruence|]. constructor; [now apply is_space_spec|exact W].
  - exists []. split; [reflexivity|constructor].
Qed.
Lemma skip_ws w s : whitespace w -> skip_space (w ++ s) = skip_space s.
Proof.
  induction 1 as [|c w C _ IH]; [reflexivity|]. cbn [app skip_space]. apply is_space_spec in C. now rewrite C.
Qed.
Lemma skip_all w : whitespace w -> skip_space w = [].
Proof. intros W. rewrite <- (app_nil_r w). now rewrite skip_ws. Qed.
Lemma skip_nil s : skip_space s = [] -> whitespace s.
Proof. intros E. destruct (skip_split s) as (w & H & W). rewrite E, app_nil_r in H. now subst. Qed.

(** ** strings *)
Lemma hex_value_spec c n : hex_value c = Some n <-> hex_digit_is c n.
Proof.
  unfold hex_value, in_range. split.
  - destruct ((48 <=? c)%N && (c <=? 57)%N)%bool eqn:A.
    { apply andb_prop in A as [A B]. apply N.leb_le in A, B. intros [= <-]. now constructor. }
    destruct ((97 <=? c)%N && (c <=? 102)%N)%bool eqn:A2.
    { apply andb_prop in A2 as [A2 B]. apply N.leb_le in A2, B. intros [= <-]. now apply hex_af. }
    destruct ((65 <=? c)%N && (c <=? 70)%N)%bool eqn:A3; [|discriminate].
    apply andb_prop in A3 as [A3 B]. apply N.leb_le in A3, B. intros [= <-]. now apply hex_AF.
  - intros [c' H|c' H|c' H].
    + destruct (N.leb_spec 48 c'), (N.leb_spec c' 57); try lia. reflexivity.
    + destruct (N.leb_spec 48 c'), (N.leb_spec c' 57), (N.leb_spec 97 c'), (N.leb_spec c' 102); try lia; reflexivity.
    + destruct (N.leb_spec 48 c'), (N.leb_spec c' 57), (N.leb_spec 97 c'), (N.leb_spec c' 102), (N.leb_spec 65 c'), (N.leb_spec c' 70); try lia; reflexivity.
Qed.
Lemma hex4_spec a b c d n : hex4 a b c d = Some n <-> hex_digits_are [a; b; c; d] n.
Proof.
  unfold hex4. split.
  - destruct (hex_value a) as [x|] eqn:A; [|discriminate]. destruct (hex_value b) as [y|] eqn:B; [|discriminate].
    destruct (hex_value c) as [z|] eqn:C; [|discriminate]. destruct (hex_value d) as [w|] eqn:D; [|discriminate].
    intros [= <-]. apply hex_value_spec in A, B, C, D.
    replace (((x * 16 + y) * 16 + z) * 16 + w)%N with (x * 4096 + y * 256 + z * 16 + w)%N by lia. now constructor.
  - intros H. inversion H as [? ? ? ? x y z w A B C D]; subst. apply hex_value_spec in A, B, C, D. rewrite A, B, C, D. f_equal. lia.
Qed.
Lemma hex_digits_inv t n : hex_digits_are t n -> exists a b c d, t = [a; b; c; d] /\ hex4 a b c d = Some n.
Proof. intros H. pose proof H as H'. inversion H'; subst. exists a, b, c, d. split; [reflexivity|]. now apply hex4_spec. Qed.
Lemma high_spec n : is_high_surrogate n = true <-> high n.
Proof. unfold is_high_surrogate, in_range, high. rewrite andb_true_iff, !N.leb_le. tauto. Qed.
Lemma low_spec n : is_low_surrogate n = true <-> low n.
Proof. unfold is_low_surrogate, in_range, low. rewrite andb_true_iff, !N.leb_le. tauto. Qed.
Lemma simple_escape_spec e c : simple_escape e = Some c <-> In (e, c) short_escapes.
Proof.
  unfold simple_escape, short_escapes. split.
  - repeat match goal with
    | |- context [(e =? ?k)%N] => destruct (N.eqb_spec e k); [subst e; intros [= <-]; cbn [In]; tauto|]
    end. discriminate.
  - cbn [In]. intros H. decompose [or] H; try (match goal with K : _ = _ |- _ => injection K as <- <- end; reflexivity). contradiction.
Qed.
Lemma not_short : ~ exists c, In (117%N, c) short_escapes.
Proof. intros (c & H). cbn [In short_escapes] in H. intuition discriminate. Qed.

Lemma add_char_ok c r s rest : add_char c r = Ok (s, rest) <-> exists s', s = c :: s' /\ r = Ok (s', rest).
Proof.
  unfold add_char. destruct r as [[s1 r1]|e]; split.
  - intros [= <- <-]. eauto.
  - intros (s' & -> & [= <- <-]). reflexivity.
  - discriminate.
  - intros (s' & _ & [=]).
Qed.

Lemma scan_string_sound n : forall t, List.length t <= n -> forall s rest, scan_string t = Ok (s, rest) ->
  exists t', t = t' ++ u """" ++ rest /\ string_text s t'.
Proof.
  induction n as [|n IH]; intros t L s rest H; [destruct t; [discriminate|cbn in L; lia]|].
  destruct t as [|c r]; [discriminate|]. cbn [List.length] in L. cbn [scan_string] in H.
  destruct (N.eqb_spec c 34) as [-> |N1]; [injection H as <- <-; exists []; split; [reflexivity|constructor]|].
  destruct (N.eqb_spec c 92) as [-> |N2].
  - destruct r as [|e r1]; [discriminate|]. cbn [List.length] in L. destruct (N.eqb_spec e 117) as [-> |N3].
    + destruct r1 as [|h1 [|h2 [|h3 [|h4 r2]]]]; try discriminate. cbn [List.length] in L.
      destruct (hex4 h1 h2 h3 h4) as [x|] eqn:X; [|discriminate]. apply hex4_spec in X.
      assert (K : forall s', scan_string r2 = Ok (s', rest) -> s = x :: s' ->
                  (high x -> forall y m t', hex_digits_are y m -> low m -> r2 <> u "\u" ++ y ++ t') ->
                  exists t', 92%N :: 117%N :: h1 :: h2 :: h3 :: h4 :: r2 = t' ++ u """" ++ rest /\ string_text s t').
      { intros s' E -> NP. apply IH in E as (t' & -> & T); [|lia]. exists (u "\u" ++ [h1; h2; h3; h4] ++ t'). split; [reflexivity|].
        apply string_escape; [exact X| |exact T]. intros (Hi & y & m & t'' & Y & Lo & ->). eapply (NP Hi y m); [exact Y|exact Lo|].
        rewrite <- !app_assoc. reflexivity. }
      destruct (is_high_surrogate x) eqn:Hx.
      * destruct r2 as [|b [|v [|g1 [|g2 [|g3 [|g4 r3]]]]]];
          try (apply add_char_ok in H as (s' & -> & H); apply (K s' H eq_refl); intros _ y m t' Y _ E;
               apply hex_digits_inv in Y as (? & ? & ? & ? & -> & _); discriminate E).
        destruct (N.eqb_spec b 92) as [-> |Nb].
        2:{ cbn [andb] in H. apply add_char_ok in H as (s' & -> & H). apply (K s' H eq_refl). intros _ y m t' Y _ E. injection E as E _. congruence. }
        destruct (N.eqb_spec v 117) as [-> |Nv].
        2:{ cbn [andb] in H. apply add_char_ok in H as (s' & -> & H). apply (K s' H eq_refl). intros _ y m t' Y _ E. injection E as E _. congruence. }
        cbn [andb] in H. destruct (hex4 g1 g2 g3 g4) as [y|] eqn:Y; [|discriminate].
        destruct (is_low_surrogate y) eqn:Ly.
        -- apply add_char_ok in H as (s' & -> & H). apply IH in H as (t' & -> & T); [|cbn [List.length] in L; lia].
           exists (u "\u" ++ [h1; h2; h3; h4] ++ u "\u" ++ [g1; g2; g3; g4] ++ t'). split; [reflexivity|].
           apply string_pair; [exact X|now apply hex4_spec|now apply high_spec|now apply low_spec|exact T].
        -- apply add_char_ok in H as (s' & -> & H). apply (K s' H eq_refl). intros _ z m t' Z Lm E.
           apply hex_digits_inv in Z as (? & ? & ? & ? & -> & Z). cbn [app] in E. injection E as <- <- <- <- _.
           assert (m = y) as -> by congruence. apply low_spec in Lm. congruence.
      * apply add_char_ok in H as (s' & -> & H). apply (K s' H eq_refl). intros Hi. apply high_spec in Hi. congruence.
    + destruct (simple_escape e) as [x|] eqn:X; [|discriminate]. apply simple_escape_spec in X.
      apply add_char_ok in H as (s' & -> & H). apply IH in H as (t' & -> & T); [|lia].
      exists (92%N :: e :: t'). split; [reflexivity|]. now apply string_short.
  - destruct (N.ltb_spec c 32) as [|G]; [discriminate|]. apply add_char_ok in H as (s' & -> & H). apply IH in H as (t' & -> & T); [|lia].
    exists (c :: t'). split; [reflexivity|]. now apply string_char.
Qed.

(** an escape at the beginning *)
Lemma starts_with_u s t y : string_text s (92%N :: 117%N :: t) -> t = y -> exists g1 g2 g3 g4 r, t = g1 :: g2 :: g3 :: g4 :: r /\ exists m, hex4 g1 g2 g3 g4 = Some m.
Proof.
  intros H _. inversion H as [|c s' t' C N1 N2 T|e c s' t' Ee T|x y' n m s' t' X Y Hi Lo T|x n s' t' X NP T]; subst.
  - now destruct N2.
  - exfalso. apply not_short. eauto.
  - apply hex_digits_inv in X as (g1 & g2 & g3 & g4 & -> & X). exists g1, g2, g3, g4. eexists. split; [reflexivity|eauto].
  - apply hex_digits_inv in X as (g1 & g2 & g3 & g4 & -> & X). exists g1, g2, g3, g4. eexists. split; [reflexivity|eauto].
Qed.
Lemma scan_string_complete s t : string_text s t -> forall rest, scan_string (t ++ u """" ++ rest) = Ok (s, rest).
Proof.
  induction 1 as [|c s t C N1 N2 T IH|e c s t E T IH|x y n m s t X Y Hi Lo T IH|x n s t X NP T IH]; intros rest.
  - reflexivity.
  - cbn [app scan_string]. change (ch """") with 34%N in N1. change (ch "\") with 92%N in N2.
    destruct (N.eqb_spec c 34); [congruence|]. destruct (N.eqb_spec c 92); [congruence|]. destruct (N.ltb_spec c 32); [lia|].
    rewrite IH. reflexivity.
  - change (ch "\") with 92%N. cbn [app scan_string]. change (92 =? 34)%N with false. change (92 =? 92)%N with true. cbn match.
    destruct (N.eqb_spec e 117) as [-> |N]; [exfalso; apply not_short; eauto|]. apply simple_escape_spec in E. rewrite E, IH. reflexivity.
  - apply hex_digits_inv in X as (a & b & c & d & -> & X). apply hex_digits_inv in Y as (a' & b' & c' & d' & -> & Y).
    change (u "\u") with [92; 117]%N. cbn [app scan_string]. change (92 =? 34)%N with false. change (92 =? 92)%N with true. change (117 =? 117)%N with true. cbn match.
    rewrite X. apply high_spec in Hi. rewrite Hi. cbn [andb]. rewrite Y. apply low_spec in Lo. rewrite Lo, IH. reflexivity.
  - apply hex_digits_inv in X as (a & b & c & d & -> & X).
    change (u "\u") with [92; 117]%N. cbn [app]. cbn [scan_string]. change (92 =? 34)%N with false. change (92 =? 92)%N with true. change (117 =? 117)%N with true. cbn match.
    rewrite X. destruct (is_high_surrogate n) eqn:Hn; [|rewrite IH; reflexivity]. apply high_spec in Hn.
    pose proof (IH rest) as IHr. revert IHr. remember (t ++ u """" ++ rest) as r2 eqn:E2. intros IHr.
    destruct r2 as [|b0 [|v [|g1 [|g2 [|g3 [|g4 r3]]]]]]; try (rewrite IHr; reflexivity).
    destruct (N.eqb_spec b0 92) as [-> |]; [|cbn [andb]; rewrite IHr; reflexivity].
    destruct (N.eqb_spec v 117) as [-> |]; [|cbn [andb]; rewrite IHr; reflexivity]. cbn [andb].
    destruct t as [|t0 t]; [discriminate|]. cbn [app] in E2. injection E2 as <- E2.
    destruct t as [|t1 t]; [cbn [app] in E2; discriminate|]. cbn [app] in E2. injection E2 as <- E2.
    destruct (starts_with_u s t t T eq_refl) as (k1 & k2 & k3 & k4 & r & -> & m & M). cbn [app] in E2. injection E2 as <- <- <- <- E2.
    rewrite M. destruct (is_low_surrogate m) eqn:Lm; [|rewrite IHr; reflexivity].
    exfalso. apply NP. split; [exact Hn|]. exists [g1; g2; g3; g4], m, r. split; [now apply hex4_spec|]. split; [now apply low_spec|reflexivity].
Qed.

(** ** numbers *)
Lemma digit_spec c : is_09 c = true <-> (48 <= c <= 57)%N.
Proof. unfold is_09, in_range. rewrite andb_true_iff, !N.leb_le. tauto. Qed.
(** the text does not go on with a digit *)
Definition stops_digits (s : pystr) : Prop := match s with [] => True | c :: _ => is_09 c = false end.
Lemma span_sound s d r : span_digits s = (d, r) -> s = d ++ r /\ ascii_digits d /\ stops_digits r.
Proof.
  revert d r. induction s as [|c s IH]; intros d r H; cbn [span_digits] in H.
  - injection H as <- <-. repeat split. constructor.
  - destruct (is_09 c) eqn:C.
    + destruct (span_digits s) as [d' r'] eqn:E. injection H as <- <-. destruct (IH _ _ eq_refl) as (-> & A & S0).
      repeat split; [|exact S0]. constructor; [now apply digit_spec|exact A].
    + injection H as <- <-. split; [reflexivity|]. split; [constructor|]. exact C.
Qed.
Lemma span_complete d r : ascii_digits d -> stops_digits r -> span_digits (d ++ r) = (d, r).
Proof.
  intros A S0. induction A as [|c d C A IH]; cbn [app span_digits].
  - destruct r as [|c r]; [reflexivity|]. cbn [span_digits]. cbn in S0. now rewrite S0.
  - apply digit_spec in C. now rewrite C, IH.
Qed.
Lemma digits_value_snoc d c : digits_value (d ++ [c]) = (digits_value d * 10 + (c - 48))%N.
Proof. unfold digits_value. now rewrite fold_left_app. Qed.
Lemma decimal_value_spec d n : decimal_value d n <-> digits_value d = n.
Proof.
  split.
  - induction 1 as [|d n c _ IH]; [reflexivity|]. rewrite digits_value_snoc, IH. lia.
  - intros <-. induction d as [|c d IH] using rev_ind; [constructor|]. rewrite digits_value_snoc.
    replace (digits_value d * 10 + (c - 48))%N with (10 * digits_value d + (c - 48))%N by lia. now constructor.
Qed.
Lemma scan_integer_sound s d r : scan_integer s = Ok (d, r) -> s = d ++ r /\ integer_digits d.
Proof.
  destruct s as [|c s]; [discriminate|]. unfold scan_integer. destruct (in_range 49%N 57%N c) eqn:C.
  - intros [= H]. cbn [span_digits] in H. unfold in_range in C. apply andb_prop in C as [C1 C2]. apply N.leb_le in C1, C2.
    assert (is_09 c = true) as D by (apply digit_spec; lia). rewrite D in H. destruct (span_digits s) as [d' r'] eqn:E. injection H as <- <-.
    apply span_sound in E as (-> & A & _). split; [reflexivity|]. right. exists c, d'. auto.
  - destruct (N.eqb_spec c 48) as [-> |]; [|discriminate]. intros [= <- <-]. split; [reflexivity|]. now left.
Qed.
Lemma scan_integer_complete d r : integer_digits d -> stops_digits r -> scan_integer (d ++ r) = Ok (d, r).
Proof.
  intros [-> |(c & d' & -> & C & A)] S0.
  - reflexivity.
  - cbn [app scan_integer]. unfold in_range. destruct (N.leb_spec 49 c), (N.leb_spec c 57); try lia. cbn [andb].
    change (c :: d' ++ r) with ((c :: d') ++ r). rewrite span_complete; [reflexivity| |exact S0]. constructor; [lia|exact A].
Qed.
Lemma scan_fraction_sound s f r : scan_fraction s = (f, r) -> s = f ++ r /\ (f = [] \/ fraction_text f).
Proof.
  unfold scan_fraction. destruct s as [|p [|d s]]; try (intros [= <- <-]; auto).
  destruct (N.eqb_spec p 46) as [-> |]; cbn [andb]; [|intros [= <- <-]; auto].
  destruct (is_09 d) eqn:D; [|intros [= <- <-]; auto].
  destruct (span_digits (d :: s)) as [ds r'] eqn:E. intros [= <- <-]. cbn [span_digits] in E. rewrite D in E.
  destruct (span_digits s) as [d' r''] eqn:E'. injection E as <- <-. apply span_sound in E' as (-> & A & _).
  split; [reflexivity|]. right. exists (d :: d'). split; [reflexivity|]. split; [discriminate|]. constructor; [now apply digit_spec|exact A].
Qed.
Lemma scan_exponent_sound s f r : scan_exponent s = (f, r) -> s = f ++ r /\ (f = [] \/ exponent_text f).
Proof.
  unfold scan_exponent. destruct s as [|e s]; [intros [= <- <-]; auto|].
  destruct ((e =? 101)%N || (e =? 69)%N)%bool eqn:Ee; [|intros [= <- <-]; auto].
  set (x := match s with c :: r' => if ((c =? 45)%N || (c =? 43)%N)%bool then ([c], r') else ([], s) | [] => ([], s) end).
  assert (X : exists sign r1, x = (sign, r1) /\ s = sign ++ r1 /\ (sign = [] \/ sign = u "+" \/ sign = u "-")).
  { subst x. destruct s as [|c s]; [exists [], []; auto|]. destruct ((c =? 45)%N || (c =? 43)%N)%bool eqn:C.
    - exists [c], s. split; [reflexivity|]. split; [reflexivity|]. apply orb_prop in C as [C|C]; apply N.eqb_eq in C as ->; auto.
    - exists [], (c :: s). auto. }
  destruct X as (sign & r1 & -> & Es & Sg). destruct (span_digits r1) as [ds r'] eqn:E. apply span_sound in E as (-> & A & _).
  destruct ds as [|d0 ds]; intros [= <- <-]; [auto|]. subst s. split; [cbn; now rewrite <- app_assoc|].
  right. exists [e], sign, (d0 :: ds). split; [reflexivity|]. split; [|split; [exact Sg|split; [discriminate|exact A]]].
  apply orb_prop in Ee as [K|K]; apply N.eqb_eq in K as ->; auto.
Qed.
(** the text does not go on with a digit, a point or an exponent *)
Definition stops_number (s : pystr) : Prop :=
  match s with [] => True | c :: _ => is_09 c = false /\ c <> 46%N /\ c <> 101%N /\ c <> 69%N end.
Lemma stops_number_digits s : stops_number s -> stops_digits s.
Proof. destruct s; [auto|]. now intros (H & _). Qed.
Lemma no_fraction s : (match s with [] => True | c :: _ => c <> 46%N end) -> scan_fraction s = ([], s).
Proof. destruct s as [|c [|d s]]; [reflexivity..|]. intros H. cbn [scan_fraction]. destruct (N.eqb_spec c 46); [congruence|reflexivity]. Qed.
Lemma no_exponent s : (match s with [] => True | c :: _ => c <> 101%N /\ c <> 69%N end) -> scan_exponent s = ([], s).
Proof.
  destruct s as [|c s]; [reflexivity|]. intros [H1 H2]. cbn [scan_exponent].
  destruct (N.eqb_spec c 101); [congruence|]. destruct (N.eqb_spec c 69); [congruence|]. reflexivity.
Qed.
Lemma fraction_complete f r : fraction_text f -> stops_digits r -> scan_fraction (f ++ r) = (f, r).
Proof.
  intros (d & -> & N & A) S0. destruct d as [|d0 d]; [congruence|]. change (u ".") with [46%N]. cbn [app scan_fraction].
  change (46 =? 46)%N with true. inversion A as [|? ? D A']; subst. apply digit_spec in D. rewrite D. cbn [andb].
  change (d0 :: d ++ r) with ((d0 :: d) ++ r). rewrite span_complete by assumption. reflexivity.
Qed.
Lemma exponent_complete f r : exponent_text f -> stops_digits r -> scan_exponent (f ++ r) = (f, r).
Proof.
  intros (e & sign & d & -> & He & Hs & N & A) S0.
  assert (E : exists c, e = [c] /\ ((c =? 101)%N || (c =? 69)%N)%bool = true) by (destruct He as [-> | ->]; eexists; split; reflexivity).
  destruct E as (c & -> & E). cbn [app]. unfold scan_exponent. rewrite E.
  assert (G : forall r1, r1 = d ++ r -> match sign ++ d ++ r with
                | c0 :: r' => if ((c0 =? 45)%N || (c0 =? 43)%N)%bool then ([c0], r') else ([], sign ++ d ++ r)
                | [] => ([], sign ++ d ++ r) end = (sign, r1)).
  { intros r1 ->. destruct Hs as [-> |[-> | ->]]; [|reflexivity|reflexivity]. cbn [app]. destruct d as [|d0 d]; [congruence|].
    cbn [app]. inversion A as [|? ? D A']; subst. destruct (N.eqb_spec d0 45); [lia|]. destruct (N.eqb_spec d0 43); [lia|]. reflexivity. }
  rewrite <- app_assoc. rewrite (G _ eq_refl). rewrite span_complete by assumption. destruct d; [congruence|reflexivity].
Qed.

Section Read.
  Variable float_value : pystr -> option Z.
  Notation json_text := (json_text float_value).
  Notation elements_text := (elements_text float_value).
  Notation members_text := (members_text float_value).
  Notation member_text := (member_text float_value).
  Notation scan_once := (scan_once float_value).
  Notation scan_elements := (scan_elements float_value).
  Notation scan_members := (scan_members float_value).
  Notation scan_number := (scan_number float_value).

  Lemma scan_number_sound s j rest : scan_number s = Ok (j, rest) -> exists t, s = t ++ rest /\ json_text j t.
  Proof.
    unfold M_JsonText.scan_number.
    set (x := match s with c :: r => if (c =? 45)%N then ([c], r) else ([], s) | [] => ([], s) end).
    assert (X : exists sign s1, x = (sign, s1) /\ s = sign ++ s1 /\ (sign = [] \/ sign = u "-")).
    { subst x. destruct s as [|c s]; [exists [], []; auto|]. destruct (N.eqb_spec c 45) as [-> |]; [exists [45%N], s|exists [], (c :: s)]; auto. }
    destruct X as (sign & s1 & -> & -> & Sg). intros H. apply bind_ok in H as ([d s2] & D & H).
    apply scan_integer_sound in D as [-> D]. destruct (scan_fraction s2) as [f s3] eqn:F. apply scan_fraction_sound in F as [-> F].
    destruct (scan_exponent s3) as [e s4] eqn:E. apply scan_exponent_sound in E as [-> E].
    assert (NF : f = [] \/ f <> []) by (destruct f; [now left|right; discriminate]).
    assert (NE : e = [] \/ e <> []) by (destruct e; [now left|right; discriminate]).
    destruct NF as [-> |NF], NE as [-> |NE].
    - injection H as <- <-. exists (sign ++ d). split; [now rewrite <- app_assoc|]. apply text_integer.
      exists d, (digits_value d). split; [exact D|]. split; [now apply decimal_value_spec|].
      destruct Sg as [-> | ->]; [left|right]; split; reflexivity.
    - assert (H' : Ok (JFloat (float_value (sign ++ d ++ [] ++ e)), s4) = Ok (j, rest)) by (destruct e; [congruence|exact H]).
      injection H' as <- <-. exists (sign ++ d ++ [] ++ e). split; [cbn [app]; now rewrite <- !app_assoc|]. apply text_float.
      exists sign, d, [], e. split; [reflexivity|]. split; [exact Sg|]. split; [exact D|]. right. split; [reflexivity|]. tauto.
    - assert (H' : Ok (JFloat (float_value (sign ++ d ++ f ++ [])), s4) = Ok (j, rest)) by (destruct f; [congruence|exact H]).
      injection H' as <- <-. exists (sign ++ d ++ f ++ []). split; [cbn [app]; now rewrite <- !app_assoc|]. apply text_float.
      exists sign, d, f, []. split; [reflexivity|]. split; [exact Sg|]. split; [exact D|]. left. split; [tauto|now left].
    - assert (H' : Ok (JFloat (float_value (sign ++ d ++ f ++ e)), s4) = Ok (j, rest)) by (destruct f; [congruence|exact H]).
      injection H' as <- <-. exists (sign ++ d ++ f ++ e). split; [now rewrite <- !app_assoc|]. apply text_float.
      exists sign, d, f, e. split; [reflexivity|]. split; [exact Sg|]. split; [exact D|]. left. tauto.
  Qed.

  Lemma starts_digit d r : integer_digits d -> exists c t, d ++ r = c :: t /\ (48 <= c <= 57)%N.
  Proof. intros [-> |(c & d' & -> & C & _)]; [exists 48%N, r; split; [reflexivity|lia]|exists c, (d' ++ r); split; [reflexivity|lia]]. Qed.
  Lemma split_sign sign d r : (sign = [] \/ sign = u "-") -> integer_digits d ->
    match sign ++ d ++ r with c :: r0 => if (c =? 45)%N then ([c], r0) else ([], sign ++ d ++ r) | [] => ([], sign ++ d ++ r) end = (sign, d ++ r).
  Proof.
    intros [-> | ->] D; [|reflexivity]. cbn [app]. destruct (starts_digit d r D) as (c & t & E & C). rewrite E.
    destruct (N.eqb_spec c 45); [lia|reflexivity].
  Qed.
  Lemma scan_number_integer t z rest : integer_text t z -> stops_number rest -> scan_number (t ++ rest) = Ok (JInt z, rest).
  Proof.
    intros (d & n & D & V & H) S0. apply decimal_value_spec in V.
    assert (K : exists sign, (sign = [] \/ sign = u "-") /\ t = sign ++ d /\ z = match sign with [] => Z.of_N n | _ => Z.opp (Z.of_N n) end).
    { destruct H as [[-> ->]|[-> ->]]; [exists []|exists (u "-")]; auto. }
    destruct K as (sign & Sg & -> & ->). unfold M_JsonText.scan_number. rewrite <- app_assoc. rewrite split_sign by assumption.
    rewrite scan_integer_complete; [|exact D|now apply stops_number_digits]. cbn [bind].
    rewrite no_fraction; [|destruct rest; [exact I|apply S0]]. rewrite no_exponent; [|destruct rest; [exact I|split; apply S0]].
    rewrite V. destruct Sg as [-> | ->]; reflexivity.
  Qed.
  Lemma exponent_head e : exponent_text e -> exists c t, e = c :: t /\ (c = 101 \/ c = 69)%N.
  Proof. intros (x & sg & d & -> & [-> | ->] & _); [exists 101%N|exists 69%N]; eexists; split; [reflexivity|auto|reflexivity|auto]. Qed.
  Lemma scan_number_float t rest : float_text t -> stops_number rest -> scan_number (t ++ rest) = Ok (JFloat (float_value t), rest).
  Proof.
    intros (sign & d & f & e & -> & Sg & D & H) S0. unfold M_JsonText.scan_number. rewrite <- !app_assoc. rewrite split_sign by assumption.
    assert (SE : stops_digits (e ++ rest) \/ e = []).
    { destruct H as [[_ [-> |E]]|[_ E]]; [now right| |]; left; apply exponent_head in E as (c & t & -> & [-> | ->]); reflexivity. }
    assert (SD : stops_digits (f ++ e ++ rest)).
    { destruct H as [[(x & -> & _) _]|[-> E]]; [reflexivity|]. apply exponent_head in E as (c & t & -> & [-> | ->]); reflexivity. }
    rewrite scan_integer_complete by assumption. cbn [bind].
    assert (F : scan_fraction (f ++ e ++ rest) = (f, e ++ rest)).
    { destruct H as [[F [-> |E]]|[-> E]].
      - apply fraction_complete; [exact F|]. now apply stops_number_digits.
      - apply fraction_complete; [exact F|]. apply exponent_head in E as (c & t & -> & [-> | ->]); reflexivity.
      - cbn [app]. apply no_fraction. apply exponent_head in E as (c & t & -> & [-> | ->]); cbn; discriminate. }
    rewrite F.
    assert (E : scan_exponent (e ++ rest) = (e, rest)).
    { destruct H as [[_ [-> |E]]|[-> E]].
      - cbn [app]. apply no_exponent. destruct rest; [exact I|split; apply S0].
      - apply exponent_complete; [exact E|]. now apply stops_number_digits.
      - apply exponent_complete; [exact E|]. now apply stops_number_digits. }
    rewrite E. destruct H as [[(x & -> & _) _]|[-> E']]; [reflexivity|]. apply exponent_head in E' as (c & t & -> & _). reflexivity.
  Qed.

  (** ** values *)
  (** the first characters of values *)
  Lemma integer_head t z : integer_text t z -> exists c r, t = c :: r /\ (c = 45 /\ (exists d r', r = d :: r' /\ 48 <= d <= 57) \/ 48 <= c <= 57)%N.
  Proof.
    intros (d & n & D & _ & [[-> _]|[-> _]]); destruct (starts_digit d [] D) as (c & r & E & C); rewrite app_nil_r in E; subst d.
    - exists c, r. auto.
    - exists 45%N, (c :: r). split; [reflexivity|]. left. eauto.
  Qed.
  Lemma float_head t : float_text t -> exists c r, t = c :: r /\ (c = 45 /\ (exists d r', r = d :: r' /\ 48 <= d <= 57) \/ 48 <= c <= 57)%N.
  Proof.
    intros (sign & d & f & e & -> & Sg & D & _). destruct (starts_digit d (f ++ e) D) as (c & r & E & C).
    destruct Sg as [-> | ->]; rewrite E.
    - exists c, r. auto.
    - exists 45%N, (c :: r). split; [reflexivity|]. left. eauto.
  Qed.
  Definition value_start (c : char) : Prop := ~ In c [32; 9; 10; 13; 93; 125; 44; 58; 65279]%N.
  Lemma value_head j t : json_text j t -> exists c r, t = c :: r /\ value_start c.
  Proof.
    intros H. inversion H; subst;
      try (eexists; eexists; split; [reflexivity|]; unfold value_start; cbn; repeat (intros [K|K]; revert K); try discriminate; intuition discriminate).
    - cbn [In] in H0. destruct H0 as [<- |[<- |[<- |[]]]]; eexists; eexists; (split; [reflexivity|]); unfold value_start; cbn; intuition discriminate.
    - apply integer_head in H0 as (c & r & -> & [[-> _]|C]); exists c || exists 45%N; exists r; (split; [reflexivity|]); unfold value_start; cbn; intuition lia.
    - apply float_head in H0 as (c & r & -> & [[-> _]|C]); exists c || exists 45%N; exists r; (split; [reflexivity|]); unfold value_start; cbn; intuition lia.
  Qed.
  Lemma value_not_space c : value_start c -> is_json_space c = false.
  Proof. intros H. destruct (is_json_space c) eqn:E; [|reflexivity]. apply is_space_spec in E. exfalso. apply H. cbn in *. tauto. Qed.
  Lemma skip_value c r : value_start c -> skip_space (c :: r) = c :: r.
  Proof. intros H. cbn [skip_space]. now rewrite (value_not_space c H). Qed.
  Lemma skip_to_value w j t rest : whitespace w -> json_text j t -> skip_space (w ++ t ++ rest) = t ++ rest.
  Proof. intros W T. rewrite skip_ws by exact W. destruct (value_head j t T) as (c & r & -> & V). cbn [app]. now apply skip_value. Qed.

  Ltac no_prefix := intros K; first [discriminate K | exact K].
  (** numbers are not mistaken for anything else *)
  Lemma dispatch_number f s : (exists c r, s = c :: r /\ (c = 45 /\ (exists d r', r = d :: r' /\ 48 <= d <= 57) \/ 48 <= c <= 57)%N) ->
    scan_once (S f) s = scan_number s.
  Proof.
    intros (c & r & -> & H). cbn [M_JsonText.scan_once].
    destruct (N.eqb_spec c 34); [lia|]. destruct (N.eqb_spec c 123); [lia|]. destruct (N.eqb_spec c 91); [lia|].
    assert (P : forall a l, (a <> 45 -> ~ (48 <= a <= 57) -> startswith (c :: r) (a :: l) = false)%N).
    { intros a l Na Nd. cbn [startswith]. destruct (N.eqb_spec c a); [|reflexivity]. lia. }
    change (u "null") with (110%N :: u "ull"). change (u "true") with (116%N :: u "rue"). change (u "false") with (102%N :: u "alse").
    change (u "NaN") with (78%N :: u "aN"). change (u "Infinity") with (73%N :: u "nfinity").
    rewrite !P by lia. change (u "-Infinity") with (45%N :: 73%N :: u "nfinity"). cbn [startswith].
    destruct (N.eqb_spec c 45) as [-> |]; [|reflexivity]. destruct H as [[_ (d & r' & -> & D)]|]; [|lia].
    cbn [startswith andb]; destruct (N.eqb_spec d 73); [lia|reflexivity].
  Qed.
  Lemma head_app t rest : (exists c r, t = c :: r /\ (c = 45 /\ (exists d r', r = d :: r' /\ 48 <= d <= 57) \/ 48 <= c <= 57)%N) ->
    exists c r, t ++ rest = c :: r /\ (c = 45 /\ (exists d r', r = d :: r' /\ 48 <= d <= 57) \/ 48 <= c <= 57)%N.
  Proof.
    intros (c & r & -> & H). exists c, (r ++ rest). split; [reflexivity|].
    destruct H as [[-> (d & r' & -> & D)]|D]; [|now right]. left. split; [reflexivity|]. exists d, (r' ++ rest). auto.
  Qed.

  (** what may follow a value *)
  Definition follows (s : pystr) : Prop := match s with [] => True | c :: _ => In c [32; 9; 10; 13; 44; 93; 125]%N end.
  Lemma follows_stops s : follows s -> stops_number s.
  Proof.
    destruct s as [|c s]; [auto|]. cbn [follows stops_number]. intros H. cbn [In] in H.
    repeat destruct H as [<-|H]; try (split; [reflexivity|]; repeat split; discriminate). destruct H.
  Qed.
  Lemma follows_ws w r : whitespace w -> follows r -> follows (w ++ r).
  Proof.
    intros W F. destruct W as [|c w C W]; [exact F|]. cbn [app follows]. cbn in *. tauto.
  Qed.

  Scheme json_text_mut := Minimality for S_JsonText.json_text Sort Prop
    with elements_text_mut := Minimality for S_JsonText.elements_text Sort Prop
    with members_text_mut := Minimality for S_JsonText.members_text Sort Prop
    with member_text_mut := Minimality for S_JsonText.member_text Sort Prop.
  Combined Scheme json_text_all from json_text_mut, elements_text_mut, members_text_mut, member_text_mut.

  Lemma scan_complete_all :
    (forall j t, json_text j t -> forall f rest, 2 * List.length t <= f -> follows rest -> scan_once f (t ++ rest) = Ok (j, rest))
    /\ (forall l t, elements_text l t -> forall f acc rest, 2 * List.length t + 1 <= f ->
          scan_elements f acc (skip_space (t ++ u "]" ++ rest)) = Ok (JList (rev acc ++ l), rest))
    /\ (forall ms t, members_text ms t -> forall f acc rest, 2 * List.length t + 1 <= f ->
          scan_members f acc (skip_space (t ++ u "}" ++ rest)) = Ok (JObj (dict_update acc ms), rest))
    /\ (forall m t, member_text m t -> exists k v kt w w' vt, m = (k, v) /\ t = u """" ++ kt ++ u """" ++ w ++ u ":" ++ w' ++ vt
          /\ string_text k kt /\ whitespace w /\ whitespace w' /\ json_text v vt
          /\ forall f rest, 2 * List.length vt <= f -> follows rest -> scan_once f (vt ++ rest) = Ok (v, rest)).
  Proof.
    apply json_text_all.
    - intros f rest L _. destruct f; [cbn in L; lia|]. destruct rest; reflexivity.
    - intros f rest L _. destruct f; [cbn in L; lia|]. destruct rest; reflexivity.
    - intros f rest L _. destruct f; [cbn in L; lia|]. destruct rest; reflexivity.
    - intros t H f rest L _. cbn [In] in H. destruct H as [<- |[<- |[<- |[]]]]; (destruct f; [cbn in L; lia|]; destruct rest; reflexivity).
    - intros t z H f rest L F. pose proof (integer_head t z H) as Hd. destruct f; [destruct Hd as (? & ? & -> & _); cbn in L; lia|].
      rewrite dispatch_number by now apply head_app. apply scan_number_integer; [exact H|now apply follows_stops].
    - intros t H f rest L F. pose proof (float_head t H) as Hd. destruct f; [destruct Hd as (? & ? & -> & _); cbn in L; lia|].
      rewrite dispatch_number by now apply head_app. apply scan_number_float; [exact H|now apply follows_stops].
    - intros s t T f rest L _. destruct f; [cbn in L; lia|]. change (u """") with [34%N]. cbn [app M_JsonText.scan_once].
      change (34 =? 34)%N with true. cbn match. rewrite <- app_assoc. change ([34%N] ++ rest) with (u """" ++ rest).
      rewrite (scan_string_complete s t T). reflexivity.
    - intros w W f rest L _. destruct f; [cbn in L; lia|]. change (u "[") with [91%N]. cbn [app M_JsonText.scan_once].
      change (91 =? 34)%N with false. change (91 =? 123)%N with false. change (91 =? 91)%N with true. cbn match.
      rewrite <- app_assoc, skip_ws by exact W. reflexivity.
    - intros l t T IH f rest L _. rewrite !app_length in L. cbn [List.length] in L. destruct f; [cbn in L; lia|].
      change (u "[") with [91%N]. cbn [app M_JsonText.scan_once]. change (91 =? 34)%N with false. change (91 =? 123)%N with false. change (91 =? 91)%N with true. cbn match.
      rewrite <- app_assoc. assert (E : exists d r, skip_space (t ++ u "]" ++ rest) = d :: r /\ d <> 93%N).
      { destruct T as [v w vt w' W V W'|v w vt w' l t' W V W' T]; rewrite <- !app_assoc; rewrite (skip_to_value w v vt) by assumption;
          destruct (value_head v vt V) as (c & r & -> & VS); exists c; eexists; (split; [reflexivity|]); intros ->; apply VS; cbn; tauto. }
      destruct E as (d & r & E & N). rewrite E. apply N.eqb_neq in N. rewrite N. rewrite <- E.
      rewrite IH; [reflexivity|cbn in L; lia].
    - intros w W f rest L _. destruct f; [cbn in L; lia|]. change (u "{") with [123%N]. cbn [app M_JsonText.scan_once].
      change (123 =? 34)%N with false. change (123 =? 123)%N with true. cbn match.
      rewrite <- app_assoc, skip_ws by exact W. reflexivity.
    - intros ms o t T IH LW f rest L _. rewrite !app_length in L. cbn [List.length] in L. destruct f; [cbn in L; lia|].
      change (u "{") with [123%N]. cbn [app M_JsonText.scan_once]. change (123 =? 34)%N with false. change (123 =? 123)%N with true. cbn match.
      rewrite <- app_assoc. assert (E : exists r, skip_space (t ++ u "}" ++ rest) = 34%N :: r).
      { destruct T as [m w mt w' W V W'|m w mt w' l t' W V W' T]; rewrite <- !app_assoc; rewrite skip_ws by assumption; destruct V; eexists; reflexivity. }
      destruct E as (r & E). apply last_wins_unique in LW. subst o.
      assert (IHf : scan_members f [] (skip_space (t ++ u "}" ++ rest)) = Ok (JObj (dict_update [] ms), rest)) by (apply IH; cbn in L; lia).
      rewrite E in IHf |- *. change (34 =? 125)%N with false. exact IHf.
    - intros v w t w' W V IH W' f acc rest L. destruct f; [lia|]. rewrite !app_length in L. rewrite <- !app_assoc. rewrite (skip_to_value w v t) by assumption.
      cbn [M_JsonText.scan_elements]. rewrite IH; [|lia|apply follows_ws; [exact W'|cbn; tauto]]. cbn [bind].
      rewrite skip_ws by exact W'. cbn [app skip_space]. change (u "]" ++ rest) with (93%N :: rest). reflexivity.
    - intros v w t w' l t' W V IH W' T IHT f acc rest L. destruct f; [lia|]. rewrite !app_length in L. rewrite <- !app_assoc. rewrite (skip_to_value w v t) by assumption.
      cbn [M_JsonText.scan_elements]. rewrite IH; [|lia|apply follows_ws; [exact W'|cbn; tauto]]. cbn [bind].
      rewrite skip_ws by exact W'. change (u "," ++ t' ++ u "]" ++ rest) with (44%N :: t' ++ u "]" ++ rest).
      change (skip_space (44%N :: t' ++ u "]" ++ rest)) with (44%N :: t' ++ u "]" ++ rest). cbn match. change (44 =? 93)%N with false. change (44 =? 44)%N with true. cbn match.
      rewrite IHT; [|cbn in L; lia]. cbn [rev]. now rewrite <- app_assoc.
    - intros m w t w' W M IH W' f acc rest L. destruct f; [lia|]. rewrite !app_length in L. rewrite <- !app_assoc. rewrite skip_ws by exact W.
      destruct IH as (k & v & kt & x & x' & vt & -> & -> & K & X & X' & V & IH). rewrite <- !app_assoc.
      change (u """" ++ kt ++ u """" ++ x ++ u ":" ++ x' ++ vt ++ w' ++ u "}" ++ rest) with (34%N :: kt ++ u """" ++ x ++ u ":" ++ x' ++ vt ++ w' ++ u "}" ++ rest).
      change (skip_space (34%N :: kt ++ u """" ++ x ++ u ":" ++ x' ++ vt ++ w' ++ u "}" ++ rest)) with (34%N :: kt ++ u """" ++ x ++ u ":" ++ x' ++ vt ++ w' ++ u "}" ++ rest).
      cbn [M_JsonText.scan_members]. change (34 =? 34)%N with true. cbn match. rewrite (scan_string_complete k kt K). cbn [bind].
      rewrite skip_ws by exact X. change (u ":" ++ x' ++ vt ++ w' ++ u "}" ++ rest) with (58%N :: x' ++ vt ++ w' ++ u "}" ++ rest).
      change (skip_space (58%N :: x' ++ vt ++ w' ++ u "}" ++ rest)) with (58%N :: x' ++ vt ++ w' ++ u "}" ++ rest). cbn match. change (58 =? 58)%N with true. cbn match.
      rewrite (skip_to_value x' v vt) by assumption. rewrite !app_length in L. rewrite IH; [|cbn in L; lia|apply follows_ws; [exact W'|cbn; tauto]].
      cbn [bind]. rewrite skip_ws by exact W'. change (u "}" ++ rest) with (125%N :: rest). reflexivity.
    - intros m w t w' l t' W M IH W' T IHT f acc rest L. destruct f; [lia|]. rewrite !app_length in L. rewrite <- !app_assoc. rewrite skip_ws by exact W.
      destruct IH as (k & v & kt & x & x' & vt & -> & -> & K & X & X' & V & IH). rewrite <- !app_assoc. set (R := u "," ++ t' ++ u "}" ++ rest).
      change (u """" ++ kt ++ u """" ++ x ++ u ":" ++ x' ++ vt ++ w' ++ R) with (34%N :: kt ++ u """" ++ x ++ u ":" ++ x' ++ vt ++ w' ++ R).
      change (skip_space (34%N :: kt ++ u """" ++ x ++ u ":" ++ x' ++ vt ++ w' ++ R)) with (34%N :: kt ++ u """" ++ x ++ u ":" ++ x' ++ vt ++ w' ++ R).
      cbn [M_JsonText.scan_members]. change (34 =? 34)%N with true. cbn match. rewrite (scan_string_complete k kt K). cbn [bind].
      rewrite skip_ws by exact X. change (u ":" ++ x' ++ vt ++ w' ++ R) with (58%N :: x' ++ vt ++ w' ++ R).
      change (skip_space (58%N :: x' ++ vt ++ w' ++ R)) with (58%N :: x' ++ vt ++ w' ++ R). cbn match. change (58 =? 58)%N with true. cbn match.
      rewrite (skip_to_value x' v vt) by assumption. rewrite !app_length in L. rewrite IH; [|cbn in L; lia|apply follows_ws; [exact W'|cbn; tauto]].
      cbn [bind]. rewrite skip_ws by exact W'. subst R. change (u "," ++ t' ++ u "}" ++ rest) with (44%N :: t' ++ u "}" ++ rest).
      change (skip_space (44%N :: t' ++ u "}" ++ rest)) with (44%N :: t' ++ u "}" ++ rest). cbn match. change (44 =? 125)%N with false. change (44 =? 44)%N with true. cbn match.
      rewrite IHT; [|cbn in L; lia]. reflexivity.
    - intros k kt w w' v t K W W' V IH. exists k, v, kt, w, w', t. repeat (split; [assumption || reflexivity|]). exact IH.
  Qed.

  Lemma skipn_prefix (a s : pystr) : startswith s a = true -> s = a ++ skipn (List.length a) s.
  Proof.
    revert s. induction a as [|c a IH]; intros s H; [reflexivity|]. destruct s as [|d s]; [discriminate|]. cbn in H.
    apply andb_prop in H as [E H]. apply N.eqb_eq in E as <-. cbn [List.length skipn app]. now rewrite <- IH.
  Qed.
  Lemma dict_of_members (ms : list (pystr * json)) : last_wins ms (dict_update [] ms).
  Proof. exact (last_wins_dict_of ms). Qed.

  Lemma scan_sound_all f :
    (forall s j rest, scan_once f s = Ok (j, rest) -> exists t, s = t ++ rest /\ json_text j t)
    /\ (forall acc s j rest, scan_elements f acc s = Ok (j, rest) -> exists l t, s = t ++ u "]" ++ rest /\ elements_text l t /\ j = JList (rev acc ++ l))
    /\ (forall acc s j rest, scan_members f acc s = Ok (j, rest) -> exists ms t, s = t ++ u "}" ++ rest /\ members_text ms t /\ j = JObj (dict_update acc ms)).
  Proof.
    induction f as [|f (IHv & IHe & IHm)]; [repeat split; discriminate|]. split; [|split].
    - intros s j rest H. destruct s as [|c r]; [discriminate|]. cbn [M_JsonText.scan_once] in H.
      destruct (N.eqb_spec c 34) as [-> |_].
      { apply bind_ok in H as ([v r'] & H & E). injection E as <- <-. apply (scan_string_sound _ _ (le_n _)) in H as (t & -> & T).
        exists (u """" ++ t ++ u """"). split; [now rewrite <- !app_assoc|]. now apply text_string. }
      destruct (N.eqb_spec c 123) as [-> |_].
      { destruct (skip_split r) as (w & E & W). destruct (skip_space r) as [|d r'] eqn:Er; [discriminate|]. destruct (N.eqb_spec d 125) as [-> |_].
        - injection H as <- <-. subst r. exists (u "{" ++ w ++ u "}"). split; [now rewrite <- !app_assoc|]. now apply text_empty_object.
        - apply IHm in H as (ms & t & E' & M & ->). subst r. exists (u "{" ++ (w ++ t) ++ u "}"). split; [rewrite E'; now rewrite <- !app_assoc|].
          eapply text_object; [|apply dict_of_members]. assert (MW : forall l x, members_text l x -> whitespace w -> members_text l (w ++ x)).
          { intros l x Mx Ww. destruct Mx; rewrite app_assoc; constructor; auto; apply Forall_app; auto. }
          now apply MW. }
      destruct (N.eqb_spec c 91) as [-> |_].
      { destruct (skip_split r) as (w & E & W). destruct (skip_space r) as [|d r'] eqn:Er; [discriminate|]. destruct (N.eqb_spec d 93) as [-> |_].
        - injection H as <- <-. subst r. exists (u "[" ++ w ++ u "]"). split; [now rewrite <- !app_assoc|]. now apply text_empty_list.
        - apply IHe in H as (l & t & E' & M & ->). subst r. exists (u "[" ++ (w ++ t) ++ u "]"). split; [rewrite E'; now rewrite <- !app_assoc|].
          apply text_list. assert (MW : forall l x, elements_text l x -> whitespace w -> elements_text l (w ++ x)).
          { intros l' x Mx Ww. destruct Mx; rewrite app_assoc; constructor; auto; apply Forall_app; auto. }
          now apply MW. }
      destruct (startswith (c :: r) (u "null")) eqn:P1; [injection H as <- <-; exists (u "null"); split; [exact (skipn_prefix _ _ P1)|constructor]|].
      destruct (startswith (c :: r) (u "true")) eqn:P2; [injection H as <- <-; exists (u "true"); split; [exact (skipn_prefix _ _ P2)|constructor]|].
      destruct (startswith (c :: r) (u "false")) eqn:P3; [injection H as <- <-; exists (u "false"); split; [exact (skipn_prefix _ _ P3)|constructor]|].
      destruct (startswith (c :: r) (u "NaN")) eqn:P4; [injection H as <- <-; exists (u "NaN"); split; [exact (skipn_prefix _ _ P4)|constructor; cbn; auto]|].
      destruct (startswith (c :: r) (u "Infinity")) eqn:P5; [injection H as <- <-; exists (u "Infinity"); split; [exact (skipn_prefix _ _ P5)|constructor; cbn; auto]|].
      destruct (startswith (c :: r) (u "-Infinity")) eqn:P6; [injection H as <- <-; exists (u "-Infinity"); split; [exact (skipn_prefix _ _ P6)|constructor; cbn; auto]|].
      now apply scan_number_sound.
    - intros acc s j rest H. cbn [M_JsonText.scan_elements] in H. apply bind_ok in H as ([v s1] & H1 & H). apply IHv in H1 as (t & -> & T).
      destruct (skip_split s1) as (w & E & W). destruct (skip_space s1) as [|d s2]; [discriminate|]. subst s1.
      destruct (N.eqb_spec d 93) as [-> |_].
      + injection H as <- <-. exists [v], ([] ++ t ++ w). split; [cbn [app]; now rewrite <- app_assoc|].
        split; [constructor; [constructor|exact T|exact W]|]. reflexivity.
      + destruct (N.eqb_spec d 44) as [-> |_]; [|discriminate]. apply IHe in H as (l & t' & E & L & ->).
        destruct (skip_split s2) as (w' & E2 & W'). rewrite E in E2. subst s2.
        exists (v :: l), ([] ++ t ++ w ++ u "," ++ (w' ++ t')). split; [cbn [app]; rewrite <- !app_assoc; reflexivity|].
        split; [|cbn [rev]; now rewrite <- app_assoc]. apply more_elements; [constructor|exact T|exact W|].
        destruct L; rewrite app_assoc; constructor; auto; apply Forall_app; auto.
    - intros acc s j rest H. cbn [M_JsonText.scan_members] in H. destruct s as [|q r]; [discriminate|].
      destruct (N.eqb_spec q 34) as [-> |_]; [|discriminate]. apply bind_ok in H as ([k s1] & K & H).
      apply (scan_string_sound _ _ (le_n _)) in K as (kt & -> & K).
      destruct (skip_split s1) as (w & E & W). destruct (skip_space s1) as [|d s2]; [discriminate|]. subst s1.
      destruct (N.eqb_spec d 58) as [-> |_]; [|discriminate]. apply bind_ok in H as ([v s3] & V & H).
      destruct (skip_split s2) as (w2 & E2 & W2). apply IHv in V as (vt & Ev & V). rewrite Ev in E2. clear Ev. subst s2.
      destruct (skip_split s3) as (w3 & E3 & W3). destruct (skip_space s3) as [|d s4]; [discriminate|]. subst s3.
      assert (M : member_text (k, v) (u """" ++ kt ++ u """" ++ w ++ u ":" ++ w2 ++ vt)) by now constructor.
      destruct (N.eqb_spec d 125) as [-> |_].
      + injection H as <- <-. exists [(k, v)], ([] ++ (u """" ++ kt ++ u """" ++ w ++ u ":" ++ w2 ++ vt) ++ w3).
        split; [cbn [app]; rewrite <- !app_assoc; reflexivity|]. split; [constructor; [constructor|exact M|exact W3]|]. reflexivity.
      + destruct (N.eqb_spec d 44) as [-> |_]; [|discriminate]. apply IHm in H as (l & t' & E & L & ->).
        destruct (skip_split s4) as (w' & E4 & W'). rewrite E in E4. subst s4.
        exists ((k, v) :: l), ([] ++ (u """" ++ kt ++ u """" ++ w ++ u ":" ++ w2 ++ vt) ++ w3 ++ u "," ++ (w' ++ t')).
        split; [cbn [app]; rewrite <- !app_assoc; reflexivity|].
        split; [|reflexivity]. apply more_members; [constructor|exact M|exact W3|].
        destruct L; rewrite app_assoc; constructor; auto; apply Forall_app; auto.
  Qed.

  Lemma loads_spec s j : loads float_value s = Ok j <-> document_text float_value j s.
  Proof.
    unfold loads. split.
    - destruct (startswith s [65279%N]); [discriminate|]. intros H. apply bind_ok in H as ([v rest] & H & E).
      destruct (skip_split s) as (w & Es & W). apply scan_sound_all in H as (t & Et & T).
      destruct (skip_space rest) eqn:R; [|discriminate]. injection E as ->. exists w, t, rest.
      split; [congruence|]. split; [exact W|]. split; [exact T|]. now apply skip_nil.
    - intros (w & t & w' & -> & W & T & W').
      assert (B : startswith (w ++ t ++ w') [65279%N] = false).
      { destruct W as [|c w C W].
        - destruct (value_head j t T) as (c & r & -> & V). cbn [app startswith]. destruct (N.eqb_spec c 65279) as [-> |]; [|reflexivity].
          exfalso. apply V. cbn. tauto.
        - cbn [app startswith]. destruct (N.eqb_spec c 65279) as [-> |]; [|reflexivity]. exfalso. cbn in C. repeat destruct C as [C|C]; try discriminate; destruct C. }
      rewrite B. rewrite (skip_to_value w j t) by assumption.
      rewrite (proj1 scan_complete_all j t T); [|rewrite !app_length; lia|].
      + cbn [bind]. now rewrite skip_all.
      + rewrite <- (app_nil_r w'). apply follows_ws; [exact W'|exact I].
  Qed.
  Lemma scan_elements_eq f acc s : scan_elements (S f) acc s =
    (let* (v, s1) := scan_once f s in
     match skip_space s1 with
     | [] => Raise ValueError
     | d :: s2 => if (d =? 93)%N then Ok (JList (rev (v :: acc)), s2)
                  else if (d =? 44)%N then scan_elements f (v :: acc) (skip_space s2) else Raise ValueError
     end).
  Proof. reflexivity. Qed.
  Lemma scan_members_eq f acc s : scan_members (S f) acc s =
    match s with
    | [] => Raise ValueError
    | q :: r =>
        if (q =? 34)%N then
          let* (k, s1) := scan_string r in
          match skip_space s1 with
          | [] => Raise ValueError
          | d :: s2 =>
              if (d =? 58)%N then
                let* (v, s3) := scan_once f (skip_space s2) in
                match skip_space s3 with
                | [] => Raise ValueError
                | d0 :: s4 => if (d0 =? 125)%N then Ok (JObj (dict_set k v acc), s4)
                              else if (d0 =? 44)%N then scan_members f (dict_set k v acc) (skip_space s4) else Raise ValueError
                end
              else Raise ValueError
          end
        else Raise ValueError
    end.
  Proof. reflexivity. Qed.
  Lemma loads_raises s e : loads float_value s = Raise e -> e = ValueError.
  Proof.
    assert (S1 : forall n t, List.length t <= n -> forall x, scan_string t = Raise x -> x = ValueError).
    { induction n as [|n IH]; intros t L x H; [destruct t; [now injection H|cbn in L; lia]|].
      destruct t as [|c r]; [now injection H|]. cbn [List.length] in L. cbn [scan_string] in H.
      assert (A : forall c0 t0, List.length t0 <= n -> add_char c0 (scan_string t0) = Raise x -> x = ValueError).
      { intros c0 t0 L0 H0. unfold add_char in H0. destruct (scan_string t0) as [[? ?]|y] eqn:E; [discriminate|]. injection H0 as <-. exact (IH t0 L0 y E). }
      repeat match type of H with
      | Raise _ = Raise _ => now injection H
      | Ok _ = Raise _ => discriminate H
      | add_char _ _ = _ => eapply A; [|exact H]; cbn [List.length] in L |- *; lia
      | context [match ?y with _ => _ end] => is_var y; destruct y
      | context [if ?b then _ else _] => destruct b
      | context [match hex4 ?a ?b ?c ?d with _ => _ end] => destruct (hex4 a b c d)
      | context [match simple_escape ?a with _ => _ end] => destruct (simple_escape a)
      end. }
    assert (SN : forall t x, scan_number t = Raise x -> x = ValueError).
    { intros t x H. unfold M_JsonText.scan_number in H. 
      destruct (match t with c :: r => if (c =? 45)%N then ([c], r) else ([], t) | [] => ([], t) end) as [sg t1].
      destruct (scan_integer t1) as [[d t2]|y] eqn:E; cbn [bind] in H.
      - destruct (scan_fraction t2) as [[|? ?] t3]; destruct (scan_exponent t3) as [[|? ?] t4]; discriminate.
      - injection H as <-. unfold scan_integer in E. destruct t1; [now injection E|]. destruct (in_range _ _ _); [discriminate|]. destruct (N.eqb _ _); [discriminate|]. now injection E. }
    assert (SA : forall f, (forall t x, scan_once f t = Raise x -> x = ValueError)
                 /\ (forall acc t x, scan_elements f acc t = Raise x -> x = ValueError)
                 /\ (forall acc t x, scan_members f acc t = Raise x -> x = ValueError)).
    { induction f as [|f (IHv & IHe & IHm)]; [split; [|split]; intros; cbn in *; congruence|]. split; [|split].
      - intros t x H. destruct t as [|c r]; [now injection H|]. cbn [M_JsonText.scan_once] in H.
        destruct (c =? 34)%N.
        { destruct (scan_string r) as [[? ?]|y] eqn:E; [discriminate|]. cbn [bind] in H. injection H as <-. exact (S1 _ r (le_n _) y E). }
        destruct (c =? 123)%N; [destruct (skip_space r) as [|d r']; [now injection H|]; destruct (d =? 125)%N; [discriminate|now apply IHm in H]|].
        destruct (c =? 91)%N; [destruct (skip_space r) as [|d r']; [now injection H|]; destruct (d =? 93)%N; [discriminate|now apply IHe in H]|].
        repeat (match type of H with context [if startswith ?a ?b then _ else _] => destruct (startswith a b); [discriminate|] end). now apply SN in H.
      - intros acc t x H. rewrite scan_elements_eq in H. destruct (scan_once f t) as [[v s1]|y] eqn:E; cbn [bind] in H; [|injection H as <-; now apply IHv in E].
        destruct (skip_space s1) as [|d s2]; [now injection H|]. destruct (d =? 93)%N; [discriminate|]. destruct (d =? 44)%N; [now apply IHe in H|now injection H].
      - intros acc t x H. rewrite scan_members_eq in H. destruct t as [|q r]; [now injection H|]. destruct (q =? 34)%N; [|now injection H].
        destruct (scan_string r) as [[k s1]|y] eqn:E; cbn [bind] in H; [|injection H as <-; exact (S1 _ r (le_n _) y E)].
        destruct (skip_space s1) as [|d s2]; [now injection H|]. destruct (d =? 58)%N; [|now injection H].
        destruct (scan_once f (skip_space s2)) as [[v s3]|y] eqn:E2; cbn [bind] in H; [|injection H as <-; now apply IHv in E2].
        destruct (skip_space s3) as [|d' s4]; [now injection H|]. destruct (d' =? 125)%N; [discriminate|]. destruct (d' =? 44)%N; [now apply IHm in H|now injection H]. }
    unfold loads. destruct (startswith s [65279%N]); [congruence|].
    destruct (scan_once (2 * List.length s + 2) (skip_space s)) as [[v rest]|y] eqn:E; cbn [bind].
    - destruct (skip_space rest); congruence.
    - intros [= <-]. exact (proj1 (SA _) _ _ E).
  Qed.
End Read.
