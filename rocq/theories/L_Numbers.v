(** Lemmas: numbers and UUIDs as texts. *)
From Coq Require Import Ascii String List NArith ZArith Bool Lia.
From Verif Require Import PyBase PyStr PyUni M_Schema S_Numbers L_Base L_Str.
Import ListNotations.
Local Open Scope list_scope.

(** ** Character classes *)
Definition apart (rs ts : list (N * N)) : bool :=
  forallb (fun r => forallb (fun t => (N.ltb (snd r) (fst t) || N.ltb (snd t) (fst r))%bool) ts) rs.
Lemma apart_sound rs ts c : apart rs ts = true -> in_ranges rs c = true -> in_ranges ts c = true -> False.
Proof.
  unfold apart, in_ranges. rewrite forallb_forall, !existsb_exists.
  intros H ((a & b) & I & Hc) ((x & y) & I' & E). specialize (H _ I). rewrite forallb_forall in H. specialize (H _ I').
  cbn [fst snd] in *.
  apply andb_true_iff in Hc as [Ha Hb]. apply andb_true_iff in E as [Hx Hy]. apply orb_true_iff in H.
  apply N.leb_le in Ha, Hb, Hx, Hy. rewrite !N.ltb_lt in H. lia.
Qed.
#[local] Transparent is_space is_decimal.
Lemma between_range a b c : (a <= c <= b)%N -> in_ranges [(a, b)] c = true.
Proof. intros H. unfold in_ranges. cbn [existsb fst snd]. rewrite orb_false_r. apply andb_true_iff. rewrite !N.leb_le. lia. Qed.
Lemma int_space_spec c : is_int_space c = true <-> number_space c.
Proof.
  unfold is_int_space, number_space. rewrite !orb_true_iff, !andb_true_iff, !N.leb_le, N.eqb_eq.
  split.
  - intros [[H| ->]|[H K]].
    + split; [|lia]. assert (D : c = 9%N \/ c = 10%N \/ c = 11%N \/ c = 12%N \/ c = 13%N) by lia.
      destruct D as [-> |[-> |[-> |[-> | ->]]]]; vm_compute; reflexivity.
    + split; [vm_compute; reflexivity|lia].
    + split; [exact K|lia].
  - intros [K N]. destruct (N.leb_spec 128 c) as [L|L]; [right; auto|left].
    assert (D : (c <= 8 \/ 14 <= c <= 27 \/ 33 <= c <= 127 \/ 9 <= c <= 13 \/ c = 32)%N) by lia.
    destruct D as [D|[D|[D|[D|D]]]]; [exfalso|exfalso|exfalso|now left|now right].
    + apply (apart_sound [(0, 8)%N] space_ranges c); [vm_compute; reflexivity|apply between_range; lia|exact K].
    + apply (apart_sound [(14, 27)%N] space_ranges c); [vm_compute; reflexivity|apply between_range; lia|exact K].
    + apply (apart_sound [(33, 127)%N] space_ranges c); [vm_compute; reflexivity|apply between_range; lia|exact K].
Qed.
(** what is neither a digit nor a letter up to F *)
Definition no_digit_ranges : list (N * N) := [(0, 47); (58, 64); (71, 96); (103, 127)]%N.
Lemma digit_spec base c d : (base = 10 \/ base = 16)%N -> (digit_in base c = Some d <-> digit_of base c d).
Proof.
  intros B. unfold digit_in, digit_of. destruct (is_decimal c) eqn:D.
  - assert (L : ~ (65 <= c <= 70)%N /\ ~ (97 <= c <= 102)%N).
    { split; intros L; (apply (apart_sound [(65, 70); (97, 102)]%N decimal_ranges c); [vm_compute; reflexivity| |exact D]);
        unfold in_ranges; cbn [existsb fst snd]; rewrite !orb_true_iff, !andb_true_iff, !N.leb_le; lia. }
    split; [intros [= <-]; now left|]. intros [[_ ->]|[_ [[K _]|[K _]]]]; [reflexivity|tauto|tauto].
  - split.
    + intros H. right.
      destruct ((10 <? base) && (97 <=? c) && (c <=? 102))%N eqn:E1.
      { rewrite !andb_true_iff, N.ltb_lt, !N.leb_le in E1. assert (d = (c - 87)%N) as -> by congruence. split; [lia|]. left. lia. }
      destruct ((10 <? base) && (65 <=? c) && (c <=? 70))%N eqn:E2; [|discriminate].
      rewrite !andb_true_iff, N.ltb_lt, !N.leb_le in E2. assert (d = (c - 55)%N) as -> by congruence. split; [lia|]. right. lia.
    + intros [[K _]|[-> [[K ->]|[K ->]]]]; [discriminate| |].
      * assert (((10 <? 16) && (97 <=? c) && (c <=? 102))%N = true) as -> by (rewrite !andb_true_iff, N.ltb_lt, !N.leb_le; lia). f_equal. lia.
      * assert (((10 <? 16) && (97 <=? c) && (c <=? 102))%N = false) as -> by (apply not_true_iff_false; rewrite !andb_true_iff, N.ltb_lt, !N.leb_le; lia).
        assert (((10 <? 16) && (65 <=? c) && (c <=? 70))%N = true) as -> by (rewrite !andb_true_iff, N.ltb_lt, !N.leb_le; lia). f_equal. lia.
Qed.
Lemma digit_char base c d : digit_of base c d -> in_ranges no_digit_ranges c = false /\ is_int_space c = false.
Proof.
  intros H. assert (K : in_ranges decimal_ranges c = true \/ in_ranges [(65, 70); (97, 102)]%N c = true).
  { destruct H as [[H _]|[_ [[H _]|[H _]]]]; [now left|right|right]; unfold in_ranges; cbn [existsb fst snd]; rewrite !orb_true_iff, !andb_true_iff, !N.leb_le; lia. }
  split; apply not_true_iff_false; intros E.
  - destruct K as [K|K]; eapply apart_sound; [|exact K|exact E| |exact K|exact E]; vm_compute; reflexivity.
  - apply int_space_spec in E as [E _]. destruct K as [K|K]; eapply apart_sound; [|exact K|exact E| |exact K|exact E]; vm_compute; reflexivity.
Qed.
Lemma digit_small base c d : digit_of base c d -> (d < 16)%N.
Proof.
  intros [[_ ->]|[_ H]]; [|lia]. unfold digit_value. destruct (find _ _) as [r|]; [|lia].
  pose proof (N.mod_lt (c - fst r) 10). lia.
Qed.
#[local] Opaque is_space is_decimal.

(** ** Stripping *)
Lemma drop_while_split p s : exists a, s = a ++ drop_while p s /\ Forall (fun c => p c = true) a
  /\ forall c r, drop_while p s = c :: r -> p c = false.
Proof.
  induction s as [|x s (a & E & F & H)]; cbn [drop_while]; [exists []; repeat split; [constructor|discriminate]|].
  destruct (p x) eqn:P.
  - exists (x :: a). cbn [app]. split; [congruence|]. split; [now constructor|exact H].
  - exists []. split; [reflexivity|]. split; [constructor|]. intros c r [= <- <-]. exact P.
Qed.
Lemma drop_while_app p a s : Forall (fun c => p c = true) a -> drop_while p (a ++ s) = drop_while p s.
Proof. induction 1 as [|x a P _ IH]; cbn [app drop_while]; [reflexivity|]. now rewrite P. Qed.
Lemma drop_while_all p a : Forall (fun c => p c = true) a -> drop_while p a = [].
Proof. intros F. rewrite <- (app_nil_r a). now rewrite drop_while_app. Qed.
Lemma drop_while_stop p s : (forall c r, s = c :: r -> p c = false) -> drop_while p s = s.
Proof. destruct s as [|c s]; intros H; [reflexivity|]. cbn [drop_while]. now rewrite (H c s eq_refl). Qed.
Lemma strip_with_spec p s t : strip_with p s = t <->
  exists a b, s = a ++ t ++ b /\ Forall (fun c => p c = true) a /\ Forall (fun c => p c = true) b
    /\ (forall c r, t = c :: r -> p c = false) /\ (forall c r, t = r ++ [c] -> p c = false).
Proof.
  split.
  - intros <-. unfold strip_with. destruct (drop_while_split p s) as (a & E & Fa & Ha). remember (drop_while p s) as m eqn:Em. clear Em.
    destruct (drop_while_split p (rev m)) as (b & E' & Fb & Hb). remember (drop_while p (rev m)) as n eqn:En. clear En.
    assert (Em : m = rev n ++ rev b) by (rewrite <- rev_app_distr, <- E', rev_involutive; reflexivity).
    exists a, (rev b). split; [congruence|]. split; [exact Fa|]. split; [now apply Forall_rev|]. split.
    + intros c r K. apply (Ha c (r ++ rev b)). now rewrite Em, K.
    + intros c r K. apply (Hb c (rev r)). rewrite <- (rev_involutive n), K, rev_app_distr. reflexivity.
  - intros (a & b & -> & Fa & Fb & Hh & Hl). unfold strip_with. rewrite drop_while_app by exact Fa. destruct t as [|c t].
    + rewrite (drop_while_all p ([] ++ b)) by exact Fb. reflexivity.
    + rewrite (drop_while_stop p ((c :: t) ++ b)) by (intros x r [= <- _]; exact (Hh c t eq_refl)).
      rewrite rev_app_distr, drop_while_app by (now apply Forall_rev). rewrite drop_while_stop; [apply rev_involutive|].
      intros x r K. apply (Hl x (rev r)). rewrite <- (rev_involutive (c :: t)), K. reflexivity.
Qed.

(** ** Digits *)
Lemma int_digits_spec base s : (base = 10 \/ base = 16)%N -> forall acc m, int_digits base acc s = Some m <->
  exists ds, digits_of base s ds /\ m = fold_left (fun n d => n * base + d)%N ds acc.
Proof.
  intros B. induction s as [s IH] using (induction_ltof1 _ (@List.length char)). intros acc m. unfold ltof in IH.
  destruct s as [|c r]; cbn [int_digits]; [split; [discriminate|intros (ds & D & _); inversion D]|].
  split.
  - destruct (digit_in base c) as [d|] eqn:D; [|discriminate]. apply (digit_spec base c d B) in D.
    destruct r as [|c' r].
    + intros [= <-]. exists [d]. split; [now constructor|reflexivity].
    + destruct (N.eqb_spec c' 95) as [-> |N]; intros H; (apply IH in H as (ds & H & ->); [|cbn; lia]); exists (d :: ds); split; try reflexivity.
      * apply (next_digit base c d (u "_") r ds); auto.
      * apply (next_digit base c d [] (c' :: r) ds); auto.
  - intros (ds & H & ->). inversion H as [x d D|x d sep t l D S T]; subst.
    + apply (digit_spec base c d B) in D. rewrite D. reflexivity.
    + apply (digit_spec base c d B) in D. rewrite D. destruct S as [-> | ->]; cbn [app].
      * destruct t as [|x t]; [inversion T|].
        assert (K : N.eqb x 95 = false).
        { apply N.eqb_neq. intros ->. inversion T as [? ? G|? ? ? ? ? G]; subst; apply digit_char in G as [G _]; vm_compute in G; discriminate. }
        rewrite K. apply IH; [cbn; lia|]. exists l. auto.
      * cbn [N.eqb Pos.eqb]. apply IH; [cbn; lia|]. exists l. auto.
Qed.
Lemma digits_head base s ds : digits_of base s ds -> exists c r d, s = c :: r /\ digit_of base c d.
Proof. intros [c d D|c d sep t l D _ _]; eauto. Qed.
Lemma digits_last base s ds : digits_of base s ds -> exists c r d, s = r ++ [c] /\ digit_of base c d.
Proof.
  induction 1 as [c d D|c d sep t l D _ _ (x & r & e & -> & E)]; [exists c, [], d; auto|].
  exists x, (c :: sep ++ r), e. split; [|exact E]. cbn [app]. now rewrite <- app_assoc.
Qed.
Lemma no_digit c base d : in_ranges no_digit_ranges c = true -> ~ digit_of base c d.
Proof. intros H D. apply digit_char in D as [D _]. congruence. Qed.

(** ** Prefix *)
Lemma drop_prefix base s t : (base = 10 \/ base = 16)%N -> drop_0x base s = t ->
  exists p, s = p ++ t /\ (p = [] \/ base = 16%N /\ In p [u "0x"; u "0X"; u "0x_"; u "0X_"]).
Proof.
  intros B <-. destruct s as [|c [|x r]]; cbn [drop_0x]; try (exists []; split; [reflexivity|now left]).
  destruct (N.eqb base 16 && N.eqb c 48 && (N.eqb x 120 || N.eqb x 88))%bool eqn:E; [|exists []; split; [reflexivity|now left]].
  rewrite !andb_true_iff, orb_true_iff, !N.eqb_eq in E. destruct E as [[-> ->] X].
  destruct r as [|c' r'].
  - exists [48%N; x]. split; [reflexivity|]. right. split; [reflexivity|]. destruct X as [-> | ->]; [now left|right; now left].
  - destruct (N.eqb_spec c' 95) as [-> |N].
    + exists [48%N; x; 95%N]. split; [reflexivity|]. right. split; [reflexivity|]. destruct X as [-> | ->]; [do 2 right; now left|do 3 right; now left].
    + exists [48%N; x]. split; [reflexivity|]. right. split; [reflexivity|]. destruct X as [-> | ->]; [now left|right; now left].
Qed.
Lemma drop_prefix_digits base p s ds : digits_of base s ds -> p = [] \/ base = 16%N /\ In p [u "0x"; u "0X"; u "0x_"; u "0X_"] ->
  drop_0x base (p ++ s) = s.
Proof.
  intros D [-> |[-> I]]; cbn [app].
  - destruct s as [|c [|x r]]; try reflexivity. cbn [drop_0x].
    assert (N : (N.eqb x 120 || N.eqb x 88)%bool = false).
    { apply not_true_iff_false. rewrite orb_true_iff, !N.eqb_eq. intros X.
      remember (c :: x :: r) as w eqn:W. destruct D as [c0 d0 _|c0 d0 sep t l _ S T]; [discriminate|]. injection W as _ W.
      destruct S as [-> | ->]; cbn [app] in W.
      - apply digits_head in T as (y & r' & d & -> & G). injection W as -> _. revert G. apply no_digit. destruct X as [-> | ->]; vm_compute; reflexivity.
      - cbn in W. injection W as <- _. destruct X; discriminate. }
    rewrite N, andb_false_r. reflexivity.
  - apply digits_head in D as (c & r & d & -> & G).
    assert (K : N.eqb c 95 = false) by (apply N.eqb_neq; intros ->; revert G; apply no_digit; vm_compute; reflexivity).
    repeat (destruct I as [<-|I]; [cbn; rewrite ?K; reflexivity|]). destruct I.
Qed.

(** ** int(s) *)
Lemma py_int_spec base s z : (base = 10 \/ base = 16)%N -> (py_int base s = Some z <-> number_text base s z).
Proof.
  intros B. unfold py_int, number_text. remember (strip_with is_int_space s) as t eqn:T. symmetry in T. split.
  - apply strip_with_spec in T as (a & b & -> & Fa & Fb & _).
    assert (Ga : Forall number_space a) by (eapply Forall_impl; [|exact Fa]; intros; now apply int_space_spec).
    assert (Gb : Forall number_space b) by (eapply Forall_impl; [|exact Fb]; intros; now apply int_space_spec).
    intros H.
    assert (X : exists sign neg r, t = sign ++ r /\ match t with
                   | c :: r => if N.eqb c 45 then (true, r) else if N.eqb c 43 then (false, r) else (false, t)
                   | [] => (false, [])
                   end = (neg, r) /\ ((sign = [] \/ sign = u "+") /\ neg = false \/ sign = u "-" /\ neg = true)).
    { destruct t as [|c t]; [exists [], false, []; auto 8|]. destruct (N.eqb_spec c 45) as [-> |]; [exists (u "-"), true, t; auto 8|].
      destruct (N.eqb_spec c 43) as [-> |]; [exists (u "+"), false, t; auto 8|]. exists [], false, (c :: t). auto 8. }
    destruct X as (sign & neg & r & -> & E & S). rewrite E in H.
    destruct (int_digits base 0 (drop_0x base r)) as [n|] eqn:D; [|discriminate]. cbn [option_map] in H.
    apply (int_digits_spec base _ B) in D as (ds & D & ->).
    destruct (drop_prefix base r _ B eq_refl) as (p & Ep & P). remember (drop_0x base r) as digits eqn:Ed. clear Ed.
    exists a, sign, p, digits, b, ds. split; [rewrite Ep, <- !app_assoc; reflexivity|]. split; [exact Ga|]. split; [exact Gb|]. split; [exact P|]. split; [exact D|].
    unfold positional. destruct S as [[S ->]|[S ->]]; [left|right]; split; auto; congruence.
  - intros (a & sign & p & digits & b & ds & -> & Ga & Gb & P & D & S).
    assert (Fa : Forall (fun c => is_int_space c = true) a) by (eapply Forall_impl; [|exact Ga]; intros; now apply int_space_spec).
    assert (Fb : Forall (fun c => is_int_space c = true) b) by (eapply Forall_impl; [|exact Gb]; intros; now apply int_space_spec).
    assert (Hd : forall c r, sign ++ p ++ digits = c :: r -> is_int_space c = false).
    { intros c r K. destruct (digits_head _ _ _ D) as (x & r' & d & Ex & G). subst digits.
      assert (Sg : sign = [] \/ exists y, sign = [y] /\ is_int_space y = false).
      { destruct S as [[[-> | ->] _]|[-> _]]; [now left| |]; right; eexists; split; reflexivity. }
      destruct Sg as [-> |(y & -> & Y)]; [|cbn [app] in K; congruence]. cbn [app] in K.
      destruct P as [-> |[_ P]]; [cbn [app] in K; injection K as <- _; now apply digit_char in G as [_ G]|].
      repeat (destruct P as [<-|P]; [cbn [app u] in K; injection K as <- _; reflexivity|]). destruct P. }
    assert (Hl : forall c r, sign ++ p ++ digits = r ++ [c] -> is_int_space c = false).
    { intros c r K. destruct (digits_last _ _ _ D) as (x & r' & d & Ex & G). subst digits. rewrite !app_assoc in K.
      apply app_inj_tail in K as [_ ->]. now apply digit_char in G as [_ G]. }
    assert (T' : strip_with is_int_space (a ++ sign ++ p ++ digits ++ b) = sign ++ p ++ digits).
    { apply strip_with_spec. exists a, b. rewrite <- !app_assoc. split; [reflexivity|]. auto. }
    rewrite T' in T. subst t. clear T'.
    assert (Q : int_digits base 0 (drop_0x base (p ++ digits)) = Some (positional base ds)).
    { rewrite (drop_prefix_digits base p digits ds D P). apply (int_digits_spec base _ B). exists ds. auto. }
    assert (E : match sign ++ p ++ digits with
                   | c :: r => if N.eqb c 45 then (true, r) else if N.eqb c 43 then (false, r) else (false, sign ++ p ++ digits)
                   | [] => (false, [])
                   end = (match sign with [c] => N.eqb c 45 | _ => false end, p ++ digits)).
    { destruct S as [[[-> | ->] _]|[-> _]]; [|reflexivity|reflexivity]. cbn [app].
      destruct (digits_head _ _ _ D) as (x & r' & d & Ex & G). subst digits.
      destruct P as [-> |[_ P]]; [|repeat (destruct P as [<-|P]; [reflexivity|]); destruct P]. cbn [app].
      destruct (N.eqb_spec x 45) as [-> |]; [exfalso; revert G; apply no_digit; vm_compute; reflexivity|].
      destruct (N.eqb_spec x 43) as [-> |]; [exfalso; revert G; apply no_digit; vm_compute; reflexivity|]. reflexivity. }
    match goal with |- (let (_, _) := ?m in _) = _ => replace m with (match sign with [c] => N.eqb c 45 | _ => false end, p ++ digits) by (symmetry; exact E) end.
    rewrite Q. cbn [option_map]. destruct S as [[[-> | ->] ->]|[-> ->]]; reflexivity.
Qed.

(** ** str.replace *)
Lemma replace_skip old new x s : replace_go old new (List.length x) (x ++ s) = replace_go old new 0 s.
Proof. induction x as [|c x IH]; [reflexivity|]. cbn [List.length app replace_go]. exact IH. Qed.
Lemma replace_here old new s : old <> [] -> replace (old ++ s) old new = new ++ replace s old new.
Proof.
  intros N. unfold replace. destruct old as [|c o]; [congruence|]. cbn [app replace_go].
  assert (startswith (c :: o ++ s) (c :: o) = true) as -> by (apply startswith_spec; exists s; reflexivity).
  cbn [List.length]. rewrite Nat.sub_succ, Nat.sub_0_r, replace_skip. reflexivity.
Qed.
Lemma replace_next old new c s : startswith (c :: s) old = false -> replace (c :: s) old new = c :: replace s old new.
Proof. unfold replace. cbn [replace_go]. now intros ->. Qed.
Lemma replace_spec old new s t : old <> [] -> (replace s old new = t <-> replaced old new s t).
Proof.
  intros N. split.
  - intros <-. induction s as [s IH] using (induction_ltof1 _ (@List.length char)). unfold ltof in IH.
    destruct s as [|c r].
    { apply replaced_none. intros (a & b & E). symmetry in E. apply app_eq_nil in E as [_ E]. apply app_eq_nil in E as [E _]. congruence. }
    destruct (startswith (c :: r) old) eqn:W.
    + apply startswith_spec in W as (x & E). rewrite E, replace_here by exact N.
      apply (replaced_first old new [] x).
      * intros a' b' K. cbn [app] in K. apply (f_equal (@List.length char)) in K. rewrite !app_length in K. destruct a'; [reflexivity|cbn in K; lia].
      * apply IH. rewrite E, app_length. destruct old; [congruence|cbn; lia].
    + rewrite replace_next by exact W.
      assert (W' : forall y, c :: r <> old ++ y) by (intros y K; apply not_true_iff_false in W; apply W; apply startswith_spec; eauto).
      specialize (IH r ltac:(cbn; lia)). remember (replace r old new) as q eqn:Q. clear Q. inversion IH as [x O E|a x y O R E Ex]; subst.
      * apply replaced_none. intros (a & b & K). destruct a as [|c' a]; cbn [app] in K; [exact (W' b K)|]. injection K as <- K. apply O. exists a, b. exact K.
      * apply (replaced_first old new (c :: a) x y); [|exact R]. intros a' b' K. destruct a' as [|c' a']; cbn [app] in K.
        { exfalso. apply (W' (b' ++ x)). transitivity ((c :: a ++ old) ++ x); [cbn [app]; now rewrite <- app_assoc|]. transitivity ((old ++ b') ++ x); [f_equal; exact K|]. symmetry. apply app_assoc. }
        injection K as <- K. f_equal. eapply O. exact K.
  - induction 1 as [s O|a s t O R <-].
    + induction s as [|c s IH]; [reflexivity|]. rewrite replace_next.
      * f_equal. apply IH. intros (a & b & ->). apply O. exists (c :: a), b. reflexivity.
      * apply not_true_iff_false. intros K. apply startswith_spec in K as (b & K). apply O. exists [], b. exact K.
    + revert O. induction a as [|c a IH]; intros O; cbn [app]; [now apply replace_here|]. rewrite replace_next.
      * f_equal. apply IH. intros a' b' K. specialize (O (c :: a') b'). cbn [app] in O. rewrite K in O. specialize (O eq_refl). congruence.
      * apply not_true_iff_false. intros K. apply startswith_spec in K as (b & K).
        (* [old] would occur at the beginning of [c :: a ++ old] already *)
        assert (E : exists b', c :: a ++ old = old ++ b').
        { exists (firstn (S (List.length a)) b).
          assert (F : firstn (List.length (c :: a ++ old)) (c :: a ++ old ++ s) = c :: a ++ old).
          { change (c :: a ++ old ++ s) with ((c :: a) ++ old ++ s). rewrite app_assoc. change (c :: a ++ old) with ((c :: a) ++ old).
            rewrite firstn_app, Nat.sub_diag, firstn_O, app_nil_r. apply firstn_all. }
          rewrite <- F, K, firstn_app. cbn [List.length]. rewrite app_length.
          rewrite firstn_all2 by lia. do 2 f_equal. lia. }
        destruct E as (b' & E). specialize (O [] b'). cbn [app] in O. specialize (O E). discriminate.
Qed.

(** ** UUIDs *)
Lemma positional_bound l : Forall (fun d => d < 16)%N l -> forall acc k, (acc < 16 ^ k)%N ->
  (fold_left (fun n d => n * 16 + d) l acc < 16 ^ (k + N.of_nat (List.length l)))%N.
Proof.
  induction 1 as [|d l L _ IH]; intros acc k A; cbn [fold_left List.length].
  - now rewrite N.add_0_r.
  - replace (k + N.of_nat (S (List.length l)))%N with ((k + 1) + N.of_nat (List.length l))%N by lia. apply IH.
    rewrite N.pow_add_r, N.pow_1_r. nia.
Qed.
Lemma digits_bound base s ds : digits_of base s ds -> List.length ds <= List.length s /\ Forall (fun d => d < 16)%N ds.
Proof.
  induction 1 as [c d D|c d sep t l D _ _ [L F]]; [split; [auto|constructor; [exact (digit_small _ _ _ D)|constructor]]|].
  split; [cbn [List.length]; rewrite app_length; lia|constructor; [exact (digit_small _ _ _ D)|exact F]].
Qed.
Lemma uuid_bound s n : List.length s = 32 -> number_text 16 s (Z.of_N n) -> (n < 2 ^ 128)%N.
Proof.
  intros L (a & sign & p & digits & b & ds & -> & _ & _ & _ & D & S). rewrite !app_length in L.
  apply digits_bound in D as [K F].
  assert (Pos : (positional 16 ds < 16 ^ 32)%N).
  { unfold positional. assert (B : (16 ^ (0 + N.of_nat (List.length ds)) <= 16 ^ 32)%N) by (apply N.pow_le_mono_r; lia).
    pose proof (positional_bound ds F 0%N 0%N ltac:(reflexivity)). lia. }
  change (2 ^ 128)%N with (16 ^ 32)%N. assert (n <= positional 16 ds)%N by lia. lia.
Qed.
Lemma uuid_spec s n : uuid_of_str s = Some n <-> uuid_text s n.
Proof.
  unfold uuid_of_str, uuid_text. set (a := replace s (u "urn:") []). set (b := replace a (u "uuid:") []).
  set (inner := strip_with _ b). set (hex := replace inner [chr_dash] []).
  assert (Ra : replaced (u "urn:") [] s a) by (apply replace_spec; [discriminate|reflexivity]).
  assert (Rb : replaced (u "uuid:") [] a b) by (apply replace_spec; [discriminate|reflexivity]).
  assert (Rh : replaced (u "-") [] inner hex) by (apply replace_spec; [discriminate|reflexivity]).
  assert (BR : forall c, ((N.eqb c 123 || N.eqb c 125)%bool = true <-> brace c)) by (intros c; rewrite orb_true_iff, !N.eqb_eq; unfold brace; reflexivity).
  assert (NB : forall c, ((N.eqb c 123 || N.eqb c 125)%bool = false <-> ~ brace c)) by (intros c; rewrite <- BR; now rewrite not_true_iff_false).
  assert (FB : forall l, Forall (fun c => (N.eqb c 123 || N.eqb c 125)%bool = true) l <-> Forall brace l).
  { intros l. rewrite !Forall_forall. split; intros H x I; apply BR; auto. }
  split.
  - intros H.
    destruct (proj1 (strip_with_spec _ b inner) eq_refl) as (before & behind & E & F1 & F2 & H1 & H2).
    destruct (Nat.eqb_spec (List.length hex) 32) as [L|L]; [|discriminate].
    destruct (py_int 16 hex) as [z|] eqn:P; [|discriminate].
    destruct (Z.leb 0 z && Z.ltb z (2 ^ 128))%bool eqn:R; [|discriminate]. apply andb_true_iff in R as [R _]. apply Z.leb_le in R.
    assert (E' : n = Z.to_N z) by congruence. subst n.
    apply (py_int_spec 16 hex z (or_intror eq_refl)) in P.
    exists a, b, before, inner, behind, hex. split; [exact Ra|]. split; [exact Rb|]. split; [exact E|]. split; [now apply FB|]. split; [now apply FB|].
    split; [intros c r K; apply NB; eapply H1; exact K|]. split; [intros c r K; apply NB; eapply H2; exact K|]. split; [exact Rh|]. split; [exact L|].
    now rewrite Z2N.id.
  - intros (a' & b' & before & inner' & behind & hex' & R1 & R2 & E & F1 & F2 & H1 & H2 & R3 & L & T).
    apply replace_spec in R1, R2; try discriminate. fold a in R1. subst a'. fold b in R2. subst b'.
    assert (I : inner = inner').
    { apply strip_with_spec. exists before, behind. split; [exact E|]. split; [now apply FB|]. split; [now apply FB|].
      split; intros c r K; apply NB; [eapply H1|eapply H2]; exact K. }
    subst inner'. apply replace_spec in R3; [|discriminate]. change (u "-") with [chr_dash] in R3. fold hex in R3. subst hex'.
    rewrite L, Nat.eqb_refl. pose proof (uuid_bound hex n L T) as Bd. apply (py_int_spec 16 hex _ (or_intror eq_refl)) in T. rewrite T.
    assert (Z.leb 0 (Z.of_N n) = true) as -> by (apply Z.leb_le; lia).
    assert (Z.ltb (Z.of_N n) (2 ^ 128) = true) as ->.
    { apply Z.ltb_lt. change (2 ^ 128)%Z with (Z.of_N (2 ^ 128)). lia. }
    cbn [andb]. now rewrite N2Z.id.
Qed.
