(** Reading and writing XML texts. *)
From Coq Require Import Ascii String List NArith ZArith Bool Lia.
From Verif Require Import PyBase PyStr M_Components M_Ahb M_Schema M_Cli M_JsonText M_Navigation M_Xml M_LocationXml M_XmlText
  L_Base L_Str S_Text S_Numbers S_JsonText L_JsonText L_JsonFile S_XmlText L_Names.
Import ListNotations.
Local Open Scope list_scope.

(** ** scanning *)
Lemma span_split p s a b : span p s = (a, b) -> s = a ++ b /\ Forall (fun c => p c = true) a /\ (forall c r, b = c :: r -> p c = false).
Proof.
  revert a b. induction s as [|c s IH]; intros a b; cbn [span].
  - intros [= <- <-]. repeat split; [constructor|discriminate].
  - destruct (p c) eqn:P.
    + destruct (span p s) as [a' b'] eqn:E. intros [= <- <-]. destruct (IH a' b' eq_refl) as (-> & F & H). repeat split; [now constructor|exact H].
    + intros [= <- <-]. repeat split; [constructor|]. intros c' r [= <- <-]. exact P.
Qed.
Lemma span_app p a b : Forall (fun c => p c = true) a -> (forall c r, b = c :: r -> p c = false) -> span p (a ++ b) = (a, b).
Proof.
  intros F H. induction F as [|c a P F IH]; cbn [app span].
  - destruct b as [|c r]; [reflexivity|]. cbn. now rewrite (H c r eq_refl).
  - now rewrite P, IH.
Qed.
Lemma span_fst_le p s : List.length (snd (span p s)) <= List.length s.
Proof. destruct (span p s) as [a b] eqn:E. apply span_split in E as (-> & _). rewrite app_length. cbn. lia. Qed.

Lemma skipn_pre {X} (a b : list X) : skipn (List.length a) (a ++ b) = b.
Proof. induction a; cbn; auto. Qed.
Lemma starts_true s p : startswith s p = true -> s = p ++ skipn (List.length p) s.
Proof. intros H. apply startswith_spec in H as (r & ->). now rewrite skipn_pre. Qed.
Lemma starts_app p r : startswith (p ++ r) p = true.
Proof. apply startswith_spec. now exists r. Qed.
Lemma expect_ok p s r : expect p s = Ok r <-> s = p ++ r.
Proof.
  unfold expect. split.
  - destruct (startswith s p) eqn:E; [|discriminate]. intros [= <-]. now apply starts_true.
  - intros ->. now rewrite starts_app, skipn_pre.
Qed.
Lemma expect_raise p s e : expect p s = Raise e -> e = ExpatError.
Proof. unfold expect. destruct (startswith s p); congruence. Qed.

(** [a] is what is in front of the first occurrence of a separator *)
Definition first_cut (sep s a b : pystr) : Prop := s = a ++ sep ++ b /\ forall a' b', s = a' ++ sep ++ b' -> List.length a <= List.length a'.
Lemma cut_spec sep s a b : cut sep s = Some (a, b) <-> first_cut sep s a b.
Proof.
  unfold first_cut. revert a b. induction s as [|c s IH]; intros a b; cbn [cut].
  - destruct (startswith [] sep) eqn:E.
    + split.
      * intros [= <- <-]. apply startswith_spec in E as (r & E). symmetry in E. apply app_eq_nil in E as (-> & ->). split; [reflexivity|cbn; lia].
      * intros (H & _). symmetry in H. apply app_eq_nil in H as (-> & H). apply app_eq_nil in H as (-> & ->). reflexivity.
    + split; [discriminate|]. intros (H & _). symmetry in H. apply app_eq_nil in H as (-> & H). apply app_eq_nil in H as (-> & ->). discriminate E.
  - destruct (startswith (c :: s) sep) eqn:E.
    + split.
      * intros [= <- <-]. split; [cbn [app]; now apply starts_true|cbn; lia].
      * intros (H & M). apply startswith_spec in E as (r & E). specialize (M [] r E). destruct a; [|cbn in M; lia].
        rewrite H. cbn [app]. now rewrite skipn_pre.
    + split.
      * destruct (cut sep s) as [[a1 b1]|] eqn:C; [|discriminate]. intros [= <- <-]. destruct (proj1 (IH a1 b1) eq_refl) as (-> & M). split; [reflexivity|].
        intros [|c' a'] b' H; [rewrite H in E; cbn [app] in E; rewrite starts_app in E; discriminate|]. injection H as _ H. cbn. apply le_n_S. eauto.
      * intros (H & M). destruct a as [|c' a]; [rewrite H in E; cbn [app] in E; rewrite starts_app in E; discriminate|]. injection H as -> H.
        rewrite (proj2 (IH a b)); [reflexivity|]. split; [exact H|]. intros a' b' H'. specialize (M (c' :: a') b'). cbn in M. rewrite H' in M. specialize (M eq_refl). lia.
Qed.
Lemma cut_iff init last s a b : cut (init ++ [last]) s = Some (a, b) <-> s = a ++ (init ++ [last]) ++ b /\ ~ occurs (init ++ [last]) (a ++ init).
Proof.
  rewrite cut_spec. unfold first_cut, occurs. split; intros (E & H); (split; [exact E|]).
  - intros (a' & b' & K). assert (T : s = a' ++ (init ++ [last]) ++ b' ++ [last] ++ b).
    { rewrite E. rewrite <- !app_assoc. rewrite (app_assoc a init). rewrite K. now rewrite <- !app_assoc. }
    apply H in T. apply (f_equal (@List.length char)) in K. rewrite !app_length in K. cbn in K. lia.
  - intros a' b' K. destruct (le_lt_dec (List.length a) (List.length a')) as [L|L]; [exact L|]. exfalso. apply H. rewrite E in K.
    exists a'. assert (P : firstn (List.length (a' ++ init ++ [last])) (a ++ (init ++ [last]) ++ b) = a' ++ init ++ [last]).
    { rewrite K. rewrite (app_assoc a' (init ++ [last]) b'). rewrite firstn_app, firstn_all, Nat.sub_diag. cbn. now rewrite app_nil_r. }
    replace (a ++ (init ++ [last]) ++ b) with ((a ++ init) ++ last :: b) in P by (now rewrite <- !app_assoc).
    rewrite firstn_app in P. replace (List.length (a' ++ init ++ [last]) - List.length (a ++ init)) with 0 in P by (rewrite !app_length; cbn; lia).
    cbn [firstn] in P. rewrite app_nil_r in P. exists (skipn (List.length (a' ++ init ++ [last])) (a ++ init)).
    rewrite app_assoc. rewrite <- P at 1. now rewrite firstn_skipn.
Qed.

Lemma well_formed_ok b x : well_formed b = Ok x <-> b = true.
Proof. apply check_ok. Qed.
Lemma well_formed_raise b e : well_formed b = Raise e -> e = ExpatError.
Proof. destruct b; cbn; congruence. Qed.

(** ** characters *)
Lemma xml_char_spec c : is_xml_char c = true <-> xml_character c.
Proof.
  unfold is_xml_char, xml_character. rewrite !orb_true_iff, !andb_true_iff, !N.eqb_eq, !N.leb_le. cbn [In]. intuition.
Qed.
Lemma xml_chars_spec s : forallb is_xml_char s = true <-> Forall xml_character s.
Proof. rewrite forallb_forall, Forall_forall. split; intros H c I; apply xml_char_spec; auto. Qed.
Lemma xml_space_spec c : is_xml_space c = true <-> In c [32; 9; 10; 13]%N.
Proof. exact (is_space_spec c). Qed.
Lemma spaces_spec w : Forall (fun c => is_xml_space c = true) w <-> whitespace w.
Proof. unfold whitespace. split; intros H; (eapply Forall_impl; [|exact H]); intros c; apply xml_space_spec. Qed.
Lemma span_spaces w r : whitespace w -> (forall c r', r = c :: r' -> is_xml_space c = false) -> span is_xml_space (w ++ r) = (w, r).
Proof. intros W H. apply span_app; [now apply spaces_spec|exact H]. Qed.

(** ** references *)
Lemma hex_spec c : is_hex c = true <-> exists x, hex_digit_is c x.
Proof.
  unfold is_hex. split.
  - destruct (hex_value c) as [x|] eqn:E; [|discriminate]. intros _. exists x. now apply hex_value_spec.
  - intros (x & H). apply hex_value_spec in H. now rewrite H.
Qed.
Lemma hex_number_spec d n : hex_number_is d n <-> Forall (fun c => is_hex c = true) d /\ hex_number d = n.
Proof.
  split.
  - induction 1 as [|d n c x H (F & E) X]; [split; [constructor|reflexivity]|]. split.
    + apply Forall_app. split; [exact F|]. constructor; [|constructor]. apply hex_spec. eauto.
    + unfold hex_number in *. rewrite fold_left_app. cbn [fold_left]. rewrite E. apply hex_value_spec in X. rewrite X. lia.
  - intros (F & <-). induction d as [|c d IH] using rev_ind; [constructor|]. apply Forall_app in F as (F & C). inversion C as [|? ? C0 _]; subst.
    apply hex_spec in C0 as (x & X). unfold hex_number. rewrite fold_left_app. cbn [fold_left]. pose proof X as X'. apply hex_value_spec in X'. rewrite X'.
    rewrite N.mul_comm. constructor; [now apply IH|exact X].
Qed.
Lemma character_number_ok d r n c rest : character_number d r n = Ok (c, rest) <-> d <> [] /\ r = u ";" ++ rest /\ referable n /\ c = n.
Proof.
  unfold character_number, referable. rewrite bind_ok. split.
  - intros (x & X & H). apply well_formed_ok in X. apply bind_ok in H as (r' & R & H). apply expect_ok in R. apply bind_ok in H as (y & Y & H). apply well_formed_ok in Y. injection H as <- <-.
    apply andb_prop in Y as (Y1 & Y2). apply xml_char_spec in Y1. apply N.ltb_lt in Y2. split; [destruct d; [discriminate|congruence]|]. repeat split; auto. lia.
  - intros (D & -> & (X & L) & ->). exists tt. split; [destruct d; [congruence|reflexivity]|]. apply bind_ok. exists rest. split; [now apply expect_ok|]. apply bind_ok. exists tt.
    split; [|reflexivity]. apply well_formed_ok. apply andb_true_intro. split; [now apply xml_char_spec|apply N.ltb_lt; lia].
Qed.
Lemma digits_value_09 d : ascii_digits d <-> Forall (fun c => is_09 c = true) d.
Proof.
  unfold ascii_digits. split; intros H; (eapply Forall_impl; [|exact H]); intros c; cbn; unfold is_09, in_range; rewrite andb_true_iff, !N.leb_le; tauto.
Qed.
Lemma scan_reference_ok s c rest : scan_reference s = Ok (c, rest) <-> exists t, u "&" ++ s = t ++ rest /\ reference_text c t.
Proof.
  unfold scan_reference. split.
  - destruct (startswith s (u "#x")) eqn:X.
    { apply starts_true in X. destruct (span is_hex (skipn 2 s)) as [d r] eqn:S0. apply span_split in S0 as (S0 & F & _). intros H.
      apply character_number_ok in H as (D & -> & Rf & ->). change (List.length (u "#x")) with 2 in X. rewrite S0 in X. exists (u "&#x" ++ d ++ u ";"). split; [rewrite X; cbn [app u list_ascii_of_string]; now rewrite <- !app_assoc|].
      apply hex_reference; [exact D| |exact Rf]. now apply hex_number_spec. }
    destruct (startswith s (u "#")) eqn:Y.
    { apply starts_true in Y. destruct (span is_09 (skipn 1 s)) as [d r] eqn:S0. apply span_split in S0 as (S0 & F & _). intros H.
      apply character_number_ok in H as (D & -> & Rf & ->). change (List.length (u "#")) with 1 in Y. rewrite S0 in Y. exists (u "&#" ++ d ++ u ";"). split; [rewrite Y; cbn [app u list_ascii_of_string]; now rewrite <- !app_assoc|].
      apply decimal_reference; [exact D|now apply digits_value_09|now apply decimal_value_spec|exact Rf]. }
    unfold find_entity. destruct (find (fun e => startswith s (fst e)) entities) as [[n x]|] eqn:Fe; [|discriminate]. intros [= <- <-].
    apply find_some in Fe as (I & E). cbn [fst] in E. apply starts_true in E. exists (u "&" ++ n). split; [rewrite <- app_assoc; f_equal; exact E|].
    cbn [entities In] in I. decompose [or] I; try contradiction; match goal with K : _ = _ |- _ => injection K as <- <- end;
      [apply (entity_reference (u "lt"))|apply (entity_reference (u "gt"))|apply (entity_reference (u "amp"))|apply (entity_reference (u "quot"))|apply (entity_reference (u "apos"))]; cbn [In]; tauto.
  - intros (t & E & T). destruct T as [n c I|d c D A V Rf|d c D V Rf].
    + cbn [In] in I. decompose [or] I; try contradiction; match goal with K : _ = _ |- _ => injection K as <- <- end; cbn in E; injection E as ->; destruct rest; reflexivity.
    + assert (s = u "#" ++ d ++ u ";" ++ rest) as ->.
      { change (u "&#") with (u "&" ++ u "#") in E. rewrite <- !app_assoc in E. now apply app_inv_head in E. }
      assert (X : startswith (u "#" ++ d ++ u ";" ++ rest) (u "#x") = false).
      { destruct d as [|k d]; [congruence|]. inversion A as [|? ? K _]; subst. change (((35 =? 35)%N && ((k =? 120)%N && startswith (d ++ u ";" ++ rest) []))%bool = false).
        destruct (N.eqb_spec k 120); [lia|reflexivity]. }
      rewrite X, starts_app. change 1 with (List.length (u "#")). rewrite skipn_pre. rewrite span_app; [|now apply digits_value_09|intros c0 r [= <- <-]; reflexivity].
      apply character_number_ok. apply decimal_value_spec in V. rewrite V. auto.
    + assert (s = u "#x" ++ d ++ u ";" ++ rest) as ->.
      { change (u "&#x") with (u "&" ++ u "#x") in E. rewrite <- !app_assoc in E. now apply app_inv_head in E. }
      rewrite starts_app. change 2 with (List.length (u "#x")). rewrite skipn_pre. apply hex_number_spec in V as (F & V). rewrite span_app; [|exact F|intros c0 r [= <- <-]; reflexivity].
      apply character_number_ok. rewrite V. auto.
Qed.
Lemma reference_start c t : reference_text c t -> exists r, t = u "&" ++ r.
Proof. intros [n c0 _|d c0 _ _ _ _|d c0 _ _ _]; eexists; reflexivity. Qed.
Lemma reference_raise s e : scan_reference s = Raise e -> e = ExpatError.
Proof.
  unfold scan_reference, character_number, find_entity.
  assert (K : forall (b : bool) r v, (let* _ := well_formed b in let* rest := expect (u ";") r in let* _ := well_formed (is_xml_char v && N.ltb v 1114112)%bool in Ok (v, rest)) = Raise e -> e = ExpatError).
  { intros [] r v; cbn [well_formed check bind]; [|congruence]. destruct (expect (u ";") r) as [r0|x] eqn:X; cbn [bind]; [|intros H0; injection H0 as ->; exact (expect_raise _ _ _ X)]. destruct (is_xml_char v && N.ltb v 1114112)%bool; cbn [well_formed check bind]; congruence. }
  destruct (startswith s (u "#x")); [destruct (span is_hex (skipn 2 s)); apply K|]. destruct (startswith s (u "#")); [destruct (span is_09 (skipn 1 s)); apply K|].
  destruct (find _ entities) as [[]|]; congruence.
Qed.

(** ** attribute values *)
Lemma value_no_quote q v t : q = ch """" \/ q = ch "'" -> value_text q v t -> ~ In q t.
Proof.
  intros Q H. assert (R : forall c t, reference_text c t -> ~ In q t).
  { clear -Q. intros c t [n c0 I|d c0 _ A _ _|d c0 _ V _] H.
    - cbn [In] in I. decompose [or] I; try contradiction; match goal with K : _ = _ |- _ => injection K as <- <- end; cbn in H; destruct Q; subst q; cbn in H; intuition discriminate.
    - rewrite !in_app_iff in H. destruct H as [H|[H|H]]; [cbn in H; destruct Q; subst q; cbn in H; intuition discriminate| |cbn in H; destruct Q; subst q; cbn in H; intuition discriminate].
      unfold ascii_digits in A. rewrite Forall_forall in A. apply A in H. destruct Q; subst q; cbn in H; lia.
    - rewrite !in_app_iff in H. destruct H as [H|[H|H]]; [cbn in H; destruct Q; subst q; cbn in H; intuition discriminate| |cbn in H; destruct Q; subst q; cbn in H; intuition discriminate].
      apply hex_number_spec in V as (F & _). rewrite Forall_forall in F. apply F in H. destruct Q; subst q; discriminate H. }
  induction H as [|c v t X N H IH|c v t C H IH|v t H IH|v t N H IH|c r v t Rf H IH]; intros K.
  - destruct K.
  - destruct K as [->|K]; [|auto]. apply N. cbn. auto.
  - destruct K as [K|K]; [|auto]. destruct Q; subst q; destruct C; subst c; discriminate.
  - destruct K as [K|[K|K]]; [| |auto]; destruct Q; subst q; discriminate.
  - destruct K as [K|K]; [|auto]. destruct Q; subst q; discriminate.
  - apply in_app_iff in K as [K|K]; [|auto]. exact (R _ _ Rf K).
Qed.
Lemma attribute_value_sound q fuel : forall s v, ~ In q s -> attribute_value fuel s = Ok v -> value_text q v s.
Proof.
  induction fuel as [|f IH]; intros s v Q H; [discriminate|]. cbn [attribute_value] in H. destruct s as [|c r]; [injection H as <-; constructor|].
  assert (Q' : ~ In q r) by (intros K; apply Q; now right).
  destruct (N.eqb_spec c 60) as [|N1]; [discriminate|]. destruct (N.eqb_spec c 38) as [-> |N2].
  { apply bind_ok in H as ([x rest] & X & H). apply bind_ok in H as (v' & V & H). injection H as <-. apply scan_reference_ok in X as (t & E & T).
    change (38%N :: r) with (u "&" ++ r). rewrite E. apply value_reference; [exact T|]. apply IH; [|exact V]. intros K. apply Q. change (38%N :: r) with (u "&" ++ r). rewrite E. apply in_app_iff. now right. }
  destruct (N.eqb_spec c 13) as [-> |N3].
  { apply bind_ok in H as (v' & V & H). injection H as <-. destruct (startswith r [10%N]) eqn:E.
    - apply starts_true in E. cbn [List.length] in E. rewrite E. cbn [app]. apply value_crlf. apply IH; [|exact V]. intros K. apply Q'. rewrite E. apply in_app_iff. now right.
    - apply value_cr; [|now apply IH]. intros r' ->. cbn in E. destruct r'; discriminate. }
  destruct (N.eqb_spec c 9) as [-> |N4]; cbn [orb] in H.
  { apply bind_ok in H as (v' & V & H). injection H as <-. apply value_space; [now left|]. now apply IH. }
  destruct (N.eqb_spec c 10) as [-> |N5].
  { apply bind_ok in H as (v' & V & H). injection H as <-. apply value_space; [now right|]. now apply IH. }
  apply bind_ok in H as (x & X & H). apply well_formed_ok in X. apply bind_ok in H as (v' & V & H). injection H as <-. apply value_char; [now apply xml_char_spec| |now apply IH].
  cbn [In]. change (ch "<") with 60%N. change (ch "&") with 38%N. intros K. decompose [or] K; try congruence. apply Q. left. congruence.
Qed.
Lemma attribute_value_complete q v t : value_text q v t -> forall fuel, List.length t < fuel -> attribute_value fuel t = Ok v.
Proof.
  induction 1 as [|c v t X N H IH|c v t C H IH|v t H IH|v t N H IH|c r v t Rf H IH]; intros [|f] L; try (cbn in L; lia); cbn [attribute_value].
  - reflexivity.
  - cbn [In] in N. change (ch "<") with 60%N in N. change (ch "&") with 38%N in N.
    destruct (N.eqb_spec c 60); [exfalso; apply N; auto|]. destruct (N.eqb_spec c 38); [exfalso; apply N; auto|]. destruct (N.eqb_spec c 13); [exfalso; apply N; auto 10|].
    destruct (N.eqb_spec c 9); [exfalso; apply N; auto 10|]. destruct (N.eqb_spec c 10); [exfalso; apply N; auto 10|]. cbn [orb].
    apply xml_char_spec in X. rewrite X. cbn [well_formed check bind]. cbn [List.length] in L. rewrite IH by lia. reflexivity.
  - cbn [List.length] in L. destruct C as [-> | ->]; cbn [N.eqb Pos.eqb orb]; (rewrite IH by lia; reflexivity).
  - cbn [List.length] in L. cbn [N.eqb Pos.eqb orb]. replace (startswith (10%N :: t) [10%N]) with true by (destruct t; reflexivity). cbn [skipn]. rewrite IH by lia. reflexivity.
  - cbn [List.length] in L. cbn [N.eqb Pos.eqb orb]. destruct (startswith t [10%N]) eqn:E; [apply startswith_spec in E as (r & E); exfalso; apply (N r); exact E|]. rewrite IH by lia. reflexivity.
  - destruct (reference_start _ _ Rf) as (r' & ->). assert (K : scan_reference (r' ++ t) = Ok (c, t)) by (apply scan_reference_ok; exists (u "&" ++ r'); split; [now rewrite <- app_assoc|exact Rf]).
    assert (L' : List.length t < f) by (rewrite app_length in L; change (List.length (u "&" ++ r')) with (S (List.length r')) in L; lia).
    change ((u "&" ++ r') ++ t) with (38%N :: (r' ++ t)). cbn [N.eqb Pos.eqb]. rewrite K. cbn [bind]. rewrite IH by exact L'. reflexivity.
Qed.

(** ** comments, CDATA sections *)
Lemma scan_comment_ok s rest : scan_comment s = Ok rest <-> exists t, u "<!--" ++ s = t ++ rest /\ comment_text t.
Proof.
  unfold scan_comment. change (u "--") with ([45%N] ++ [45%N]). split.
  - destruct (cut ([45%N] ++ [45%N]) s) as [[inner r]|] eqn:C; [|discriminate]. apply cut_iff in C as (-> & NO). intros H. apply bind_ok in H as (x & X & H). apply well_formed_ok in X.
    apply expect_ok in H. subst r. exists (u "<!--" ++ inner ++ u "-->"). split; [now rewrite <- !app_assoc|]. exists inner. split; [reflexivity|]. split; [now apply xml_chars_spec|exact NO].
  - intros (t & E & inner & -> & X & NO). rewrite <- !app_assoc in E. apply app_inv_head in E. subst s.
    rewrite (proj2 (cut_iff [45%N] 45%N _ inner (u ">" ++ rest))); [|split; [now rewrite <- !app_assoc|exact NO]]. apply xml_chars_spec in X. rewrite X. cbn [well_formed check bind]. now apply expect_ok.
Qed.
Lemma scan_cdata_ok s v rest : scan_cdata s = Ok (v, rest) <-> exists t, u "<![CDATA[" ++ s = t ++ rest /\ cdata_text v t.
Proof.
  unfold scan_cdata. change (u "]]>") with (u "]]" ++ [62%N]). split.
  - destruct (cut (u "]]" ++ [62%N]) s) as [[inner r]|] eqn:C; [|discriminate]. apply cut_iff in C as (-> & NO). intros H. apply bind_ok in H as (x & X & H). apply well_formed_ok in X.
    injection H as <- <-. exists (u "<![CDATA[" ++ inner ++ u "]]>"). split; [now rewrite <- !app_assoc|]. exists inner. split; [reflexivity|]. split; [now apply xml_chars_spec|]. split; [exact NO|]. now apply newlines_spec.
  - intros (t & E & inner & -> & X & NO & L). rewrite <- !app_assoc in E. apply app_inv_head in E. subst s.
    rewrite (proj2 (cut_iff (u "]]") 62%N _ inner rest)); [|split; [now rewrite <- !app_assoc|exact NO]]. apply xml_chars_spec in X. rewrite X. cbn [well_formed check bind]. apply newlines_spec in L. now rewrite L.
Qed.

Section Names.
  Variable high_name_start high_name_char : char -> bool.
  Notation scan_name := (scan_name high_name_start high_name_char).
  Notation name_text := (name_text high_name_start high_name_char).
  Notation is_name_char := (is_name_char high_name_start high_name_char).
  Notation is_name_start := (is_name_start high_name_start).
  Notation scan_instruction := (scan_instruction high_name_start high_name_char).
  Notation instruction_text := (instruction_text high_name_start high_name_char).

  Lemma name_start_spec c : is_name_start c = true <-> name_start high_name_start c.
  Proof.
    unfold M_XmlText.is_name_start, name_start, is_AZ, in_range. change (ch "_") with 95%N. change (ch ":") with 58%N. destruct (N.ltb_spec c 128) as [L|L].
    - rewrite !orb_true_iff, !andb_true_iff, !N.leb_le, !N.eqb_eq. intuition lia.
    - intuition lia.
  Qed.
  Lemma name_char_spec c : is_name_char c = true <-> name_char high_name_start high_name_char c.
  Proof.
    unfold M_XmlText.is_name_char, name_char. rewrite orb_true_iff, name_start_spec. unfold is_09, in_range. change (ch "-") with 45%N. change (ch ".") with 46%N. destruct (N.ltb_spec c 128) as [L|L].
    - rewrite !orb_true_iff, !andb_true_iff, !N.leb_le, !N.eqb_eq. intuition lia.
    - intuition lia.
  Qed.
  Lemma start_is_char c : is_name_start c = true -> is_name_char c = true.
  Proof. intros H. unfold M_XmlText.is_name_char. now rewrite H. Qed.
  Lemma scan_name_ok s n r : scan_name s = Ok (n, r) <-> s = n ++ r /\ name_text n /\ forall c r', r = c :: r' -> is_name_char c = false.
  Proof.
    unfold M_XmlText.scan_name, S_XmlText.name_text. destruct s as [|c s].
    - split; [discriminate|]. intros (E & (c & n' & -> & _) & _). discriminate.
    - destruct (is_name_start c) eqn:St.
      + pose proof (start_is_char c St) as Ch. split.
        * intros H. assert (H' : span is_name_char (c :: s) = (n, r)) by congruence. clear H. apply span_split in H' as (E & F & B). destruct n as [|c' n]; [exfalso; cbn [app] in E; rewrite (B c s (eq_sym E)) in Ch; discriminate|].
          injection E as <- ->. split; [reflexivity|]. split; [|exact B]. exists c, n. split; [reflexivity|]. inversion F; subst. split; [now apply name_start_spec|].
          eapply Forall_impl; [|eassumption]. intros x. apply name_char_spec.
        * intros (E & (c' & n' & -> & S0 & F) & B). injection E as <- ->. f_equal. apply (span_app _ (c :: n')); [|exact B]. constructor; [exact Ch|]. eapply Forall_impl; [|exact F]. intros x. apply name_char_spec.
      + split; [discriminate|]. intros (E & (c' & n' & -> & S0 & _) & _). injection E as <- _. apply name_start_spec in S0. congruence.
  Qed.
  Lemma scan_name_raise s e : scan_name s = Raise e -> e = ExpatError.
  Proof. unfold M_XmlText.scan_name. destruct s; [congruence|]. destruct (is_name_start c); congruence. Qed.
  (** characters that are no part of names *)
  Lemma not_in_name c : In c [32; 9; 10; 13; 34; 38; 39; 47; 60; 61; 62; 63]%N -> is_name_char c = false.
  Proof. cbn [In]. intros H. decompose [or] H; try contradiction; subst c; reflexivity. Qed.
  Lemma name_head n : name_text n -> exists c r, n = c :: r /\ is_name_start c = true /\ is_xml_space c = false /\ ~ In c [33; 38; 47; 60; 61; 62; 63]%N.
  Proof.
    intros (c & r & -> & S0 & _). exists c, r. split; [reflexivity|]. split; [now apply name_start_spec|].
    assert (K : forall x, In x [32; 9; 10; 13; 33; 38; 47; 60; 61; 62; 63]%N -> c <> x).
    { intros x I ->. apply name_start_spec in S0. cbn [In] in I. decompose [or] I; try contradiction; subst x; discriminate S0. }
    split; [|intros I; apply (K c); [cbn [In] in *; tauto|reflexivity]]. destruct (is_xml_space c) eqn:E; [|reflexivity]. apply xml_space_spec in E. exfalso. apply (K c); [cbn [In] in *; tauto|reflexivity].
  Qed.

  Lemma reserved_spec n : is_xml_target n = true <-> reserved_target n.
  Proof.
    unfold is_xml_target, reserved_target. split.
    - destruct n as [|x [|m [|l [|]]]]; try discriminate. rewrite !andb_true_iff, !orb_true_iff, !N.eqb_eq. intros ((X & M) & L). exists x, m, l. split; [reflexivity|].
      change (u "xX") with [120; 88]%N. change (u "mM") with [109; 77]%N. change (u "lL") with [108; 76]%N. cbn [In]. intuition.
    - intros (x & m & l & -> & X & M & L). change (u "xX") with [120; 88]%N in X. change (u "mM") with [109; 77]%N in M. change (u "lL") with [108; 76]%N in L. cbn [In] in *.
      rewrite !andb_true_iff, !orb_true_iff, !N.eqb_eq. intuition.
  Qed.
  Lemma scan_instruction_ok s rest : scan_instruction s = Ok rest <-> exists t, u "<?" ++ s = t ++ rest /\ instruction_text t.
  Proof.
    unfold M_XmlText.scan_instruction. rewrite bind_ok. split.
    - intros ([n r] & N0 & H). apply scan_name_ok in N0 as (-> & N0 & B). apply bind_ok in H as (x & X & H). apply well_formed_ok in X.
      assert (NR : ~ reserved_target n) by (intros K; apply reserved_spec in K; rewrite K in X; discriminate).
      destruct (startswith r (u "?>")) eqn:E.
      + apply starts_true in E. change (List.length (u "?>")) with 2 in E. injection H as <-. exists (u "<?" ++ n ++ [] ++ u "?>"). split; [rewrite E at 1; cbn [app]; now rewrite <- !app_assoc|].
        exists n, []. split; [reflexivity|]. split; [exact N0|]. split; [exact NR|]. split; [now left|]. intros (a & b & K). apply (f_equal (@List.length char)) in K. cbn [app] in K. rewrite !app_length in K. cbn in K. lia.
      + destruct r as [|c r]; [discriminate|]. apply bind_ok in H as (y & Y & H). apply well_formed_ok in Y. change (u "?>") with ([63%N] ++ [62%N]) in H.
        destruct (cut ([63%N] ++ [62%N]) r) as [[inner r2]|] eqn:C; [|discriminate]. apply cut_iff in C as (-> & NO). apply bind_ok in H as (z & Z & H). apply well_formed_ok in Z. injection H as <-.
        exists (u "<?" ++ n ++ (c :: inner) ++ u "?>"). split; [rewrite <- !app_assoc; reflexivity|]. exists n, (c :: inner). split; [reflexivity|]. split; [exact N0|]. split; [exact NR|]. split.
        * right. exists [c], inner. split; [reflexivity|]. split; [discriminate|]. split; [|now apply xml_chars_spec]. constructor; [now apply xml_space_spec|constructor].
        * intros (a & b & K). destruct a as [|a0 a]; [injection K as K _; subst c; discriminate Y|]. injection K as _ K. apply NO. now exists a, b.
    - intros (t & E & n & data & -> & N0 & NR & D & NO). rewrite <- !app_assoc in E. apply app_inv_head in E. subst s. exists (n, data ++ u "?>" ++ rest).
      assert (X : negb (is_xml_target n) = true) by (destruct (is_xml_target n) eqn:X; [apply reserved_spec in X; contradiction|reflexivity]).
      split.
      + apply scan_name_ok. split; [reflexivity|]. split; [exact N0|]. intros c r' K. apply not_in_name. destruct D as [-> |(w & inner & -> & W0 & W & _)].
        * injection K as <- _. cbn [In]. auto 20.
        * destruct w as [|w0 w]; [congruence|]. injection K as <- _. inversion W as [|? ? W1 _]; subst. cbn [In] in *. tauto.
      + apply bind_ok. exists tt. split; [now apply well_formed_ok|]. destruct D as [-> |(w & inner & -> & W0 & W & F)].
        * cbn [app]. rewrite starts_app. reflexivity.
        * destruct w as [|c w]; [congruence|]. inversion W as [|? ? W1 W2]; subst. cbn [app].
          assert (E : startswith (c :: ((w ++ inner) ++ u "?>" ++ rest)) (u "?>") = false).
          { cbn. cbn [In] in W1. decompose [or] W1; subst; try contradiction; reflexivity. }
          rewrite E. apply bind_ok. exists tt. split; [apply well_formed_ok; now apply xml_space_spec|]. change (u "?>") with ([63%N] ++ [62%N]).
          rewrite (proj2 (cut_iff [63%N] 62%N _ (w ++ inner) rest)).
          -- apply bind_ok. exists tt. split; [|reflexivity]. apply well_formed_ok, xml_chars_spec. apply Forall_app. split; [|exact F].
             eapply Forall_impl; [|exact W2]. intros x I. unfold xml_character. cbn [In] in *. intuition lia.
          -- split; [now rewrite <- !app_assoc|]. intros (a & b & K). apply NO. exists (c :: a), b. cbn [app]. f_equal. exact K.
  Qed.

  (** ** attributes *)
  Notation scan_attributes := (scan_attributes high_name_start high_name_char).
  Notation attribute_text := (attribute_text high_name_start high_name_char).
  Notation attributes_text := (attributes_text high_name_start high_name_char).
  Definition tag_end (closed : bool) : pystr := if closed then u "/>" else u ">".

  Lemma no_quote_occurs q raw : ~ occurs [q] raw <-> ~ In q raw.
  Proof.
    unfold occurs. split; intros H K; apply H.
    - apply in_split in K as (a & b & ->). now exists a, b.
    - destruct K as (a & b & ->). apply in_app_iff. right. now left.
  Qed.
  Lemma quote_spec q : (N.eqb q 34 || N.eqb q 39)%bool = true <-> q = ch """" \/ q = ch "'".
  Proof. rewrite orb_true_iff, !N.eqb_eq. reflexivity. Qed.
  Lemma snoc_nodup {X} (l : list X) x : NoDup l -> ~ In x l -> NoDup (l ++ [x]).
  Proof.
    intros N0 H. induction N0 as [|y l Y N0 IH]; cbn [app].
    - constructor; [easy|constructor].
    - constructor; [|apply IH; intros K; apply H; now right]. rewrite in_app_iff. intros [K|[K|[]]]; [auto|]. apply H. left. now symmetry.
  Qed.

  Lemma scan_attributes_sound fuel : forall found s l closed rest, NoDup (map fst found) -> scan_attributes fuel found s = Ok (l, closed, rest) ->
    exists l' ts w, l = found ++ l' /\ NoDup (map fst l) /\ Forall2 attribute_text l' ts /\ whitespace w /\ s = concat ts ++ w ++ tag_end closed ++ rest.
  Proof.
    induction fuel as [|f IH]; intros found s l closed rest D H; [discriminate|]. cbn [M_XmlText.scan_attributes] in H.
    destruct (span is_xml_space s) as [w r] eqn:E. apply span_split in E as (-> & W & B). apply spaces_spec in W.
    destruct (startswith r (u ">")) eqn:E1.
    { injection H as <- <- <-. apply starts_true in E1. exists [], [], w. rewrite app_nil_r. repeat (split; [assumption || reflexivity || constructor|]). cbn [concat app tag_end]. now rewrite E1 at 1. }
    destruct (startswith r (u "/>")) eqn:E2.
    { injection H as <- <- <-. apply starts_true in E2. exists [], [], w. rewrite app_nil_r. repeat (split; [assumption || reflexivity || constructor|]). cbn [concat app tag_end]. now rewrite E2 at 1. }
    apply bind_ok in H as (x & X & H). apply well_formed_ok in X.
    apply bind_ok in H as ([n r1] & N0 & H). apply scan_name_ok in N0 as (-> & N0 & _).
    apply bind_ok in H as (r2 & R2 & H). apply expect_ok in R2.
    destruct (span is_xml_space r1) as [w1 r1'] eqn:S1. cbn [snd] in R2. subst r1'. apply span_split in S1 as (-> & W1 & _). apply spaces_spec in W1.
    destruct (span is_xml_space r2) as [w2 r2'] eqn:S2. cbn [snd] in H. apply span_split in S2 as (-> & W2 & _). apply spaces_spec in W2.
    destruct r2' as [|q r3]; [discriminate|]. apply bind_ok in H as (y & Y & H). apply well_formed_ok, quote_spec in Y.
    destruct (cut [q] r3) as [[raw r4]|] eqn:C; [|discriminate]. change [q] with ([] ++ [q]) in C. apply cut_iff in C as (-> & NO). cbn [app] in NO. rewrite app_nil_r in NO. apply no_quote_occurs in NO.
    apply bind_ok in H as (v & V & H). apply (attribute_value_sound q) in V; [|exact NO].
    apply bind_ok in H as (z & Z & H). apply well_formed_ok in Z.
    assert (D' : NoDup (map fst (found ++ [(n, v)]))).
    { rewrite map_app. apply snoc_nodup; [exact D|]. cbn [fst]. intros K. apply str_in_In in K. rewrite K in Z. discriminate. }
    destruct (IH _ _ _ _ _ D' H) as (l' & ts & w' & -> & DD & F & W' & ->).
    exists ((n, v) :: l'), ((w ++ n ++ w1 ++ u "=" ++ w2 ++ [q] ++ raw ++ [q]) :: ts), w'.
    split; [now rewrite <- app_assoc|]. split; [exact DD|]. split; [|split; [exact W'|]].
    - constructor; [|exact F]. apply attribute; try assumption. destruct w; [discriminate|discriminate].
    - cbn [concat]. rewrite <- !app_assoc. reflexivity.
  Qed.

  Lemma span_ws w c r : whitespace w -> is_xml_space c = false -> span is_xml_space (w ++ c :: r) = (w, c :: r).
  Proof. intros W H. apply span_spaces; [exact W|]. intros c' r' K. congruence. Qed.
  Lemma starts_cons c r d p : startswith (c :: r) (d :: p) = (N.eqb c d && startswith r p)%bool.
  Proof. cbn. rewrite N.eqb_sym. reflexivity. Qed.
  Lemma starts_diff c r d p : c <> d -> startswith (c :: r) (d :: p) = false.
  Proof. intros H. rewrite starts_cons. apply N.eqb_neq in H. now rewrite H. Qed.

  Lemma scan_attributes_complete l ts : Forall2 attribute_text l ts -> forall fuel found w closed rest, List.length ts < fuel -> NoDup (map fst (found ++ l)) -> whitespace w ->
    scan_attributes fuel found (concat ts ++ w ++ tag_end closed ++ rest) = Ok (found ++ l, closed, rest).
  Proof.
    induction 1 as [|a t l ts A F IH]; intros [|f] found w closed rest L D W; try (cbn in L; lia); cbn [M_XmlText.scan_attributes].
    - cbn [concat app]. rewrite app_nil_r. rewrite span_spaces; [|exact W|].
      + destruct closed; cbn [tag_end].
        * replace (startswith (u "/>" ++ rest) (u ">")) with false by reflexivity. rewrite starts_app. reflexivity.
        * rewrite starts_app. reflexivity.
      + intros c r' K. destruct closed; injection K as <- _; reflexivity.
    - destruct A as [n v w0 w1 w2 q t N0 W00 W0 W1 W2 Q V]. cbn [concat].
      destruct (name_head n N0) as (c & n' & -> & St & Sp & NI). rewrite <- !app_assoc. rewrite <- (app_comm_cons n'). rewrite span_ws by assumption.
      change (u ">") with [62%N]. change (u "/>") with [47; 62]%N. rewrite !starts_diff by (intros ->; apply NI; cbn; auto 12).
      apply bind_ok. exists tt. split; [destruct w0; [congruence|reflexivity]|].
      apply bind_ok. exists (c :: n', w1 ++ u "=" ++ w2 ++ [q] ++ t ++ [q] ++ concat ts ++ w ++ tag_end closed ++ rest). split.
      { apply scan_name_ok. split; [cbn [app]; now rewrite <- ?app_assoc|]. split; [exact N0|]. intros x r' K. apply not_in_name. destruct w1 as [|x1 w1]; injection K as <- _; [cbn [In]; auto 20|]. inversion W1; subst. cbn [In] in *. tauto. }
      apply bind_ok. exists (w2 ++ [q] ++ t ++ [q] ++ concat ts ++ w ++ tag_end closed ++ rest). split.
      { rewrite span_spaces; [|assumption|intros ? ? K'; injection K' as <- _; reflexivity]. cbn [snd]. now apply expect_ok. }
      cbn [app]. rewrite span_ws; [|assumption|destruct Q; subst q; reflexivity]. cbn [snd].
      apply bind_ok. exists tt. split; [now apply well_formed_ok, quote_spec|].
      change [q] with ([] ++ [q]). rewrite (proj2 (cut_iff [] q (t ++ q :: concat ts ++ w ++ tag_end closed ++ rest) t (concat ts ++ w ++ tag_end closed ++ rest)));
        [|split; [reflexivity|rewrite app_nil_r; apply no_quote_occurs; now apply value_no_quote with v]].
      apply bind_ok. exists v. split; [apply (attribute_value_complete q); [exact V|lia]|].
      apply bind_ok. exists tt. split.
      { apply well_formed_ok, negb_true_iff. destruct (str_in (c :: n') (map fst found)) eqn:I; [|reflexivity]. exfalso. apply str_in_In in I. rewrite map_app in D. cbn [map fst] in D.
        apply NoDup_remove_2 in D. apply D, in_app_iff. now left. }
      specialize (IH f (found ++ [(c :: n', v)]) w closed rest). rewrite <- app_assoc in IH. apply IH; [cbn [List.length] in L; lia|exact D|exact W].
  Qed.
  Lemma attribute_texts_le l ts : Forall2 attribute_text l ts -> List.length ts <= List.length (concat ts).
  Proof.
    induction 1 as [|a t l ts A F IH]; cbn [concat List.length]; [lia|]. rewrite app_length. destruct A as [n v w0 w1 w2 q t N0 W00 W0 W1 W2 Q V]. rewrite !app_length. destruct w0; [congruence|]. cbn [List.length]. lia.
  Qed.
  Lemma scan_attributes_ok l a w closed rest : attributes_text l a -> whitespace w ->
    let s := a ++ w ++ tag_end closed ++ rest in scan_attributes (S (List.length s)) [] s = Ok (l, closed, rest).
  Proof.
    intros (D & ts & F & ->) W s. apply (scan_attributes_complete l ts F (S (List.length s)) [] w closed rest); [|exact D|exact W].
    unfold s. rewrite app_length. pose proof (attribute_texts_le _ _ F). lia.
  Qed.

  (** ** elements *)
  Notation scan_markup := (scan_markup high_name_start high_name_char).
  Notation markup_text := (markup_text high_name_start high_name_char).
  Notation scan_element := (scan_element high_name_start high_name_char).
  Notation scan_content := (scan_content high_name_start high_name_char).
  Notation element_text := (element_text high_name_start high_name_char).
  Notation content_text := (content_text high_name_start high_name_char).

  Lemma scan_markup_sound s x rest : scan_markup s = Some (Ok (x, rest)) -> exists m, s = m ++ rest /\ markup_text x m.
  Proof.
    unfold M_XmlText.scan_markup.
    destruct (startswith s (u "&")) eqn:E1.
    { apply starts_true in E1. intros H. injection H as H. apply bind_ok in H as ([c r] & C & H). injection H as <- <-. apply scan_reference_ok in C as (t & E & T). exists t. split; [|now constructor]. rewrite E1. exact E. }
    destruct (startswith s (u "<!--")) eqn:E2.
    { apply starts_true in E2. intros H. injection H as H. apply bind_ok in H as (r & C & H). injection H as <- <-. apply scan_comment_ok in C as (t & E & T). exists t. split; [|now constructor]. rewrite E2. exact E. }
    destruct (startswith s (u "<![CDATA[")) eqn:E3.
    { apply starts_true in E3. intros H. injection H as H. apply scan_cdata_ok in H as (t & E & T). exists t. split; [|now constructor]. rewrite E3. exact E. }
    destruct (startswith s (u "<?")) eqn:E4; [|discriminate].
    apply starts_true in E4. intros H. injection H as H. apply bind_ok in H as (r & C & H). injection H as <- <-. apply scan_instruction_ok in C as (t & E & T). exists t. split; [|now constructor]. rewrite E4. exact E.
  Qed.
  Lemma starts_neg p q r : List.length p <= List.length q -> startswith q p = false -> startswith (q ++ r) p = false.
  Proof.
    revert q. induction p as [|c p IH]; intros [|d q] L H; cbn [List.length] in L; try lia; [discriminate|discriminate|].
    cbn [app]. rewrite starts_cons in *. destruct (N.eqb d c); [|reflexivity]. cbn [andb] in *. apply IH; [lia|exact H].
  Qed.
  Lemma scan_markup_complete x m rest : markup_text x m -> scan_markup (m ++ rest) = Some (Ok (x, rest)) /\ startswith (m ++ rest) (u "</") = false
    /\ (exists c m', m = c :: m' /\ (c = 60 \/ c = 38)%N).
  Proof.
    intros [c t T|t T|v t T|t T]; unfold M_XmlText.scan_markup.
    - destruct (reference_start _ _ T) as (r & E). assert (K : scan_reference (r ++ rest) = Ok (c, rest)) by (apply scan_reference_ok; exists t; split; [subst t; now rewrite <- app_assoc|exact T]).
      subst t. rewrite <- app_assoc. rewrite starts_app. split; [|split; [reflexivity|]].
      + change (skipn 1 (u "&" ++ r ++ rest)) with (r ++ rest). rewrite K. reflexivity.
      + eexists _, r. split; [reflexivity|now right].
    - assert (K := T). destruct T as (inner & -> & _). rewrite <- !app_assoc. rewrite (starts_neg (u "&") (u "<!--")) by (cbn; (lia || reflexivity)). rewrite starts_app.
      change (skipn 4 (u "<!--" ++ inner ++ u "-->" ++ rest)) with (inner ++ u "-->" ++ rest). rewrite (proj2 (scan_comment_ok _ rest)); [|exists (u "<!--" ++ inner ++ u "-->"); split; [now rewrite <- !app_assoc|exact K]].
      split; [reflexivity|]. split; [reflexivity|]. eexists _, _. split; [reflexivity|now left].
    - assert (K := T). destruct T as (inner & -> & _). rewrite <- !app_assoc.
      rewrite (starts_neg (u "&") (u "<![CDATA[")) by (cbn; (lia || reflexivity)). rewrite (starts_neg (u "<!--") (u "<![CDATA[")) by (cbn; (lia || reflexivity)). rewrite starts_app.
      change (skipn 9 (u "<![CDATA[" ++ inner ++ u "]]>" ++ rest)) with (inner ++ u "]]>" ++ rest). rewrite (proj2 (scan_cdata_ok _ v rest)); [|exists (u "<![CDATA[" ++ inner ++ u "]]>"); split; [now rewrite <- !app_assoc|exact K]].
      split; [reflexivity|]. split; [reflexivity|]. eexists _, _. split; [reflexivity|now left].
    - assert (K := T). destruct T as (n & data & -> & _). rewrite <- !app_assoc.
      rewrite (starts_neg (u "&") (u "<?")) by (cbn; (lia || reflexivity)).
      replace (startswith (u "<?" ++ n ++ data ++ u "?>" ++ rest) (u "<!--")) with false by reflexivity.
      replace (startswith (u "<?" ++ n ++ data ++ u "?>" ++ rest) (u "<![CDATA[")) with false by reflexivity.
      rewrite starts_app.
      change (skipn 2 (u "<?" ++ n ++ data ++ u "?>" ++ rest)) with (n ++ data ++ u "?>" ++ rest). rewrite (proj2 (scan_instruction_ok _ rest)); [|exists (u "<?" ++ n ++ data ++ u "?>"); split; [now rewrite <- !app_assoc|exact K]].
      split; [reflexivity|]. split; [reflexivity|]. eexists _, _. split; [reflexivity|now left].
  Qed.

  Lemma scan_element_sound rd s e rest :
    (forall s v cs rest, rd s = Ok (v, cs, rest) -> exists t, s = t ++ rest /\ content_text v cs t) ->
    scan_element rd s = Ok (e, rest) -> exists t, u "<" ++ s = t ++ rest /\ element_text e t.
  Proof.
    intros RD H. unfold M_XmlText.scan_element in H. apply bind_ok in H as ([n r] & N0 & H). apply scan_name_ok in N0 as (-> & N0 & _).
    apply bind_ok in H as ([[l closed] r1] & A & H). apply scan_attributes_sound in A as (l' & ts & w & -> & D & F & W & ->); [|constructor]. cbn [app] in *.
    destruct closed.
    - injection H as <- <-. exists (u "<" ++ n ++ concat ts ++ w ++ u "/>"). split; [now rewrite <- !app_assoc|]. apply empty_element; [exact N0| |exact W]. split; [exact D|]. now exists ts.
    - apply bind_ok in H as ([[v cs] r2] & C & H). apply RD in C as (c & -> & C). apply bind_ok in H as (r3 & R3 & H). apply expect_ok in R3. subst r2.
      apply bind_ok in H as ([n' r4] & N1 & H). apply scan_name_ok in N1 as (-> & _ & _). apply bind_ok in H as (x & X & H). apply well_formed_ok, str_eqb_eq in X. subst n'.
      apply bind_ok in H as (r5 & R5 & H). apply expect_ok in R5. destruct (span is_xml_space r4) as [w' r4'] eqn:S1. cbn [snd] in R5. subst r4'. apply span_split in S1 as (-> & W' & _). apply spaces_spec in W'.
      injection H as <- <-. exists (u "<" ++ n ++ concat ts ++ w ++ u ">" ++ c ++ u "</" ++ n ++ w' ++ u ">"). split; [now rewrite <- !app_assoc|].
      assert (E : element_text (Element n l' (match v with [] => None | _ => Some v end) cs) (u "<" ++ n ++ concat ts ++ w ++ u ">" ++ c ++ u "</" ++ n ++ w' ++ u ">")).
      { apply full_element; try assumption. split; [exact D|]. now exists ts. }
      destruct v; exact E.
  Qed.
  Lemma no_markup_spec c : negb (N.eqb c 60 || N.eqb c 38) = true <-> c <> ch "<" /\ c <> ch "&".
  Proof. rewrite negb_true_iff, orb_false_iff, !N.eqb_neq. reflexivity. Qed.
  Lemma char_data_spec t : forallb is_xml_char t = true -> contains t (u "]]>") = false -> Forall (fun c => negb (N.eqb c 60 || N.eqb c 38) = true) t -> char_data (universal_newlines t) t.
  Proof.
    intros X NO F. split; [|split].
    - apply xml_chars_spec in X. rewrite Forall_forall in *. intros c I. split; [auto|]. now apply no_markup_spec, F.
    - intros K. apply contains_spec in K. congruence.
    - now apply newlines_spec.
  Qed.
  Lemma char_data_inv v t : char_data v t -> forallb is_xml_char t = true /\ contains t (u "]]>") = false /\ Forall (fun c => negb (N.eqb c 60 || N.eqb c 38) = true) t /\ universal_newlines t = v.
  Proof.
    intros (F & NO & L). repeat split.
    - apply xml_chars_spec. eapply Forall_impl; [|exact F]. intros c (H & _). exact H.
    - destruct (contains t (u "]]>")) eqn:E; [|reflexivity]. exfalso. apply NO. now apply contains_spec in E.
    - eapply Forall_impl; [|exact F]. intros c (_ & H). now apply no_markup_spec.
    - now apply newlines_spec.
  Qed.
  Lemma scan_content_sound fuel : forall s v cs rest, scan_content fuel s = Ok (v, cs, rest) -> exists t, s = t ++ rest /\ content_text v cs t.
  Proof.
    induction fuel as [|f IH]; intros s v cs rest H; [discriminate|]. cbn [M_XmlText.scan_content] in H.
    destruct (span (fun c => negb (N.eqb c 60 || N.eqb c 38)) s) as [raw r] eqn:E. apply span_split in E as (-> & F & _).
    apply bind_ok in H as (x & X & H). apply well_formed_ok, andb_true_iff in X as (X & NO). apply negb_true_iff in NO. pose proof (char_data_spec raw X NO F) as CD.
    destruct (startswith r (u "</")) eqn:E1.
    { injection H as <- <- <-. exists raw. split; [reflexivity|]. now constructor. }
    destruct (scan_markup r) as [m|] eqn:M0.
    - apply bind_ok in H as ([y r1] & Y & H). subst m. apply scan_markup_sound in M0 as (m & -> & MT). apply bind_ok in H as ([[tx ch'] rs] & C & H). injection H as <- <- <-. apply IH in C as (t & -> & C).
      exists (raw ++ m ++ t). split; [now rewrite <- !app_assoc|]. now constructor.
    - apply bind_ok in H as (r1 & R1 & H). apply expect_ok in R1. subst r. apply bind_ok in H as ([e r2] & EL & H). apply scan_element_sound in EL as (m & EL & ET); [|exact IH].
      apply bind_ok in H as ([[tx ch'] rs] & C & H). injection H as <- <- <-. apply IH in C as (t & -> & C).
      exists (raw ++ m ++ t). split; [rewrite EL; now rewrite <- !app_assoc|]. now constructor.
  Qed.

  Scheme element_ind2 := Minimality for S_XmlText.element_text Sort Prop
    with content_ind2 := Minimality for S_XmlText.content_text Sort Prop.
  Combined Scheme element_content_ind from element_ind2, content_ind2.

  Lemma element_head e t : element_text e t -> exists c t', t = 60%N :: c :: t' /\ is_name_start c = true /\ ~ In c [33; 38; 47; 60; 61; 62; 63]%N.
  Proof.
    intros [n l a w N0 _ _|n l a w v cs c w' N0 _ _ _ _]; destruct (name_head n N0) as (c0 & r & -> & S0 & _ & NI); eexists c0, _; (split; [reflexivity|now split]).
  Qed.
  Lemma element_no_markup e t rest : element_text e t -> startswith (t ++ rest) (u "</") = false /\ scan_markup (t ++ rest) = None.
  Proof.
    intros H. apply element_head in H as (c & t' & -> & _ & NI). cbn [app]. unfold M_XmlText.scan_markup.
    change (u "</") with [60; 47]%N. change (u "&") with [38]%N. change (u "<!--") with [60; 33; 45; 45]%N. change (u "<![CDATA[") with [60; 33; 91; 67; 68; 65; 84; 65; 91]%N. change (u "<?") with [60; 63]%N.
    rewrite (starts_diff 60%N _ 38%N) by discriminate. rewrite !(starts_cons 60%N _ 60%N). cbn [N.eqb Pos.eqb andb].
    rewrite !starts_diff by (intros ->; apply NI; cbn; auto 12). now split.
  Qed.

  Lemma scan_complete :
    (forall e t, element_text e t -> forall fuel rest, List.length t <= fuel -> scan_element (scan_content fuel) (skipn 1 t ++ rest) = Ok (e, rest))
    /\ (forall v cs t, content_text v cs t -> forall fuel rest, List.length t < fuel -> startswith rest (u "</") = true -> scan_content fuel (t ++ rest) = Ok (v, cs, rest)).
  Proof.
    apply element_content_ind.
    - intros n l a w N0 A W fuel rest L. change (skipn 1 (u "<" ++ n ++ a ++ w ++ u "/>")) with (n ++ a ++ w ++ u "/>"). unfold M_XmlText.scan_element. rewrite <- !app_assoc.
      apply bind_ok. exists (n, a ++ w ++ tag_end true ++ rest). split.
      { apply scan_name_ok. split; [reflexivity|]. split; [exact N0|]. intros c r' K. apply not_in_name. destruct A as (_ & ts & F & ->).
        destruct F as [|x y l ts [n' v' w0 w1 w2 q t N1 W00 W0 W1 W2 Q V] F]; cbn [concat app] in K.
        - destruct w as [|x w]; injection K as <- _; [cbn [In]; auto 20|]. inversion W; subst. cbn [In] in *. tauto.
        - destruct w0 as [|x1 w0]; [congruence|]. injection K as <- _. inversion W0; subst. cbn [In] in *. tauto. }
      apply bind_ok. exists (l, true, rest). split; [|reflexivity]. exact (scan_attributes_ok l a w true rest A W).
    - intros n l a w v cs c w' N0 A W C IH W' fuel rest L. change (skipn 1 (u "<" ++ n ++ a ++ w ++ u ">" ++ c ++ u "</" ++ n ++ w' ++ u ">")) with (n ++ a ++ w ++ u ">" ++ c ++ u "</" ++ n ++ w' ++ u ">").
      unfold M_XmlText.scan_element. rewrite <- !app_assoc.
      apply bind_ok. exists (n, a ++ w ++ tag_end false ++ c ++ u "</" ++ n ++ w' ++ u ">" ++ rest). split.
      { apply scan_name_ok. split; [reflexivity|]. split; [exact N0|]. intros x r' K. apply not_in_name. destruct A as (_ & ts & F & ->).
        destruct F as [|x0 y l ts [n' v' w0 w1 w2 q t N1 W00 W0 W1 W2 Q V] F]; cbn [concat app] in K.
        - destruct w as [|x1 w]; injection K as <- _; [cbn [In]; auto 20|]. inversion W; subst. cbn [In] in *. tauto.
        - destruct w0 as [|x1 w0]; [congruence|]. injection K as <- _. inversion W0; subst. cbn [In] in *. tauto. }
      apply bind_ok. exists (l, false, c ++ u "</" ++ n ++ w' ++ u ">" ++ rest). split; [exact (scan_attributes_ok l a w false _ A W)|]. cbv beta iota.
      apply bind_ok. exists (v, cs, u "</" ++ n ++ w' ++ u ">" ++ rest). split.
      { apply IH; [|apply starts_app]. rewrite !app_length in L. change (List.length (u "<")) with 1 in L. lia. }
      cbv beta iota. apply bind_ok. exists (n ++ w' ++ u ">" ++ rest). split; [now apply expect_ok|].
      apply bind_ok. exists (n, w' ++ u ">" ++ rest). split.
      { apply scan_name_ok. split; [reflexivity|]. split; [exact N0|]. intros x r' K. apply not_in_name. destruct w' as [|x1 w']; injection K as <- _; [cbn [In]; auto 20|]. inversion W'; subst. cbn [In] in *. tauto. }
      cbv beta iota. apply bind_ok. exists tt. split; [apply well_formed_ok; now apply str_eqb_eq|]. apply bind_ok. exists rest. split.
      { rewrite span_spaces; [|assumption|intros ? ? K'; injection K' as <- _; reflexivity]. cbn [snd]. now apply expect_ok. }
      destruct v; reflexivity.
    - intros v t CD [|f] rest L S0; [lia|]. cbn [M_XmlText.scan_content]. apply char_data_inv in CD as (X & NO & F & <-).
      rewrite span_app; [|exact F|intros c r' ->; apply startswith_spec in S0 as (r'' & S0); injection S0 as -> _; reflexivity]. cbv beta iota.
      rewrite X, NO, S0. reflexivity.
    - intros v t x m w cs r CD MT C IH [|f] rest L S0; [lia|]. cbn [M_XmlText.scan_content]. apply char_data_inv in CD as (X & NO & F & <-). destruct (scan_markup_complete x m (r ++ rest) MT) as (SM & NE & (c & m' & EM & HM)).
      rewrite <- !app_assoc. rewrite span_app; [|exact F|intros c0 r' K; rewrite EM in K; injection K as <- _; destruct HM; subst c; reflexivity]. cbv beta iota.
      rewrite X, NO, NE, SM. cbn [well_formed check bind andb negb]. rewrite IH; [reflexivity| |exact S0]. rewrite !app_length in L. rewrite EM in L. cbn [List.length] in L. lia.
    - intros v t e m w cs r CD ET IHe C IH [|f] rest L S0; [lia|]. cbn [M_XmlText.scan_content]. apply char_data_inv in CD as (X & NO & F & <-). destruct (element_no_markup e m (r ++ rest) ET) as (NE & NM).
      destruct (element_head _ _ ET) as (c & m' & EM & _).
      rewrite <- !app_assoc. rewrite span_app; [|exact F|intros c0 r' K; rewrite EM in K; injection K as <- _; reflexivity]. cbv beta iota.
      rewrite X, NO, NE, NM. cbn [well_formed check bind andb negb].
      rewrite !app_length in L. assert (Lm : List.length m <= f) by (rewrite EM in *; cbn [List.length] in L |- *; lia).
      specialize (IHe f (r ++ rest) Lm).
      rewrite (proj2 (expect_ok (u "<") (m ++ r ++ rest) (skipn 1 m ++ r ++ rest))) by (rewrite EM; reflexivity). cbn [bind]. rewrite IHe. cbn [bind]. rewrite IH; [reflexivity| |exact S0]. rewrite EM in L. cbn [List.length] in L. lia.
  Qed.

  (** ** documents *)
  Notation skip_misc := (skip_misc high_name_start high_name_char).
  Notation misc_text := (misc_text high_name_start high_name_char).

  (** what may follow: no whitespace, comment or processing instruction *)
  Definition no_misc (r : pystr) : Prop :=
    (forall c r', r = c :: r' -> is_xml_space c = false) /\ startswith r (u "<!--") = false /\ startswith r (u "<?") = false.
  Lemma skip_misc_sound fuel : forall s r, skip_misc fuel s = Ok r -> exists m, s = m ++ r /\ misc_text m.
  Proof.
    induction fuel as [|f IH]; intros s r H; [discriminate|]. cbn [M_XmlText.skip_misc] in H. destruct (span is_xml_space s) as [w r0] eqn:E. apply span_split in E as (-> & W & _). apply spaces_spec in W. cbn [snd] in H.
    destruct (startswith r0 (u "<!--")) eqn:E1.
    { apply bind_ok in H as (rest & C & H). apply IH in H as (m & -> & M0). apply scan_comment_ok in C as (t & E & T). apply starts_true in E1. change (List.length (u "<!--")) with 4 in E1.
      exists (w ++ t ++ m). split; [|now apply misc_comment]. rewrite <- !app_assoc. f_equal. etransitivity; [exact E1|]. exact E. }
    destruct (startswith r0 (u "<?")) eqn:E2.
    { apply bind_ok in H as (rest & C & H). apply IH in H as (m & -> & M0). apply scan_instruction_ok in C as (t & E & T). apply starts_true in E2. change (List.length (u "<?")) with 2 in E2.
      exists (w ++ t ++ m). split; [|now apply misc_instruction]. rewrite <- !app_assoc. f_equal. etransitivity; [exact E2|]. exact E. }
    injection H as <-. exists w. split; [reflexivity|now constructor].
  Qed.
  Lemma skip_misc_complete m : misc_text m -> forall fuel r, List.length m < fuel -> no_misc r -> skip_misc fuel (m ++ r) = Ok r.
  Proof.
    induction 1 as [w W|w t m W T M0 IH|w t m W T M0 IH]; intros [|f] r L (B & N1 & N2); try lia; cbn [M_XmlText.skip_misc].
    - rewrite span_spaces by assumption. cbn [snd]. now rewrite N1, N2.
    - assert (K := T). destruct T as (inner & E & _). rewrite <- !app_assoc. rewrite span_spaces; [|exact W|intros c r' K'; rewrite E in K'; injection K' as <- _; reflexivity]. cbn [snd].
      rewrite E at 1. rewrite <- app_assoc. rewrite starts_app. apply bind_ok. exists (m ++ r). split.
      + apply scan_comment_ok. exists t. split; [|exact K]. rewrite E. rewrite <- !app_assoc. reflexivity.
      + apply IH; [|now split]. rewrite !app_length in L. rewrite E in L. rewrite !app_length in L. change (List.length (u "<!--")) with 4 in L. lia.
    - assert (K := T). destruct T as (n & d & E & _). rewrite <- !app_assoc. rewrite span_spaces; [|exact W|intros c r' K'; rewrite E in K'; injection K' as <- _; reflexivity]. cbn [snd].
      replace (startswith (t ++ m ++ r) (u "<!--")) with false by (rewrite E; reflexivity).
      rewrite E at 1. rewrite <- app_assoc. rewrite starts_app. apply bind_ok. exists (m ++ r). split.
      + apply scan_instruction_ok. exists t. split; [|exact K]. rewrite E. rewrite <- !app_assoc. reflexivity.
      + apply IH; [|now split]. rewrite !app_length in L. rewrite E in L. rewrite !app_length in L. change (List.length (u "<?")) with 2 in L. lia.
  Qed.
  Lemma element_no_misc e t r : element_text e t -> no_misc (t ++ r) /\ startswith (t ++ r) (u "<!DOCTYPE") = false.
  Proof.
    intros H. apply element_head in H as (c & t' & -> & _ & NI). cbn [app]. unfold no_misc.
    change (u "<!DOCTYPE") with [60; 33; 68; 79; 67; 84; 89; 80; 69]%N. change (u "<!--") with [60; 33; 45; 45]%N. change (u "<?") with [60; 63]%N. rewrite !(starts_cons 60%N _ 60%N). cbn [N.eqb Pos.eqb andb].
    rewrite !starts_diff by (intros ->; apply NI; cbn; auto 12). split; [split; [intros ? ? K; injection K as <- _; reflexivity|now split]|reflexivity].
  Qed.

  Section Documents.
    Variable is_declaration : pystr -> bool.
    Notation skip_declaration := (skip_declaration high_name_start high_name_char is_declaration).
    Notation prolog_text := (prolog_text high_name_start high_name_char is_declaration).
    Notation xml_document := (xml_document high_name_start high_name_char is_declaration).
    Notation has_doctype := (has_doctype high_name_start high_name_char is_declaration).
    Notation scan_document := (scan_document high_name_start high_name_char is_declaration).

    Lemma skip_declaration_sound s r : skip_declaration s = Ok r -> exists p, s = p ++ r /\ prolog_text p.
    Proof.
      unfold M_XmlText.skip_declaration.
      assert (K : exists mark, s = mark ++ (if startswith s [65279%N] then skipn 1 s else s) /\ (mark = [] \/ mark = [65279%N])).
      { destruct (startswith s [65279%N]) eqn:E; [exists [65279%N]|exists []]; (split; [|auto]); [|reflexivity]. now apply starts_true in E. }
      destruct K as (mark & E & M0). revert E. generalize (if startswith s [65279%N] then skipn 1 s else s). intros s' -> H. cbv beta zeta in H.
      destruct (startswith s' (u "<?")) eqn:E1.
      - apply bind_ok in H as ([n r0] & N0 & H). apply scan_name_ok in N0 as (E & N0 & B). apply starts_true in E1. change (List.length (u "<?")) with 2 in E1. rewrite E in E1.
        destruct (str_eqb n (u "xml")) eqn:X; [|injection H as <-; exists mark; split; [reflexivity|]; exists mark, []; rewrite app_nil_r; auto].
        apply str_eqb_eq in X. subst n. change (u "?>") with (u "?" ++ [62%N]) in H. destruct (cut (u "?" ++ [62%N]) r0) as [[d r1]|] eqn:C; [|discriminate]. apply cut_iff in C as (-> & NO). apply bind_ok in H as (y & Y & H). apply well_formed_ok in Y. injection H as <-.
        exists (mark ++ u "<?xml" ++ d ++ u "?>"). split; [rewrite E1; rewrite <- !app_assoc; reflexivity|]. exists mark, (u "<?xml" ++ d ++ u "?>"). split; [reflexivity|]. split; [exact M0|]. right. exists d. split; [reflexivity|]. split; [|split; [exact Y|exact NO]].
        intros c r' -> K. apply name_char_spec in K. rewrite (B c _ eq_refl) in K. discriminate.
      - injection H as <-. exists mark. split; [reflexivity|]. exists mark, []. rewrite app_nil_r. auto.
    Qed.
    (** the text behind the prolog starts with neither *)
    Definition after_prolog (r : pystr) : Prop :=
      startswith r [65279%N] = false
      /\ (startswith r (u "<?") = true -> exists n r', scan_name (skipn 2 r) = Ok (n, r') /\ str_eqb n (u "xml") = false).
    Lemma skip_declaration_complete p r : prolog_text p -> after_prolog r -> skip_declaration (p ++ r) = Ok r.
    Proof.
      intros (mark & d & -> & M0 & D) (NB & ND). unfold M_XmlText.skip_declaration.
      assert (Q : startswith (d ++ r) [65279%N] = false).
      { destruct D as [-> |(d0 & -> & _)]; [exact NB|]. rewrite <- app_assoc. reflexivity. }
      rewrite <- app_assoc.
      replace (if startswith (mark ++ d ++ r) [65279%N] then skipn 1 (mark ++ d ++ r) else mark ++ d ++ r) with (d ++ r).
      2:{ destruct M0 as [-> | ->]; cbn [app]; [now rewrite Q|]. change (65279%N :: d ++ r) with ([65279%N] ++ (d ++ r)). now rewrite starts_app. }
      cbv zeta. destruct D as [-> |(d0 & -> & B & Dd & NO)].
      - cbn [app]. destruct (startswith r (u "<?")) eqn:E; [|reflexivity]. destruct (ND eq_refl) as (n & r' & N0 & X). rewrite N0. cbn [bind]. now rewrite X.
      - rewrite <- !app_assoc. change (u "<?xml") with (u "<?" ++ u "xml"). rewrite <- app_assoc. rewrite starts_app. change (skipn 2 (u "<?" ++ u "xml" ++ d0 ++ u "?>" ++ r)) with (u "xml" ++ d0 ++ u "?>" ++ r).
        apply bind_ok. exists (u "xml", d0 ++ u "?>" ++ r). split.
        + apply scan_name_ok. split; [reflexivity|]. split.
          * exists (ch "x"), (u "ml"). split; [reflexivity|]. split; [apply name_start_spec; reflexivity|]. constructor; [apply name_char_spec; reflexivity|constructor; [apply name_char_spec; reflexivity|constructor]].
          * intros c r' K. destruct d0 as [|c0 d0]; [injection K as <- _; reflexivity|]. injection K as <- _. destruct (is_name_char c0) eqn:E; [|reflexivity]. exfalso. apply (B c0 d0 eq_refl). now apply name_char_spec.
        + assert (C : cut (u "?>") (d0 ++ u "?>" ++ r) = Some (d0, r)) by (apply (proj2 (cut_iff (u "?") 62%N (d0 ++ (u "?" ++ [62%N]) ++ r) d0 r)); split; [reflexivity|exact NO]).
          cbv beta iota. replace (str_eqb (u "xml") (u "xml")) with true by (symmetry; now apply str_eqb_eq). cbv iota. rewrite C. rewrite Dd. reflexivity.
    Qed.
    (** miscellaneous markup in front of a text that starts like an element or a document type declaration *)
    Lemma misc_after_prolog m r : misc_text m -> (exists c r', r = 60%N :: c :: r' /\ c <> 63%N) -> after_prolog (m ++ r).
    Proof.
      intros M0 (c & r' & -> & C). assert (SP : forall w x, whitespace w -> w <> [] -> after_prolog (w ++ x)).
      { intros [|c0 w] x W NE; [congruence|]. inversion W as [|? ? W1 W2]; subst. split; cbn [app].
        - apply starts_diff. intros ->. cbn [In] in W1. intuition discriminate.
        - change (u "<?") with [60; 63]%N. rewrite starts_diff by (intros ->; cbn [In] in W1; intuition discriminate). discriminate. }
      destruct M0 as [w W|w t m W T M0|w t m W T M0]; rewrite <- ?app_assoc; (destruct w as [|w0 w]; [cbn [app]|now apply SP]).
      - split; [reflexivity|]. change (u "<?") with [60; 63]%N. rewrite starts_cons, starts_diff by exact C. discriminate.
      - destruct T as (inner & -> & _). rewrite <- !app_assoc. split; [reflexivity|]. discriminate.
      - assert (K := T). destruct T as (n & d & E & N0 & NR & _). split; [rewrite E; reflexivity|]. intros _.
        pose proof (proj2 (scan_instruction_ok (skipn 2 (t ++ m ++ 60%N :: c :: r')) (m ++ 60%N :: c :: r')) ) as H.
        assert (H0 : exists t0, u "<?" ++ skipn 2 (t ++ m ++ 60%N :: c :: r') = t0 ++ m ++ 60%N :: c :: r' /\ instruction_text t0) by (exists t; split; [rewrite E; rewrite <- !app_assoc; reflexivity|exact K]).
        specialize (H H0). unfold M_XmlText.scan_instruction in H. apply bind_ok in H as ([n' r1] & N1 & H). exists n', r1. split; [exact N1|]. apply bind_ok in H as (y & Y & _). apply well_formed_ok in Y.
        destruct (str_eqb n' (u "xml")) eqn:X; [|reflexivity]. apply str_eqb_eq in X. subst n'. discriminate Y.
    Qed.

    Lemma scan_document_sound with_doctype s e : scan_document with_doctype s = Ok e -> xml_document e s \/ has_doctype s /\ with_doctype s = Ok e.
    Proof.
      unfold M_XmlText.scan_document. intros H. apply bind_ok in H as (r & D & H). apply skip_declaration_sound in D as (p & -> & P). apply bind_ok in H as (r1 & M0 & H). apply skip_misc_sound in M0 as (m & -> & M0).
      destruct (startswith r1 (u "<!DOCTYPE")) eqn:E.
      - right. split; [|exact H]. apply starts_true in E. exists p, m, (skipn (List.length (u "<!DOCTYPE")) r1). split; [now rewrite <- E|]. now split.
      - left. apply bind_ok in H as (r2 & R2 & H). apply expect_ok in R2. subst r1. apply bind_ok in H as ([e' r3] & EL & H). apply scan_element_sound in EL as (t & EL & T); [|apply scan_content_sound].
        apply bind_ok in H as (r4 & M1 & H). apply skip_misc_sound in M1 as (m' & -> & M1). apply bind_ok in H as (y & Y & H). apply well_formed_ok in Y. destruct r4; [|discriminate]. injection H as <-.
        exists p, m, t, m'. rewrite EL. rewrite app_nil_r. auto.
    Qed.
    Lemma scan_document_complete with_doctype s e : xml_document e s -> scan_document with_doctype s = Ok e.
    Proof.
      intros (p & m & x & m' & -> & P & M0 & X & M1). unfold M_XmlText.scan_document. destruct (element_head _ _ X) as (c & x' & EX & _ & NI). destruct (element_no_misc e x m' X) as (NM & ND).
      apply bind_ok. exists (m ++ x ++ m'). split.
      { apply skip_declaration_complete; [exact P|]. apply misc_after_prolog; [exact M0|]. exists c, (x' ++ m'). rewrite EX. split; [reflexivity|]. intros ->. apply NI. cbn. auto 12. }
      apply bind_ok. exists (x ++ m'). split; [apply skip_misc_complete; [exact M0|rewrite app_length; lia|exact NM]|]. rewrite ND.
      apply bind_ok. exists (skipn 1 x ++ m'). split; [apply expect_ok; rewrite EX; reflexivity|]. apply bind_ok. exists (e, m'). split.
      { apply (proj1 scan_complete); [exact X|]. rewrite EX. cbn [skipn app List.length]. rewrite app_length. lia. }
      cbv beta iota. apply bind_ok. exists []. split; [|reflexivity]. rewrite <- (app_nil_r m') at 2. apply skip_misc_complete; [exact M1|lia|]. split; [discriminate|now split].
    Qed.
    Lemma scan_document_doctype with_doctype s : has_doctype s -> scan_document with_doctype s = with_doctype s.
    Proof.
      intros (p & m & r & -> & P & M0). unfold M_XmlText.scan_document.
      rewrite (skip_declaration_complete p (m ++ u "<!DOCTYPE" ++ r) P); [|apply misc_after_prolog; [exact M0|]; eexists _, _; split; [reflexivity|discriminate]]. cbn [bind].
      rewrite (skip_misc_complete m M0); [|rewrite app_length; lia|split; [intros ? ? K; injection K as <- _; reflexivity|now split]]. cbn [bind]. rewrite starts_app. reflexivity.
    Qed.

    (** ** errors *)
    Definition only_expat {A} (r : result A) : Prop := forall e, r = Raise e -> e = ExpatError.
    Lemma oe_ok {A} (x : A) : only_expat (Ok x).
    Proof. intros e H. discriminate. Qed.
    Lemma oe_raise {A} : only_expat (@Raise A ExpatError).
    Proof. intros e H. congruence. Qed.
    Lemma oe_bind {A B} (r : result A) (f : A -> result B) : only_expat r -> (forall x, only_expat (f x)) -> only_expat (bind r f).
    Proof. intros R F e. destruct r as [x|x]; cbn; [apply F|]. intros H. injection H as <-. now apply R. Qed.
    Lemma oe_wf b : only_expat (well_formed b).
    Proof. intros e. apply well_formed_raise. Qed.
    Lemma oe_expect p s : only_expat (expect p s).
    Proof. intros e. apply expect_raise. Qed.
    Lemma oe_name s : only_expat (scan_name s).
    Proof. intros e. apply scan_name_raise. Qed.
    Lemma oe_ref s : only_expat (scan_reference s).
    Proof. intros e. apply reference_raise. Qed.
    Hint Resolve oe_ok oe_raise oe_wf oe_expect oe_name oe_ref : oe.
    Ltac oe := repeat first [apply oe_bind; [solve [auto with oe]|intros [[? ?] ?] || intros [? ?] || intros ?]
                            |match goal with |- only_expat (match ?x with _ => _ end) => destruct x end|solve [auto with oe]].
    Lemma oe_comment s : only_expat (scan_comment s).
    Proof. unfold scan_comment. oe. Qed.
    Lemma oe_cdata s : only_expat (scan_cdata s).
    Proof. unfold scan_cdata. oe. Qed.
    Lemma oe_instruction s : only_expat (scan_instruction s).
    Proof. unfold M_XmlText.scan_instruction. oe. Qed.
    Hint Resolve oe_comment oe_cdata oe_instruction : oe.
    Lemma oe_value fuel : forall s, only_expat (attribute_value fuel s).
    Proof. induction fuel as [|f IH]; intros s; cbn [attribute_value]; oe. Qed.
    Hint Resolve oe_value : oe.
    Lemma oe_attributes fuel : forall found s, only_expat (scan_attributes fuel found s).
    Proof. induction fuel as [|f IH]; intros found s; cbn [M_XmlText.scan_attributes]; oe. Qed.
    Hint Resolve oe_attributes : oe.
    Lemma oe_markup s m : scan_markup s = Some m -> only_expat m.
    Proof.
      unfold M_XmlText.scan_markup. destruct (startswith s (u "&")); [intros H; injection H as <-; oe|]. destruct (startswith s (u "<!--")); [intros H; injection H as <-; oe|].
      destruct (startswith s (u "<![CDATA[")); [intros H; injection H as <-; oe|]. destruct (startswith s (u "<?")); [intros H; injection H as <-; oe|discriminate].
    Qed.
    Lemma oe_element rd s : (forall s, only_expat (rd s)) -> only_expat (scan_element rd s).
    Proof. intros R. unfold M_XmlText.scan_element. oe. Qed.
    Lemma oe_content fuel : forall s, only_expat (scan_content fuel s).
    Proof.
      induction fuel as [|f IH]; intros s; cbn [M_XmlText.scan_content]; [apply oe_raise|]. destruct (span _ s) as [raw r]. apply oe_bind; [auto with oe|]. intros _. destruct (startswith r (u "</")); [apply oe_ok|].
      destruct (scan_markup r) as [m|] eqn:M0.
      - apply oe_markup in M0. oe.
      - apply oe_bind; [auto with oe|]. intros r1. apply oe_bind; [apply oe_element; exact IH|]. intros [e r2]. oe.
    Qed.
    Lemma oe_misc fuel : forall s, only_expat (skip_misc fuel s).
    Proof. induction fuel as [|f IH]; intros s; cbn [M_XmlText.skip_misc]; oe. Qed.
    Hint Resolve oe_misc oe_content oe_element : oe.
    Lemma oe_declaration s : only_expat (skip_declaration s).
    Proof. unfold M_XmlText.skip_declaration. oe. Qed.
    Hint Resolve oe_declaration : oe.
    Lemma scan_document_raise with_doctype s x : ~ has_doctype s -> scan_document with_doctype s = Raise x -> x = ExpatError.
    Proof.
      intros ND. pose proof (scan_document_sound (fun _ => Ok (Element [] [] None [])) s (Element [] [] None [])) as D. revert D. unfold M_XmlText.scan_document.
      destruct (skip_declaration s) as [r|y] eqn:E; cbn [bind]; [|intros _ H; injection H as <-; exact (oe_declaration s y E)].
      destruct (skip_misc (S (List.length r)) r) as [r1|y] eqn:E1; cbn [bind]; [|intros _ H; injection H as <-; exact (oe_misc _ _ y E1)].
      destruct (startswith r1 (u "<!DOCTYPE")) eqn:E2.
      - intros D _. exfalso. apply ND. apply skip_declaration_sound in E as (p & -> & P). apply skip_misc_sound in E1 as (m & -> & M0). apply starts_true in E2.
        exists p, m, (skipn (List.length (u "<!DOCTYPE")) r1). split; [now rewrite <- E2|]. now split.
      - intros _. revert x. match goal with |- forall x, ?r = Raise x -> _ => change (only_expat r) end. oe.
    Qed.
  End Documents.
End Names.

(** ** etree.tostring *)
Lemma number_reference_text c : referable c -> reference_text c (number_reference c).
Proof.
  intros R. destruct (number_text c) as (D & V). apply decimal_reference; [| |exact V|exact R].
  - destruct D as [-> |(c0 & r & -> & _)]; discriminate.
  - destruct D as [-> |(c0 & r & -> & H & A)]; [repeat constructor; cbn; lia|]. constructor; [lia|exact A].
Qed.
Lemma number_reference_ascii c : ascii (number_reference c).
Proof.
  destruct (number_text c) as (D & _). unfold number_reference. apply Forall_app. split; [repeat constructor|]. apply Forall_app. split; [|repeat constructor].
  destruct D as [-> |(c0 & r & -> & H & A)]; [repeat constructor|]. constructor; [lia|]. eapply Forall_impl; [|exact A]. cbn. intros x ?. lia.
Qed.
(** how a character of a text is written *)
Lemma text_char_written c : referable c ->
  reference_text c (escape_text_char c) \/ escape_text_char c = [c] /\ c <> 60%N /\ c <> 62%N /\ c <> 38%N /\ c <> 13%N /\ (c < 128)%N.
Proof.
  intros R. unfold escape_text_char.
  destruct (N.eqb_spec c 60) as [-> |]; [left; apply (entity_reference (u "lt")); cbn; auto|]. destruct (N.eqb_spec c 62) as [-> |]; [left; apply (entity_reference (u "gt")); cbn; auto|].
  destruct (N.eqb_spec c 38) as [-> |]; [left; apply (entity_reference (u "amp")); cbn; auto|].
  destruct (N.eqb_spec c 13) as [-> |]; [left; now apply number_reference_text|]. destruct (N.ltb_spec c 128); cbn [negb orb].
  - right. auto 8.
  - left. now apply number_reference_text.
Qed.
Lemma text_char_ascii c : ascii (escape_text_char c).
Proof.
  unfold escape_text_char. destruct (N.eqb c 60); [repeat constructor|]. destruct (N.eqb c 62); [repeat constructor|]. destruct (N.eqb c 38); [repeat constructor|].
  destruct (N.eqb c 13); cbn [orb]; [apply number_reference_ascii|]. destruct (N.ltb_spec c 128); cbn [negb]; [|apply number_reference_ascii]. constructor; [assumption|constructor].
Qed.
Lemma value_written v : Forall referable v -> value_text (ch """") v (flat_map escape_attribute_char v).
Proof.
  induction 1 as [|c v R F IH]; cbn [flat_map]; [constructor|]. unfold escape_attribute_char.
  destruct (N.eqb_spec c 34) as [-> |N1]; [apply value_reference; [apply (entity_reference (u "quot")); cbn; auto 8|exact IH]|].
  destruct (N.eqb_spec c 10) as [-> |N2]; [apply value_reference; [now apply number_reference_text|exact IH]|].
  destruct (N.eqb_spec c 9) as [-> |N3]; [apply value_reference; [now apply number_reference_text|exact IH]|]. cbn [orb].
  destruct (text_char_written c R) as [T|(-> & H1 & H2 & H3 & H4 & H5)]; [now apply value_reference|]. cbn [app]. apply value_char; [apply R| |exact IH].
  cbn [In]. change (ch "<") with 60%N. change (ch "&") with 38%N. change (ch """") with 34%N. intros K. decompose [or] K; congruence.
Qed.
Lemma flat_map_ascii {X} (f : X -> pystr) l : (forall x, In x l -> ascii (f x)) -> ascii (flat_map f l).
Proof. induction l as [|x l IH]; intros H; cbn [flat_map]; [constructor|]. apply Forall_app. split; [apply H; now left|]. apply IH. intros y I. apply H. now right. Qed.
Lemma attribute_char_ascii c : ascii (escape_attribute_char c).
Proof. unfold escape_attribute_char. destruct (N.eqb c 34); [repeat constructor|]. destruct (N.eqb c 10 || N.eqb c 9)%bool; [apply number_reference_ascii|apply text_char_ascii]. Qed.

Section Writing.
  Variable high_name_start high_name_char : char -> bool.
  Notation name_text := (name_text high_name_start high_name_char).
  Notation attribute_text := (attribute_text high_name_start high_name_char).
  Notation attributes_text := (attributes_text high_name_start high_name_char).
  Notation element_text := (element_text high_name_start high_name_char).
  Notation content_text := (content_text high_name_start high_name_char).
  Notation lxml_element := (lxml_element high_name_start high_name_char).

  Lemma attributes_written l : NoDup (map fst l) -> Forall (fun kv => name_text (fst kv) /\ ascii (fst kv) /\ Forall referable (snd kv)) l ->
    attributes_text l (flat_map write_attribute l).
  Proof.
    intros D F. split; [exact D|]. exists (map write_attribute l). split; [|apply flat_map_concat_map]. clear D. induction F as [|[n v] l (N0 & _ & V) F IH]; [constructor|]. constructor; [|exact IH]. cbn [fst snd] in *.
    change (attribute_text (n, v) (u " " ++ n ++ [] ++ u "=" ++ [] ++ [ch """"] ++ flat_map escape_attribute_char v ++ [ch """"])).
    apply attribute; try assumption; [discriminate|repeat constructor|constructor|constructor|now left|now apply value_written].
  Qed.

  (** content that may be preceded by characters *)
  Definition open_content (w : pystr) (cs : list element) (r : pystr) : Prop :=
    exists v t w' r', w = v ++ w' /\ r = t ++ r' /\ char_data v t /\ ~ In 62%N t /\ forall v0 t0, char_data v0 t0 -> content_text (v0 ++ w') cs (t0 ++ r').
  Lemma open_is_content w cs r : open_content w cs r -> content_text w cs r.
  Proof. intros (v & t & w' & r' & -> & -> & C & _ & H). now apply H. Qed.
  Lemma no_char_data : char_data [] [].
  Proof. split; [constructor|]. split; [|constructor]. intros (a & b & K). destruct a; discriminate. Qed.
  Lemma text_written v cs r : Forall referable v -> open_content [] cs r -> open_content v cs (flat_map escape_text_char v ++ r).
  Proof.
    intros F O. induction F as [|c v R F IH]; [exact O|]. cbn [flat_map]. rewrite <- app_assoc. destruct (text_char_written c R) as [T|(E & H1 & H2 & H3 & H4 & H5)].
    - exists [], [], (c :: v), (escape_text_char c ++ flat_map escape_text_char v ++ r). split; [reflexivity|]. split; [reflexivity|]. split; [apply no_char_data|]. split; [easy|]. intros v0 t0 C.
      change (c :: v) with ([c] ++ v). apply content_markup; [exact C|now constructor|now apply open_is_content].
    - rewrite E. destruct IH as (x & t & w' & r' & -> & -> & C & NG & H). exists (c :: x), (c :: t), w', r'. split; [reflexivity|]. split; [reflexivity|]. split; [|split; [|exact H]].
      + destruct C as (C1 & C2 & C3). split; [constructor; [|exact C1]; split; [apply R|split; assumption]|]. split; [|now constructor].
        intros (a & b & K). assert (I : In 62%N (c :: t)) by (rewrite K, !in_app_iff; right; left; cbn; auto). destruct I; [congruence|now apply NG].
      + intros [K|K]; [congruence|now apply NG].
  Qed.

  Lemma tostring_eq n l text cs : tostring (Element n l text cs)
    = u "<" ++ n ++ flat_map write_attribute l ++ match text, cs with None, [] => u "/>" | _, _ => u ">" ++ flat_map escape_text_char (match text with Some t => t | None => [] end) ++ flat_map tostring cs ++ u "</" ++ n ++ u ">" end.
  Proof. reflexivity. Qed.
  Lemma element_written e : lxml_element e -> element_text (without_empty_texts e) (tostring e).
  Proof.
    induction e as [n l text cs IH] using element_ind'. intros H. inversion H as [? ? ? ? N0 A0 D F T C]; subst. rewrite tostring_eq. cbn [without_empty_texts].
    assert (O : open_content [] (map without_empty_texts cs) (flat_map tostring cs)).
    { clear -IH C. exists [], [], [], (flat_map tostring cs). split; [reflexivity|]. split; [reflexivity|]. split; [apply no_char_data|]. split; [easy|].
      induction C as [|e cs E C IHC]; intros v0 t0 CD.
      - cbn. rewrite !app_nil_r. now constructor.
      - inversion IH as [|? ? IH1 IH2]; subst. cbn [map flat_map]. apply (content_element _ _ v0 t0 (without_empty_texts e) (tostring e) [] (map without_empty_texts cs) (flat_map tostring cs)); [exact CD|now apply IH1|].
        apply (IHC IH2 [] []). apply no_char_data. }
    set (v := match text with Some t => t | None => [] end). assert (V : Forall referable v) by (unfold v; destruct text as [t|]; [now apply T|constructor]).
    pose proof (text_written v _ _ V O) as O'. apply open_is_content in O'.
    assert (K : element_text (Element n l (match v with [] => None | _ => Some v end) (map without_empty_texts cs))
                  (u "<" ++ n ++ flat_map write_attribute l ++ [] ++ u ">" ++ (flat_map escape_text_char v ++ flat_map tostring cs) ++ u "</" ++ n ++ [] ++ u ">")).
    { apply full_element; [exact N0|now apply attributes_written|constructor|exact O'|constructor]. }
    rewrite <- !app_assoc in K. cbn [app] in K. unfold v in *.
    destruct text as [[|c t]|]; [exact K|exact K|]. destruct cs as [|e cs]; [|exact K].
    apply (empty_element _ _ n l (flat_map write_attribute l) []); [exact N0|now apply attributes_written|constructor].
  Qed.
  Lemma tostring_ascii e : lxml_element e -> ascii (tostring e).
  Proof.
    induction e as [n l text cs IH] using element_ind'. intros H. inversion H as [? ? ? ? N0 A0 D F T C]; subst. rewrite tostring_eq.
    assert (A1 : ascii (flat_map write_attribute l)).
    { apply flat_map_ascii. intros [k x] I. rewrite Forall_forall in F. destruct (F _ I) as (_ & A & _). cbn [fst] in A. unfold write_attribute. cbn [fst snd].
      apply Forall_app. split; [repeat constructor|]. apply Forall_app. split; [exact A|]. apply Forall_app. split; [repeat constructor|]. apply Forall_app. split; [|repeat constructor]. apply flat_map_ascii. intros c _. apply attribute_char_ascii. }
    assert (A2 : ascii (u ">" ++ flat_map escape_text_char (match text with Some t => t | None => [] end) ++ flat_map tostring cs ++ u "</" ++ n ++ u ">")).
    { apply Forall_app. split; [repeat constructor|]. apply Forall_app. split; [apply flat_map_ascii; intros c _; apply text_char_ascii|]. apply Forall_app. split.
      - apply flat_map_ascii. intros e I. rewrite Forall_forall in IH, C. auto.
      - apply Forall_app. split; [repeat constructor|]. apply Forall_app. split; [exact A0|repeat constructor]. }
    apply Forall_app. split; [repeat constructor|]. apply Forall_app. split; [exact A0|]. apply Forall_app. split; [exact A1|]. destruct text; [exact A2|]. destruct cs; [repeat constructor|exact A2].
  Qed.
End Writing.

Lemma same_xml_value e : value_of (without_empty_texts e) = value_of e.
Proof.
  induction e as [n l text cs IH] using element_ind'. cbn [without_empty_texts value_of].
  assert (T : text_data (match text with Some [] => None | _ => text end) = text_data text) by (destruct text as [[|]|]; reflexivity). rewrite T.
  assert (K : forall d, fold_left (fun d c => push_data d (el_tag c) (value_of c)) (map without_empty_texts cs) d = fold_left (fun d c => push_data d (el_tag c) (value_of c)) cs d).
  { clear -IH. induction IH as [|e cs E F IHc]; intros d; [reflexivity|]. cbn [map fold_left]. rewrite E. replace (el_tag (without_empty_texts e)) with (el_tag e) by (destruct e; reflexivity). apply IHc. }
  now rewrite K.
Qed.
Lemma same_parse e : parse (without_empty_texts e) = parse e.
Proof. unfold parse. rewrite same_xml_value. destruct e; reflexivity. Qed.
