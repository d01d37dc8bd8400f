(** Property C72, continued: the layout of written JSON texts. *)
From Coq Require Import Ascii String List NArith ZArith Bool Lia.
From Verif Require Import PyBase PyStr M_Components M_Ahb M_Schema M_Cli M_JsonText L_Base L_Paths S_Text S_FlatAhb S_Csv S_DeepAhb S_Cli L_Reorder
  S_JsonText L_JsonText L_JsonFile L_Cli C_Cli M_Sgh M_Navigation M_Matching M_Xml M_MigXml C_JsonText.
Import ListNotations.
Local Open Scope list_scope.

(** *** characters and strings *)
Lemma encode_char_written c : written_char c (encode_char c).
Proof.
  unfold encode_char.
  destruct (N.eqb_spec c 34) as [-> |N1]; [apply written_short; [cbn; tauto|discriminate]|].
  destruct (N.eqb_spec c 92) as [-> |N2]; [apply written_short; [cbn; tauto|discriminate]|].
  destruct (N.eqb_spec c 10) as [-> |N3]; [apply written_short; [cbn; tauto|discriminate]|].
  destruct (N.eqb_spec c 13) as [-> |N4]; [apply written_short; [cbn; tauto|discriminate]|].
  destruct (N.eqb_spec c 9) as [-> |N5]; [apply written_short; [cbn; tauto|discriminate]|].
  destruct (N.eqb_spec c 12) as [-> |N6]; [apply written_short; [cbn; tauto|discriminate]|].
  destruct (N.eqb_spec c 8) as [-> |N7]; [apply written_short; [cbn; tauto|discriminate]|].
  destruct (N.ltb_spec c 32) as [L|L]; [|now apply written_as_is].
  assert (A : forallb (fun k => match hex 4 (N.of_nat k) with [a; b; x; y] => N.eqb a 48 && N.eqb b 48 && negb (N.leb 65 y && N.leb y 70) | _ => false end) (seq 0 32) = true)
    by (vm_compute; reflexivity).
  rewrite forallb_forall in A. specialize (A (N.to_nat c)). rewrite N2Nat.id in A.
  assert (I0 : In (N.to_nat c) (seq 0 32)) by (apply in_seq; lia). specialize (A I0). pose proof (control_hex c L) as H.
  destruct (hex 4 c) as [|a [|b [|x [|y [|]]]]]; try discriminate. apply andb_true_iff in A as [A C]. apply andb_true_iff in A as [A B].
  apply N.eqb_eq in A, B. subst a b. apply (written_control c x y); [exact L| |exact H|].
  - intros e [E|[E|[E|[E|[E|[E|[E|[E|[]]]]]]]]]; injection E as <- <-; unfold ch in *; cbn in *; lia.
  - apply negb_true_iff, andb_false_iff in C. rewrite !N.leb_gt in C. lia.
Qed.
Lemma hex_inj x y n : hex_digit_is x n -> hex_digit_is y n -> ~ (65 <= x <= 70)%N -> ~ (65 <= y <= 70)%N -> x = y.
Proof. intros H K. inversion H; inversion K; subst; lia. Qed.
Lemma hex_small x n : hex_digit_is x n -> (n < 16)%N.
Proof. intros H. inversion H; subst; lia. Qed.
Lemma hex_ten x n : hex_digit_is x n -> (n < 2)%N -> ~ (65 <= x <= 70)%N.
Proof. intros H. inversion H; subst; lia. Qed.
Lemma written_char_unique c t t' : written_char c t -> written_char c t' -> t = t'.
Proof.
  assert (Sh : forall e e' c, In (e, c) short_escapes -> In (e', c) short_escapes -> e = e').
  { intros e e' k I J. cbn [short_escapes In] in I, J. destruct I as [E|[E|[E|[E|[E|[E|[E|[E|[]]]]]]]]], J as [K|[K|[K|[K|[K|[K|[K|[K|[]]]]]]]]]; congruence. }
  assert (Va : forall e c, In (e, c) short_escapes -> e <> ch "/" -> ((c < 32)%N \/ c = ch """" \/ c = ch "\")).
  { intros e k [E|[E|[E|[E|[E|[E|[E|[E|[]]]]]]]]] N; injection E as <- <-; auto; unfold ch in *; cbn in *; try congruence; left; lia. }
  intros H K. inversion H as [? L Q B|? e I N|? x y L N D U]; subst; inversion K as [? L' Q' B'|? e' I' N'|? x' y' L' N' D' U']; subst; try reflexivity; try lia.
  - destruct (Va _ _ I' N') as [?|[?|?]]; [lia|congruence|congruence].
  - destruct (Va _ _ I N) as [?|[?|?]]; [lia|congruence|congruence].
  - now rewrite (Sh _ _ _ I I').
  - destruct (N' _ I).
  - destruct (N _ I').
  - cbn [app u] in D, D'. inversion D as [? ? ? ? z0 z1 a b H0 H1 Ha Hb E E2]; subst. inversion D' as [? ? ? ? z0' z1' a' b' H0' H1' Ha' Hb' E' E2']; subst.
    assert (Z : forall z, hex_digit_is 48%N z -> z = 0%N) by (intros z Hz; inversion Hz; subst; lia).
    apply Z in H0, H1, H0', H1'. subst. pose proof (hex_small _ _ Ha). pose proof (hex_small _ _ Hb). pose proof (hex_small _ _ Ha'). pose proof (hex_small _ _ Hb').
    assert (a = a' /\ b = b') as [-> ->] by lia.
    f_equal. f_equal; [|f_equal]; eapply hex_inj; eauto; eapply hex_ten; eauto; lia.
Qed.
Lemma written_string_spec s t : written_string s t <-> t = encode_string s.
Proof.
  assert (E : forall s ts, Forall2 written_char s ts <-> ts = map encode_char s).
  { induction s0 as [|c s0 IH]; intros ts; split; intros H.
    - now inversion H.
    - subst. constructor.
    - inversion H as [|? x ? r A B]; subst. cbn [map]. apply IH in B. subst r. f_equal. eapply written_char_unique; [exact A|apply encode_char_written].
    - subst. constructor; [apply encode_char_written|now apply IH]. }
  unfold written_string, encode_string. rewrite flat_map_concat_map. split.
  - intros (ts & H & ->). apply E in H. now subst.
  - intros ->. eexists. split; [now apply E|reflexivity].
Qed.

(** *** integers *)
Definition no_zero (d : pystr) : Prop := match d with [] => True | c :: _ => c <> 48%N end.
Lemma no_zero_snoc d c : no_zero (d ++ [c]) -> no_zero d.
Proof. destruct d; [constructor|exact (fun H => H)]. Qed.
Lemma no_zero_positive d : ascii_digits d -> no_zero d -> d = [] \/ (0 < digits_value d)%N.
Proof.
  induction d as [|c d IH] using rev_ind; intros A Z; [now left|]. right. apply Forall_app in A as [A C]. inversion C as [|? ? C' _]; subst.
  rewrite digits_value_snoc. destruct (IH A (no_zero_snoc _ _ Z)) as [-> |P]; [|lia]. cbn in Z. cbn. lia.
Qed.
Lemma digits_unique d : forall d', ascii_digits d -> ascii_digits d' -> no_zero d -> no_zero d' -> digits_value d = digits_value d' -> d = d'.
Proof.
  induction d as [|c d IH] using rev_ind; intros d' A A' Z Z' E.
  - destruct (no_zero_positive d' A' Z') as [-> |P]; [reflexivity|]. rewrite <- E in P. cbn in P. lia.
  - destruct (no_zero_positive (d ++ [c]) A Z) as [K|P]; [destruct d; discriminate|].
    destruct d' as [|c' d'' _] using rev_ind; [rewrite E in P; cbn in P; lia|].
    apply Forall_app in A as [A C]. apply Forall_app in A' as [A' C']. inversion C as [|? ? C1 _]; subst. inversion C' as [|? ? C1' _]; subst.
    rewrite !digits_value_snoc in E. assert (digits_value d = digits_value d'' /\ c = c') as [K ->] by lia.
    rewrite (IH d'' A A' (no_zero_snoc _ _ Z) (no_zero_snoc _ _ Z') K). reflexivity.
Qed.
Lemma integer_digits_unique d d' n : integer_digits d -> integer_digits d' -> decimal_value d n -> decimal_value d' n -> d = d'.
Proof.
  intros D D' V V'. apply decimal_value_spec in V. apply decimal_value_spec in V'.
  assert (G : forall d, integer_digits d -> d = u "0" \/ d <> [] /\ ascii_digits d /\ no_zero d).
  { intros x [-> |(c & r & -> & C & A)]; [now left|]. right. split; [discriminate|]. split; [|cbn; lia]. constructor; [lia|exact A]. }
  destruct (G d D) as [-> |(N & A & Z)], (G d' D') as [-> |(N' & A' & Z')].
  - reflexivity.
  - destruct (no_zero_positive d' A' Z') as [K|P]; [congruence|]. cbn in V. lia.
  - destruct (no_zero_positive d A Z) as [K|P]; [congruence|]. cbn in V'. lia.
  - apply digits_unique; congruence.
Qed.
Lemma minus_zero n : decimal_value (u "0") n -> n = 0%N.
Proof. intros V. now apply decimal_value_spec in V. Qed.
Lemma integer_unique t t' z : integer_text t z -> integer_text t' z -> t <> u "-0" -> t' <> u "-0" -> t = t'.
Proof.
  assert (M : forall d n, integer_digits d -> decimal_value d n -> n = 0%N -> d = u "0").
  { intros d n D V ->. eapply integer_digits_unique; [exact D|now left|exact V|]. now apply decimal_value_spec. }
  intros (d & n & D & V & H) (d' & n' & D' & V' & H') N N'.
  destruct H as [[-> Z]|[-> Z]], H' as [[-> Z']|[-> Z']].
  - assert (n' = n) as -> by lia. eapply integer_digits_unique; eassumption.
  - rewrite (M d' n' D' V') in N' by lia. now destruct N'.
  - rewrite (M d n D V) in N by lia. now destruct N.
  - assert (n' = n) as -> by lia. f_equal. eapply integer_digits_unique; eassumption.
Qed.
Lemma str_of_Z_not_minus_zero z : str_of_Z z <> u "-0".
Proof.
  assert (H : forall n, str_of_N n <> u "-0").
  { intros n E. destruct (number_text n) as [[D|(c & r & D & C & _)] _]; rewrite E in D; [discriminate|]. injection D as <- <-. unfold ch in C. cbn in C. lia. }
  destruct z as [|p|p]; cbn [str_of_Z]; [apply H|apply H|]. intros E.
  assert (T : tl (u "-" ++ str_of_N (Npos p)) = tl (u "-" ++ str_of_N 0)) by (exact (f_equal (@tl char) E)).
  cbn [tl app u] in T. apply str_of_N_inj in T. discriminate.
Qed.

(** *** moving lines *)
Lemma moved_app a b : moved (a ++ b) = moved a ++ moved b.
Proof. apply flat_map_app. Qed.
Lemma moved_plain a : ~ In 10%N a -> moved a = a.
Proof.
  induction a as [|c a IH]; intros N; [reflexivity|]. unfold moved in *. cbn [flat_map].
  destruct (N.eqb_spec c 10) as [-> |_]; [destruct N; now left|]. cbn [app]. f_equal. apply IH. intros I. apply N. now right.
Qed.
Lemma moved_newline level : moved (newline_indent level) = newline_indent (S level).
Proof.
  unfold newline_indent. change (10%N :: repeat 32%N (2 * level)) with ([10%N] ++ repeat 32%N (2 * level)). rewrite moved_app, (moved_plain (repeat _ _)).
  - replace (2 * S level) with (S (S (2 * level))) by lia. reflexivity.
  - intros I. apply repeat_spec in I. discriminate.
Qed.
Lemma moved_join sep l : moved (join sep l) = join (moved sep) (map moved l).
Proof.
  induction l as [|a [|b l] IH]; [reflexivity|reflexivity|].
  change (join sep (a :: b :: l)) with (a ++ sep ++ join sep (b :: l)). rewrite !moved_app, IH. reflexivity.
Qed.
Lemma plain_no_feed t : plain t -> ~ In 10%N t.
Proof. unfold plain. tauto. Qed.
Lemma encode_string_no_feed s : ~ In 10%N (encode_string s).
Proof.
  unfold encode_string. rewrite !in_app_iff. intros [[E|[]]|[H|[E|[]]]]; [discriminate| |discriminate].
  revert H. apply plain_no_feed. eapply plain_string, encoded_string.
Qed.
Lemma iterencode_moved j : float_free j -> forall level, iterencode (S level) j = moved (iterencode level j).
Proof.
  induction j as [|b|z|t|s|l IH|o IH] using json_induction; intros F level.
  - reflexivity.
  - destruct b; reflexivity.
  - cbn [iterencode]. symmetry. apply moved_plain, plain_no_feed. eapply plain_integer, encoded_integer.
  - inversion F.
  - cbn [iterencode]. symmetry. apply moved_plain, encode_string_no_feed.
  - inversion F as [| | | |? Fl|]; subst. rewrite Forall_forall in *. destruct l as [|v l]; [reflexivity|].
    change (iterencode level (JList (v :: l))) with (u "[" ++ newline_indent (S level)
             ++ join (u "," ++ newline_indent (S level)) (map (iterencode (S level)) (v :: l)) ++ newline_indent level ++ u "]").
    rewrite !moved_app, moved_join, map_map, moved_app, !moved_newline.
    rewrite (map_ext_in (fun x => moved (iterencode (S level) x)) (iterencode (S (S level)))); [reflexivity|].
    intros x I. symmetry. auto.
  - inversion F as [| | | | |? Fl]; subst. rewrite Forall_forall in *. destruct o as [|v l]; [reflexivity|].
    set (f n := fun kv : pystr * json => match kv with (k, v) => encode_string k ++ u ": " ++ iterencode (S n) v end).
    change (iterencode level (JObj (v :: l))) with (u "{" ++ newline_indent (S level)
             ++ join (u "," ++ newline_indent (S level)) (map (f level) (v :: l)) ++ newline_indent level ++ u "}").
    rewrite !moved_app, moved_join, map_map, moved_app, !moved_newline.
    rewrite (map_ext_in (fun x => moved (f level x)) (f (S level))); [reflexivity|].
    intros [k x] I. unfold f. rewrite !moved_app, (moved_plain (encode_string k)) by apply encode_string_no_feed.
    rewrite <- (IH (k, x) I (Fl _ I) (S level) : iterencode (S (S level)) x = moved (iterencode (S level) x)). reflexivity.
Qed.
Lemma item_lines_join ts : ts <> [] -> item_lines ts = newline_indent 1 ++ join (u "," ++ newline_indent 1) (map moved ts).
Proof.
  induction ts as [|a [|b ts] IH]; intros N; [congruence|reflexivity|].
  change (item_lines (a :: b :: ts)) with (moved (10%N :: a) ++ u "," ++ item_lines (b :: ts)). rewrite IH by discriminate.
  change (join (u "," ++ newline_indent 1) (map moved (a :: b :: ts)))
    with (moved a ++ (u "," ++ newline_indent 1) ++ join (u "," ++ newline_indent 1) (map moved (b :: ts))).
  change (moved (10%N :: a)) with (newline_indent 1 ++ moved a). now rewrite <- !app_assoc.
Qed.

(** *** values *)
Lemma forall2_map {A B} (R : A -> B -> Prop) (f : A -> B) l : (forall x, In x l -> forall y, R x y <-> y = f x) -> forall ts, Forall2 R l ts <-> ts = map f l.
Proof.
  induction l as [|a l IH]; intros H ts; split; intros K.
  - now inversion K.
  - subst. constructor.
  - inversion K as [|? y ? r A0 B0]; subst. cbn [map]. f_equal; [now apply (H a (or_introl eq_refl))|]. apply IH; [|exact B0]. intros x I. apply H. now right.
  - subst. constructor; [apply (H a (or_introl eq_refl)); reflexivity|]. apply IH; [|reflexivity]. intros x I. apply H. now right.
Qed.
Lemma laid_out_spec j : float_free j -> forall t, laid_out j t <-> t = iterencode 0 j.
Proof.
  induction j as [|b|z|t|s|l IH|o IH] using json_induction; intros F t'.
  - split; [now inversion 1|intros ->; constructor].
  - destruct b; (split; [now inversion 1|intros ->; constructor]).
  - cbn [iterencode]. split.
    + inversion 1; subst. eapply integer_unique; [eassumption|apply encoded_integer|assumption|apply str_of_Z_not_minus_zero].
    + intros ->. constructor; [apply encoded_integer|apply str_of_Z_not_minus_zero].
  - inversion F.
  - cbn [iterencode]. split; [inversion 1; subst; now apply written_string_spec|]. intros ->. constructor. now apply written_string_spec.
  - inversion F as [| | | |? Fl|]; subst. rewrite Forall_forall in *.
    assert (E : forall ts, Forall2 laid_out l ts <-> ts = map (iterencode 0) l) by (apply forall2_map; intros x I; apply IH; auto).
    destruct l as [|v l]; [split; [inversion 1; subst; first [reflexivity|congruence]|intros ->; constructor]|].
    assert (K : iterencode 0 (JList (v :: l)) = u "[" ++ item_lines (map (iterencode 0) (v :: l)) ++ [10%N] ++ u "]").
    { change (iterencode 0 (JList (v :: l))) with (u "[" ++ newline_indent 1
             ++ join (u "," ++ newline_indent 1) (map (iterencode 1) (v :: l)) ++ newline_indent 0 ++ u "]").
      rewrite item_lines_join by discriminate. rewrite map_map, <- !app_assoc.
      rewrite (map_ext_in (iterencode 1) (fun x => moved (iterencode 0 x))); [reflexivity|]. intros x I. apply iterencode_moved. auto. }
    rewrite K. split.
    + inversion 1 as [| | | | | |? ts _ H2| |]; subst. apply E in H2. now subst.
    + intros ->. apply lay_list; [discriminate|]. now apply E.
  - inversion F as [| | | | |? Fl]; subst. rewrite Forall_forall in *.
    assert (E : forall ts, Forall2 laid_out (map snd o) ts <-> ts = map (iterencode 0) (map snd o)).
    { apply forall2_map. intros x I. apply in_map_iff in I as (kv & <- & I). apply IH; auto. }
    assert (E' : forall ts, Forall2 written_string (map fst o) ts <-> ts = map encode_string (map fst o)) by (apply forall2_map; intros x _ y; apply written_string_spec).
    destruct o as [|v l]; [split; [inversion 1; subst; first [reflexivity|congruence]|intros ->; constructor]|].
    assert (K : iterencode 0 (JObj (v :: l)) = u "{" ++ item_lines (map (fun kv => fst kv ++ u ": " ++ snd kv)
                  (combine (map encode_string (map fst (v :: l))) (map (iterencode 0) (map snd (v :: l))))) ++ [10%N] ++ u "}").
    { set (f n := fun kv : pystr * json => match kv with (k, v) => encode_string k ++ u ": " ++ iterencode n v end).
      change (iterencode 0 (JObj (v :: l))) with (u "{" ++ newline_indent 1
             ++ join (u "," ++ newline_indent 1) (map (f 1) (v :: l)) ++ newline_indent 0 ++ u "}").
      assert (C : forall m : list (pystr * json), map (fun kv => fst kv ++ u ": " ++ snd kv) (combine (map encode_string (map fst m)) (map (iterencode 0) (map snd m))) = map (f 0) m).
      { induction m as [|[k x] m Hm]; [reflexivity|]. cbn [map combine fst snd]. now rewrite Hm. }
      rewrite C, item_lines_join by discriminate. rewrite map_map, <- !app_assoc.
      rewrite (map_ext_in (f 1) (fun x => moved (f 0 x))); [reflexivity|]. intros [k x] I. unfold f.
      rewrite !moved_app, (moved_plain (encode_string k)) by apply encode_string_no_feed. rewrite (iterencode_moved x (Fl _ I) 0). reflexivity. }
    rewrite K. split.
    + inversion 1 as [| | | | | | | |? ks vs _ H1 H2]; subst. apply E in H2. apply E' in H1. now subst.
    + intros ->. apply lay_object; [discriminate|now apply E'|now apply E].
Qed.

(** the text written for a value is the text of the value with ascending keys in the documented layout, and there is
    only one such text *)
Theorem C72_layout j : unique_keys j -> float_free j ->
  exists j', reordered j j' /\ ascending_keys j' /\ forall t, laid_out j' t <-> t = dumps j.
Proof.
  intros U F. destruct (C71_sorting j U) as [R A]. exists (sort_keys j). split; [exact R|]. split; [exact A|].
  apply laid_out_spec. eapply reordered_free; eassumption.
Qed.
Print Assumptions C72_layout.
Example C72_layout_instance : exists j, unique_keys j /\ float_free j /\ forall t, laid_out j t <->
  t = u "{" ++ [10%N] ++ u "  " ++ u """a"": [" ++ [10%N] ++ u "    -7," ++ [10%N] ++ u "    null" ++ [10%N] ++ u "  ]" ++ [10%N] ++ u "}".
Proof.
  exists (JObj [(u "a", JList [JInt (-7); JNull])]). split; [|split].
  - constructor; [cbn; constructor; [intros []|constructor]|]. repeat constructor.
  - repeat constructor.
  - intros t. rewrite laid_out_spec by repeat constructor. split; intros ->; vm_compute; reflexivity.
Qed.

(** *** the output of the command line tool *)
Section Output.
  Variable path : Type.
  Variable path_eqb : path -> path -> bool.
  Hypothesis path_eqb_eq : forall p p', path_eqb p p' = true <-> p = p'.
  Variable float_value : pystr -> option Z.
  Variable left_over : pystr -> list N.
  Variable parse_xml : list N -> result element.
  Variable class_attribute : pystr -> option bool.
  Variable str_of_location : Location -> pystr.
  Variable open_for_writing : path -> option exn.
  Notation parse_json := (parse_json_file float_value).
  Notation write_json := (write_json_file left_over).
  Notation main := (main path path_eqb (list N) parse_json write_json parse_xml class_attribute str_of_location open_for_writing).
  Notation generated := (generated path (list N) parse_json parse_xml str_of_location).

  (** the file holds the UTF-8 encoding of the AHB with ascending keys in the documented layout *)
  Theorem C74_output_layout fs f s t o fs' maus :
    main fs f s t None (Some o) = (Ok tt, fs') -> generated fs f s t maus ->
    exists b text j, fs' o = Ok b /\ utf8_text text b /\ laid_out j text /\ reordered (dump_deep maus) j /\ ascending_keys j.
  Proof.
    intros H G.
    assert (O : open_for_writing o = None).
    { destruct (open_for_writing o) as [e|] eqn:O; [|reflexivity].
      rewrite (C62_not_opened path (list N) path_eqb parse_json write_json parse_xml class_attribute str_of_location open_for_writing _ _ _ _ _ _ _ G O) in H. discriminate. }
    destruct (C62_written path (list N) path_eqb parse_json write_json parse_xml class_attribute str_of_location open_for_writing fs f s t o (Ok tt) fs' maus) as (j & R & A & F & E); auto.
    { intros p. now apply path_eqb_eq. }
    unfold write_json_file in F, E. destruct (encode_utf8 (iterencode 0 j)) as [b|e] eqn:U; cbn [fst snd] in *; [|discriminate].
    exists b, (iterencode 0 j), j. split; [exact F|]. split; [now apply C73_encoding|]. split; [|auto].
    apply laid_out_spec; [|reflexivity]. eapply reordered_free; [exact R|apply free_deep].
  Qed.
End Output.
Print Assumptions C74_output_layout.
