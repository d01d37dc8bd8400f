(** Lemmas: beginnings of JSON files are no JSON files. *)
From Coq Require Import Ascii String List NArith ZArith Bool Lia.
From Verif Require Import PyBase PyStr M_Components M_Schema M_Cli M_JsonText L_Base L_Csv S_Text S_FlatAhb S_Csv S_DeepAhb S_Cli S_JsonText L_JsonText L_JsonFile.
Import ListNotations.
Local Open Scope list_scope.

(** ** UTF-8 *)
Lemma decode_char c b r : utf8_char c b -> decode_utf8 (b ++ r) = let* s := decode_utf8 r in Ok (c :: s).
Proof.
  intros C. destruct C as [c0 H|a x Ha Hx L|a x d Ha Hx Hd L Sc|a x d e Ha Hx Hd He L Sc]; cbn [app decode_utf8].
  - destruct (N.ltb_spec c0 128); [|lia]. reflexivity.
  - destruct (N.ltb_spec (192 + a) 128); [lia|]. unfold in_range. destruct (N.leb_spec 194 (192 + a)); [|lia]. destruct (N.leb_spec (192 + a) 223); [|lia]. cbn [andb].
    rewrite (proj2 (continuation_spec (128 + x))) by eauto. destruct (decode_utf8 r); [|reflexivity]. cbn [bind]. do 2 f_equal. lia.
  - destruct (N.ltb_spec (224 + a) 128); [lia|]. unfold in_range. destruct (N.leb_spec (224 + a) 223); [lia|]. rewrite andb_false_r.
    destruct (N.leb_spec 224 (224 + a)); [|lia]. destruct (N.leb_spec (224 + a) 239); [|lia]. cbn [andb].
    rewrite (proj2 (continuation_spec (128 + x))) by eauto. rewrite (proj2 (continuation_spec (128 + d))) by eauto. cbn [andb].
    replace ((224 + a - 224) * 4096 + (128 + x - 128) * 64 + (128 + d - 128))%N with (a * 4096 + x * 64 + d)%N by lia.
    apply is_scalar_spec in Sc. rewrite Sc. destruct (N.leb_spec 2048 (a * 4096 + x * 64 + d)); [|lia]. cbn [andb]. reflexivity.
  - unfold scalar_value in Sc. destruct (N.ltb_spec (240 + a) 128); [lia|]. unfold in_range. destruct (N.leb_spec (240 + a) 223); [lia|]. rewrite andb_false_r.
    destruct (N.leb_spec (240 + a) 239); [lia|]. rewrite andb_false_r.
    destruct (N.leb_spec 240 (240 + a)); [|lia]. destruct (N.leb_spec (240 + a) 244); [|lia]. cbn [andb].
    rewrite (proj2 (continuation_spec (128 + x))) by eauto. rewrite (proj2 (continuation_spec (128 + d))) by eauto. rewrite (proj2 (continuation_spec (128 + e))) by eauto. cbn [andb].
    replace ((240 + a - 240) * 262144 + (128 + x - 128) * 4096 + (128 + d - 128) * 64 + (128 + e - 128))%N with (a * 262144 + x * 4096 + d * 64 + e)%N by lia.
    apply is_scalar_spec in Sc. rewrite Sc. destruct (N.leb_spec 65536 (a * 262144 + x * 4096 + d * 64 + e)); [|lia]. cbn [andb]. reflexivity.
Qed.
(** the text of the beginning of a file is the beginning of the text *)
Lemma utf8_beginning s p : utf8_text s p -> forall t q, utf8_text t (p ++ q) -> exists s', t = s ++ s' /\ utf8_text s' q.
Proof.
  induction 1 as [|c s b b' C T IH]; intros t q U; [exists t; auto|].
  apply decode_complete in U. rewrite <- app_assoc, (decode_char c b _ C) in U. apply bind_ok in U as (t' & D & E). injection E as <-.
  apply (decode_sound (List.length (b' ++ q))) in D; [|lia]. destruct (IH t' q D) as (s' & -> & U'). exists s'. auto.
Qed.
Lemma utf8_nil s : utf8_text s [] -> s = [].
Proof.
  intros U. apply decode_complete in U. cbn in U. congruence.
Qed.
(** a zero in the file is a zero in the text *)
Lemma utf8_zero s b : utf8_text s b -> In 0%N b -> In 0%N s.
Proof.
  induction 1 as [|c s b b' C T IH]; [auto|]. intros I0. apply in_app_or in I0 as [I0|I0]; [left|right; auto].
  destruct C; cbn [In] in I0; repeat destruct I0 as [I0|I0]; try contradiction; lia.
Qed.

(** ** JSON texts contain no zeros *)
Definition printable (t : pystr) : Prop := ~ In 0%N t.
Lemma printable_app a b : printable a -> printable b -> printable (a ++ b).
Proof. unfold printable. intros A B I0. apply in_app_or in I0. tauto. Qed.
Lemma printable_forall t : Forall (fun c => c <> 0%N) t -> printable t.
Proof. intros F I0. rewrite Forall_forall in F. exact (F _ I0 eq_refl). Qed.
Lemma printable_u s : forallb (fun c => negb (N.eqb c 0)) (u s) = true -> printable (u s).
Proof.
  intros H. apply printable_forall, Forall_forall. intros c I0. rewrite forallb_forall in H. apply H in I0. intros ->. discriminate.
Qed.
Lemma printable_nil : printable [].
Proof. intros []. Qed.
Lemma printable_ws w : whitespace w -> printable w.
Proof.
  intros W. apply printable_forall. eapply Forall_impl; [|exact W]. intros c C ->. cbn in C. repeat destruct C as [C|C]; try discriminate; destruct C.
Qed.
Lemma printable_hex t n : hex_digits_are t n -> printable t.
Proof.
  intros H. destruct H as [a b c d x y z w A B C D]. apply printable_forall.
  assert (G : forall c n, hex_digit_is c n -> c <> 0%N) by (intros c0 n0 [? ?|? ?|? ?]; lia). repeat constructor; eapply G; eassumption.
Qed.
Lemma printable_string s t : string_text s t -> printable t.
Proof.
  induction 1 as [|c s t C _ _ T IH|e c s t E T IH|x y n m s t X Y _ _ T IH|x n s t X _ T IH].
  - exact printable_nil.
  - apply (printable_app [c] t); [|exact IH]. intros [E|[]]. lia.
  - apply (printable_app [ch "\"; e] t); [|exact IH]. intros [E0|[E0|[]]]; [discriminate|]. subst e. cbn in E. repeat destruct E as [E|E]; try discriminate; destruct E.
  - repeat apply printable_app; eauto using printable_hex; apply printable_u; reflexivity.
  - repeat apply printable_app; eauto using printable_hex; apply printable_u; reflexivity.
Qed.
Lemma printable_digits d : ascii_digits d -> printable d.
Proof. intros D. apply printable_forall. eapply Forall_impl; [|exact D]. intros c C ->. lia. Qed.
Lemma printable_integer_digits d : integer_digits d -> printable d.
Proof.
  intros [-> |(c & r & -> & C & D)]; [apply printable_u; reflexivity|]. apply (printable_app [c] r); [intros [E|[]]; lia|now apply printable_digits].
Qed.
Lemma printable_sign sg : sg = [] \/ sg = u "-" -> printable sg.
Proof. intros [-> | ->]; [exact printable_nil|apply printable_u; reflexivity]. Qed.
Lemma printable_integer t z : integer_text t z -> printable t.
Proof.
  intros (d & n & D & _ & [[-> _]|[-> _]]); [now apply printable_integer_digits|apply printable_app; [apply printable_u; reflexivity|now apply printable_integer_digits]].
Qed.
Lemma printable_fraction f : fraction_text f -> printable f.
Proof. intros (d & -> & _ & D). apply printable_app; [apply printable_u; reflexivity|now apply printable_digits]. Qed.
Lemma printable_exponent f : exponent_text f -> printable f.
Proof.
  intros (e & sg & d & -> & E & G & _ & D). repeat apply printable_app; [destruct E as [-> | ->]; apply printable_u; reflexivity| |now apply printable_digits].
  destruct G as [-> |[-> | ->]]; [exact printable_nil|apply printable_u; reflexivity|apply printable_u; reflexivity].
Qed.
Lemma printable_float t : float_text t -> printable t.
Proof.
  intros (sg & d & f & e & -> & G & D & [[F [-> |E]]|[-> E]]); repeat apply printable_app;
    auto using printable_sign, printable_integer_digits, printable_fraction, printable_exponent, printable_nil.
Qed.

Section Texts.
  Variable float_value : pystr -> option Z.
  Notation json_text := (json_text float_value).
  Notation document_text := (document_text float_value).
  Notation scan_once := (scan_once float_value).

  Lemma printable_texts :
    (forall j t, json_text j t -> printable t) /\ (forall l t, elements_text float_value l t -> printable t)
    /\ (forall ms t, members_text float_value ms t -> printable t) /\ (forall m t, member_text float_value m t -> printable t).
  Proof.
    apply (json_text_all float_value (fun _ => printable) (fun _ => printable) (fun _ => printable) (fun _ => printable)); intros;
      try (match goal with H : In ?t [_; _; _] |- _ => cbn [In] in H; repeat destruct H as [<-|H]; [..|destruct H] end);
      repeat apply printable_app; eauto using printable_integer, printable_float, printable_string, printable_ws;
      apply printable_u; reflexivity.
  Qed.
  Lemma printable_document j t : document_text j t -> printable t.
  Proof.
    intros (w & v & w' & -> & W & V & W'). repeat apply printable_app; auto using printable_ws. exact (proj1 printable_texts _ _ V).
  Qed.

  (** ** objects end where they end *)
  Lemma scan_object o t : json_text (JObj o) t -> forall f rest, 2 * List.length t <= f -> scan_once f (t ++ rest) = Ok (JObj o, rest).
  Proof.
    intros T f rest L. inversion T as [| | | | | | | | |w W E1 E2|ms o' mt M LW E1 E2]; subst.
    - destruct f; [cbn in L; lia|]. change (u "{") with [123%N]. cbn [app M_JsonText.scan_once].
      change (123 =? 34)%N with false. change (123 =? 123)%N with true. cbn match.
      rewrite <- app_assoc, skip_ws by exact W. reflexivity.
    - rewrite !app_length in L. cbn [List.length] in L. destruct f; [cbn in L; lia|].
      change (u "{") with [123%N]. cbn [app M_JsonText.scan_once]. change (123 =? 34)%N with false. change (123 =? 123)%N with true. cbn match.
      rewrite <- app_assoc. assert (E : exists r, skip_space (mt ++ u "}" ++ rest) = 34%N :: r).
      { destruct M as [m w mt w' W V W'|m w mt w' l t' W V W' M]; rewrite <- !app_assoc; rewrite skip_ws by assumption; destruct V; eexists; reflexivity. }
      destruct E as (r & E). apply last_wins_unique in LW. subst o.
      assert (IHf : scan_members float_value f [] (skip_space (mt ++ u "}" ++ rest)) = Ok (JObj (dict_update [] ms), rest)).
      { apply (proj1 (proj2 (proj2 (scan_complete_all float_value))) ms mt M). cbn in L. lia. }
      rewrite E in IHf |- *. change (34 =? 125)%N with false. exact IHf.
  Qed.
  Lemma brace_is_object j t : json_text j t -> hd_error t = Some 123%N -> exists o, j = JObj o.
  Proof.
    intros T H. destruct T; try discriminate H; eauto.
    - cbn [In] in H0. repeat destruct H0 as [<-|H0]; try discriminate H; destruct H0.
    - apply integer_head in H0 as (c & r & -> & C). injection H as ->. destruct C as [[C _]|C]; lia.
    - apply float_head in H0 as (c & r & -> & C). injection H as ->. destruct C as [[C _]|C]; lia.
  Qed.
  Lemma object_head o t : json_text (JObj o) t -> exists r, t = 123%N :: r.
  Proof. intros T. inversion T; subst; eexists; reflexivity. Qed.
  Lemma object_cut o t p r : json_text (JObj o) t -> t = p ++ r -> r <> [] -> forall j, ~ document_text j p.
  Proof.
    intros T -> NE j (w & v & w' & -> & W & V & W'). destruct (object_head _ _ T) as (t' & Et). destruct W as [|c w C W].
    - assert (O : exists o', j = JObj o').
      { apply (brace_is_object j v V). destruct (value_head float_value j v V) as (c & v' & -> & _). cbn [app] in Et. injection Et as -> _. reflexivity. }
      destruct O as (o' & ->). set (f := 2 * List.length ((v ++ w') ++ r)).
      assert (A : scan_once f (((v ++ w') ++ r) ++ []) = Ok (JObj o, [])) by (apply scan_object; [exact T|unfold f; cbn [app]; lia]).
      assert (B : scan_once f (v ++ w' ++ r) = Ok (JObj o', w' ++ r)) by (apply scan_object; [exact V|unfold f; rewrite !app_length; lia]).
      rewrite app_nil_r, <- app_assoc, B in A. injection A as _ A. apply app_eq_nil in A as [_ A]. contradiction.
    - cbn [app] in Et. injection Et as -> _. cbn in C. repeat destruct C as [C|C]; try discriminate; destruct C.
  Qed.

  (** ** files *)
  Lemma parse_json_file_spec b j : parse_json_file float_value b = Ok j <-> exists s, utf8_text s b /\ document_text j s.
  Proof.
    unfold parse_json_file. split.
    - intros H. apply bind_ok in H as (s & D & L). apply (decode_sound (List.length b)) in D; [|lia]. exists s. split; [exact D|]. apply document_lines, loads_spec. exact L.
    - intros (s & U & D). rewrite (decode_complete _ _ U). cbn [bind]. apply loads_spec, document_lines. exact D.
  Qed.
  Lemma unreadable b : (forall s j, utf8_text s b -> ~ document_text j s) -> parse_json_file float_value b = Raise ValueError.
  Proof.
    intros H. destruct (parse_json_file float_value b) as [j|e] eqn:P; [apply parse_json_file_spec in P as (s & U & D); destruct (H s j U D)|].
    f_equal. unfold parse_json_file in P. destruct (decode_utf8 b) as [s'|e'] eqn:D; cbn [bind] in P; [now apply loads_raises in P|].
    injection P as <-. eapply decode_raises; [|exact D]. apply le_n.
  Qed.
  (** the beginning of a file *)
  Lemma cut_file o t p q : json_text (JObj o) t -> utf8_text t (p ++ q) -> q <> [] -> parse_json_file float_value p = Raise ValueError.
  Proof.
    intros T U NE. apply unreadable. intros s j Us D. destruct (utf8_beginning s p Us t q U) as (s' & E & U').
    apply (object_cut o t s s' T E) with (j := j); [|exact D]. intros ->. inversion U'. congruence.
  Qed.
  (** the beginning of a text that cannot be written completely *)
  Lemma cut_text o t s1 s2 p q : json_text (JObj o) t -> ~ Forall scalar_value t -> t = s1 ++ s2 -> utf8_text s1 (p ++ q) ->
    parse_json_file float_value p = Raise ValueError.
  Proof.
    intros T N E U. apply unreadable. intros s j Us D. destruct (utf8_beginning s p Us s1 q U) as (s' & E' & U').
    apply (object_cut o t s (s' ++ s2) T) with (j := j); [subst; now rewrite app_assoc| |exact D].
    intros Nil. apply N. apply app_eq_nil in Nil as [-> ->]. rewrite E, E', !app_nil_r. apply encode_utf8_spec in Us. unfold encode_utf8 in Us.
    destruct (forallb is_scalar s) eqn:F; [|discriminate]. rewrite forallb_forall in F. apply Forall_forall. intros c I0. apply is_scalar_spec. auto.
  Qed.
  Lemma zero_file b : In 0%N b -> parse_json_file float_value b = Raise ValueError.
  Proof. intros Z. apply unreadable. intros s j U D. exact (printable_document j s D (utf8_zero s b U Z)). Qed.
End Texts.
