(** C97: equality of objects.  C98: which characters count as letters, digits and whitespace. *)
From Coq Require Import Ascii String List NArith ZArith Bool Lia.
From Verif Require Import PyBase PyStr M_Components M_Sgh M_Ahb M_Navigation M_Xml M_LocationXml M_Schema M_CsvReader M_MigXml M_Misc
  S_Text S_Chars S_FlatAhb S_Numbers S_LocationXml L_Base L_Str L_Cli L_Chars C_FlatAhb C_Misc C_Numbers C_LocationXml.
Import ListNotations.
Local Open Scope list_scope.

(** ** C97 *)
Theorem C97_lines a b : line_eqb a b = true <->
  al_guid a = al_guid b /\ al_group a = al_group b /\ al_segment a = al_segment b /\ al_element a = al_element b
  /\ al_segment_id a = al_segment_id b /\ al_entry a = al_entry b /\ al_name a = al_name b /\ al_expression a = al_expression b
  /\ al_conditions a = al_conditions b /\ al_section a = al_section b /\ al_index a = al_index b.
Proof. rewrite line_eqb_eq. split; [intros ->; repeat split|]. destruct a, b. cbn. intuition congruence. Qed.
Theorem C97_deep_ahbs (a b : DeepAhb) : deep_eqb a b = true <-> a = b.
Proof. apply deep_eqb_eq. Qed.
Theorem C97_parts_of_deep_ahbs :
  (forall a b, meta_eqb a b = true <-> a = b) /\ (forall a b, group_eqb a b = true <-> a = b) /\ (forall a b, segment_eqb a b = true <-> a = b)
  /\ (forall a b, element_eqb a b = true <-> a = b) /\ (forall a b, entry_eqb a b = true <-> a = b).
Proof.
  split; [|split; [exact group_eqb_eq|split; [exact segment_eqb_eq|split; [exact element_eqb_eq|exact entry_eqb_eq]]]].
  intros a b. pose proof (deep_eqb_eq (mkDeep a []) (mkDeep b [])) as H. unfold deep_eqb in H. cbn [da_meta da_lines list_eqb] in H.
  rewrite andb_true_r in H. rewrite H. split; [congruence|now intros ->].
Qed.
(** locations and stacks; a pseudo location is never equal to an AhbLocation *)
Theorem C97_locations (a b : Location) : location_eqb a b = true <->
  lo_pseudo a = lo_pseudo b /\ lo_layers a = lo_layers b /\ lo_segment a = lo_segment b /\ lo_element a = lo_element b /\ lo_qualifier a = lo_qualifier b.
Proof. rewrite location_eqb_eq. split; [intros ->; repeat split|]. destruct a, b. cbn. intuition congruence. Qed.
Theorem C97_stack_levels (a b : StackLevel) : level_eqb a b = true <->
  lv_name a = lv_name b /\ lv_groupable a = lv_groupable b /\ lv_index a = lv_index b.
Proof. rewrite level_eqb_eq. split; [intros ->; repeat split|]. destruct a, b. cbn. intuition congruence. Qed.
Print Assumptions C97_lines.
Print Assumptions C97_deep_ahbs.
Print Assumptions C97_parts_of_deep_ahbs.
Print Assumptions C97_locations.
Print Assumptions C97_stack_levels.
Example C97_instance :
  let line g i := mkLine None (Some (u g)) (Some (u "NAD")) None None None None None None None i in
  line_eqb (line "SG2"%string (Some 1%Z)) (line "SG2"%string (Some 1%Z)) = true /\ line_eqb (line "SG2"%string (Some 1%Z)) (line "SG3"%string (Some 1%Z)) = false
  /\ line_eqb (line "SG2"%string (Some 1%Z)) (line "SG2"%string None) = false.
Proof. repeat split; vm_compute; reflexivity. Qed.

(** ** C98 *)
Definition digit (c : char) : Prop := exists v, decimal_digit c v.
Lemma all_capital s : all is_AZ s <-> Forall capital s.
Proof. unfold all. rewrite !Forall_forall. split; intros H c I; apply H in I; now apply in_range_spec in I || apply in_range_spec. Qed.
Lemma all_digit s : all is_decimal s <-> Forall digit s.
Proof. unfold all. rewrite !Forall_forall. split; intros H c I; apply H in I; now apply decimal_spec. Qed.
Lemma blank_spec s : blank s <-> Forall whitespace s.
Proof. unfold blank, all. rewrite !Forall_forall. split; intros H c I; apply H in I; now apply space_spec. Qed.
Lemma all_letter s : all is_letter s <-> Forall (fun c => capital c \/ small c) s.
Proof.
  unfold all, is_letter, capital, small. rewrite !Forall_forall.
  split; intros H c I; apply H in I; rewrite orb_true_iff in *; unfold is_AZ, is_az in *; rewrite !in_range_spec in *; exact I.
Qed.

(** segment codes consist of the letters A to Z; all patterns accept a line feed behind the text *)
Theorem C98_segment_codes l s : al_segment l = Some s -> (forall t, s <> t ++ [10%N]) ->
  (check_line_segment_code l = Ok tt <-> s <> [] /\ Forall capital s).
Proof.
  intros E N. rewrite (C23_segment_code l s E). unfold capitals. split.
  - intros (k & t & -> & [K1 K2] & [-> | ->]); [|now destruct (N k)]. rewrite app_nil_r. now rewrite <- all_capital.
  - intros [S1 S2]. exists s, []. rewrite app_nil_r, all_capital. repeat split; auto. now left.
Qed.
(** the digits of a group key or a data element may be those of any script *)
Theorem C98_group_keys l s : al_group l = Some s -> (forall t, s <> t ++ [10%N]) ->
  (check_line_segment_group l = Ok tt <-> exists number, s = u "SG" ++ number /\ number <> [] /\ Forall digit number).
Proof.
  intros E N. rewrite (C23_group_key l s E). unfold SG_key. split.
  - intros (k & t & -> & (ds & -> & D1 & D2) & [-> | ->]); [|now destruct (N (u "SG" ++ ds))]. exists ds. rewrite app_nil_r. now rewrite <- all_digit.
  - intros (ds & -> & D1 & D2). exists (u "SG" ++ ds), []. rewrite app_nil_r. split; [reflexivity|]. split; [exists ds; now rewrite all_digit|now left].
Qed.
Theorem C98_data_elements l s : al_element l = Some s -> (forall t, s <> t ++ [10%N]) ->
  (check_line_data_element l = Ok tt <->
   exists letters digits, s = letters ++ digits /\ Forall (fun c => capital c \/ small c) letters /\ Forall digit digits
     /\ (List.length digits = 4 \/ letters = [] /\ List.length digits = 5)).
Proof.
  intros E N. rewrite (C23_data_element l s E). unfold letters_then_four_digits, n_digits. split.
  - intros (k & t & -> & K & [-> | ->]); [|now destruct (N k)]. rewrite app_nil_r. destruct K as [[L D]|[[L D]|(a & d & -> & A & Al & L & D)]].
    + exists [], k. rewrite <- all_digit. auto 6.
    + exists [], k. rewrite <- all_digit. auto 6.
    + exists a, d. rewrite <- all_digit, <- all_letter. auto 6.
  - intros (a & d & -> & A & D & L). exists (a ++ d), []. rewrite app_nil_r. split; [reflexivity|]. split; [|now left].
    rewrite <- all_digit in D. rewrite <- all_letter in A. destruct a as [|c a].
    + destruct L as [L|[_ L]]; [now left|right; now left].
    + destruct L as [L|[[=] _]]. right. right. exists (c :: a), d. repeat split; auto. discriminate.
Qed.
(** what does not count around a segment code, and what counts as no information *)
Theorem C98_boilerplate s : is_edifact_boilerplate (Some s) = true <->
  s = [] \/ exists before code behind, s = before ++ code ++ behind /\ Forall whitespace before /\ Forall whitespace behind /\ In code [u "UNT"; u "UNZ"].
Proof.
  rewrite C59_boilerplate. unfold stripped. split.
  - intros [[=]|[[= ->]|(s' & [= <-] & [(a & b & -> & A & B & _)|(a & b & -> & A & B & _)])]]; [now left|right..].
    + exists a, (u "UNT"), b. split; [reflexivity|]. split; [now apply blank_spec|]. split; [now apply blank_spec|]. now left.
    + exists a, (u "UNZ"), b. split; [reflexivity|]. split; [now apply blank_spec|]. split; [now apply blank_spec|]. right. now left.
  - intros [-> |(a & code & b & -> & A & B & C)]; [right; now left|right; right]. eexists. split; [reflexivity|]. rewrite <- blank_spec in A, B.
    assert (K : forall t, In t [u "UNT"; u "UNZ"] -> (forall c r, t = c :: r -> is_space c = false) /\ (forall c r, t = r ++ [c] -> is_space c = false)).
    { intros t [<- |[<- |[]]]; (split; [intros c r [= <- _]; reflexivity|]); intros c r H; apply (f_equal (@rev char)) in H; rewrite rev_app_distr in H;
        vm_compute in H; injection H as <- _; reflexivity. }
    destruct (K code C) as [K1 K2]. destruct C as [<- |[<- |[]]]; [left|right]; exists a, b; auto.
Qed.
Theorem C98_information l : holds_any_information l = true <->
  exists text c, In (Some text) [al_group l; al_segment l; al_element l; al_entry l; al_name l; al_expression l] /\ In c text /\ ~ whitespace c.
Proof.
  unfold holds_any_information. assert (T : forall v, has_text v = true <-> exists text c, v = Some text /\ In c text /\ ~ whitespace c).
  { intros [s|]; cbn [has_text]; [|split; [discriminate|intros (? & ? & [=] & _)]]. rewrite Nat.ltb_lt. split.
    - intros L. destruct (strip_spec s) as (a & b & E & _ & _ & H & _). destruct (strip s) as [|c r] eqn:R; [cbn in L; lia|]. exists s, c. split; [reflexivity|]. split.
      + rewrite E. apply in_or_app. right. now left.
      + rewrite <- space_spec. rewrite (H c r eq_refl). discriminate.
    - intros (t & c & [= <-] & I & W). destruct (strip_spec s) as (a & b & E & A & B & _). destruct (strip s) as [|x r]; [|cbn; lia]. exfalso. apply W. cbn in E. rewrite E in I.
      apply in_app_or in I as [I|I]; [apply blank_spec in A|apply blank_spec in B]; rewrite Forall_forall in *; auto. }
  rewrite !orb_true_iff, !T. cbn [In]. split.
  - intros [[[[[H|H]|H]|H]|H]|H]; destruct H as (t & c & E & H); exists t, c; intuition.
  - intros (t & c & [E|[E|[E|[E|[E|[E|[]]]]]]] & H);
      [left; left; left; left; left|left; left; left; left; right|left; left; left; right|left; left; right|left; right|right]; eauto.
Qed.
(** numbers may be written with the digits of any script *)
Theorem C98_numbers s values : s <> [] -> Forall2 decimal_digit s values -> load_int (JStr s) = Ok (Z.of_N (fold_left (fun n d => n * 10 + d)%N values 0%N)).
Proof.
  intros N F. apply C75_integers. exists [], [], [], s, [], values. cbn [app]. rewrite app_nil_r. repeat split; auto.
  clear - N F. induction F as [|c v s vs D F IH]; [congruence|].
  assert (G : digit_of 10 c v) by (left; split; [apply decimal_spec; eauto|symmetry; now apply digit_value_spec]).
  destruct F as [|c' v' s' vs' D' F]; [now apply last_digit|]. apply (next_digit 10 c v []); [exact G|now left|]. now apply IH.
Qed.
Theorem C98_one_digit c z : load_int (JStr [c]) = Ok z <-> exists v, decimal_digit c v /\ z = Z.of_N v.
Proof.
  split.
  - intros H. assert (D : digit c).
    { apply C75_integers in H as (a & sg & p & d & b & ds & E & _ & _ & P & D & _). apply decimal_spec.
      assert (G : d = [c]).
      { assert (Ld : 1 <= List.length d) by (destruct D; cbn; lia). pose proof (f_equal (@List.length char) E) as L. rewrite !app_length in L. cbn [List.length] in L.
        destruct a; [|cbn [List.length] in L; lia]. destruct sg; [|cbn [List.length] in L; lia]. destruct p; [|cbn [List.length] in L; lia].
        destruct b; [|cbn [List.length] in L; lia]. cbn [app] in E. now rewrite app_nil_r in E. }
      subst d. inversion D as [c' v Dc|c' v sep s' ds' Dc Hs D' E1]; subst; [|exfalso; destruct sep; [destruct s'; [inversion D'|discriminate]|discriminate]]. destruct Dc as [[Dc _]|[[=] _]]. exact Dc. }
    destruct D as (v & D). exists v. split; [exact D|]. rewrite (C98_numbers [c] [v]) in H by (auto; discriminate). cbn in H. congruence.
  - intros (v & D & ->). rewrite (C98_numbers [c] [v]); [reflexivity|discriminate|auto].
Qed.
(** a location can be written if its qualifier consists of characters of XML 1.0 *)
Theorem C98_xml_texts l q : valid_location l -> lo_qualifier l = Some q -> Forall (fun c => c <= 1114111)%N q ->
  ((exists x, to_xml_element l = Ok x) <-> Forall xml_character q).
Proof.
  intros V Q U. rewrite <- (proj1 (C47_writable l V)). unfold xml_text, all. rewrite !Forall_forall in *. split.
  - intros H c I. apply xml_char_spec; [auto|]. specialize (H q Q). rewrite Forall_forall in H. auto.
  - intros H q' Q'. replace q' with q by congruence. apply Forall_forall. intros c I. apply xml_char_spec; auto.
Qed.
(** a single ASCII character is taken for a value pool entry unless it is a small letter *)
Lemma ascii_forall (P : N -> bool) : forallb P (map N.of_nat (seq 0 128)) = true -> forall c, (c < 128)%N -> P c = true.
Proof. intros H c L. rewrite forallb_forall in H. apply H. apply in_map_iff. exists (N.to_nat c). split; [apply N2Nat.id|]. apply in_seq. lia. Qed.
Theorem C98_single_characters c : (c < 128)%N -> (is_value_pool_entry (Some [c]) = true <-> ~ small c).
Proof.
  intros L. assert (H : Bool.eqb (is_value_pool_entry (Some [c])) (negb ((97 <=? c) && (c <=? 122))%N) = true).
  { revert c L. apply ascii_forall. vm_compute. reflexivity. }
  apply eqb_prop in H. rewrite H, negb_true_iff, andb_false_iff, !N.leb_gt. unfold small. lia.
Qed.
(** names are compared without regard to the case of letters *)
Theorem C98_case_of_letters c : (capital c -> make_name_comparable [c] = [c + 32]%N) /\ (small c -> make_name_comparable [c] = [c]).
Proof.
  assert (H : (c < 128)%N -> (if (65 <=? c) && (c <=? 90) then str_eqb (make_name_comparable [c]) [c + 32]
                             else if (97 <=? c) && (c <=? 122) then str_eqb (make_name_comparable [c]) [c] else true)%N = true).
  { intros L. revert c L. apply ascii_forall. vm_compute. reflexivity. }
  unfold capital, small. split; intros R; specialize (H ltac:(lia)).
  - rewrite (proj2 (andb_true_iff _ _)) in H by (rewrite !N.leb_le; lia). now apply str_eqb_eq in H.
  - replace ((65 <=? c) && (c <=? 90))%N%bool with false in H by (symmetry; rewrite andb_false_iff, !N.leb_gt; lia).
    rewrite (proj2 (andb_true_iff _ _)) in H by (rewrite !N.leb_le; lia). now apply str_eqb_eq in H.
Qed.
(** the classes and literals that the other specifications (S_*.v) use have these meanings *)
Theorem C98_vocabulary c :
  (is_AZ c = true <-> capital c) /\ (is_az c = true <-> small c) /\ (is_09 c = true <-> ascii_digit c)
  /\ (is_decimal c = true <-> exists v, decimal_digit c v) /\ (forall v, decimal_digit c v -> digit_value c = v)
  /\ (is_space c = true <-> whitespace c).
Proof.
  split; [apply in_range_spec|]. split; [apply in_range_spec|]. split; [apply in_range_spec|]. split; [apply decimal_spec|].
  split; [apply digit_value_spec|apply space_spec].
Qed.
Theorem C98_literals : u "AZ az09 [-]_.$ß" = [65; 90; 32; 97; 122; 48; 57; 32; 91; 45; 93; 95; 46; 36; 223]%N
  /\ [chr_newline; chr_dash; chr_lbracket; chr_rbracket; ch "E"] = [10; 45; 91; 93; 69]%N.
Proof. split; vm_compute; reflexivity. Qed.
(** in ASCII the characters of words are letters, digits and the underscore; only small letters have another upper case form *)
Theorem C98_ascii c : (c < 128)%N ->
  (is_word c = true <-> capital c \/ small c \/ ascii_digit c \/ c = 95%N) /\ (upper_is_self c = true <-> ~ small c).
Proof.
  intros L. assert (H : (Bool.eqb (is_word c) (((65 <=? c) && (c <=? 90)) || ((97 <=? c) && (c <=? 122)) || ((48 <=? c) && (c <=? 57)) || (c =? 95))
                         && Bool.eqb (upper_is_self c) (negb ((97 <=? c) && (c <=? 122))))%N = true).
  { revert c L. apply ascii_forall. vm_compute. reflexivity. }
  apply andb_true_iff in H as [H1 H2]. apply eqb_prop in H1, H2. rewrite H1, H2, negb_true_iff, andb_false_iff, !orb_true_iff, !andb_true_iff, !N.leb_le, !N.leb_gt, N.eqb_eq.
  unfold capital, small, ascii_digit. lia.
Qed.
(** umlauts and accented letters of Western European languages, too, have no case in comparisons of names *)
Theorem C98_case_of_umlauts c : (192 <= c <= 222)%N -> c <> 215%N -> make_name_comparable [c] = [c + 32]%N /\ make_name_comparable [c + 32]%N = [c + 32]%N.
Proof.
  intros R N. assert (H : forallb (fun c => str_eqb (make_name_comparable [c]) [c + 32] && str_eqb (make_name_comparable [c + 32]) [c + 32])%N
                            (filter (fun c => negb (c =? 215)%N) (map N.of_nat (seq 192 31))) = true) by (vm_compute; reflexivity).
  rewrite forallb_forall in H. specialize (H c). rewrite andb_true_iff, !str_eqb_eq in H. apply H. apply filter_In. split.
  - apply in_map_iff. exists (N.to_nat c). split; [apply N2Nat.id|]. apply in_seq. lia.
  - rewrite negb_true_iff. now apply N.eqb_neq.
Qed.
Print Assumptions C98_vocabulary.
Print Assumptions C98_literals.
Print Assumptions C98_ascii.
Print Assumptions C98_case_of_umlauts.
Print Assumptions C98_segment_codes.
Print Assumptions C98_group_keys.
Print Assumptions C98_data_elements.
Print Assumptions C98_boilerplate.
Print Assumptions C98_information.
Print Assumptions C98_numbers.
Print Assumptions C98_one_digit.
Print Assumptions C98_xml_texts.
Print Assumptions C98_single_characters.
Print Assumptions C98_case_of_letters.
(** the number of SG in Arabic-Indic digits is accepted, a segment code with an umlaut is not *)
Example C98_instance :
  let line g s := mkLine None g s None None None None None None None None in
  check_line_segment_group (line (Some (u "SG" ++ [1633; 1634]%N)) None) = Ok tt
  /\ check_line_segment_code (line None (Some [65; 214]%N)) = Raise ValueError
  /\ decimal_digit 1634 2 /\ load_int (JStr [1633; 1634]%N) = Ok 12%Z /\ is_edifact_boilerplate (Some (12288%N :: u "UNT")) = true.
Proof.
  split; [vm_compute; reflexivity|]. split; [vm_compute; reflexivity|]. split; [exists 1632%N; split; [vm_compute; tauto|split; [lia|reflexivity]]|].
  split; vm_compute; reflexivity.
Qed.
