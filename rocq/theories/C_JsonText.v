(** Properties C72 - C74 (and C61 for text files): JSON texts, the files they are in and the command line tool on real files. *)
From Coq Require Import Ascii String List NArith ZArith Bool Permutation Lia.
From Verif Require Import PyBase PyStr PyRe M_Components M_Ahb M_Sgh M_Navigation M_Matching M_Schema M_Xml M_MigXml M_Cli M_JsonText
  L_Base S_FlatAhb S_Csv S_DeepAhb L_DeepAhb C_DeepAhb S_Json L_Json L_Load C_Json S_Cli L_Reorder L_Cli C_Cli S_JsonText L_JsonText L_JsonFile.
Import ListNotations.
Local Open Scope list_scope.

(** *** C72: JSON texts *)
(** a text is read as [j] exactly if it is a text for [j] according to the grammar *)
Theorem C72_accepted_texts float_value s j : loads float_value s = Ok j <-> document_text float_value j s.
Proof. apply loads_spec. Qed.
(** all others raise a ValueError (JSONDecodeError) *)
Theorem C72_rejected_texts float_value s e :
  loads float_value s = Raise e <-> e = ValueError /\ forall j, ~ document_text float_value j s.
Proof.
  split.
  - intros H. split; [exact (loads_raises _ _ _ H)|]. intros j D. apply loads_spec in D. congruence.
  - intros [-> N]. destruct (loads float_value s) as [j|e] eqn:L.
    + apply loads_spec in L. destruct (N j L).
    + now rewrite (loads_raises _ _ _ L).
Qed.
(** no text stands for two values *)
Theorem C72_unambiguous float_value s j j' : document_text float_value j s -> document_text float_value j' s -> j = j'.
Proof. intros D D'. apply loads_spec in D, D'. congruence. Qed.
(** what is written is read back, with the keys in ascending order *)
Theorem C72_written_texts_are_read_back float_value j : unique_keys j -> float_free j ->
  exists j', loads float_value (dumps j) = Ok j' /\ reordered j j' /\ ascending_keys j'.
Proof.
  intros U F. exists (sort_keys j). destruct (C71_sorting j U) as [R A]. split; [|now split].
  apply loads_spec. exists [], (dumps j), []. split; [now rewrite app_nil_r|]. split; [apply nil_whitespace|]. split; [|apply nil_whitespace].
  apply encoded_value; [eapply reordered_free; eassumption|eapply reordered_unique; eassumption].
Qed.
(** the text depends on the value alone, not on the order in which its keys have been set *)
Theorem C72_written_texts_are_canonical j j' : reordered j j' -> dumps j = dumps j'.
Proof. intros R. unfold dumps. now rewrite (sort_canonical j j' R). Qed.
Print Assumptions C72_accepted_texts.
Print Assumptions C72_rejected_texts.
Print Assumptions C72_unambiguous.
Print Assumptions C72_written_texts_are_read_back.
Print Assumptions C72_written_texts_are_canonical.
Definition ex_float (s : pystr) : option Z := if str_eqb s (u "12e-1") then Some 1%Z else Some 0%Z.
Definition q : string := """"%string.
Example C72_instance :
  loads ex_float (u (" [ 1 , -20,0 ,12e-1, {" ++ q ++ "a" ++ q ++ " :" ++ q ++ "ü\n😀" ++ q ++ ", " ++ q ++ "b" ++ q ++ ":true," ++ q ++ "a" ++ q ++ ":null}]")%string)
    = Ok (JList [JInt 1; JInt (-20); JInt 0; JFloat (Some 1%Z); JObj [(u "a", JNull); (u "b", JBool true)]])
  /\ loads ex_float (u (q ++ "ü\n😀" ++ q)%string) = Ok (JStr [252; 10; 128512]%N)
  /\ Forall (fun t => loads ex_float (u t) = Raise ValueError)
       [""; "[1,]"; "{1:2}"; "01"; "1."; "-"; "[1 2]"; "nul"; "[1]]"; q ++ "\x" ++ q; q; "{" ++ q ++ "a" ++ q ++ ":1,}"]%string
  /\ dumps (JObj [(u "b", JInt 1); (u "a", JList [JNull; JStr [34; 7; 252]%N])])
     = u ("{" ++ String "010" ("  " ++ q ++ "a" ++ q ++ ": [" ++ String "010" ("    null," ++ String "010" ("    " ++ q ++ "\" ++ q ++ "\u0007"))))%string
       ++ [252%N] ++ u (q ++ String "010" ("  ]," ++ String "010" ("  " ++ q ++ "b" ++ q ++ ": 1" ++ String "010" "}")))%string.
Proof.
  split; [vm_compute; reflexivity|]. split; [vm_compute; reflexivity|]. split; [|vm_compute; reflexivity].
  repeat (apply Forall_cons; [vm_compute; reflexivity|]). apply Forall_nil.
Qed.

(** *** C73: text files *)
Theorem C73_decoding b s : decode_utf8 b = Ok s <-> utf8_text s b.
Proof. split; [apply (decode_sound _ b (le_n _))|apply decode_complete]. Qed.
Theorem C73_encoding s b : encode_utf8 s = Ok b <-> utf8_text s b.
Proof. apply encode_utf8_spec. Qed.
(** a ValueError exactly if there is a surrogate (or no code point at all) *)
Theorem C73_encoding_errors s e : encode_utf8 s = Raise e <-> e = ValueError /\ ~ Forall scalar_value s.
Proof. apply encode_utf8_raises. Qed.
Theorem C73_line_ends s t : universal_newlines s = t <-> line_feeds s t.
Proof. apply newlines_spec. Qed.
(** line ends do not matter for JSON *)
Theorem C73_line_ends_do_not_matter float_value s : loads float_value (universal_newlines s) = loads float_value s.
Proof. apply loads_lines. Qed.
(** a file is read as [j] exactly if it is the UTF-8 encoding of a text for [j] *)
Theorem C73_read_files float_value b j :
  parse_json_file float_value b = Ok j <-> exists s, utf8_text s b /\ document_text float_value j s.
Proof.
  unfold parse_json_file. split.
  - intros H. apply bind_ok in H as (s & D & H). rewrite loads_lines in H. exists s. split; [now apply C73_decoding|now apply loads_spec].
  - intros (s & D & H). apply C73_decoding in D. rewrite D. cbn [bind]. rewrite loads_lines. now apply loads_spec.
Qed.
Theorem C73_unreadable_files float_value b e : parse_json_file float_value b = Raise e -> e = ValueError.
Proof.
  unfold parse_json_file. destruct (decode_utf8 b) as [s|x] eqn:D; cbn [bind].
  - apply loads_raises.
  - intros [= <-]. exact (decode_raises _ b (le_n _) _ D).
Qed.
(** what is written can be read back *)
Theorem C73_written_files_are_read_back float_value left_over j b : unique_keys j -> float_free j ->
  write_json_file left_over j = (b, Ok tt) -> parse_json_file float_value b = Ok j.
Proof.
  intros U F. unfold write_json_file. destruct (encode_utf8 (iterencode 0 j)) as [x|e] eqn:E; [|discriminate]. intros [= <-].
  apply C73_read_files. exists (iterencode 0 j). split; [now apply C73_encoding|]. exists [], (iterencode 0 j), [].
  split; [now rewrite app_nil_r|]. split; [apply nil_whitespace|]. split; [now apply encoded_value|apply nil_whitespace].
Qed.
(** writing fails exactly if some string contains a surrogate; the exception is a ValueError (UnicodeEncodeError) *)
Theorem C73_writing_fails_for_surrogates_only left_over j : float_free j ->
  (encodable j -> snd (write_json_file left_over j) = Ok tt)
  /\ (~ encodable j -> write_json_file left_over j = (left_over (iterencode 0 j), Raise ValueError)).
Proof.
  intros F. unfold write_json_file. destruct (encode_utf8 (iterencode 0 j)) as [x|e] eqn:E.
  - split; [reflexivity|]. intros N. destruct N. apply (encoded_scalar j F 0).
    unfold encode_utf8 in E. destruct (forallb is_scalar (iterencode 0 j)) eqn:A; [|discriminate].
    rewrite forallb_forall in A. apply Forall_forall. intros c I. apply is_scalar_spec. auto.
  - apply encode_utf8_raises in E as [-> N]. split; [|reflexivity]. intros K. destruct N. now apply (encoded_scalar j F 0).
Qed.
(** the texts in the source: [u] turns the bytes of a literal of this model, which is stored as UTF-8, into its characters *)
Theorem C73_literals s b : utf8_text s b -> utf8_decode b = s.
Proof.
  induction 1 as [|c s b b' H _ IH]; [reflexivity|]. 
  destruct H as [c L|a x A B L|a x y A B C L|a x y z A B C D L]; cbn [app utf8_decode].
  - apply N.ltb_lt in L. rewrite L. now f_equal.
  - rewrite (proj2 (N.ltb_ge _ _)) by lia. rewrite (proj2 (N.ltb_lt _ _)) by lia. f_equal; [lia|exact IH].
  - repeat (rewrite (proj2 (N.ltb_ge _ _)) by lia). rewrite (proj2 (N.ltb_lt _ _)) by lia. f_equal; [lia|exact IH].
  - repeat (rewrite (proj2 (N.ltb_ge _ _)) by lia). f_equal; [lia|exact IH].
Qed.
Print Assumptions C73_literals.
Example C73_literals_instance : utf8_text [75; 252; 8364]%N (bytes_of "Kü€") /\ u "Kü€" = [75; 252; 8364]%N.
Proof.
  split; [|reflexivity]. change (utf8_text [75; 3 * 64 + 60; 2 * 4096 + 2 * 64 + 44]%N ([75] ++ [192 + 3; 128 + 60] ++ [224 + 2; 128 + 2; 128 + 44] ++ [])%N).
  repeat constructor; unfold scalar_value; lia.
Qed.
Print Assumptions C73_decoding.
Print Assumptions C73_encoding.
Print Assumptions C73_encoding_errors.
Print Assumptions C73_line_ends.
Print Assumptions C73_line_ends_do_not_matter.
Print Assumptions C73_read_files.
Print Assumptions C73_unreadable_files.
Print Assumptions C73_written_files_are_read_back.
Print Assumptions C73_writing_fails_for_surrogates_only.
Definition ex_value : json := JObj [(u "a", JList [JInt (-7); JNull]); (u "b", JStr ([252; 8364; 128512; 13; 31]%N ++ u "\u"))].
Example C73_instance :
  unique_keys ex_value /\ float_free ex_value /\ encodable ex_value
  /\ snd (write_json_file (fun _ => []) ex_value) = Ok tt
  /\ encode_utf8 [252; 8364; 128512]%N = Ok [195; 188; 226; 130; 172; 240; 159; 152; 128]%N
  /\ Forall (fun b => decode_utf8 b = Raise ValueError) [[128]; [192; 128]; [237; 160; 128]; [244; 144; 128; 128]; [226; 130]; [255]]%N
  /\ ~ encodable (JStr [55296%N])
  /\ parse_json_file ex_float (91 :: 13 :: 10 :: 49 :: 13 :: 93 :: 10 :: [])%N = Ok (JList [JInt 1]).
Proof.
  split. { constructor; [repeat constructor; cbn; intuition discriminate|repeat constructor]. }
  split. { repeat constructor. }
  split. { intros s H. inversion H as [| |o k v I|o k v x I K]; subst; cbn in I; repeat destruct I as [I|I]; try contradiction; injection I as <- <-; try (repeat constructor; reflexivity).
    - inversion K as [|l j x I L| |]; subst. cbn in I. destruct I as [<-|[<-|[]]]; inversion L.
    - inversion K; subst. repeat (apply Forall_cons; [unfold scalar_value; vm_compute; auto|]); try apply Forall_nil; right; split; discriminate || reflexivity. }
  split; [vm_compute; reflexivity|]. split; [vm_compute; reflexivity|].
  split; [repeat (apply Forall_cons; [vm_compute; reflexivity|]); apply Forall_nil|].
  split; [|vm_compute; reflexivity].
  intros H. specialize (H [55296%N] (in_string _)). inversion H as [|? ? [K|[K _]] _]; vm_compute in K; congruence.
Qed.

(** *** C61 and C74: the provider and the command line tool with these files *)
Section TextFiles.
  Variable path : Type.
  Variable path_eqb : path -> path -> bool.
  Hypothesis path_eqb_eq : forall p p', path_eqb p p' = true <-> p = p'.
  Variable float_value : pystr -> option Z.
  Variable left_over : pystr -> list N.
  Variable parse_xml : list N -> result element.
  Variable class_attribute : pystr -> option bool.
  Variable str_of_location : Location -> pystr.
  Variable open_for_writing : path -> option exn.
  Notation file := (list N).
  Notation parse_json := (parse_json_file float_value).
  Notation write_json := (write_json_file left_over).
  Notation get_maus := (get_maus path file parse_json class_attribute).
  Notation main := (main path path_eqb file parse_json write_json parse_xml class_attribute str_of_location open_for_writing).
  Notation generated := (generated path file parse_json parse_xml str_of_location).
  Notation describes_deep := (describes_deep class_attribute).

  Lemma parse_not_missing c : parse_json c <> Raise FileNotFoundError.
  Proof. intros H. apply C73_unreadable_files in H. discriminate. Qed.
  Theorem C61_text_files_none_iff_missing fs p : get_maus fs p = Ok None <-> fs p = Raise FileNotFoundError.
  Proof. apply C61_none_iff_missing. apply parse_not_missing. Qed.
  Theorem C61_text_files_found fs p a :
    get_maus fs p = Ok (Some a)
    <-> exists b s j, fs p = Ok b /\ utf8_text s b /\ document_text float_value j s /\ describes_deep j a.
  Proof.
    rewrite C61_found. split.
    - intros (b & j & F & P & D). apply C73_read_files in P as (s & U & T). exists b, s, j. auto.
    - intros (b & s & j & F & U & T & D). exists b, j. split; [exact F|]. split; [|exact D]. apply C73_read_files. eauto.
  Qed.
  Theorem C61_text_files_raise fs p :
    (exists e, get_maus fs p = Raise e) <->
     (exists e, fs p = Raise e /\ e <> FileNotFoundError)
     \/ (exists b, fs p = Ok b /\ forall s j a, utf8_text s b -> document_text float_value j s -> ~ describes_deep j a).
  Proof.
    rewrite (C61_raises path file parse_json class_attribute fs p parse_not_missing). split.
    - intros [H|(b & F & [(e & P)|(j & P & N)])]; [now left| |]; right; exists b; (split; [exact F|]).
      + intros s j a U T _. assert (K : parse_json b = Ok j) by (apply C73_read_files; eauto). congruence.
      + intros s j' a U T. assert (K : parse_json b = Ok j') by (apply C73_read_files; eauto). assert (j' = j) as -> by congruence. apply N.
    - intros [H|(b & F & N)]; [now left|]. right. exists b. split; [exact F|]. destruct (parse_json b) as [j|e] eqn:P; [|left; eauto].
      right. exists j. split; [reflexivity|]. intros a D. apply C73_read_files in P as (s & U & T). exact (N s j a U T D).
  Qed.

  Lemma maus_unique maus j : reordered (dump_deep maus) j -> unique_keys j.
  Proof. intros R. eapply reordered_unique; [exact R|apply unique_deep]. Qed.
  Lemma maus_free maus j : reordered (dump_deep maus) j -> float_free j.
  Proof. intros R. eapply reordered_free; [exact R|apply free_deep]. Qed.

  (** a file is written unless some string of the AHB contains a surrogate; it holds the JSON text of the AHB *)
  Theorem C74_output fs f s t o r fs' maus :
    main fs f s t None (Some o) = (r, fs') -> generated fs f s t maus -> open_for_writing o = None -> encodable (dump_deep maus) ->
    r = Ok tt /\ exists b text j, fs' o = Ok b /\ utf8_text text b /\ document_text float_value j text
                                  /\ reordered (dump_deep maus) j /\ ascending_keys j.
  Proof.
    intros H G O E. destruct (C62_written path file path_eqb parse_json write_json parse_xml class_attribute str_of_location open_for_writing fs f s t o r fs' maus) as (j & R & A & F & ->); auto.
    { intros p. now apply path_eqb_eq. }
    apply (reordered_encodable _ _ R) in E. pose proof (proj1 (C73_writing_fails_for_surrogates_only left_over j (maus_free _ _ R)) E) as W.
    split; [exact W|]. destruct (write_json j) as [b r] eqn:WJ. cbn [fst snd] in *. subst r.
    pose proof (C73_written_files_are_read_back float_value left_over j b (maus_unique _ _ R) (maus_free _ _ R) WJ) as P.
    apply C73_read_files in P as (text & U & T). exists b, text, j. auto.
  Qed.
  (** the previous content of the output file is lost if a string contains a surrogate *)
  Theorem C74_surrogates fs f s t o r fs' maus :
    main fs f s t None (Some o) = (r, fs') -> generated fs f s t maus -> open_for_writing o = None -> ~ encodable (dump_deep maus) ->
    r = Raise ValueError /\ fs' o = Ok (left_over (dumps (dump_deep maus))).
  Proof.
    intros H G O E. destruct (C62_written path file path_eqb parse_json write_json parse_xml class_attribute str_of_location open_for_writing fs f s t o r fs' maus) as (j & R & A & F & ->); auto.
    { intros p. now apply path_eqb_eq. }
    assert (E' : ~ encodable j) by (intros K; apply E; now apply (reordered_encodable _ _ R)).
    pose proof (proj2 (C73_writing_fails_for_surrogates_only left_over j (maus_free _ _ R)) E') as W. rewrite W in F |- *. cbn [fst snd] in *.
    split; [reflexivity|]. rewrite F. do 2 f_equal. unfold dumps. rewrite (sort_canonical _ _ R).
    (* the keys of [j] are in order already *)
    f_equal. symmetry. now apply sorted_already.
  Qed.
  (** what has been written is found by the provider *)
  Theorem C74_written_files_are_found fs f s t o fs' maus :
    main fs f s t None (Some o) = (Ok tt, fs') -> generated fs f s t maus -> (forall x, segment_of maus x -> seg_section x <> None) ->
    exists a, get_maus fs' o = Ok (Some a) /\ ahbs_related eq (fun _ i' => i' = None) maus a.
  Proof.
    intros H G Q.
    assert (O : open_for_writing o = None).
    { destruct (open_for_writing o) as [e|] eqn:O; [|reflexivity].
      rewrite (C62_not_opened path file path_eqb parse_json write_json parse_xml class_attribute str_of_location open_for_writing _ _ _ _ _ _ _ G O) in H. discriminate. }
    destruct (C62_written path file path_eqb parse_json write_json parse_xml class_attribute str_of_location open_for_writing fs f s t o (Ok tt) fs' maus) as (j & R & A & F & E); auto.
    { intros p. now apply path_eqb_eq. }
    assert (P : parse_json (fst (write_json j)) = Ok j).
    { apply (C73_written_files_are_read_back float_value left_over); [exact (maus_unique _ _ R)|exact (maus_free _ _ R)|]. destruct (write_json j); cbn in *; congruence. }
    destruct G as (cf & jf & flat & cs & js & sgh & ct & doc & flat' & _ & _ & Df & _ & _ & _ & _ & _ & D).
    assert (V : valid_flat flat) by (destruct Df as (? & _ & _ & _ & _ & V); exact V).
    eapply C61_stored_ahbs_are_found; [exact F|exact P|exact R|exact (C70_generated_ahbs_are_valid _ _ _ _ _ _ D V)|].
    apply (C70_complete_iff_all_segments_have_section_names _ _ _ _ _ _ D V). exact Q.
  Qed.
  (** and passes the check *)
  Theorem C74_written_files_pass_the_check fs f s t o fs' : ~ In o [f; s; t] -> main fs f s t None (Some o) = (Ok tt, fs') ->
    exists maus, generated fs f s t maus
      /\ ((forall x, segment_of maus x -> seg_section x <> None) -> main fs' f s t (Some o) None = (Ok tt, fs'))
      /\ (~ (forall x, segment_of maus x -> seg_section x <> None) -> main fs' f s t (Some o) None = (Raise ValidationError, fs')).
  Proof.
    intros N H. eapply C63_written_files_pass_the_check; [exact path_eqb_eq| |exact N|exact H].
    intros j c U F W. eapply C73_written_files_are_read_back; eassumption.
  Qed.
  (** two AHBs have the same file exactly if they are equal up to line indexes *)
  Theorem C74_files_identify_ahbs a a' b b' : valid_deep a -> complete a -> valid_deep a' -> complete a' ->
    write_json (sort_keys (dump_deep a)) = (b, Ok tt) -> write_json (sort_keys (dump_deep a')) = (b', Ok tt) ->
    (b = b' <-> same_but_index a a').
  Proof.
    intros V C V' C' W W'. split.
    - intros <-. destruct (C71_sorting _ (unique_deep a)) as [R _]. destruct (C71_sorting _ (unique_deep a')) as [R' _].
      apply (C73_written_files_are_read_back float_value) in W; [|exact (maus_unique _ _ R)|exact (maus_free _ _ R)].
      apply (C73_written_files_are_read_back float_value) in W'; [|exact (maus_unique _ _ R')|exact (maus_free _ _ R')].
      assert (E : sort_keys (dump_deep a) = sort_keys (dump_deep a')) by congruence.
      pose proof (C71_sorted_ahbs_are_read_back class_attribute a) as L. pose proof (C71_sorted_ahbs_are_read_back class_attribute a') as L'.
      rewrite E in L. rewrite L' in L. rewrite !(deep_round_trip class_attribute) in L by assumption.
      apply complete_spec in C, C'. rewrite C, C' in L. apply same_iff. congruence.
    - intros E. apply same_dump in E. rewrite E in W. congruence.
  Qed.
End TextFiles.
Print Assumptions C61_text_files_none_iff_missing.
Print Assumptions C61_text_files_found.
Print Assumptions C61_text_files_raise.
Print Assumptions C74_output.
Print Assumptions C74_surrogates.
Print Assumptions C74_written_files_are_found.
Print Assumptions C74_written_files_pass_the_check.
Print Assumptions C74_files_identify_ahbs.

(** files 0 and 1 hold JSON texts, file 2 is the template; the section name in file 0 is "§", 
    or the escape sequence of a lone surrogate *)
Definition ex_bytes (s : pystr) : list N := match encode_utf8 s with Ok b => b | Raise _ => [] end.
Definition ex_section (section : pystr) (s : pystr) : pystr := flat_map (fun c => if (c =? 37)%N then section else [c]) s.
Definition ex_text_files (section : pystr) (p : nat) : result (list N) :=
  match p with
  | 0 => Ok (ex_bytes (ex_section section (dumps (dump_flat (ex_cli_flat (Some "%"%string))))))
  | 1 => Ok (ex_bytes (dumps (dump_sgh ex_cli_sgh)))
  | 2 => Ok (u "<template/>")
  | 3 => Ok (u "something old")
  | _ => Raise FileNotFoundError
  end.
Definition ex_template (b : list N) : result element := if str_eqb b (u "<template/>") then Ok ex_document else Raise ValueError.
Definition ex_text_main :=
  main nat Nat.eqb (list N) (parse_json_file ex_float) (write_json_file (fun _ => [])) ex_template (fun _ => None) (fun _ => u "AhbLocation") (fun _ => None).
Definition ex_text_after (section : pystr) := snd (ex_text_main (ex_text_files section) 0 1 2 None (Some 3)).
Definition ex_text_get := get_maus nat (list N) (parse_json_file ex_float) (fun _ => None).
Definition ex_surrogate : pystr := u "\ud800".
Definition ex_generated (section : pystr) :=
  generated nat (list N) (parse_json_file ex_float) ex_template (fun _ => u "AhbLocation") (ex_text_files section) 0 1 2.
Example C74_instance :
  fst (ex_text_main (ex_text_files [167%N]) 0 1 2 None (Some 3)) = Ok tt
  /\ fst (ex_text_main (ex_text_after [167%N]) 0 1 2 (Some 3) None) = Ok tt
  /\ (exists b, ex_text_after [167%N] 3 = Ok b /\ Nat.leb 1000 (List.length b) = true)
  /\ (exists a, ex_text_get (ex_text_after [167%N]) 3 = Ok (Some a) /\ List.length (get_all_value_pools a) = 1)
  /\ ex_text_get (ex_text_files [167%N]) 3 = Raise ValueError
  /\ ex_text_get (ex_text_files [167%N]) 4 = Ok None
  /\ (exists maus, ex_generated [167%N] maus /\ encodable (dump_deep maus)).
Proof.
  repeat (split; [vm_compute; reflexivity|]).
  split; [eexists; split; vm_compute; reflexivity|]. split; [eexists; split; vm_compute; reflexivity|].
  repeat (split; [vm_compute; reflexivity|]).
  set (g := generate nat (list N) (parse_json_file ex_float) ex_template (fun _ => u "AhbLocation") (ex_text_files [167%N]) 0 1 2).
  destruct g as [maus|e] eqn:E; [|exfalso; revert E; subst g; vm_compute; discriminate].
  exists maus. split; [apply generate_generated; exact E|].
  apply (encoded_scalar _ (free_deep maus) 0).
  assert (H : match g with Ok m => forallb is_scalar (iterencode 0 (dump_deep m)) = true | Raise _ => False end) by (vm_compute; reflexivity).
  rewrite E in H. rewrite forallb_forall in H. apply Forall_forall. intros c I. apply is_scalar_spec. auto.
Qed.
(** "a failing run leaves the output file as it was" is wrong: the escape sequence of a lone surrogate in the flat AHB
    is accepted when it is read but cannot be written; the previous content of the output file is lost *)
Theorem C74_failed_runs_keep_the_output_file_refuted :
  ex_text_files ex_surrogate 3 = Ok (u "something old")
  /\ (exists maus, ex_generated ex_surrogate maus /\ ~ encodable (dump_deep maus))
  /\ fst (ex_text_main (ex_text_files ex_surrogate) 0 1 2 None (Some 3)) = Raise ValueError
  /\ ex_text_after ex_surrogate 3 = Ok []
  /\ ex_text_get (ex_text_after ex_surrogate) 3 = Raise ValueError.
Proof.
  split; [reflexivity|]. split; [|repeat (split; [vm_compute; reflexivity|]); vm_compute; reflexivity].
  set (g := generate nat (list N) (parse_json_file ex_float) ex_template (fun _ => u "AhbLocation") (ex_text_files ex_surrogate) 0 1 2).
  destruct g as [maus|e] eqn:E; [|exfalso; revert E; subst g; vm_compute; discriminate].
  exists maus. split; [apply generate_generated; exact E|]. intros K.
  apply (encoded_scalar _ (free_deep maus) 0) in K.
  assert (H : match g with Ok m => forallb is_scalar (iterencode 0 (dump_deep m)) = false | Raise _ => False end) by (vm_compute; reflexivity).
  rewrite E in H. assert (T : forallb is_scalar (iterencode 0 (dump_deep maus)) = true); [|congruence].
  apply forallb_forall. intros c I. rewrite Forall_forall in K. apply is_scalar_spec. auto.
Qed.
Print Assumptions C74_failed_runs_keep_the_output_file_refuted.
