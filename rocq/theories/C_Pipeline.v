(** C84: the layout of the input files of the command line tool; C85: from CSV files to checked maus files *)
From Coq Require Import Ascii String List NArith ZArith Bool Lia Permutation.
From Verif Require Import PyBase PyStr M_Components M_Ahb M_Sgh M_Navigation M_Matching M_Schema M_Xml M_XmlText M_MigXml M_MigFile M_Cli M_JsonText M_CsvReader M_CsvText.
From Verif Require Import L_Base L_Json L_CsvText S_Text S_FlatAhb S_DeepAhb S_Json S_Cli S_JsonText S_XmlText S_MigFile L_MigFile L_XmlText L_Csv L_Str S_Csv S_CsvText S_Pipeline.
From Verif Require Import C_Json C_Csv C_CsvText C_Matching C_Preserved C_Cli C_JsonText C_XmlText C_MigFile.
Import ListNotations.
Local Open Scope list_scope.

Section Pipeline.
  Variable path : Type.
  Variable path_eqb : path -> path -> bool.
  Hypothesis path_eqb_eq : forall p p', path_eqb p p' = true <-> p = p'.
  Variable float_value : pystr -> option Z.
  Variable left_over : pystr -> list N.
  Variable high_name_start high_name_char : char -> bool.
  Variable is_declaration : pystr -> bool.
  Variable with_doctype : pystr -> result element.
  Variable with_namespaces : element -> result element.
  Variable too_large : pystr -> bool.
  Variable decode : list N -> result pystr.
  Variable class_attribute : pystr -> option bool.
  Variable str_of_location : Location -> pystr.
  Variable open_for_writing : path -> option exn.
  Notation parse_xml := (fun bytes => lxml_parse high_name_start high_name_char is_declaration with_doctype with_namespaces too_large decode (Some bytes)).
  Notation parse_json := (parse_json_file float_value).
  Notation write_json := (write_json_file left_over).
  Notation get_maus := (get_maus path (list N) parse_json class_attribute).
  Notation generate := (generate path (list N) parse_json parse_xml str_of_location).
  Notation main := (main path path_eqb (list N) parse_json write_json parse_xml class_attribute str_of_location open_for_writing).
  Notation generated := (generated path (list N) parse_json parse_xml str_of_location).
  Notation json_file := (json_file float_value).
  Notation same_json := (same_json float_value).
  Notation template_file := (template_file high_name_start high_name_char is_declaration too_large decode).
  Notation same_template := (same_template high_name_start high_name_char is_declaration too_large decode).

  Lemma json_file_read j b : json_file j b <-> parse_json b = Ok j.
  Proof. symmetry. apply C73_read_files. Qed.
  Lemma template_read e b : template_file e b -> parse_xml b = Ok e.
  Proof.
    intros (s & B & D & N0 & T). unfold lxml_parse. rewrite B. cbn [bind]. now apply document_read.
  Qed.

  (** *** C84 *)
  (** reading a file and loading what it holds *)
  Lemma same_load {X} (load : json -> result X) r r' : (forall j j', reordered j j' -> load j = load j') ->
    same_file same_json r r' -> (let* b := r in let* j := parse_json b in load j) = (let* b := r' in let* j := parse_json b in load j).
  Proof.
    intros L [q|b b' (j & j' & J & J' & R)]; [reflexivity|]. apply json_file_read in J, J'. cbn [bind]. rewrite J, J'. now apply L.
  Qed.
  Lemma bind_assoc {X Y Z} (r : result X) (f : X -> result Y) (g : Y -> result Z) :
    (let* y := (let* x := r in f x) in g y) = (let* x := r in let* y := f x in g y).
  Proof. now destruct r. Qed.
  Lemma same_generate fs fs' f s t f' s' t' :
    same_file same_json (fs f) (fs' f') -> same_file same_json (fs s) (fs' s') -> same_file same_template (fs t) (fs' t') ->
    generate fs f s t = generate fs' f' s' t'.
  Proof.
    intros F S0 T.
    assert (G : forall fs f s t, generate fs f s t =
              let* flat := (let* b := fs f in let* j := parse_json b in load_flat j) in
              let* sgh := (let* b := fs s in let* j := parse_json b in load_sgh j) in
              let* template := fs t in let* document := parse_xml template in
              fst (to_deep_ahb (get_edifact_stack (new_MigXmlReader document)) str_of_location flat sgh)).
    { intros. unfold M_Cli.generate. destruct (fs0 f0) as [b|]; [|reflexivity]. cbn [bind]. destruct (parse_json b) as [j|]; [|reflexivity]. cbn [bind].
      destruct (load_flat j) as [fl|]; [|reflexivity]. cbn [bind]. destruct (fs0 s0) as [b'|]; [|reflexivity]. cbn [bind]. destruct (parse_json b') as [j'|]; [|reflexivity]. cbn [bind].
      now destruct (load_sgh j'). }
    rewrite !G.
    rewrite (same_load load_flat (fs f) (fs' f')); [|intros j j' R; now apply (C71_loading_ignores_the_order_of_keys class_attribute)|exact F].
    rewrite (same_load load_sgh (fs s) (fs' s')); [|intros j j' R; now apply (C71_loading_ignores_the_order_of_keys class_attribute)|exact S0].
    destruct (let* b := fs' f' in let* j := parse_json b in load_flat j) as [flat|x]; [|reflexivity]. cbn [bind].
    destruct (let* b := fs' s' in let* j := parse_json b in load_sgh j) as [sgh|x]; [|reflexivity]. cbn [bind].
    destruct T as [q|b b' (e & e' & E & E' & SS)]; [reflexivity|]. apply template_read in E, E'. cbn [bind]. rewrite E, E'. cbn [bind]. f_equal.
    apply deep_ext. intros l. unfold get_edifact_stack. rewrite (same_get_element e e' SS). destruct (get_element (new_MigXmlReader e') l); cbn [bind]; [now apply same_stack|reflexivity].
  Qed.
  (** the written file is the same, byte by byte; a run fails in both cases or in none *)
  Theorem C84_output fs fs' f s t o f' s' t' o' r g r' g' :
    same_file same_json (fs f) (fs' f') -> same_file same_json (fs s) (fs' s') -> same_file same_template (fs t) (fs' t') ->
    open_for_writing o = open_for_writing o' ->
    main fs f s t None (Some o) = (r, g) -> main fs' f' s' t' None (Some o') = (r', g') ->
    r' = r /\ (g' o' = g o \/ r <> Ok tt /\ g = fs /\ g' = fs').
  Proof.
    intros F S0 T O. unfold M_Cli.main. cbn [is_none is_some andb orb]. rewrite (same_generate _ _ _ _ _ _ _ _ F S0 T).
    destruct (generate fs' f' s' t') as [maus|x].
    - unfold write_maus. rewrite O. destruct (open_for_writing o') as [e|].
      + intros H H'. injection H as <- <-. injection H' as <- <-. split; [reflexivity|]. right. repeat split; discriminate.
      + destruct (write_json (sort_keys (dump_deep maus))) as [c [u0|e]]; intros H H'; injection H as <- <-; injection H' as <- <-; (split; [try destruct u0; reflexivity|]); left; unfold write;
          now rewrite (proj2 (path_eqb_eq o o) eq_refl), (proj2 (path_eqb_eq o' o') eq_refl).
    - intros H H'. injection H as <- <-. injection H' as <- <-. split; [reflexivity|]. right. repeat split; discriminate.
  Qed.
  (** and so is the result of a check, whatever the layout of the checked file *)
  Theorem C84_check fs fs' f s t p f' s' t' p' :
    same_file same_json (fs f) (fs' f') -> same_file same_json (fs s) (fs' s') -> same_file same_template (fs t) (fs' t') ->
    same_file same_json (fs p) (fs' p') ->
    fst (main fs f s t (Some p) None) = fst (main fs' f' s' t' (Some p') None).
  Proof.
    intros F S0 T P. unfold M_Cli.main. cbn [is_none is_some andb orb]. rewrite (same_generate _ _ _ _ _ _ _ _ F S0 T).
    destruct (generate fs' f' s' t') as [maus|x]; [|reflexivity]. cbn [fst]. unfold check_maus.
    pose proof (same_load (load_deep class_attribute) (fs p) (fs' p') (fun j j' R => proj2 (proj2 (C71_loading_ignores_the_order_of_keys class_attribute j j' R))) P) as L.
    assert (A : forall q, (let* b := q in let* j := parse_json b in let* expected := load_deep class_attribute j in
                           if deep_eqb (deep_reset_index expected) (deep_reset_index maus) then Ok tt else Raise ClickAbort)
                          = (let* expected := (let* b := q in let* j := parse_json b in load_deep class_attribute j) in
                             if deep_eqb (deep_reset_index expected) (deep_reset_index maus) then Ok tt else Raise ClickAbort)).
    { intros [b|x]; [|reflexivity]. cbn [bind]. now destruct (parse_json b). }
    rewrite !A, L. reflexivity.
  Qed.
  (** the provider finds the same AHB *)
  Theorem C84_provider fs fs' p p' : same_file same_json (fs p) (fs' p') -> get_maus fs p = get_maus fs' p'.
  Proof.
    intros P. unfold M_Cli.get_maus.
    rewrite (same_load (load_deep class_attribute) (fs p) (fs' p') (fun j j' R => proj2 (proj2 (C71_loading_ignores_the_order_of_keys class_attribute j j' R))) P). reflexivity.
  Qed.
  (** running the tool again changes nothing *)
  Theorem C84_again fs f s t o g : ~ In o [f; s; t] -> main fs f s t None (Some o) = (Ok tt, g) ->
    exists g', main g f s t None (Some o) = (Ok tt, g') /\ forall p, g' p = g p.
  Proof.
    intros N0 H.
    assert (K : forall q, q <> o -> g q = fs q).
    { intros q Q. eapply C62_only_the_output_file_changes; [exact path_eqb_eq|exact H|]. congruence. }
    assert (I : generate g f s t = generate fs f s t).
    { apply same_generate; rewrite K; try constructor; intros ->; apply N0; simpl; auto. }
    unfold M_Cli.main in H |- *. cbn [is_none is_some andb orb] in H |- *. rewrite I. destruct (generate fs f s t) as [maus|x]; [|discriminate].
    unfold write_maus in H |- *. destruct (open_for_writing o); [discriminate|]. destruct (write_json (sort_keys (dump_deep maus))) as [c [u0|e]]; [|discriminate].
    injection H as <-. eexists. split; [reflexivity|]. intros p. unfold write. now destruct (path_eqb p o).
  Qed.

  (** *** C85 *)
  (** storing a flat AHB and a hierarchy in files does not change the result *)
  Theorem C85_through_files fs f s t bf bs bt jf js flat sgh document maus :
    fs f = Ok bf -> json_file jf bf -> reordered (dump_flat flat) jf -> valid_flat flat ->
    fs s = Ok bs -> json_file js bs -> reordered (dump_sgh sgh) js ->
    fs t = Ok bt -> template_file document bt ->
    generated fs f s t maus
    <-> fst (to_deep_ahb (get_edifact_stack (new_MigXmlReader document)) str_of_location flat sgh) = Ok maus.
  Proof.
    intros F J R V S0 JS RS T D. rewrite <- generate_generated. unfold M_Cli.generate.
    apply json_file_read in J, JS. apply template_read in D. rewrite F. cbn [bind]. rewrite J. cbn [bind].
    pose proof (C71_loading_ignores_the_order_of_keys class_attribute _ _ R) as (_ & LF & _). rewrite <- LF, (C44_round_trip flat V). cbn [bind].
    rewrite S0. cbn [bind]. rewrite JS. cbn [bind].
    pose proof (C71_loading_ignores_the_order_of_keys class_attribute _ _ RS) as (LS & _). rewrite <- LS, C43_round_trip. cbn [bind].
    rewrite T. cbn [bind]. rewrite D. cbn [bind]. reflexivity.
  Qed.

  (** flat AHBs that come from CSV files are valid *)
  Theorem C85_csv_ahbs_are_valid decode_csv delimiter limit given guids file reader flat :
    sane delimiter -> (forall i, guids i < 2 ^ 128)%N ->
    read_csv_file delimiter limit decode_csv given guids file = Ok reader -> reader_to_flat_ahb reader = Ok flat -> valid_flat flat.
  Proof.
    intros Sa G R A. apply (C77_files decode_csv delimiter limit given guids file reader Sa) in R as (table & names & raw & _ & _ & _ & R).
    destruct reader as [p st].
    assert (V : Forall valid_line (rd_rows st)).
    { destruct (C50_lines _ _ _ _ _ _ R) as (P & rows & M & ps & _ & _ & L).
      destruct (proj1 (C50_readable_files given guids names raw) (ex_intro _ _ R)) as (p' & rows' & P' & M' & RR).
      assert (p' = p) as -> by (apply C52_expression_column in P, P'; congruence).
      assert (rows' = rows) as -> by (apply C48_merging in M, M'; congruence).
      apply Forall_forall. intros l I. destruct (forall2_in_r _ _ _ _ L I) as (i & _ & r & Nr & LR & _ & _ & (c & HE & CV) & _ & _ & GU & IX & _).
      rewrite Forall_forall in RR. destruct (RR r (nth_error_In _ _ Nr)) as (_ & _ & _ & _ & K). destruct (K _ LR) as (_ & _ & _ & B).
      split; [|split].
      - intros s E B0. rewrite E in CV. inversion CV as [| |s' NE]; subst. apply NE. exact (B s HE B0).
      - intros z E. rewrite IX in E. injection E as <-. lia.
      - intros n E. rewrite GU in E. injection E as <-. apply G. }
    pose proof (C50_to_flat_ahb _ _ _ A) as (FL & _). unfold reader_to_flat_ahb in A. apply bind_ok in A as (m & MM & A).
    destruct flat as [m' ls]. cbn [fa_lines fa_meta] in *. unfold new_Meta in MM. apply bind_ok in MM as (z & MM & E). injection E as E.
    apply new_Flat_ok in A as (E' & A). injection E' as -> ->. split; [|split; [|exact A]].
    - cbn [fa_meta]. subst m. split; intros s0 X; discriminate.
    - cbn [fa_lines]. apply Forall_forall. intros l I. apply filter_In in I as (I & _). rewrite Forall_forall in V. auto.
  Qed.
  (** if the CSV file begins with a heading, all lines have section names *)
  Theorem C85_section_names decode_csv delimiter limit given guids file reader flat :
    sane delimiter -> csv_with_sections decode_csv delimiter file ->
    read_csv_file delimiter limit decode_csv given guids file = Ok reader -> reader_to_flat_ahb reader = Ok flat ->
    Forall (fun l => al_section l <> None) (fa_lines flat).
  Proof.
    intros Sa (s & t & table & names & raw & rows & D & LF & TT & TO & M & (r0 & t0 & rest & -> & S0) & NB) R A.
    apply (C77_files decode_csv delimiter limit given guids file reader Sa) in R as (table' & names' & raw' & TI & _ & TO' & R).
    assert (table' = table) as -> by (eapply table_in_unique; [exact Sa|exact TI|exists s, t; auto]).
    assert (names' = names /\ raw' = raw) as [-> ->] by (apply table_of_spec in TO, TO'; destruct TO as [-> ->], TO' as [-> ->]; auto).
    destruct reader as [p st]. destruct (C50_lines _ _ _ _ _ _ R) as (P & rows & M' & ps & _ & _ & L).
    assert (rows = r0 :: rest) as -> by (apply C48_merging in M, M'; congruence).
    destruct (C50_to_flat_ahb _ _ _ A) as (-> & _). apply Forall_forall. intros l I. apply filter_In in I as (I & _).
    destruct (forall2_in_r _ _ _ _ L I) as (i & _ & r & Nr & LR & _ & _ & _ & _ & (sec & SA & PS) & _).
    assert (sec <> None).
    { destruct SA as [(j & r' & t' & J & Nj & SR & CB & _)|(NO & _)].
      - inversion CB as [|s1 B|s1 t1]; subst; [|discriminate]. destruct (NB r' t' (nth_error_In _ _ Nj) SR B).
      - destruct i as [|i]; [|destruct (NO 0 r0 (Nat.lt_0_succ i) eq_refl t0 S0)].
        injection Nr as <-. destruct S0 as (H1 & H2 & H3). unfold has in *. destruct LR as [g H4 H5|g H4 H5 H6]; unfold has in H4; rewrite H1 in H4; injection H4 as <-; [contradiction|lia]. }
    intros E. rewrite E in PS. destruct PS as [(_ & K)|[(_ & K)|[(_ & K)|(_ & _ & _ & K)]]]; congruence.
  Qed.
  (** from a CSV file to a checked file *)
  Theorem C85_checked decode_csv delimiter limit given guids file reader flat fs f s t o bf bs bt jf js sgh document fs' :
    sane delimiter -> (forall i, guids i < 2 ^ 128)%N -> csv_with_sections decode_csv delimiter file ->
    read_csv_file delimiter limit decode_csv given guids file = Ok reader -> reader_to_flat_ahb reader = Ok flat ->
    fs f = Ok bf -> json_file jf bf -> reordered (dump_flat flat) jf ->
    fs s = Ok bs -> json_file js bs -> reordered (dump_sgh sgh) js ->
    fs t = Ok bt -> template_file document bt -> ~ In o [f; s; t] ->
    main fs f s t None (Some o) = (Ok tt, fs') ->
    main fs' f s t (Some o) None = (Ok tt, fs')
    /\ exists maus stored, fst (to_deep_ahb (get_edifact_stack (new_MigXmlReader document)) str_of_location flat sgh) = Ok maus
         /\ get_maus fs' o = Ok (Some stored) /\ ahbs_related eq (fun _ i' => i' = None) maus stored.
  Proof.
    intros Sa G CS R A F J RJ S0 JS RS T D N0 H.
    pose proof (C85_csv_ahbs_are_valid _ _ _ _ _ _ _ _ Sa G R A) as V.
    pose proof (C85_section_names _ _ _ _ _ _ _ _ Sa CS R A) as SN.
    destruct (C74_written_files_pass_the_check path path_eqb path_eqb_eq float_value left_over parse_xml class_attribute str_of_location open_for_writing fs f s t o fs' N0 H) as (maus & GE & C & _).
    pose proof (proj1 (C85_through_files fs f s t bf bs bt jf js flat sgh document maus F J RJ V S0 JS RS T D) GE) as DE.
    assert (Q : forall x, segment_of maus x -> seg_section x <> None).
    { intros x X. destruct (to_deep_ahb (get_edifact_stack (new_MigXmlReader document)) str_of_location flat sgh) as [r0 flat'] eqn:E. cbn [fst] in DE. subst r0.
      destruct (C76_segments _ _ _ _ _ _ E x X) as (first & l & I & _ & -> & _). rewrite Forall_forall in SN. auto. }
    split; [exact (C Q)|].
    destruct (C74_written_files_are_found path path_eqb path_eqb_eq float_value left_over parse_xml class_attribute str_of_location open_for_writing fs f s t o fs' maus H GE Q) as (a & GM & AR).
    exists maus, a. auto.
  Qed.
End Pipeline.
Print Assumptions C84_output.
Print Assumptions C84_check.
Print Assumptions C84_provider.
Print Assumptions C84_again.
Print Assumptions C85_through_files.
Print Assumptions C85_csv_ahbs_are_valid.
Print Assumptions C85_section_names.
Print Assumptions C85_checked.

(** *** instances: a CSV file, a hierarchy and a MIG, with two layouts of the files made of them *)
Definition ex_pipe_csv (heading : pystr) : pystr :=
  ex_csv_header ++ heading ++ u "1,,UNH,,,,Muss," ++ ex_crlf ++ u "2,,UNH,""0062"",""Nachrichten-"" Referenznummer,,X," ++ ex_crlf.
Definition ex_pipe_heading : pystr := u "0,Nachrichten-Kopfsegment,,,,,," ++ ex_crlf.
Definition ex_pipe_flat (heading : pystr) : result FlatAhb :=
  let* reader := read_csv_file (ch ",") 131072 decode_utf8 None N.of_nat (C_CsvText.ex_bytes (ex_pipe_csv heading)) in reader_to_flat_ahb reader.
Definition ex_pipe_sgh : Sgh := mkSgh None (u "UNH") None.
(** without line feeds and the spaces behind them *)
Fixpoint ex_compact (indentation : bool) (s : pystr) : pystr :=
  match s with
  | [] => []
  | c :: r => if (c =? 10)%N then ex_compact true r else if (indentation && (c =? 32)%N)%bool then ex_compact true r else c :: ex_compact false r
  end.
Definition ex_pipe_mig : pystr :=
  u "<UTILMD><class ref=""/"" name=""Dokument""><class name=""Nachricht"" ref=""UNH""><field name=""f"" meta.id=""0062""/></class></class></UTILMD>".
Definition ex_pipe_pretty : pystr :=
  u "<?xml version=""1.0""?>" ++ [10%N] ++ u "<!-- MIG --><UTILMD >" ++ [10; 9]%N ++ u "<class name='&#68;okument' ref='/'> <class ref=""UNH"" name=""Nachricht""><!-- x -->text<field meta.id=""0062"" name=""f"" ></field></class></class>" ++ [10%N] ++ u "</UTILMD>".
Definition ex_pipe_e : element :=
  ex_mig_tree None None None [(u "ref", u "/"); (u "name", u "Dokument")] [(u "name", u "Nachricht"); (u "ref", u "UNH")] [(u "name", u "f"); (u "meta.id", u "0062")].
Definition ex_pipe_e' : element :=
  ex_mig_tree (Some [10; 9; 10]%N) (Some (u " ")) (Some (u "text"))
    [(u "name", u "Dokument"); (u "ref", u "/")] [(u "ref", u "UNH"); (u "name", u "Nachricht")] [(u "meta.id", u "0062"); (u "name", u "f")].
Example C84_templates_instance :
  xml_document no_high no_high ex_declaration ex_pipe_e ex_pipe_mig /\ xml_document no_high no_high ex_declaration ex_pipe_e' ex_pipe_pretty
  /\ same_structure ex_pipe_e ex_pipe_e' /\ no_namespaces ex_pipe_e.
Proof.
  assert (K : forall t e, scan_document no_high no_high ex_declaration ex_doctype t = Ok e -> xml_document no_high no_high ex_declaration e t).
  { intros t e E. apply scan_document_sound in E as [E|(_ & E)]; [exact E|discriminate]. }
  split; [apply K; vm_compute; reflexivity|]. split; [apply K; vm_compute; reflexivity|]. split; [|apply namespaces_spec; vm_compute; reflexivity].
  assert (ND2 : forall (x y : pystr * pystr), str_eqb (fst x) (fst y) = false -> NoDup (map fst [x; y])).
  { intros x y E. cbn [map]. constructor; [|repeat constructor; intros []]. intros [I|[]]. rewrite I in E. assert (str_eqb (fst x) (fst x) = true) by now apply str_eqb_eq. congruence. }
  constructor; [constructor|constructor|]. constructor; [|constructor]. constructor; [apply ND2; vm_compute; reflexivity|apply perm_swap|]. constructor; [|constructor].
  constructor; [apply ND2; vm_compute; reflexivity|apply perm_swap|]. constructor; [|constructor]. constructor; [apply ND2; vm_compute; reflexivity|apply perm_swap|constructor].
Qed.
Definition ex_pipe_files (heading : pystr) (layout : pystr -> pystr) (template : pystr) (p : nat) : result (list N) :=
  match p with
  | 0 => let* flat := ex_pipe_flat heading in encode_utf8 (layout (dumps (dump_flat flat)))
  | 1 => encode_utf8 (layout (dumps (dump_sgh ex_pipe_sgh)))
  | 2 => Ok template
  | _ => Raise FileNotFoundError
  end.
Definition ex_pipe_main :=
  main nat Nat.eqb (list N) (parse_json_file ex_float) (write_json_file (fun _ => []))
    (fun bytes => lxml_parse no_high no_high ex_declaration ex_doctype (fun _ => Raise ValueError) (fun _ => false) (fun b => Ok b) (Some bytes))
    (fun _ => None) (fun _ => u "AhbLocation") (fun _ => None).
Definition ex_pipe_one := ex_pipe_files ex_pipe_heading (fun s => s) ex_pipe_mig.
Definition ex_pipe_two := ex_pipe_files ex_pipe_heading (ex_compact false) ex_pipe_pretty.
Example C84_instance :
  same_file (same_json ex_float) (ex_pipe_one 0) (ex_pipe_two 0) /\ same_file (same_json ex_float) (ex_pipe_one 1) (ex_pipe_two 1)
  /\ same_file (same_template no_high no_high ex_declaration (fun _ => false) (fun b => Ok b)) (ex_pipe_one 2) (ex_pipe_two 2)
  /\ ex_pipe_one 0 <> ex_pipe_two 0 /\ ex_pipe_one 2 <> ex_pipe_two 2
  /\ fst (ex_pipe_main ex_pipe_one 0 1 2 None (Some 3)) = Ok tt
  /\ match snd (ex_pipe_main ex_pipe_one 0 1 2 None (Some 3)) 3 with Ok b => Nat.leb 400 (List.length b) = true | Raise _ => False end.
Proof.
  assert (J : forall p, match ex_pipe_one p, ex_pipe_two p with
                        | Ok b, Ok b' => match parse_json_file ex_float b with Ok j => parse_json_file ex_float b' = Ok j | Raise _ => False end
                        | _, _ => False end -> same_file (same_json ex_float) (ex_pipe_one p) (ex_pipe_two p)).
  { intros p. destruct (ex_pipe_one p) as [b|]; [|intros []]. destruct (ex_pipe_two p) as [b'|]; [|intros []]. destruct (parse_json_file ex_float b) as [j|] eqn:E; [|intros []].
    intros E'. apply laid_out_again. apply C73_read_files in E, E'. exists j, j. split; [exact E|]. split; [exact E'|constructor]. }
  split; [apply J; vm_compute; reflexivity|]. split; [apply J; vm_compute; reflexivity|]. split.
  - destruct C84_templates_instance as (D & D' & SS & N0). apply laid_out_again. exists ex_pipe_e, ex_pipe_e'. split; [|split; [|exact SS]].
    + exists ex_pipe_mig. auto.
    + exists ex_pipe_pretty. split; [reflexivity|]. split; [exact D'|]. split; [exact (same_namespaces _ _ SS N0)|reflexivity].
  - split; [vm_compute; discriminate|]. split; [vm_compute; discriminate|]. split; vm_compute; reflexivity.
Qed.
(** the CSV file begins with a heading *)
Example C85_sections_instance : csv_with_sections decode_utf8 (ch ",") (C_CsvText.ex_bytes (ex_pipe_csv ex_pipe_heading)).
Proof.
  assert (Sa : sane (ch ",")) by (intros [H|[H|[H|[]]]]; discriminate).
  set (text := universal_newlines (ex_pipe_csv ex_pipe_heading)).
  set (table := fst (reader_rows (ch ",") 131072 parse_reset (file_lines text))).
  assert (TT : table_text (ch ",") table text).
  { assert (X : snd (reader_rows (ch ",") 131072 parse_reset (file_lines text)) = None) by (vm_compute; reflexivity). subst table.
    destruct (reader_rows (ch ",") 131072 parse_reset (file_lines text)) as [rows x] eqn:RR. cbn [fst snd] in *. subst x.
    apply C77_rows in RR; [tauto|exact Sa|]. intros I. clear -I. vm_compute in I. repeat (destruct I as [I|I]; [discriminate|]). exact I. }
  exists (ex_pipe_csv ex_pipe_heading), text, table, (hd_error table), (dict_rows table).
  assert (M : exists rows, merge_section_only_lines (dict_rows table) = Ok rows
     /\ match rows with
        | r :: rest =>
            match dict_get (u "Segment Gruppe") r with Some (Some t) => (negb (is_segment_group (Some t)) && Nat.leb 3 (List.length t))%bool = true | _ => False end
            /\ forallb (fun r => match dict_get (u "Segment Gruppe") r with Some (Some t) => negb (Nat.leb 3 (List.length t)) || truthy (strip t) | _ => true end)%bool rows = true
        | [] => False
        end) by (eexists; split; [vm_compute; reflexivity|]; split; vm_compute; reflexivity).
  destruct M as (rows & M & K). exists rows. split; [vm_compute; reflexivity|]. split; [now apply C73_line_ends|]. split; [exact TT|]. split; [apply table_of_spec; split; reflexivity|].
  split; [apply C48_merging; exact M|]. clear M TT. destruct rows as [|r rest]; [contradiction|]. destruct K as [K1 K2]. split.
  - destruct (dict_get (u "Segment Gruppe") r) as [[t|]|] eqn:E; [|contradiction..]. exists r, t, rest. split; [reflexivity|]. split; [exact E|].
    apply andb_true_iff in K1 as [K1 K3]. split; [|now apply Nat.leb_le]. intros C. apply negb_true_iff in K1. assert (is_segment_group (Some t) = true) by (apply is_segment_group_ok; eauto). congruence.
  - intros r' t I (E & _ & L) B. rewrite forallb_forall in K2. specialize (K2 r' I). unfold has in E. cbv beta in K2. match type of K2 with match ?d with _ => _ end = true => assert (E' : d = Some (Some t)) by exact E; rewrite E' in K2 end. apply Nat.leb_le in L. rewrite L in K2. cbn [negb orb] in K2.
    rewrite (proj2 (strip_nil t) B) in K2. discriminate.
Qed.
(** the way from the CSV file to a checked file *)
Example C85_instance : exists flat maus,
  ex_pipe_flat ex_pipe_heading = Ok flat
  /\ fst (to_deep_ahb (get_edifact_stack (new_MigXmlReader ex_pipe_e)) (fun _ => u "AhbLocation") flat ex_pipe_sgh) = Ok maus
  /\ (let fs' := snd (ex_pipe_main ex_pipe_one 0 1 2 None (Some 3)) in fst (ex_pipe_main fs' 0 1 2 (Some 3) None) = Ok tt).
Proof. do 2 eexists. split; [vm_compute; reflexivity|]. split; vm_compute; reflexivity. Qed.
(** "what the tool has written passes its own check" is wrong for CSV files that do not begin with a heading *)
Theorem C85_without_heading_refuted : exists csv flat fs,
  (let* reader := read_csv_file (ch ",") 131072 decode_utf8 None N.of_nat csv in reader_to_flat_ahb reader) = Ok flat
  /\ (let* b := fs 0 in parse_json_file ex_float b) = Ok (sort_keys (dump_flat flat))
  /\ fst (ex_pipe_main fs 0 1 2 None (Some 3)) = Ok tt
  /\ fst (ex_pipe_main (snd (ex_pipe_main fs 0 1 2 None (Some 3))) 0 1 2 (Some 3) None) = Raise ValidationError.
Proof.
  exists (C_CsvText.ex_bytes (ex_pipe_csv [])). eexists. exists (ex_pipe_files [] (fun s => s) ex_pipe_mig).
  split; [vm_compute; reflexivity|]. split; [vm_compute; reflexivity|]. split; vm_compute; reflexivity.
Qed.
Print Assumptions C85_without_heading_refuted.
