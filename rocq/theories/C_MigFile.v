(** C83: MIG XML documents *)
From Coq Require Import Ascii String List NArith ZArith Bool Lia Permutation.
From Verif Require Import PyBase PyStr M_Components M_Ahb M_Sgh M_Navigation M_Matching M_Xml M_XmlText M_MigXml M_MigFile.
From Verif Require Import L_Base L_Str S_Text S_XmlText L_XmlText C_XmlText S_MigFile L_MigFile.
Import ListNotations.
Local Open Scope list_scope.

Section C83.
  Variable high_name_start high_name_char : char -> bool.
  Variable is_declaration : pystr -> bool.
  Variable with_doctype : pystr -> result element.
  Variable with_namespaces : element -> result element.
  Variable too_large declares_encoding : pystr -> bool.
  Variable decode : list N -> result pystr.
  Variable formats : list pystr.
  Notation xml_document := (xml_document high_name_start high_name_char is_declaration).
  Notation has_doctype := (has_doctype high_name_start high_name_char is_declaration).
  Notation reader := (MigXmlReader_init high_name_start high_name_char is_declaration with_doctype with_namespaces too_large declares_encoding decode).
  Notation check_file := (check_file_can_be_parsed_as_mig_xml high_name_start high_name_char is_declaration with_doctype with_namespaces too_large declares_encoding decode formats).

  Lemma document_read e s : xml_document e s -> no_namespaces e -> too_large s = false ->
    lxml_document high_name_start high_name_char is_declaration with_doctype with_namespaces too_large s = Ok e.
  Proof.
    intros D N0 T. unfold lxml_document. rewrite T, (scan_document_complete _ _ _ with_doctype s e D). apply namespaces_spec in N0. now rewrite N0.
  Qed.
  (** a reader of a text is a reader of the element the text is a document of *)
  Theorem C83_from_text s e : xml_document e s -> no_namespaces e -> too_large s = false -> declares_encoding s = false ->
    reader (InitStr s) = Ok (new_MigXmlReader e).
  Proof. intros D N0 T E. unfold MigXmlReader_init, lxml_fromstring. rewrite E, (document_read e s D N0 T). reflexivity. Qed.
  (** ... and so is a reader of a file *)
  Theorem C83_from_file bytes s e : decode bytes = Ok s -> xml_document e s -> no_namespaces e -> too_large s = false ->
    reader (InitPath (Some bytes)) = Ok (new_MigXmlReader e).
  Proof. intros B D N0 T. unfold MigXmlReader_init, lxml_parse. rewrite B. cbn [bind]. now rewrite (document_read e s D N0 T). Qed.

  (** indentation, comments, texts and the order of attributes do not matter *)
  Theorem C83_layout s s' e e' r r' :
    xml_document e s -> xml_document e' s' -> same_structure e e' -> no_namespaces e ->
    reader (InitStr s) = Ok r -> reader (InitStr s') = Ok r' ->
    get_format_name r = get_format_name r'
    /\ (forall l, get_element r l = get_element r' l)
    /\ (forall l, get_edifact_stack r l = get_edifact_stack r' l)
    /\ (forall p sanitized, element_to_edifact_stack r p sanitized = element_to_edifact_stack r' p sanitized)
    /\ (forall str flat h, to_deep_ahb (get_edifact_stack r) str flat h = to_deep_ahb (get_edifact_stack r') str flat h).
  Proof.
    intros D D' S0 N0 R R'.
    assert (K : forall x t q, xml_document x t -> no_namespaces x -> reader (InitStr t) = Ok q -> q = new_MigXmlReader x).
    { intros x t q Dx Nx Q. unfold MigXmlReader_init, lxml_fromstring in Q. destruct (declares_encoding t); [discriminate|]. destruct (too_large t) eqn:T; [unfold lxml_document in Q; rewrite T in Q; discriminate|].
      rewrite (document_read x t Dx Nx T) in Q. now injection Q as <-. }
    apply (K e s) in R; [|assumption..]. apply (K e' s') in R'; [|assumption|exact (same_namespaces _ _ S0 N0)]. subst r r'.
    assert (G : forall l, get_edifact_stack (new_MigXmlReader e) l = get_edifact_stack (new_MigXmlReader e') l).
    { intros l. unfold get_edifact_stack. rewrite (same_get_element e e' S0). destruct (get_element (new_MigXmlReader e') l); cbn [bind]; [now apply same_stack|reflexivity]. }
    split; [exact (same_tag _ _ S0)|]. split; [intros l; exact (same_get_element e e' S0 l)|]. split; [exact G|]. split; [intros p b; now apply same_stack|].
    intros str flat h. now apply deep_ext.
  Qed.

  (** a text or a file, missing files, other arguments *)
  Theorem C83_arguments bytes s : decode bytes = Ok s ->
    (declares_encoding s = false -> reader (InitPath (Some bytes)) = reader (InitStr s))
    /\ (declares_encoding s = true -> reader (InitStr s) = Raise ValueError)
    /\ reader (InitPath None) = Raise OSError /\ reader InitOther = Raise ValueError.
  Proof.
    intros B. unfold MigXmlReader_init, lxml_parse, lxml_fromstring. rewrite B. cbn [bind]. split; [intros ->; reflexivity|]. split; [intros ->; reflexivity|]. split; reflexivity.
  Qed.

  (** the check of a file: the documents whose root is named like a format pass *)
  Theorem C83_check bytes s : decode bytes = Ok s -> ~ has_doctype s -> too_large s = false ->
    (forall e, xml_document e s -> no_namespaces e) ->
    (check_file (Some bytes) = Ok tt <-> exists e, xml_document e s /\ In (el_tag e) formats)
    /\ (check_file (Some bytes) = Raise ValueError <-> exists e, xml_document e s /\ ~ In (el_tag e) formats)
    /\ (check_file (Some bytes) = Raise XMLSyntaxError <-> forall e, ~ xml_document e s).
  Proof.
    intros B ND T NN.
    assert (DOC : (exists e, xml_document e s) \/ scan_document high_name_start high_name_char is_declaration with_doctype s = Raise ExpatError).
    { destruct (scan_document high_name_start high_name_char is_declaration with_doctype s) as [e|x] eqn:E.
      - apply scan_document_sound in E as [E|(E & _)]; [left; now exists e|contradiction].
      - right. apply scan_document_raise in E; [now subst|exact ND]. }
    destruct DOC as [(e & D)|E].
    - unfold check_file_can_be_parsed_as_mig_xml. rewrite (C83_from_file bytes s e B D (NN e D) T). cbn [bind]. unfold get_format_name. cbn [new_MigXmlReader original_root].
      assert (U : forall e', xml_document e' s -> e' = e) by (intros e' D'; exact (C81_one_reading _ _ _ with_doctype s e' e D' D)). rewrite check_ok, !check_raise, str_in_In. split; [|split].
      + split; [intros I; now exists e|]. intros (e' & D' & I). now rewrite (U e' D') in I.
      + split; [intros (I & _); exists e; split; [exact D|]; intros J; apply str_in_In in J; congruence|]. intros (e' & D' & I). rewrite (U e' D') in I. split; [|reflexivity].
        destruct (str_in (el_tag e) formats) eqn:J; [apply str_in_In in J; contradiction|reflexivity].
      + split; [intros (_ & I); discriminate|]. intros H. destruct (H e D).
    - assert (C : check_file (Some bytes) = Raise XMLSyntaxError).
      { unfold check_file_can_be_parsed_as_mig_xml, MigXmlReader_init, lxml_parse. rewrite B. cbn [bind]. unfold lxml_document. rewrite T, E. reflexivity. }
      assert (NO : forall e, ~ xml_document e s) by (intros e D; rewrite (scan_document_complete _ _ _ with_doctype s e D) in E; discriminate).
      rewrite C. split; [|split].
      + split; [discriminate|]. intros (e & D & _). destruct (NO e D).
      + split; [discriminate|]. intros (e & D & _). destruct (NO e D).
      + split; [intros _; exact NO|reflexivity].
  Qed.
End C83.
Print Assumptions C83_from_text.
Print Assumptions C83_from_file.
Print Assumptions C83_layout.
Print Assumptions C83_arguments.
Print Assumptions C83_check.

(** *** instances *)
Definition ex_mig_text : pystr :=
  u "<UTILMD><class ref=""/"" name=""a""><class name=""b"" ref=""UNH""><field name=""f"" meta.id=""0062""/></class></class></UTILMD>".
Definition ex_mig_pretty : pystr :=
  u "<?xml version=""1.0""?>" ++ [10%N] ++ u "<!-- MIG --><UTILMD >" ++ [10; 9]%N ++ u "<class name='&#97;' ref='/'> <class ref=""UNH"" name=""b""><!-- x -->text<field meta.id=""0062"" name=""f"" ></field></class></class>" ++ [10%N] ++ u "</UTILMD>".
Definition ex_mig_tree (t1 t2 t3 : option pystr) (l1 l2 l3 : list (pystr * pystr)) : element :=
  Element (u "UTILMD") [] t1 [Element (u "class") l1 t2 [Element (u "class") l2 t3 [Element (u "field") l3 None []]]].
Definition ex_mig_e : element :=
  ex_mig_tree None None None [(u "ref", u "/"); (u "name", u "a")] [(u "name", u "b"); (u "ref", u "UNH")] [(u "name", u "f"); (u "meta.id", u "0062")].
Definition ex_mig_e' : element :=
  ex_mig_tree (Some [10; 9; 10]%N) (Some (u " ")) (Some (u "text"))
    [(u "name", u "a"); (u "ref", u "/")] [(u "ref", u "UNH"); (u "name", u "b")] [(u "meta.id", u "0062"); (u "name", u "f")].
Example C83_instance :
  xml_document no_high no_high ex_declaration ex_mig_e ex_mig_text /\ xml_document no_high no_high ex_declaration ex_mig_e' ex_mig_pretty
  /\ same_structure ex_mig_e ex_mig_e' /\ no_namespaces ex_mig_e.
Proof.
  assert (K : forall t e, scan_document no_high no_high ex_declaration ex_doctype t = Ok e -> xml_document no_high no_high ex_declaration e t).
  { intros t e E. apply scan_document_sound in E as [E|(_ & E)]; [exact E|discriminate]. }
  split; [apply K; vm_compute; reflexivity|]. split; [apply K; vm_compute; reflexivity|]. split; [|apply namespaces_spec; vm_compute; reflexivity].
  assert (ND2 : forall (x y : pystr * pystr), str_eqb (fst x) (fst y) = false -> NoDup (map fst [x; y])).
  { intros x y E. cbn [map]. constructor; [|repeat constructor; intros []]. intros [I|[]]. rewrite I in E. assert (str_eqb (fst x) (fst x) = true) by now apply str_eqb_eq. congruence. }
  constructor; [constructor|constructor|]. constructor; [|constructor]. constructor; [apply ND2; vm_compute; reflexivity|apply perm_swap|]. constructor; [|constructor].
  constructor; [apply ND2; vm_compute; reflexivity|apply perm_swap|]. constructor; [|constructor]. constructor; [apply ND2; vm_compute; reflexivity|apply perm_swap|constructor].
Qed.
(** the element of the pretty text is found *)
Example C83_stack_instance :
  match MigXmlReader_init no_high no_high ex_declaration ex_doctype (fun _ => Raise ValueError) (fun _ => false) (fun _ => false) (fun _ => Raise ValueError) (InitStr ex_mig_pretty) with
  | Ok r => get_edifact_stack r (mkLocation false [mkLayer None (u "UNH") None] (Some (u "UNH")) (Some (u "0062")) None)
            = Ok [mkLevel (u "a") true None; mkLevel (u "b") true None; mkLevel (u "f") false None]
  | Raise _ => False
  end.
Proof. vm_compute. reflexivity. Qed.
Example C83_check_instance :
  let check := check_file_can_be_parsed_as_mig_xml no_high no_high ex_declaration ex_doctype (fun _ => Raise ValueError) (fun _ => false) (fun _ => false) (fun b => Ok b) [u "UTILMD"; u "MSCONS"] in
  check (Some ex_mig_pretty) = Ok tt /\ check (Some (u "<utilmd/>")) = Raise ValueError /\ check (Some (u "<UTILMD>")) = Raise XMLSyntaxError.
Proof. vm_compute. auto. Qed.
