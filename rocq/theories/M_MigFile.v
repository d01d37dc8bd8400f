(** Model of the MIG XML documents: mig_xml_reader.py:30-37 and 53-70 (the texts and files a reader is made of).

    lxml accepts the XML documents that expat accepts (M_XmlText.v), but it keeps namespaces apart.
    Simplification: documents with a document type declaration and documents that use namespaces (a colon in a name or
    an attribute xmlns) are left to arbitrary functions, and so are the limits of libxml2 (e.g. a depth of 256);
    comments and processing instructions, which lxml keeps as nodes, are dropped: no expression of the reader selects
    them. *)
From Coq Require Import Ascii String List NArith Bool.
From Verif Require Import PyBase PyStr M_Navigation M_Xml M_XmlText M_MigXml.
Import ListNotations.
Local Open Scope list_scope.

(** mig_xml_reader.py:53-62 a name with a prefix, or a declaration of a namespace *)
Definition is_namespace_name (n : pystr) : bool := (contains n (u ":") || str_eqb n (u "xmlns"))%bool.
(** mig_xml_reader.py:53-62 *)
Fixpoint uses_namespaces (e : element) : bool :=
  match e with
  | Element n l _ cs => (is_namespace_name n || existsb (fun kv => is_namespace_name (fst kv)) l || existsb uses_namespaces cs)%bool
  end.

Section MigFile.
  (** as in M_XmlText.v *)
  Variable high_name_start high_name_char : char -> bool.
  Variable is_declaration : pystr -> bool.
  Variable with_doctype : pystr -> result element.
  (** what lxml makes of a document that uses namespaces *)
  Variable with_namespaces : element -> result element.
  (** libxml2 gives up *)
  Variable too_large : pystr -> bool.
  (** the XML declaration of a text names an encoding *)
  Variable declares_encoding : pystr -> bool.
  (** the text of a file, by its byte order mark or the encoding its declaration names *)
  Variable decode : list N -> result pystr.
  (** the values of efoli.EdifactFormat *)
  Variable formats : list pystr.

  (** mig_xml_reader.py:53-62 *)
  Definition lxml_document (s : pystr) : result element :=
    if too_large s then Raise XMLSyntaxError
    else
      match scan_document high_name_start high_name_char is_declaration with_doctype s with
      | Ok e => if uses_namespaces e then with_namespaces e else Ok e
      | Raise ExpatError => Raise XMLSyntaxError
      | Raise x => Raise x
      end.
  (** mig_xml_reader.py:55-57 etree.fromstring of a str: "Unicode strings with encoding declaration are not supported" *)
  Definition lxml_fromstring (s : pystr) : result element :=
    if declares_encoding s then Raise ValueError else lxml_document s.
  (** mig_xml_reader.py:58-60 etree.parse(path).getroot() of the bytes at the path; None: there is no such file *)
  Definition lxml_parse (file : option (list N)) : result element :=
    match file with
    | None => Raise OSError
    | Some bytes => let* s := decode bytes in lxml_document s
    end.

  (** mig_xml_reader.py:53-62 the argument of MigXmlReader: a str, a path (with the content of the file) or anything else *)
  Inductive init_param : Type :=
  | InitStr (s : pystr)
  | InitPath (file : option (list N))
  | InitOther.
  (** mig_xml_reader.py:53-70 [MigXmlReader.__init__]; the document is parsed twice (simplification: the file does not
      change in between), the names of the second tree are made comparable *)
  Definition MigXmlReader_init (p : init_param) : result MigXmlReader :=
    let* document :=
      match p with
      | InitStr s => lxml_fromstring s
      | InitPath f => lxml_parse f
      | InitOther => Raise ValueError
      end in
    Ok (new_MigXmlReader document).
  (** mig_xml_reader.py:30-37 [check_file_can_be_parsed_as_mig_xml] *)
  Definition check_file_can_be_parsed_as_mig_xml (file : option (list N)) : result unit :=
    let* reader := MigXmlReader_init (InitPath file) in
    check (str_in (get_format_name reader) formats) ValueError.
End MigFile.
