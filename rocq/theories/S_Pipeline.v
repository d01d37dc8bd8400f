(** Specification vocabulary: files that hold the same in another layout *)
From Coq Require Import Ascii String List NArith ZArith Bool.
From Verif Require Import PyBase PyStr M_Schema M_Xml M_CsvReader S_Text S_Cli S_JsonText S_XmlText S_MigFile S_Csv S_CsvText.
Import ListNotations.
Local Open Scope list_scope.

Section Files.
  (** as in M_JsonText.v and M_MigFile.v *)
  Variable float_value : pystr -> option Z.
  Variable high_name_start high_name_char : char -> bool.
  Variable is_declaration : pystr -> bool.
  Variable too_large : pystr -> bool.
  Variable decode : list N -> result pystr.

  (** the bytes of a JSON text for [j] *)
  Definition json_file (j : json) (b : list N) : Prop := exists s, utf8_text s b /\ document_text float_value j s.
  (** two JSON files for the same value: whitespace, line ends, escape sequences and the order of keys may differ *)
  Definition same_json (b b' : list N) : Prop := exists j j', json_file j b /\ json_file j' b' /\ reordered j j'.
  (** the bytes of an XML document without namespaces that libxml2 can cope with *)
  Definition template_file (e : element) (b : list N) : Prop :=
    exists s, decode b = Ok s /\ xml_document high_name_start high_name_char is_declaration e s /\ no_namespaces e /\ too_large s = false.
  (** two XML files with the same tags and attributes: texts, comments, the order of attributes, encodings may differ *)
  Definition same_template (b b' : list N) : Prop := exists e e', template_file e b /\ template_file e' b' /\ same_structure e e'.
End Files.

(** what reading the two files yields is the same: there is the same content (or none for the same reason), or the
    contents are related *)
Inductive same_file (same : list N -> list N -> Prop) : result (list N) -> result (list N) -> Prop :=
| identical r : same_file same r r
| laid_out_again b b' : same b b' -> same_file same (Ok b) (Ok b').

(** rows of a CSV file that begin with a section heading; no heading is blank *)
Definition named_sections (rows : list row) : Prop :=
  (exists r t rest, rows = r :: rest /\ section_row r t) /\ forall r t, In r rows -> section_row r t -> ~ blank t.
(** the rows of a CSV file (with merged headings) begin with a section heading *)
Definition csv_with_sections (decode : list N -> result pystr) (delimiter : char) (file : list N) : Prop :=
  exists s t table names raw rows, decode file = Ok s /\ line_feeds s t /\ table_text delimiter table t
    /\ table_of table names raw /\ merged raw rows /\ named_sections rows.
