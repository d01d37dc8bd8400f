(** Generated by tools/gen_tests.py from tests/unit_tests/test_mig_xml_reader_mwe.py: a test of the model, not a proof.
    The model is evaluated on the arguments of the project's own unit tests and compared with the values expected there. *)
From Coq Require Import Ascii String List NArith ZArith Bool.
From Verif Require Import PyBase PyStr M_Components M_Navigation M_Xml M_MigXml M_XmlText M_MigFile.
Import ListNotations.
Local Open Scope list_scope.

(** no names beyond ASCII, the declarations of the tests, no document types, no namespaces *)
Definition no_high : char -> bool := fun _ => false.
(** the declarations of the tests are accepted *)
Definition any_declaration : pystr -> bool := fun _ => true.
(** there are no document type declarations in the tests *)
Definition no_doctype : pystr -> result element := fun _ => Raise ExpatError.
(** etree.fromstring *)
Definition fromstring : pystr -> result element := scan_document no_high no_high any_declaration no_doctype.

(** MigXmlReader(xml_string) *)
Definition reader : pystr -> result MigXmlReader :=
  fun s => MigXmlReader_init no_high no_high any_declaration no_doctype (fun _ => Raise XMLSyntaxError) (fun _ => false) (fun _ => false) (fun _ => Raise OSError) (InitStr s).

(** tests/unit_tests/test_mig_xml_reader_mwe.py:55 *)
Example test_get_edifact_format_1 :
  (let* r := reader (u "<?xml version=""1.0""?><MSCONS></MSCONS>") in Ok (get_format_name r)) = Ok (u "MSCONS").
Proof. vm_compute. repeat split; reflexivity. Qed.
(** tests/unit_tests/test_mig_xml_reader_mwe.py:55 *)
Example test_get_edifact_format_2 :
  (let* r := reader (u "<?xml version=""1.0""?><UTILMD></UTILMD>") in Ok (get_format_name r)) = Ok (u "UTILMD").
Proof. vm_compute. repeat split; reflexivity. Qed.
(** tests/unit_tests/test_mig_xml_reader_mwe.py:116 *)
Example test_element_to_edifact_stack_1 :
  (let* r := reader (u "<?xml version=""1.0""?><MSCONS><foo name=""asd""><bar ahbName=""qwe""/></foo></MSCONS>") in element_to_edifact_stack r [0; 0]%nat false) = Ok (from_json_path (u "$[""asd""][""qwe""]")).
Proof. vm_compute. repeat split; reflexivity. Qed.
(** tests/unit_tests/test_mig_xml_reader_mwe.py:116 *)
Example test_element_to_edifact_stack_2 :
  (let* r := reader (u "<?xml version=""1.0""?><MSCONS><class name=""asd""><bar ahbName=""qwe""/></class></MSCONS>") in element_to_edifact_stack r [0; 0]%nat false) = Ok [(mkLevel (u "asd") true None); (mkLevel (u "qwe") false None)].
Proof. vm_compute. repeat split; reflexivity. Qed.
(** tests/unit_tests/test_mig_xml_reader_mwe.py:116 *)
Example test_element_to_edifact_stack_3 :
  (let* r := reader (u "<?xml version=""1.0""?><MSCONS><class ahbName=""asd""><bar name=""qwe""/><class ahbName=""opi""/></class></MSCONS>") in element_to_edifact_stack r [0; 1]%nat false) = Ok [(mkLevel (u "asd") true None); (mkLevel (u "opi") true None)].
Proof. vm_compute. repeat split; reflexivity. Qed.
(** tests/unit_tests/test_mig_xml_reader_mwe.py:116 *)
Example test_element_to_edifact_stack_4 :
  (let* r := reader (u "<?xml version=""1.0""?><UTILMD><class name=""Dokument"" ref=""/"" key=""UNB:5:0""><class name=""Absender_NAD"" migName=""MP-ID Absender"" max=""1"" ref=""SG2"" key=""NAD:2:0[1:0=MS]"" ahbName=""MP-ID Absender"" meta.type=""group"" meta.objType=""Marktpartner""></class></class></UTILMD>") in element_to_edifact_stack r [0; 0]%nat false) = Ok [(mkLevel (u "Dokument") true None); (mkLevel (u "MP-ID Absender") true None)].
Proof. vm_compute. repeat split; reflexivity. Qed.
(** tests/unit_tests/test_mig_xml_reader_mwe.py:116 *)
Example test_element_to_edifact_stack_5 :
  (let* r := reader (u "<?xml version=""1.0""?><UTILMD><class name=""Dokument"" ref=""/"" key=""UNB:5:0""><class name=""Nachricht"" ref=""UNH"" key=""UNH:1:0"" max=""9999"" meta.type=""group""><field name=""Nachrichten-Referenznummer"" ref=""UNH:1:0"" meta.id=""0062"" /><field name=""Kategorie"" migName=""Beginn der Nachricht"" meta.id=""1001"" ref=""BGM:1:0"" groupBy=""Beginn der Nachricht"" meta.help=""Hier wird die Kategorie der gesamten Nachricht für alle Vorgänge angegeben."" meta.type=""repository"" meta.typeInfo=""Kategorierepository""/></class></class></UTILMD>") in element_to_edifact_stack r [0; 0; 1]%nat false) = Ok [(mkLevel (u "Dokument") true None); (mkLevel (u "Nachricht") true None); (mkLevel (u "Kategorie") false None)].
Proof. vm_compute. repeat split; reflexivity. Qed.
(** tests/unit_tests/test_mig_xml_reader_mwe.py:165 *)
Example test_get_segment_group_element_1 :
  (let* r := reader (u "<?xml version=""1.0""?><MSCONS><class ref=""/""><class ref=""UNH""><class ref=""SG1""><foo/></class></class></class></MSCONS>") in get_element r (mkLocation false [(mkLayer None (u "UNH") None); (mkLayer (Some (u "SG1")) (u "FOO") (Some (u "BAR")))] None None None)) = Ok [0; 0; 0]%nat.
Proof. vm_compute. repeat split; reflexivity. Qed.
(** tests/unit_tests/test_mig_xml_reader_mwe.py:165 *)
Example test_get_segment_group_element_2 :
  (let* r := reader (u "<?xml version=""1.0""?><UTILMD><class ref=""/""><class ref=""UNH""><class ref=""SG4"" key=""IDE:2:0""><class name=""Netznutzungsabrechnungsdaten der Marktlokation"" ref=""SG8"" key=""SEQ:1:0[SEQ:1:0=Z45]""><foo/></class><class name=""Weitere Abrechnungsdaten der Marktlokation"" ref=""SG8"" key=""SEQ:1:0[SEQ:1:0=Z46]""><field name=""ID"" ref=""PIA:2:0[PIA:1:0=Z02]"" meta.id=""7140"" /></class></class></class></class></UTILMD>") in get_element r (mkLocation false [(mkLayer None (u "UNH") None); (mkLayer (Some (u "SG4")) (u "IDE") (Some (u "24"))); (mkLayer (Some (u "SG8")) (u "SEQ") (Some (u "Z46")))] None (Some (u "7140")) None)) = Ok [0; 0; 0; 1; 0]%nat.
Proof. vm_compute. repeat split; reflexivity. Qed.
(** tests/unit_tests/test_mig_xml_reader_mwe.py:165 *)
Example test_get_segment_group_element_3 :
  (let* r := reader (u "<?xml version=""1.0""?><UTILMD><class ref=""/""><class ref=""UNH""><class ref=""SG4"" key=""IDE:2:0""><field name=""Vertragsbeginn"" ref=""DTM:1:1[1:0=92]"" meta.format=""102"" meta.id=""2380"" meta.type=""date-time"" ahbName=""Beginn zum"" /><field name=""Vertragsende"" ref=""DTM:1:1[1:0=93]"" meta.format=""102"" meta.id=""2380"" ahbName=""Ende zum"" meta.type=""date-time"" /></class></class></class></UTILMD>") in get_element r (mkLocation false [(mkLayer None (u "UNH") None); (mkLayer (Some (u "SG4")) (u "IDE") (Some (u "24")))] None (Some (u "2380")) (Some (u "93")))) = Ok [0; 0; 0; 1]%nat.
Proof. vm_compute. repeat split; reflexivity. Qed.
