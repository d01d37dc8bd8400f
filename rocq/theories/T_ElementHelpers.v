(** Generated by tools/gen_tests.py from tests/unit_tests/test_etree_element_helpers.py: a test of the model, not a proof.
    The model is evaluated on the arguments of the project's own unit tests and compared with the values expected there. *)
From Coq Require Import Ascii String List NArith ZArith Bool.
From Verif Require Import PyBase PyStr M_Xml M_MigXml M_XmlText.
Import ListNotations.
Local Open Scope list_scope.

(** no names beyond ASCII, the declarations of the tests, no document types, no namespaces *)
Definition no_high : char -> bool := fun _ => false.
(** the declarations of the tests are accepted *)
Definition any_declaration : pystr -> bool := fun _ => true.
(** there are no document type declarations in the tests *)
Definition no_doctype : pystr -> result element := fun _ => Raise ExpatError.
(** etree.fromstring *)
Definition fromstring : pystr -> result element := scan_document no_high no_high any_declaration no_doctype.

(** tests/unit_tests/test_etree_element_helpers.py:41 *)
Example test_get_segment_group_key_or_none_1 :
  (let* e := fromstring (u "<?xml version=""1.0""?><foo ref=""SG14""></foo>") in Ok (get_segment_group_key_or_none e)) = Ok (Some (u "SG14")).
Proof. vm_compute. repeat split; reflexivity. Qed.
(** tests/unit_tests/test_etree_element_helpers.py:41 *)
Example test_get_segment_group_key_or_none_2 :
  (let* e := fromstring (u "<?xml version=""1.0""?><bar></bar>") in Ok (get_segment_group_key_or_none e)) = Ok None.
Proof. vm_compute. repeat split; reflexivity. Qed.
(** tests/unit_tests/test_etree_element_helpers.py:52 *)
Example test_get_ahb_name_or_none_1 :
  (let* e := fromstring (u "<?xml version=""1.0""?><foo ahbName=""X""></foo>") in Ok (get_ahb_name_or_none e)) = Ok (Some (u "X")).
Proof. vm_compute. repeat split; reflexivity. Qed.
(** tests/unit_tests/test_etree_element_helpers.py:52 *)
Example test_get_ahb_name_or_none_2 :
  (let* e := fromstring (u "<?xml version=""1.0""?><bar></bar>") in Ok (get_ahb_name_or_none e)) = Ok None.
Proof. vm_compute. repeat split; reflexivity. Qed.
(** tests/unit_tests/test_etree_element_helpers.py:72 *)
Example test_get_nested_qualifier_1 :
  (let* e := fromstring (u "<?xml version=""1.0""?><foo ref=""hello""></foo>") in get_nested_qualifiers (u "ref") e) = Ok None.
Proof. vm_compute. repeat split; reflexivity. Qed.
(** tests/unit_tests/test_etree_element_helpers.py:72 *)
Example test_get_nested_qualifier_2 :
  (let* e := fromstring (u "<?xml version=""1.0""?><bar ref=""NAD:2:0[1:0=MS]""></bar>") in get_nested_qualifiers (u "ref") e) = Ok (Some [(u "MS")]).
Proof. vm_compute. repeat split; reflexivity. Qed.
(** tests/unit_tests/test_etree_element_helpers.py:72 *)
Example test_get_nested_qualifier_3 :
  (let* e := fromstring (u "<?xml version=""1.0""?><baz ref=""RFF:1:1[RFF:1:0=Z13]""></baz>") in get_nested_qualifiers (u "ref") e) = Ok (Some [(u "Z13")]).
Proof. vm_compute. repeat split; reflexivity. Qed.
(** tests/unit_tests/test_etree_element_helpers.py:72 *)
Example test_get_nested_qualifier_4 :
  (let* e := fromstring (u "<?xml version=""1.0""?><baz ref=""DTM:1:1[1:0=469]""></baz>") in get_nested_qualifiers (u "ref") e) = Ok (Some [(u "469")]).
Proof. vm_compute. repeat split; reflexivity. Qed.
(** tests/unit_tests/test_etree_element_helpers.py:72 *)
Example test_get_nested_qualifier_5 :
  (let* e := fromstring (u "<?xml version=""1.0""?><baz asd=""hello""></baz>") in get_nested_qualifiers (u "key") e) = Ok None.
Proof. vm_compute. repeat split; reflexivity. Qed.
(** tests/unit_tests/test_etree_element_helpers.py:72 *)
Example test_get_nested_qualifier_6 :
  (let* e := fromstring (u "<?xml version=""1.0""?><foo key=""NAD:2:0[1:0=MS]""></foo>") in get_nested_qualifiers (u "key") e) = Ok (Some [(u "MS")]).
Proof. vm_compute. repeat split; reflexivity. Qed.
(** tests/unit_tests/test_etree_element_helpers.py:72 *)
Example test_get_nested_qualifier_7 :
  (let* e := fromstring (u "<?xml version=""1.0""?><foo key=""QTY:1:1[1:0=265|1:0=Z10|1:0=Z08]""></foo>") in get_nested_qualifiers (u "key") e) = Ok (Some [(u "265"); (u "Z10"); (u "Z08")]).
Proof. vm_compute. repeat split; reflexivity. Qed.
(** tests/unit_tests/test_etree_element_helpers.py:72 *)
Example test_get_nested_qualifier_8 :
  (let* e := fromstring (u "<?xml version=""1.0""?><field ref=""FTX:4:(0,4)[1:0=ACB]"" />") in get_nested_qualifiers (u "ref") e) = Ok (Some [(u "ACB")]).
Proof. vm_compute. repeat split; reflexivity. Qed.
(** tests/unit_tests/test_etree_element_helpers.py:72 *)
Example test_get_nested_qualifier_9 :
  (let* e := fromstring (u "<?xml version=""1.0""?><field ref=""CAV:1:0[CCI:1:0=Z02|CCI:1:0=Z04]"" />") in get_nested_qualifiers (u "ref") e) = Ok (Some [(u "Z02"); (u "Z04")]).
Proof. vm_compute. repeat split; reflexivity. Qed.
(** tests/unit_tests/test_etree_element_helpers.py:72 *)
Example test_get_nested_qualifier_10 :
  (let* e := fromstring (u "<?xml version=""1.0""?><class key=""NAD:5:(0,3)[NAD:1:0=Z08]"" ref=""SG12"" />") in get_nested_qualifiers (u "key") e) = Ok (Some [(u "Z08")]).
Proof. vm_compute. repeat split; reflexivity. Qed.
(** tests/unit_tests/test_etree_element_helpers.py:72 *)
Example test_get_nested_qualifier_11 :
  (let* e := fromstring (u "<?xml version=""1.0""?><class key=""NAD:4:(0,4)[NAD:1:0=Z07]"" ref=""SG12"" />") in get_nested_qualifiers (u "key") e) = Ok (Some [(u "Z07")]).
Proof. vm_compute. repeat split; reflexivity. Qed.
