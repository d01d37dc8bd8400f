(** Generated by tools/gen_tests.py from tests/unit_tests/test_mig_ahb_name_helpers.py: a test of the model, not a proof.
    The model is evaluated on the arguments of the project's own unit tests and compared with the values expected there. *)
From Coq Require Import Ascii String List NArith ZArith Bool.
From Verif Require Import PyBase PyStr M_Xml M_MigXml M_XmlText.
Import ListNotations.
Local Open Scope list_scope.

(** no names beyond ASCII, the declarations of the tests, no document types, no namespaces *)
Definition no_high : char -> bool := fun _ => false.
(** the declarations of the tests are accepted *)
Definition any_declaration : pystr -> bool := fun _ => true.
(** there are no document type declarations in the tests *)
Definition no_doctype : pystr -> result element := fun _ => Raise ExpatError.
(** etree.fromstring *)
Definition fromstring : pystr -> result element := scan_document no_high no_high any_declaration no_doctype.

(** tree.iter() *)
Fixpoint all_elements (e : element) : list element := match e with Element _ _ _ c => e :: flat_map all_elements c end.
(** the attribute, if there is one, is what make_name_comparable makes of it *)
Definition comparable (key : pystr) (e : element) : bool :=
  match attr key e with None => true | Some v => str_eqb v (make_name_comparable v) end.

(** tests/unit_tests/test_mig_ahb_name_helpers.py:29 *)
Example test_make_name_comparable_1 :
  make_name_comparable (u "") = (u "").
Proof. vm_compute. repeat split; reflexivity. Qed.
(** tests/unit_tests/test_mig_ahb_name_helpers.py:29 *)
Example test_make_name_comparable_2 :
  make_name_comparable (u " foo") = (u "foo").
Proof. vm_compute. repeat split; reflexivity. Qed.
(** tests/unit_tests/test_mig_ahb_name_helpers.py:29 *)
Example test_make_name_comparable_3 :
  make_name_comparable (u "foo ") = (u "foo").
Proof. vm_compute. repeat split; reflexivity. Qed.
(** tests/unit_tests/test_mig_ahb_name_helpers.py:29 *)
Example test_make_name_comparable_4 :
  make_name_comparable (u "Foo ") = (u "foo").
Proof. vm_compute. repeat split; reflexivity. Qed.
(** tests/unit_tests/test_mig_ahb_name_helpers.py:29 *)
Example test_make_name_comparable_5 :
  make_name_comparable (u "fOo ") = (u "foo").
Proof. vm_compute. repeat split; reflexivity. Qed.
(** tests/unit_tests/test_mig_ahb_name_helpers.py:29 *)
Example test_make_name_comparable_6 :
  make_name_comparable (u "🐈Miau ") = (u "🐈miau").
Proof. vm_compute. repeat split; reflexivity. Qed.
(** tests/unit_tests/test_mig_ahb_name_helpers.py:29 *)
Example test_make_name_comparable_7 :
  make_name_comparable (u "Foo-Bar ") = (u "foobar").
Proof. vm_compute. repeat split; reflexivity. Qed.
(** tests/unit_tests/test_mig_ahb_name_helpers.py:29 *)
Example test_make_name_comparable_8 :
  make_name_comparable (u "Foo Bar ") = (u "foobar").
Proof. vm_compute. repeat split; reflexivity. Qed.
(** tests/unit_tests/test_mig_ahb_name_helpers.py:29 *)
Example test_make_name_comparable_9 :
  make_name_comparable (u "Foo
Bar ") = (u "foobar").
Proof. vm_compute. repeat split; reflexivity. Qed.
(** tests/unit_tests/test_mig_ahb_name_helpers.py:29 *)
Example test_make_name_comparable_10 :
  make_name_comparable (u "Straße ") = (u "strasse").
Proof. vm_compute. repeat split; reflexivity. Qed.
(** tests/unit_tests/test_mig_ahb_name_helpers.py:50 *)
Example test_are_similar_names_1 :
  are_similar_names None (Some (u "")) = true.
Proof. vm_compute. repeat split; reflexivity. Qed.
(** tests/unit_tests/test_mig_ahb_name_helpers.py:50 *)
Example test_are_similar_names_2 :
  are_similar_names (Some (u "")) (Some (u "")) = true.
Proof. vm_compute. repeat split; reflexivity. Qed.
(** tests/unit_tests/test_mig_ahb_name_helpers.py:50 *)
Example test_are_similar_names_3 :
  are_similar_names (Some (u "Foo")) (Some (u "")) = false.
Proof. vm_compute. repeat split; reflexivity. Qed.
(** tests/unit_tests/test_mig_ahb_name_helpers.py:50 *)
Example test_are_similar_names_4 :
  are_similar_names None (Some (u "Bar")) = false.
Proof. vm_compute. repeat split; reflexivity. Qed.
(** tests/unit_tests/test_mig_ahb_name_helpers.py:50 *)
Example test_are_similar_names_5 :
  are_similar_names (Some (u "X")) (Some (u "X")) = true.
Proof. vm_compute. repeat split; reflexivity. Qed.
(** tests/unit_tests/test_mig_ahb_name_helpers.py:50 *)
Example test_are_similar_names_6 :
  are_similar_names (Some (u "X")) (Some (u "x")) = true.
Proof. vm_compute. repeat split; reflexivity. Qed.
(** tests/unit_tests/test_mig_ahb_name_helpers.py:50 *)
Example test_are_similar_names_7 :
  are_similar_names (Some (u "X")) (Some (u "y")) = false.
Proof. vm_compute. repeat split; reflexivity. Qed.
(** tests/unit_tests/test_mig_ahb_name_helpers.py:50 *)
Example test_are_similar_names_8 :
  are_similar_names (Some (u "Gültigkeit, Beginndatum")) (Some (u "Gültigkeit,Beginndatum")) = true.
Proof. vm_compute. repeat split; reflexivity. Qed.
(** tests/unit_tests/test_mig_ahb_name_helpers.py:50 *)
Example test_are_similar_names_9 :
  are_similar_names (Some (u "Straße und Hausnummer oderPostfach")) (Some (u "Strasse und Hausnummer oder Postfach")) = true.
Proof. vm_compute. repeat split; reflexivity. Qed.
(** tests/unit_tests/test_mig_ahb_name_helpers.py:50 *)
Example test_are_similar_names_10 :
  are_similar_names (Some (u "Referenz Vorgangsnummer (aus Anfragenachricht)")) (Some (u "Referenz Vorgangsnummer (aus Anfragenachricht)")) = true.
Proof. vm_compute. repeat split; reflexivity. Qed.
(** tests/unit_tests/test_mig_ahb_name_helpers.py:54 *)
Example test_make_tree_names_comparable_1 :
  (let* e := fromstring (u "<?xml version=""1.0""?>
        <hello>
        <einfield name=""Foo ""/>
        <einclass ahbName=""Hallo-Welt"">
            <einfield name="" DiGiTaLiSiErUnG"" ahbName=""(ZuKunFt)""/>
        </einclass>
        </hello>
        ") in Ok (forallb (fun f => comparable (u "name") f && comparable (u "ahbName") f)%bool (all_elements (make_tree_names_comparable e)))) = Ok true.
Proof. vm_compute. repeat split; reflexivity. Qed.
