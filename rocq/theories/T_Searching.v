(** Generated by tools/gen_tests.py from tests/unit_tests/test_searching_in_models.py: a test of the model, not a proof.
    The model is evaluated on the arguments of the project's own unit tests and compared with the values expected there. *)
From Coq Require Import Ascii String List NArith ZArith Bool.
From Verif Require Import PyBase PyStr M_Components M_Ahb.
Import ListNotations.
Local Open Scope list_scope.

(** tests/unit_tests/test_searching_in_models.py:105 *)
Example test_find_segment_in_segment_group_1 :
  List.length (group_find_segments (fun x => false) true (mkGroup (u "SG1") (u "Foo") None None None)) = 0.
Proof. vm_compute. repeat split; reflexivity. Qed.
(** tests/unit_tests/test_searching_in_models.py:105 *)
Example test_find_segment_in_segment_group_2 :
  List.length (group_find_segments (fun x => true) true (mkGroup (u "SG1") (u "Foo") None None None)) = 0.
Proof. vm_compute. repeat split; reflexivity. Qed.
(** tests/unit_tests/test_searching_in_models.py:105 *)
Example test_find_segment_in_segment_group_3 :
  List.length (group_find_segments (fun x => true) true (mkGroup (u "SG1") (u "Foo") None (Some [(mkSegment (u "ASD") (u "Foo") None [] None None)]) None)) = 1.
Proof. vm_compute. repeat split; reflexivity. Qed.
(** tests/unit_tests/test_searching_in_models.py:105 *)
Example test_find_segment_in_segment_group_4 :
  List.length (group_find_segments (fun x => (str_eqb (seg_discriminator x) (u "ASD"))) true (mkGroup (u "SG1") (u "Foo") None (Some [(mkSegment (u "ASD") (u "Foo") None [] None None)]) None)) = 1.
Proof. vm_compute. repeat split; reflexivity. Qed.
(** tests/unit_tests/test_searching_in_models.py:105 *)
Example test_find_segment_in_segment_group_5 :
  List.length (group_find_segments (fun x => (str_eqb (seg_discriminator x) (u "Bar"))) true (mkGroup (u "SG1") (u "Foo") None (Some [(mkSegment (u "Foo") (u "Foo") None [] None None)]) None)) = 0.
Proof. vm_compute. repeat split; reflexivity. Qed.
(** tests/unit_tests/test_searching_in_models.py:105 *)
Example test_find_segment_in_segment_group_6 :
  List.length (group_find_segments (fun x => (str_eqb (seg_discriminator x) (u "Bar"))) true (mkGroup (u "SG1") (u "Foo") None (Some [(mkSegment (u "Foo") (u "Foo") None [] None None); (mkSegment (u "Bar") (u "Bar") None [] None None)]) None)) = 1.
Proof. vm_compute. repeat split; reflexivity. Qed.
(** tests/unit_tests/test_searching_in_models.py:105 *)
Example test_find_segment_in_segment_group_7 :
  List.length (group_find_segments (fun x => (endswith (seg_expression x) (u "expression"))) true (mkGroup (u "SG1") (u "Foo") None (Some [(mkSegment (u "abc") (u "ahb expression") None [] None None); (mkSegment (u "abc") (u "something not ending with expression but foo") None [] None None)]) (Some [(mkGroup (u "SG2") (u "Bar") None (Some [(mkSegment (u "abc") (u "ahb expression") None [] None None); (mkSegment (u "xyz") (u "xyz expression") None [] None None)]) None)]))) = 3.
Proof. vm_compute. repeat split; reflexivity. Qed.
(** tests/unit_tests/test_searching_in_models.py:161 *)
Example test_find_segment_group_from_deep_ahb_1 :
  List.length (find_segment_groups (mkDeep (mkMeta (u "11111") (Some (u "0.3.0")) None None) [(mkGroup (u "SG1") (u "Foo") None None None); (mkGroup (u "SG2") (u "Bar") None None (Some [(mkGroup (u "SG3") (u "Baz") None None None)]))]) (fun x => (str_eqb (g_discriminator x) (u "SG3")))) = 1.
Proof. vm_compute. repeat split; reflexivity. Qed.
(** tests/unit_tests/test_searching_in_models.py:161 *)
Example test_find_segment_group_from_deep_ahb_2 :
  List.length (find_segment_groups (mkDeep (mkMeta (u "11111") (Some (u "0.3.0")) None None) [(mkGroup (u "SG1") (u "Foo") None None None); (mkGroup (u "SG2") (u "Bar") None None (Some [(mkGroup (u "SG3") (u "Baz") None None None)]))]) (fun x => (str_eqb (g_discriminator x) (u "SG1")))) = 1.
Proof. vm_compute. repeat split; reflexivity. Qed.
(** tests/unit_tests/test_searching_in_models.py:161 *)
Example test_find_segment_group_from_deep_ahb_3 :
  List.length (find_segment_groups (mkDeep (mkMeta (u "11111") (Some (u "0.3.0")) None None) [(mkGroup (u "SG1") (u "Foo") None None None); (mkGroup (u "SG2") (u "Bar") None None (Some [(mkGroup (u "SG3") (u "Baz") None None None)]))]) (fun x => (startswith (g_discriminator x) (u "SG")))) = 3.
Proof. vm_compute. repeat split; reflexivity. Qed.
(** tests/unit_tests/test_searching_in_models.py:199 *)
Example test_find_segments_from_deep_ahb_1 :
  List.length (find_segments (mkDeep (mkMeta (u "11111") (Some (u "0.3.0")) None None) [(mkGroup (u "SG1") (u "Foo") None None None); (mkGroup (u "SG2") (u "Bar") None None (Some [(mkGroup (u "SG3") (u "Baz") None (Some [(mkSegment (u "abc") (u "ahb expression") None [] None None); (mkSegment (u "qwertz") (u "qwertz expression") None [] None None)]) None)]))]) (fun x => (str_eqb (g_discriminator x) (u "SG3"))) (fun x => (Nat.ltb 3 (List.length (seg_discriminator x))))) = 1.
Proof. vm_compute. repeat split; reflexivity. Qed.
(** tests/unit_tests/test_searching_in_models.py:254 *)
Example test_get_all_expressions_1 :
  get_all_expressions (mkDeep (mkMeta (u "11042") (Some (u "0.3.0")) None None) [(mkGroup (u "disc A") (u "expr A") None (Some [(mkSegment (u "disc B") (u "expr B") None [(DPool (mkPool (Some (u "baz")) (u "0123") (Some (u "MAUS")) (Some VALUE_POOL) [(mkEntry (u "HELLO") (u "world") (u "X [1]")); (mkEntry (u "MAUS") (u "rocks") (u "X [2]"))])); (DFree (mkFreeText (Some (u "bar")) (u "4567") (Some (u "Hello Mice")) (Some TEXT) (u "Muss [3]")))] None None)]) (Some []))]) = [(u "Muss [3]"); (u "X [1]"); (u "X [2]"); (u "expr A"); (u "expr B")].
Proof. vm_compute. repeat split; reflexivity. Qed.
