(** Generated by tools/gen_tests.py from tests/unit_tests/test_maus.py: a test of the model, not a proof.
    The model is evaluated on the arguments of the project's own unit tests and compared with the values expected there. *)
From Coq Require Import Ascii String List NArith ZArith Bool.
From Verif Require Import PyBase PyStr M_Components M_Ahb M_Navigation M_Matching.
Import ListNotations.
Local Open Scope list_scope.

(** tests/unit_tests/test_maus.py:88 *)
Example test_data_element_merging_1 :
  merge_lines_with_same_data_element [(mkLine None (Some (u "SG4")) (Some (u "FOO")) (Some (u "0333")) None (Some (u "E01")) (Some (u "Das Eine")) (Some (u "X")) None None None); (mkLine None (Some (u "SG4")) (Some (u "FOO")) (Some (u "0333")) None (Some (u "E02")) (Some (u "Das Andere")) (Some (u "X")) None None None)] (Some []) = Ok (DPool (mkPool (Some (u "$")) (u "0333") None (Some VALUE_POOL) [(mkEntry (u "E01") (u "Das Eine") (u "X")); (mkEntry (u "E02") (u "Das Andere") (u "X"))])).
Proof. vm_compute. repeat split; reflexivity. Qed.
(** tests/unit_tests/test_maus.py:88 *)
Example test_data_element_merging_2 :
  merge_lines_with_same_data_element [(mkLine None (Some (u "SG4")) (Some (u "FOO")) (Some (u "0333")) None None (Some (u "Das Eine")) (Some (u "X")) None None None)] (Some []) = Ok (DFree (mkFreeText (Some (u "$")) (u "0333") None (Some TEXT) (u "X"))).
Proof. vm_compute. repeat split; reflexivity. Qed.
(** tests/unit_tests/test_maus.py:191 *)
Example test_nest_segment_groups_into_each_other_1 :
  merge_lines_with_same_data_element [(mkLine None (Some (u "SG4")) (Some (u "FOO")) (Some (u "0333")) None (Some (u "E01")) (Some (u "Das Eine")) (Some (u "X")) None None None); (mkLine None (Some (u "SG4")) (Some (u "FOO")) (Some (u "0333")) None (Some (u "E02")) (Some (u "Das Andere")) (Some (u "X")) None None None)] (Some []) = Ok (DPool (mkPool (Some (u "$")) (u "0333") None (Some VALUE_POOL) [(mkEntry (u "E01") (u "Das Eine") (u "X")); (mkEntry (u "E02") (u "Das Andere") (u "X"))])).
Proof. vm_compute. repeat split; reflexivity. Qed.
(** tests/unit_tests/test_maus.py:191 *)
Example test_nest_segment_groups_into_each_other_2 :
  merge_lines_with_same_data_element [(mkLine None (Some (u "SG4")) (Some (u "FOO")) (Some (u "0333")) None None (Some (u "Das Eine")) (Some (u "X")) None None None)] (Some []) = Ok (DFree (mkFreeText (Some (u "$")) (u "0333") None (Some TEXT) (u "X"))).
Proof. vm_compute. repeat split; reflexivity. Qed.
(** tests/unit_tests/test_maus.py:121 *)
Example test_data_element_value_error_1 :
  merge_lines_with_same_data_element [(mkLine None (Some (u "SG4")) (Some (u "FOO")) (Some (u "0333")) None (Some (u "E01")) (Some (u "Das Eine")) (Some (u "X")) None None None); (mkLine None (Some (u "SG4")) (Some (u "FOO")) (Some (u "0334")) None (Some (u "E02")) (Some (u "Das Andere")) (Some (u "X")) None None None)] (Some []) = Raise ValueError.
Proof. vm_compute. repeat split; reflexivity. Qed.
(** tests/unit_tests/test_maus.py:121 *)
Example test_data_element_value_error_2 :
  merge_lines_with_same_data_element [] (Some []) = Raise ValueError.
Proof. vm_compute. repeat split; reflexivity. Qed.
