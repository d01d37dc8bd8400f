(** Generated by tools/gen_tests.py from tests/unit_tests/test_edifact_enums.py: a test of the model, not a proof.
    The model is evaluated on the arguments of the project's own unit tests and compared with the values expected there. *)
From Coq Require Import Ascii String List NArith ZArith Bool.
From Verif Require Import PyBase PyStr M_Misc.
Import ListNotations.
Local Open Scope list_scope.

(** tests/unit_tests/test_edifact_enums.py:52 *)
Example test_is_boilerplate_segment_1 :
  is_edifact_boilerplate None = true.
Proof. vm_compute. repeat split; reflexivity. Qed.
(** tests/unit_tests/test_edifact_enums.py:52 *)
Example test_is_boilerplate_segment_2 :
  is_edifact_boilerplate (Some (u "UNH")) = false.
Proof. vm_compute. repeat split; reflexivity. Qed.
(** tests/unit_tests/test_edifact_enums.py:52 *)
Example test_is_boilerplate_segment_3 :
  is_edifact_boilerplate (Some (u "UNT")) = true.
Proof. vm_compute. repeat split; reflexivity. Qed.
(** tests/unit_tests/test_edifact_enums.py:52 *)
Example test_is_boilerplate_segment_4 :
  is_edifact_boilerplate (Some (u "UNZ")) = true.
Proof. vm_compute. repeat split; reflexivity. Qed.
(** tests/unit_tests/test_edifact_enums.py:52 *)
Example test_is_boilerplate_segment_5 :
  is_edifact_boilerplate (Some (u "DTM")) = false.
Proof. vm_compute. repeat split; reflexivity. Qed.
