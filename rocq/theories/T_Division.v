(** Generated by tools/gen_tests.py from tests/unit_tests/test_division_helper.py: a test of the model, not a proof.
    The model is evaluated on the arguments of the project's own unit tests and compared with the values expected there. *)
From Coq Require Import Ascii String List NArith ZArith Bool.
From Verif Require Import PyBase PyStr M_Misc.
Import ListNotations.
Local Open Scope list_scope.

(** tests/unit_tests/test_division_helper.py:23 *)
Example test_is_strom_field_1 :
  is_electricity_name (u "Foo") = None.
Proof. vm_compute. repeat split; reflexivity. Qed.
(** tests/unit_tests/test_division_helper.py:23 *)
Example test_is_strom_field_2 :
  is_electricity_name (u "Gas") = (Some false).
Proof. vm_compute. repeat split; reflexivity. Qed.
(** tests/unit_tests/test_division_helper.py:23 *)
Example test_is_strom_field_3 :
  is_electricity_name (u "Strom") = (Some true).
Proof. vm_compute. repeat split; reflexivity. Qed.
(** tests/unit_tests/test_division_helper.py:23 *)
Example test_is_strom_field_4 :
  is_electricity_name (u "Turnusableseintervall des MSB (Strom)") = (Some true).
Proof. vm_compute. repeat split; reflexivity. Qed.
(** tests/unit_tests/test_division_helper.py:23 *)
Example test_is_strom_field_5 :
  is_electricity_name (u "Geplante Turnusablesung des NB (Gas)") = (Some false).
Proof. vm_compute. repeat split; reflexivity. Qed.
(** tests/unit_tests/test_division_helper.py:37 *)
Example test_is_gas_field_1 :
  is_gas_name (u "Foo") = None.
Proof. vm_compute. repeat split; reflexivity. Qed.
(** tests/unit_tests/test_division_helper.py:37 *)
Example test_is_gas_field_2 :
  is_gas_name (u "Gas") = (Some true).
Proof. vm_compute. repeat split; reflexivity. Qed.
(** tests/unit_tests/test_division_helper.py:37 *)
Example test_is_gas_field_3 :
  is_gas_name (u "Strom") = (Some false).
Proof. vm_compute. repeat split; reflexivity. Qed.
(** tests/unit_tests/test_division_helper.py:37 *)
Example test_is_gas_field_4 :
  is_gas_name (u "Turnusableseintervall des MSB (Strom)") = (Some false).
Proof. vm_compute. repeat split; reflexivity. Qed.
(** tests/unit_tests/test_division_helper.py:37 *)
Example test_is_gas_field_5 :
  is_gas_name (u "Geplante Turnusablesung des NB (Gas)") = (Some true).
Proof. vm_compute. repeat split; reflexivity. Qed.
(** tests/unit_tests/test_division_helper.py:53 *)
Example test_get_division_1 :
  get_division None = None.
Proof. vm_compute. repeat split; reflexivity. Qed.
(** tests/unit_tests/test_division_helper.py:53 *)
Example test_get_division_2 :
  get_division (Some (u "")) = None.
Proof. vm_compute. repeat split; reflexivity. Qed.
(** tests/unit_tests/test_division_helper.py:53 *)
Example test_get_division_3 :
  get_division (Some (u "Foo")) = None.
Proof. vm_compute. repeat split; reflexivity. Qed.
(** tests/unit_tests/test_division_helper.py:53 *)
Example test_get_division_4 :
  get_division (Some (u "Gas")) = Some GAS.
Proof. vm_compute. repeat split; reflexivity. Qed.
(** tests/unit_tests/test_division_helper.py:53 *)
Example test_get_division_5 :
  get_division (Some (u "Strom")) = Some ELECTRICITY.
Proof. vm_compute. repeat split; reflexivity. Qed.
(** tests/unit_tests/test_division_helper.py:53 *)
Example test_get_division_6 :
  get_division (Some (u "Turnusableseintervall des MSB (Strom)")) = Some ELECTRICITY.
Proof. vm_compute. repeat split; reflexivity. Qed.
(** tests/unit_tests/test_division_helper.py:53 *)
Example test_get_division_7 :
  get_division (Some (u "Geplante Turnusablesung des NB (Gas)")) = Some GAS.
Proof. vm_compute. repeat split; reflexivity. Qed.
