(** Generated by tools/gen_tests.py from tests/unit_tests/test_navigation.py: a test of the model, not a proof.
    The model is evaluated on the arguments of the project's own unit tests and compared with the values expected there. *)
From Coq Require Import Ascii String List NArith ZArith Bool.
From Verif Require Import PyBase PyStr M_Ahb M_Sgh M_Navigation.
Import ListNotations.
Local Open Scope list_scope.

(** tests/unit_tests/test_navigation.py:121 *)
Example test_enhance_line_with_next_segment_1 :
  enhance_with_next_segment [(mkLine None (Some (u "SG4")) None (Some (u "0333")) None None (Some (u "Das Eine")) (Some (u "X")) None None None); (mkLine None (Some (u "SG4")) (Some (u "FOO")) (Some (u "0333")) None None (Some (u "Das Eine")) (Some (u "X")) None None None)] = Ok [((mkLine None (Some (u "SG4")) None (Some (u "0333")) None None (Some (u "Das Eine")) (Some (u "X")) None None None), (Some (u "FOO"))); ((mkLine None (Some (u "SG4")) (Some (u "FOO")) (Some (u "0333")) None None (Some (u "Das Eine")) (Some (u "X")) None None None), (Some (u "FOO")))].
Proof. vm_compute. repeat split; reflexivity. Qed.
(** tests/unit_tests/test_navigation.py:178 *)
Example test_enhance_line_with_next_value_pool_entry_1 :
  enhance_with_next_value_pool_entry [(mkLine None (Some (u "SG4")) None None None None (Some (u "Das Eine")) (Some (u "X")) None None None); (mkLine None (Some (u "SG4")) (Some (u "FOO")) (Some (u "0333")) None (Some (u "Z01")) (Some (u "Das Eine")) (Some (u "X")) None None None)] = Ok [((mkLine None (Some (u "SG4")) None None None None (Some (u "Das Eine")) (Some (u "X")) None None None), (Some (u "Z01"))); ((mkLine None (Some (u "SG4")) (Some (u "FOO")) (Some (u "0333")) None (Some (u "Z01")) (Some (u "Das Eine")) (Some (u "X")) None None None), (Some (u "Z01")))].
Proof. vm_compute. repeat split; reflexivity. Qed.
(** tests/unit_tests/test_navigation.py:262 *)
Example test_is_opening_segment_line_border_1 :
  is_opening_segment_line_border (mkLine (Some 235707177187315033161717946025725661184%N) (Some (u "SG10")) (Some (u "CCI")) (Some (u "7037")) None (Some (u "Z07")) (Some (u "Verbrauch")) None None (Some (u "Lieferrichtung")) None) (mkLine (Some 106766359032373618119239081241858203110%N) (Some (u "SG10")) None None None None None None None (Some (u "Zugeordnete Marktpartner")) None) (Some (u "CCI")) (u "CCI") = true.
Proof. vm_compute. repeat split; reflexivity. Qed.
(** tests/unit_tests/test_navigation.py:262 *)
Example test_is_opening_segment_line_border_2 :
  is_opening_segment_line_border (mkLine (Some 97467302226259359931283189389255394087%N) (Some (u "SG12")) (Some (u "RFF")) (Some (u "1154")) None None (Some (u "ID der Marktlokation")) None None (Some (u "Referenz auf die ID der Marktlokation")) None) (mkLine (Some 116144176401897294064654133060934051583%N) (Some (u "SG12")) None None None None None None None (Some (u "Korrespondenzanschrift des Kunden des Lieferanten")) None) (Some (u "NAD")) (u "NAD") = true.
Proof. vm_compute. repeat split; reflexivity. Qed.
(** tests/unit_tests/test_navigation.py:262 *)
Example test_is_opening_segment_line_border_3 :
  is_opening_segment_line_border (mkLine (Some 165840745590958978460209948655420628140%N) (Some (u "SG10")) (Some (u "CAV")) (Some (u "1131")) None (Some (u "MP-ID")) None None None (Some (u "Lieferant")) None) (mkLine (Some 19228658282694737945936337372209098414%N) (Some (u "SG10")) None None None None None None None (Some (u "Übertragungsnetzbetreiber")) None) (Some (u "CAV")) (u "CCI") = false.
Proof. vm_compute. repeat split; reflexivity. Qed.
(** tests/unit_tests/test_navigation.py:324 *)
Example test_ahb_position_is_sub_or_parent_of_1 :
  is_sub_location_of (mkLocation false [(mkLayer (Some (u "SG0")) (u "FOO") (Some (u "ASD")))] None None None) (mkLocation false [(mkLayer (Some (u "SG0")) (u "FOO") (Some (u "ASD")))] None None None) = true /\ location_is_parent_of (mkLocation false [(mkLayer (Some (u "SG0")) (u "FOO") (Some (u "ASD")))] None None None) (mkLocation false [(mkLayer (Some (u "SG0")) (u "FOO") (Some (u "ASD")))] None None None) = true.
Proof. vm_compute. repeat split; reflexivity. Qed.
(** tests/unit_tests/test_navigation.py:324 *)
Example test_ahb_position_is_sub_or_parent_of_2 :
  is_sub_location_of (mkLocation false [(mkLayer (Some (u "SG0")) (u "FOO") (Some (u "ASD")))] None None None) (mkLocation false [(mkLayer (Some (u "SG1")) (u "BAR") (Some (u "QWE")))] None None None) = false /\ location_is_parent_of (mkLocation false [(mkLayer (Some (u "SG1")) (u "BAR") (Some (u "QWE")))] None None None) (mkLocation false [(mkLayer (Some (u "SG0")) (u "FOO") (Some (u "ASD")))] None None None) = false.
Proof. vm_compute. repeat split; reflexivity. Qed.
(** tests/unit_tests/test_navigation.py:324 *)
Example test_ahb_position_is_sub_or_parent_of_3 :
  is_sub_location_of (mkLocation false [(mkLayer (Some (u "SG0")) (u "FOO") (Some (u "ASD"))); (mkLayer (Some (u "SG1")) (u "BAR") (Some (u "QWE")))] None None None) (mkLocation false [(mkLayer (Some (u "SG0")) (u "FOO") (Some (u "ASD")))] None None None) = true /\ location_is_parent_of (mkLocation false [(mkLayer (Some (u "SG0")) (u "FOO") (Some (u "ASD")))] None None None) (mkLocation false [(mkLayer (Some (u "SG0")) (u "FOO") (Some (u "ASD"))); (mkLayer (Some (u "SG1")) (u "BAR") (Some (u "QWE")))] None None None) = true.
Proof. vm_compute. repeat split; reflexivity. Qed.
(** tests/unit_tests/test_navigation.py:395 *)
Example test_find_common_ancestor_1 :
  find_common_ancestor (mkLocation false [(mkLayer (Some (u "SG0")) (u "FOO") (Some (u "ASD"))); (mkLayer (Some (u "SG1")) (u "BAR") (Some (u "QWE")))] None None None) (mkLocation false [(mkLayer (Some (u "SG0")) (u "FOO") (Some (u "ASD"))); (mkLayer (Some (u "SG1")) (u "BAR") (Some (u "QWE")))] None None None) = Ok (mkLocation false [(mkLayer (Some (u "SG0")) (u "FOO") (Some (u "ASD"))); (mkLayer (Some (u "SG1")) (u "BAR") (Some (u "QWE")))] None None None).
Proof. vm_compute. repeat split; reflexivity. Qed.
(** tests/unit_tests/test_navigation.py:395 *)
Example test_find_common_ancestor_2 :
  find_common_ancestor (mkLocation false [(mkLayer (Some (u "SG0")) (u "FOO") (Some (u "ASD"))); (mkLayer (Some (u "SG1")) (u "BAR") (Some (u "QWE")))] None None None) (mkLocation false [(mkLayer (Some (u "SG0")) (u "FOO") (Some (u "ASD")))] None None None) = Ok (mkLocation false [(mkLayer (Some (u "SG0")) (u "FOO") (Some (u "ASD")))] None None None).
Proof. vm_compute. repeat split; reflexivity. Qed.
(** tests/unit_tests/test_navigation.py:395 *)
Example test_find_common_ancestor_3 :
  find_common_ancestor (mkLocation false [(mkLayer (Some (u "SG0")) (u "FOO") (Some (u "ASD"))); (mkLayer (Some (u "SG1")) (u "BAR") (Some (u "QWE")))] None None None) (mkLocation false [(mkLayer (Some (u "SG0")) (u "FOO") (Some (u "ASD"))); (mkLayer (Some (u "SG1")) (u "BAR") (Some (u "IOP")))] None None None) = Ok (mkLocation false [(mkLayer (Some (u "SG0")) (u "FOO") (Some (u "ASD")))] None None None).
Proof. vm_compute. repeat split; reflexivity. Qed.
(** tests/unit_tests/test_navigation.py:477 *)
Example test_find_no_common_ancestor_1 :
  find_common_ancestor (mkLocation false [(mkLayer (Some (u "SG0")) (u "FOO") (Some (u "ASD"))); (mkLayer (Some (u "SG1")) (u "BAR") (Some (u "QWE")))] None None None) (mkLocation false [(mkLayer (Some (u "SG7")) (u "FOO") (Some (u "ASD"))); (mkLayer (Some (u "SG1")) (u "BAR") (Some (u "QWE")))] None None None) = Raise ValueError.
Proof. vm_compute. repeat split; reflexivity. Qed.
(** tests/unit_tests/test_navigation.py:451 *)
Example test_find_common_ancestor_from_sgh_1 :
  find_common_ancestor_from_sgh (Some (u "SG2")) (Some (u "SG2")) (mkSgh None (u "UNH") (Some [(mkSgh (Some (u "SG1")) (u "RFF") (Some [])); (mkSgh (Some (u "SG2")) (u "NAD") (Some [(mkSgh (Some (u "SG3")) (u "CTA") (Some []))])); (mkSgh (Some (u "SG4")) (u "IDE") (Some [(mkSgh (Some (u "SG5")) (u "LOC") None); (mkSgh (Some (u "SG6")) (u "RFF") None); (mkSgh (Some (u "SG8")) (u "SEQ") (Some [(mkSgh (Some (u "SG9")) (u "QTY") None); (mkSgh (Some (u "SG10")) (u "CCI") None)])); (mkSgh (Some (u "SG12")) (u "NAD") None)]))])) = Ok (mkLocation true [(mkLayer None (u "UNH") None); (mkLayer (Some (u "SG2")) (u "NAD") None)] None None None).
Proof. vm_compute. repeat split; reflexivity. Qed.
(** tests/unit_tests/test_navigation.py:451 *)
Example test_find_common_ancestor_from_sgh_2 :
  find_common_ancestor_from_sgh (Some (u "SG12")) (Some (u "SG6")) (mkSgh None (u "UNH") (Some [(mkSgh (Some (u "SG1")) (u "RFF") (Some [])); (mkSgh (Some (u "SG2")) (u "NAD") (Some [(mkSgh (Some (u "SG3")) (u "CTA") (Some []))])); (mkSgh (Some (u "SG4")) (u "IDE") (Some [(mkSgh (Some (u "SG5")) (u "LOC") None); (mkSgh (Some (u "SG6")) (u "RFF") None); (mkSgh (Some (u "SG8")) (u "SEQ") (Some [(mkSgh (Some (u "SG9")) (u "QTY") None); (mkSgh (Some (u "SG10")) (u "CCI") None)])); (mkSgh (Some (u "SG12")) (u "NAD") None)]))])) = Ok (mkLocation true [(mkLayer None (u "UNH") None); (mkLayer (Some (u "SG4")) (u "IDE") None)] None None None).
Proof. vm_compute. repeat split; reflexivity. Qed.
(** tests/unit_tests/test_navigation.py:451 *)
Example test_find_common_ancestor_from_sgh_3 :
  find_common_ancestor_from_sgh (Some (u "SG3")) (Some (u "SG12")) (mkSgh None (u "UNH") (Some [(mkSgh (Some (u "SG1")) (u "RFF") (Some [])); (mkSgh (Some (u "SG2")) (u "NAD") (Some [(mkSgh (Some (u "SG3")) (u "CTA") (Some []))])); (mkSgh (Some (u "SG4")) (u "IDE") (Some [(mkSgh (Some (u "SG5")) (u "LOC") None); (mkSgh (Some (u "SG6")) (u "RFF") None); (mkSgh (Some (u "SG8")) (u "SEQ") (Some [(mkSgh (Some (u "SG9")) (u "QTY") None); (mkSgh (Some (u "SG10")) (u "CCI") None)])); (mkSgh (Some (u "SG12")) (u "NAD") None)]))])) = Ok (mkLocation true [(mkLayer None (u "UNH") None)] None None None).
Proof. vm_compute. repeat split; reflexivity. Qed.
(** tests/unit_tests/test_navigation.py:451 *)
Example test_find_common_ancestor_from_sgh_4 :
  find_common_ancestor_from_sgh (Some (u "SG9")) (Some (u "SG6")) (mkSgh None (u "UNH") (Some [(mkSgh (Some (u "SG1")) (u "RFF") (Some [])); (mkSgh (Some (u "SG2")) (u "NAD") (Some [(mkSgh (Some (u "SG3")) (u "CTA") (Some []))])); (mkSgh (Some (u "SG4")) (u "IDE") (Some [(mkSgh (Some (u "SG5")) (u "LOC") None); (mkSgh (Some (u "SG6")) (u "RFF") None); (mkSgh (Some (u "SG8")) (u "SEQ") (Some [(mkSgh (Some (u "SG9")) (u "QTY") None); (mkSgh (Some (u "SG10")) (u "CCI") None)])); (mkSgh (Some (u "SG12")) (u "NAD") None)]))])) = Ok (mkLocation true [(mkLayer None (u "UNH") None); (mkLayer (Some (u "SG4")) (u "IDE") None)] None None None).
Proof. vm_compute. repeat split; reflexivity. Qed.
(** tests/unit_tests/test_navigation.py:533 *)
Example test_calculate_distance_1 :
  calculate_distance (mkLocation false [(mkLayer (Some (u "SG0")) (u "FOO") (Some (u "ASD"))); (mkLayer (Some (u "SG1")) (u "BAR") (Some (u "QWE")))] None None None) (mkLocation false [(mkLayer (Some (u "SG0")) (u "FOO") (Some (u "ASD"))); (mkLayer (Some (u "SG1")) (u "BAR") (Some (u "QWE")))] None None None) = Ok (mkDistance 0 0).
Proof. vm_compute. repeat split; reflexivity. Qed.
(** tests/unit_tests/test_navigation.py:533 *)
Example test_calculate_distance_2 :
  calculate_distance (mkLocation false [(mkLayer (Some (u "SG0")) (u "FOO") (Some (u "ASD"))); (mkLayer (Some (u "SG1")) (u "BAR") (Some (u "QWE")))] None None None) (mkLocation false [(mkLayer (Some (u "SG0")) (u "FOO") (Some (u "ASD")))] None None None) = Ok (mkDistance 1 0).
Proof. vm_compute. repeat split; reflexivity. Qed.
(** tests/unit_tests/test_navigation.py:533 *)
Example test_calculate_distance_3 :
  calculate_distance (mkLocation false [(mkLayer (Some (u "SG0")) (u "FOO") (Some (u "ASD"))); (mkLayer (Some (u "SG1")) (u "BAR") (Some (u "QWE")))] None None None) (mkLocation false [(mkLayer (Some (u "SG0")) (u "FOO") (Some (u "ASD"))); (mkLayer (Some (u "SG1")) (u "BAR") (Some (u "IOP")))] None None None) = Ok (mkDistance 1 1).
Proof. vm_compute. repeat split; reflexivity. Qed.
(** tests/unit_tests/test_navigation.py:573 *)
Example test_remove_grouped_ahb_lines_containing_section_name_1 :
  List.length (remove_grouped_ahb_lines_containing_section_name [[(mkLine (Some 235707177187315033161717946025725661184%N) (Some (u "SG10")) (Some (u "CCI")) (Some (u "7037")) None (Some (u "Z07")) (Some (u "Verbrauch")) None None (Some (u "Lieferrichtung")) None); (mkLine (Some 106766359032373618119239081241858203110%N) (Some (u "SG10")) None None None None None None None (Some (u "Abschnitts-Kontrollsegment")) None)]; [(mkLine (Some 235707177187315033161717946025725661184%N) (Some (u "SG10")) (Some (u "CCI")) (Some (u "7037")) None (Some (u "Z07")) (Some (u "Verbrauch")) None None (Some (u "Lieferrichtung")) None)]] (u "Abschnitts-Kontrollsegment")) = 1.
Proof. vm_compute. repeat split; reflexivity. Qed.
