(** Generated by tools/gen_tests.py from tests/unit_tests/test_ahb_csv_reader.py: a test of the model, not a proof.
    The model is evaluated on the arguments of the project's own unit tests and compared with the values expected there. *)
From Coq Require Import Ascii String List NArith ZArith Bool.
From Verif Require Import PyBase PyStr M_Components M_Ahb M_CsvReader.
Import ListNotations.
Local Open Scope list_scope.

(** two dictionaries are equal *)
Definition same_dict (a b : row) : bool :=
  forallb (fun k => match dict_get k a, dict_get k b with
                    | Some x, Some y => ostr_eqb x y
                    | None, None => true
                    | _, _ => false
                    end) (map fst a ++ map fst b).

(** tests/unit_tests/test_ahb_csv_reader.py:34 *)
Example test_ahb_expression_column_finder_1 :
  get_name_of_expression_column (Some [(u "Segment Gruppe"); (u "Segment"); (u "Datenelement"); (u "Codes und Qualifier"); (u "Beschreibung"); (u "11042"); (u "Bedingung")]) = (Some (u "11042")).
Proof. vm_compute. repeat split; reflexivity. Qed.
(** tests/unit_tests/test_ahb_csv_reader.py:34 *)
Example test_ahb_expression_column_finder_2 :
  get_name_of_expression_column (Some [(u "foo"); (u "bar")]) = None.
Proof. vm_compute. repeat split; reflexivity. Qed.
(** tests/unit_tests/test_ahb_csv_reader.py:34 *)
Example test_ahb_expression_column_finder_3 :
  get_name_of_expression_column None = None.
Proof. vm_compute. repeat split; reflexivity. Qed.
(** tests/unit_tests/test_ahb_csv_reader.py:34 *)
Example test_ahb_expression_column_finder_4 :
  get_name_of_expression_column (Some []) = None.
Proof. vm_compute. repeat split; reflexivity. Qed.
(** tests/unit_tests/test_ahb_csv_reader.py:49 *)
Example test_is_value_pool_entry_1 :
  is_value_pool_entry None = false.
Proof. vm_compute. repeat split; reflexivity. Qed.
(** tests/unit_tests/test_ahb_csv_reader.py:49 *)
Example test_is_value_pool_entry_2 :
  is_value_pool_entry (Some (u "")) = false.
Proof. vm_compute. repeat split; reflexivity. Qed.
(** tests/unit_tests/test_ahb_csv_reader.py:49 *)
Example test_is_value_pool_entry_3 :
  is_value_pool_entry (Some (u "E01")) = true.
Proof. vm_compute. repeat split; reflexivity. Qed.
(** tests/unit_tests/test_ahb_csv_reader.py:49 *)
Example test_is_value_pool_entry_4 :
  is_value_pool_entry (Some (u "GABi-RLMoT")) = true.
Proof. vm_compute. repeat split; reflexivity. Qed.
(** tests/unit_tests/test_ahb_csv_reader.py:49 *)
Example test_is_value_pool_entry_5 :
  is_value_pool_entry (Some (u "GABi-RLMmT")) = true.
Proof. vm_compute. repeat split; reflexivity. Qed.
(** tests/unit_tests/test_ahb_csv_reader.py:49 *)
Example test_is_value_pool_entry_6 :
  is_value_pool_entry (Some (u "Gabi sitzt zu Hause ")) = false.
Proof. vm_compute. repeat split; reflexivity. Qed.
(** tests/unit_tests/test_ahb_csv_reader.py:63 *)
Example test_is_segment_group_1 :
  is_segment_group None = false.
Proof. vm_compute. repeat split; reflexivity. Qed.
(** tests/unit_tests/test_ahb_csv_reader.py:63 *)
Example test_is_segment_group_2 :
  is_segment_group (Some (u "")) = false.
Proof. vm_compute. repeat split; reflexivity. Qed.
(** tests/unit_tests/test_ahb_csv_reader.py:63 *)
Example test_is_segment_group_3 :
  is_segment_group (Some (u "Nachrichten-Endesegment")) = false.
Proof. vm_compute. repeat split; reflexivity. Qed.
(** tests/unit_tests/test_ahb_csv_reader.py:63 *)
Example test_is_segment_group_4 :
  is_segment_group (Some (u "SG4")) = true.
Proof. vm_compute. repeat split; reflexivity. Qed.
(** tests/unit_tests/test_ahb_csv_reader.py:63 *)
Example test_is_segment_group_5 :
  is_segment_group (Some (u "SG12")) = true.
Proof. vm_compute. repeat split; reflexivity. Qed.
(** tests/unit_tests/test_ahb_csv_reader.py:178 *)
Example test_code_description_separation_1 :
  separate_value_pool_entry_and_name (Some (u "Nachrichten-Referenznummer")) None = (None, (Some (u "Nachrichten-Referenznummer"))).
Proof. vm_compute. repeat split; reflexivity. Qed.
(** tests/unit_tests/test_ahb_csv_reader.py:178 *)
Example test_code_description_separation_2 :
  separate_value_pool_entry_and_name (Some (u "137")) (Some (u "Dokumenten-/Nachrichtendatum/-zeit")) = ((Some (u "137")), (Some (u "Dokumenten-/Nachrichtendatum/-zeit"))).
Proof. vm_compute. repeat split; reflexivity. Qed.
(** tests/unit_tests/test_ahb_csv_reader.py:178 *)
Example test_code_description_separation_3 :
  separate_value_pool_entry_and_name (Some (u "Datum oder Uhrzeit oderZeitspanne, Wert")) None = (None, (Some (u "Datum oder Uhrzeit oderZeitspanne, Wert"))).
Proof. vm_compute. repeat split; reflexivity. Qed.
(** tests/unit_tests/test_ahb_csv_reader.py:178 *)
Example test_code_description_separation_4 :
  separate_value_pool_entry_and_name (Some (u "303")) (Some (u "CCYYMMDDHHMMZZZ")) = ((Some (u "303")), (Some (u "CCYYMMDDHHMMZZZ"))).
Proof. vm_compute. repeat split; reflexivity. Qed.
(** tests/unit_tests/test_ahb_csv_reader.py:178 *)
Example test_code_description_separation_5 :
  separate_value_pool_entry_and_name (Some (u "9")) (Some (u "GS1")) = ((Some (u "9")), (Some (u "GS1"))).
Proof. vm_compute. repeat split; reflexivity. Qed.
(** tests/unit_tests/test_ahb_csv_reader.py:178 *)
Example test_code_description_separation_6 :
  separate_value_pool_entry_and_name (Some (u "IC")) (Some (u "Informationskontakt")) = ((Some (u "IC")), (Some (u "Informationskontakt"))).
Proof. vm_compute. repeat split; reflexivity. Qed.
(** tests/unit_tests/test_ahb_csv_reader.py:178 *)
Example test_code_description_separation_7 :
  separate_value_pool_entry_and_name (Some (u "MS")) (Some (u "Dokumenten-/Nachrichtenausstellerbzw. -absender")) = ((Some (u "MS")), (Some (u "Dokumenten-/Nachrichtenausstellerbzw. -absender"))).
Proof. vm_compute. repeat split; reflexivity. Qed.
(** tests/unit_tests/test_ahb_csv_reader.py:178 *)
Example test_code_description_separation_8 :
  separate_value_pool_entry_and_name (Some (u "TN")) (Some (u "Transaktions-Referenznummer")) = ((Some (u "TN")), (Some (u "Transaktions-Referenznummer"))).
Proof. vm_compute. repeat split; reflexivity. Qed.
(** tests/unit_tests/test_ahb_csv_reader.py:178 *)
Example test_code_description_separation_9 :
  separate_value_pool_entry_and_name (Some (u "293")) (Some (u "DE, BDEW (Bundesverband der Energie- und Wasserwirtschaft e.V.)")) = ((Some (u "293")), (Some (u "DE, BDEW (Bundesverband der Energie- und Wasserwirtschaft e.V.)"))).
Proof. vm_compute. repeat split; reflexivity. Qed.
(** tests/unit_tests/test_ahb_csv_reader.py:178 *)
Example test_code_description_separation_10 :
  separate_value_pool_entry_and_name (Some (u "1.2")) (Some (u "Versionsnummer derzugrundeliegendenBDEW-Nachrichtenbeschreibung")) = ((Some (u "1.2")), (Some (u "Versionsnummer derzugrundeliegendenBDEW-Nachrichtenbeschreibung"))).
Proof. vm_compute. repeat split; reflexivity. Qed.
(** tests/unit_tests/test_ahb_csv_reader.py:178 *)
Example test_code_description_separation_11 :
  separate_value_pool_entry_and_name (Some (u "D")) (Some (u "Entwurfs-Version")) = ((Some (u "D")), (Some (u "Entwurfs-Version"))).
Proof. vm_compute. repeat split; reflexivity. Qed.
(** tests/unit_tests/test_ahb_csv_reader.py:178 *)
Example test_code_description_separation_12 :
  separate_value_pool_entry_and_name (Some (u "Dokumenten-/Nachrichtenausstellerbzw. -absender")) (Some (u "MS ")) = ((Some (u "MS")), (Some (u "Dokumenten-/Nachrichtenausstellerbzw. -absender"))).
Proof. vm_compute. repeat split; reflexivity. Qed.
(** tests/unit_tests/test_ahb_csv_reader.py:178 *)
Example test_code_description_separation_13 :
  separate_value_pool_entry_and_name (Some (u "EBD Nr. E_0456")) (Some (u "E_0456")) = ((Some (u "E_0456")), (Some (u "EBD Nr. E_0456"))).
Proof. vm_compute. repeat split; reflexivity. Qed.
(** tests/unit_tests/test_ahb_csv_reader.py:178 *)
Example test_code_description_separation_14 :
  separate_value_pool_entry_and_name (Some (u "2.0d")) (Some (u "Versionsnummer derzugrundeliegendenBDEW-Nachrichtenbeschreibung")) = ((Some (u "2.0d")), (Some (u "Versionsnummer derzugrundeliegendenBDEW-Nachrichtenbeschreibung"))).
Proof. vm_compute. repeat split; reflexivity. Qed.
(** tests/unit_tests/test_ahb_csv_reader.py:178 *)
Example test_code_description_separation_15 :
  separate_value_pool_entry_and_name (Some (u "GABI-RLMNEV")) (Some (u "Nominierungsersatzverfahren - Exit (Hinweis: Dieser Code darf nur für Liefermonate vor dem 01.10.2016 genutzt werden)")) = ((Some (u "GABI-RLMNEV")), (Some (u "Nominierungsersatzverfahren - Exit (Hinweis: Dieser Code darf nur für Liefermonate vor dem 01.10.2016 genutzt werden)"))).
Proof. vm_compute. repeat split; reflexivity. Qed.
(** tests/unit_tests/test_ahb_csv_reader.py:178 *)
Example test_code_description_separation_16 :
  separate_value_pool_entry_and_name (Some (u "GABI-RLMNEV")) (Some (u "Nominierungsersatzverfahren - Exit (Hinweis: Dieser Code darf nur für Liefermonate vor dem 01.10.2016 genutzt werden)")) = ((Some (u "GABI-RLMNEV")), (Some (u "Nominierungsersatzverfahren - Exit (Hinweis: Dieser Code darf nur für Liefermonate vor dem 01.10.2016 genutzt werden)"))).
Proof. vm_compute. repeat split; reflexivity. Qed.
(** tests/unit_tests/test_ahb_csv_reader.py:178 *)
Example test_code_description_separation_17 :
  separate_value_pool_entry_and_name (Some (u "MS")) (Some (u "Nachrichtenaussteller bzw.")) = ((Some (u "MS")), (Some (u "Nachrichtenaussteller bzw."))).
Proof. vm_compute. repeat split; reflexivity. Qed.
(** tests/unit_tests/test_ahb_csv_reader.py:178 *)
Example test_code_description_separation_18 :
  separate_value_pool_entry_and_name (Some (u "9")) (Some (u "GS1")) = ((Some (u "9")), (Some (u "GS1"))).
Proof. vm_compute. repeat split; reflexivity. Qed.
(** tests/unit_tests/test_ahb_csv_reader.py:178 *)
Example test_code_description_separation_19 :
  separate_value_pool_entry_and_name (Some (u "E_0403")) (Some (u "EBD Nr. E_0403")) = ((Some (u "E_0403")), (Some (u "EBD Nr. E_0403"))).
Proof. vm_compute. repeat split; reflexivity. Qed.
(** tests/unit_tests/test_ahb_csv_reader.py:178 *)
Example test_code_description_separation_20 :
  separate_value_pool_entry_and_name (Some (u "G_0009")) (Some (u "Codeliste Gas Nr. G_0009")) = ((Some (u "G_0009")), (Some (u "Codeliste Gas Nr. G_0009"))).
Proof. vm_compute. repeat split; reflexivity. Qed.
(** tests/unit_tests/test_ahb_csv_reader.py:178 *)
Example test_code_description_separation_21 :
  separate_value_pool_entry_and_name (Some (u "MP-ID")) None = (None, (Some (u "MP-ID"))).
Proof. vm_compute. repeat split; reflexivity. Qed.
(** tests/unit_tests/test_ahb_csv_reader.py:178 *)
Example test_code_description_separation_22 :
  separate_value_pool_entry_and_name (Some (u "MS")) (Some (u "Dokumenten-/Nachrichtenausstellerbzw. -absender")) = ((Some (u "MS")), (Some (u "Dokumenten-/Nachrichtenausstellerbzw. -absender"))).
Proof. vm_compute. repeat split; reflexivity. Qed.
(** tests/unit_tests/test_ahb_csv_reader.py:250 *)
Example test_merging_of_section_only_lines_1 :
  match merge_section_only_lines [[((u ""), (Some (u "0"))); ((u "ASD"), (Some (u "asd")))]; [((u ""), (Some (u "1"))); ((u "Segment Gruppe"), (Some (u "Das ist der Anfang")))]; [((u ""), (Some (u "2"))); ((u "Segment Gruppe"), (Some (u "einer sehr langen")))]; [((u ""), (Some (u "3"))); ((u "Segment Gruppe"), (Some (u "Geschichte.")))]; [((u ""), (Some (u "4"))); ((u "Foo"), (Some (u "Bar")))]] with Ok l => list_eqb same_dict l [[((u ""), (Some (u "0"))); ((u "ASD"), (Some (u "asd")))]; [((u ""), (Some (u "3"))); ((u "Segment Gruppe"), (Some (u "Das ist der Anfang einer sehr langen Geschichte."))); ((u "Bedingung"), (Some (u ""))); ((u "Beschreibung"), (Some (u ""))); ((u "Codes und Qualifier"), (Some (u ""))); ((u "Datenelement"), (Some (u ""))); ((u "Segment"), (Some (u "")))]; [((u ""), (Some (u "4"))); ((u "Foo"), (Some (u "Bar")))]] | Raise _ => false end = true.
Proof. vm_compute. repeat split; reflexivity. Qed.
(** tests/unit_tests/test_ahb_csv_reader.py:269 *)
Example test_extract_bedingungen_1 :
  extract_bedingungen (Some (u "[123] Foo Bar")) = [((u "123"), (u "Foo Bar"))].
Proof. vm_compute. repeat split; reflexivity. Qed.
(** tests/unit_tests/test_ahb_csv_reader.py:269 *)
Example test_extract_bedingungen_2 :
  extract_bedingungen (Some (u "[123] Foo Bar [456] Baz Bay")) = [((u "123"), (u "Foo Bar")); ((u "456"), (u "Baz Bay"))].
Proof. vm_compute. repeat split; reflexivity. Qed.
(** tests/unit_tests/test_ahb_csv_reader.py:269 *)
Example test_extract_bedingungen_3 :
  extract_bedingungen (Some (u "[1] X [2] Y [3] Z")) = [((u "1"), (u "X")); ((u "2"), (u "Y")); ((u "3"), (u "Z"))].
Proof. vm_compute. repeat split; reflexivity. Qed.
(** tests/unit_tests/test_ahb_csv_reader.py:269 *)
Example test_extract_bedingungen_4 :
  extract_bedingungen (Some (u "")) = [].
Proof. vm_compute. repeat split; reflexivity. Qed.
(** tests/unit_tests/test_ahb_csv_reader.py:269 *)
Example test_extract_bedingungen_5 :
  extract_bedingungen None = [].
Proof. vm_compute. repeat split; reflexivity. Qed.
