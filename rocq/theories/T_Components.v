(** Generated by tools/gen_tests.py from tests/unit_tests/test_edifact_components.py: a test of the model, not a proof.
    The model is evaluated on the arguments of the project's own unit tests and compared with the values expected there. *)
From Coq Require Import Ascii String List NArith ZArith Bool.
From Verif Require Import PyBase PyStr M_Components M_Ahb M_Schema M_Cli.
Import ListNotations.
Local Open Scope list_scope.

(** serialization_test_helper.py:9-24; keys of JSON objects have no order *)
Definition round_trip {A} (dump : A -> json) (load : json -> result A) (x : A) (expected : json) : Prop :=
  sort_keys (dump x) = sort_keys expected /\ load (dump x) = Ok x.
(** no class attribute of the enum is used *)
Definition no_attribute : pystr -> option bool := fun _ => None.

(** tests/unit_tests/test_edifact_components.py:48 *)
Example test_free_text_serialization_roundtrip_1 :
  round_trip dump_free_text (load_free_text no_attribute) (mkFreeText (Some (u "foo")) (u "2222") (Some (u "Hello Maus")) (Some TEXT) (u "Muss [1]")) (JObj [((u "ahb_expression"), (JStr (u "Muss [1]"))); ((u "entered_input"), (JStr (u "Hello Maus"))); ((u "discriminator"), (JStr (u "foo"))); ((u "data_element_id"), (JStr (u "2222"))); ((u "value_type"), (JStr (u "TEXT")))]).
Proof. vm_compute. repeat split; reflexivity. Qed.
(** tests/unit_tests/test_edifact_components.py:77 *)
Example test_value_pool_serialization_roundtrip_1 :
  round_trip dump_pool (load_pool no_attribute) (mkPool (Some (u "foo")) (u "0022") (Some (u "asd")) (Some VALUE_POOL) [(mkEntry (u "HELLO") (u "world") (u "X")); (mkEntry (u "MAUS") (u "rocks") (u "X"))]) (JObj [((u "value_pool"), (JList [(JObj [((u "qualifier"), (JStr (u "HELLO"))); ((u "meaning"), (JStr (u "world"))); ((u "ahb_expression"), (JStr (u "X")))]); (JObj [((u "qualifier"), (JStr (u "MAUS"))); ((u "meaning"), (JStr (u "rocks"))); ((u "ahb_expression"), (JStr (u "X")))])])); ((u "discriminator"), (JStr (u "foo"))); ((u "data_element_id"), (JStr (u "0022"))); ((u "value_type"), (JStr (u "VALUE_POOL"))); ((u "entered_input"), (JStr (u "asd")))]).
Proof. vm_compute. repeat split; reflexivity. Qed.
(** tests/unit_tests/test_edifact_components.py:166 *)
Example test_segment_serialization_roundtrip_1 :
  round_trip dump_segment (load_segment no_attribute) (mkSegment (u "foo") (u "X") None [(DPool (mkPool (Some (u "baz")) (u "0329") (Some (u "foo")) (Some VALUE_POOL) [(mkEntry (u "HELLO") (u "world") (u "X")); (mkEntry (u "MAUS") (u "rocks") (u "X"))])); (DFree (mkFreeText (Some (u "bar")) (u "0330") (Some (u "Hello Maus")) (Some TEXT) (u "Muss [1]")))] (Some (u "foo")) None) (JObj [((u "segment_id"), JNull); ((u "ahb_expression"), (JStr (u "X"))); ((u "section_name"), (JStr (u "foo"))); ((u "data_elements"), (JList [(JObj [((u "value_pool"), (JList [(JObj [((u "qualifier"), (JStr (u "HELLO"))); ((u "meaning"), (JStr (u "world"))); ((u "ahb_expression"), (JStr (u "X")))]); (JObj [((u "qualifier"), (JStr (u "MAUS"))); ((u "meaning"), (JStr (u "rocks"))); ((u "ahb_expression"), (JStr (u "X")))])])); ((u "discriminator"), (JStr (u "baz"))); ((u "data_element_id"), (JStr (u "0329"))); ((u "value_type"), (JStr (u "VALUE_POOL"))); ((u "entered_input"), (JStr (u "foo")))]); (JObj [((u "ahb_expression"), (JStr (u "Muss [1]"))); ((u "entered_input"), (JStr (u "Hello Maus"))); ((u "discriminator"), (JStr (u "bar"))); ((u "data_element_id"), (JStr (u "0330"))); ((u "value_type"), (JStr (u "TEXT")))])])); ((u "discriminator"), (JStr (u "foo")))]).
Proof. vm_compute. repeat split; reflexivity. Qed.
(** tests/unit_tests/test_edifact_components.py:300 *)
Example test_segment_group_serialization_roundtrip_1 :
  round_trip dump_group (load_group no_attribute) (mkGroup (u "disc A") (u "expr A") None (Some [(mkSegment (u "disc B") (u "expr B") None [(DPool (mkPool (Some (u "baz")) (u "3333") (Some (u "MAUS")) (Some VALUE_POOL) [(mkEntry (u "HELLO") (u "world") (u "X")); (mkEntry (u "MAUS") (u "rocks") (u "X"))])); (DFree (mkFreeText (Some (u "bar")) (u "4444") (Some (u "Hello Maus")) (Some TEXT) (u "Muss [1]")))] (Some (u "bar")) None)]) (Some [(mkGroup (u "disc C") (u "expr C") None (Some [(mkSegment (u "disc Y") (u "expr Y") None [] (Some (u "foo")) None)]) None)])) (JObj [((u "ahb_expression"), (JStr (u "expr A"))); ((u "discriminator"), (JStr (u "disc A"))); ((u "segments"), (JList [(JObj [((u "segment_id"), JNull); ((u "section_name"), (JStr (u "bar"))); ((u "ahb_expression"), (JStr (u "expr B"))); ((u "discriminator"), (JStr (u "disc B"))); ((u "data_elements"), (JList [(JObj [((u "value_pool"), (JList [(JObj [((u "qualifier"), (JStr (u "HELLO"))); ((u "meaning"), (JStr (u "world"))); ((u "ahb_expression"), (JStr (u "X")))]); (JObj [((u "qualifier"), (JStr (u "MAUS"))); ((u "meaning"), (JStr (u "rocks"))); ((u "ahb_expression"), (JStr (u "X")))])])); ((u "entered_input"), (JStr (u "MAUS"))); ((u "discriminator"), (JStr (u "baz"))); ((u "data_element_id"), (JStr (u "3333"))); ((u "value_type"), (JStr (u "VALUE_POOL")))]); (JObj [((u "ahb_expression"), (JStr (u "Muss [1]"))); ((u "entered_input"), (JStr (u "Hello Maus"))); ((u "discriminator"), (JStr (u "bar"))); ((u "data_element_id"), (JStr (u "4444"))); ((u "value_type"), (JStr (u "TEXT")))])]))])])); ((u "segment_groups"), (JList [(JObj [((u "ahb_expression"), (JStr (u "expr C"))); ((u "discriminator"), (JStr (u "disc C"))); ((u "segments"), (JList [(JObj [((u "segment_id"), JNull); ((u "section_name"), (JStr (u "foo"))); ((u "ahb_expression"), (JStr (u "expr Y"))); ((u "discriminator"), (JStr (u "disc Y"))); ((u "data_elements"), (JList []))])])); ((u "segment_groups"), JNull)])]))]).
Proof. vm_compute. repeat split; reflexivity. Qed.
(** tests/unit_tests/test_edifact_components.py:106 *)
Example test_empty_entered_input_is_not_dumped_1 :
  match dump_pool (mkPool (Some (u "foo")) (u "0022") None (Some VALUE_POOL) [(mkEntry (u "HELLO") (u "world") (u "X")); (mkEntry (u "MAUS") (u "rocks") (u "X"))]) with JObj o => existsb (fun x => str_eqb (fst x) (u "entered_input")) o | _ => true end = false.
Proof. vm_compute. repeat split; reflexivity. Qed.
(** tests/unit_tests/test_edifact_components.py:106 *)
Example test_empty_entered_input_is_not_dumped_2 :
  match dump_free_text (mkFreeText (Some (u "bar")) (u "0330") None (Some TEXT) (u "Muss [1]")) with JObj o => existsb (fun x => str_eqb (fst x) (u "entered_input")) o | _ => true end = false.
Proof. vm_compute. repeat split; reflexivity. Qed.
(** tests/unit_tests/test_edifact_components.py:199 *)
Example test_segment_get_value_pools_1 :
  List.length (segment_value_pools (mkSegment (u "foo") (u "X") None [(DPool (mkPool (Some (u "baz")) (u "0329") (Some (u "foo")) (Some VALUE_POOL) [(mkEntry (u "HELLO") (u "world") (u "X")); (mkEntry (u "MAUS") (u "rocks") (u "X"))])); (DFree (mkFreeText (Some (u "bar")) (u "0330") (Some (u "Hello Maus")) (Some TEXT) (u "Muss [1]")))] (Some (u "foo")) None)) = 1.
Proof. vm_compute. repeat split; reflexivity. Qed.
(** tests/unit_tests/test_edifact_components.py:439 *)
Example test_segment_group_get_value_pools_1 :
  List.length (group_value_pools (mkGroup (u "disc A") (u "expr A") None (Some [(mkSegment (u "disc B") (u "expr B") None [(DPool (mkPool (Some (u "baz")) (u "3333") (Some (u "MAUS")) (Some VALUE_POOL) [(mkEntry (u "HELLO") (u "world") (u "X")); (mkEntry (u "MAUS") (u "rocks") (u "X"))])); (DFree (mkFreeText (Some (u "bar")) (u "4444") (Some (u "Hello Maus")) (Some TEXT) (u "Muss [1]")))] (Some (u "bar")) None)]) (Some [(mkGroup (u "disc C") (u "expr C") None (Some [(mkSegment (u "disc Y") (u "expr Y") None [(DPool (mkPool (Some (u "baz")) (u "3333") (Some (u "MAUS")) (Some VALUE_POOL) [(mkEntry (u "HELLO") (u "world") (u "X")); (mkEntry (u "MAUS") (u "rocks") (u "X"))]))] (Some (u "foo")) None)]) None)]))) = 2.
Proof. vm_compute. repeat split; reflexivity. Qed.
(** tests/unit_tests/test_edifact_components.py:349 *)
Example test_edifact_stack_is_sub_or_parent_of_1 :
  is_sub_stack_of [] [] = true /\ stack_is_parent_of [] [] = true.
Proof. vm_compute. repeat split; reflexivity. Qed.
(** tests/unit_tests/test_edifact_components.py:349 *)
Example test_edifact_stack_is_sub_or_parent_of_2 :
  is_sub_stack_of [(mkLevel (u "x") false None)] [] = true /\ stack_is_parent_of [(mkLevel (u "x") false None)] [] = false.
Proof. vm_compute. repeat split; reflexivity. Qed.
(** tests/unit_tests/test_edifact_components.py:349 *)
Example test_edifact_stack_is_sub_or_parent_of_3 :
  is_sub_stack_of [] [(mkLevel (u "x") false None)] = false /\ stack_is_parent_of [] [(mkLevel (u "x") false None)] = true.
Proof. vm_compute. repeat split; reflexivity. Qed.
(** tests/unit_tests/test_edifact_components.py:349 *)
Example test_edifact_stack_is_sub_or_parent_of_4 :
  is_sub_stack_of [(mkLevel (u "x") true None)] [(mkLevel (u "x") false None)] = false /\ stack_is_parent_of [(mkLevel (u "x") true None)] [(mkLevel (u "x") false None)] = false.
Proof. vm_compute. repeat split; reflexivity. Qed.
(** tests/unit_tests/test_edifact_components.py:349 *)
Example test_edifact_stack_is_sub_or_parent_of_5 :
  is_sub_stack_of [(mkLevel (u "x") true None)] [(mkLevel (u "y") true None)] = false /\ stack_is_parent_of [(mkLevel (u "x") true None)] [(mkLevel (u "y") true None)] = false.
Proof. vm_compute. repeat split; reflexivity. Qed.
(** tests/unit_tests/test_edifact_components.py:349 *)
Example test_edifact_stack_is_sub_or_parent_of_6 :
  is_sub_stack_of [(mkLevel (u "a") true None); (mkLevel (u "b") true None)] [(mkLevel (u "a") true None)] = true /\ stack_is_parent_of [(mkLevel (u "a") true None); (mkLevel (u "b") true None)] [(mkLevel (u "a") true None)] = false.
Proof. vm_compute. repeat split; reflexivity. Qed.
(** tests/unit_tests/test_edifact_components.py:362 *)
Example test_edifact_stack_to_from_json_path_1 :
  to_json_path (from_json_path (u "$[""foo""][0][""asd""][""bar""][29][""sss(asd)""][2]")) = (u "$[""foo""][0][""asd""][""bar""][29][""sss(asd)""][2]").
Proof. vm_compute. repeat split; reflexivity. Qed.
(** tests/unit_tests/test_edifact_components.py:362 *)
Example test_edifact_stack_to_from_json_path_2 :
  to_json_path (from_json_path (u "$[""asd""][223239102][""Hallo ()asd90e34A)SD=A)D""][""bar""][29][""sss(asd)""][2]")) = (u "$[""asd""][223239102][""Hallo ()asd90e34A)SD=A)D""][""bar""][29][""sss(asd)""][2]").
Proof. vm_compute. repeat split; reflexivity. Qed.
(** tests/unit_tests/test_edifact_components.py:443 *)
Example test_replacing_value_pool_entries_1 :
  replace_value_pool [((u "HELLO"), (Some (u "GOODBYE"))); ((u "MAUS"), (Some (u "KATZE")))] None (mkPool (Some (u "foo")) (u "0022") (Some (u "asd")) (Some VALUE_POOL) [(mkEntry (u "HELLO") (u "world") (u "A")); (mkEntry (u "MAUS") (u "rocks") (u "B")); (mkEntry (u "FOO") (u "bar") (u "C"))]) = ((mkPool (Some (u "foo")) (u "0022") (Some (u "asd")) (Some VALUE_POOL) [(mkEntry (u "GOODBYE") (u "world") (u "A")); (mkEntry (u "KATZE") (u "rocks") (u "B")); (mkEntry (u "FOO") (u "bar") (u "C"))]), None).
Proof. vm_compute. repeat split; reflexivity. Qed.
(** tests/unit_tests/test_edifact_components.py:463 *)
Example test_replacing_value_pool_entries_with_merger_1 :
  replace_value_pool [((u "HELLO"), (Some (u "GOODBYE"))); ((u "MAUS"), (Some (u "KATZE")))] (Some (fun meaning old => meaning ++ u " (" ++ old ++ u ")")) (mkPool (Some (u "foo")) (u "0022") (Some (u "asd")) (Some VALUE_POOL) [(mkEntry (u "HELLO") (u "world") (u "A")); (mkEntry (u "MAUS") (u "rocks") (u "B")); (mkEntry (u "FOO") (u "bar") (u "C"))]) = ((mkPool (Some (u "foo")) (u "0022") (Some (u "asd")) (Some VALUE_POOL) [(mkEntry (u "GOODBYE") (u "world (HELLO)") (u "A")); (mkEntry (u "KATZE") (u "rocks (MAUS)") (u "B")); (mkEntry (u "FOO") (u "bar") (u "C"))]), None).
Proof. vm_compute. repeat split; reflexivity. Qed.
(** tests/unit_tests/test_edifact_components.py:497 *)
Example test_has_value_pool_which_is_subset_of_1 :
  has_value_pool_which_is_subset_of (mkPool (Some (u "foo")) (u "0022") (Some (u "asd")) (Some VALUE_POOL) [(mkEntry (u "HELLO") (u "world") (u "A")); (mkEntry (u "MAUS") (u "rocks") (u "B")); (mkEntry (u "FOO") (u "bar") (u "C"))]) [(u "asd")] = false.
Proof. vm_compute. repeat split; reflexivity. Qed.
(** tests/unit_tests/test_edifact_components.py:497 *)
Example test_has_value_pool_which_is_subset_of_2 :
  has_value_pool_which_is_subset_of (mkPool (Some (u "foo")) (u "0022") (Some (u "asd")) (Some VALUE_POOL) [(mkEntry (u "HELLO") (u "world") (u "A")); (mkEntry (u "MAUS") (u "rocks") (u "B")); (mkEntry (u "FOO") (u "bar") (u "C"))]) [(u "HELLO")] = false.
Proof. vm_compute. repeat split; reflexivity. Qed.
(** tests/unit_tests/test_edifact_components.py:497 *)
Example test_has_value_pool_which_is_subset_of_3 :
  has_value_pool_which_is_subset_of (mkPool (Some (u "foo")) (u "0022") (Some (u "asd")) (Some VALUE_POOL) [(mkEntry (u "HELLO") (u "world") (u "A")); (mkEntry (u "MAUS") (u "rocks") (u "B")); (mkEntry (u "FOO") (u "bar") (u "C"))]) [(u "HELLO"); (u "MAUS"); (u "FOO")] = true.
Proof. vm_compute. repeat split; reflexivity. Qed.
(** tests/unit_tests/test_edifact_components.py:497 *)
Example test_has_value_pool_which_is_subset_of_4 :
  has_value_pool_which_is_subset_of (mkPool (Some (u "foo")) (u "0022") (Some (u "asd")) (Some VALUE_POOL) [(mkEntry (u "HELLO") (u "world") (u "A")); (mkEntry (u "MAUS") (u "rocks") (u "B")); (mkEntry (u "FOO") (u "bar") (u "C"))]) [(u "FOO"); (u "MAUS"); (u "HELLO")] = true.
Proof. vm_compute. repeat split; reflexivity. Qed.
