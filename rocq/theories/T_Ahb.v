(** Generated by tools/gen_tests.py from tests/unit_tests/test_ahb.py: a test of the model, not a proof.
    The model is evaluated on the arguments of the project's own unit tests and compared with the values expected there. *)
From Coq Require Import Ascii String List NArith ZArith Bool.
From Verif Require Import PyBase PyStr M_Components M_Ahb M_Schema M_Cli.
Import ListNotations.
Local Open Scope list_scope.

(** serialization_test_helper.py:9-24; keys of JSON objects have no order *)
Definition round_trip {A} (dump : A -> json) (load : json -> result A) (x : A) (expected : json) : Prop :=
  sort_keys (dump x) = sort_keys expected /\ load (dump x) = Ok x.
(** no class attribute of the enum is used *)
Definition no_attribute : pystr -> option bool := fun _ => None.

(** tests/unit_tests/test_ahb.py:71 *)
Example test_ahb_meta_information_serialization_roundtrip_1 :
  round_trip dump_meta load_meta (mkMeta (u "11042") (Some (u "0.2.3")) None None) (JObj [((u "pruefidentifikator"), (JStr (u "11042"))); ((u "maus_version"), (JStr (u "0.2.3"))); ((u "description"), JNull); ((u "direction"), JNull)]).
Proof. vm_compute. repeat split; reflexivity. Qed.
(** tests/unit_tests/test_ahb.py:71 *)
Example test_ahb_meta_information_serialization_roundtrip_2 :
  round_trip dump_meta load_meta (mkMeta (u "11042") (Some (u "0.2.3")) (Some (u "Foo")) (Some (u "bar"))) (JObj [((u "pruefidentifikator"), (JStr (u "11042"))); ((u "maus_version"), (JStr (u "0.2.3"))); ((u "description"), (JStr (u "Foo"))); ((u "direction"), (JStr (u "bar")))]).
Proof. vm_compute. repeat split; reflexivity. Qed.
(** tests/unit_tests/test_ahb.py:145 *)
Example test_ahbline_serialization_roundtrip_1 :
  round_trip dump_line load_line (mkLine (Some 24848579202443037615683488266146570204%N) (Some (u "SG2")) (Some (u "NAD")) (Some (u "3039")) (Some (u "01234")) (Some (u "E01")) (Some (u "MP-ID")) (Some (u "Muss [1] O [2]")) (Some (u "[1] Test
[2] Test")) (Some (u "Foo")) None) (JObj [((u "ahb_expression"), (JStr (u "Muss [1] O [2]"))); ((u "segment_group_key"), (JStr (u "SG2"))); ((u "segment_code"), (JStr (u "NAD"))); ((u "segment_id"), (JStr (u "01234"))); ((u "data_element"), (JStr (u "3039"))); ((u "value_pool_entry"), (JStr (u "E01"))); ((u "name"), (JStr (u "MP-ID"))); ((u "guid"), (JStr (u "12b1a98a-edf5-4177-89e5-a6d8a92c5fdc"))); ((u "section_name"), (JStr (u "Foo"))); ((u "conditions"), (JStr (u "[1] Test
[2] Test"))); ((u "index"), JNull)]).
Proof. vm_compute. repeat split; reflexivity. Qed.
(** tests/unit_tests/test_ahb.py:145 *)
Example test_ahbline_serialization_roundtrip_2 :
  round_trip dump_line load_line (mkLine (Some 24848579202443037615683488266146570204%N) (Some (u "SG2")) (Some (u "NAD")) (Some (u "3039")) None (Some (u "E01")) (Some (u "MP-ID")) (Some (u "Muss [1] O [2]")) (Some (u "[1] Test
[2] Test")) (Some (u "Foo")) (Some (42)%Z)) (JObj [((u "ahb_expression"), (JStr (u "Muss [1] O [2]"))); ((u "segment_group_key"), (JStr (u "SG2"))); ((u "segment_code"), (JStr (u "NAD"))); ((u "segment_id"), JNull); ((u "data_element"), (JStr (u "3039"))); ((u "value_pool_entry"), (JStr (u "E01"))); ((u "name"), (JStr (u "MP-ID"))); ((u "guid"), (JStr (u "12b1a98a-edf5-4177-89e5-a6d8a92c5fdc"))); ((u "section_name"), (JStr (u "Foo"))); ((u "conditions"), (JStr (u "[1] Test
[2] Test"))); ((u "index"), (JInt (42)%Z))]).
Proof. vm_compute. repeat split; reflexivity. Qed.
(** tests/unit_tests/test_ahb.py:302 *)
Example test_flatahb_serialization_roundtrip_1 :
  round_trip dump_flat load_flat (mkFlat (mkMeta (u "11042") (Some (u "0.2.3")) None None) [(mkLine (Some 24848579202443037615683488266146570204%N) (Some (u "SG2")) (Some (u "NAD")) (Some (u "3039")) None (Some (u "E01")) (Some (u "MP-ID")) (Some (u "Muss [1] O [2]")) (Some (u "[1] Test
[2] Test")) (Some (u "MP-ID Absender")) None)]) (JObj [((u "meta"), (JObj [((u "pruefidentifikator"), (JStr (u "11042"))); ((u "maus_version"), (JStr (u "0.2.3"))); ((u "description"), JNull); ((u "direction"), JNull)])); ((u "lines"), (JList [(JObj [((u "ahb_expression"), (JStr (u "Muss [1] O [2]"))); ((u "segment_group_key"), (JStr (u "SG2"))); ((u "segment_code"), (JStr (u "NAD"))); ((u "data_element"), (JStr (u "3039"))); ((u "value_pool_entry"), (JStr (u "E01"))); ((u "segment_id"), JNull); ((u "name"), (JStr (u "MP-ID"))); ((u "guid"), (JStr (u "12b1a98a-edf5-4177-89e5-a6d8a92c5fdc"))); ((u "section_name"), (JStr (u "MP-ID Absender"))); ((u "conditions"), (JStr (u "[1] Test
[2] Test"))); ((u "index"), JNull)])]))]).
Proof. vm_compute. repeat split; reflexivity. Qed.
(** tests/unit_tests/test_ahb.py:461 *)
Example test_deep_ahb_serialization_roundtrip_1 :
  round_trip dump_deep (load_deep no_attribute) (mkDeep (mkMeta (u "11042") (Some (u "0.2.3")) None None) [(mkGroup (u "disc A") (u "expr A") None (Some [(mkSegment (u "disc B") (u "expr B") None [(DPool (mkPool (Some (u "baz")) (u "0123") (Some (u "HELLO")) (Some VALUE_POOL) [(mkEntry (u "HELLO") (u "world") (u "X")); (mkEntry (u "MAUS") (u "rocks") (u "X"))])); (DFree (mkFreeText (Some (u "bar")) (u "4567") (Some (u "Hello Maus")) (Some TEXT) (u "Muss [1]")))] (Some (u "foo")) None)]) (Some [(mkGroup (u "disc C") (u "expr C") None (Some [(mkSegment (u "disc Y") (u "expr Y") None [] (Some (u "bar")) None)]) None)]))]) (JObj [((u "meta"), (JObj [((u "pruefidentifikator"), (JStr (u "11042"))); ((u "maus_version"), (JStr (u "0.2.3"))); ((u "description"), JNull); ((u "direction"), JNull)])); ((u "lines"), (JList [(JObj [((u "ahb_expression"), (JStr (u "expr A"))); ((u "discriminator"), (JStr (u "disc A"))); ((u "segments"), (JList [(JObj [((u "section_name"), (JStr (u "foo"))); ((u "segment_id"), JNull); ((u "ahb_expression"), (JStr (u "expr B"))); ((u "discriminator"), (JStr (u "disc B"))); ((u "data_elements"), (JList [(JObj [((u "value_pool"), (JList [(JObj [((u "qualifier"), (JStr (u "HELLO"))); ((u "meaning"), (JStr (u "world"))); ((u "ahb_expression"), (JStr (u "X")))]); (JObj [((u "qualifier"), (JStr (u "MAUS"))); ((u "meaning"), (JStr (u "rocks"))); ((u "ahb_expression"), (JStr (u "X")))])])); ((u "discriminator"), (JStr (u "baz"))); ((u "data_element_id"), (JStr (u "0123"))); ((u "value_type"), (JStr (u "VALUE_POOL"))); ((u "entered_input"), (JStr (u "HELLO")))]); (JObj [((u "ahb_expression"), (JStr (u "Muss [1]"))); ((u "entered_input"), (JStr (u "Hello Maus"))); ((u "discriminator"), (JStr (u "bar"))); ((u "data_element_id"), (JStr (u "4567"))); ((u "value_type"), (JStr (u "TEXT")))])]))])])); ((u "segment_groups"), (JList [(JObj [((u "ahb_expression"), (JStr (u "expr C"))); ((u "discriminator"), (JStr (u "disc C"))); ((u "segments"), (JList [(JObj [((u "segment_id"), JNull); ((u "section_name"), (JStr (u "bar"))); ((u "ahb_expression"), (JStr (u "expr Y"))); ((u "discriminator"), (JStr (u "disc Y"))); ((u "data_elements"), (JList []))])])); ((u "segment_groups"), JNull)])]))])]))]).
Proof. vm_compute. repeat split; reflexivity. Qed.
(** tests/unit_tests/test_ahb.py:81 *)
Example test_ahb_meta_information_equality_1 :
  match load_meta (dump_meta (mkMeta (u "11042") (Some (u "0.2.3")) None None)) with Ok y => meta_eqb (mkMeta (u "11042") (Some (u "0.2.3")) None None) y | Raise _ => false end = true.
Proof. vm_compute. repeat split; reflexivity. Qed.
(** tests/unit_tests/test_ahb.py:81 *)
Example test_ahb_meta_information_equality_2 :
  meta_eqb (mkMeta (u "11042") (Some (u "0.2.3")) None None) (mkMeta (u "11043") (Some (u "0.2.3")) None None) = false.
Proof. vm_compute. repeat split; reflexivity. Qed.
(** tests/unit_tests/test_ahb.py:155 *)
Example test_ahb_line_equality_1 :
  match load_line (dump_line (mkLine (Some 24848579202443037615683488266146570204%N) (Some (u "SG2")) (Some (u "NAD")) (Some (u "3039")) None (Some (u "E01")) (Some (u "MP-ID")) (Some (u "Muss [1] O [2]")) (Some (u "[1] Test
[2] Test")) None None)) with Ok y => line_eqb (mkLine (Some 24848579202443037615683488266146570204%N) (Some (u "SG2")) (Some (u "NAD")) (Some (u "3039")) None (Some (u "E01")) (Some (u "MP-ID")) (Some (u "Muss [1] O [2]")) (Some (u "[1] Test
[2] Test")) None None) y | Raise _ => false end = true.
Proof. vm_compute. repeat split; reflexivity. Qed.
(** tests/unit_tests/test_ahb.py:155 *)
Example test_ahb_line_equality_2 :
  line_eqb (mkLine (Some 24848579202443037615683488266146570204%N) (Some (u "SG2")) (Some (u "NAD")) (Some (u "3039")) None (Some (u "E01")) (Some (u "MP-ID")) (Some (u "Muss [1] O [2]")) (Some (u "[1] Test
[2] Test")) None None) (mkLine (Some 24848579202443037615683488266146570204%N) (Some (u "SG2")) (Some (u "NAD")) (Some (u "3039")) None (Some (u "E01")) (Some (u "MP-ID")) (Some (u "Muss [3] O [4]")) (Some (u "[3] Test
[4] Test")) None None) = false.
Proof. vm_compute. repeat split; reflexivity. Qed.
(** tests/unit_tests/test_ahb.py:539 *)
Example test_deep_ahb_equality_1 :
  deep_eqb (mkDeep (mkMeta (u "11042") (Some (u "0.3.0")) None None) [(mkGroup (u "disc A") (u "expr A") None (Some [(mkSegment (u "disc B") (u "expr B") None [(DPool (mkPool (Some (u "baz")) (u "0123") (Some (u "HELLO")) (Some VALUE_POOL) [(mkEntry (u "HELLO") (u "world") (u "X")); (mkEntry (u "MAUS") (u "rocks") (u "X"))])); (DFree (mkFreeText (Some (u "bar")) (u "4567") (Some (u "Hello Maus")) (Some TEXT) (u "Muss [1]")))] None None)]) (Some []))]) (mkDeep (mkMeta (u "11042") (Some (u "0.3.0")) None None) [(mkGroup (u "disc A") (u "expr A") None (Some [(mkSegment (u "disc B") (u "expr B") None [(DPool (mkPool (Some (u "baz")) (u "0123") (Some (u "MAUS")) (Some VALUE_POOL) [(mkEntry (u "HELLO") (u "world") (u "X")); (mkEntry (u "MAUS") (u "rocks") (u "X"))])); (DFree (mkFreeText (Some (u "bar")) (u "4567") (Some (u "Hello Mice")) (Some TEXT) (u "Muss [1]")))] None None)]) (Some []))]) = false.
Proof. vm_compute. repeat split; reflexivity. Qed.
(** tests/unit_tests/test_ahb.py:201 *)
Example test_ahbline_holds_any_information_1 :
  holds_any_information (mkLine (Some 24848579202443037615683488266146570204%N) (Some (u "SG2")) (Some (u "NAD")) (Some (u "3039")) None (Some (u "E01")) (Some (u "MP-ID")) (Some (u "Muss [1] O [2]")) (Some (u "[1] Test
[2] Test")) None None) = true.
Proof. vm_compute. repeat split; reflexivity. Qed.
(** tests/unit_tests/test_ahb.py:201 *)
Example test_ahbline_holds_any_information_2 :
  holds_any_information (mkLine (Some 24848579202443037615683488266146570204%N) None None None None None None None None None None) = false.
Proof. vm_compute. repeat split; reflexivity. Qed.
(** tests/unit_tests/test_ahb.py:201 *)
Example test_ahbline_holds_any_information_3 :
  holds_any_information (mkLine (Some 24848579202443037615683488266146570204%N) (Some (u "")) (Some (u "")) (Some (u "   ")) None (Some (u "")) (Some (u "")) None None None None) = false.
Proof. vm_compute. repeat split; reflexivity. Qed.
(** tests/unit_tests/test_ahb.py:252 *)
Example test_ahbline_get_discriminator_1 :
  get_discriminator (mkLine (Some 24848579202443037615683488266146570204%N) (Some (u "SG2")) (Some (u "NAD")) (Some (u "3039")) None (Some (u "E01")) (Some (u "MP-ID")) (Some (u "Muss [1] O [2]")) (Some (u "[1] Test
[2] Test")) None None) true = (u "SG2->NAD->3039 (MP-ID)").
Proof. vm_compute. repeat split; reflexivity. Qed.
(** tests/unit_tests/test_ahb.py:252 *)
Example test_ahbline_get_discriminator_2 :
  get_discriminator (mkLine (Some 24848579202443037615683488266146570204%N) (Some (u "SG2")) (Some (u "NAD")) (Some (u "3039")) None (Some (u "E01")) (Some (u "MP-ID")) (Some (u "Muss [1] O [2]")) (Some (u "[1] Test
[2] Test")) None None) false = (u "SG2->NAD->3039").
Proof. vm_compute. repeat split; reflexivity. Qed.
(** tests/unit_tests/test_ahb.py:252 *)
Example test_ahbline_get_discriminator_3 :
  get_discriminator (mkLine (Some 24848579202443037615683488266146570204%N) None (Some (u "UNH")) (Some (u "0062")) None None None (Some (u "Muss [1] O [2]")) (Some (u "[1] Test
[2] Test")) None None) true = (u "UNH->0062").
Proof. vm_compute. repeat split; reflexivity. Qed.
(** tests/unit_tests/test_ahb.py:589 *)
Example test_get_segment_groups_1 :
  get_available_segment_groups [(mkLine None (Some (u "Foo")) None None None None None None None None None); (mkLine None (Some (u "Bar")) None None None None None None None None None); (mkLine None None None None None None None None None None None); (mkLine None (Some (u "Bar")) None None None None None None None None None)] = [(Some (u "Foo")); (Some (u "Bar")); None].
Proof. vm_compute. repeat split; reflexivity. Qed.
(** tests/unit_tests/test_ahb.py:695 *)
Example test_sorted_segment_groups_1 :
  sorted_lines_by_segment_groups [(mkLine (Some 24848579202443037615683488266146570204%N) (Some (u "Foo")) None None None None None None None None None); (mkLine (Some 211045402426573479652929226358183864271%N) (Some (u "Bar")) None None None None None None None None None); (mkLine (Some 164715972367724938162598531435532097325%N) None None None None None None None None None None); (mkLine (Some 72267028874235264823310867935511633798%N) (Some (u "Bar")) None None None None None None None None None); (mkLine (Some 181380716949993909467746107679899505349%N) (Some (u "Foo")) None None None None None None None None None)] [(Some (u "Foo")); (Some (u "Bar")); None] = Ok [(mkLine (Some 24848579202443037615683488266146570204%N) (Some (u "Foo")) None None None None None None None None None); (mkLine (Some 181380716949993909467746107679899505349%N) (Some (u "Foo")) None None None None None None None None None); (mkLine (Some 211045402426573479652929226358183864271%N) (Some (u "Bar")) None None None None None None None None None); (mkLine (Some 72267028874235264823310867935511633798%N) (Some (u "Bar")) None None None None None None None None None); (mkLine (Some 164715972367724938162598531435532097325%N) None None None None None None None None None None)].
Proof. vm_compute. repeat split; reflexivity. Qed.
(** tests/unit_tests/test_ahb.py:850 *)
Example test_replacing_data_element_inputs_1 :
  replace_inputs_based_on_discriminator (mkDeep (mkMeta (u "11042") (Some (u "0.3.0")) None None) [(mkGroup (u "disc A") (u "expr A") None (Some [(mkSegment (u "disc B") (u "expr B") None [(DFree (mkFreeText (Some (u "foo")) (u "4567") (Some (u "Hello Maus")) (Some TEXT) (u "Muss [1]")))] (Some (u "foo")) None)]) (Some [(mkGroup (u "disc C") (u "expr C") None (Some [(mkSegment (u "disc Y") (u "expr Y") None [(DFree (mkFreeText (Some (u "abc")) (u "4567") (Some (u "Hello Elefant")) (Some TEXT) (u "Muss [1]"))); (DPool (mkPool (Some (u "ente")) (u "4567") (Some (u "Hello Ente")) (Some VALUE_POOL) [(mkEntry (u "Hallo Ente") (u "world") (u "X")); (mkEntry (u "MAUS") (u "rocks") (u "X"))])); (DFree (mkFreeText (Some (u "qwert")) (u "4567") (Some (u "this should stay untouched")) (Some TEXT) (u "Muss [1]"))); (DFree (mkFreeText (Some (u "replace_with_none_here")) (u "4567") (Some (u "Not none")) (Some TEXT) (u "Muss [1]")))] (Some (u "bar")) None)]) None)]))]) (fun d => if str_eqb d (u "foo") then mkReplacement true (Some (u "bar")) else if str_eqb d (u "abc") then mkReplacement true (Some (u "xyz")) else if str_eqb d (u "ente") then mkReplacement true (Some (u "quack")) else if str_eqb d (u "replace_with_none_here") then mkReplacement true None else mkReplacement false None) = (mkDeep (mkMeta (u "11042") (Some (u "0.3.0")) None None) [(mkGroup (u "disc A") (u "expr A") None (Some [(mkSegment (u "disc B") (u "expr B") None [(DFree (mkFreeText (Some (u "foo")) (u "4567") (Some (u "bar")) (Some TEXT) (u "Muss [1]")))] (Some (u "foo")) None)]) (Some [(mkGroup (u "disc C") (u "expr C") None (Some [(mkSegment (u "disc Y") (u "expr Y") None [(DFree (mkFreeText (Some (u "abc")) (u "4567") (Some (u "xyz")) (Some TEXT) (u "Muss [1]"))); (DPool (mkPool (Some (u "ente")) (u "4567") (Some (u "quack")) (Some VALUE_POOL) [(mkEntry (u "Hallo Ente") (u "world") (u "X")); (mkEntry (u "MAUS") (u "rocks") (u "X"))])); (DFree (mkFreeText (Some (u "qwert")) (u "4567") (Some (u "this should stay untouched")) (Some TEXT) (u "Muss [1]"))); (DFree (mkFreeText (Some (u "replace_with_none_here")) (u "4567") None (Some TEXT) (u "Muss [1]")))] (Some (u "bar")) None)]) None)]))]).
Proof. vm_compute. repeat split; reflexivity. Qed.
(** tests/unit_tests/test_ahb.py:908 *)
Example test_deep_ahb_get_value_pools_1 :
  List.length (get_all_value_pools (mkDeep (mkMeta (u "11042") (Some (u "0.3.0")) None None) [(mkGroup (u "disc A") (u "expr A") None (Some [(mkSegment (u "disc B") (u "expr B") None [(DPool (mkPool (Some (u "baz")) (u "0123") (Some (u "MAUS")) (Some VALUE_POOL) [(mkEntry (u "HELLO") (u "world") (u "X")); (mkEntry (u "MAUS") (u "rocks") (u "X"))])); (DFree (mkFreeText (Some (u "bar")) (u "4567") (Some (u "Hello Mice")) (Some TEXT) (u "Muss [1]")))] None None)]) (Some []))])) = 1.
Proof. vm_compute. repeat split; reflexivity. Qed.
