(** Generated by tools/gen_tests.py from tests/unit_tests/test_mig.py: a test of the model, not a proof.
    The model is evaluated on the arguments of the project's own unit tests and compared with the values expected there. *)
From Coq Require Import Ascii String List NArith ZArith Bool.
From Verif Require Import PyBase PyStr M_Sgh M_Schema M_Cli M_JsonText.
Import ListNotations.
Local Open Scope list_scope.

(** serialization_test_helper.py:9-24; keys of JSON objects have no order *)
Definition round_trip {A} (dump : A -> json) (load : json -> result A) (x : A) (expected : json) : Prop :=
  sort_keys (dump x) = sort_keys expected /\ load (dump x) = Ok x.
(** no class attribute of the enum is used *)
Definition no_attribute : pystr -> option bool := fun _ => None.

(** tests/unit_tests/test_mig.py:98 *)
Example test_segment_group_hierarchy_serialization_roundtrip_1 :
  round_trip dump_sgh load_sgh (mkSgh None (u "UNH") (Some [(mkSgh (Some (u "SG1")) (u "RFF") (Some [])); (mkSgh (Some (u "SG2")) (u "NAD") (Some [(mkSgh (Some (u "SG3")) (u "CTA") (Some []))])); (mkSgh (Some (u "SG4")) (u "IDE") (Some [(mkSgh (Some (u "SG5")) (u "LOC") None); (mkSgh (Some (u "SG6")) (u "RFF") None); (mkSgh (Some (u "SG8")) (u "SEQ") (Some [(mkSgh (Some (u "SG9")) (u "QTY") None); (mkSgh (Some (u "SG10")) (u "CCI") None)])); (mkSgh (Some (u "SG12")) (u "NAD") None)]))])) (JObj [((u "opening_segment"), (JStr (u "UNH"))); ((u "segment_group"), JNull); ((u "sub_hierarchy"), (JList [(JObj [((u "opening_segment"), (JStr (u "RFF"))); ((u "segment_group"), (JStr (u "SG1"))); ((u "sub_hierarchy"), (JList []))]); (JObj [((u "opening_segment"), (JStr (u "NAD"))); ((u "segment_group"), (JStr (u "SG2"))); ((u "sub_hierarchy"), (JList [(JObj [((u "opening_segment"), (JStr (u "CTA"))); ((u "segment_group"), (JStr (u "SG3"))); ((u "sub_hierarchy"), (JList []))])]))]); (JObj [((u "opening_segment"), (JStr (u "IDE"))); ((u "segment_group"), (JStr (u "SG4"))); ((u "sub_hierarchy"), (JList [(JObj [((u "opening_segment"), (JStr (u "LOC"))); ((u "segment_group"), (JStr (u "SG5"))); ((u "sub_hierarchy"), JNull)]); (JObj [((u "opening_segment"), (JStr (u "RFF"))); ((u "segment_group"), (JStr (u "SG6"))); ((u "sub_hierarchy"), JNull)]); (JObj [((u "opening_segment"), (JStr (u "SEQ"))); ((u "segment_group"), (JStr (u "SG8"))); ((u "sub_hierarchy"), (JList [(JObj [((u "opening_segment"), (JStr (u "QTY"))); ((u "segment_group"), (JStr (u "SG9"))); ((u "sub_hierarchy"), JNull)]); (JObj [((u "opening_segment"), (JStr (u "CCI"))); ((u "segment_group"), (JStr (u "SG10"))); ((u "sub_hierarchy"), JNull)])]))]); (JObj [((u "opening_segment"), (JStr (u "NAD"))); ((u "segment_group"), (JStr (u "SG12"))); ((u "sub_hierarchy"), JNull)])]))])]))]).
Proof. vm_compute. repeat split; reflexivity. Qed.
(** tests/unit_tests/test_mig.py:150 *)
Example test_flattening_1 :
  (let* j := loads (fun _ => None) (u "{
  ""opening_segment"": ""UNH"",
  ""segment_group"": null,
  ""sub_hierarchy"": [
    { ""opening_segment"": ""RFF"", ""segment_group"": ""SG1"", ""sub_hierarchy"": [] },
    {
      ""opening_segment"": ""NAD"",
      ""segment_group"": ""SG2"",
      ""sub_hierarchy"": [
        {
          ""opening_segment"": ""CTA"",
          ""segment_group"": ""SG3"",
          ""sub_hierarchy"": []
        }
      ]
    },
    {
      ""opening_segment"": ""IDE"",
      ""segment_group"": ""SG4"",
      ""sub_hierarchy"": [
        {
          ""opening_segment"": ""LOC"",
          ""segment_group"": ""SG5"",
          ""sub_hierarchy"": null
        },
        {
          ""opening_segment"": ""RFF"",
          ""segment_group"": ""SG6"",
          ""sub_hierarchy"": null
        },
        {
          ""opening_segment"": ""SEQ"",
          ""segment_group"": ""SG8"",
          ""sub_hierarchy"": [
            {
              ""opening_segment"": ""QTY"",
              ""segment_group"": ""SG9"",
              ""sub_hierarchy"": null
            },
            {
              ""opening_segment"": ""CCI"",
              ""segment_group"": ""SG10"",
              ""sub_hierarchy"": null
            }
          ]
        },
        {
          ""opening_segment"": ""NAD"",
          ""segment_group"": ""SG12"",
          ""sub_hierarchy"": null
        }
      ]
    }
  ]
}
") in let* h := load_sgh j in Ok (flattened h)) = Ok [(None, (u "UNH")); ((Some (u "SG1")), (u "RFF")); ((Some (u "SG2")), (u "NAD")); ((Some (u "SG3")), (u "CTA")); ((Some (u "SG4")), (u "IDE")); ((Some (u "SG5")), (u "LOC")); ((Some (u "SG6")), (u "RFF")); ((Some (u "SG8")), (u "SEQ")); ((Some (u "SG9")), (u "QTY")); ((Some (u "SG10")), (u "CCI")); ((Some (u "SG12")), (u "NAD"))].
Proof. vm_compute. repeat split; reflexivity. Qed.
(** tests/unit_tests/test_mig.py:150 *)
Example test_flattening_2 :
  (let* j := loads (fun _ => None) (u "{
  ""segment_group"": null,
  ""opening_segment"": ""UNB"",
  ""sub_hierarchy"": [
    { ""segment_group"": ""SG1"", ""opening_segment"": ""RFF"", ""sub_hierarchy"": null },
    {
      ""segment_group"": ""SG2"",
      ""opening_segment"": ""NAD"",
      ""sub_hierarchy"": [
        {
          ""segment_group"": ""SG4"",
          ""opening_segment"": ""CTA"",
          ""sub_hierarchy"": null
        }
      ]
    },
    {
      ""segment_group"": ""SG5"",
      ""opening_segment"": ""NAD"",
      ""sub_hierarchy"": [
        {
          ""segment_group"": ""SG6"",
          ""opening_segment"": ""LOC"",
          ""sub_hierarchy"": [
            {
              ""segment_group"": ""SG7"",
              ""opening_segment"": ""RFF"",
              ""sub_hierarchy"": null
            },
            {
              ""segment_group"": ""SG8"",
              ""opening_segment"": ""CCI"",
              ""sub_hierarchy"": null
            },
            {
              ""segment_group"": ""SG9"",
              ""opening_segment"": ""LIN"",
              ""sub_hierarchy"": [
                {
                  ""segment_group"": ""SG10"",
                  ""opening_segment"": ""QTY"",
                  ""sub_hierarchy"": null
                }
              ]
            }
          ]
        }
      ]
    }
  ]
}
") in let* h := load_sgh j in Ok (flattened h)) = Ok [(None, (u "UNB")); ((Some (u "SG1")), (u "RFF")); ((Some (u "SG2")), (u "NAD")); ((Some (u "SG4")), (u "CTA")); ((Some (u "SG5")), (u "NAD")); ((Some (u "SG6")), (u "LOC")); ((Some (u "SG7")), (u "RFF")); ((Some (u "SG8")), (u "CCI")); ((Some (u "SG9")), (u "LIN")); ((Some (u "SG10")), (u "QTY"))].
Proof. vm_compute. repeat split; reflexivity. Qed.
(** tests/unit_tests/test_mig.py:150 *)
Example test_flattening_3 :
  (let* j := loads (fun _ => None) (u "{
  ""opening_segment"": ""UNH"",
  ""segment_group"": null,
  ""sub_hierarchy"": [
    { ""opening_segment"": ""RFF"", ""segment_group"": ""SG1"", ""sub_hierarchy"": [] },
    {
      ""opening_segment"": ""NAD"",
      ""segment_group"": ""SG11"",
      ""sub_hierarchy"": [
        {
          ""opening_segment"": ""CTA"",
          ""segment_group"": ""SG14"",
          ""sub_hierarchy"": []
        }
      ]
    },
    {
      ""opening_segment"": ""LIN"",
      ""segment_group"": ""SG27"",
      ""sub_hierarchy"": []
    }
  ]
}
") in let* h := load_sgh j in Ok (flattened h)) = Ok [(None, (u "UNH")); ((Some (u "SG1")), (u "RFF")); ((Some (u "SG11")), (u "NAD")); ((Some (u "SG14")), (u "CTA")); ((Some (u "SG27")), (u "LIN"))].
Proof. vm_compute. repeat split; reflexivity. Qed.
(** tests/unit_tests/test_mig.py:197 *)
Example test_is_hierarchically_below_1 :
  is_hierarchically_below (mkSgh (Some (u "SG4")) (u "IDE") (Some [(mkSgh (Some (u "SG5")) (u "LOC") None); (mkSgh (Some (u "SG6")) (u "RFF") None); (mkSgh (Some (u "SG8")) (u "SEQ") (Some [(mkSgh (Some (u "SG9")) (u "QTY") None); (mkSgh (Some (u "SG10")) (u "CCI") None)])); (mkSgh (Some (u "SG12")) (u "NAD") None)])) (Some (u "SG5")) = true.
Proof. vm_compute. repeat split; reflexivity. Qed.
(** tests/unit_tests/test_mig.py:197 *)
Example test_is_hierarchically_below_2 :
  is_hierarchically_below (mkSgh (Some (u "SG4")) (u "IDE") (Some [(mkSgh (Some (u "SG5")) (u "LOC") None); (mkSgh (Some (u "SG6")) (u "RFF") None); (mkSgh (Some (u "SG8")) (u "SEQ") (Some [(mkSgh (Some (u "SG9")) (u "QTY") None); (mkSgh (Some (u "SG10")) (u "CCI") None)])); (mkSgh (Some (u "SG12")) (u "NAD") None)])) (Some (u "SG8")) = true.
Proof. vm_compute. repeat split; reflexivity. Qed.
(** tests/unit_tests/test_mig.py:197 *)
Example test_is_hierarchically_below_3 :
  is_hierarchically_below (mkSgh (Some (u "SG4")) (u "IDE") (Some [(mkSgh (Some (u "SG5")) (u "LOC") None); (mkSgh (Some (u "SG6")) (u "RFF") None); (mkSgh (Some (u "SG8")) (u "SEQ") (Some [(mkSgh (Some (u "SG9")) (u "QTY") None); (mkSgh (Some (u "SG10")) (u "CCI") None)])); (mkSgh (Some (u "SG12")) (u "NAD") None)])) (Some (u "SG9")) = true.
Proof. vm_compute. repeat split; reflexivity. Qed.
(** tests/unit_tests/test_mig.py:197 *)
Example test_is_hierarchically_below_4 :
  is_hierarchically_below (mkSgh (Some (u "SG4")) (u "IDE") (Some [(mkSgh (Some (u "SG5")) (u "LOC") None); (mkSgh (Some (u "SG6")) (u "RFF") None); (mkSgh (Some (u "SG8")) (u "SEQ") (Some [(mkSgh (Some (u "SG9")) (u "QTY") None); (mkSgh (Some (u "SG10")) (u "CCI") None)])); (mkSgh (Some (u "SG12")) (u "NAD") None)])) (Some (u "SG10")) = true.
Proof. vm_compute. repeat split; reflexivity. Qed.
(** tests/unit_tests/test_mig.py:197 *)
Example test_is_hierarchically_below_5 :
  is_hierarchically_below (mkSgh (Some (u "SG4")) (u "IDE") (Some [(mkSgh (Some (u "SG5")) (u "LOC") None); (mkSgh (Some (u "SG6")) (u "RFF") None); (mkSgh (Some (u "SG8")) (u "SEQ") (Some [(mkSgh (Some (u "SG9")) (u "QTY") None); (mkSgh (Some (u "SG10")) (u "CCI") None)])); (mkSgh (Some (u "SG12")) (u "NAD") None)])) (Some (u "SG2")) = false.
Proof. vm_compute. repeat split; reflexivity. Qed.
(** tests/unit_tests/test_mig.py:197 *)
Example test_is_hierarchically_below_6 :
  is_hierarchically_below (mkSgh (Some (u "SG4")) (u "IDE") (Some [(mkSgh (Some (u "SG5")) (u "LOC") None); (mkSgh (Some (u "SG6")) (u "RFF") None); (mkSgh (Some (u "SG8")) (u "SEQ") (Some [(mkSgh (Some (u "SG9")) (u "QTY") None); (mkSgh (Some (u "SG10")) (u "CCI") None)])); (mkSgh (Some (u "SG12")) (u "NAD") None)])) (Some (u "SG4")) = false.
Proof. vm_compute. repeat split; reflexivity. Qed.
(** tests/unit_tests/test_mig.py:197 *)
Example test_is_hierarchically_below_7 :
  is_hierarchically_below (mkSgh (Some (u "SG4")) (u "IDE") (Some [(mkSgh (Some (u "SG5")) (u "LOC") None); (mkSgh (Some (u "SG6")) (u "RFF") None); (mkSgh (Some (u "SG8")) (u "SEQ") (Some [(mkSgh (Some (u "SG9")) (u "QTY") None); (mkSgh (Some (u "SG10")) (u "CCI") None)])); (mkSgh (Some (u "SG12")) (u "NAD") None)])) None = false.
Proof. vm_compute. repeat split; reflexivity. Qed.
(** tests/unit_tests/test_mig.py:251 *)
Example test_sg_is_hierarchically_below_1 :
  sg_is_hierarchically_below (mkSgh (Some (u "SG4")) (u "IDE") (Some [(mkSgh (Some (u "SG5")) (u "LOC") None); (mkSgh (Some (u "SG6")) (u "RFF") None); (mkSgh (Some (u "SG8")) (u "SEQ") (Some [(mkSgh (Some (u "SG9")) (u "QTY") None); (mkSgh (Some (u "SG10")) (u "CCI") None)])); (mkSgh (Some (u "SG12")) (u "NAD") None); (mkSgh None (u "ASD") None)])) (Some (u "SG5")) (Some (u "SG5")) = false.
Proof. vm_compute. repeat split; reflexivity. Qed.
(** tests/unit_tests/test_mig.py:251 *)
Example test_sg_is_hierarchically_below_2 :
  sg_is_hierarchically_below (mkSgh (Some (u "SG4")) (u "IDE") (Some [(mkSgh (Some (u "SG5")) (u "LOC") None); (mkSgh (Some (u "SG6")) (u "RFF") None); (mkSgh (Some (u "SG8")) (u "SEQ") (Some [(mkSgh (Some (u "SG9")) (u "QTY") None); (mkSgh (Some (u "SG10")) (u "CCI") None)])); (mkSgh (Some (u "SG12")) (u "NAD") None); (mkSgh None (u "ASD") None)])) (Some (u "SG5")) (Some (u "SG4")) = true.
Proof. vm_compute. repeat split; reflexivity. Qed.
(** tests/unit_tests/test_mig.py:251 *)
Example test_sg_is_hierarchically_below_3 :
  sg_is_hierarchically_below (mkSgh (Some (u "SG4")) (u "IDE") (Some [(mkSgh (Some (u "SG5")) (u "LOC") None); (mkSgh (Some (u "SG6")) (u "RFF") None); (mkSgh (Some (u "SG8")) (u "SEQ") (Some [(mkSgh (Some (u "SG9")) (u "QTY") None); (mkSgh (Some (u "SG10")) (u "CCI") None)])); (mkSgh (Some (u "SG12")) (u "NAD") None); (mkSgh None (u "ASD") None)])) (Some (u "SG6")) (Some (u "SG4")) = true.
Proof. vm_compute. repeat split; reflexivity. Qed.
(** tests/unit_tests/test_mig.py:251 *)
Example test_sg_is_hierarchically_below_4 :
  sg_is_hierarchically_below (mkSgh (Some (u "SG4")) (u "IDE") (Some [(mkSgh (Some (u "SG5")) (u "LOC") None); (mkSgh (Some (u "SG6")) (u "RFF") None); (mkSgh (Some (u "SG8")) (u "SEQ") (Some [(mkSgh (Some (u "SG9")) (u "QTY") None); (mkSgh (Some (u "SG10")) (u "CCI") None)])); (mkSgh (Some (u "SG12")) (u "NAD") None); (mkSgh None (u "ASD") None)])) (Some (u "SG4")) (Some (u "SG5")) = false.
Proof. vm_compute. repeat split; reflexivity. Qed.
(** tests/unit_tests/test_mig.py:251 *)
Example test_sg_is_hierarchically_below_5 :
  sg_is_hierarchically_below (mkSgh (Some (u "SG4")) (u "IDE") (Some [(mkSgh (Some (u "SG5")) (u "LOC") None); (mkSgh (Some (u "SG6")) (u "RFF") None); (mkSgh (Some (u "SG8")) (u "SEQ") (Some [(mkSgh (Some (u "SG9")) (u "QTY") None); (mkSgh (Some (u "SG10")) (u "CCI") None)])); (mkSgh (Some (u "SG12")) (u "NAD") None); (mkSgh None (u "ASD") None)])) (Some (u "SG8")) (Some (u "SG5")) = false.
Proof. vm_compute. repeat split; reflexivity. Qed.
(** tests/unit_tests/test_mig.py:251 *)
Example test_sg_is_hierarchically_below_6 :
  sg_is_hierarchically_below (mkSgh (Some (u "SG4")) (u "IDE") (Some [(mkSgh (Some (u "SG5")) (u "LOC") None); (mkSgh (Some (u "SG6")) (u "RFF") None); (mkSgh (Some (u "SG8")) (u "SEQ") (Some [(mkSgh (Some (u "SG9")) (u "QTY") None); (mkSgh (Some (u "SG10")) (u "CCI") None)])); (mkSgh (Some (u "SG12")) (u "NAD") None); (mkSgh None (u "ASD") None)])) (Some (u "SG8")) (Some (u "SG4")) = true.
Proof. vm_compute. repeat split; reflexivity. Qed.
(** tests/unit_tests/test_mig.py:251 *)
Example test_sg_is_hierarchically_below_7 :
  sg_is_hierarchically_below (mkSgh (Some (u "SG4")) (u "IDE") (Some [(mkSgh (Some (u "SG5")) (u "LOC") None); (mkSgh (Some (u "SG6")) (u "RFF") None); (mkSgh (Some (u "SG8")) (u "SEQ") (Some [(mkSgh (Some (u "SG9")) (u "QTY") None); (mkSgh (Some (u "SG10")) (u "CCI") None)])); (mkSgh (Some (u "SG12")) (u "NAD") None); (mkSgh None (u "ASD") None)])) (Some (u "SG9")) (Some (u "SG4")) = true.
Proof. vm_compute. repeat split; reflexivity. Qed.
(** tests/unit_tests/test_mig.py:251 *)
Example test_sg_is_hierarchically_below_8 :
  sg_is_hierarchically_below (mkSgh (Some (u "SG4")) (u "IDE") (Some [(mkSgh (Some (u "SG5")) (u "LOC") None); (mkSgh (Some (u "SG6")) (u "RFF") None); (mkSgh (Some (u "SG8")) (u "SEQ") (Some [(mkSgh (Some (u "SG9")) (u "QTY") None); (mkSgh (Some (u "SG10")) (u "CCI") None)])); (mkSgh (Some (u "SG12")) (u "NAD") None); (mkSgh None (u "ASD") None)])) (Some (u "SG9")) (Some (u "SG8")) = true.
Proof. vm_compute. repeat split; reflexivity. Qed.
(** tests/unit_tests/test_mig.py:251 *)
Example test_sg_is_hierarchically_below_9 :
  sg_is_hierarchically_below (mkSgh (Some (u "SG4")) (u "IDE") (Some [(mkSgh (Some (u "SG5")) (u "LOC") None); (mkSgh (Some (u "SG6")) (u "RFF") None); (mkSgh (Some (u "SG8")) (u "SEQ") (Some [(mkSgh (Some (u "SG9")) (u "QTY") None); (mkSgh (Some (u "SG10")) (u "CCI") None)])); (mkSgh (Some (u "SG12")) (u "NAD") None); (mkSgh None (u "ASD") None)])) (Some (u "SG12")) (Some (u "SG9")) = false.
Proof. vm_compute. repeat split; reflexivity. Qed.
(** tests/unit_tests/test_mig.py:251 *)
Example test_sg_is_hierarchically_below_10 :
  sg_is_hierarchically_below (mkSgh (Some (u "SG4")) (u "IDE") (Some [(mkSgh (Some (u "SG5")) (u "LOC") None); (mkSgh (Some (u "SG6")) (u "RFF") None); (mkSgh (Some (u "SG8")) (u "SEQ") (Some [(mkSgh (Some (u "SG9")) (u "QTY") None); (mkSgh (Some (u "SG10")) (u "CCI") None)])); (mkSgh (Some (u "SG12")) (u "NAD") None); (mkSgh None (u "ASD") None)])) (Some (u "SG777")) (Some (u "SG4")) = false.
Proof. vm_compute. repeat split; reflexivity. Qed.
(** tests/unit_tests/test_mig.py:251 *)
Example test_sg_is_hierarchically_below_11 :
  sg_is_hierarchically_below (mkSgh (Some (u "SG4")) (u "IDE") (Some [(mkSgh (Some (u "SG5")) (u "LOC") None); (mkSgh (Some (u "SG6")) (u "RFF") None); (mkSgh (Some (u "SG8")) (u "SEQ") (Some [(mkSgh (Some (u "SG9")) (u "QTY") None); (mkSgh (Some (u "SG10")) (u "CCI") None)])); (mkSgh (Some (u "SG12")) (u "NAD") None); (mkSgh None (u "ASD") None)])) (Some (u "SG4")) (Some (u "SG777")) = false.
Proof. vm_compute. repeat split; reflexivity. Qed.
(** tests/unit_tests/test_mig.py:251 *)
Example test_sg_is_hierarchically_below_12 :
  sg_is_hierarchically_below (mkSgh (Some (u "SG4")) (u "IDE") (Some [(mkSgh (Some (u "SG5")) (u "LOC") None); (mkSgh (Some (u "SG6")) (u "RFF") None); (mkSgh (Some (u "SG8")) (u "SEQ") (Some [(mkSgh (Some (u "SG9")) (u "QTY") None); (mkSgh (Some (u "SG10")) (u "CCI") None)])); (mkSgh (Some (u "SG12")) (u "NAD") None); (mkSgh None (u "ASD") None)])) None (Some (u "SG4")) = true.
Proof. vm_compute. repeat split; reflexivity. Qed.
(** tests/unit_tests/test_mig.py:251 *)
Example test_sg_is_hierarchically_below_13 :
  sg_is_hierarchically_below (mkSgh (Some (u "SG4")) (u "IDE") (Some [(mkSgh (Some (u "SG5")) (u "LOC") None); (mkSgh (Some (u "SG6")) (u "RFF") None); (mkSgh (Some (u "SG8")) (u "SEQ") (Some [(mkSgh (Some (u "SG9")) (u "QTY") None); (mkSgh (Some (u "SG10")) (u "CCI") None)])); (mkSgh (Some (u "SG12")) (u "NAD") None); (mkSgh None (u "ASD") None)])) None (Some (u "SG12")) = false.
Proof. vm_compute. repeat split; reflexivity. Qed.
(** tests/unit_tests/test_mig.py:251 *)
Example test_sg_is_hierarchically_below_14 :
  sg_is_hierarchically_below (mkSgh (Some (u "SG4")) (u "IDE") (Some [(mkSgh (Some (u "SG5")) (u "LOC") None); (mkSgh (Some (u "SG6")) (u "RFF") None); (mkSgh (Some (u "SG8")) (u "SEQ") (Some [(mkSgh (Some (u "SG9")) (u "QTY") None); (mkSgh (Some (u "SG10")) (u "CCI") None)])); (mkSgh (Some (u "SG12")) (u "NAD") None); (mkSgh None (u "ASD") None)])) (Some (u "SG4")) None = false.
Proof. vm_compute. repeat split; reflexivity. Qed.
(** tests/unit_tests/test_mig.py:251 *)
Example test_sg_is_hierarchically_below_15 :
  sg_is_hierarchically_below (mkSgh (Some (u "SG4")) (u "IDE") (Some [(mkSgh (Some (u "SG5")) (u "LOC") None); (mkSgh (Some (u "SG6")) (u "RFF") None); (mkSgh (Some (u "SG8")) (u "SEQ") (Some [(mkSgh (Some (u "SG9")) (u "QTY") None); (mkSgh (Some (u "SG10")) (u "CCI") None)])); (mkSgh (Some (u "SG12")) (u "NAD") None); (mkSgh None (u "ASD") None)])) None None = false.
Proof. vm_compute. repeat split; reflexivity. Qed.
