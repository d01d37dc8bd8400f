(** Generated by tools/gen_tests.py from tests/unit_tests/test_ahb_location_as_xml.py: a test of the model, not a proof.
    The model is evaluated on the arguments of the project's own unit tests and compared with the values expected there. *)
From Coq Require Import Ascii String List NArith ZArith Bool.
From Verif Require Import PyBase PyStr M_Navigation M_Xml M_LocationXml M_XmlText.
Import ListNotations.
Local Open Scope list_scope.

(** no names beyond ASCII, the declarations of the tests, no document types, no namespaces *)
Definition no_high : char -> bool := fun _ => false.
(** the declarations of the tests are accepted *)
Definition any_declaration : pystr -> bool := fun _ => true.
(** there are no document type declarations in the tests *)
Definition no_doctype : pystr -> result element := fun _ => Raise ExpatError.
(** etree.fromstring *)
Definition fromstring : pystr -> result element := scan_document no_high no_high any_declaration no_doctype.

(** tests/unit_tests/test_ahb_location_as_xml.py:34 *)
Example test_xml_roundtrip_1 :
  (let* e := to_xml_element (mkLocation false [(mkLayer None (u "UNH") (Some (u "UTILMD"))); (mkLayer (Some (u "SG2")) (u "NAD") (Some (u "MS"))); (mkLayer (Some (u "SG3")) (u "CTA") (Some (u "IC")))] (Some (u "COM")) (Some (u "3148")) None) in from_xml_element e) = Ok (mkLocation false [(mkLayer None (u "UNH") (Some (u "UTILMD"))); (mkLayer (Some (u "SG2")) (u "NAD") (Some (u "MS"))); (mkLayer (Some (u "SG3")) (u "CTA") (Some (u "IC")))] (Some (u "COM")) (Some (u "3148")) None).
Proof. vm_compute. repeat split; reflexivity. Qed.
(** tests/unit_tests/test_ahb_location_as_xml.py:80 *)
Example test_xml_roundtrip_list_1 :
  (let* e := to_xml_elements [(mkLocation false [(mkLayer None (u "UNH") (Some (u "UTILMD"))); (mkLayer (Some (u "SG2")) (u "NAD") (Some (u "MS"))); (mkLayer (Some (u "SG3")) (u "CTA") (Some (u "IC")))] (Some (u "COM")) (Some (u "3148")) None); (mkLocation false [(mkLayer None (u "UNH") (Some (u "UTILMD"))); (mkLayer (Some (u "SG2")) (u "NAD") (Some (u "MS"))); (mkLayer (Some (u "SG3")) (u "CTA") (Some (u "IC")))] (Some (u "CTA")) None None)] in from_xml_elements e) = Ok [(mkLocation false [(mkLayer None (u "UNH") (Some (u "UTILMD"))); (mkLayer (Some (u "SG2")) (u "NAD") (Some (u "MS"))); (mkLayer (Some (u "SG3")) (u "CTA") (Some (u "IC")))] (Some (u "COM")) (Some (u "3148")) None); (mkLocation false [(mkLayer None (u "UNH") (Some (u "UTILMD"))); (mkLayer (Some (u "SG2")) (u "NAD") (Some (u "MS"))); (mkLayer (Some (u "SG3")) (u "CTA") (Some (u "IC")))] (Some (u "CTA")) None None)].
Proof. vm_compute. repeat split; reflexivity. Qed.
(** tests/unit_tests/test_ahb_location_as_xml.py:143 *)
Example test_element_to_locations_1 :
  (let* e := fromstring (u "<ahbLocations>
    <ahbLocation>
        <layers>
            <ahbLocationLayer>
                <segment_group_key
                        xmlns:ns0=""xsi"" ns0:nil=""true""/>
                <opening_segment_code>
                    UNH
                </opening_segment_code>
                <opening_qualifier>UTILMD</opening_qualifier>
            </ahbLocationLayer>
            <ahbLocationLayer>
                <segment_group_key>SG4</segment_group_key>
                <opening_segment_code>IDE</opening_segment_code>
                <opening_qualifier>
                    24
                </opening_qualifier>
            </ahbLocationLayer>
            <ahbLocationLayer>
                <segment_group_key>SG6</segment_group_key>
                <opening_segment_code>RFF</opening_segment_code>
                <opening_qualifier>
                    Z18
                </opening_qualifier>
            </ahbLocationLayer>
        </layers>
        <segment_code>DTM</segment_code>
        <data_element_id>2380</data_element_id>
        <qualifier xmlns:ns0=""xsi"" ns0:nil=""true""/>
    </ahbLocation>
</ahbLocations>") in from_xml_elements e) = Ok [(mkLocation false [(mkLayer None (u "UNH") (Some (u "UTILMD"))); (mkLayer (Some (u "SG4")) (u "IDE") (Some (u "24"))); (mkLayer (Some (u "SG6")) (u "RFF") (Some (u "Z18")))] (Some (u "DTM")) (Some (u "2380")) None)].
Proof. vm_compute. repeat split; reflexivity. Qed.
