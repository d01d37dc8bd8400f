(** Generated by tools/gen_tests.py from tests/unit_tests/test_mig_xml_reader_real_data.py: a test of the model, not a proof.
    The model is evaluated on the arguments of the project's own unit tests and compared with the values expected there. *)
From Coq Require Import Ascii String List NArith ZArith Bool.
From Verif Require Import PyBase PyStr M_JsonText M_Xml M_MigXml M_XmlText M_MigFile.
Import ListNotations.
Local Open Scope list_scope.

(** no names beyond ASCII, the declarations of the tests, no document types, no namespaces *)
Definition no_high : char -> bool := fun _ => false.
(** the declarations of the tests are accepted *)
Definition any_declaration : pystr -> bool := fun _ => true.
(** there are no document type declarations in the tests *)
Definition no_doctype : pystr -> result element := fun _ => Raise ExpatError.
(** etree.fromstring *)
Definition fromstring : pystr -> result element := scan_document no_high no_high any_declaration no_doctype.

(** the names of the formats that occur *)
Definition formats : list pystr := [u "UTILMD"; u "MSCONS"; u "REQOTE"].
(** the document in a file *)
Definition document (b : list N) : result element :=
  lxml_parse no_high no_high any_declaration no_doctype (fun _ => Raise XMLSyntaxError) (fun _ => false) decode_utf8 (Some b).

(** tests/unit_tests/migs/FV2204/template_xmls/mscons_1154.xml, line by line *)
Definition file_FV2204_mscons_1154 : list N := removelast (flat_map (fun l => bytes_of l ++ [10%N]) ["<?xml version=""1.0""?>"; "<!-- a stripped down template file for MSCONS data element 1154 testcases -->"; "<MSCONS>"; "    <class name=""Dokument"" ref=""/"" key=""UNB:5:0"">"; "        <class name=""Nachricht"" ref=""UNH"" key=""UNH:1:0"">"; "            <class name=""Prüfidentifikator"" ref=""SG1"" key=""RFF:1:1[RFF:1:0=Z13]"">"; "                <field name=""ID"" ref=""RFF:1:1"" meta.id=""1154""/>"; "            </class>"; "            <class name=""Referenz Anfrage"" ref=""SG1"" key=""RFF:1:1[RFF:1:0=AGI]"" ahbName=""Referenzangaben"">"; "                <field name=""Referenz Anfrage"" ref=""RFF:1:1[RFF:1:0=AGI]"" meta.id=""1154""/>"; "            </class>"; "            <class name=""Referenz Storno"" ref=""SG1"" key=""RFF:1:1[RFF:1:0=ACW]"" ahbName=""Referenzangaben"">"; "                <field name=""Referenz Storno"" ref=""RFF:1:1[RFF:1:0=ACW]"" meta.id=""1154""/>"; "            </class>"; "            <class name=""Vorgang"" ref=""SG5"" key=""LOC:2:0"" ahbName=""Name und Adresse"">"; "                <class name=""Zeitreihe"" ref=""SG6"" ahbName=""Identifikationsangabe"" max=""9999"">"; "                    <class name=""Zaehlernummer"" ref=""SG7"" key=""RFF:1:1[1:0=MG]"" ahbName=""Gerätenummer"">"; "                        <field name=""Nummer"" ref=""RFF:1:1"" meta.id=""1154""/>"; "                    </class>"; "                </class>"; "            </class>"; "        </class>"; "    </class>"; "</MSCONS>"; ""]%string).
(** tests/unit_tests/test_mig_xml_reader_real_data.py:33 *)
Example test_is_parsable_1 :
  check_file_can_be_parsed_as_mig_xml no_high no_high any_declaration no_doctype (fun _ => Raise XMLSyntaxError) (fun _ => false) (fun _ => false) decode_utf8 formats (Some file_FV2204_mscons_1154) = Ok tt.
Proof. vm_compute. repeat split; reflexivity. Qed.
(** tests/unit_tests/test_mig_xml_reader_real_data.py:33 *)
Example test_is_parsable_2 :
  document file_FV2204_mscons_1154 = Ok (Element (u "MSCONS") [] (Some (u "
    
")) [(Element (u "class") [((u "name"), (u "Dokument")); ((u "ref"), (u "/")); ((u "key"), (u "UNB:5:0"))] (Some (u "
        
    ")) [(Element (u "class") [((u "name"), (u "Nachricht")); ((u "ref"), (u "UNH")); ((u "key"), (u "UNH:1:0"))] (Some (u "
            
            
            
            
        ")) [(Element (u "class") [((u "name"), (u "Prüfidentifikator")); ((u "ref"), (u "SG1")); ((u "key"), (u "RFF:1:1[RFF:1:0=Z13]"))] (Some (u "
                
            ")) [(Element (u "field") [((u "name"), (u "ID")); ((u "ref"), (u "RFF:1:1")); ((u "meta.id"), (u "1154"))] None [])]); (Element (u "class") [((u "name"), (u "Referenz Anfrage")); ((u "ref"), (u "SG1")); ((u "key"), (u "RFF:1:1[RFF:1:0=AGI]")); ((u "ahbName"), (u "Referenzangaben"))] (Some (u "
                
            ")) [(Element (u "field") [((u "name"), (u "Referenz Anfrage")); ((u "ref"), (u "RFF:1:1[RFF:1:0=AGI]")); ((u "meta.id"), (u "1154"))] None [])]); (Element (u "class") [((u "name"), (u "Referenz Storno")); ((u "ref"), (u "SG1")); ((u "key"), (u "RFF:1:1[RFF:1:0=ACW]")); ((u "ahbName"), (u "Referenzangaben"))] (Some (u "
                
            ")) [(Element (u "field") [((u "name"), (u "Referenz Storno")); ((u "ref"), (u "RFF:1:1[RFF:1:0=ACW]")); ((u "meta.id"), (u "1154"))] None [])]); (Element (u "class") [((u "name"), (u "Vorgang")); ((u "ref"), (u "SG5")); ((u "key"), (u "LOC:2:0")); ((u "ahbName"), (u "Name und Adresse"))] (Some (u "
                
            ")) [(Element (u "class") [((u "name"), (u "Zeitreihe")); ((u "ref"), (u "SG6")); ((u "ahbName"), (u "Identifikationsangabe")); ((u "max"), (u "9999"))] (Some (u "
                    
                ")) [(Element (u "class") [((u "name"), (u "Zaehlernummer")); ((u "ref"), (u "SG7")); ((u "key"), (u "RFF:1:1[1:0=MG]")); ((u "ahbName"), (u "Gerätenummer"))] (Some (u "
                        
                    ")) [(Element (u "field") [((u "name"), (u "Nummer")); ((u "ref"), (u "RFF:1:1")); ((u "meta.id"), (u "1154"))] None [])])])])])])]).
Proof. vm_compute. repeat split; reflexivity. Qed.
(** tests/unit_tests/migs/FV2204/template_xmls/reqote.xml, line by line *)
Definition file_FV2204_reqote : list N := removelast (flat_map (fun l => bytes_of l ++ [10%N]) ["﻿<REQOTE>"; "    <class name=""Dokument"" ref=""/"" key=""UNB:5:0"">"; "        <field name=""Absender"" ref=""UNB:2:0"" ahbName=""Absender.Code""/>"; "        <field name=""Absender_Code_UNB"" ref=""UNB:2:1"" ahbName=""Absender.Codeliste""/>"; "        <field name=""Empfaenger"" ref=""UNB:3:0"" ahbName=""Empfänger.Code""/>"; "        <field name=""Empfaenger_Code_UNB"" ref=""UNB:3:1"" ahbName=""Empfänger.Codeliste""/>"; "        <field name=""Dokumentendatum"" ref=""UNB:4:0""/>"; "        <field name=""Dokumentenuhrzeit"" ref=""UNB:4:1""/>"; "        <field name=""Datenaustauschreferenz"" ref=""UNB:5:0""/>"; "        <class name=""Nachricht"" ref=""UNH"" key=""UNH:1:0"">"; "            <field name=""Nachrichten-Referenznummer"" ref=""UNH:1:0"" meta.id=""0062"" meta.link=""Nachrichten-Kopfdaten""/>"; "            <field name=""Kategorie"" migName=""Beginn der Nachricht"" meta.id=""1001"" ref=""BGM:1:0"""; "                   groupBy=""Beginn der Nachricht"""; "                   meta.help=""Hier wird die Kategorie der gesamten Nachricht für alle Vorgänge angegeben."""; "                   meta.type=""repository"" meta.typeInfo=""Kategorierepository""/>"; "            <field name=""BGMKey"" migName=""Beginn der Nachricht"" meta.id=""1004"" ref=""BGM:2:0"" ahbName=""Dokumentennummer"""; "                   groupBy=""Beginn der Nachricht"" groupKey=""true""/>"; "            <field name=""Nachrichtendatum"" ref=""DTM:1:1[1:0=137]"" meta.id=""2380"" meta.format=""203"""; "                   meta.type=""date-time""/>"; "            <field name=""Ausführungsdatum"" ref=""DTM:1:1[1:0=203]"" meta.id=""2380"" meta.format=""102"""; "                   meta.type=""date-time""/>"; "            <field name=""Beginn zum (nächstmöglichen Termin)"" ref=""DTM:1:1[1:0=469]"" meta.id=""2380"" meta.format=""102"""; "                   meta.type=""date-time""/>"; "            <field name=""Lieferdatum"" ref=""DTM:1:1[1:0=76]"" meta.id=""2380"" meta.format=""102"" meta.type=""date-time"""; "                   ahbName=""Datum zum geplanten Leistungsbeginn""/>"; "            <class name=""Prüfidentifikator"" ref=""SG1"" key=""RFF:1:1[RFF:1:0=Z13]"" max=""1"">"; "                <field name=""ID"" ref=""RFF:1:1"" meta.id=""1154""/>"; "            </class>"; "            <class name=""Absender_NAD"" ref=""SG11"" max=""1"" key=""NAD:2:0[1:0=MS]"" ahbName=""MP-ID Absender"""; "                   meta.type=""group"" meta.objType=""Marktpartner"">"; "                <field name=""ID"" ref=""NAD:2:0"" ahbName=""MP-ID"" meta.id=""3039""/>"; "                <field name=""Codeliste"" ref=""NAD:2:2"" meta.id=""3055""/>"; "                <class name=""Ansprechpartner"" ref=""SG14"" max=""1"">"; "                    <class name=""Kontakt"" ref=""CTA"" key=""CTA:2:1"" meta.virtualKey=""Ansprechpartner"" max=""5"""; "                           meta.virtual=""true"">"; "                        <field name=""Name"" ref=""CTA:2:1"" meta.id=""3412""/>"; "                    </class>"; "                    <class name=""Kommunikationsverbindung"" ref=""COM"" max=""5"">"; "                        <field name=""ID"" ref=""COM:1:1"" meta.id=""3148"" ahbName=""Art des Kommunikationsmittels""/>"; "                        <field name=""Adresse"" ref=""COM:1:0"" meta.id=""3155"" ahbName=""Nummer / Adresse""/>"; "                    </class>"; "                </class>"; "            </class>"; "            <class name=""Empfaenger_NAD"" migName=""MP-ID Empfänger"" max=""1"" ahbName=""MP-ID Empfänger"" ref=""SG11"""; "                   key=""NAD:2:0[1:0=MR]"" meta.objType=""Marktpartner"">"; "                <field name=""ID"" ref=""NAD:2:0"" ahbName=""MP-ID"" meta.id=""3039""/>"; "                <field name=""Codeliste"" ref=""NAD:2:2"" meta.id=""3055""/>"; "            </class>"; "            <class name=""Lieferanschrift"" ref=""SG11"" key=""NAD:1:0[1:0=DP]"" ahbName=""Meldepunkt"" meta.virtual=""true"""; "                   max=""9999"" meta.groupKey=""ID"">"; "                <class name=""Zaehlpunkt"" ref=""LOC"" key=""LOC:2:0[1:0=172]"" ahbName=""Meldepunkt"""; "                       meta.objType=""Meldepunkte"" max=""1"" meta.virtual=""true"">"; "                    <field name=""ID"" ref=""LOC:2:0"" meta.id=""3225"" meta.objType=""Meldepunkte""/>"; "                </class>"; "            </class>"; "            <class name=""Position"" ref=""SG27"" key=""LIN:1:0"" ahbName=""Positionsdaten"" groupCounterKey=""Positionsnummer"""; "                   max=""1"">"; "                <field name=""Positionsnummer"" ref=""LIN:1:0"" meta.id=""1082""/>"; "            </class>"; "        </class>"; "    </class>"; "</REQOTE>"; ""]%string).
(** tests/unit_tests/test_mig_xml_reader_real_data.py:33 *)
Example test_is_parsable_3 :
  check_file_can_be_parsed_as_mig_xml no_high no_high any_declaration no_doctype (fun _ => Raise XMLSyntaxError) (fun _ => false) (fun _ => false) decode_utf8 formats (Some file_FV2204_reqote) = Ok tt.
Proof. vm_compute. repeat split; reflexivity. Qed.
(** tests/unit_tests/test_mig_xml_reader_real_data.py:33 *)
Example test_is_parsable_4 :
  document file_FV2204_reqote = Ok (Element (u "REQOTE") [] (Some (u "
    
")) [(Element (u "class") [((u "name"), (u "Dokument")); ((u "ref"), (u "/")); ((u "key"), (u "UNB:5:0"))] (Some (u "
        
        
        
        
        
        
        
        
    ")) [(Element (u "field") [((u "name"), (u "Absender")); ((u "ref"), (u "UNB:2:0")); ((u "ahbName"), (u "Absender.Code"))] None []); (Element (u "field") [((u "name"), (u "Absender_Code_UNB")); ((u "ref"), (u "UNB:2:1")); ((u "ahbName"), (u "Absender.Codeliste"))] None []); (Element (u "field") [((u "name"), (u "Empfaenger")); ((u "ref"), (u "UNB:3:0")); ((u "ahbName"), (u "Empfänger.Code"))] None []); (Element (u "field") [((u "name"), (u "Empfaenger_Code_UNB")); ((u "ref"), (u "UNB:3:1")); ((u "ahbName"), (u "Empfänger.Codeliste"))] None []); (Element (u "field") [((u "name"), (u "Dokumentendatum")); ((u "ref"), (u "UNB:4:0"))] None []); (Element (u "field") [((u "name"), (u "Dokumentenuhrzeit")); ((u "ref"), (u "UNB:4:1"))] None []); (Element (u "field") [((u "name"), (u "Datenaustauschreferenz")); ((u "ref"), (u "UNB:5:0"))] None []); (Element (u "class") [((u "name"), (u "Nachricht")); ((u "ref"), (u "UNH")); ((u "key"), (u "UNH:1:0"))] (Some (u "
            
            
            
            
            
            
            
            
            
            
            
            
        ")) [(Element (u "field") [((u "name"), (u "Nachrichten-Referenznummer")); ((u "ref"), (u "UNH:1:0")); ((u "meta.id"), (u "0062")); ((u "meta.link"), (u "Nachrichten-Kopfdaten"))] None []); (Element (u "field") [((u "name"), (u "Kategorie")); ((u "migName"), (u "Beginn der Nachricht")); ((u "meta.id"), (u "1001")); ((u "ref"), (u "BGM:1:0")); ((u "groupBy"), (u "Beginn der Nachricht")); ((u "meta.help"), (u "Hier wird die Kategorie der gesamten Nachricht für alle Vorgänge angegeben.")); ((u "meta.type"), (u "repository")); ((u "meta.typeInfo"), (u "Kategorierepository"))] None []); (Element (u "field") [((u "name"), (u "BGMKey")); ((u "migName"), (u "Beginn der Nachricht")); ((u "meta.id"), (u "1004")); ((u "ref"), (u "BGM:2:0")); ((u "ahbName"), (u "Dokumentennummer")); ((u "groupBy"), (u "Beginn der Nachricht")); ((u "groupKey"), (u "true"))] None []); (Element (u "field") [((u "name"), (u "Nachrichtendatum")); ((u "ref"), (u "DTM:1:1[1:0=137]")); ((u "meta.id"), (u "2380")); ((u "meta.format"), (u "203")); ((u "meta.type"), (u "date-time"))] None []); (Element (u "field") [((u "name"), (u "Ausführungsdatum")); ((u "ref"), (u "DTM:1:1[1:0=203]")); ((u "meta.id"), (u "2380")); ((u "meta.format"), (u "102")); ((u "meta.type"), (u "date-time"))] None []); (Element (u "field") [((u "name"), (u "Beginn zum (nächstmöglichen Termin)")); ((u "ref"), (u "DTM:1:1[1:0=469]")); ((u "meta.id"), (u "2380")); ((u "meta.format"), (u "102")); ((u "meta.type"), (u "date-time"))] None []); (Element (u "field") [((u "name"), (u "Lieferdatum")); ((u "ref"), (u "DTM:1:1[1:0=76]")); ((u "meta.id"), (u "2380")); ((u "meta.format"), (u "102")); ((u "meta.type"), (u "date-time")); ((u "ahbName"), (u "Datum zum geplanten Leistungsbeginn"))] None []); (Element (u "class") [((u "name"), (u "Prüfidentifikator")); ((u "ref"), (u "SG1")); ((u "key"), (u "RFF:1:1[RFF:1:0=Z13]")); ((u "max"), (u "1"))] (Some (u "
                
            ")) [(Element (u "field") [((u "name"), (u "ID")); ((u "ref"), (u "RFF:1:1")); ((u "meta.id"), (u "1154"))] None [])]); (Element (u "class") [((u "name"), (u "Absender_NAD")); ((u "ref"), (u "SG11")); ((u "max"), (u "1")); ((u "key"), (u "NAD:2:0[1:0=MS]")); ((u "ahbName"), (u "MP-ID Absender")); ((u "meta.type"), (u "group")); ((u "meta.objType"), (u "Marktpartner"))] (Some (u "
                
                
                
            ")) [(Element (u "field") [((u "name"), (u "ID")); ((u "ref"), (u "NAD:2:0")); ((u "ahbName"), (u "MP-ID")); ((u "meta.id"), (u "3039"))] None []); (Element (u "field") [((u "name"), (u "Codeliste")); ((u "ref"), (u "NAD:2:2")); ((u "meta.id"), (u "3055"))] None []); (Element (u "class") [((u "name"), (u "Ansprechpartner")); ((u "ref"), (u "SG14")); ((u "max"), (u "1"))] (Some (u "
                    
                    
                ")) [(Element (u "class") [((u "name"), (u "Kontakt")); ((u "ref"), (u "CTA")); ((u "key"), (u "CTA:2:1")); ((u "meta.virtualKey"), (u "Ansprechpartner")); ((u "max"), (u "5")); ((u "meta.virtual"), (u "true"))] (Some (u "
                        
                    ")) [(Element (u "field") [((u "name"), (u "Name")); ((u "ref"), (u "CTA:2:1")); ((u "meta.id"), (u "3412"))] None [])]); (Element (u "class") [((u "name"), (u "Kommunikationsverbindung")); ((u "ref"), (u "COM")); ((u "max"), (u "5"))] (Some (u "
                        
                        
                    ")) [(Element (u "field") [((u "name"), (u "ID")); ((u "ref"), (u "COM:1:1")); ((u "meta.id"), (u "3148")); ((u "ahbName"), (u "Art des Kommunikationsmittels"))] None []); (Element (u "field") [((u "name"), (u "Adresse")); ((u "ref"), (u "COM:1:0")); ((u "meta.id"), (u "3155")); ((u "ahbName"), (u "Nummer / Adresse"))] None [])])])]); (Element (u "class") [((u "name"), (u "Empfaenger_NAD")); ((u "migName"), (u "MP-ID Empfänger")); ((u "max"), (u "1")); ((u "ahbName"), (u "MP-ID Empfänger")); ((u "ref"), (u "SG11")); ((u "key"), (u "NAD:2:0[1:0=MR]")); ((u "meta.objType"), (u "Marktpartner"))] (Some (u "
                
                
            ")) [(Element (u "field") [((u "name"), (u "ID")); ((u "ref"), (u "NAD:2:0")); ((u "ahbName"), (u "MP-ID")); ((u "meta.id"), (u "3039"))] None []); (Element (u "field") [((u "name"), (u "Codeliste")); ((u "ref"), (u "NAD:2:2")); ((u "meta.id"), (u "3055"))] None [])]); (Element (u "class") [((u "name"), (u "Lieferanschrift")); ((u "ref"), (u "SG11")); ((u "key"), (u "NAD:1:0[1:0=DP]")); ((u "ahbName"), (u "Meldepunkt")); ((u "meta.virtual"), (u "true")); ((u "max"), (u "9999")); ((u "meta.groupKey"), (u "ID"))] (Some (u "
                
            ")) [(Element (u "class") [((u "name"), (u "Zaehlpunkt")); ((u "ref"), (u "LOC")); ((u "key"), (u "LOC:2:0[1:0=172]")); ((u "ahbName"), (u "Meldepunkt")); ((u "meta.objType"), (u "Meldepunkte")); ((u "max"), (u "1")); ((u "meta.virtual"), (u "true"))] (Some (u "
                    
                ")) [(Element (u "field") [((u "name"), (u "ID")); ((u "ref"), (u "LOC:2:0")); ((u "meta.id"), (u "3225")); ((u "meta.objType"), (u "Meldepunkte"))] None [])])]); (Element (u "class") [((u "name"), (u "Position")); ((u "ref"), (u "SG27")); ((u "key"), (u "LIN:1:0")); ((u "ahbName"), (u "Positionsdaten")); ((u "groupCounterKey"), (u "Positionsnummer")); ((u "max"), (u "1"))] (Some (u "
                
            ")) [(Element (u "field") [((u "name"), (u "Positionsnummer")); ((u "ref"), (u "LIN:1:0")); ((u "meta.id"), (u "1082"))] None [])])])])]).
Proof. vm_compute. repeat split; reflexivity. Qed.
(** tests/unit_tests/migs/FV2204/template_xmls/utilmd_1131.xml, line by line *)
Definition file_FV2204_utilmd_1131 : list N := removelast (flat_map (fun l => bytes_of l ++ [10%N]) ["<?xml version=""1.0""?>"; "<UTILMD>"; "    <class name=""Dokument"" ref=""/"" key=""UNB:5:0"">"; "        <class name=""Nachricht"" ref=""UNH"" key=""UNH:1:0"" max=""9999"" meta.type=""group"">"; "            <class name=""Vorgang"" ref=""SG4"" key=""IDE:2:0"" max=""99999"" meta.type=""group"" groupKey=""Vorgangsnummer"">"; "                <class name=""Status der Antwort"" ref=""SG4"" key=""STS:3:0[1:0=E01]"" max=""1"">"; "                    <field name=""Status"" ref=""STS:3:0[1:0=E01]"" meta.id=""9013"" meta.typeInfo=""AnswerStatusrepository"" meta.type=""repository""/>"; "                    <field name=""Codeliste"" ref=""STS:3:1[1:0=E01]"" meta.id=""1131"" meta.type=""repository"" meta.typeInfo=""EBDCodeliste""/>"; "                </class>"; "                <class name=""Status der Antwort des dritten Marktbeteiligten"" ref=""SG4"" key=""STS:3:0[1:0=Z35]"" max=""1"">"; "                    <field name=""Status"" ref=""STS:3:0[1:0=Z35]"" meta.id=""9013"" meta.typeInfo=""AnswerStatusrepository"" meta.type=""repository""/>"; "                    <field name=""Codeliste"" ref=""STS:3:1[1:0=Z35]"" meta.id=""1131"" meta.type=""repository"" meta.typeInfo=""EBDCodeliste""/>"; "                </class>"; "                <class name=""Daten der Marktlokation"" ref=""SG8"" key=""SEQ:1:0[SEQ:1:0=Z01]"" max=""99999"" meta.type=""group"" groupKey=""Referenz auf die ID der Marktlokation"">"; "                    <field name=""Referenz auf die ID der Marktlokation"" ref=""RFF:1:1[1:0=Z18]"" meta.id=""1154"" max=""1"" meta.ref=""Meldepunkt.ID""/>"; "                    <class name=""Zugeordnete Marktpartner"" ref=""SG10"" key=""CCI:3:0[3:0=ZB3]"" meta.migMatch=""Z01"">"; "                        <field name=""Netzbetreiber"" meta.id=""1131"" ref=""CAV:1:1[1:0=Z88]"" meta.objType=""Marktpartner.MP-ID"" meta.typeInfo=""_role=VNB""></field>"; "                        <field name=""Lieferant"" meta.id=""1131"" ref=""CAV:1:1[1:0=Z89]"" meta.objType=""Marktpartner.MP-ID"" meta.typeInfo=""_role=LIEF""></field>"; "                        <field name=""Übertragungsnetzbetreiber"" meta.id=""1131"" ref=""CAV:1:1[1:0=Z90]"" meta.objType=""Marktpartner.MP-ID"" meta.typeInfo=""_role=UENB""></field>"; "                        <field name=""Messstellenbetreiber"" meta.migMatch=""ZB3"" meta.id=""1131"" ref=""CAV:1:1[1:0=Z91]"" meta.objType=""Marktpartner.MP-ID"" meta.typeInfo=""_role=MSB""></field>"; "                    </class>"; "                    <class name=""Fallgruppenzuordnung"" ref=""SG10"" key=""CCI:3:1[CCI:3:0=Z17]"">"; "                        <field name=""Zuordnung"" ref=""CCI:3:1"" meta.id=""1131""/>"; "                    </class>"; "                    <class name=""Status der erzeugenden Marktlokation"" ref=""SG10"" key=""CCI:3:1[CCI:3:0=Z22]"">"; "                        <field name=""Status"" ref=""CCI:3:1"" meta.id=""1131""/>"; "                    </class>"; "                </class>"; "                <class name=""Daten der Messlokation"" ref=""SG8"" key=""SEQ:1:0[SEQ:1:0=Z18]"" max=""99999"" meta.type=""group"" groupKey=""Referenz auf die ID der Marktlokation"">"; "                    <field name=""Referenz auf die ID der Messlokation"" ref=""RFF:1:1[1:0=Z19]"" meta.id=""1154"" max=""1"" meta.ref=""Meldepunkt.ID""/>"; "                    <field name=""Referenz auf die der Messlokation zugeordneten Marktlokation"" ref=""RFF:1:1[1:0=Z16]"" meta.id=""1154"" max=""1"" meta.ref=""Meldepunkt.ID""/>"; "                    <field name=""Abrechnung des Messstellenbetriebs über NNE für kME"" ref=""RFF:1:1[1:0=Z05]"" meta.id=""1154""/>"; "                    <class name=""Zugeordnete Marktpartner"" ref=""SG10"" key=""CCI:3:0[3:0=ZB3]"" meta.migMatch=""Z18"">"; "                        <field name=""Messstellenbetreiber"" meta.id=""1131"" ref=""CAV:1:1[1:0=Z91]"" meta.objType=""Marktpartner.MP-ID"" meta.typeInfo=""_role=MSB""></field>"; "                        <field name=""Messstellenbetreiber Alt"" meta.id=""1131"" ref=""CAV:1:1[1:0=ZB4]"" meta.objType=""Marktpartner.MP-ID"" meta.typeInfo=""_role=MSB""></field>"; "                    </class>"; "                </class>"; "                <class name=""Erforderliche OBIS-Daten der Messlokation"" ref=""SG8"" key=""SEQ:1:0[SEQ:1:0=Z19]"" max=""99999"" groupKey=""OBIS-Kennzahl der Messlokation"" meta.objType=""OBIS-Kennzahl"">"; "                    <field name=""Referenz auf die ID einer Messlokation"" ref=""RFF:1:1[1:0=Z19]"" meta.id=""1154"" max=""1"" meta.ref=""Meldepunkt.ID""/>"; "                    <field name=""OBIS-Kennzahl der Messlokation"" ref=""PIA:2:0"" meta.id=""7140""/>"; "                    <field name=""Erforderliche Schwachlastfähigkeit"" ref=""CCI:3:0[1:0=Z10]"" meta.sg=""SG10"" meta.id=""7037"" meta.type=""repository"" meta.typeInfo=""Schwachlastrepository""/>"; "                </class>"; ""; "                <class name=""Zähleinrichtungsdaten"" ref=""SG8"" key=""SEQ:1:0[SEQ:1:0=Z03]"" meta.type=""group"" max=""99999"" groupKey=""Identifikation/Nummer des Gerätes"">"; "                    <field name=""Referenz auf die ID einer Messlokation"" ref=""RFF:1:1[1:0=Z19]"" meta.id=""1154"" max=""2"" meta.ref=""Meldepunkt.ID""/>"; "                    <field name=""Referenz auf das Smartmeter-Gateway"" ref=""RFF:1:1[1:0=Z14]"" meta.id=""1154"" meta.migMatch=""Z03""/>"; "                    <class name=""Zählertyp"" ref=""SG10"" key=""CAV:1:0[CCI:3:0=E13]"">"; "                        <field name=""Identifikation/Nummer des Gerätes"" ref=""CAV:1:(3,4)[1:0=Z30]"" meta.id=""7110""/>"; "                        <field name=""Typ"" ref=""CAV:1:0[1:0=AHZ|1:0=WSZ|1:0=LAZ|1:0=EHZ|1:0=MAZ|1:0=DKZ|1:0=BGZ|1:0=TRZ|1:0=UGZ|1:0=WGZ|1:0=MRG|1:0=MME|1:0=IVA]"" meta.id=""7111"" meta.type=""repository"""; "                               meta.typeInfo=""Zählertyprepository""/>"; "                        <field name=""Zusatz Typ"" ref=""CAV:1:3[1:3=Z01|1:3=Z02|1:3=Z03|1:3=Z04|1:3=Z05]"" meta.id=""7110"" meta.type=""repository"" meta.typeInfo=""Typrepository""/>"; "                        <field name=""Zählergröße (Gas)"""; "                               ref=""CAV:1:3[1:0!=ETZ^1:0!=ZTZ^1:0!=NTZ^1:0!=ERZ^1:0!=ZRZ^1:0!=Z30^1:0!=AHZ^1:0!=WSZ^1:0!=LAZ^1:0!=EHZ^1:0!=MAZ^1:0!=DKZ^1:0!=BGZ^1:0!=TRZ^1:0!=UGZ^1:0!=WGZ^1:0!=MRG^1:0!=IVA^1:0!=Z58]"""; "                               meta.id=""7110"" meta.type=""repository"" meta.typeInfo=""Größenrepository"" meta.forceNameMatch=""true""/>"; "                        <field name=""Registeranzahl"" ref=""CAV:1:0[1:0=ETZ|1:0=ZTZ|1:0=NTZ]"" meta.id=""7111"" meta.type=""repository"" meta.typeInfo=""Tarifanzahlrepository""/>"; "                        <field name=""Energierichtung"" ref=""CAV:1:0[1:0=ERZ|1:0=ZRZ]"" meta.id=""7111"" meta.type=""repository"" meta.typeInfo=""Energierichtungrepository""/>"; "                        <field name=""Fernschaltung der Zähleinrichtung"" ref=""CAV:1:3[1:0=Z58]"" meta.id=""7110"" meta.type=""repository"" meta.typeInfo=""Fernschaltungrepository""/>"; "                    </class>"; "                    <class name=""Befestigungsart Zähleinrichtung"" ref=""SG10"" key=""CAV:1:0[CCI:3:0=Z28]"">"; "                        <field name=""Befestigungsart"" ref=""CAV:1:0"" meta.id=""7111"" meta.type=""repository"" meta.typeInfo=""Befestigungsartrepository""/>"; "                    </class>"; "                    <class name=""Messwerterfassung an der Zähleinrichtung"" ref=""SG10"" key=""CAV:1:0[CCI:3:0=E12]"">"; "                        <field name=""Erfassung"" ref=""CAV:1:0"" meta.id=""7111"" meta.type=""repository"" meta.typeInfo=""Messwerterfassungrepository""/>"; "                    </class>"; "                </class>"; "                <class name=""Mengenumwerterdaten"" ref=""SG8"" key=""SEQ:1:0[SEQ:1:0=Z09]"" groupKey=""Identifikation/Nummer des Gerätes"" max=""99999"">"; "                    <field name=""Referenz auf die Gerätenummer"" ref=""RFF:1:1[1:0=MG]"" meta.id=""1154"" meta.ref=""Zählertyp.Identifikation/Nummer des Gerätes""/>"; ""; "                    <class name=""Mengenumwerter"" ref=""SG10"" key=""CCI:1:0[CCI:1:0=Z09]"" max=""1"" groupKey=""Identifikation/Nummer des Gerätes"">"; "                        <field name=""Identifikation/Nummer des Gerätes"" ref=""CAV:1:(3,4)[1:0=Z30]"" meta.id=""7110""/>"; "                        <field name=""Mengenumwertertyp"" ref=""CAV:1:0[1:0!=Z30]"" meta.id=""7111"" meta.type=""repository"" meta.typeInfo=""Mengenumwerterrepository""/>"; "                    </class>"; "                </class>"; "                <class name=""OBIS-Daten der Zähleinrichtung / Mengenumwerter"" ref=""SG8"" key=""SEQ:1:0[SEQ:1:0=Z20]"" max=""99999"" groupKey=""OBIS-Kennzahl"" meta.objType=""OBIS-Kennzahl"">"; "                    <class name=""Referenz auf die Gerätenummer"" ref=""RFF"" key=""RFF:1:0"">"; "                        <field name=""Qualifier"" ref=""RFF:1:0"" meta.id=""1153"" meta.type=""repository"" meta.typeInfo=""GerätenummerTyprepository""></field>"; "                        <field name=""Nummer"" ref=""RFF:1:1"" meta.id=""1154"" meta.ref=""Zählertyp.Identifikation/Nummer des Gerätes""></field>"; "                    </class>"; "                    <field name=""OBIS-Kennzahl der Zähleinrichtung /Mengenumwerter"" ref=""PIA:2:0"" meta.id=""7140""/>"; "                    <class name=""Vor- und Nachkommastellen des Zählwerks"" ref=""SG10"" key=""CAV:1:3[CCI:3:0=Z33]"">"; "                        <field name=""Vorkommastellen"" ref=""CAV:1:3"" meta.id=""7110""/>"; "                        <field name=""Nachkommastellen"" ref=""CAV:1:4"" meta.id=""7110""/>"; "                    </class>"; "                    <field name=""Lokale Kennzeichnung zu Kontrollzwecken"" ref=""CCI:3:3[3:0=Z63]"" meta.sg=""SG10"" meta.id=""7036""/>"; "                    <field name=""Schwachlastfähigkeit"" ref=""CCI:3:0[1:0=Z10]"" meta.sg=""SG10"" meta.id=""7037"" meta.type=""repository"" meta.typeInfo=""Schwachlastrepository""/>"; "                </class>"; "                <class name=""Lastprofildaten (Gas)"" ref=""SG8"" key=""SEQ:1:0[SEQ:1:0=Z35]"" max=""99999"">"; "                    <class name=""Lastprofil (Gas)"" ref=""SG10"" key=""CAV:1:0[CCI:1:0=Z12]"" max=""2"">"; "                        <field name=""Klassentyp"" ref=""CCI:1:0"" meta.id=""7059""/>"; "                        <field name=""Typ"" ref=""CCI:3:0"" meta.id=""7037""/>"; "                        <field name=""Profil"" ref=""CAV:1:0"" meta.id=""7111""/>"; "                        <field name=""Codeliste"" ref=""CAV:1:2""/>"; "                    </class>"; "                    <class name=""Klimazone / Temperaturmessstelle / Referenzmessung"" ref=""SG10"" key=""CCI:3:0[1:0=Z99|1:0=ZA0]"" max=""1"">"; "                        <field name=""Klassentyp"" ref=""CCI:1:0"" meta.id=""7059""/>"; "                        <field name=""ID"" ref=""CCI:3:0"" meta.id=""7037""/>"; "                        <field name=""Anbieter"" ref=""CCI:3:1"" meta.id=""1131""/>"; "                        <field name=""Codeliste"" ref=""CCI:3:2"" meta.id=""3055""/>"; "                    </class>"; "                </class>"; "                <class name=""Profilschardaten"" ref=""SG8"" key=""SEQ:1:0[SEQ:1:0=Z08]"" max=""99999"">"; "                    <class name=""Klimazone / Temperaturmessstelle / Referenzmessung"" ref=""SG10"" key=""CCI:3:0[1:0=Z99|1:0=ZA0]"" max=""1"">"; "                        <field name=""Klassentyp"" ref=""CCI:1:0"" meta.id=""7059""/>"; "                        <field name=""ID"" ref=""CCI:3:0"" meta.id=""7037""/>"; "                        <field name=""Anbieter"" ref=""CCI:3:1"" meta.id=""1131""/>"; "                        <field name=""Codeliste"" ref=""CCI:3:2"" meta.id=""3055""/>"; "                    </class>"; "                </class>"; "                <class name=""Profilschardaten der beteiligten Marktrolle"" ref=""SG8"" key=""SEQ:1:0[SEQ:1:0=Z34]"" max=""99999"">"; "                    <class name=""Klimazone / Temperaturmessstelle / Referenzmessung"" ref=""SG10"" key=""CCI:3:0[1:0=Z99|1:0=ZA0]"" max=""1"">"; "                        <field name=""Klassentyp"" ref=""CCI:1:0"" meta.id=""7059""/>"; "                        <field name=""ID"" ref=""CCI:3:0"" meta.id=""7037""/>"; "                        <field name=""Anbieter"" ref=""CCI:3:1"" meta.id=""1131""/>"; "                        <field name=""Codeliste"" ref=""CCI:3:2"" meta.id=""3055""/>"; "                    </class>"; "                </class>"; "                <class name=""Daten der Summenzeitreihe"" ref=""SG8"" key=""SEQ:1:0[SEQ:1:0=Z22]"" max=""99999"">"; "                    <class name=""Daten der Deklarationsliste"" ref=""SG8"" key=""SEQ:1:0[SEQ:1:0=Z26]"" max=""99999"">"; "                        <class name=""Bilanzkreis"" ref=""SG10"" key=""CCI:3:0[1:0=Z19]"">"; "                            <field name=""ID"" ref=""CCI:3:0"" meta.id=""7037""/>"; "                            <field name=""Priorität"" ref=""CAV:1:0"" meta.id=""7111""/>"; "                        </class>"; "                        <!-- test cases works if this is commented out."; "                        <class name=""Fallgruppenzuordnung"" ref=""SG10"" key=""CCI:3:1[CCI:3:0=Z17]"">"; "                            <field name=""Zuordnung"" ref=""CCI:3:1"" meta.id=""1131""/>"; "                        </class>-->"; "                    </class>"; "                </class>"; "            </class>"; "        </class>"; "    </class>"; "</UTILMD>"; ""]%string).
(** tests/unit_tests/test_mig_xml_reader_real_data.py:33 *)
Example test_is_parsable_5 :
  check_file_can_be_parsed_as_mig_xml no_high no_high any_declaration no_doctype (fun _ => Raise XMLSyntaxError) (fun _ => false) (fun _ => false) decode_utf8 formats (Some file_FV2204_utilmd_1131) = Ok tt.
Proof. vm_compute. repeat split; reflexivity. Qed.
(** tests/unit_tests/test_mig_xml_reader_real_data.py:33 *)
Example test_is_parsable_6 :
  document file_FV2204_utilmd_1131 = Ok (Element (u "UTILMD") [] (Some (u "
    
")) [(Element (u "class") [((u "name"), (u "Dokument")); ((u "ref"), (u "/")); ((u "key"), (u "UNB:5:0"))] (Some (u "
        
    ")) [(Element (u "class") [((u "name"), (u "Nachricht")); ((u "ref"), (u "UNH")); ((u "key"), (u "UNH:1:0")); ((u "max"), (u "9999")); ((u "meta.type"), (u "group"))] (Some (u "
            
        ")) [(Element (u "class") [((u "name"), (u "Vorgang")); ((u "ref"), (u "SG4")); ((u "key"), (u "IDE:2:0")); ((u "max"), (u "99999")); ((u "meta.type"), (u "group")); ((u "groupKey"), (u "Vorgangsnummer"))] (Some (u "
                
                
                
                
                

                
                
                
                
                
                
                
            ")) [(Element (u "class") [((u "name"), (u "Status der Antwort")); ((u "ref"), (u "SG4")); ((u "key"), (u "STS:3:0[1:0=E01]")); ((u "max"), (u "1"))] (Some (u "
                    
                    
                ")) [(Element (u "field") [((u "name"), (u "Status")); ((u "ref"), (u "STS:3:0[1:0=E01]")); ((u "meta.id"), (u "9013")); ((u "meta.typeInfo"), (u "AnswerStatusrepository")); ((u "meta.type"), (u "repository"))] None []); (Element (u "field") [((u "name"), (u "Codeliste")); ((u "ref"), (u "STS:3:1[1:0=E01]")); ((u "meta.id"), (u "1131")); ((u "meta.type"), (u "repository")); ((u "meta.typeInfo"), (u "EBDCodeliste"))] None [])]); (Element (u "class") [((u "name"), (u "Status der Antwort des dritten Marktbeteiligten")); ((u "ref"), (u "SG4")); ((u "key"), (u "STS:3:0[1:0=Z35]")); ((u "max"), (u "1"))] (Some (u "
                    
                    
                ")) [(Element (u "field") [((u "name"), (u "Status")); ((u "ref"), (u "STS:3:0[1:0=Z35]")); ((u "meta.id"), (u "9013")); ((u "meta.typeInfo"), (u "AnswerStatusrepository")); ((u "meta.type"), (u "repository"))] None []); (Element (u "field") [((u "name"), (u "Codeliste")); ((u "ref"), (u "STS:3:1[1:0=Z35]")); ((u "meta.id"), (u "1131")); ((u "meta.type"), (u "repository")); ((u "meta.typeInfo"), (u "EBDCodeliste"))] None [])]); (Element (u "class") [((u "name"), (u "Daten der Marktlokation")); ((u "ref"), (u "SG8")); ((u "key"), (u "SEQ:1:0[SEQ:1:0=Z01]")); ((u "max"), (u "99999")); ((u "meta.type"), (u "group")); ((u "groupKey"), (u "Referenz auf die ID der Marktlokation"))] (Some (u "
                    
                    
                    
                    
                ")) [(Element (u "field") [((u "name"), (u "Referenz auf die ID der Marktlokation")); ((u "ref"), (u "RFF:1:1[1:0=Z18]")); ((u "meta.id"), (u "1154")); ((u "max"), (u "1")); ((u "meta.ref"), (u "Meldepunkt.ID"))] None []); (Element (u "class") [((u "name"), (u "Zugeordnete Marktpartner")); ((u "ref"), (u "SG10")); ((u "key"), (u "CCI:3:0[3:0=ZB3]")); ((u "meta.migMatch"), (u "Z01"))] (Some (u "
                        
                        
                        
                        
                    ")) [(Element (u "field") [((u "name"), (u "Netzbetreiber")); ((u "meta.id"), (u "1131")); ((u "ref"), (u "CAV:1:1[1:0=Z88]")); ((u "meta.objType"), (u "Marktpartner.MP-ID")); ((u "meta.typeInfo"), (u "_role=VNB"))] None []); (Element (u "field") [((u "name"), (u "Lieferant")); ((u "meta.id"), (u "1131")); ((u "ref"), (u "CAV:1:1[1:0=Z89]")); ((u "meta.objType"), (u "Marktpartner.MP-ID")); ((u "meta.typeInfo"), (u "_role=LIEF"))] None []); (Element (u "field") [((u "name"), (u "Übertragungsnetzbetreiber")); ((u "meta.id"), (u "1131")); ((u "ref"), (u "CAV:1:1[1:0=Z90]")); ((u "meta.objType"), (u "Marktpartner.MP-ID")); ((u "meta.typeInfo"), (u "_role=UENB"))] None []); (Element (u "field") [((u "name"), (u "Messstellenbetreiber")); ((u "meta.migMatch"), (u "ZB3")); ((u "meta.id"), (u "1131")); ((u "ref"), (u "CAV:1:1[1:0=Z91]")); ((u "meta.objType"), (u "Marktpartner.MP-ID")); ((u "meta.typeInfo"), (u "_role=MSB"))] None [])]); (Element (u "class") [((u "name"), (u "Fallgruppenzuordnung")); ((u "ref"), (u "SG10")); ((u "key"), (u "CCI:3:1[CCI:3:0=Z17]"))] (Some (u "
                        
                    ")) [(Element (u "field") [((u "name"), (u "Zuordnung")); ((u "ref"), (u "CCI:3:1")); ((u "meta.id"), (u "1131"))] None [])]); (Element (u "class") [((u "name"), (u "Status der erzeugenden Marktlokation")); ((u "ref"), (u "SG10")); ((u "key"), (u "CCI:3:1[CCI:3:0=Z22]"))] (Some (u "
                        
                    ")) [(Element (u "field") [((u "name"), (u "Status")); ((u "ref"), (u "CCI:3:1")); ((u "meta.id"), (u "1131"))] None [])])]); (Element (u "class") [((u "name"), (u "Daten der Messlokation")); ((u "ref"), (u "SG8")); ((u "key"), (u "SEQ:1:0[SEQ:1:0=Z18]")); ((u "max"), (u "99999")); ((u "meta.type"), (u "group")); ((u "groupKey"), (u "Referenz auf die ID der Marktlokation"))] (Some (u "
                    
                    
                    
                    
                ")) [(Element (u "field") [((u "name"), (u "Referenz auf die ID der Messlokation")); ((u "ref"), (u "RFF:1:1[1:0=Z19]")); ((u "meta.id"), (u "1154")); ((u "max"), (u "1")); ((u "meta.ref"), (u "Meldepunkt.ID"))] None []); (Element (u "field") [((u "name"), (u "Referenz auf die der Messlokation zugeordneten Marktlokation")); ((u "ref"), (u "RFF:1:1[1:0=Z16]")); ((u "meta.id"), (u "1154")); ((u "max"), (u "1")); ((u "meta.ref"), (u "Meldepunkt.ID"))] None []); (Element (u "field") [((u "name"), (u "Abrechnung des Messstellenbetriebs über NNE für kME")); ((u "ref"), (u "RFF:1:1[1:0=Z05]")); ((u "meta.id"), (u "1154"))] None []); (Element (u "class") [((u "name"), (u "Zugeordnete Marktpartner")); ((u "ref"), (u "SG10")); ((u "key"), (u "CCI:3:0[3:0=ZB3]")); ((u "meta.migMatch"), (u "Z18"))] (Some (u "
                        
                        
                    ")) [(Element (u "field") [((u "name"), (u "Messstellenbetreiber")); ((u "meta.id"), (u "1131")); ((u "ref"), (u "CAV:1:1[1:0=Z91]")); ((u "meta.objType"), (u "Marktpartner.MP-ID")); ((u "meta.typeInfo"), (u "_role=MSB"))] None []); (Element (u "field") [((u "name"), (u "Messstellenbetreiber Alt")); ((u "meta.id"), (u "1131")); ((u "ref"), (u "CAV:1:1[1:0=ZB4]")); ((u "meta.objType"), (u "Marktpartner.MP-ID")); ((u "meta.typeInfo"), (u "_role=MSB"))] None [])])]); (Element (u "class") [((u "name"), (u "Erforderliche OBIS-Daten der Messlokation")); ((u "ref"), (u "SG8")); ((u "key"), (u "SEQ:1:0[SEQ:1:0=Z19]")); ((u "max"), (u "99999")); ((u "groupKey"), (u "OBIS-Kennzahl der Messlokation")); ((u "meta.objType"), (u "OBIS-Kennzahl"))] (Some (u "
                    
                    
                    
                ")) [(Element (u "field") [((u "name"), (u "Referenz auf die ID einer Messlokation")); ((u "ref"), (u "RFF:1:1[1:0=Z19]")); ((u "meta.id"), (u "1154")); ((u "max"), (u "1")); ((u "meta.ref"), (u "Meldepunkt.ID"))] None []); (Element (u "field") [((u "name"), (u "OBIS-Kennzahl der Messlokation")); ((u "ref"), (u "PIA:2:0")); ((u "meta.id"), (u "7140"))] None []); (Element (u "field") [((u "name"), (u "Erforderliche Schwachlastfähigkeit")); ((u "ref"), (u "CCI:3:0[1:0=Z10]")); ((u "meta.sg"), (u "SG10")); ((u "meta.id"), (u "7037")); ((u "meta.type"), (u "repository")); ((u "meta.typeInfo"), (u "Schwachlastrepository"))] None [])]); (Element (u "class") [((u "name"), (u "Zähleinrichtungsdaten")); ((u "ref"), (u "SG8")); ((u "key"), (u "SEQ:1:0[SEQ:1:0=Z03]")); ((u "meta.type"), (u "group")); ((u "max"), (u "99999")); ((u "groupKey"), (u "Identifikation/Nummer des Gerätes"))] (Some (u "
                    
                    
                    
                    
                    
                ")) [(Element (u "field") [((u "name"), (u "Referenz auf die ID einer Messlokation")); ((u "ref"), (u "RFF:1:1[1:0=Z19]")); ((u "meta.id"), (u "1154")); ((u "max"), (u "2")); ((u "meta.ref"), (u "Meldepunkt.ID"))] None []); (Element (u "field") [((u "name"), (u "Referenz auf das Smartmeter-Gateway")); ((u "ref"), (u "RFF:1:1[1:0=Z14]")); ((u "meta.id"), (u "1154")); ((u "meta.migMatch"), (u "Z03"))] None []); (Element (u "class") [((u "name"), (u "Zählertyp")); ((u "ref"), (u "SG10")); ((u "key"), (u "CAV:1:0[CCI:3:0=E13]"))] (Some (u "
                        
                        
                        
                        
                        
                        
                        
                    ")) [(Element (u "field") [((u "name"), (u "Identifikation/Nummer des Gerätes")); ((u "ref"), (u "CAV:1:(3,4)[1:0=Z30]")); ((u "meta.id"), (u "7110"))] None []); (Element (u "field") [((u "name"), (u "Typ")); ((u "ref"), (u "CAV:1:0[1:0=AHZ|1:0=WSZ|1:0=LAZ|1:0=EHZ|1:0=MAZ|1:0=DKZ|1:0=BGZ|1:0=TRZ|1:0=UGZ|1:0=WGZ|1:0=MRG|1:0=MME|1:0=IVA]")); ((u "meta.id"), (u "7111")); ((u "meta.type"), (u "repository")); ((u "meta.typeInfo"), (u "Zählertyprepository"))] None []); (Element (u "field") [((u "name"), (u "Zusatz Typ")); ((u "ref"), (u "CAV:1:3[1:3=Z01|1:3=Z02|1:3=Z03|1:3=Z04|1:3=Z05]")); ((u "meta.id"), (u "7110")); ((u "meta.type"), (u "repository")); ((u "meta.typeInfo"), (u "Typrepository"))] None []); (Element (u "field") [((u "name"), (u "Zählergröße (Gas)")); ((u "ref"), (u "CAV:1:3[1:0!=ETZ^1:0!=ZTZ^1:0!=NTZ^1:0!=ERZ^1:0!=ZRZ^1:0!=Z30^1:0!=AHZ^1:0!=WSZ^1:0!=LAZ^1:0!=EHZ^1:0!=MAZ^1:0!=DKZ^1:0!=BGZ^1:0!=TRZ^1:0!=UGZ^1:0!=WGZ^1:0!=MRG^1:0!=IVA^1:0!=Z58]")); ((u "meta.id"), (u "7110")); ((u "meta.type"), (u "repository")); ((u "meta.typeInfo"), (u "Größenrepository")); ((u "meta.forceNameMatch"), (u "true"))] None []); (Element (u "field") [((u "name"), (u "Registeranzahl")); ((u "ref"), (u "CAV:1:0[1:0=ETZ|1:0=ZTZ|1:0=NTZ]")); ((u "meta.id"), (u "7111")); ((u "meta.type"), (u "repository")); ((u "meta.typeInfo"), (u "Tarifanzahlrepository"))] None []); (Element (u "field") [((u "name"), (u "Energierichtung")); ((u "ref"), (u "CAV:1:0[1:0=ERZ|1:0=ZRZ]")); ((u "meta.id"), (u "7111")); ((u "meta.type"), (u "repository")); ((u "meta.typeInfo"), (u "Energierichtungrepository"))] None []); (Element (u "field") [((u "name"), (u "Fernschaltung der Zähleinrichtung")); ((u "ref"), (u "CAV:1:3[1:0=Z58]")); ((u "meta.id"), (u "7110")); ((u "meta.type"), (u "repository")); ((u "meta.typeInfo"), (u "Fernschaltungrepository"))] None [])]); (Element (u "class") [((u "name"), (u "Befestigungsart Zähleinrichtung")); ((u "ref"), (u "SG10")); ((u "key"), (u "CAV:1:0[CCI:3:0=Z28]"))] (Some (u "
                        
                    ")) [(Element (u "field") [((u "name"), (u "Befestigungsart")); ((u "ref"), (u "CAV:1:0")); ((u "meta.id"), (u "7111")); ((u "meta.type"), (u "repository")); ((u "meta.typeInfo"), (u "Befestigungsartrepository"))] None [])]); (Element (u "class") [((u "name"), (u "Messwerterfassung an der Zähleinrichtung")); ((u "ref"), (u "SG10")); ((u "key"), (u "CAV:1:0[CCI:3:0=E12]"))] (Some (u "
                        
                    ")) [(Element (u "field") [((u "name"), (u "Erfassung")); ((u "ref"), (u "CAV:1:0")); ((u "meta.id"), (u "7111")); ((u "meta.type"), (u "repository")); ((u "meta.typeInfo"), (u "Messwerterfassungrepository"))] None [])])]); (Element (u "class") [((u "name"), (u "Mengenumwerterdaten")); ((u "ref"), (u "SG8")); ((u "key"), (u "SEQ:1:0[SEQ:1:0=Z09]")); ((u "groupKey"), (u "Identifikation/Nummer des Gerätes")); ((u "max"), (u "99999"))] (Some (u "
                    

                    
                ")) [(Element (u "field") [((u "name"), (u "Referenz auf die Gerätenummer")); ((u "ref"), (u "RFF:1:1[1:0=MG]")); ((u "meta.id"), (u "1154")); ((u "meta.ref"), (u "Zählertyp.Identifikation/Nummer des Gerätes"))] None []); (Element (u "class") [((u "name"), (u "Mengenumwerter")); ((u "ref"), (u "SG10")); ((u "key"), (u "CCI:1:0[CCI:1:0=Z09]")); ((u "max"), (u "1")); ((u "groupKey"), (u "Identifikation/Nummer des Gerätes"))] (Some (u "
                        
                        
                    ")) [(Element (u "field") [((u "name"), (u "Identifikation/Nummer des Gerätes")); ((u "ref"), (u "CAV:1:(3,4)[1:0=Z30]")); ((u "meta.id"), (u "7110"))] None []); (Element (u "field") [((u "name"), (u "Mengenumwertertyp")); ((u "ref"), (u "CAV:1:0[1:0!=Z30]")); ((u "meta.id"), (u "7111")); ((u "meta.type"), (u "repository")); ((u "meta.typeInfo"), (u "Mengenumwerterrepository"))] None [])])]); (Element (u "class") [((u "name"), (u "OBIS-Daten der Zähleinrichtung / Mengenumwerter")); ((u "ref"), (u "SG8")); ((u "key"), (u "SEQ:1:0[SEQ:1:0=Z20]")); ((u "max"), (u "99999")); ((u "groupKey"), (u "OBIS-Kennzahl")); ((u "meta.objType"), (u "OBIS-Kennzahl"))] (Some (u "
                    
                    
                    
                    
                    
                ")) [(Element (u "class") [((u "name"), (u "Referenz auf die Gerätenummer")); ((u "ref"), (u "RFF")); ((u "key"), (u "RFF:1:0"))] (Some (u "
                        
                        
                    ")) [(Element (u "field") [((u "name"), (u "Qualifier")); ((u "ref"), (u "RFF:1:0")); ((u "meta.id"), (u "1153")); ((u "meta.type"), (u "repository")); ((u "meta.typeInfo"), (u "GerätenummerTyprepository"))] None []); (Element (u "field") [((u "name"), (u "Nummer")); ((u "ref"), (u "RFF:1:1")); ((u "meta.id"), (u "1154")); ((u "meta.ref"), (u "Zählertyp.Identifikation/Nummer des Gerätes"))] None [])]); (Element (u "field") [((u "name"), (u "OBIS-Kennzahl der Zähleinrichtung /Mengenumwerter")); ((u "ref"), (u "PIA:2:0")); ((u "meta.id"), (u "7140"))] None []); (Element (u "class") [((u "name"), (u "Vor- und Nachkommastellen des Zählwerks")); ((u "ref"), (u "SG10")); ((u "key"), (u "CAV:1:3[CCI:3:0=Z33]"))] (Some (u "
                        
                        
                    ")) [(Element (u "field") [((u "name"), (u "Vorkommastellen")); ((u "ref"), (u "CAV:1:3")); ((u "meta.id"), (u "7110"))] None []); (Element (u "field") [((u "name"), (u "Nachkommastellen")); ((u "ref"), (u "CAV:1:4")); ((u "meta.id"), (u "7110"))] None [])]); (Element (u "field") [((u "name"), (u "Lokale Kennzeichnung zu Kontrollzwecken")); ((u "ref"), (u "CCI:3:3[3:0=Z63]")); ((u "meta.sg"), (u "SG10")); ((u "meta.id"), (u "7036"))] None []); (Element (u "field") [((u "name"), (u "Schwachlastfähigkeit")); ((u "ref"), (u "CCI:3:0[1:0=Z10]")); ((u "meta.sg"), (u "SG10")); ((u "meta.id"), (u "7037")); ((u "meta.type"), (u "repository")); ((u "meta.typeInfo"), (u "Schwachlastrepository"))] None [])]); (Element (u "class") [((u "name"), (u "Lastprofildaten (Gas)")); ((u "ref"), (u "SG8")); ((u "key"), (u "SEQ:1:0[SEQ:1:0=Z35]")); ((u "max"), (u "99999"))] (Some (u "
                    
                    
                ")) [(Element (u "class") [((u "name"), (u "Lastprofil (Gas)")); ((u "ref"), (u "SG10")); ((u "key"), (u "CAV:1:0[CCI:1:0=Z12]")); ((u "max"), (u "2"))] (Some (u "
                        
                        
                        
                        
                    ")) [(Element (u "field") [((u "name"), (u "Klassentyp")); ((u "ref"), (u "CCI:1:0")); ((u "meta.id"), (u "7059"))] None []); (Element (u "field") [((u "name"), (u "Typ")); ((u "ref"), (u "CCI:3:0")); ((u "meta.id"), (u "7037"))] None []); (Element (u "field") [((u "name"), (u "Profil")); ((u "ref"), (u "CAV:1:0")); ((u "meta.id"), (u "7111"))] None []); (Element (u "field") [((u "name"), (u "Codeliste")); ((u "ref"), (u "CAV:1:2"))] None [])]); (Element (u "class") [((u "name"), (u "Klimazone / Temperaturmessstelle / Referenzmessung")); ((u "ref"), (u "SG10")); ((u "key"), (u "CCI:3:0[1:0=Z99|1:0=ZA0]")); ((u "max"), (u "1"))] (Some (u "
                        
                        
                        
                        
                    ")) [(Element (u "field") [((u "name"), (u "Klassentyp")); ((u "ref"), (u "CCI:1:0")); ((u "meta.id"), (u "7059"))] None []); (Element (u "field") [((u "name"), (u "ID")); ((u "ref"), (u "CCI:3:0")); ((u "meta.id"), (u "7037"))] None []); (Element (u "field") [((u "name"), (u "Anbieter")); ((u "ref"), (u "CCI:3:1")); ((u "meta.id"), (u "1131"))] None []); (Element (u "field") [((u "name"), (u "Codeliste")); ((u "ref"), (u "CCI:3:2")); ((u "meta.id"), (u "3055"))] None [])])]); (Element (u "class") [((u "name"), (u "Profilschardaten")); ((u "ref"), (u "SG8")); ((u "key"), (u "SEQ:1:0[SEQ:1:0=Z08]")); ((u "max"), (u "99999"))] (Some (u "
                    
                ")) [(Element (u "class") [((u "name"), (u "Klimazone / Temperaturmessstelle / Referenzmessung")); ((u "ref"), (u "SG10")); ((u "key"), (u "CCI:3:0[1:0=Z99|1:0=ZA0]")); ((u "max"), (u "1"))] (Some (u "
                        
                        
                        
                        
                    ")) [(Element (u "field") [((u "name"), (u "Klassentyp")); ((u "ref"), (u "CCI:1:0")); ((u "meta.id"), (u "7059"))] None []); (Element (u "field") [((u "name"), (u "ID")); ((u "ref"), (u "CCI:3:0")); ((u "meta.id"), (u "7037"))] None []); (Element (u "field") [((u "name"), (u "Anbieter")); ((u "ref"), (u "CCI:3:1")); ((u "meta.id"), (u "1131"))] None []); (Element (u "field") [((u "name"), (u "Codeliste")); ((u "ref"), (u "CCI:3:2")); ((u "meta.id"), (u "3055"))] None [])])]); (Element (u "class") [((u "name"), (u "Profilschardaten der beteiligten Marktrolle")); ((u "ref"), (u "SG8")); ((u "key"), (u "SEQ:1:0[SEQ:1:0=Z34]")); ((u "max"), (u "99999"))] (Some (u "
                    
                ")) [(Element (u "class") [((u "name"), (u "Klimazone / Temperaturmessstelle / Referenzmessung")); ((u "ref"), (u "SG10")); ((u "key"), (u "CCI:3:0[1:0=Z99|1:0=ZA0]")); ((u "max"), (u "1"))] (Some (u "
                        
                        
                        
                        
                    ")) [(Element (u "field") [((u "name"), (u "Klassentyp")); ((u "ref"), (u "CCI:1:0")); ((u "meta.id"), (u "7059"))] None []); (Element (u "field") [((u "name"), (u "ID")); ((u "ref"), (u "CCI:3:0")); ((u "meta.id"), (u "7037"))] None []); (Element (u "field") [((u "name"), (u "Anbieter")); ((u "ref"), (u "CCI:3:1")); ((u "meta.id"), (u "1131"))] None []); (Element (u "field") [((u "name"), (u "Codeliste")); ((u "ref"), (u "CCI:3:2")); ((u "meta.id"), (u "3055"))] None [])])]); (Element (u "class") [((u "name"), (u "Daten der Summenzeitreihe")); ((u "ref"), (u "SG8")); ((u "key"), (u "SEQ:1:0[SEQ:1:0=Z22]")); ((u "max"), (u "99999"))] (Some (u "
                    
                ")) [(Element (u "class") [((u "name"), (u "Daten der Deklarationsliste")); ((u "ref"), (u "SG8")); ((u "key"), (u "SEQ:1:0[SEQ:1:0=Z26]")); ((u "max"), (u "99999"))] (Some (u "
                        
                        
                    ")) [(Element (u "class") [((u "name"), (u "Bilanzkreis")); ((u "ref"), (u "SG10")); ((u "key"), (u "CCI:3:0[1:0=Z19]"))] (Some (u "
                            
                            
                        ")) [(Element (u "field") [((u "name"), (u "ID")); ((u "ref"), (u "CCI:3:0")); ((u "meta.id"), (u "7037"))] None []); (Element (u "field") [((u "name"), (u "Priorität")); ((u "ref"), (u "CAV:1:0")); ((u "meta.id"), (u "7111"))] None [])])])])])])])]).
Proof. vm_compute. repeat split; reflexivity. Qed.
(** tests/unit_tests/migs/FV2204/template_xmls/utilmd_1154.xml, line by line *)
Definition file_FV2204_utilmd_1154 : list N := removelast (flat_map (fun l => bytes_of l ++ [10%N]) ["<?xml version=""1.0""?>"; "<UTILMD>"; "    <class name=""Dokument"" ref=""/"" key=""UNB:5:0"">"; "        <class name=""Nachricht"" ref=""UNH"" key=""UNH:1:0"" max=""9999"" meta.type=""group"">"; "            <field name=""Referenz Anfrage"" ref=""RFF:1:1[RFF:1:0=AAV]"" meta.id=""1154"""; "                   ahbName=""Referenz auf eine vorangegangene Anfrage""/>"; "            <class name=""Vorgang"" ref=""SG4"" key=""IDE:2:0"" max=""99999"" meta.type=""group"" groupKey=""Vorgangsnummer"">"; "                <class name=""Referenz Vorgangsnummer"" ref=""SG6"" key=""RFF:1:1[1:0=TN]"""; "                       ahbName=""Referenz Vorgangsnummer (aus Anfragenachricht)"">"; "                    <field name=""Referenz"" ref=""RFF:1:1"" meta.id=""1154""/>"; "                </class>"; "                <class name=""Referenz auf die ID der Marktlokation für Termine der Marktlokation"" ref=""SG6"""; "                       key=""RFF:1:1[1:0=Z18]"">"; "                    <field name=""ID"" ref=""RFF:1:1"" meta.id=""1154"" meta.ref=""Meldepunkt.ID""/>"; "                </class>"; "                <class name=""Referenz Storno"" ref=""SG6"" key=""RFF:1:1[1:0=ACW]"""; "                       ahbName=""Referenz auf zu stornierende Vorgangsnummer"">"; "                    <field name=""Referenz"" ref=""RFF:1:1"" meta.id=""1154""/>"; "                </class>"; "                <class name=""Referenz Anfrage"" ref=""SG6"" key=""RFF:1:1[1:0=AAV]"">"; "                    <field name=""Referenz"" ref=""RFF:1:1"" meta.id=""1154""/>"; "                </class>"; "                <class name=""korrigierte MaLo/MeLo/Tranche"" ref=""SG6"" key=""RFF:1:1[1:0=AVE]"">"; "                    <field name=""MaLo/MeLo/Tranche"" ref=""RFF:1:1"" meta.id=""1154""/>"; "                </class>"; "                <class name=""Antwortstatus AA"" ref=""SG6"" key=""RFF:1:1[1:0=Z07]"""; "                       ahbName=""Ablehnungsgrund des dritten Marktbeteiligten"">"; "                    <field name=""Antwortstatus"" ref=""RFF:1:1"" meta.type=""repository"" meta.id=""1154"""; "                           meta.typeInfo=""Statusrepository""/>"; "                </class>"; "                <class name=""Prüfidentifikator"" ref=""SG6"" key=""RFF:1:1[1:0=Z13]"" max=""1"">"; "                    <field name=""ID"" ref=""RFF:1:1"" meta.id=""1154""/>"; "                </class>"; "                <class name=""Referenz auf die ID der Messlokation für Termine der Messlokation"" ref=""SG6"""; "                       key=""RFF:1:1[1:0=Z19]"">"; "                    <field name=""ID"" ref=""RFF:1:1"" meta.id=""1154"" meta.ref=""Meldepunkt.ID""/>"; "                </class>"; "                <class name=""Daten der Marktlokation"" ref=""SG8"" key=""SEQ:1:0[SEQ:1:0=Z01]"" max=""99999"" meta.type=""group"""; "                       groupKey=""Referenz auf die ID der Marktlokation"">"; "                    <field name=""Referenz auf die ID der Marktlokation"" ref=""RFF:1:1[1:0=Z18]"" meta.id=""1154"" max=""1"""; "                           meta.ref=""Meldepunkt.ID""/>"; "                </class>"; "                <class name=""Daten der Marktlokation der beteiligten Marktrolle"" ref=""SG8"" key=""SEQ:1:0[SEQ:1:0=Z29]"""; "                       max=""99999"" meta.type=""group"" groupKey=""Referenz auf die ID der Marktlokation"">"; "                    <field name=""Referenz auf die ID der Marktlokation"" ref=""RFF:1:1[1:0=Z18]"" meta.id=""1154"" max=""1"""; "                           meta.ref=""Meldepunkt.ID""/>"; "                </class>"; "                <class name=""Erforderliche OBIS-Daten der Marktlokation"" ref=""SG8"" key=""SEQ:1:0[SEQ:1:0=Z27]"""; "                       max=""99999"""; "                       groupKey=""OBIS-Kennzahl der Marktlokation"" meta.objType=""OBIS-Kennzahl"">"; "                    <field name=""Referenz auf die ID der Marktlokation"" ref=""RFF:1:1[1:0=Z18]"" meta.id=""1154"" max=""1"""; "                           meta.ref=""Meldepunkt.ID""/>"; "                </class>"; "                <class name=""Daten der Messlokation"" ref=""SG8"" key=""SEQ:1:0[SEQ:1:0=Z18]"" max=""99999"" meta.type=""group"""; "                       groupKey=""Referenz auf die ID der Marktlokation"">"; "                    <field name=""Referenz auf die ID der Messlokation"" ref=""RFF:1:1[1:0=Z19]"" meta.id=""1154"" max=""1"""; "                           meta.ref=""Meldepunkt.ID""/>"; "                    <field name=""Referenz auf die der Messlokation zugeordneten Marktlokation"" ref=""RFF:1:1[1:0=Z16]"""; "                           meta.id=""1154"" max=""1"" meta.ref=""Meldepunkt.ID""/>"; "                    <field name=""Abrechnung des Messstellenbetriebs über NNE für kME"" ref=""RFF:1:1[1:0=Z05]"""; "                           meta.id=""1154""/>"; "                </class>"; "                <class name=""Erforderliche OBIS-Daten der Messlokation"" ref=""SG8"" key=""SEQ:1:0[SEQ:1:0=Z19]"" max=""99999"""; "                       groupKey=""OBIS-Kennzahl der Messlokation"" meta.objType=""OBIS-Kennzahl"">"; "                    <field name=""Referenz auf die ID einer Messlokation"" ref=""RFF:1:1[1:0=Z19]"" meta.id=""1154"" max=""1"""; "                           meta.ref=""Meldepunkt.ID""/>"; "                </class>"; "                <field name=""Referenz auf die ID einer Messlokation"" ref=""RFF:1:1[1:0=Z19]"" meta.id=""1154"" max=""2"""; "                       meta.ref=""Meldepunkt.ID""/>"; "                <field name=""Referenz auf das Smartmeter-Gateway"" ref=""RFF:1:1[1:0=Z14]"" meta.id=""1154"""; "                       meta.migMatch=""Z03""/>"; "            </class>"; "            <class name=""Mengenumwerterdaten"" ref=""SG8"" key=""SEQ:1:0[SEQ:1:0=Z09]"""; "                   groupKey=""Identifikation/Nummer des Gerätes"" max=""99999"">"; "                <field name=""Referenz auf die Gerätenummer"" ref=""RFF:1:1[1:0=MG]"" meta.id=""1154"""; "                       meta.ref=""Zählertyp.Identifikation/Nummer des Gerätes""/>"; "            </class>"; "            <class name=""OBIS-Daten der Zähleinrichtung / Mengenumwerter"" ref=""SG8"" key=""SEQ:1:0[SEQ:1:0=Z20]"""; "                   max=""99999"""; "                   groupKey=""OBIS-Kennzahl"" meta.objType=""OBIS-Kennzahl"">"; "                <class name=""Referenz auf die Gerätenummer"" ref=""RFF"" key=""RFF:1:0"">"; "                    <field name=""Nummer"" ref=""RFF:1:1"" meta.id=""1154"""; "                           meta.ref=""Zählertyp.Identifikation/Nummer des Gerätes""></field>"; "                </class>"; "            </class>"; "            <class name=""Wandlerdaten"" ref=""SG8"" key=""SEQ:1:0[SEQ:1:0=Z04]"" max=""99999"""; "                   groupKey=""Identifikation/Nummer des Gerätes"">"; "                <field name=""Referenz auf die Gerätenummer"" ref=""RFF:1:1[1:0=MG]"" meta.id=""1154"" max=""9"""; "                       meta.ref=""Zählertyp.Identifikation/Nummer des Gerätes""/>"; "            </class>"; "            <class name=""Kommunikationseinrichtungsdaten"" ref=""SG8"" key=""SEQ:1:0[SEQ:1:0=Z05]"" max=""99999"""; "                   groupKey=""Identifikation/Nummer des Gerätes"">"; "                <field name=""Referenz auf die Gerätenummer"" ref=""RFF:1:1[1:0=MG]"" meta.id=""1154"""; "                       meta.ref=""Zählertyp.Identifikation/Nummer des Gerätes""/>"; "            </class>"; "            <class name=""Daten der technischen Steuereinrichtung"" ref=""SG8"" key=""SEQ:1:0[SEQ:1:0=Z06]"" max=""99999"""; "                   groupKey=""Identifikation/Nummer des Gerätes"">"; "                <field name=""Referenz auf die Gerätenummer"" ref=""RFF:1:1[1:0=MG]"" max=""9"" meta.id=""1154"""; "                       meta.ref=""Zählertyp.Identifikation/Nummer des Gerätes""/>"; "            </class>"; "            <class name=""Daten der Steuerbox"" ref=""SG8"" key=""SEQ:1:0[SEQ:1:0=Z14]"" max=""99999"">"; "                <field name=""Referenz auf das Smartmeter-Gateway"" ref=""RFF:1:1[1:0=Z14]"" meta.id=""1154"""; "                       meta.migMatch=""Z14""/>"; "                <field name=""Referenz auf die ID der Marktlokation"" ref=""RFF:1:1[1:0=Z18]"" meta.id=""1154""/>"; "            </class>"; "            <class name=""Profildaten (Strom)"" ref=""SG8"" key=""SEQ:1:0[SEQ:1:0=Z21]"" max=""99999"">"; "                <field name=""Versionsangabe des Profils"" ref=""RFF:1:1[1:0=Z12]"" meta.id=""1154""/>"; "                <field name=""Referenz auf die ID der Marktlokation"" ref=""RFF:1:1[1:0=Z18]"" meta.id=""1154"""; "                       meta.ref=""Meldepunkt.ID""/>"; "            </class>"; "            <class name=""Profilschardaten"" ref=""SG8"" key=""SEQ:1:0[SEQ:1:0=Z08]"" max=""99999"">"; "                <field name=""Versionsangabe des Profils"" ref=""RFF:1:1[1:0=Z12]"" meta.id=""1154""/>"; "                <field name=""Referenz auf die ID der Marktlokation"" ref=""RFF:1:1[1:0=Z18]"" meta.id=""1154""/>"; "            </class>"; "            <class name=""Daten der Summenzeitreihe"" ref=""SG8"" key=""SEQ:1:0[SEQ:1:0=Z22]"" max=""99999"">"; "                <field name=""Referenz auf die ID der Summenzeitreihe"" ref=""RFF:1:1[1:0=AVE]"" meta.id=""1154""/>"; "                <field name=""Versionsangabe der Summenzeitreihe"" ref=""RFF:1:1[1:0=AUU]"" meta.id=""1154""/>"; "                <class name=""Daten der EEG-Überführungszeitreihe"" ref=""SG8"" key=""SEQ:1:0[SEQ:1:0=Z24]"" max=""99999"">"; "                    <field name=""Versionsangabe der Zeitreihe"" ref=""RFF:1:1[1:0=AUU]"" meta.id=""1154""/>"; "                </class>"; "                <class name=""Kunde des Lieferanten"" ref=""SG12"" key=""NAD:4:(0,4)[NAD:1:0=Z09]"""; "                       groupKey=""Name des Beteiligten"" meta.objType=""Personen"">"; "                    <field name=""Kundennummer beim Lieferanten"" ref=""RFF:1:1[1:0=AVC]"" meta.id=""1154""/>"; "                    <field name=""Kundennummer beim Altlieferant"" ref=""RFF:1:1[1:0=Z01]"" meta.id=""1154""/>"; "                    <field name=""Referenz auf die ID der Marktlokation"" ref=""RFF:1:1[1:0=Z18]"" max=""9"" meta.id=""1154"""; "                           meta.ref=""Meldepunkt.ID""/>"; "                </class>"; "                <class name=""Korrespondenzanschrift des Kunden des Lieferanten"" ref=""SG12"""; "                       key=""NAD:5:(0,3)[NAD:1:0=Z04]"""; "                       meta.objType=""Personen"">"; "                    <field name=""Referenz auf die ID der Marktlokation"" ref=""RFF:1:1"" max=""9"" meta.id=""1154"""; "                           meta.ref=""Meldepunkt.ID""/>"; "                </class>"; "                <class name=""Kunde des Messstellenbetreibers"" ref=""SG12"" key=""NAD:4:(0,4)[NAD:1:0=Z07]"""; "                       groupKey=""Name des Beteiligten"" meta.objType=""Personen"">"; "                    <field name=""Referenz auf die ID der Messlokation"" ref=""RFF:1:1"" max=""9"" meta.id=""1154"""; "                           meta.ref=""Meldepunkt.ID""/>"; "                </class>"; "                <class name=""Messlokationsadresse"" ref=""SG12"" key=""NAD:5:(0,3)[NAD:1:0=Z03]"""; "                       groupKey=""Name und Anschrift"""; "                       meta.objType=""Adressen"">"; "                    <field name=""Referenz auf die ID einer Messlokation"" ref=""RFF:1:1"" max=""9"" meta.id=""1154"""; "                           meta.ref=""Meldepunkt.ID""/>"; "                </class>"; "                <class name=""Name und Adresse für die Ablesekarte"" ref=""SG12"" key=""NAD:5:(0,3)[NAD:1:0=Z05]"" max=""9"""; "                       groupKey=""Name des Beteiligten"" meta.objType=""Personen"">"; "                    <field name=""Referenz auf die ID einer Messlokation"" ref=""RFF:1:1[1:0=Z19]"" max=""9"" meta.id=""1154"""; "                           meta.orderId=""14"" meta.ref=""Meldepunkt.ID""/>"; "                </class>"; "            </class>"; "        </class>"; "    </class>"; "</UTILMD>"; ""]%string).
(** tests/unit_tests/test_mig_xml_reader_real_data.py:33 *)
Example test_is_parsable_7 :
  check_file_can_be_parsed_as_mig_xml no_high no_high any_declaration no_doctype (fun _ => Raise XMLSyntaxError) (fun _ => false) (fun _ => false) decode_utf8 formats (Some file_FV2204_utilmd_1154) = Ok tt.
Proof. vm_compute. repeat split; reflexivity. Qed.
(** tests/unit_tests/test_mig_xml_reader_real_data.py:33 *)
Example test_is_parsable_8 :
  document file_FV2204_utilmd_1154 = Ok (Element (u "UTILMD") [] (Some (u "
    
")) [(Element (u "class") [((u "name"), (u "Dokument")); ((u "ref"), (u "/")); ((u "key"), (u "UNB:5:0"))] (Some (u "
        
    ")) [(Element (u "class") [((u "name"), (u "Nachricht")); ((u "ref"), (u "UNH")); ((u "key"), (u "UNH:1:0")); ((u "max"), (u "9999")); ((u "meta.type"), (u "group"))] (Some (u "
            
            
            
            
            
            
            
            
            
            
            
        ")) [(Element (u "field") [((u "name"), (u "Referenz Anfrage")); ((u "ref"), (u "RFF:1:1[RFF:1:0=AAV]")); ((u "meta.id"), (u "1154")); ((u "ahbName"), (u "Referenz auf eine vorangegangene Anfrage"))] None []); (Element (u "class") [((u "name"), (u "Vorgang")); ((u "ref"), (u "SG4")); ((u "key"), (u "IDE:2:0")); ((u "max"), (u "99999")); ((u "meta.type"), (u "group")); ((u "groupKey"), (u "Vorgangsnummer"))] (Some (u "
                
                
                
                
                
                
                
                
                
                
                
                
                
                
                
            ")) [(Element (u "class") [((u "name"), (u "Referenz Vorgangsnummer")); ((u "ref"), (u "SG6")); ((u "key"), (u "RFF:1:1[1:0=TN]")); ((u "ahbName"), (u "Referenz Vorgangsnummer (aus Anfragenachricht)"))] (Some (u "
                    
                ")) [(Element (u "field") [((u "name"), (u "Referenz")); ((u "ref"), (u "RFF:1:1")); ((u "meta.id"), (u "1154"))] None [])]); (Element (u "class") [((u "name"), (u "Referenz auf die ID der Marktlokation für Termine der Marktlokation")); ((u "ref"), (u "SG6")); ((u "key"), (u "RFF:1:1[1:0=Z18]"))] (Some (u "
                    
                ")) [(Element (u "field") [((u "name"), (u "ID")); ((u "ref"), (u "RFF:1:1")); ((u "meta.id"), (u "1154")); ((u "meta.ref"), (u "Meldepunkt.ID"))] None [])]); (Element (u "class") [((u "name"), (u "Referenz Storno")); ((u "ref"), (u "SG6")); ((u "key"), (u "RFF:1:1[1:0=ACW]")); ((u "ahbName"), (u "Referenz auf zu stornierende Vorgangsnummer"))] (Some (u "
                    
                ")) [(Element (u "field") [((u "name"), (u "Referenz")); ((u "ref"), (u "RFF:1:1")); ((u "meta.id"), (u "1154"))] None [])]); (Element (u "class") [((u "name"), (u "Referenz Anfrage")); ((u "ref"), (u "SG6")); ((u "key"), (u "RFF:1:1[1:0=AAV]"))] (Some (u "
                    
                ")) [(Element (u "field") [((u "name"), (u "Referenz")); ((u "ref"), (u "RFF:1:1")); ((u "meta.id"), (u "1154"))] None [])]); (Element (u "class") [((u "name"), (u "korrigierte MaLo/MeLo/Tranche")); ((u "ref"), (u "SG6")); ((u "key"), (u "RFF:1:1[1:0=AVE]"))] (Some (u "
                    
                ")) [(Element (u "field") [((u "name"), (u "MaLo/MeLo/Tranche")); ((u "ref"), (u "RFF:1:1")); ((u "meta.id"), (u "1154"))] None [])]); (Element (u "class") [((u "name"), (u "Antwortstatus AA")); ((u "ref"), (u "SG6")); ((u "key"), (u "RFF:1:1[1:0=Z07]")); ((u "ahbName"), (u "Ablehnungsgrund des dritten Marktbeteiligten"))] (Some (u "
                    
                ")) [(Element (u "field") [((u "name"), (u "Antwortstatus")); ((u "ref"), (u "RFF:1:1")); ((u "meta.type"), (u "repository")); ((u "meta.id"), (u "1154")); ((u "meta.typeInfo"), (u "Statusrepository"))] None [])]); (Element (u "class") [((u "name"), (u "Prüfidentifikator")); ((u "ref"), (u "SG6")); ((u "key"), (u "RFF:1:1[1:0=Z13]")); ((u "max"), (u "1"))] (Some (u "
                    
                ")) [(Element (u "field") [((u "name"), (u "ID")); ((u "ref"), (u "RFF:1:1")); ((u "meta.id"), (u "1154"))] None [])]); (Element (u "class") [((u "name"), (u "Referenz auf die ID der Messlokation für Termine der Messlokation")); ((u "ref"), (u "SG6")); ((u "key"), (u "RFF:1:1[1:0=Z19]"))] (Some (u "
                    
                ")) [(Element (u "field") [((u "name"), (u "ID")); ((u "ref"), (u "RFF:1:1")); ((u "meta.id"), (u "1154")); ((u "meta.ref"), (u "Meldepunkt.ID"))] None [])]); (Element (u "class") [((u "name"), (u "Daten der Marktlokation")); ((u "ref"), (u "SG8")); ((u "key"), (u "SEQ:1:0[SEQ:1:0=Z01]")); ((u "max"), (u "99999")); ((u "meta.type"), (u "group")); ((u "groupKey"), (u "Referenz auf die ID der Marktlokation"))] (Some (u "
                    
                ")) [(Element (u "field") [((u "name"), (u "Referenz auf die ID der Marktlokation")); ((u "ref"), (u "RFF:1:1[1:0=Z18]")); ((u "meta.id"), (u "1154")); ((u "max"), (u "1")); ((u "meta.ref"), (u "Meldepunkt.ID"))] None [])]); (Element (u "class") [((u "name"), (u "Daten der Marktlokation der beteiligten Marktrolle")); ((u "ref"), (u "SG8")); ((u "key"), (u "SEQ:1:0[SEQ:1:0=Z29]")); ((u "max"), (u "99999")); ((u "meta.type"), (u "group")); ((u "groupKey"), (u "Referenz auf die ID der Marktlokation"))] (Some (u "
                    
                ")) [(Element (u "field") [((u "name"), (u "Referenz auf die ID der Marktlokation")); ((u "ref"), (u "RFF:1:1[1:0=Z18]")); ((u "meta.id"), (u "1154")); ((u "max"), (u "1")); ((u "meta.ref"), (u "Meldepunkt.ID"))] None [])]); (Element (u "class") [((u "name"), (u "Erforderliche OBIS-Daten der Marktlokation")); ((u "ref"), (u "SG8")); ((u "key"), (u "SEQ:1:0[SEQ:1:0=Z27]")); ((u "max"), (u "99999")); ((u "groupKey"), (u "OBIS-Kennzahl der Marktlokation")); ((u "meta.objType"), (u "OBIS-Kennzahl"))] (Some (u "
                    
                ")) [(Element (u "field") [((u "name"), (u "Referenz auf die ID der Marktlokation")); ((u "ref"), (u "RFF:1:1[1:0=Z18]")); ((u "meta.id"), (u "1154")); ((u "max"), (u "1")); ((u "meta.ref"), (u "Meldepunkt.ID"))] None [])]); (Element (u "class") [((u "name"), (u "Daten der Messlokation")); ((u "ref"), (u "SG8")); ((u "key"), (u "SEQ:1:0[SEQ:1:0=Z18]")); ((u "max"), (u "99999")); ((u "meta.type"), (u "group")); ((u "groupKey"), (u "Referenz auf die ID der Marktlokation"))] (Some (u "
                    
                    
                    
                ")) [(Element (u "field") [((u "name"), (u "Referenz auf die ID der Messlokation")); ((u "ref"), (u "RFF:1:1[1:0=Z19]")); ((u "meta.id"), (u "1154")); ((u "max"), (u "1")); ((u "meta.ref"), (u "Meldepunkt.ID"))] None []); (Element (u "field") [((u "name"), (u "Referenz auf die der Messlokation zugeordneten Marktlokation")); ((u "ref"), (u "RFF:1:1[1:0=Z16]")); ((u "meta.id"), (u "1154")); ((u "max"), (u "1")); ((u "meta.ref"), (u "Meldepunkt.ID"))] None []); (Element (u "field") [((u "name"), (u "Abrechnung des Messstellenbetriebs über NNE für kME")); ((u "ref"), (u "RFF:1:1[1:0=Z05]")); ((u "meta.id"), (u "1154"))] None [])]); (Element (u "class") [((u "name"), (u "Erforderliche OBIS-Daten der Messlokation")); ((u "ref"), (u "SG8")); ((u "key"), (u "SEQ:1:0[SEQ:1:0=Z19]")); ((u "max"), (u "99999")); ((u "groupKey"), (u "OBIS-Kennzahl der Messlokation")); ((u "meta.objType"), (u "OBIS-Kennzahl"))] (Some (u "
                    
                ")) [(Element (u "field") [((u "name"), (u "Referenz auf die ID einer Messlokation")); ((u "ref"), (u "RFF:1:1[1:0=Z19]")); ((u "meta.id"), (u "1154")); ((u "max"), (u "1")); ((u "meta.ref"), (u "Meldepunkt.ID"))] None [])]); (Element (u "field") [((u "name"), (u "Referenz auf die ID einer Messlokation")); ((u "ref"), (u "RFF:1:1[1:0=Z19]")); ((u "meta.id"), (u "1154")); ((u "max"), (u "2")); ((u "meta.ref"), (u "Meldepunkt.ID"))] None []); (Element (u "field") [((u "name"), (u "Referenz auf das Smartmeter-Gateway")); ((u "ref"), (u "RFF:1:1[1:0=Z14]")); ((u "meta.id"), (u "1154")); ((u "meta.migMatch"), (u "Z03"))] None [])]); (Element (u "class") [((u "name"), (u "Mengenumwerterdaten")); ((u "ref"), (u "SG8")); ((u "key"), (u "SEQ:1:0[SEQ:1:0=Z09]")); ((u "groupKey"), (u "Identifikation/Nummer des Gerätes")); ((u "max"), (u "99999"))] (Some (u "
                
            ")) [(Element (u "field") [((u "name"), (u "Referenz auf die Gerätenummer")); ((u "ref"), (u "RFF:1:1[1:0=MG]")); ((u "meta.id"), (u "1154")); ((u "meta.ref"), (u "Zählertyp.Identifikation/Nummer des Gerätes"))] None [])]); (Element (u "class") [((u "name"), (u "OBIS-Daten der Zähleinrichtung / Mengenumwerter")); ((u "ref"), (u "SG8")); ((u "key"), (u "SEQ:1:0[SEQ:1:0=Z20]")); ((u "max"), (u "99999")); ((u "groupKey"), (u "OBIS-Kennzahl")); ((u "meta.objType"), (u "OBIS-Kennzahl"))] (Some (u "
                
            ")) [(Element (u "class") [((u "name"), (u "Referenz auf die Gerätenummer")); ((u "ref"), (u "RFF")); ((u "key"), (u "RFF:1:0"))] (Some (u "
                    
                ")) [(Element (u "field") [((u "name"), (u "Nummer")); ((u "ref"), (u "RFF:1:1")); ((u "meta.id"), (u "1154")); ((u "meta.ref"), (u "Zählertyp.Identifikation/Nummer des Gerätes"))] None [])])]); (Element (u "class") [((u "name"), (u "Wandlerdaten")); ((u "ref"), (u "SG8")); ((u "key"), (u "SEQ:1:0[SEQ:1:0=Z04]")); ((u "max"), (u "99999")); ((u "groupKey"), (u "Identifikation/Nummer des Gerätes"))] (Some (u "
                
            ")) [(Element (u "field") [((u "name"), (u "Referenz auf die Gerätenummer")); ((u "ref"), (u "RFF:1:1[1:0=MG]")); ((u "meta.id"), (u "1154")); ((u "max"), (u "9")); ((u "meta.ref"), (u "Zählertyp.Identifikation/Nummer des Gerätes"))] None [])]); (Element (u "class") [((u "name"), (u "Kommunikationseinrichtungsdaten")); ((u "ref"), (u "SG8")); ((u "key"), (u "SEQ:1:0[SEQ:1:0=Z05]")); ((u "max"), (u "99999")); ((u "groupKey"), (u "Identifikation/Nummer des Gerätes"))] (Some (u "
                
            ")) [(Element (u "field") [((u "name"), (u "Referenz auf die Gerätenummer")); ((u "ref"), (u "RFF:1:1[1:0=MG]")); ((u "meta.id"), (u "1154")); ((u "meta.ref"), (u "Zählertyp.Identifikation/Nummer des Gerätes"))] None [])]); (Element (u "class") [((u "name"), (u "Daten der technischen Steuereinrichtung")); ((u "ref"), (u "SG8")); ((u "key"), (u "SEQ:1:0[SEQ:1:0=Z06]")); ((u "max"), (u "99999")); ((u "groupKey"), (u "Identifikation/Nummer des Gerätes"))] (Some (u "
                
            ")) [(Element (u "field") [((u "name"), (u "Referenz auf die Gerätenummer")); ((u "ref"), (u "RFF:1:1[1:0=MG]")); ((u "max"), (u "9")); ((u "meta.id"), (u "1154")); ((u "meta.ref"), (u "Zählertyp.Identifikation/Nummer des Gerätes"))] None [])]); (Element (u "class") [((u "name"), (u "Daten der Steuerbox")); ((u "ref"), (u "SG8")); ((u "key"), (u "SEQ:1:0[SEQ:1:0=Z14]")); ((u "max"), (u "99999"))] (Some (u "
                
                
            ")) [(Element (u "field") [((u "name"), (u "Referenz auf das Smartmeter-Gateway")); ((u "ref"), (u "RFF:1:1[1:0=Z14]")); ((u "meta.id"), (u "1154")); ((u "meta.migMatch"), (u "Z14"))] None []); (Element (u "field") [((u "name"), (u "Referenz auf die ID der Marktlokation")); ((u "ref"), (u "RFF:1:1[1:0=Z18]")); ((u "meta.id"), (u "1154"))] None [])]); (Element (u "class") [((u "name"), (u "Profildaten (Strom)")); ((u "ref"), (u "SG8")); ((u "key"), (u "SEQ:1:0[SEQ:1:0=Z21]")); ((u "max"), (u "99999"))] (Some (u "
                
                
            ")) [(Element (u "field") [((u "name"), (u "Versionsangabe des Profils")); ((u "ref"), (u "RFF:1:1[1:0=Z12]")); ((u "meta.id"), (u "1154"))] None []); (Element (u "field") [((u "name"), (u "Referenz auf die ID der Marktlokation")); ((u "ref"), (u "RFF:1:1[1:0=Z18]")); ((u "meta.id"), (u "1154")); ((u "meta.ref"), (u "Meldepunkt.ID"))] None [])]); (Element (u "class") [((u "name"), (u "Profilschardaten")); ((u "ref"), (u "SG8")); ((u "key"), (u "SEQ:1:0[SEQ:1:0=Z08]")); ((u "max"), (u "99999"))] (Some (u "
                
                
            ")) [(Element (u "field") [((u "name"), (u "Versionsangabe des Profils")); ((u "ref"), (u "RFF:1:1[1:0=Z12]")); ((u "meta.id"), (u "1154"))] None []); (Element (u "field") [((u "name"), (u "Referenz auf die ID der Marktlokation")); ((u "ref"), (u "RFF:1:1[1:0=Z18]")); ((u "meta.id"), (u "1154"))] None [])]); (Element (u "class") [((u "name"), (u "Daten der Summenzeitreihe")); ((u "ref"), (u "SG8")); ((u "key"), (u "SEQ:1:0[SEQ:1:0=Z22]")); ((u "max"), (u "99999"))] (Some (u "
                
                
                
                
                
                
                
                
            ")) [(Element (u "field") [((u "name"), (u "Referenz auf die ID der Summenzeitreihe")); ((u "ref"), (u "RFF:1:1[1:0=AVE]")); ((u "meta.id"), (u "1154"))] None []); (Element (u "field") [((u "name"), (u "Versionsangabe der Summenzeitreihe")); ((u "ref"), (u "RFF:1:1[1:0=AUU]")); ((u "meta.id"), (u "1154"))] None []); (Element (u "class") [((u "name"), (u "Daten der EEG-Überführungszeitreihe")); ((u "ref"), (u "SG8")); ((u "key"), (u "SEQ:1:0[SEQ:1:0=Z24]")); ((u "max"), (u "99999"))] (Some (u "
                    
                ")) [(Element (u "field") [((u "name"), (u "Versionsangabe der Zeitreihe")); ((u "ref"), (u "RFF:1:1[1:0=AUU]")); ((u "meta.id"), (u "1154"))] None [])]); (Element (u "class") [((u "name"), (u "Kunde des Lieferanten")); ((u "ref"), (u "SG12")); ((u "key"), (u "NAD:4:(0,4)[NAD:1:0=Z09]")); ((u "groupKey"), (u "Name des Beteiligten")); ((u "meta.objType"), (u "Personen"))] (Some (u "
                    
                    
                    
                ")) [(Element (u "field") [((u "name"), (u "Kundennummer beim Lieferanten")); ((u "ref"), (u "RFF:1:1[1:0=AVC]")); ((u "meta.id"), (u "1154"))] None []); (Element (u "field") [((u "name"), (u "Kundennummer beim Altlieferant")); ((u "ref"), (u "RFF:1:1[1:0=Z01]")); ((u "meta.id"), (u "1154"))] None []); (Element (u "field") [((u "name"), (u "Referenz auf die ID der Marktlokation")); ((u "ref"), (u "RFF:1:1[1:0=Z18]")); ((u "max"), (u "9")); ((u "meta.id"), (u "1154")); ((u "meta.ref"), (u "Meldepunkt.ID"))] None [])]); (Element (u "class") [((u "name"), (u "Korrespondenzanschrift des Kunden des Lieferanten")); ((u "ref"), (u "SG12")); ((u "key"), (u "NAD:5:(0,3)[NAD:1:0=Z04]")); ((u "meta.objType"), (u "Personen"))] (Some (u "
                    
                ")) [(Element (u "field") [((u "name"), (u "Referenz auf die ID der Marktlokation")); ((u "ref"), (u "RFF:1:1")); ((u "max"), (u "9")); ((u "meta.id"), (u "1154")); ((u "meta.ref"), (u "Meldepunkt.ID"))] None [])]); (Element (u "class") [((u "name"), (u "Kunde des Messstellenbetreibers")); ((u "ref"), (u "SG12")); ((u "key"), (u "NAD:4:(0,4)[NAD:1:0=Z07]")); ((u "groupKey"), (u "Name des Beteiligten")); ((u "meta.objType"), (u "Personen"))] (Some (u "
                    
                ")) [(Element (u "field") [((u "name"), (u "Referenz auf die ID der Messlokation")); ((u "ref"), (u "RFF:1:1")); ((u "max"), (u "9")); ((u "meta.id"), (u "1154")); ((u "meta.ref"), (u "Meldepunkt.ID"))] None [])]); (Element (u "class") [((u "name"), (u "Messlokationsadresse")); ((u "ref"), (u "SG12")); ((u "key"), (u "NAD:5:(0,3)[NAD:1:0=Z03]")); ((u "groupKey"), (u "Name und Anschrift")); ((u "meta.objType"), (u "Adressen"))] (Some (u "
                    
                ")) [(Element (u "field") [((u "name"), (u "Referenz auf die ID einer Messlokation")); ((u "ref"), (u "RFF:1:1")); ((u "max"), (u "9")); ((u "meta.id"), (u "1154")); ((u "meta.ref"), (u "Meldepunkt.ID"))] None [])]); (Element (u "class") [((u "name"), (u "Name und Adresse für die Ablesekarte")); ((u "ref"), (u "SG12")); ((u "key"), (u "NAD:5:(0,3)[NAD:1:0=Z05]")); ((u "max"), (u "9")); ((u "groupKey"), (u "Name des Beteiligten")); ((u "meta.objType"), (u "Personen"))] (Some (u "
                    
                ")) [(Element (u "field") [((u "name"), (u "Referenz auf die ID einer Messlokation")); ((u "ref"), (u "RFF:1:1[1:0=Z19]")); ((u "max"), (u "9")); ((u "meta.id"), (u "1154")); ((u "meta.orderId"), (u "14")); ((u "meta.ref"), (u "Meldepunkt.ID"))] None [])])])])])]).
Proof. vm_compute. repeat split; reflexivity. Qed.
(** tests/unit_tests/migs/FV2204/template_xmls/utilmd_2379.xml, line by line *)
Definition file_FV2204_utilmd_2379 : list N := removelast (flat_map (fun l => bytes_of l ++ [10%N]) ["<?xml version=""1.0""?>"; "<UTILMD>"; "    <class name=""Dokument"" ref=""/"" key=""UNB:5:0"">"; "        <class name=""Nachricht"" ref=""UNH"" key=""UNH:1:0"" max=""9999"" meta.type=""group"">"; "            <class name=""Vorgang"" ref=""SG4"" key=""IDE:2:0"" max=""99999"" meta.type=""group"" groupKey=""Vorgangsnummer"">"; "                <class name=""Kuendigungstermin"" ref=""DTM"" key=""DTM:1:1[1:0=Z10]"" max=""1"""; "                       ahbName=""Kündigungstermin des Vertrags"" meta.type=""date-time-format"" meta.typeInfo=""102;106"">"; "                    <field name=""Kuendigungstermin"" ref=""DTM:1:1[1:0=Z10]"" meta.id=""2380"" ahbName=""Kündigungstermin"""; "                           meta.type=""date-time""/>"; "                    <field name=""DateFormat"" ref=""DTM:1:2[1:0=Z10]"" meta.id=""2379""/>"; "                </class>"; "                <class name=""Termin der Netznutzungsabrechnung"" ref=""SG6"" key=""DTM:1:1[1:0=Z21]"" max=""1"""; "                       meta.type=""date-time-format"" meta.typeInfo=""102;106"">"; "                    <field name=""Datum"" ref=""DTM:1:1[1:0=Z21]"" ahbName=""Termin der Netznutzungsabrechnung"""; "                           meta.id=""2380"" meta.type=""date-time""/>"; "                    <field name=""DateFormat"" ref=""DTM:1:2[1:0=Z21]"" meta.id=""2379""/>"; "                </class>"; "            </class>"; "        </class>"; "    </class>"; "</UTILMD>"; ""]%string).
(** tests/unit_tests/test_mig_xml_reader_real_data.py:33 *)
Example test_is_parsable_9 :
  check_file_can_be_parsed_as_mig_xml no_high no_high any_declaration no_doctype (fun _ => Raise XMLSyntaxError) (fun _ => false) (fun _ => false) decode_utf8 formats (Some file_FV2204_utilmd_2379) = Ok tt.
Proof. vm_compute. repeat split; reflexivity. Qed.
(** tests/unit_tests/test_mig_xml_reader_real_data.py:33 *)
Example test_is_parsable_10 :
  document file_FV2204_utilmd_2379 = Ok (Element (u "UTILMD") [] (Some (u "
    
")) [(Element (u "class") [((u "name"), (u "Dokument")); ((u "ref"), (u "/")); ((u "key"), (u "UNB:5:0"))] (Some (u "
        
    ")) [(Element (u "class") [((u "name"), (u "Nachricht")); ((u "ref"), (u "UNH")); ((u "key"), (u "UNH:1:0")); ((u "max"), (u "9999")); ((u "meta.type"), (u "group"))] (Some (u "
            
        ")) [(Element (u "class") [((u "name"), (u "Vorgang")); ((u "ref"), (u "SG4")); ((u "key"), (u "IDE:2:0")); ((u "max"), (u "99999")); ((u "meta.type"), (u "group")); ((u "groupKey"), (u "Vorgangsnummer"))] (Some (u "
                
                
            ")) [(Element (u "class") [((u "name"), (u "Kuendigungstermin")); ((u "ref"), (u "DTM")); ((u "key"), (u "DTM:1:1[1:0=Z10]")); ((u "max"), (u "1")); ((u "ahbName"), (u "Kündigungstermin des Vertrags")); ((u "meta.type"), (u "date-time-format")); ((u "meta.typeInfo"), (u "102;106"))] (Some (u "
                    
                    
                ")) [(Element (u "field") [((u "name"), (u "Kuendigungstermin")); ((u "ref"), (u "DTM:1:1[1:0=Z10]")); ((u "meta.id"), (u "2380")); ((u "ahbName"), (u "Kündigungstermin")); ((u "meta.type"), (u "date-time"))] None []); (Element (u "field") [((u "name"), (u "DateFormat")); ((u "ref"), (u "DTM:1:2[1:0=Z10]")); ((u "meta.id"), (u "2379"))] None [])]); (Element (u "class") [((u "name"), (u "Termin der Netznutzungsabrechnung")); ((u "ref"), (u "SG6")); ((u "key"), (u "DTM:1:1[1:0=Z21]")); ((u "max"), (u "1")); ((u "meta.type"), (u "date-time-format")); ((u "meta.typeInfo"), (u "102;106"))] (Some (u "
                    
                    
                ")) [(Element (u "field") [((u "name"), (u "Datum")); ((u "ref"), (u "DTM:1:1[1:0=Z21]")); ((u "ahbName"), (u "Termin der Netznutzungsabrechnung")); ((u "meta.id"), (u "2380")); ((u "meta.type"), (u "date-time"))] None []); (Element (u "field") [((u "name"), (u "DateFormat")); ((u "ref"), (u "DTM:1:2[1:0=Z21]")); ((u "meta.id"), (u "2379"))] None [])])])])])]).
Proof. vm_compute. repeat split; reflexivity. Qed.
(** tests/unit_tests/migs/FV2204/template_xmls/utilmd_2380.xml, line by line *)
Definition file_FV2204_utilmd_2380 : list N := removelast (flat_map (fun l => bytes_of l ++ [10%N]) ["<?xml version=""1.0""?>"; "<UTILMD>"; "    <class name=""Dokument"" ref=""/"" key=""UNB:5:0"">"; "        <field name=""Absender"" ref=""UNB:2:0"" ahbName=""Absender.Code""/>"; "        <field name=""Absender_Code_UNB"" ref=""UNB:2:1"" ahbName=""Absender.Codeliste""/>"; "        <field name=""Empfaenger"" ref=""UNB:3:0"" ahbName=""Empfänger.Code""/>"; "        <field name=""Empfaenger_Code_UNB"" ref=""UNB:3:1"" ahbName=""Empfänger.Codeliste""/>"; "        <field name=""Dokumentendatum"" ref=""UNB:4:0""/>"; "        <field name=""Dokumentenuhrzeit"" ref=""UNB:4:1""/>"; "        <field name=""Datenaustauschreferenz"" ref=""UNB:5:0""/>"; "        <class name=""Nachricht"" ref=""UNH"" key=""UNH:1:0"" max=""9999"" meta.type=""group"">"; "            <field name=""Nachrichtendatum"" ref=""DTM:1:1[1:0=137]"" meta.id=""2380"" meta.format=""203""/>"; "            <field name=""Zeitzone"" ref=""DTM:1:1[1:0=735]"" meta.format=""406"" meta.id=""2380"""; "                   ahbName=""Abweichnung zur UTC""/>"; "            <field name=""Gueltigkeit"" ref=""DTM:1:1[1:0=157]"" meta.id=""2380"" meta.format=""610"""; "                   ahbName=""Gültigkeit,Beginndatum""/>"; "            <class name=""Vorgang"" ref=""SG4"" key=""IDE:2:0"" max=""99999"" meta.type=""group"" groupKey=""Vorgangsnummer"">"; "                <field name=""Lieferdatum"" ref=""DTM:1:1[1:0=76]"" meta.format=""102"" meta.id=""2380"" meta.type=""date-time"""; "                       ahbName=""Datum zum geplanten Leistungsbeginn""/>"; "                <field name=""Uebergabedatum"" ref=""DTM:1:1[1:0=294]"" meta.format=""203"" meta.id=""2380"""; "                       meta.type=""date-time"" ahbName=""Datum und Uhrzeit der Übergabe""/>"; "                <field name=""Vertragsbeginn"" ref=""DTM:1:1[1:0=92]"" meta.format=""102"" meta.id=""2380"""; "                       meta.type=""date-time"" ahbName=""Beginn zum""/>"; "                <field name=""Vertragsende"" ref=""DTM:1:1[1:0=93]"" meta.format=""102"" meta.id=""2380"" ahbName=""Ende zum"""; "                       meta.type=""date-time""/>"; "                <field name=""Änderung zum"" ref=""DTM:1:1[1:0=157]"" meta.format=""102;203"" meta.id=""2380"""; "                       ahbName=""Änderung zum, Gültigkeit, Beginndatum"" meta.type=""date-time""/>"; "                <field name=""Ende zum (nächstmoeglichen Termin)"" ref=""DTM:1:1[1:0=471]"" meta.format=""102"" meta.id=""2380"""; "                       ahbName=""Ende zum (nächstmöglichem Termin)"" meta.type=""date-time""/>"; "                <field name=""Kündigung Kunde"" ref=""DTM:1:1[1:0=Z05]"" meta.format=""102"" meta.id=""2380"""; "                       ahbName=""gegenüber Kunde bestätigtes Kündigungsdatum"" meta.type=""date-time""/>"; "                <field name=""Kündigung Lieferant"" ref=""DTM:1:1[1:0=Z06]"" meta.format=""102"" meta.id=""2380"""; "                       ahbName=""gegenüber Lieferant bestätigtes Kündigungsdatum"" meta.type=""date-time""/>"; "                <field name=""Bilanzierungsbeginn"" ref=""DTM:1:1[1:0=158^1:2=102]"" meta.id=""2380"" meta.format=""102"""; "                       meta.type=""date-time""/>"; "                <field name=""Bilanzierungsbeginn lang"" ref=""DTM:1:1[1:0=158^1:2=203]"" meta.id=""2380"" meta.format=""203"""; "                       meta.type=""date-time""/>"; "                <field name=""Bilanzierungsende"" ref=""DTM:1:1[1:0=159^1:2=102]"" meta.id=""2380"" meta.format=""102"""; "                       meta.type=""date-time""/>"; "                <field name=""Bilanzierungsende lang"" ref=""DTM:1:1[1:0=159^1:2=203]"" meta.id=""2380"" meta.format=""203"""; "                       meta.type=""date-time""/>"; "                <field name=""Kündigungsfrist"" ref=""DTM:1:1[1:0=Z01^1:2=Z01]"" meta.id=""2380"" meta.format=""Z01"""; "                       ahbName=""Kündigungsfrist des Vertrags""/>"; "                <field name=""Kündigungsfrist zu festem Datum"" ref=""DTM:1:1[1:0=Z01^1:2=102]"" meta.id=""2380"""; "                       meta.format=""102""/>"; "                <field name=""Kündigungsfrist zu bestimmtem Termin"" ref=""DTM:1:1[1:0=Z01^1:2=106]"" meta.id=""2380"""; "                       meta.format=""106"" meta.type=""date-time""/>"; "                <field name=""Nächste Anmeldung"" ref=""DTM:1:1[1:0=Z08]"" meta.id=""2380"" meta.format=""102"""; "                       meta.type=""date-time""/>"; "                <field name=""Sperre Lieferbeginn"" ref=""DTM:1:1[1:0=Z07]"" meta.id=""2380"" meta.format=""102"""; "                       meta.type=""date-time""/>"; "                <class name=""Kuendigungstermin"" ref=""DTM"" key=""DTM:1:1[1:0=Z10]"" max=""1"""; "                       ahbName=""Kündigungstermin des Vertrags"" meta.type=""date-time-format"" meta.typeInfo=""102;106"">"; "                    <field name=""Kuendigungstermin"" ref=""DTM:1:1[1:0=Z10]"" meta.id=""2380"" ahbName=""Kündigungstermin"""; "                           meta.type=""date-time""/>"; "                    <field name=""DateFormat"" ref=""DTM:1:2[1:0=Z10]"" meta.id=""2379""/>"; "                </class>"; "                <field name=""Verwendung der Daten ab"" ref=""DTM:1:1[1:0=Z25]"" meta.id=""2380"" meta.format=""203"""; "                       meta.type=""date-time""/>"; "                <field name=""Verwendung der Daten bis"" ref=""DTM:1:1[1:0=Z26]"" meta.id=""2380"" meta.format=""203"""; "                       meta.type=""date-time""/>"; "                <class name=""Prozessual ausgetauschte Termine aus Sicht der beteiligten Marktrolle"" ref=""SG6"""; "                       key=""RFF:1:0[1:0=Z22]"">"; "                    <field name=""Bilanzierungsbeginn aus Daten der beteiligten Marktrolle"" ref=""DTM:1:1[1:0=Z15]"""; "                           meta.id=""2380"" meta.format=""102"" meta.type=""date-time""/>"; "                    <field name=""Bilanzierungsende aus Daten der beteiligten Marktrolle"" ref=""DTM:1:1[1:0=Z16]"""; "                           meta.id=""2380"" meta.format=""102"" meta.type=""date-time""/>"; "                </class>"; ""; "                <field name=""Start des Abrechnungsjahrs bei Marktlokationen mit Jahresleistungspreis (Gas)"""; "                       ref=""DTM:1:1[1:0=155]"" meta.id=""2380"" meta.format=""102"" meta.type=""date-time""/>"; "                <field name=""Geplante Turnusablesung des MSB (Strom)"" ref=""DTM:1:1[1:0=752^1:2=106]"" meta.format=""106"""; "                       meta.id=""2380"" meta.type=""date-time""/>"; "                <field name=""Turnusmäßige Ablesung"" ref=""DTM:1:1[1:0=752^1:2=104]"" meta.format=""104"" meta.id=""2380"""; "                       meta.type=""date-time""/>"; "                <field name=""Turnusableseintervall des MSB (Strom)"" ref=""DTM:1:1[1:0=672]"" meta.id=""2380"""; "                       meta.type=""repository"" meta.typeInfo=""Turnusintervallrepository""/>"; "                <field name=""Abrechnungsintervall des LF"" ref=""DTM:1:1[1:0=Z20]"" meta.id=""2380"" meta.type=""repository"""; "                       meta.typeInfo=""Turnusintervallrepository""/>"; "                <class name=""Termin der Netznutzungsabrechnung"" ref=""SG6"" key=""DTM:1:1[1:0=Z21]"" max=""1"""; "                       meta.type=""date-time-format"" meta.typeInfo=""102;106"">"; "                    <field name=""Datum"" ref=""DTM:1:1[1:0=Z21]"" ahbName=""Termin der Netznutzungsabrechnung"""; "                           meta.id=""2380"" meta.type=""date-time""/>"; "                    <field name=""DateFormat"" ref=""DTM:1:2[1:0=Z21]"" meta.id=""2379""/>"; "                </class>"; "                <field name=""Netznutzungsabrechnungsintervall des NB"" ref=""DTM:1:1[1:0=Z22]"" meta.id=""2380"""; "                       meta.type=""repository"" meta.typeInfo=""Turnusintervallrepository""/>"; "                <class name=""Referenz auf die ID der Messlokation für Termine der Messlokation"" ref=""SG6"""; "                       key=""RFF:1:1[1:0=Z19]"">"; "                    <field name=""ID"" ref=""RFF:1:1"" meta.id=""1154"" meta.ref=""Meldepunkt.ID""/>"; "                </class>"; "                <field name=""Nächste Netznutzungsabrechnung"" ref=""DTM:1:1[1:0=Z09]"" meta.format=""602"" meta.id=""2380"""; "                       meta.type=""date-time""/>"; "                <field name=""Geplante Turnusablesung des NB (Gas)"" ref=""DTM:1:1[1:0=752^1:2=106]"" meta.format=""106"""; "                       meta.id=""2380"" meta.type=""date-time""/>"; "                <field name=""Turnusableseintervall des NB (Gas)"" ref=""DTM:1:1[1:0=672]"" meta.id=""2380"""; "                       meta.type=""repository"" meta.typeInfo=""Turnusintervallrepository""/>"; "                <class name=""Daten der Summenzeitreihe"" ref=""SG8"" key=""SEQ:1:0[SEQ:1:0=Z22]"" max=""99999"">"; "                    <class name=""OBIS-Daten der Summenzeitreihe"" ref=""SG8"" key=""SEQ:1:0[SEQ:1:0=Z23]"" max=""99999"">"; "                        <field name=""Beginn Messperiode"" ref=""DTM:1:2[1:0=163]"" meta.id=""2380"" meta.format=""203""/>"; "                        <field name=""Ende Messperiode"" ref=""DTM:1:2[1:0=164]"" meta.id=""2380"" meta.format=""203""/>"; "                    </class>"; "                    <class name=""OBIS-Daten der EEG-Überführungszeitreihe"" ref=""SG8"" key=""SEQ:1:0[SEQ:1:0=Z25]"""; "                           max=""99999"">"; "                        <field name=""Beginn Messperiode"" ref=""DTM:1:2[1:0=163]"" meta.id=""2380"" meta.format=""203""/>"; "                        <field name=""Ende Messperiode"" ref=""DTM:1:2[1:0=164]"" meta.id=""2380"" meta.format=""203""/>"; "                    </class>"; "                </class>"; "            </class>"; "        </class>"; "    </class>"; "</UTILMD>"; ""]%string).
(** tests/unit_tests/test_mig_xml_reader_real_data.py:33 *)
Example test_is_parsable_11 :
  check_file_can_be_parsed_as_mig_xml no_high no_high any_declaration no_doctype (fun _ => Raise XMLSyntaxError) (fun _ => false) (fun _ => false) decode_utf8 formats (Some file_FV2204_utilmd_2380) = Ok tt.
Proof. vm_compute. repeat split; reflexivity. Qed.
(** tests/unit_tests/test_mig_xml_reader_real_data.py:33 *)
Example test_is_parsable_12 :
  document file_FV2204_utilmd_2380 = Ok (Element (u "UTILMD") [] (Some (u "
    
")) [(Element (u "class") [((u "name"), (u "Dokument")); ((u "ref"), (u "/")); ((u "key"), (u "UNB:5:0"))] (Some (u "
        
        
        
        
        
        
        
        
    ")) [(Element (u "field") [((u "name"), (u "Absender")); ((u "ref"), (u "UNB:2:0")); ((u "ahbName"), (u "Absender.Code"))] None []); (Element (u "field") [((u "name"), (u "Absender_Code_UNB")); ((u "ref"), (u "UNB:2:1")); ((u "ahbName"), (u "Absender.Codeliste"))] None []); (Element (u "field") [((u "name"), (u "Empfaenger")); ((u "ref"), (u "UNB:3:0")); ((u "ahbName"), (u "Empfänger.Code"))] None []); (Element (u "field") [((u "name"), (u "Empfaenger_Code_UNB")); ((u "ref"), (u "UNB:3:1")); ((u "ahbName"), (u "Empfänger.Codeliste"))] None []); (Element (u "field") [((u "name"), (u "Dokumentendatum")); ((u "ref"), (u "UNB:4:0"))] None []); (Element (u "field") [((u "name"), (u "Dokumentenuhrzeit")); ((u "ref"), (u "UNB:4:1"))] None []); (Element (u "field") [((u "name"), (u "Datenaustauschreferenz")); ((u "ref"), (u "UNB:5:0"))] None []); (Element (u "class") [((u "name"), (u "Nachricht")); ((u "ref"), (u "UNH")); ((u "key"), (u "UNH:1:0")); ((u "max"), (u "9999")); ((u "meta.type"), (u "group"))] (Some (u "
            
            
            
            
        ")) [(Element (u "field") [((u "name"), (u "Nachrichtendatum")); ((u "ref"), (u "DTM:1:1[1:0=137]")); ((u "meta.id"), (u "2380")); ((u "meta.format"), (u "203"))] None []); (Element (u "field") [((u "name"), (u "Zeitzone")); ((u "ref"), (u "DTM:1:1[1:0=735]")); ((u "meta.format"), (u "406")); ((u "meta.id"), (u "2380")); ((u "ahbName"), (u "Abweichnung zur UTC"))] None []); (Element (u "field") [((u "name"), (u "Gueltigkeit")); ((u "ref"), (u "DTM:1:1[1:0=157]")); ((u "meta.id"), (u "2380")); ((u "meta.format"), (u "610")); ((u "ahbName"), (u "Gültigkeit,Beginndatum"))] None []); (Element (u "class") [((u "name"), (u "Vorgang")); ((u "ref"), (u "SG4")); ((u "key"), (u "IDE:2:0")); ((u "max"), (u "99999")); ((u "meta.type"), (u "group")); ((u "groupKey"), (u "Vorgangsnummer"))] (Some (u "
                
                
                
                
                
                
                
                
                
                
                
                
                
                
                
                
                
                
                
                
                

                
                
                
                
                
                
                
                
                
                
                
                
            ")) [(Element (u "field") [((u "name"), (u "Lieferdatum")); ((u "ref"), (u "DTM:1:1[1:0=76]")); ((u "meta.format"), (u "102")); ((u "meta.id"), (u "2380")); ((u "meta.type"), (u "date-time")); ((u "ahbName"), (u "Datum zum geplanten Leistungsbeginn"))] None []); (Element (u "field") [((u "name"), (u "Uebergabedatum")); ((u "ref"), (u "DTM:1:1[1:0=294]")); ((u "meta.format"), (u "203")); ((u "meta.id"), (u "2380")); ((u "meta.type"), (u "date-time")); ((u "ahbName"), (u "Datum und Uhrzeit der Übergabe"))] None []); (Element (u "field") [((u "name"), (u "Vertragsbeginn")); ((u "ref"), (u "DTM:1:1[1:0=92]")); ((u "meta.format"), (u "102")); ((u "meta.id"), (u "2380")); ((u "meta.type"), (u "date-time")); ((u "ahbName"), (u "Beginn zum"))] None []); (Element (u "field") [((u "name"), (u "Vertragsende")); ((u "ref"), (u "DTM:1:1[1:0=93]")); ((u "meta.format"), (u "102")); ((u "meta.id"), (u "2380")); ((u "ahbName"), (u "Ende zum")); ((u "meta.type"), (u "date-time"))] None []); (Element (u "field") [((u "name"), (u "Änderung zum")); ((u "ref"), (u "DTM:1:1[1:0=157]")); ((u "meta.format"), (u "102;203")); ((u "meta.id"), (u "2380")); ((u "ahbName"), (u "Änderung zum, Gültigkeit, Beginndatum")); ((u "meta.type"), (u "date-time"))] None []); (Element (u "field") [((u "name"), (u "Ende zum (nächstmoeglichen Termin)")); ((u "ref"), (u "DTM:1:1[1:0=471]")); ((u "meta.format"), (u "102")); ((u "meta.id"), (u "2380")); ((u "ahbName"), (u "Ende zum (nächstmöglichem Termin)")); ((u "meta.type"), (u "date-time"))] None []); (Element (u "field") [((u "name"), (u "Kündigung Kunde")); ((u "ref"), (u "DTM:1:1[1:0=Z05]")); ((u "meta.format"), (u "102")); ((u "meta.id"), (u "2380")); ((u "ahbName"), (u "gegenüber Kunde bestätigtes Kündigungsdatum")); ((u "meta.type"), (u "date-time"))] None []); (Element (u "field") [((u "name"), (u "Kündigung Lieferant")); ((u "ref"), (u "DTM:1:1[1:0=Z06]")); ((u "meta.format"), (u "102")); ((u "meta.id"), (u "2380")); ((u "ahbName"), (u "gegenüber Lieferant bestätigtes Kündigungsdatum")); ((u "meta.type"), (u "date-time"))] None []); (Element (u "field") [((u "name"), (u "Bilanzierungsbeginn")); ((u "ref"), (u "DTM:1:1[1:0=158^1:2=102]")); ((u "meta.id"), (u "2380")); ((u "meta.format"), (u "102")); ((u "meta.type"), (u "date-time"))] None []); (Element (u "field") [((u "name"), (u "Bilanzierungsbeginn lang")); ((u "ref"), (u "DTM:1:1[1:0=158^1:2=203]")); ((u "meta.id"), (u "2380")); ((u "meta.format"), (u "203")); ((u "meta.type"), (u "date-time"))] None []); (Element (u "field") [((u "name"), (u "Bilanzierungsende")); ((u "ref"), (u "DTM:1:1[1:0=159^1:2=102]")); ((u "meta.id"), (u "2380")); ((u "meta.format"), (u "102")); ((u "meta.type"), (u "date-time"))] None []); (Element (u "field") [((u "name"), (u "Bilanzierungsende lang")); ((u "ref"), (u "DTM:1:1[1:0=159^1:2=203]")); ((u "meta.id"), (u "2380")); ((u "meta.format"), (u "203")); ((u "meta.type"), (u "date-time"))] None []); (Element (u "field") [((u "name"), (u "Kündigungsfrist")); ((u "ref"), (u "DTM:1:1[1:0=Z01^1:2=Z01]")); ((u "meta.id"), (u "2380")); ((u "meta.format"), (u "Z01")); ((u "ahbName"), (u "Kündigungsfrist des Vertrags"))] None []); (Element (u "field") [((u "name"), (u "Kündigungsfrist zu festem Datum")); ((u "ref"), (u "DTM:1:1[1:0=Z01^1:2=102]")); ((u "meta.id"), (u "2380")); ((u "meta.format"), (u "102"))] None []); (Element (u "field") [((u "name"), (u "Kündigungsfrist zu bestimmtem Termin")); ((u "ref"), (u "DTM:1:1[1:0=Z01^1:2=106]")); ((u "meta.id"), (u "2380")); ((u "meta.format"), (u "106")); ((u "meta.type"), (u "date-time"))] None []); (Element (u "field") [((u "name"), (u "Nächste Anmeldung")); ((u "ref"), (u "DTM:1:1[1:0=Z08]")); ((u "meta.id"), (u "2380")); ((u "meta.format"), (u "102")); ((u "meta.type"), (u "date-time"))] None []); (Element (u "field") [((u "name"), (u "Sperre Lieferbeginn")); ((u "ref"), (u "DTM:1:1[1:0=Z07]")); ((u "meta.id"), (u "2380")); ((u "meta.format"), (u "102")); ((u "meta.type"), (u "date-time"))] None []); (Element (u "class") [((u "name"), (u "Kuendigungstermin")); ((u "ref"), (u "DTM")); ((u "key"), (u "DTM:1:1[1:0=Z10]")); ((u "max"), (u "1")); ((u "ahbName"), (u "Kündigungstermin des Vertrags")); ((u "meta.type"), (u "date-time-format")); ((u "meta.typeInfo"), (u "102;106"))] (Some (u "
                    
                    
                ")) [(Element (u "field") [((u "name"), (u "Kuendigungstermin")); ((u "ref"), (u "DTM:1:1[1:0=Z10]")); ((u "meta.id"), (u "2380")); ((u "ahbName"), (u "Kündigungstermin")); ((u "meta.type"), (u "date-time"))] None []); (Element (u "field") [((u "name"), (u "DateFormat")); ((u "ref"), (u "DTM:1:2[1:0=Z10]")); ((u "meta.id"), (u "2379"))] None [])]); (Element (u "field") [((u "name"), (u "Verwendung der Daten ab")); ((u "ref"), (u "DTM:1:1[1:0=Z25]")); ((u "meta.id"), (u "2380")); ((u "meta.format"), (u "203")); ((u "meta.type"), (u "date-time"))] None []); (Element (u "field") [((u "name"), (u "Verwendung der Daten bis")); ((u "ref"), (u "DTM:1:1[1:0=Z26]")); ((u "meta.id"), (u "2380")); ((u "meta.format"), (u "203")); ((u "meta.type"), (u "date-time"))] None []); (Element (u "class") [((u "name"), (u "Prozessual ausgetauschte Termine aus Sicht der beteiligten Marktrolle")); ((u "ref"), (u "SG6")); ((u "key"), (u "RFF:1:0[1:0=Z22]"))] (Some (u "
                    
                    
                ")) [(Element (u "field") [((u "name"), (u "Bilanzierungsbeginn aus Daten der beteiligten Marktrolle")); ((u "ref"), (u "DTM:1:1[1:0=Z15]")); ((u "meta.id"), (u "2380")); ((u "meta.format"), (u "102")); ((u "meta.type"), (u "date-time"))] None []); (Element (u "field") [((u "name"), (u "Bilanzierungsende aus Daten der beteiligten Marktrolle")); ((u "ref"), (u "DTM:1:1[1:0=Z16]")); ((u "meta.id"), (u "2380")); ((u "meta.format"), (u "102")); ((u "meta.type"), (u "date-time"))] None [])]); (Element (u "field") [((u "name"), (u "Start des Abrechnungsjahrs bei Marktlokationen mit Jahresleistungspreis (Gas)")); ((u "ref"), (u "DTM:1:1[1:0=155]")); ((u "meta.id"), (u "2380")); ((u "meta.format"), (u "102")); ((u "meta.type"), (u "date-time"))] None []); (Element (u "field") [((u "name"), (u "Geplante Turnusablesung des MSB (Strom)")); ((u "ref"), (u "DTM:1:1[1:0=752^1:2=106]")); ((u "meta.format"), (u "106")); ((u "meta.id"), (u "2380")); ((u "meta.type"), (u "date-time"))] None []); (Element (u "field") [((u "name"), (u "Turnusmäßige Ablesung")); ((u "ref"), (u "DTM:1:1[1:0=752^1:2=104]")); ((u "meta.format"), (u "104")); ((u "meta.id"), (u "2380")); ((u "meta.type"), (u "date-time"))] None []); (Element (u "field") [((u "name"), (u "Turnusableseintervall des MSB (Strom)")); ((u "ref"), (u "DTM:1:1[1:0=672]")); ((u "meta.id"), (u "2380")); ((u "meta.type"), (u "repository")); ((u "meta.typeInfo"), (u "Turnusintervallrepository"))] None []); (Element (u "field") [((u "name"), (u "Abrechnungsintervall des LF")); ((u "ref"), (u "DTM:1:1[1:0=Z20]")); ((u "meta.id"), (u "2380")); ((u "meta.type"), (u "repository")); ((u "meta.typeInfo"), (u "Turnusintervallrepository"))] None []); (Element (u "class") [((u "name"), (u "Termin der Netznutzungsabrechnung")); ((u "ref"), (u "SG6")); ((u "key"), (u "DTM:1:1[1:0=Z21]")); ((u "max"), (u "1")); ((u "meta.type"), (u "date-time-format")); ((u "meta.typeInfo"), (u "102;106"))] (Some (u "
                    
                    
                ")) [(Element (u "field") [((u "name"), (u "Datum")); ((u "ref"), (u "DTM:1:1[1:0=Z21]")); ((u "ahbName"), (u "Termin der Netznutzungsabrechnung")); ((u "meta.id"), (u "2380")); ((u "meta.type"), (u "date-time"))] None []); (Element (u "field") [((u "name"), (u "DateFormat")); ((u "ref"), (u "DTM:1:2[1:0=Z21]")); ((u "meta.id"), (u "2379"))] None [])]); (Element (u "field") [((u "name"), (u "Netznutzungsabrechnungsintervall des NB")); ((u "ref"), (u "DTM:1:1[1:0=Z22]")); ((u "meta.id"), (u "2380")); ((u "meta.type"), (u "repository")); ((u "meta.typeInfo"), (u "Turnusintervallrepository"))] None []); (Element (u "class") [((u "name"), (u "Referenz auf die ID der Messlokation für Termine der Messlokation")); ((u "ref"), (u "SG6")); ((u "key"), (u "RFF:1:1[1:0=Z19]"))] (Some (u "
                    
                ")) [(Element (u "field") [((u "name"), (u "ID")); ((u "ref"), (u "RFF:1:1")); ((u "meta.id"), (u "1154")); ((u "meta.ref"), (u "Meldepunkt.ID"))] None [])]); (Element (u "field") [((u "name"), (u "Nächste Netznutzungsabrechnung")); ((u "ref"), (u "DTM:1:1[1:0=Z09]")); ((u "meta.format"), (u "602")); ((u "meta.id"), (u "2380")); ((u "meta.type"), (u "date-time"))] None []); (Element (u "field") [((u "name"), (u "Geplante Turnusablesung des NB (Gas)")); ((u "ref"), (u "DTM:1:1[1:0=752^1:2=106]")); ((u "meta.format"), (u "106")); ((u "meta.id"), (u "2380")); ((u "meta.type"), (u "date-time"))] None []); (Element (u "field") [((u "name"), (u "Turnusableseintervall des NB (Gas)")); ((u "ref"), (u "DTM:1:1[1:0=672]")); ((u "meta.id"), (u "2380")); ((u "meta.type"), (u "repository")); ((u "meta.typeInfo"), (u "Turnusintervallrepository"))] None []); (Element (u "class") [((u "name"), (u "Daten der Summenzeitreihe")); ((u "ref"), (u "SG8")); ((u "key"), (u "SEQ:1:0[SEQ:1:0=Z22]")); ((u "max"), (u "99999"))] (Some (u "
                    
                    
                ")) [(Element (u "class") [((u "name"), (u "OBIS-Daten der Summenzeitreihe")); ((u "ref"), (u "SG8")); ((u "key"), (u "SEQ:1:0[SEQ:1:0=Z23]")); ((u "max"), (u "99999"))] (Some (u "
                        
                        
                    ")) [(Element (u "field") [((u "name"), (u "Beginn Messperiode")); ((u "ref"), (u "DTM:1:2[1:0=163]")); ((u "meta.id"), (u "2380")); ((u "meta.format"), (u "203"))] None []); (Element (u "field") [((u "name"), (u "Ende Messperiode")); ((u "ref"), (u "DTM:1:2[1:0=164]")); ((u "meta.id"), (u "2380")); ((u "meta.format"), (u "203"))] None [])]); (Element (u "class") [((u "name"), (u "OBIS-Daten der EEG-Überführungszeitreihe")); ((u "ref"), (u "SG8")); ((u "key"), (u "SEQ:1:0[SEQ:1:0=Z25]")); ((u "max"), (u "99999"))] (Some (u "
                        
                        
                    ")) [(Element (u "field") [((u "name"), (u "Beginn Messperiode")); ((u "ref"), (u "DTM:1:2[1:0=163]")); ((u "meta.id"), (u "2380")); ((u "meta.format"), (u "203"))] None []); (Element (u "field") [((u "name"), (u "Ende Messperiode")); ((u "ref"), (u "DTM:1:2[1:0=164]")); ((u "meta.id"), (u "2380")); ((u "meta.format"), (u "203"))] None [])])])])])])]).
Proof. vm_compute. repeat split; reflexivity. Qed.
(** tests/unit_tests/migs/FV2204/template_xmls/utilmd_3055.xml, line by line *)
Definition file_FV2204_utilmd_3055 : list N := removelast (flat_map (fun l => bytes_of l ++ [10%N]) ["<?xml version=""1.0""?>"; "<UTILMD>"; "    <class name=""Dokument"" ref=""/"" key=""UNB:5:0"">"; "        <class name=""Nachricht"" ref=""UNH"" key=""UNH:1:0"" max=""9999"" meta.type=""group"">"; "            <class name=""Absender_NAD"" migName=""MP-ID Absender"" max=""1"" ref=""SG2"" key=""NAD:2:0[1:0=MS]"" ahbName=""MP-ID Absender"" meta.type=""group"" meta.objType=""Marktpartner"">"; "                <field name=""ID"" ref=""NAD:2:0"" ahbName=""MP-ID"" meta.id=""3039""/>"; "                <field name=""Codeliste"" ref=""NAD:2:2"" meta.id=""3055""/>"; "                <class name=""Ansprechpartner"" ref=""SG3"" max=""1"">"; "                    <class name=""Kontakt"" ref=""CTA"" key=""CTA:2:1"" meta.virtualKey=""Ansprechpartner"" max=""5"" meta.virtual=""true"">"; "                        <field name=""Name"" ref=""CTA:2:1"" meta.id=""3412""/>"; "                    </class>"; "                    <class name=""Kommunikationsverbindung"" ref=""COM"" max=""5"">"; "                        <field name=""ID"" ref=""COM:1:1"" meta.id=""3148"" ahbName=""Art des Kommunikationsmittels""/>"; "                        <field name=""Adresse"" ref=""COM:1:0"" meta.id=""3155"" ahbName=""Nummer / Adresse""/>"; "                    </class>"; "                </class>"; "            </class>"; "            <class name=""Empfaenger_NAD"" migName=""MP-ID Empfänger"" max=""1"" ahbName=""MP-ID Empfänger"" ref=""SG2"" key=""NAD:2:0[1:0=MR]"" meta.objType=""Marktpartner"">"; "                <field name=""ID"" ref=""NAD:2:0"" ahbName=""MP-ID"" meta.id=""3039""/>"; "                <field name=""Codeliste"" ref=""NAD:2:2"" meta.id=""3055""/>"; "            </class>"; "            <class name=""Vorgang"" ref=""SG4"" key=""IDE:2:0"" max=""99999"" meta.type=""group"" groupKey=""Vorgangsnummer"">"; "                <class name=""Beteiligter Marktpartner MP-ID"" ahbName=""Beteiligter Marktpartner MP-ID"" ref=""SG12"" key=""NAD:2:0[1:0=VY]"" max=""99"" meta.objType=""Marktpartner"">"; "                    <field name=""ID"" ref=""NAD:2:0"" meta.id=""3039"" ahbName=""MP-ID""/>"; "                    <field name=""Codeliste"" ref=""NAD:2:2"" meta.id=""3055""/>"; "                    <class name=""Referenz auf die ID einer Marktlokation / Tranche"" ref=""RFF"" key=""RFF:1:1"">"; "                        <field name=""Qualifier"" ref=""RFF:1:0"" max=""9"" meta.id=""1153""/>"; "                        <field name=""ID"" ref=""RFF:1:1"" max=""9"" meta.id=""1154"" meta.ref=""Meldepunkt.ID""/>"; "                    </class>"; "                </class>"; "            </class>"; "        </class>"; "    </class>"; "</UTILMD>"; ""]%string).
(** tests/unit_tests/test_mig_xml_reader_real_data.py:33 *)
Example test_is_parsable_13 :
  check_file_can_be_parsed_as_mig_xml no_high no_high any_declaration no_doctype (fun _ => Raise XMLSyntaxError) (fun _ => false) (fun _ => false) decode_utf8 formats (Some file_FV2204_utilmd_3055) = Ok tt.
Proof. vm_compute. repeat split; reflexivity. Qed.
(** tests/unit_tests/test_mig_xml_reader_real_data.py:33 *)
Example test_is_parsable_14 :
  document file_FV2204_utilmd_3055 = Ok (Element (u "UTILMD") [] (Some (u "
    
")) [(Element (u "class") [((u "name"), (u "Dokument")); ((u "ref"), (u "/")); ((u "key"), (u "UNB:5:0"))] (Some (u "
        
    ")) [(Element (u "class") [((u "name"), (u "Nachricht")); ((u "ref"), (u "UNH")); ((u "key"), (u "UNH:1:0")); ((u "max"), (u "9999")); ((u "meta.type"), (u "group"))] (Some (u "
            
            
            
        ")) [(Element (u "class") [((u "name"), (u "Absender_NAD")); ((u "migName"), (u "MP-ID Absender")); ((u "max"), (u "1")); ((u "ref"), (u "SG2")); ((u "key"), (u "NAD:2:0[1:0=MS]")); ((u "ahbName"), (u "MP-ID Absender")); ((u "meta.type"), (u "group")); ((u "meta.objType"), (u "Marktpartner"))] (Some (u "
                
                
                
            ")) [(Element (u "field") [((u "name"), (u "ID")); ((u "ref"), (u "NAD:2:0")); ((u "ahbName"), (u "MP-ID")); ((u "meta.id"), (u "3039"))] None []); (Element (u "field") [((u "name"), (u "Codeliste")); ((u "ref"), (u "NAD:2:2")); ((u "meta.id"), (u "3055"))] None []); (Element (u "class") [((u "name"), (u "Ansprechpartner")); ((u "ref"), (u "SG3")); ((u "max"), (u "1"))] (Some (u "
                    
                    
                ")) [(Element (u "class") [((u "name"), (u "Kontakt")); ((u "ref"), (u "CTA")); ((u "key"), (u "CTA:2:1")); ((u "meta.virtualKey"), (u "Ansprechpartner")); ((u "max"), (u "5")); ((u "meta.virtual"), (u "true"))] (Some (u "
                        
                    ")) [(Element (u "field") [((u "name"), (u "Name")); ((u "ref"), (u "CTA:2:1")); ((u "meta.id"), (u "3412"))] None [])]); (Element (u "class") [((u "name"), (u "Kommunikationsverbindung")); ((u "ref"), (u "COM")); ((u "max"), (u "5"))] (Some (u "
                        
                        
                    ")) [(Element (u "field") [((u "name"), (u "ID")); ((u "ref"), (u "COM:1:1")); ((u "meta.id"), (u "3148")); ((u "ahbName"), (u "Art des Kommunikationsmittels"))] None []); (Element (u "field") [((u "name"), (u "Adresse")); ((u "ref"), (u "COM:1:0")); ((u "meta.id"), (u "3155")); ((u "ahbName"), (u "Nummer / Adresse"))] None [])])])]); (Element (u "class") [((u "name"), (u "Empfaenger_NAD")); ((u "migName"), (u "MP-ID Empfänger")); ((u "max"), (u "1")); ((u "ahbName"), (u "MP-ID Empfänger")); ((u "ref"), (u "SG2")); ((u "key"), (u "NAD:2:0[1:0=MR]")); ((u "meta.objType"), (u "Marktpartner"))] (Some (u "
                
                
            ")) [(Element (u "field") [((u "name"), (u "ID")); ((u "ref"), (u "NAD:2:0")); ((u "ahbName"), (u "MP-ID")); ((u "meta.id"), (u "3039"))] None []); (Element (u "field") [((u "name"), (u "Codeliste")); ((u "ref"), (u "NAD:2:2")); ((u "meta.id"), (u "3055"))] None [])]); (Element (u "class") [((u "name"), (u "Vorgang")); ((u "ref"), (u "SG4")); ((u "key"), (u "IDE:2:0")); ((u "max"), (u "99999")); ((u "meta.type"), (u "group")); ((u "groupKey"), (u "Vorgangsnummer"))] (Some (u "
                
            ")) [(Element (u "class") [((u "name"), (u "Beteiligter Marktpartner MP-ID")); ((u "ahbName"), (u "Beteiligter Marktpartner MP-ID")); ((u "ref"), (u "SG12")); ((u "key"), (u "NAD:2:0[1:0=VY]")); ((u "max"), (u "99")); ((u "meta.objType"), (u "Marktpartner"))] (Some (u "
                    
                    
                    
                ")) [(Element (u "field") [((u "name"), (u "ID")); ((u "ref"), (u "NAD:2:0")); ((u "meta.id"), (u "3039")); ((u "ahbName"), (u "MP-ID"))] None []); (Element (u "field") [((u "name"), (u "Codeliste")); ((u "ref"), (u "NAD:2:2")); ((u "meta.id"), (u "3055"))] None []); (Element (u "class") [((u "name"), (u "Referenz auf die ID einer Marktlokation / Tranche")); ((u "ref"), (u "RFF")); ((u "key"), (u "RFF:1:1"))] (Some (u "
                        
                        
                    ")) [(Element (u "field") [((u "name"), (u "Qualifier")); ((u "ref"), (u "RFF:1:0")); ((u "max"), (u "9")); ((u "meta.id"), (u "1153"))] None []); (Element (u "field") [((u "name"), (u "ID")); ((u "ref"), (u "RFF:1:1")); ((u "max"), (u "9")); ((u "meta.id"), (u "1154")); ((u "meta.ref"), (u "Meldepunkt.ID"))] None [])])])])])])]).
Proof. vm_compute. repeat split; reflexivity. Qed.
(** tests/unit_tests/migs/FV2204/template_xmls/utilmd_3225.xml, line by line *)
Definition file_FV2204_utilmd_3225 : list N := removelast (flat_map (fun l => bytes_of l ++ [10%N]) ["<?xml version=""1.0""?>"; "<UTILMD>"; "    <class name=""Dokument"" ref=""/"" key=""UNB:5:0"">"; "        <class name=""Nachricht"" ref=""UNH"" key=""UNH:1:0"" max=""9999"" meta.type=""group"">"; "            <class name=""Vorgang"" ref=""SG4"" key=""IDE:2:0"" max=""99999"" meta.type=""group"" groupKey=""Vorgangsnummer"">"; "                <class name=""Meldepunkt"" ref=""SG5"" key=""LOC:2:0[1:0=172]"" max=""999999"" meta.objType=""Meldepunkte"""; "                       meta.changeTrigger=""trigger_meldepunkt_change"">"; "                    <field name=""ID"" ref=""LOC:2:0"" meta.id=""3225""/>"; "                </class>"; "                <class name=""zukünftiger Meldepunkt"" ref=""SG5"" key=""LOC:2:0[1:0=Z08]"" max=""999999"""; "                       meta.objType=""Meldepunkte"">"; "                    <field name=""ID"" ref=""LOC:2:0"" meta.id=""3225""/>"; "                </class>"; "            </class>"; "        </class>"; "    </class>"; "</UTILMD>"; ""]%string).
(** tests/unit_tests/test_mig_xml_reader_real_data.py:33 *)
Example test_is_parsable_15 :
  check_file_can_be_parsed_as_mig_xml no_high no_high any_declaration no_doctype (fun _ => Raise XMLSyntaxError) (fun _ => false) (fun _ => false) decode_utf8 formats (Some file_FV2204_utilmd_3225) = Ok tt.
Proof. vm_compute. repeat split; reflexivity. Qed.
(** tests/unit_tests/test_mig_xml_reader_real_data.py:33 *)
Example test_is_parsable_16 :
  document file_FV2204_utilmd_3225 = Ok (Element (u "UTILMD") [] (Some (u "
    
")) [(Element (u "class") [((u "name"), (u "Dokument")); ((u "ref"), (u "/")); ((u "key"), (u "UNB:5:0"))] (Some (u "
        
    ")) [(Element (u "class") [((u "name"), (u "Nachricht")); ((u "ref"), (u "UNH")); ((u "key"), (u "UNH:1:0")); ((u "max"), (u "9999")); ((u "meta.type"), (u "group"))] (Some (u "
            
        ")) [(Element (u "class") [((u "name"), (u "Vorgang")); ((u "ref"), (u "SG4")); ((u "key"), (u "IDE:2:0")); ((u "max"), (u "99999")); ((u "meta.type"), (u "group")); ((u "groupKey"), (u "Vorgangsnummer"))] (Some (u "
                
                
            ")) [(Element (u "class") [((u "name"), (u "Meldepunkt")); ((u "ref"), (u "SG5")); ((u "key"), (u "LOC:2:0[1:0=172]")); ((u "max"), (u "999999")); ((u "meta.objType"), (u "Meldepunkte")); ((u "meta.changeTrigger"), (u "trigger_meldepunkt_change"))] (Some (u "
                    
                ")) [(Element (u "field") [((u "name"), (u "ID")); ((u "ref"), (u "LOC:2:0")); ((u "meta.id"), (u "3225"))] None [])]); (Element (u "class") [((u "name"), (u "zukünftiger Meldepunkt")); ((u "ref"), (u "SG5")); ((u "key"), (u "LOC:2:0[1:0=Z08]")); ((u "max"), (u "999999")); ((u "meta.objType"), (u "Meldepunkte"))] (Some (u "
                    
                ")) [(Element (u "field") [((u "name"), (u "ID")); ((u "ref"), (u "LOC:2:0")); ((u "meta.id"), (u "3225"))] None [])])])])])]).
Proof. vm_compute. repeat split; reflexivity. Qed.
(** tests/unit_tests/migs/FV2204/template_xmls/utilmd_6063.xml, line by line *)
Definition file_FV2204_utilmd_6063 : list N := removelast (flat_map (fun l => bytes_of l ++ [10%N]) ["<?xml version=""1.0""?>"; "<UTILMD>"; "    <class name=""Dokument"" ref=""/"" key=""UNB:5:0"">"; "        <class name=""Nachricht"" ref=""UNH"" key=""UNH:1:0"" max=""9999"" meta.type=""group"">"; "            <class name=""Vorgang"" ref=""SG4"" key=""IDE:2:0"" max=""99999"" meta.type=""group"" groupKey=""Vorgangsnummer"">"; "                <class name=""Daten der Marktlokation"" ref=""SG8"" key=""SEQ:1:0[SEQ:1:0=Z01]"" max=""99999"" meta.type=""group"" groupKey=""Referenz auf die ID der Marktlokation"">"; "                    <field name=""Referenz auf die ID der Marktlokation"" ref=""RFF:1:1[1:0=Z18]"" meta.id=""1154"" max=""1"" meta.ref=""Meldepunkt.ID""/>"; "                    <class name=""Arbeit / Leistung für tagesparameterabhängige Marktlokation"" ref=""SG9"" key=""QTY:1:1[1:0=265|1:0=Z10|1:0=Z08]"">"; "                        <field name=""Qualifier"" ref=""QTY:1:0"" meta.id=""6063"" meta.type=""repository"" meta.typeInfo=""TLPQualifierrepository""></field>"; "                        <field name=""Menge"" ref=""QTY:1:1"" meta.id=""6060""/>"; "                        <field name=""Maßeinheit"" ref=""QTY:1:2"" meta.id=""6411"" meta.type=""repository"" meta.typeInfo=""Maßeinheitrepository""/>"; "                    </class>"; "                </class>"; "                <class name=""Daten der Marktlokation der beteiligten Marktrolle"" ref=""SG8"" key=""SEQ:1:0[SEQ:1:0=Z29]"" max=""99999"" meta.type=""group"" groupKey=""Referenz auf die ID der Marktlokation"">"; "                    <field name=""Referenz auf die ID der Marktlokation"" ref=""RFF:1:1[1:0=Z18]"" meta.id=""1154"" max=""1"" meta.ref=""Meldepunkt.ID""/>"; "                    <class name=""Arbeit / Leistung für tagesparameterabhängige Marktlokation"" ref=""SG9"" key=""QTY:1:1[1:0=265|1:0=Z10|1:0=Z08]"">"; "                        <field name=""Qualifier"" ref=""QTY:1:0"" meta.id=""6063""></field>"; "                        <field name=""Menge"" ref=""QTY:1:1"" meta.id=""6060""/>"; "                        <field name=""Maßeinheit"" ref=""QTY:1:2"" meta.id=""6411""/>"; "                    </class>"; "                </class>"; "            </class>"; "        </class>"; "    </class>"; "</UTILMD>"; ""]%string).
(** tests/unit_tests/test_mig_xml_reader_real_data.py:33 *)
Example test_is_parsable_17 :
  check_file_can_be_parsed_as_mig_xml no_high no_high any_declaration no_doctype (fun _ => Raise XMLSyntaxError) (fun _ => false) (fun _ => false) decode_utf8 formats (Some file_FV2204_utilmd_6063) = Ok tt.
Proof. vm_compute. repeat split; reflexivity. Qed.
(** tests/unit_tests/test_mig_xml_reader_real_data.py:33 *)
Example test_is_parsable_18 :
  document file_FV2204_utilmd_6063 = Ok (Element (u "UTILMD") [] (Some (u "
    
")) [(Element (u "class") [((u "name"), (u "Dokument")); ((u "ref"), (u "/")); ((u "key"), (u "UNB:5:0"))] (Some (u "
        
    ")) [(Element (u "class") [((u "name"), (u "Nachricht")); ((u "ref"), (u "UNH")); ((u "key"), (u "UNH:1:0")); ((u "max"), (u "9999")); ((u "meta.type"), (u "group"))] (Some (u "
            
        ")) [(Element (u "class") [((u "name"), (u "Vorgang")); ((u "ref"), (u "SG4")); ((u "key"), (u "IDE:2:0")); ((u "max"), (u "99999")); ((u "meta.type"), (u "group")); ((u "groupKey"), (u "Vorgangsnummer"))] (Some (u "
                
                
            ")) [(Element (u "class") [((u "name"), (u "Daten der Marktlokation")); ((u "ref"), (u "SG8")); ((u "key"), (u "SEQ:1:0[SEQ:1:0=Z01]")); ((u "max"), (u "99999")); ((u "meta.type"), (u "group")); ((u "groupKey"), (u "Referenz auf die ID der Marktlokation"))] (Some (u "
                    
                    
                ")) [(Element (u "field") [((u "name"), (u "Referenz auf die ID der Marktlokation")); ((u "ref"), (u "RFF:1:1[1:0=Z18]")); ((u "meta.id"), (u "1154")); ((u "max"), (u "1")); ((u "meta.ref"), (u "Meldepunkt.ID"))] None []); (Element (u "class") [((u "name"), (u "Arbeit / Leistung für tagesparameterabhängige Marktlokation")); ((u "ref"), (u "SG9")); ((u "key"), (u "QTY:1:1[1:0=265|1:0=Z10|1:0=Z08]"))] (Some (u "
                        
                        
                        
                    ")) [(Element (u "field") [((u "name"), (u "Qualifier")); ((u "ref"), (u "QTY:1:0")); ((u "meta.id"), (u "6063")); ((u "meta.type"), (u "repository")); ((u "meta.typeInfo"), (u "TLPQualifierrepository"))] None []); (Element (u "field") [((u "name"), (u "Menge")); ((u "ref"), (u "QTY:1:1")); ((u "meta.id"), (u "6060"))] None []); (Element (u "field") [((u "name"), (u "Maßeinheit")); ((u "ref"), (u "QTY:1:2")); ((u "meta.id"), (u "6411")); ((u "meta.type"), (u "repository")); ((u "meta.typeInfo"), (u "Maßeinheitrepository"))] None [])])]); (Element (u "class") [((u "name"), (u "Daten der Marktlokation der beteiligten Marktrolle")); ((u "ref"), (u "SG8")); ((u "key"), (u "SEQ:1:0[SEQ:1:0=Z29]")); ((u "max"), (u "99999")); ((u "meta.type"), (u "group")); ((u "groupKey"), (u "Referenz auf die ID der Marktlokation"))] (Some (u "
                    
                    
                ")) [(Element (u "field") [((u "name"), (u "Referenz auf die ID der Marktlokation")); ((u "ref"), (u "RFF:1:1[1:0=Z18]")); ((u "meta.id"), (u "1154")); ((u "max"), (u "1")); ((u "meta.ref"), (u "Meldepunkt.ID"))] None []); (Element (u "class") [((u "name"), (u "Arbeit / Leistung für tagesparameterabhängige Marktlokation")); ((u "ref"), (u "SG9")); ((u "key"), (u "QTY:1:1[1:0=265|1:0=Z10|1:0=Z08]"))] (Some (u "
                        
                        
                        
                    ")) [(Element (u "field") [((u "name"), (u "Qualifier")); ((u "ref"), (u "QTY:1:0")); ((u "meta.id"), (u "6063"))] None []); (Element (u "field") [((u "name"), (u "Menge")); ((u "ref"), (u "QTY:1:1")); ((u "meta.id"), (u "6060"))] None []); (Element (u "field") [((u "name"), (u "Maßeinheit")); ((u "ref"), (u "QTY:1:2")); ((u "meta.id"), (u "6411"))] None [])])])])])])]).
Proof. vm_compute. repeat split; reflexivity. Qed.
(** tests/unit_tests/migs/FV2204/template_xmls/utilmd_6411.xml, line by line *)
Definition file_FV2204_utilmd_6411 : list N := removelast (flat_map (fun l => bytes_of l ++ [10%N]) ["<?xml version=""1.0""?>"; "<UTILMD>"; "    <class name=""Dokument"" ref=""/"" key=""UNB:5:0"">"; "        <class name=""Nachricht"" ref=""UNH"" key=""UNH:1:0"" max=""9999"" meta.type=""group"">"; "            <class name=""Vorgang"" ref=""SG4"" key=""IDE:2:0"" max=""99999"" meta.type=""group"" groupKey=""Vorgangsnummer"">"; "                <class name=""Daten der Marktlokation"" ref=""SG8"" key=""SEQ:1:0[SEQ:1:0=Z01]"" max=""99999"" meta.type=""group"" groupKey=""Referenz auf die ID der Marktlokation"">"; "                    <field name=""Referenz auf die ID der Marktlokation"" ref=""RFF:1:1[1:0=Z18]"" meta.id=""1154"" max=""1"" meta.ref=""Meldepunkt.ID""/>"; "                    <class name=""Arbeit / Leistung für tagesparameterabhängige Marktlokation"" ref=""SG9"" key=""QTY:1:1[1:0=265|1:0=Z10|1:0=Z08]"">"; "                        <field name=""Qualifier"" ref=""QTY:1:0"" meta.id=""6063"" meta.type=""repository"" meta.typeInfo=""TLPQualifierrepository""></field>"; "                        <field name=""Menge"" ref=""QTY:1:1"" meta.id=""6060""/>"; "                        <field name=""Maßeinheit"" ref=""QTY:1:2"" meta.id=""6411"" meta.type=""repository"" meta.typeInfo=""Maßeinheitrepository""/>"; "                    </class>"; "                </class>"; "                <class name=""Daten der Marktlokation der beteiligten Marktrolle"" ref=""SG8"" key=""SEQ:1:0[SEQ:1:0=Z29]"" max=""99999"" meta.type=""group"" groupKey=""Referenz auf die ID der Marktlokation"">"; "                    <field name=""Referenz auf die ID der Marktlokation"" ref=""RFF:1:1[1:0=Z18]"" meta.id=""1154"" max=""1"" meta.ref=""Meldepunkt.ID""/>"; "                    <class name=""Arbeit / Leistung für tagesparameterabhängige Marktlokation"" ref=""SG9"" key=""QTY:1:1[1:0=265|1:0=Z10|1:0=Z08]"">"; "                        <field name=""Qualifier"" ref=""QTY:1:0"" meta.id=""6063""></field>"; "                        <field name=""Menge"" ref=""QTY:1:1"" meta.id=""6060""/>"; "                        <field name=""Maßeinheit"" ref=""QTY:1:2"" meta.id=""6411""/>"; "                    </class>"; "                </class>"; "            </class>"; "        </class>"; "    </class>"; "</UTILMD>"; ""]%string).
(** tests/unit_tests/test_mig_xml_reader_real_data.py:33 *)
Example test_is_parsable_19 :
  check_file_can_be_parsed_as_mig_xml no_high no_high any_declaration no_doctype (fun _ => Raise XMLSyntaxError) (fun _ => false) (fun _ => false) decode_utf8 formats (Some file_FV2204_utilmd_6411) = Ok tt.
Proof. vm_compute. repeat split; reflexivity. Qed.
(** tests/unit_tests/test_mig_xml_reader_real_data.py:33 *)
Example test_is_parsable_20 :
  document file_FV2204_utilmd_6411 = Ok (Element (u "UTILMD") [] (Some (u "
    
")) [(Element (u "class") [((u "name"), (u "Dokument")); ((u "ref"), (u "/")); ((u "key"), (u "UNB:5:0"))] (Some (u "
        
    ")) [(Element (u "class") [((u "name"), (u "Nachricht")); ((u "ref"), (u "UNH")); ((u "key"), (u "UNH:1:0")); ((u "max"), (u "9999")); ((u "meta.type"), (u "group"))] (Some (u "
            
        ")) [(Element (u "class") [((u "name"), (u "Vorgang")); ((u "ref"), (u "SG4")); ((u "key"), (u "IDE:2:0")); ((u "max"), (u "99999")); ((u "meta.type"), (u "group")); ((u "groupKey"), (u "Vorgangsnummer"))] (Some (u "
                
                
            ")) [(Element (u "class") [((u "name"), (u "Daten der Marktlokation")); ((u "ref"), (u "SG8")); ((u "key"), (u "SEQ:1:0[SEQ:1:0=Z01]")); ((u "max"), (u "99999")); ((u "meta.type"), (u "group")); ((u "groupKey"), (u "Referenz auf die ID der Marktlokation"))] (Some (u "
                    
                    
                ")) [(Element (u "field") [((u "name"), (u "Referenz auf die ID der Marktlokation")); ((u "ref"), (u "RFF:1:1[1:0=Z18]")); ((u "meta.id"), (u "1154")); ((u "max"), (u "1")); ((u "meta.ref"), (u "Meldepunkt.ID"))] None []); (Element (u "class") [((u "name"), (u "Arbeit / Leistung für tagesparameterabhängige Marktlokation")); ((u "ref"), (u "SG9")); ((u "key"), (u "QTY:1:1[1:0=265|1:0=Z10|1:0=Z08]"))] (Some (u "
                        
                        
                        
                    ")) [(Element (u "field") [((u "name"), (u "Qualifier")); ((u "ref"), (u "QTY:1:0")); ((u "meta.id"), (u "6063")); ((u "meta.type"), (u "repository")); ((u "meta.typeInfo"), (u "TLPQualifierrepository"))] None []); (Element (u "field") [((u "name"), (u "Menge")); ((u "ref"), (u "QTY:1:1")); ((u "meta.id"), (u "6060"))] None []); (Element (u "field") [((u "name"), (u "Maßeinheit")); ((u "ref"), (u "QTY:1:2")); ((u "meta.id"), (u "6411")); ((u "meta.type"), (u "repository")); ((u "meta.typeInfo"), (u "Maßeinheitrepository"))] None [])])]); (Element (u "class") [((u "name"), (u "Daten der Marktlokation der beteiligten Marktrolle")); ((u "ref"), (u "SG8")); ((u "key"), (u "SEQ:1:0[SEQ:1:0=Z29]")); ((u "max"), (u "99999")); ((u "meta.type"), (u "group")); ((u "groupKey"), (u "Referenz auf die ID der Marktlokation"))] (Some (u "
                    
                    
                ")) [(Element (u "field") [((u "name"), (u "Referenz auf die ID der Marktlokation")); ((u "ref"), (u "RFF:1:1[1:0=Z18]")); ((u "meta.id"), (u "1154")); ((u "max"), (u "1")); ((u "meta.ref"), (u "Meldepunkt.ID"))] None []); (Element (u "class") [((u "name"), (u "Arbeit / Leistung für tagesparameterabhängige Marktlokation")); ((u "ref"), (u "SG9")); ((u "key"), (u "QTY:1:1[1:0=265|1:0=Z10|1:0=Z08]"))] (Some (u "
                        
                        
                        
                    ")) [(Element (u "field") [((u "name"), (u "Qualifier")); ((u "ref"), (u "QTY:1:0")); ((u "meta.id"), (u "6063"))] None []); (Element (u "field") [((u "name"), (u "Menge")); ((u "ref"), (u "QTY:1:1")); ((u "meta.id"), (u "6060"))] None []); (Element (u "field") [((u "name"), (u "Maßeinheit")); ((u "ref"), (u "QTY:1:2")); ((u "meta.id"), (u "6411"))] None [])])])])])])]).
Proof. vm_compute. repeat split; reflexivity. Qed.
(** tests/unit_tests/migs/FV2204/template_xmls/utilmd_7402.xml, line by line *)
Definition file_FV2204_utilmd_7402 : list N := removelast (flat_map (fun l => bytes_of l ++ [10%N]) ["<?xml version=""1.0""?>"; "<!-- a stripped down template file for UTILMD data element 7402 testcases -->"; "<UTILMD>"; "  <class name=""Dokument"" ref=""/"" key=""UNB:5:0"">"; "    <class name=""Nachricht"" ref=""UNH"" key=""UNH:1:0"" max=""9999"" meta.type=""group"">"; "      <class name=""Vorgang"" ref=""SG4"" key=""IDE:2:0"" max=""99999"" meta.type=""group"" groupKey=""Vorgangsnummer"">"; "        <field name=""Vorgangsnummer"" ref=""IDE:2:0"" meta.id=""7402""/>"; "      </class>"; "    </class>"; "  </class>"; "</UTILMD>"; ""]%string).
(** tests/unit_tests/test_mig_xml_reader_real_data.py:33 *)
Example test_is_parsable_21 :
  check_file_can_be_parsed_as_mig_xml no_high no_high any_declaration no_doctype (fun _ => Raise XMLSyntaxError) (fun _ => false) (fun _ => false) decode_utf8 formats (Some file_FV2204_utilmd_7402) = Ok tt.
Proof. vm_compute. repeat split; reflexivity. Qed.
(** tests/unit_tests/test_mig_xml_reader_real_data.py:33 *)
Example test_is_parsable_22 :
  document file_FV2204_utilmd_7402 = Ok (Element (u "UTILMD") [] (Some (u "
  
")) [(Element (u "class") [((u "name"), (u "Dokument")); ((u "ref"), (u "/")); ((u "key"), (u "UNB:5:0"))] (Some (u "
    
  ")) [(Element (u "class") [((u "name"), (u "Nachricht")); ((u "ref"), (u "UNH")); ((u "key"), (u "UNH:1:0")); ((u "max"), (u "9999")); ((u "meta.type"), (u "group"))] (Some (u "
      
    ")) [(Element (u "class") [((u "name"), (u "Vorgang")); ((u "ref"), (u "SG4")); ((u "key"), (u "IDE:2:0")); ((u "max"), (u "99999")); ((u "meta.type"), (u "group")); ((u "groupKey"), (u "Vorgangsnummer"))] (Some (u "
        
      ")) [(Element (u "field") [((u "name"), (u "Vorgangsnummer")); ((u "ref"), (u "IDE:2:0")); ((u "meta.id"), (u "7402"))] None [])])])])]).
Proof. vm_compute. repeat split; reflexivity. Qed.
(** tests/unit_tests/migs/FV2204/template_xmls/utilmd_9013.xml, line by line *)
Definition file_FV2204_utilmd_9013 : list N := removelast (flat_map (fun l => bytes_of l ++ [10%N]) ["<?xml version=""1.0""?>"; "<UTILMD>"; "    <class name=""Dokument"" ref=""/"" key=""UNB:5:0"">"; "        <class name=""Vorgang"" ref=""SG4"" key=""IDE:2:0"" max=""99999"" meta.type=""group"" groupKey=""Vorgangsnummer"">"; "            <field name=""Transaktionsgrund"" ref=""STS:3:0[1:0=7]"" meta.id=""9013"" meta.type=""repository"""; "                   meta.typeInfo=""TransactionReasonrepository""/>"; "            <field name=""Transaktionsgrund (befristet)"" ref=""STS:3:0[1:0=Z17]"" meta.id=""9013"" meta.type=""repository"""; "                   meta.typeInfo=""TransactionReasonrepository""/>"; "            <class name=""Status der Antwort"" ref=""SG4"" key=""STS:3:0[1:0=E01]"" max=""1"">"; "                <field name=""Status"" ref=""STS:3:0[1:0=E01]"" meta.id=""9013"" meta.typeInfo=""AnswerStatusrepository"""; "                       meta.type=""repository""/>"; "            </class>"; "        </class>"; "    </class>"; "</UTILMD>"; ""]%string).
(** tests/unit_tests/test_mig_xml_reader_real_data.py:33 *)
Example test_is_parsable_23 :
  check_file_can_be_parsed_as_mig_xml no_high no_high any_declaration no_doctype (fun _ => Raise XMLSyntaxError) (fun _ => false) (fun _ => false) decode_utf8 formats (Some file_FV2204_utilmd_9013) = Ok tt.
Proof. vm_compute. repeat split; reflexivity. Qed.
(** tests/unit_tests/test_mig_xml_reader_real_data.py:33 *)
Example test_is_parsable_24 :
  document file_FV2204_utilmd_9013 = Ok (Element (u "UTILMD") [] (Some (u "
    
")) [(Element (u "class") [((u "name"), (u "Dokument")); ((u "ref"), (u "/")); ((u "key"), (u "UNB:5:0"))] (Some (u "
        
    ")) [(Element (u "class") [((u "name"), (u "Vorgang")); ((u "ref"), (u "SG4")); ((u "key"), (u "IDE:2:0")); ((u "max"), (u "99999")); ((u "meta.type"), (u "group")); ((u "groupKey"), (u "Vorgangsnummer"))] (Some (u "
            
            
            
        ")) [(Element (u "field") [((u "name"), (u "Transaktionsgrund")); ((u "ref"), (u "STS:3:0[1:0=7]")); ((u "meta.id"), (u "9013")); ((u "meta.type"), (u "repository")); ((u "meta.typeInfo"), (u "TransactionReasonrepository"))] None []); (Element (u "field") [((u "name"), (u "Transaktionsgrund (befristet)")); ((u "ref"), (u "STS:3:0[1:0=Z17]")); ((u "meta.id"), (u "9013")); ((u "meta.type"), (u "repository")); ((u "meta.typeInfo"), (u "TransactionReasonrepository"))] None []); (Element (u "class") [((u "name"), (u "Status der Antwort")); ((u "ref"), (u "SG4")); ((u "key"), (u "STS:3:0[1:0=E01]")); ((u "max"), (u "1"))] (Some (u "
                
            ")) [(Element (u "field") [((u "name"), (u "Status")); ((u "ref"), (u "STS:3:0[1:0=E01]")); ((u "meta.id"), (u "9013")); ((u "meta.typeInfo"), (u "AnswerStatusrepository")); ((u "meta.type"), (u "repository"))] None [])])])])]).
Proof. vm_compute. repeat split; reflexivity. Qed.
(** tests/unit_tests/migs/FV2210/template_xmls/utilmd_7037.xml, line by line *)
Definition file_FV2210_utilmd_7037 : list N := removelast (flat_map (fun l => bytes_of l ++ [10%N]) ["<?xml version=""1.0"" ?>"; "<UTILMD>"; "    <class name=""Dokument"" ref=""/"" key=""UNB:5:0"">"; "        <class name=""Nachricht"" ref=""UNH"" key=""UNH:1:0"" max=""9999"" meta.type=""group"">"; "            <class name=""Vorgang"" ref=""SG4"" key=""IDE:2:0"" max=""99999"" meta.type=""group"" groupKey=""Vorgangsnummer"">"; "                <class name=""Daten der Marktlokation"" ref=""SG8"" key=""SEQ:1:0[SEQ:1:0=Z01]"" max=""99999"" meta.type=""group"" groupKey=""Referenz auf die ID der Marktlokation"">"; "                    <class name=""Lieferrichtung"" ref=""SG10"" key=""CCI:1:0[1:0=Z30]"">"; "                        <field name=""Richtung"" ref=""CCI:3:0"" meta.id=""7037"" meta.type=""repository"" meta.typeInfo=""Lieferrichtungrepository""/>"; "                    </class>"; "                    <class name=""Bilanzierungsrelevanz der Marktlokation"" ref=""SG10"" key=""CCI:3:0[1:0=Z01]"">"; "                        <field name=""Code"" ref=""CCI:3:0"" meta.id=""7037""/>"; "                    </class>"; "                    <class name=""Regelzone"" ref=""SG10"" key=""CCI:3:0[1:0=Z18]"">"; "                        <field name=""Zone"" ref=""CCI:3:0"" meta.id=""7037""/>"; "                    </class>"; "                    <class name=""Bilanzkreis"" ref=""SG10"" key=""CCI:3:0[1:0=Z19]"">"; "                        <field name=""ID"" ref=""CCI:3:0"" meta.id=""7037""/>"; "                        <field name=""Priorität"" ref=""CAV:1:0"" meta.id=""7111""/>"; "                    </class>"; "                    <class name=""Bilanzierungsgebiet"" ref=""SG10"" key=""CCI:3:0[1:0=Z20]"">"; "                        <field name=""Gebiet"" ref=""CCI:3:0"" meta.id=""7037""/>"; "                    </class>"; "                    <class name=""Marktgebiet"" ref=""SG10"" key=""CCI:3:0[1:0=Z21]"">"; "                        <field name=""Gebiet"" ref=""CCI:3:0"" meta.id=""7037""/>"; "                    </class>"; "                    <class name=""Aggregationsverantwortung in MaBiS"" ref=""SG10"" key=""CCI:3:0[1:0=6]"">"; "                        <field name=""Code"" ref=""CCI:3:0"" meta.id=""7037""/>"; "                    </class>"; "                    <class name=""Bereits ausgetauschte Aggregationsverantwortung in MaBiS"" ref=""SG10"" key=""CCI:3:0[1:0=Z31]"">"; "                        <field name=""Code"" ref=""CCI:3:0"" meta.id=""7037""/>"; "                    </class>"; "                    <class name=""Prognosegrundlage der Marktlokation"" ref=""SG10"" key=""CAV:1:0[CCI:3:0=ZC0|CCI:3:0=ZA6]"">"; "                        <field name=""Grundlage"" ref=""CCI:3:0"" meta.id=""7037"" meta.type=""repository"" meta.typeInfo=""Prognosegrundlagerepository""/>"; "                        <class name=""Details der Prognosegrundlage"" ref=""CAV"" key=""CAV:1:0"">"; "                            <field name=""Details der Prognosegrundlage"" ref=""CAV:1:0"" meta.id=""7111"" meta.type=""repository"" meta.typeInfo=""Detailsprognoserepository""/>"; "                        </class>"; "                    </class>"; "                    <class name=""Bereits ausgetauschte Prognosegrundlage der Marktlokation"" ref=""SG10"" key=""CAV:1:0[CCI:3:0=ZB0|CCI:3:0=ZB1]"">"; "                        <field name=""Grundlage"" ref=""CCI:3:0"" meta.id=""7037"" meta.type=""repository"" meta.typeInfo=""Prognosegrundlagerepository""/>"; "                        <field name=""Details der Prognosegrundlage"" ref=""CAV:1:0"" meta.id=""7111"" meta.type=""repository"" meta.typeInfo=""Detailsprognoserepository""/>"; "                    </class>"; "                    <class name=""Art der erzeugenden Marktlokation"" ref=""SG10"" key=""CAV:1:0[CCI:3:0=Z34]"">"; "                        <field name=""Code"" ref=""CAV:1:0"" meta.id=""7111"" meta.type=""repository"" meta.typeInfo=""Erzeugungsartrepository""/>"; "                    </class>"; "                    <class name=""Gruppenzuordnung (nach EnWG)"" ref=""SG10"" key=""CCI:3:0[CCI:3:0=Z15|CCI:3:0=Z18]"">"; "                        <field name=""Haushaltskunde"" ref=""CCI:3:0"" meta.id=""7037""/>"; "                    </class>"; "                    <class name=""Empfänger der Vergütung zur Einspeisung"" ref=""SG10"" key=""CAV:1:3[CCI:3:0=Z89]"">"; "                        <field name=""Empfänger"" ref=""CAV:1:3"" meta.id=""7111""/>"; "                    </class>"; "                    <class name=""Status der erzeugenden Marktlokation"" ref=""SG10"" key=""CCI:3:1[CCI:3:0=Z22]"">"; "                        <field name=""Status"" ref=""CCI:3:1"" meta.id=""1131""/>"; "                    </class>"; "                    <class name=""Land der Förderung"" ref=""SG10"" key=""CCI:3:1[CCI:3:0=Z23]"">"; "                        <field name=""Land"" ref=""CCI:3:0"" meta.id=""7037""/>"; "                    </class>"; "                    <class name=""Status der Fernsteurbarkeit"" ref=""SG10"" key=""CCI:3:1[CCI:3:0=Z24]"">"; "                        <field name=""Status"" ref=""CCI:3:0"" meta.id=""7037""/>"; "                    </class>"; "                    <class name=""Versorgungsart der Marktlokation"" ref=""SG10"" key=""CCI:3:0[CCI:1:0=Z36]"">"; "                        <field name=""Status"" ref=""CCI:3:0"" meta.id=""7037""/>"; "                    </class>"; "                    <class name=""Betriebszustand der Marktlokation"" ref=""SG10"" key=""CCI:3:0[CCI:1:0=Z42]"">"; "                        <field name=""Status"" ref=""CCI:3:0"" meta.id=""7037""/>"; "                    </class>"; "                </class>"; "                <class name=""Daten der Marktlokation der beteiligten Marktrolle"" ref=""SG8"" key=""SEQ:1:0[SEQ:1:0=Z29]"" max=""99999"" meta.type=""group"" groupKey=""Referenz auf die ID der Marktlokation"">"; "                    <class name=""Regelzone"" ref=""SG10"" key=""CCI:3:0[1:0=Z18]"">"; "                        <field name=""Zone"" ref=""CCI:3:0"" meta.id=""7037""/>"; "                    </class>"; "                    <class name=""Bilanzkreis"" ref=""SG10"" key=""CCI:3:0[1:0=Z19]"">"; "                        <field name=""ID"" ref=""CCI:3:0"" meta.id=""7037""/>"; "                        <field name=""Priorität"" ref=""CAV:1:0"" meta.id=""7111""/>"; "                    </class>"; "                    <class name=""Bilanzierungsgebiet"" ref=""SG10"" key=""CCI:3:0[1:0=Z20]"">"; "                        <field name=""Gebiet"" ref=""CCI:3:0"" meta.id=""7037""/>"; "                    </class>"; "                    <class name=""Marktgebiet"" ref=""SG10"" key=""CCI:3:0[1:0=Z21]"">"; "                        <field name=""Gebiet"" ref=""CCI:3:0"" meta.id=""7037""/>"; "                    </class>"; "                    <class name=""Aggregationsverantwortung in MaBiS"" ref=""SG10"" key=""CCI:3:0[1:0=6]"">"; "                        <field name=""Code"" ref=""CCI:3:0"" meta.id=""7037""/>"; "                    </class>"; "                    <class name=""Prognosegrundlage der Marktlokation"" ref=""SG10"" key=""CAV:1:0[CCI:3:0=ZC0|CCI:3:0=ZA6]"">"; "                        <field name=""Grundlage"" ref=""CCI:3:0"" meta.id=""7037"" meta.type=""repository"" meta.typeInfo=""Prognosegrundlagerepository""/>"; "                        <field name=""Details der Prognosegrundlage"" ref=""CAV:1:0"" meta.id=""7111"" meta.type=""repository"" meta.typeInfo=""Detailsprognoserepository""/>"; "                    </class>"; "                    <class name=""Weitere Abrechnungsdaten der Marktlokation"" ref=""SG8"" key=""SEQ:1:0[SEQ:1:0=Z46]"" max=""99999"" meta.type=""group"" groupKey=""Referenz auf die ID der Marktlokation"">"; "                        <class name=""Abrechnung Blindarbeit"" ref=""SG10"" key=""CCI:3:0[CCI:1:0=Z45]"">"; "                            <field name=""Art der Abrechnung"" ref=""CCI:3:0[CCI:1:0=Z45]"" meta.id=""7037""/>"; "                            <field name=""Zahler der Blindarbeit"" ref=""CAV:1:3[CCI:1:0=Z45]"" meta.id=""7110""/>"; "                        </class>"; "                        <class name=""Zahlung Blindarbeit durch Lieferanten"" ref=""SG10"" key=""CCI:3:0[CCI:1:0=Z46]"">"; "                            <field name=""Art der Abrechnung"" ref=""CCI:3:0[CCI:1:0=Z46]"" meta.id=""7037""/>"; "                        </class>"; "                    </class>"; "                    <class name=""Erforderliches Messprodukt der Marktlokation"" ref=""SG8"" key=""SEQ:1:0[SEQ:1:0=Z27]"" max=""99999"" groupKey=""OBIS-Kennzahl der Marktlokation"" meta.objType=""OBIS-Kennzahl"">"; "                        <field name=""Referenz auf die ID der Marktlokation"" ref=""RFF:1:1[1:0=Z18]"" meta.id=""1154"" max=""1"" meta.ref=""Meldepunkt.ID""/>"; "                        <field name=""OBIS-Kennzahl der Marktlokation"" ref=""PIA:2:0"" meta.id=""7140""/>"; "                        <class name=""Zugeordnete Zählzeit"" ref=""SG10"" key=""CCI:3:0[1:0=Z39|1:0=Z41]"">"; "                            <field name=""Art"" meta.id=""7059"" ref=""CCI:1:0""/>"; "                            <field name=""Code"" meta.id=""7037"" ref=""CCI:3:0""/>"; "                        </class>"; "                        <class name=""Zugeordnetes Zählzeitregister"" ref=""SG10"" key=""CCI:3:0[1:0=Z38]"">"; "                            <field name=""Art"" meta.id=""7059"" ref=""CCI:1:0""/>"; "                            <field name=""Code"" meta.id=""7037"" ref=""CCI:3:0""/>"; "                        </class>"; "                        <class name=""OBIS Daten für Marktrolle relevant"" ref=""SG10"" key=""CCI:3:0"" max=""3"" groupKey=""Marktrolle"">"; "                            <field name=""Marktrolle"" ref=""CCI:3:0"" meta.id=""7037"" meta.type=""repository"" meta.typeInfo=""Marktrollenrepository""/>"; "                            <class name=""Verwendungszweck der Werte"" ref=""SG10"" key=""CAV:1:0"" max=""4"" groupKey=""Zweck"">"; "                                <field name=""Zweck"" ref=""CAV:1:0"" meta.id=""7111"" meta.type=""repository"" meta.typeInfo=""Verwendungszweckrepository""/>"; "                            </class>"; "                        </class>"; "                    </class>"; "                    <class name=""OBIS-Daten der Marktlokation"" ref=""SG8"" key=""SEQ:1:0[SEQ:1:0=Z02]"" max=""99999"" groupKey=""OBIS-Kennzahl der Marktlokation"" meta.objType=""OBIS-Kennzahl"">"; "                        <field name=""Referenz auf die ID der Marktlokation"" ref=""RFF:1:1[1:0=Z18]"" meta.id=""1154"" max=""1"" meta.ref=""Meldepunkt.ID""/>"; "                        <field name=""OBIS-Kennzahl der Marktlokation"" ref=""PIA:2:0"" meta.id=""7140""/>"; "                        <class name=""Wertegranularität"" ref=""SG10"" key=""CAV:1:0[CCI:3:0=ZE4]"">"; "                            <field name=""Granularität"" meta.id=""7111"" ref=""CAV:1:0""/>"; "                        </class>"; "                        <class name=""Zugeordnete Zählzeit"" ref=""SG10"" key=""CCI:3:0[1:0=Z39|1:0=Z41]"">"; "                            <field name=""Art"" meta.id=""7059"" ref=""CCI:1:0""/>"; "                            <field name=""Code"" meta.id=""7037"" ref=""CCI:3:0""/>"; "                        </class>"; "                        <field name=""Schwachlastfähigkeit"" ref=""CCI:3:0[1:0=Z10]"" meta.sg=""SG10"" meta.id=""7037"" meta.type=""repository"" meta.typeInfo=""Schwachlastrepository""/>"; "                        <class name=""Zugeordnetes Zählzeitregister"" ref=""SG10"" key=""CCI:3:0[1:0=Z38]"">"; "                            <field name=""Code"" meta.id=""7037"" ref=""CCI:3:0""/>"; "                        </class>"; "                        <class name=""OBIS Daten für Marktrolle relevant"" ref=""SG10"" key=""CCI:3:0[3:0=ZA7|3:0=ZA8|3:0=ZA9]"" max=""3"" groupKey=""Marktrolle"">"; "                            <field name=""Marktrolle"" ref=""CCI:3:0"" meta.id=""7037"" meta.type=""repository"" meta.typeInfo=""Marktrollenrepository""/>"; "                            <class name=""Verwendungszweck der Werte"" ref=""SG10"" key=""CAV:1:0"" max=""4"" groupKey=""Zweck"">"; "                                <field name=""Zweck"" ref=""CAV:1:0"" meta.id=""7111"" meta.type=""repository"" meta.typeInfo=""Verwendungszweckrepository""/>"; "                            </class>"; "                        </class>"; "                        <class name=""Verbrauchsart und Nutzung an der Marktlokation"" ref=""SG10"" key=""CAV:1:0[CCI:1:0=Z17]"">"; "                            <field name=""Verbrauchsart"" ref=""CAV:1:0[1:0=Z64|1:0=Z65|1:0=Z66|1:0=Z87|1:0=ZA8|1:0=ZB3]"" meta.id=""7111"" meta.type=""repository"" meta.typeInfo=""Verbrauchsartrepository""/>"; "                            <field name=""Unterbrechbarkeit"" ref=""CAV:1:0[1:0=Z62|1:0=Z63]"" meta.id=""7111"" meta.type=""repository"" meta.typeInfo=""Unterbrechbarkeitrepository""/>"; "                            <field name=""Wärmenutzung"" ref=""CAV:1:0[1:0=Z56|1:0=Z57|1:0=Z61]"" meta.id=""7111"" meta.type=""repository"" meta.typeInfo=""Wärmenutzungrepository""/>"; "                        </class>"; "                    </class>"; "                    <class name=""Steuer-/Abgabeninformation"" ref=""SG8"" key=""SEQ:1:0[SEQ:1:0=Z10]"" max=""99999"" meta.type=""group"">"; "                        <field name=""Referenz auf die OBIS-Kennzahl der Marktlokation"" ref=""RFF:1:1[1:0=Z10]"" meta.id=""1154""/>"; "                        <class name=""Steuern-/Abgabenbefreiung"" ref=""SG10"">"; "                            <field name=""Steuern-/Abgabenbefreiung"" ref=""CCI:3:0"" meta.id=""7037""/>"; "                        </class>"; "                    </class>"; "                    <class name=""Daten der Messlokation"" ref=""SG8"" key=""SEQ:1:0[SEQ:1:0=Z18]"" max=""99999"" meta.type=""group"" groupKey=""Referenz auf die ID der Marktlokation"">"; "                        <class name=""Spannungsebene der Messlokation"" ref=""SG10"" key=""CAV:1:0[CCI:3:0=E04]"">"; "                            <field name=""Ebene"" ref=""CAV:1:0[1:0=E03|1:0=E04|1:0=E05|1:0=E06]"" meta.id=""7111"" meta.type=""repository"" meta.typeInfo=""Spannungsebenenrepository""/>"; "                        </class>"; "                        <class name=""Gasqualität"" ref=""SG10"" key=""CAV:1:0[CCI:3:0=Y02]"">"; "                            <field name=""Qualität"" ref=""CAV:1:0"" meta.id=""7111"" meta.type=""repository"" meta.typeInfo=""Gasqualitätrepository""/>"; "                        </class>"; "                        <class name=""Verwendungsumfang"" ref=""SG10"" key=""CCI:3:0[CCI:1:0=Z01]"">"; "                            <field name=""Umfang"" ref=""CCI:3:0"" meta.id=""7037"" meta.type=""repository"" meta.typeInfo=""Verwendungsumfangrepository""/>"; "                        </class>"; "                        <class name=""Betriebszustand der Messlokation"" ref=""SG10"" key=""CCI:3:0[CCI:1:0=Z32]"">"; "                            <field name=""Zustand"" ref=""CCI:3:0"" meta.id=""7037"" meta.type=""repository"" meta.typeInfo=""Betriebszustandsrepository""/>"; "                        </class>"; "                    </class>"; "                    <class name=""Erforderliches Messprodukt der Messlokation"" ref=""SG8"" key=""SEQ:1:0[SEQ:1:0=Z19]"" max=""99999"" groupKey=""OBIS-Kennzahl der Messlokation"" meta.objType=""OBIS-Kennzahl"">"; "                        <field name=""Referenz auf die ID einer Messlokation"" ref=""RFF:1:1[1:0=Z19]"" meta.id=""1154"" max=""1"" meta.ref=""Meldepunkt.ID""/>"; "                        <class name=""Referenz auf die ID einer Marktlokation"" ref=""RFF"" key=""RFF:1:1[1:0=Z18]"" meta.id=""1154"" max=""1"">"; "                            <field name=""Referenz"" ref=""RFF:1:1[1:0=Z18]"" meta.id=""1154"" max=""1""/>"; "                        </class>"; "                        <field name=""OBIS-Kennzahl der Messlokation"" ref=""PIA:2:0"" meta.id=""7140""/>"; "                        <class name=""Weitere Beschreibung erforderliches Messprodukt"" ref=""SG10"" key=""CCI:3:0[CCI:1:0=Z35]"">"; "                            <field name=""Notwendigkeit zweite Messung"" ref=""CAV:3:0[CAV:1:0=ZC9]"" meta.id=""7037""/>"; "                            <field name=""Werteübermittlung an den NB aufgrund weiterem Verwendungszweck"" ref=""CAV:3:0[CAV:1:0=Z88]"" meta.id=""7037""/>"; "                        </class>"; "                        <class name=""Zugeordnete Zählzeit"" ref=""SG10"" key=""CCI:3:0[1:0=Z39|1:0=Z41]"">"; "                            <field name=""Art"" meta.id=""7059"" ref=""CCI:1:0""/>"; "                            <field name=""Code"" meta.id=""7037"" ref=""CCI:3:0""/>"; "                        </class>"; "                    </class>"; "                    <class name=""OBIS-Daten der Zähleinrichtung / Mengenumwerter"" ref=""SG8"" key=""SEQ:1:0[SEQ:1:0=Z20]"" max=""99999"" groupKey=""OBIS-Kennzahl"" meta.objType=""OBIS-Kennzahl"">"; "                        <class name=""Zugeordnete Zählzeit"" ref=""SG10"" key=""CCI:3:0[1:0=Z39|1:0=Z41]"">"; "                            <field name=""Art"" meta.id=""7059"" ref=""CCI:1:0""/>"; "                            <field name=""Code"" meta.id=""7037"" ref=""CCI:3:0""/>"; "                        </class>"; "                        <class name=""Zugeordnetes Zählzeitregister"" ref=""SG10"" key=""CCI:3:0[1:0=Z38]"">"; "                            <field name=""Code"" meta.id=""7037"" ref=""CCI:3:0""/>"; "                        </class>"; "                        <class name=""Vor- und Nachkommastellen des Zählwerks"" ref=""SG10"" key=""CAV:1:3[CCI:3:0=Z33]"">"; "                            <field name=""Vorkommastellen"" ref=""CAV:1:3"" meta.id=""7110""/>"; "                            <field name=""Nachkommastellen"" ref=""CAV:1:4"" meta.id=""7110""/>"; "                        </class>"; "                        <field name=""Lokale Kennzeichnung zu Kontrollzwecken"" ref=""CCI:3:3[3:0=Z63]"" meta.sg=""SG10"" meta.id=""7036""/>"; "                        <field name=""Schwachlastfähigkeit"" ref=""CCI:3:0[1:0=Z10]"" meta.sg=""SG10"" meta.id=""7037"" meta.type=""repository"" meta.typeInfo=""Schwachlastrepository""/>"; "                    </class>"; "                    <class name=""Daten der Steuerbox"" ref=""SG8"" key=""SEQ:1:0[SEQ:1:0=Z14]"" max=""99999"">"; "                        <field name=""Referenz auf das Smartmeter-Gateway"" ref=""RFF:1:1[1:0=Z14]"" meta.id=""1154"" meta.migMatch=""Z14""/>"; "                        <field name=""Referenz auf die ID der Marktlokation"" ref=""RFF:1:1[1:0=Z18]"" meta.id=""1154""/>"; "                        <class name=""Steuerbox"" ref=""SG10"" key=""CCI:1:0[CCI:1:0=Z76]"" meta.id=""7037"" ahbName=""Steuerbox"" max=""1"" groupKey=""Identifikation/Nummer des Gerätes"">"; "                            <field name=""Identifikation/Nummer des Gerätes"" ref=""CAV:1:(3,4)[1:0=Z76]"" meta.id=""7110""/>"; "                        </class>"; ""; "                    </class>"; "                    <class name=""Lastprofildaten (Gas)"" ref=""SG8"" key=""SEQ:1:0[SEQ:1:0=Z35]"" max=""99999"">"; "                        <class name=""Lastprofil (Gas)"" ref=""SG10"" key=""CAV:1:0[CCI:1:0=Z12]"" max=""2"">"; "                            <field name=""Klassentyp"" ref=""CCI:1:0"" meta.id=""7059""/>"; "                            <field name=""Typ"" ref=""CCI:3:0"" meta.id=""7037""/>"; "                            <field name=""Profil"" ref=""CAV:1:0"" meta.id=""7111""/>"; "                            <field name=""Codeliste"" ref=""CAV:1:2"" meta.id=""3055""/>"; "                        </class>"; "                        <class name=""Klimazone / Temperaturmessstelle"" ref=""SG10"" key=""CCI:3:0[1:0=Z99|1:0=ZA0]"" max=""1"">"; "                            <field name=""Klassentyp"" ref=""CCI:1:0"" meta.id=""7059""/>"; "                            <field name=""ID"" ref=""CCI:3:0"" meta.id=""7037""/>"; "                            <field name=""Anbieter"" ref=""CCI:3:1"" meta.id=""1131""/>"; "                            <field name=""Codeliste"" ref=""CCI:3:2"" meta.id=""3055""/>"; "                        </class>"; "                    </class>"; "                    <class name=""Profildaten (Strom)"" ref=""SG8"" key=""SEQ:1:0[SEQ:1:0=Z21]"" max=""99999"">"; "                        <field name=""Versionsangabe des Profils"" ref=""RFF:1:1[1:0=Z12]"" meta.id=""1154""/>"; "                        <field name=""Referenz auf die ID der Marktlokation"" ref=""RFF:1:1[1:0=Z18]"" meta.id=""1154"" meta.ref=""Meldepunkt.ID""/>"; "                        <field name=""Profiltyp"" ref=""CCI:3:0[CCI:1:0=Z07]"" meta.id=""7037""/>"; "                        <class name=""Normiertes Profil (Strom)"" ref=""SG10"" key=""CAV:1:0[CCI:1:0=Z02|CCI:1:0=Z04]"" max=""1"">"; "                            <field name=""Klassentyp"" ref=""CCI:1:0"" meta.id=""7059"" meta.type=""repository"" meta.typeInfo=""Profiltyprepository""/>"; "                            <field name=""Typ"" ref=""CCI:3:0"" meta.id=""7037"" meta.type=""repository"" meta.typeInfo=""Profilverfahrenrepository""/>"; "                            <field name=""Profil"" ref=""CAV:1:0"" meta.id=""7111""/>"; "                            <field name=""Codeliste"" ref=""CAV:1:2""/>"; "                        </class>"; "                        <field name=""Normierungsfaktor"" ref=""CCI:3:0[CCI:1:0=Z06]"" meta.id=""7037""/>"; "                        <class name=""Bilanzierungsgebiet"" ref=""SG10"" key=""CCI:3:0[1:0=Z20]"">"; "                            <field name=""Gebiet"" ref=""CCI:3:0"" meta.id=""7037""/>"; "                        </class>"; "                    </class>"; "                    <class name=""Profildaten der beteiligten Marktrolle"" ref=""SG8"" key=""SEQ:1:0[SEQ:1:0=Z33]"" max=""99999"">"; "                        <class name=""Normiertes Profil (Strom)"" ref=""SG10"" key=""CAV:1:0[CCI:1:0=Z02|CCI:1:0=Z04]"" max=""1"">"; "                            <field name=""Klassentyp"" ref=""CCI:1:0"" meta.id=""7059"" meta.type=""repository"" meta.typeInfo=""Profiltyprepository""/>"; "                            <field name=""Typ"" ref=""CCI:3:0"" meta.id=""7037"" meta.type=""repository"" meta.typeInfo=""Profilverfahrenrepository""/>"; "                            <field name=""Profil"" ref=""CAV:1:0"" meta.id=""7111""/>"; "                            <field name=""Codeliste"" ref=""CAV:1:2""/>"; "                        </class>"; "                    </class>"; "                    <class name=""Profilschardaten"" ref=""SG8"" key=""SEQ:1:0[SEQ:1:0=Z08]"" max=""99999"">"; "                        <field name=""Versionsangabe des Profils"" ref=""RFF:1:1[1:0=Z12]"" meta.id=""1154""/>"; "                        <field name=""Referenz auf die ID der Marktlokation"" ref=""RFF:1:1[1:0=Z18]"" meta.id=""1154""/>"; "                        <field name=""Profiltyp"" ref=""CCI:3:0[CCI:1:0=Z07]"" meta.id=""7037""/>"; "                        <class name=""Profilschar"" ref=""SG10"" key=""CAV:1:0[CCI:3:0=Z12]"">"; "                            <field name=""Schar"" ref=""CAV:1:0"" meta.id=""7111""/>"; "                        </class>"; "                        <class name=""Normiertes Profil"" ref=""SG10"" key=""CAV:1:0[CCI:1:0=Z03]"" max=""1"">"; "                            <field name=""Klassentyp"" ref=""CCI:1:0"" meta.id=""7059"" meta.type=""repository"" meta.typeInfo=""Profiltyprepository""/>"; "                            <field name=""Typ"" ref=""CCI:3:0[1:0=Z03]"" meta.id=""7037"" meta.type=""repository"" meta.typeInfo=""Profilverfahrenrepository""/>"; "                            <field name=""Profil"" ref=""CAV:1:0"" meta.id=""7111""/>"; "                            <field name=""Codeliste"" ref=""CAV:1:2""/>"; "                        </class>"; "                        <field name=""Normierungsfaktor"" ref=""CCI:3:0[CCI:1:0=Z06]"" meta.id=""7037""/>"; "                        <field name=""Begrenzungskonstante"" ref=""CCI:3:0[CCI:1:0=Z11]"" meta.id=""7037""/>"; "                        <class name=""Klimazone / Temperaturmessstelle"" ref=""SG10"" key=""CCI:3:0[1:0=Z99|1:0=ZA0]"" max=""1"">"; "                            <field name=""Klassentyp"" ref=""CCI:1:0"" meta.id=""7059""/>"; "                            <field name=""ID"" ref=""CCI:3:0"" meta.id=""7037""/>"; "                            <field name=""Anbieter"" ref=""CCI:3:1"" meta.id=""1131""/>"; "                            <field name=""Codeliste"" ref=""CCI:3:2"" meta.id=""3055""/>"; "                        </class>"; "                        <class name=""Bilanzierungsgebiet"" ref=""SG10"" key=""CCI:3:0[1:0=Z20]"">"; "                            <field name=""Gebiet"" ref=""CCI:3:0"" meta.id=""7037""/>"; "                        </class>"; "                    </class>"; "                    <class name=""Profilschardaten der beteiligten Marktrolle"" ref=""SG8"" key=""SEQ:1:0[SEQ:1:0=Z34]"" max=""99999"">"; "                        <class name=""Profilschar"" ref=""SG10"" key=""CAV:1:0[CCI:1:0=Z12]"" max=""1"">"; "                            <field name=""Klassentyp"" ref=""CCI:1:0"" meta.id=""7059"" meta.type=""repository"" meta.typeInfo=""Profiltyprepository""/>"; "                            <field name=""Typ"" ref=""CCI:3:0"" meta.id=""7037"" meta.type=""repository"" meta.typeInfo=""Profilverfahrenrepository""/>"; "                            <field name=""Profil"" ref=""CAV:1:0"" meta.id=""7111""/>"; "                            <field name=""Codeliste"" ref=""CAV:1:2""/>"; "                        </class>"; "                        <class name=""Klimazone / Temperaturmessstelle / Referenzmessung"" ref=""SG10"" key=""CCI:3:0[1:0=Z99|1:0=ZA0]"" max=""1"">"; "                            <field name=""Klassentyp"" ref=""CCI:1:0"" meta.id=""7059""/>"; "                            <field name=""ID"" ref=""CCI:3:0"" meta.id=""7037""/>"; "                            <field name=""Anbieter"" ref=""CCI:3:1"" meta.id=""1131""/>"; "                            <field name=""Codeliste"" ref=""CCI:3:2"" meta.id=""3055""/>"; "                        </class>"; "                    </class>"; "                    <class name=""Daten der Summenzeitreihe"" ref=""SG8"" key=""SEQ:1:0[SEQ:1:0=Z22]"" max=""99999"">"; "                        <field name=""Referenz auf die ID der Summenzeitreihe"" ref=""RFF:1:1[1:0=AVE]"" meta.id=""1154""/>"; "                        <field name=""Versionsangabe der Summenzeitreihe"" ref=""RFF:1:1[1:0=AUU]"" meta.id=""1154""/>"; "                        <class name=""Bezeichnung der Summenzeitreihe"" ref=""SG10"" key=""CAV:1:3[CCI:3:0=ZB4]"">"; "                            <field name=""Bezeichnung"" ref=""CAV:1:3"" meta.id=""7110""/>"; "                        </class>"; "                        <field name=""Verantwortliche Marktrolle für Summenzeitreihe"" ref=""CCI:3:0[CCI:1:0=6]"" meta.id=""7037""/>"; "                        <class name=""Regelzone"" ref=""SG10"" key=""CCI:3:0[1:0=Z18]"">"; "                            <field name=""Zone"" ref=""CCI:3:0"" meta.id=""7037""/>"; "                        </class>"; "                        <class name=""Bilanzierungsgebiet"" ref=""SG10"" key=""CCI:3:0[1:0=Z20]"">"; "                            <field name=""Gebiet"" ref=""CCI:3:0"" meta.id=""7037""/>"; "                        </class>"; "                        <class name=""Bilanzkreis"" ref=""SG10"" key=""CCI:3:0[1:0=Z19]"">"; "                            <field name=""ID"" ref=""CCI:3:0"" meta.id=""7037""/>"; "                            <field name=""Priorität"" ref=""CAV:1:0"" meta.id=""7111""/>"; "                        </class>"; "                        <class name=""Daten der EEG-Überführungszeitreihe"" ref=""SG8"" key=""SEQ:1:0[SEQ:1:0=Z24]"" max=""99999"">"; "                            <field name=""Versionsangabe der Zeitreihe"" ref=""RFF:1:1[1:0=AUU]"" meta.id=""1154""/>"; "                            <class name=""EEG-Überführungszeitreihentyp"" ref=""SG10"" key=""CAV:1:0[CCI:3:0=Z21]"" max=""3"">"; "                                <field name=""Code"" ref=""CAV:1:0"" meta.id=""7111""/>"; "                            </class>"; "                            <class name=""Bilanzkreis-an"" ref=""SG10"" key=""CCI:3:0[1:0=Z28]"">"; "                                <field name=""ID"" ref=""CCI:3:0"" meta.id=""7037""/>"; "                                <field name=""Priorität"" ref=""CAV:1:0"" meta.id=""7111""/>"; "                            </class>"; "                            <class name=""Bilanzkreis-von"" ref=""SG10"" key=""CCI:3:0[1:0=Z29]"">"; "                                <field name=""ID"" ref=""CCI:3:0"" meta.id=""7037""/>"; "                                <field name=""Priorität"" ref=""CAV:1:0"" meta.id=""7111""/>"; "                            </class>"; "                            <class name=""Bilanzierungsgebiet"" ref=""SG10"" key=""CCI:3:0[1:0=Z20]"">"; "                                <field name=""Gebiet"" ref=""CCI:3:0"" meta.id=""7037""/>"; "                            </class>"; "                        </class>"; "                    </class>"; "                </class>"; "            </class>"; "        </class>"; "    </class>"; "</UTILMD>"; ""]%string).
(** tests/unit_tests/test_mig_xml_reader_real_data.py:33 *)
Example test_is_parsable_25 :
  check_file_can_be_parsed_as_mig_xml no_high no_high any_declaration no_doctype (fun _ => Raise XMLSyntaxError) (fun _ => false) (fun _ => false) decode_utf8 formats (Some file_FV2210_utilmd_7037) = Ok tt.
Proof. vm_compute. repeat split; reflexivity. Qed.
(** tests/unit_tests/test_mig_xml_reader_real_data.py:33 *)
Example test_is_parsable_26 :
  document file_FV2210_utilmd_7037 = Ok (Element (u "UTILMD") [] (Some (u "
    
")) [(Element (u "class") [((u "name"), (u "Dokument")); ((u "ref"), (u "/")); ((u "key"), (u "UNB:5:0"))] (Some (u "
        
    ")) [(Element (u "class") [((u "name"), (u "Nachricht")); ((u "ref"), (u "UNH")); ((u "key"), (u "UNH:1:0")); ((u "max"), (u "9999")); ((u "meta.type"), (u "group"))] (Some (u "
            
        ")) [(Element (u "class") [((u "name"), (u "Vorgang")); ((u "ref"), (u "SG4")); ((u "key"), (u "IDE:2:0")); ((u "max"), (u "99999")); ((u "meta.type"), (u "group")); ((u "groupKey"), (u "Vorgangsnummer"))] (Some (u "
                
                
            ")) [(Element (u "class") [((u "name"), (u "Daten der Marktlokation")); ((u "ref"), (u "SG8")); ((u "key"), (u "SEQ:1:0[SEQ:1:0=Z01]")); ((u "max"), (u "99999")); ((u "meta.type"), (u "group")); ((u "groupKey"), (u "Referenz auf die ID der Marktlokation"))] (Some (u "
                    
                    
                    
                    
                    
                    
                    
                    
                    
                    
                    
                    
                    
                    
                    
                    
                    
                    
                ")) [(Element (u "class") [((u "name"), (u "Lieferrichtung")); ((u "ref"), (u "SG10")); ((u "key"), (u "CCI:1:0[1:0=Z30]"))] (Some (u "
                        
                    ")) [(Element (u "field") [((u "name"), (u "Richtung")); ((u "ref"), (u "CCI:3:0")); ((u "meta.id"), (u "7037")); ((u "meta.type"), (u "repository")); ((u "meta.typeInfo"), (u "Lieferrichtungrepository"))] None [])]); (Element (u "class") [((u "name"), (u "Bilanzierungsrelevanz der Marktlokation")); ((u "ref"), (u "SG10")); ((u "key"), (u "CCI:3:0[1:0=Z01]"))] (Some (u "
                        
                    ")) [(Element (u "field") [((u "name"), (u "Code")); ((u "ref"), (u "CCI:3:0")); ((u "meta.id"), (u "7037"))] None [])]); (Element (u "class") [((u "name"), (u "Regelzone")); ((u "ref"), (u "SG10")); ((u "key"), (u "CCI:3:0[1:0=Z18]"))] (Some (u "
                        
                    ")) [(Element (u "field") [((u "name"), (u "Zone")); ((u "ref"), (u "CCI:3:0")); ((u "meta.id"), (u "7037"))] None [])]); (Element (u "class") [((u "name"), (u "Bilanzkreis")); ((u "ref"), (u "SG10")); ((u "key"), (u "CCI:3:0[1:0=Z19]"))] (Some (u "
                        
                        
                    ")) [(Element (u "field") [((u "name"), (u "ID")); ((u "ref"), (u "CCI:3:0")); ((u "meta.id"), (u "7037"))] None []); (Element (u "field") [((u "name"), (u "Priorität")); ((u "ref"), (u "CAV:1:0")); ((u "meta.id"), (u "7111"))] None [])]); (Element (u "class") [((u "name"), (u "Bilanzierungsgebiet")); ((u "ref"), (u "SG10")); ((u "key"), (u "CCI:3:0[1:0=Z20]"))] (Some (u "
                        
                    ")) [(Element (u "field") [((u "name"), (u "Gebiet")); ((u "ref"), (u "CCI:3:0")); ((u "meta.id"), (u "7037"))] None [])]); (Element (u "class") [((u "name"), (u "Marktgebiet")); ((u "ref"), (u "SG10")); ((u "key"), (u "CCI:3:0[1:0=Z21]"))] (Some (u "
                        
                    ")) [(Element (u "field") [((u "name"), (u "Gebiet")); ((u "ref"), (u "CCI:3:0")); ((u "meta.id"), (u "7037"))] None [])]); (Element (u "class") [((u "name"), (u "Aggregationsverantwortung in MaBiS")); ((u "ref"), (u "SG10")); ((u "key"), (u "CCI:3:0[1:0=6]"))] (Some (u "
                        
                    ")) [(Element (u "field") [((u "name"), (u "Code")); ((u "ref"), (u "CCI:3:0")); ((u "meta.id"), (u "7037"))] None [])]); (Element (u "class") [((u "name"), (u "Bereits ausgetauschte Aggregationsverantwortung in MaBiS")); ((u "ref"), (u "SG10")); ((u "key"), (u "CCI:3:0[1:0=Z31]"))] (Some (u "
                        
                    ")) [(Element (u "field") [((u "name"), (u "Code")); ((u "ref"), (u "CCI:3:0")); ((u "meta.id"), (u "7037"))] None [])]); (Element (u "class") [((u "name"), (u "Prognosegrundlage der Marktlokation")); ((u "ref"), (u "SG10")); ((u "key"), (u "CAV:1:0[CCI:3:0=ZC0|CCI:3:0=ZA6]"))] (Some (u "
                        
                        
                    ")) [(Element (u "field") [((u "name"), (u "Grundlage")); ((u "ref"), (u "CCI:3:0")); ((u "meta.id"), (u "7037")); ((u "meta.type"), (u "repository")); ((u "meta.typeInfo"), (u "Prognosegrundlagerepository"))] None []); (Element (u "class") [((u "name"), (u "Details der Prognosegrundlage")); ((u "ref"), (u "CAV")); ((u "key"), (u "CAV:1:0"))] (Some (u "
                            
                        ")) [(Element (u "field") [((u "name"), (u "Details der Prognosegrundlage")); ((u "ref"), (u "CAV:1:0")); ((u "meta.id"), (u "7111")); ((u "meta.type"), (u "repository")); ((u "meta.typeInfo"), (u "Detailsprognoserepository"))] None [])])]); (Element (u "class") [((u "name"), (u "Bereits ausgetauschte Prognosegrundlage der Marktlokation")); ((u "ref"), (u "SG10")); ((u "key"), (u "CAV:1:0[CCI:3:0=ZB0|CCI:3:0=ZB1]"))] (Some (u "
                        
                        
                    ")) [(Element (u "field") [((u "name"), (u "Grundlage")); ((u "ref"), (u "CCI:3:0")); ((u "meta.id"), (u "7037")); ((u "meta.type"), (u "repository")); ((u "meta.typeInfo"), (u "Prognosegrundlagerepository"))] None []); (Element (u "field") [((u "name"), (u "Details der Prognosegrundlage")); ((u "ref"), (u "CAV:1:0")); ((u "meta.id"), (u "7111")); ((u "meta.type"), (u "repository")); ((u "meta.typeInfo"), (u "Detailsprognoserepository"))] None [])]); (Element (u "class") [((u "name"), (u "Art der erzeugenden Marktlokation")); ((u "ref"), (u "SG10")); ((u "key"), (u "CAV:1:0[CCI:3:0=Z34]"))] (Some (u "
                        
                    ")) [(Element (u "field") [((u "name"), (u "Code")); ((u "ref"), (u "CAV:1:0")); ((u "meta.id"), (u "7111")); ((u "meta.type"), (u "repository")); ((u "meta.typeInfo"), (u "Erzeugungsartrepository"))] None [])]); (Element (u "class") [((u "name"), (u "Gruppenzuordnung (nach EnWG)")); ((u "ref"), (u "SG10")); ((u "key"), (u "CCI:3:0[CCI:3:0=Z15|CCI:3:0=Z18]"))] (Some (u "
                        
                    ")) [(Element (u "field") [((u "name"), (u "Haushaltskunde")); ((u "ref"), (u "CCI:3:0")); ((u "meta.id"), (u "7037"))] None [])]); (Element (u "class") [((u "name"), (u "Empfänger der Vergütung zur Einspeisung")); ((u "ref"), (u "SG10")); ((u "key"), (u "CAV:1:3[CCI:3:0=Z89]"))] (Some (u "
                        
                    ")) [(Element (u "field") [((u "name"), (u "Empfänger")); ((u "ref"), (u "CAV:1:3")); ((u "meta.id"), (u "7111"))] None [])]); (Element (u "class") [((u "name"), (u "Status der erzeugenden Marktlokation")); ((u "ref"), (u "SG10")); ((u "key"), (u "CCI:3:1[CCI:3:0=Z22]"))] (Some (u "
                        
                    ")) [(Element (u "field") [((u "name"), (u "Status")); ((u "ref"), (u "CCI:3:1")); ((u "meta.id"), (u "1131"))] None [])]); (Element (u "class") [((u "name"), (u "Land der Förderung")); ((u "ref"), (u "SG10")); ((u "key"), (u "CCI:3:1[CCI:3:0=Z23]"))] (Some (u "
                        
                    ")) [(Element (u "field") [((u "name"), (u "Land")); ((u "ref"), (u "CCI:3:0")); ((u "meta.id"), (u "7037"))] None [])]); (Element (u "class") [((u "name"), (u "Status der Fernsteurbarkeit")); ((u "ref"), (u "SG10")); ((u "key"), (u "CCI:3:1[CCI:3:0=Z24]"))] (Some (u "
                        
                    ")) [(Element (u "field") [((u "name"), (u "Status")); ((u "ref"), (u "CCI:3:0")); ((u "meta.id"), (u "7037"))] None [])]); (Element (u "class") [((u "name"), (u "Versorgungsart der Marktlokation")); ((u "ref"), (u "SG10")); ((u "key"), (u "CCI:3:0[CCI:1:0=Z36]"))] (Some (u "
                        
                    ")) [(Element (u "field") [((u "name"), (u "Status")); ((u "ref"), (u "CCI:3:0")); ((u "meta.id"), (u "7037"))] None [])]); (Element (u "class") [((u "name"), (u "Betriebszustand der Marktlokation")); ((u "ref"), (u "SG10")); ((u "key"), (u "CCI:3:0[CCI:1:0=Z42]"))] (Some (u "
                        
                    ")) [(Element (u "field") [((u "name"), (u "Status")); ((u "ref"), (u "CCI:3:0")); ((u "meta.id"), (u "7037"))] None [])])]); (Element (u "class") [((u "name"), (u "Daten der Marktlokation der beteiligten Marktrolle")); ((u "ref"), (u "SG8")); ((u "key"), (u "SEQ:1:0[SEQ:1:0=Z29]")); ((u "max"), (u "99999")); ((u "meta.type"), (u "group")); ((u "groupKey"), (u "Referenz auf die ID der Marktlokation"))] (Some (u "
                    
                    
                    
                    
                    
                    
                    
                    
                    
                    
                    
                    
                    
                    
                    
                    
                    
                    
                    
                    
                ")) [(Element (u "class") [((u "name"), (u "Regelzone")); ((u "ref"), (u "SG10")); ((u "key"), (u "CCI:3:0[1:0=Z18]"))] (Some (u "
                        
                    ")) [(Element (u "field") [((u "name"), (u "Zone")); ((u "ref"), (u "CCI:3:0")); ((u "meta.id"), (u "7037"))] None [])]); (Element (u "class") [((u "name"), (u "Bilanzkreis")); ((u "ref"), (u "SG10")); ((u "key"), (u "CCI:3:0[1:0=Z19]"))] (Some (u "
                        
                        
                    ")) [(Element (u "field") [((u "name"), (u "ID")); ((u "ref"), (u "CCI:3:0")); ((u "meta.id"), (u "7037"))] None []); (Element (u "field") [((u "name"), (u "Priorität")); ((u "ref"), (u "CAV:1:0")); ((u "meta.id"), (u "7111"))] None [])]); (Element (u "class") [((u "name"), (u "Bilanzierungsgebiet")); ((u "ref"), (u "SG10")); ((u "key"), (u "CCI:3:0[1:0=Z20]"))] (Some (u "
                        
                    ")) [(Element (u "field") [((u "name"), (u "Gebiet")); ((u "ref"), (u "CCI:3:0")); ((u "meta.id"), (u "7037"))] None [])]); (Element (u "class") [((u "name"), (u "Marktgebiet")); ((u "ref"), (u "SG10")); ((u "key"), (u "CCI:3:0[1:0=Z21]"))] (Some (u "
                        
                    ")) [(Element (u "field") [((u "name"), (u "Gebiet")); ((u "ref"), (u "CCI:3:0")); ((u "meta.id"), (u "7037"))] None [])]); (Element (u "class") [((u "name"), (u "Aggregationsverantwortung in MaBiS")); ((u "ref"), (u "SG10")); ((u "key"), (u "CCI:3:0[1:0=6]"))] (Some (u "
                        
                    ")) [(Element (u "field") [((u "name"), (u "Code")); ((u "ref"), (u "CCI:3:0")); ((u "meta.id"), (u "7037"))] None [])]); (Element (u "class") [((u "name"), (u "Prognosegrundlage der Marktlokation")); ((u "ref"), (u "SG10")); ((u "key"), (u "CAV:1:0[CCI:3:0=ZC0|CCI:3:0=ZA6]"))] (Some (u "
                        
                        
                    ")) [(Element (u "field") [((u "name"), (u "Grundlage")); ((u "ref"), (u "CCI:3:0")); ((u "meta.id"), (u "7037")); ((u "meta.type"), (u "repository")); ((u "meta.typeInfo"), (u "Prognosegrundlagerepository"))] None []); (Element (u "field") [((u "name"), (u "Details der Prognosegrundlage")); ((u "ref"), (u "CAV:1:0")); ((u "meta.id"), (u "7111")); ((u "meta.type"), (u "repository")); ((u "meta.typeInfo"), (u "Detailsprognoserepository"))] None [])]); (Element (u "class") [((u "name"), (u "Weitere Abrechnungsdaten der Marktlokation")); ((u "ref"), (u "SG8")); ((u "key"), (u "SEQ:1:0[SEQ:1:0=Z46]")); ((u "max"), (u "99999")); ((u "meta.type"), (u "group")); ((u "groupKey"), (u "Referenz auf die ID der Marktlokation"))] (Some (u "
                        
                        
                    ")) [(Element (u "class") [((u "name"), (u "Abrechnung Blindarbeit")); ((u "ref"), (u "SG10")); ((u "key"), (u "CCI:3:0[CCI:1:0=Z45]"))] (Some (u "
                            
                            
                        ")) [(Element (u "field") [((u "name"), (u "Art der Abrechnung")); ((u "ref"), (u "CCI:3:0[CCI:1:0=Z45]")); ((u "meta.id"), (u "7037"))] None []); (Element (u "field") [((u "name"), (u "Zahler der Blindarbeit")); ((u "ref"), (u "CAV:1:3[CCI:1:0=Z45]")); ((u "meta.id"), (u "7110"))] None [])]); (Element (u "class") [((u "name"), (u "Zahlung Blindarbeit durch Lieferanten")); ((u "ref"), (u "SG10")); ((u "key"), (u "CCI:3:0[CCI:1:0=Z46]"))] (Some (u "
                            
                        ")) [(Element (u "field") [((u "name"), (u "Art der Abrechnung")); ((u "ref"), (u "CCI:3:0[CCI:1:0=Z46]")); ((u "meta.id"), (u "7037"))] None [])])]); (Element (u "class") [((u "name"), (u "Erforderliches Messprodukt der Marktlokation")); ((u "ref"), (u "SG8")); ((u "key"), (u "SEQ:1:0[SEQ:1:0=Z27]")); ((u "max"), (u "99999")); ((u "groupKey"), (u "OBIS-Kennzahl der Marktlokation")); ((u "meta.objType"), (u "OBIS-Kennzahl"))] (Some (u "
                        
                        
                        
                        
                        
                    ")) [(Element (u "field") [((u "name"), (u "Referenz auf die ID der Marktlokation")); ((u "ref"), (u "RFF:1:1[1:0=Z18]")); ((u "meta.id"), (u "1154")); ((u "max"), (u "1")); ((u "meta.ref"), (u "Meldepunkt.ID"))] None []); (Element (u "field") [((u "name"), (u "OBIS-Kennzahl der Marktlokation")); ((u "ref"), (u "PIA:2:0")); ((u "meta.id"), (u "7140"))] None []); (Element (u "class") [((u "name"), (u "Zugeordnete Zählzeit")); ((u "ref"), (u "SG10")); ((u "key"), (u "CCI:3:0[1:0=Z39|1:0=Z41]"))] (Some (u "
                            
                            
                        ")) [(Element (u "field") [((u "name"), (u "Art")); ((u "meta.id"), (u "7059")); ((u "ref"), (u "CCI:1:0"))] None []); (Element (u "field") [((u "name"), (u "Code")); ((u "meta.id"), (u "7037")); ((u "ref"), (u "CCI:3:0"))] None [])]); (Element (u "class") [((u "name"), (u "Zugeordnetes Zählzeitregister")); ((u "ref"), (u "SG10")); ((u "key"), (u "CCI:3:0[1:0=Z38]"))] (Some (u "
                            
                            
                        ")) [(Element (u "field") [((u "name"), (u "Art")); ((u "meta.id"), (u "7059")); ((u "ref"), (u "CCI:1:0"))] None []); (Element (u "field") [((u "name"), (u "Code")); ((u "meta.id"), (u "7037")); ((u "ref"), (u "CCI:3:0"))] None [])]); (Element (u "class") [((u "name"), (u "OBIS Daten für Marktrolle relevant")); ((u "ref"), (u "SG10")); ((u "key"), (u "CCI:3:0")); ((u "max"), (u "3")); ((u "groupKey"), (u "Marktrolle"))] (Some (u "
                            
                            
                        ")) [(Element (u "field") [((u "name"), (u "Marktrolle")); ((u "ref"), (u "CCI:3:0")); ((u "meta.id"), (u "7037")); ((u "meta.type"), (u "repository")); ((u "meta.typeInfo"), (u "Marktrollenrepository"))] None []); (Element (u "class") [((u "name"), (u "Verwendungszweck der Werte")); ((u "ref"), (u "SG10")); ((u "key"), (u "CAV:1:0")); ((u "max"), (u "4")); ((u "groupKey"), (u "Zweck"))] (Some (u "
                                
                            ")) [(Element (u "field") [((u "name"), (u "Zweck")); ((u "ref"), (u "CAV:1:0")); ((u "meta.id"), (u "7111")); ((u "meta.type"), (u "repository")); ((u "meta.typeInfo"), (u "Verwendungszweckrepository"))] None [])])])]); (Element (u "class") [((u "name"), (u "OBIS-Daten der Marktlokation")); ((u "ref"), (u "SG8")); ((u "key"), (u "SEQ:1:0[SEQ:1:0=Z02]")); ((u "max"), (u "99999")); ((u "groupKey"), (u "OBIS-Kennzahl der Marktlokation")); ((u "meta.objType"), (u "OBIS-Kennzahl"))] (Some (u "
                        
                        
                        
                        
                        
                        
                        
                        
                    ")) [(Element (u "field") [((u "name"), (u "Referenz auf die ID der Marktlokation")); ((u "ref"), (u "RFF:1:1[1:0=Z18]")); ((u "meta.id"), (u "1154")); ((u "max"), (u "1")); ((u "meta.ref"), (u "Meldepunkt.ID"))] None []); (Element (u "field") [((u "name"), (u "OBIS-Kennzahl der Marktlokation")); ((u "ref"), (u "PIA:2:0")); ((u "meta.id"), (u "7140"))] None []); (Element (u "class") [((u "name"), (u "Wertegranularität")); ((u "ref"), (u "SG10")); ((u "key"), (u "CAV:1:0[CCI:3:0=ZE4]"))] (Some (u "
                            
                        ")) [(Element (u "field") [((u "name"), (u "Granularität")); ((u "meta.id"), (u "7111")); ((u "ref"), (u "CAV:1:0"))] None [])]); (Element (u "class") [((u "name"), (u "Zugeordnete Zählzeit")); ((u "ref"), (u "SG10")); ((u "key"), (u "CCI:3:0[1:0=Z39|1:0=Z41]"))] (Some (u "
                            
                            
                        ")) [(Element (u "field") [((u "name"), (u "Art")); ((u "meta.id"), (u "7059")); ((u "ref"), (u "CCI:1:0"))] None []); (Element (u "field") [((u "name"), (u "Code")); ((u "meta.id"), (u "7037")); ((u "ref"), (u "CCI:3:0"))] None [])]); (Element (u "field") [((u "name"), (u "Schwachlastfähigkeit")); ((u "ref"), (u "CCI:3:0[1:0=Z10]")); ((u "meta.sg"), (u "SG10")); ((u "meta.id"), (u "7037")); ((u "meta.type"), (u "repository")); ((u "meta.typeInfo"), (u "Schwachlastrepository"))] None []); (Element (u "class") [((u "name"), (u "Zugeordnetes Zählzeitregister")); ((u "ref"), (u "SG10")); ((u "key"), (u "CCI:3:0[1:0=Z38]"))] (Some (u "
                            
                        ")) [(Element (u "field") [((u "name"), (u "Code")); ((u "meta.id"), (u "7037")); ((u "ref"), (u "CCI:3:0"))] None [])]); (Element (u "class") [((u "name"), (u "OBIS Daten für Marktrolle relevant")); ((u "ref"), (u "SG10")); ((u "key"), (u "CCI:3:0[3:0=ZA7|3:0=ZA8|3:0=ZA9]")); ((u "max"), (u "3")); ((u "groupKey"), (u "Marktrolle"))] (Some (u "
                            
                            
                        ")) [(Element (u "field") [((u "name"), (u "Marktrolle")); ((u "ref"), (u "CCI:3:0")); ((u "meta.id"), (u "7037")); ((u "meta.type"), (u "repository")); ((u "meta.typeInfo"), (u "Marktrollenrepository"))] None []); (Element (u "class") [((u "name"), (u "Verwendungszweck der Werte")); ((u "ref"), (u "SG10")); ((u "key"), (u "CAV:1:0")); ((u "max"), (u "4")); ((u "groupKey"), (u "Zweck"))] (Some (u "
                                
                            ")) [(Element (u "field") [((u "name"), (u "Zweck")); ((u "ref"), (u "CAV:1:0")); ((u "meta.id"), (u "7111")); ((u "meta.type"), (u "repository")); ((u "meta.typeInfo"), (u "Verwendungszweckrepository"))] None [])])]); (Element (u "class") [((u "name"), (u "Verbrauchsart und Nutzung an der Marktlokation")); ((u "ref"), (u "SG10")); ((u "key"), (u "CAV:1:0[CCI:1:0=Z17]"))] (Some (u "
                            
                            
                            
                        ")) [(Element (u "field") [((u "name"), (u "Verbrauchsart")); ((u "ref"), (u "CAV:1:0[1:0=Z64|1:0=Z65|1:0=Z66|1:0=Z87|1:0=ZA8|1:0=ZB3]")); ((u "meta.id"), (u "7111")); ((u "meta.type"), (u "repository")); ((u "meta.typeInfo"), (u "Verbrauchsartrepository"))] None []); (Element (u "field") [((u "name"), (u "Unterbrechbarkeit")); ((u "ref"), (u "CAV:1:0[1:0=Z62|1:0=Z63]")); ((u "meta.id"), (u "7111")); ((u "meta.type"), (u "repository")); ((u "meta.typeInfo"), (u "Unterbrechbarkeitrepository"))] None []); (Element (u "field") [((u "name"), (u "Wärmenutzung")); ((u "ref"), (u "CAV:1:0[1:0=Z56|1:0=Z57|1:0=Z61]")); ((u "meta.id"), (u "7111")); ((u "meta.type"), (u "repository")); ((u "meta.typeInfo"), (u "Wärmenutzungrepository"))] None [])])]); (Element (u "class") [((u "name"), (u "Steuer-/Abgabeninformation")); ((u "ref"), (u "SG8")); ((u "key"), (u "SEQ:1:0[SEQ:1:0=Z10]")); ((u "max"), (u "99999")); ((u "meta.type"), (u "group"))] (Some (u "
                        
                        
                    ")) [(Element (u "field") [((u "name"), (u "Referenz auf die OBIS-Kennzahl der Marktlokation")); ((u "ref"), (u "RFF:1:1[1:0=Z10]")); ((u "meta.id"), (u "1154"))] None []); (Element (u "class") [((u "name"), (u "Steuern-/Abgabenbefreiung")); ((u "ref"), (u "SG10"))] (Some (u "
                            
                        ")) [(Element (u "field") [((u "name"), (u "Steuern-/Abgabenbefreiung")); ((u "ref"), (u "CCI:3:0")); ((u "meta.id"), (u "7037"))] None [])])]); (Element (u "class") [((u "name"), (u "Daten der Messlokation")); ((u "ref"), (u "SG8")); ((u "key"), (u "SEQ:1:0[SEQ:1:0=Z18]")); ((u "max"), (u "99999")); ((u "meta.type"), (u "group")); ((u "groupKey"), (u "Referenz auf die ID der Marktlokation"))] (Some (u "
                        
                        
                        
                        
                    ")) [(Element (u "class") [((u "name"), (u "Spannungsebene der Messlokation")); ((u "ref"), (u "SG10")); ((u "key"), (u "CAV:1:0[CCI:3:0=E04]"))] (Some (u "
                            
                        ")) [(Element (u "field") [((u "name"), (u "Ebene")); ((u "ref"), (u "CAV:1:0[1:0=E03|1:0=E04|1:0=E05|1:0=E06]")); ((u "meta.id"), (u "7111")); ((u "meta.type"), (u "repository")); ((u "meta.typeInfo"), (u "Spannungsebenenrepository"))] None [])]); (Element (u "class") [((u "name"), (u "Gasqualität")); ((u "ref"), (u "SG10")); ((u "key"), (u "CAV:1:0[CCI:3:0=Y02]"))] (Some (u "
                            
                        ")) [(Element (u "field") [((u "name"), (u "Qualität")); ((u "ref"), (u "CAV:1:0")); ((u "meta.id"), (u "7111")); ((u "meta.type"), (u "repository")); ((u "meta.typeInfo"), (u "Gasqualitätrepository"))] None [])]); (Element (u "class") [((u "name"), (u "Verwendungsumfang")); ((u "ref"), (u "SG10")); ((u "key"), (u "CCI:3:0[CCI:1:0=Z01]"))] (Some (u "
                            
                        ")) [(Element (u "field") [((u "name"), (u "Umfang")); ((u "ref"), (u "CCI:3:0")); ((u "meta.id"), (u "7037")); ((u "meta.type"), (u "repository")); ((u "meta.typeInfo"), (u "Verwendungsumfangrepository"))] None [])]); (Element (u "class") [((u "name"), (u "Betriebszustand der Messlokation")); ((u "ref"), (u "SG10")); ((u "key"), (u "CCI:3:0[CCI:1:0=Z32]"))] (Some (u "
                            
                        ")) [(Element (u "field") [((u "name"), (u "Zustand")); ((u "ref"), (u "CCI:3:0")); ((u "meta.id"), (u "7037")); ((u "meta.type"), (u "repository")); ((u "meta.typeInfo"), (u "Betriebszustandsrepository"))] None [])])]); (Element (u "class") [((u "name"), (u "Erforderliches Messprodukt der Messlokation")); ((u "ref"), (u "SG8")); ((u "key"), (u "SEQ:1:0[SEQ:1:0=Z19]")); ((u "max"), (u "99999")); ((u "groupKey"), (u "OBIS-Kennzahl der Messlokation")); ((u "meta.objType"), (u "OBIS-Kennzahl"))] (Some (u "
                        
                        
                        
                        
                        
                    ")) [(Element (u "field") [((u "name"), (u "Referenz auf die ID einer Messlokation")); ((u "ref"), (u "RFF:1:1[1:0=Z19]")); ((u "meta.id"), (u "1154")); ((u "max"), (u "1")); ((u "meta.ref"), (u "Meldepunkt.ID"))] None []); (Element (u "class") [((u "name"), (u "Referenz auf die ID einer Marktlokation")); ((u "ref"), (u "RFF")); ((u "key"), (u "RFF:1:1[1:0=Z18]")); ((u "meta.id"), (u "1154")); ((u "max"), (u "1"))] (Some (u "
                            
                        ")) [(Element (u "field") [((u "name"), (u "Referenz")); ((u "ref"), (u "RFF:1:1[1:0=Z18]")); ((u "meta.id"), (u "1154")); ((u "max"), (u "1"))] None [])]); (Element (u "field") [((u "name"), (u "OBIS-Kennzahl der Messlokation")); ((u "ref"), (u "PIA:2:0")); ((u "meta.id"), (u "7140"))] None []); (Element (u "class") [((u "name"), (u "Weitere Beschreibung erforderliches Messprodukt")); ((u "ref"), (u "SG10")); ((u "key"), (u "CCI:3:0[CCI:1:0=Z35]"))] (Some (u "
                            
                            
                        ")) [(Element (u "field") [((u "name"), (u "Notwendigkeit zweite Messung")); ((u "ref"), (u "CAV:3:0[CAV:1:0=ZC9]")); ((u "meta.id"), (u "7037"))] None []); (Element (u "field") [((u "name"), (u "Werteübermittlung an den NB aufgrund weiterem Verwendungszweck")); ((u "ref"), (u "CAV:3:0[CAV:1:0=Z88]")); ((u "meta.id"), (u "7037"))] None [])]); (Element (u "class") [((u "name"), (u "Zugeordnete Zählzeit")); ((u "ref"), (u "SG10")); ((u "key"), (u "CCI:3:0[1:0=Z39|1:0=Z41]"))] (Some (u "
                            
                            
                        ")) [(Element (u "field") [((u "name"), (u "Art")); ((u "meta.id"), (u "7059")); ((u "ref"), (u "CCI:1:0"))] None []); (Element (u "field") [((u "name"), (u "Code")); ((u "meta.id"), (u "7037")); ((u "ref"), (u "CCI:3:0"))] None [])])]); (Element (u "class") [((u "name"), (u "OBIS-Daten der Zähleinrichtung / Mengenumwerter")); ((u "ref"), (u "SG8")); ((u "key"), (u "SEQ:1:0[SEQ:1:0=Z20]")); ((u "max"), (u "99999")); ((u "groupKey"), (u "OBIS-Kennzahl")); ((u "meta.objType"), (u "OBIS-Kennzahl"))] (Some (u "
                        
                        
                        
                        
                        
                    ")) [(Element (u "class") [((u "name"), (u "Zugeordnete Zählzeit")); ((u "ref"), (u "SG10")); ((u "key"), (u "CCI:3:0[1:0=Z39|1:0=Z41]"))] (Some (u "
                            
                            
                        ")) [(Element (u "field") [((u "name"), (u "Art")); ((u "meta.id"), (u "7059")); ((u "ref"), (u "CCI:1:0"))] None []); (Element (u "field") [((u "name"), (u "Code")); ((u "meta.id"), (u "7037")); ((u "ref"), (u "CCI:3:0"))] None [])]); (Element (u "class") [((u "name"), (u "Zugeordnetes Zählzeitregister")); ((u "ref"), (u "SG10")); ((u "key"), (u "CCI:3:0[1:0=Z38]"))] (Some (u "
                            
                        ")) [(Element (u "field") [((u "name"), (u "Code")); ((u "meta.id"), (u "7037")); ((u "ref"), (u "CCI:3:0"))] None [])]); (Element (u "class") [((u "name"), (u "Vor- und Nachkommastellen des Zählwerks")); ((u "ref"), (u "SG10")); ((u "key"), (u "CAV:1:3[CCI:3:0=Z33]"))] (Some (u "
                            
                            
                        ")) [(Element (u "field") [((u "name"), (u "Vorkommastellen")); ((u "ref"), (u "CAV:1:3")); ((u "meta.id"), (u "7110"))] None []); (Element (u "field") [((u "name"), (u "Nachkommastellen")); ((u "ref"), (u "CAV:1:4")); ((u "meta.id"), (u "7110"))] None [])]); (Element (u "field") [((u "name"), (u "Lokale Kennzeichnung zu Kontrollzwecken")); ((u "ref"), (u "CCI:3:3[3:0=Z63]")); ((u "meta.sg"), (u "SG10")); ((u "meta.id"), (u "7036"))] None []); (Element (u "field") [((u "name"), (u "Schwachlastfähigkeit")); ((u "ref"), (u "CCI:3:0[1:0=Z10]")); ((u "meta.sg"), (u "SG10")); ((u "meta.id"), (u "7037")); ((u "meta.type"), (u "repository")); ((u "meta.typeInfo"), (u "Schwachlastrepository"))] None [])]); (Element (u "class") [((u "name"), (u "Daten der Steuerbox")); ((u "ref"), (u "SG8")); ((u "key"), (u "SEQ:1:0[SEQ:1:0=Z14]")); ((u "max"), (u "99999"))] (Some (u "
                        
                        
                        

                    ")) [(Element (u "field") [((u "name"), (u "Referenz auf das Smartmeter-Gateway")); ((u "ref"), (u "RFF:1:1[1:0=Z14]")); ((u "meta.id"), (u "1154")); ((u "meta.migMatch"), (u "Z14"))] None []); (Element (u "field") [((u "name"), (u "Referenz auf die ID der Marktlokation")); ((u "ref"), (u "RFF:1:1[1:0=Z18]")); ((u "meta.id"), (u "1154"))] None []); (Element (u "class") [((u "name"), (u "Steuerbox")); ((u "ref"), (u "SG10")); ((u "key"), (u "CCI:1:0[CCI:1:0=Z76]")); ((u "meta.id"), (u "7037")); ((u "ahbName"), (u "Steuerbox")); ((u "max"), (u "1")); ((u "groupKey"), (u "Identifikation/Nummer des Gerätes"))] (Some (u "
                            
                        ")) [(Element (u "field") [((u "name"), (u "Identifikation/Nummer des Gerätes")); ((u "ref"), (u "CAV:1:(3,4)[1:0=Z76]")); ((u "meta.id"), (u "7110"))] None [])])]); (Element (u "class") [((u "name"), (u "Lastprofildaten (Gas)")); ((u "ref"), (u "SG8")); ((u "key"), (u "SEQ:1:0[SEQ:1:0=Z35]")); ((u "max"), (u "99999"))] (Some (u "
                        
                        
                    ")) [(Element (u "class") [((u "name"), (u "Lastprofil (Gas)")); ((u "ref"), (u "SG10")); ((u "key"), (u "CAV:1:0[CCI:1:0=Z12]")); ((u "max"), (u "2"))] (Some (u "
                            
                            
                            
                            
                        ")) [(Element (u "field") [((u "name"), (u "Klassentyp")); ((u "ref"), (u "CCI:1:0")); ((u "meta.id"), (u "7059"))] None []); (Element (u "field") [((u "name"), (u "Typ")); ((u "ref"), (u "CCI:3:0")); ((u "meta.id"), (u "7037"))] None []); (Element (u "field") [((u "name"), (u "Profil")); ((u "ref"), (u "CAV:1:0")); ((u "meta.id"), (u "7111"))] None []); (Element (u "field") [((u "name"), (u "Codeliste")); ((u "ref"), (u "CAV:1:2")); ((u "meta.id"), (u "3055"))] None [])]); (Element (u "class") [((u "name"), (u "Klimazone / Temperaturmessstelle")); ((u "ref"), (u "SG10")); ((u "key"), (u "CCI:3:0[1:0=Z99|1:0=ZA0]")); ((u "max"), (u "1"))] (Some (u "
                            
                            
                            
                            
                        ")) [(Element (u "field") [((u "name"), (u "Klassentyp")); ((u "ref"), (u "CCI:1:0")); ((u "meta.id"), (u "7059"))] None []); (Element (u "field") [((u "name"), (u "ID")); ((u "ref"), (u "CCI:3:0")); ((u "meta.id"), (u "7037"))] None []); (Element (u "field") [((u "name"), (u "Anbieter")); ((u "ref"), (u "CCI:3:1")); ((u "meta.id"), (u "1131"))] None []); (Element (u "field") [((u "name"), (u "Codeliste")); ((u "ref"), (u "CCI:3:2")); ((u "meta.id"), (u "3055"))] None [])])]); (Element (u "class") [((u "name"), (u "Profildaten (Strom)")); ((u "ref"), (u "SG8")); ((u "key"), (u "SEQ:1:0[SEQ:1:0=Z21]")); ((u "max"), (u "99999"))] (Some (u "
                        
                        
                        
                        
                        
                        
                    ")) [(Element (u "field") [((u "name"), (u "Versionsangabe des Profils")); ((u "ref"), (u "RFF:1:1[1:0=Z12]")); ((u "meta.id"), (u "1154"))] None []); (Element (u "field") [((u "name"), (u "Referenz auf die ID der Marktlokation")); ((u "ref"), (u "RFF:1:1[1:0=Z18]")); ((u "meta.id"), (u "1154")); ((u "meta.ref"), (u "Meldepunkt.ID"))] None []); (Element (u "field") [((u "name"), (u "Profiltyp")); ((u "ref"), (u "CCI:3:0[CCI:1:0=Z07]")); ((u "meta.id"), (u "7037"))] None []); (Element (u "class") [((u "name"), (u "Normiertes Profil (Strom)")); ((u "ref"), (u "SG10")); ((u "key"), (u "CAV:1:0[CCI:1:0=Z02|CCI:1:0=Z04]")); ((u "max"), (u "1"))] (Some (u "
                            
                            
                            
                            
                        ")) [(Element (u "field") [((u "name"), (u "Klassentyp")); ((u "ref"), (u "CCI:1:0")); ((u "meta.id"), (u "7059")); ((u "meta.type"), (u "repository")); ((u "meta.typeInfo"), (u "Profiltyprepository"))] None []); (Element (u "field") [((u "name"), (u "Typ")); ((u "ref"), (u "CCI:3:0")); ((u "meta.id"), (u "7037")); ((u "meta.type"), (u "repository")); ((u "meta.typeInfo"), (u "Profilverfahrenrepository"))] None []); (Element (u "field") [((u "name"), (u "Profil")); ((u "ref"), (u "CAV:1:0")); ((u "meta.id"), (u "7111"))] None []); (Element (u "field") [((u "name"), (u "Codeliste")); ((u "ref"), (u "CAV:1:2"))] None [])]); (Element (u "field") [((u "name"), (u "Normierungsfaktor")); ((u "ref"), (u "CCI:3:0[CCI:1:0=Z06]")); ((u "meta.id"), (u "7037"))] None []); (Element (u "class") [((u "name"), (u "Bilanzierungsgebiet")); ((u "ref"), (u "SG10")); ((u "key"), (u "CCI:3:0[1:0=Z20]"))] (Some (u "
                            
                        ")) [(Element (u "field") [((u "name"), (u "Gebiet")); ((u "ref"), (u "CCI:3:0")); ((u "meta.id"), (u "7037"))] None [])])]); (Element (u "class") [((u "name"), (u "Profildaten der beteiligten Marktrolle")); ((u "ref"), (u "SG8")); ((u "key"), (u "SEQ:1:0[SEQ:1:0=Z33]")); ((u "max"), (u "99999"))] (Some (u "
                        
                    ")) [(Element (u "class") [((u "name"), (u "Normiertes Profil (Strom)")); ((u "ref"), (u "SG10")); ((u "key"), (u "CAV:1:0[CCI:1:0=Z02|CCI:1:0=Z04]")); ((u "max"), (u "1"))] (Some (u "
                            
                            
                            
                            
                        ")) [(Element (u "field") [((u "name"), (u "Klassentyp")); ((u "ref"), (u "CCI:1:0")); ((u "meta.id"), (u "7059")); ((u "meta.type"), (u "repository")); ((u "meta.typeInfo"), (u "Profiltyprepository"))] None []); (Element (u "field") [((u "name"), (u "Typ")); ((u "ref"), (u "CCI:3:0")); ((u "meta.id"), (u "7037")); ((u "meta.type"), (u "repository")); ((u "meta.typeInfo"), (u "Profilverfahrenrepository"))] None []); (Element (u "field") [((u "name"), (u "Profil")); ((u "ref"), (u "CAV:1:0")); ((u "meta.id"), (u "7111"))] None []); (Element (u "field") [((u "name"), (u "Codeliste")); ((u "ref"), (u "CAV:1:2"))] None [])])]); (Element (u "class") [((u "name"), (u "Profilschardaten")); ((u "ref"), (u "SG8")); ((u "key"), (u "SEQ:1:0[SEQ:1:0=Z08]")); ((u "max"), (u "99999"))] (Some (u "
                        
                        
                        
                        
                        
                        
                        
                        
                        
                    ")) [(Element (u "field") [((u "name"), (u "Versionsangabe des Profils")); ((u "ref"), (u "RFF:1:1[1:0=Z12]")); ((u "meta.id"), (u "1154"))] None []); (Element (u "field") [((u "name"), (u "Referenz auf die ID der Marktlokation")); ((u "ref"), (u "RFF:1:1[1:0=Z18]")); ((u "meta.id"), (u "1154"))] None []); (Element (u "field") [((u "name"), (u "Profiltyp")); ((u "ref"), (u "CCI:3:0[CCI:1:0=Z07]")); ((u "meta.id"), (u "7037"))] None []); (Element (u "class") [((u "name"), (u "Profilschar")); ((u "ref"), (u "SG10")); ((u "key"), (u "CAV:1:0[CCI:3:0=Z12]"))] (Some (u "
                            
                        ")) [(Element (u "field") [((u "name"), (u "Schar")); ((u "ref"), (u "CAV:1:0")); ((u "meta.id"), (u "7111"))] None [])]); (Element (u "class") [((u "name"), (u "Normiertes Profil")); ((u "ref"), (u "SG10")); ((u "key"), (u "CAV:1:0[CCI:1:0=Z03]")); ((u "max"), (u "1"))] (Some (u "
                            
                            
                            
                            
                        ")) [(Element (u "field") [((u "name"), (u "Klassentyp")); ((u "ref"), (u "CCI:1:0")); ((u "meta.id"), (u "7059")); ((u "meta.type"), (u "repository")); ((u "meta.typeInfo"), (u "Profiltyprepository"))] None []); (Element (u "field") [((u "name"), (u "Typ")); ((u "ref"), (u "CCI:3:0[1:0=Z03]")); ((u "meta.id"), (u "7037")); ((u "meta.type"), (u "repository")); ((u "meta.typeInfo"), (u "Profilverfahrenrepository"))] None []); (Element (u "field") [((u "name"), (u "Profil")); ((u "ref"), (u "CAV:1:0")); ((u "meta.id"), (u "7111"))] None []); (Element (u "field") [((u "name"), (u "Codeliste")); ((u "ref"), (u "CAV:1:2"))] None [])]); (Element (u "field") [((u "name"), (u "Normierungsfaktor")); ((u "ref"), (u "CCI:3:0[CCI:1:0=Z06]")); ((u "meta.id"), (u "7037"))] None []); (Element (u "field") [((u "name"), (u "Begrenzungskonstante")); ((u "ref"), (u "CCI:3:0[CCI:1:0=Z11]")); ((u "meta.id"), (u "7037"))] None []); (Element (u "class") [((u "name"), (u "Klimazone / Temperaturmessstelle")); ((u "ref"), (u "SG10")); ((u "key"), (u "CCI:3:0[1:0=Z99|1:0=ZA0]")); ((u "max"), (u "1"))] (Some (u "
                            
                            
                            
                            
                        ")) [(Element (u "field") [((u "name"), (u "Klassentyp")); ((u "ref"), (u "CCI:1:0")); ((u "meta.id"), (u "7059"))] None []); (Element (u "field") [((u "name"), (u "ID")); ((u "ref"), (u "CCI:3:0")); ((u "meta.id"), (u "7037"))] None []); (Element (u "field") [((u "name"), (u "Anbieter")); ((u "ref"), (u "CCI:3:1")); ((u "meta.id"), (u "1131"))] None []); (Element (u "field") [((u "name"), (u "Codeliste")); ((u "ref"), (u "CCI:3:2")); ((u "meta.id"), (u "3055"))] None [])]); (Element (u "class") [((u "name"), (u "Bilanzierungsgebiet")); ((u "ref"), (u "SG10")); ((u "key"), (u "CCI:3:0[1:0=Z20]"))] (Some (u "
                            
                        ")) [(Element (u "field") [((u "name"), (u "Gebiet")); ((u "ref"), (u "CCI:3:0")); ((u "meta.id"), (u "7037"))] None [])])]); (Element (u "class") [((u "name"), (u "Profilschardaten der beteiligten Marktrolle")); ((u "ref"), (u "SG8")); ((u "key"), (u "SEQ:1:0[SEQ:1:0=Z34]")); ((u "max"), (u "99999"))] (Some (u "
                        
                        
                    ")) [(Element (u "class") [((u "name"), (u "Profilschar")); ((u "ref"), (u "SG10")); ((u "key"), (u "CAV:1:0[CCI:1:0=Z12]")); ((u "max"), (u "1"))] (Some (u "
                            
                            
                            
                            
                        ")) [(Element (u "field") [((u "name"), (u "Klassentyp")); ((u "ref"), (u "CCI:1:0")); ((u "meta.id"), (u "7059")); ((u "meta.type"), (u "repository")); ((u "meta.typeInfo"), (u "Profiltyprepository"))] None []); (Element (u "field") [((u "name"), (u "Typ")); ((u "ref"), (u "CCI:3:0")); ((u "meta.id"), (u "7037")); ((u "meta.type"), (u "repository")); ((u "meta.typeInfo"), (u "Profilverfahrenrepository"))] None []); (Element (u "field") [((u "name"), (u "Profil")); ((u "ref"), (u "CAV:1:0")); ((u "meta.id"), (u "7111"))] None []); (Element (u "field") [((u "name"), (u "Codeliste")); ((u "ref"), (u "CAV:1:2"))] None [])]); (Element (u "class") [((u "name"), (u "Klimazone / Temperaturmessstelle / Referenzmessung")); ((u "ref"), (u "SG10")); ((u "key"), (u "CCI:3:0[1:0=Z99|1:0=ZA0]")); ((u "max"), (u "1"))] (Some (u "
                            
                            
                            
                            
                        ")) [(Element (u "field") [((u "name"), (u "Klassentyp")); ((u "ref"), (u "CCI:1:0")); ((u "meta.id"), (u "7059"))] None []); (Element (u "field") [((u "name"), (u "ID")); ((u "ref"), (u "CCI:3:0")); ((u "meta.id"), (u "7037"))] None []); (Element (u "field") [((u "name"), (u "Anbieter")); ((u "ref"), (u "CCI:3:1")); ((u "meta.id"), (u "1131"))] None []); (Element (u "field") [((u "name"), (u "Codeliste")); ((u "ref"), (u "CCI:3:2")); ((u "meta.id"), (u "3055"))] None [])])]); (Element (u "class") [((u "name"), (u "Daten der Summenzeitreihe")); ((u "ref"), (u "SG8")); ((u "key"), (u "SEQ:1:0[SEQ:1:0=Z22]")); ((u "max"), (u "99999"))] (Some (u "
                        
                        
                        
                        
                        
                        
                        
                        
                    ")) [(Element (u "field") [((u "name"), (u "Referenz auf die ID der Summenzeitreihe")); ((u "ref"), (u "RFF:1:1[1:0=AVE]")); ((u "meta.id"), (u "1154"))] None []); (Element (u "field") [((u "name"), (u "Versionsangabe der Summenzeitreihe")); ((u "ref"), (u "RFF:1:1[1:0=AUU]")); ((u "meta.id"), (u "1154"))] None []); (Element (u "class") [((u "name"), (u "Bezeichnung der Summenzeitreihe")); ((u "ref"), (u "SG10")); ((u "key"), (u "CAV:1:3[CCI:3:0=ZB4]"))] (Some (u "
                            
                        ")) [(Element (u "field") [((u "name"), (u "Bezeichnung")); ((u "ref"), (u "CAV:1:3")); ((u "meta.id"), (u "7110"))] None [])]); (Element (u "field") [((u "name"), (u "Verantwortliche Marktrolle für Summenzeitreihe")); ((u "ref"), (u "CCI:3:0[CCI:1:0=6]")); ((u "meta.id"), (u "7037"))] None []); (Element (u "class") [((u "name"), (u "Regelzone")); ((u "ref"), (u "SG10")); ((u "key"), (u "CCI:3:0[1:0=Z18]"))] (Some (u "
                            
                        ")) [(Element (u "field") [((u "name"), (u "Zone")); ((u "ref"), (u "CCI:3:0")); ((u "meta.id"), (u "7037"))] None [])]); (Element (u "class") [((u "name"), (u "Bilanzierungsgebiet")); ((u "ref"), (u "SG10")); ((u "key"), (u "CCI:3:0[1:0=Z20]"))] (Some (u "
                            
                        ")) [(Element (u "field") [((u "name"), (u "Gebiet")); ((u "ref"), (u "CCI:3:0")); ((u "meta.id"), (u "7037"))] None [])]); (Element (u "class") [((u "name"), (u "Bilanzkreis")); ((u "ref"), (u "SG10")); ((u "key"), (u "CCI:3:0[1:0=Z19]"))] (Some (u "
                            
                            
                        ")) [(Element (u "field") [((u "name"), (u "ID")); ((u "ref"), (u "CCI:3:0")); ((u "meta.id"), (u "7037"))] None []); (Element (u "field") [((u "name"), (u "Priorität")); ((u "ref"), (u "CAV:1:0")); ((u "meta.id"), (u "7111"))] None [])]); (Element (u "class") [((u "name"), (u "Daten der EEG-Überführungszeitreihe")); ((u "ref"), (u "SG8")); ((u "key"), (u "SEQ:1:0[SEQ:1:0=Z24]")); ((u "max"), (u "99999"))] (Some (u "
                            
                            
                            
                            
                            
                        ")) [(Element (u "field") [((u "name"), (u "Versionsangabe der Zeitreihe")); ((u "ref"), (u "RFF:1:1[1:0=AUU]")); ((u "meta.id"), (u "1154"))] None []); (Element (u "class") [((u "name"), (u "EEG-Überführungszeitreihentyp")); ((u "ref"), (u "SG10")); ((u "key"), (u "CAV:1:0[CCI:3:0=Z21]")); ((u "max"), (u "3"))] (Some (u "
                                
                            ")) [(Element (u "field") [((u "name"), (u "Code")); ((u "ref"), (u "CAV:1:0")); ((u "meta.id"), (u "7111"))] None [])]); (Element (u "class") [((u "name"), (u "Bilanzkreis-an")); ((u "ref"), (u "SG10")); ((u "key"), (u "CCI:3:0[1:0=Z28]"))] (Some (u "
                                
                                
                            ")) [(Element (u "field") [((u "name"), (u "ID")); ((u "ref"), (u "CCI:3:0")); ((u "meta.id"), (u "7037"))] None []); (Element (u "field") [((u "name"), (u "Priorität")); ((u "ref"), (u "CAV:1:0")); ((u "meta.id"), (u "7111"))] None [])]); (Element (u "class") [((u "name"), (u "Bilanzkreis-von")); ((u "ref"), (u "SG10")); ((u "key"), (u "CCI:3:0[1:0=Z29]"))] (Some (u "
                                
                                
                            ")) [(Element (u "field") [((u "name"), (u "ID")); ((u "ref"), (u "CCI:3:0")); ((u "meta.id"), (u "7037"))] None []); (Element (u "field") [((u "name"), (u "Priorität")); ((u "ref"), (u "CAV:1:0")); ((u "meta.id"), (u "7111"))] None [])]); (Element (u "class") [((u "name"), (u "Bilanzierungsgebiet")); ((u "ref"), (u "SG10")); ((u "key"), (u "CCI:3:0[1:0=Z20]"))] (Some (u "
                                
                            ")) [(Element (u "field") [((u "name"), (u "Gebiet")); ((u "ref"), (u "CCI:3:0")); ((u "meta.id"), (u "7037"))] None [])])])])])])])])]).
Proof. vm_compute. repeat split; reflexivity. Qed.
(** tests/unit_tests/migs/FV2210/template_xmls/utilmd_7037_z02.xml, line by line *)
Definition file_FV2210_utilmd_7037_z02 : list N := removelast (flat_map (fun l => bytes_of l ++ [10%N]) ["<?xml version=""1.0"" ?>"; "<UTILMD>"; "    <class name=""Dokument"" ref=""/"" key=""UNB:5:0"">"; "        <class name=""Nachricht"" ref=""UNH"" key=""UNH:1:0"" max=""9999"" meta.type=""group"">"; "            <class name=""Vorgang"" ref=""SG4"" key=""IDE:2:0"" max=""99999"" meta.type=""group"" groupKey=""Vorgangsnummer"">"; "                <class name=""Daten der Marktlokation der beteiligten Marktrolle"" ref=""SG8"" key=""SEQ:1:0[SEQ:1:0=Z29]"" max=""99999"" meta.type=""group"" groupKey=""Referenz auf die ID der Marktlokation"">"; "                    <class name=""OBIS-Daten der Marktlokation"" ref=""SG8"" key=""SEQ:1:0[SEQ:1:0=Z02]"" max=""99999"" groupKey=""OBIS-Kennzahl der Marktlokation"" meta.objType=""OBIS-Kennzahl"">"; "                        <field name=""Referenz auf die ID der Marktlokation"" ref=""RFF:1:1[1:0=Z18]"" meta.id=""1154"" max=""1"" meta.ref=""Meldepunkt.ID""/>"; "                        <field name=""OBIS-Kennzahl der Marktlokation"" ref=""PIA:2:0"" meta.id=""7140""/>"; "                        <class name=""Wertegranularität"" ref=""SG10"" key=""CAV:1:0[CCI:3:0=ZE4]"">"; "                            <field name=""Granularität"" meta.id=""7111"" ref=""CAV:1:0""/>"; "                        </class>"; "                        <class name=""Zugeordnete Zählzeit"" ref=""SG10"" key=""CCI:3:0[1:0=Z39|1:0=Z41]"">"; "                            <field name=""Art"" meta.id=""7059"" ref=""CCI:1:0""/>"; "                            <field name=""Code"" meta.id=""7037"" ref=""CCI:3:0""/>"; "                        </class>"; "                        <field name=""Schwachlastfähigkeit"" ref=""CCI:3:0[1:0=Z10]"" meta.sg=""SG10"" meta.id=""7037"" meta.type=""repository"" meta.typeInfo=""Schwachlastrepository""/>"; "                        <class name=""Zugeordnetes Zählzeitregister"" ref=""SG10"" key=""CCI:3:0[1:0=Z38]"">"; "                            <field name=""Code"" meta.id=""7037"" ref=""CCI:3:0""/>"; "                        </class>"; "                        <class name=""OBIS Daten für Marktrolle relevant"" ref=""SG10"" key=""CCI:3:0[3:0=ZA7|3:0=ZA8|3:0=ZA9]"" max=""3"" groupKey=""Marktrolle"">"; "                            <field name=""Marktrolle"" ref=""CCI:3:0"" meta.id=""7037"" meta.type=""repository"" meta.typeInfo=""Marktrollenrepository""/>"; "                            <class name=""Verwendungszweck der Werte"" ref=""SG10"" key=""CAV:1:0"" max=""4"" groupKey=""Zweck"">"; "                                <field name=""Zweck"" ref=""CAV:1:0"" meta.id=""7111"" meta.type=""repository"" meta.typeInfo=""Verwendungszweckrepository""/>"; "                            </class>"; "                        </class>"; "                        <class name=""Verbrauchsart und Nutzung an der Marktlokation"" ref=""SG10"" key=""CAV:1:0[CCI:1:0=Z17]"">"; "                            <field name=""Verbrauchsart"" ref=""CAV:1:0[1:0=Z64|1:0=Z65|1:0=Z66|1:0=Z87|1:0=ZA8|1:0=ZB3]"" meta.id=""7111"" meta.type=""repository"" meta.typeInfo=""Verbrauchsartrepository""/>"; "                            <field name=""Unterbrechbarkeit"" ref=""CAV:1:0[1:0=Z62|1:0=Z63]"" meta.id=""7111"" meta.type=""repository"" meta.typeInfo=""Unterbrechbarkeitrepository""/>"; "                            <field name=""Wärmenutzung"" ref=""CAV:1:0[1:0=Z56|1:0=Z57|1:0=Z61]"" meta.id=""7111"" meta.type=""repository"" meta.typeInfo=""Wärmenutzungrepository""/>"; "                        </class>"; "                    </class>"; "                    <class name=""Profildaten (Strom)"" ref=""SG8"" key=""SEQ:1:0[SEQ:1:0=Z21]"" max=""99999"">"; "                        <field name=""Versionsangabe des Profils"" ref=""RFF:1:1[1:0=Z12]"" meta.id=""1154""/>"; "                        <field name=""Referenz auf die ID der Marktlokation"" ref=""RFF:1:1[1:0=Z18]"" meta.id=""1154"" meta.ref=""Meldepunkt.ID""/>"; "                        <field name=""Profiltyp"" ref=""CCI:3:0[CCI:1:0=Z07]"" meta.id=""7037""/>"; "                        <class name=""Normiertes Profil (Strom)"" ref=""SG10"" key=""CAV:1:0[CCI:1:0=Z02|CCI:1:0=Z04]"" max=""1"">"; "                            <field name=""Klassentyp"" ref=""CCI:1:0"" meta.id=""7059"" meta.type=""repository"" meta.typeInfo=""Profiltyprepository""/>"; "                            <field name=""Typ"" ref=""CCI:3:0"" meta.id=""7037"" meta.type=""repository"" meta.typeInfo=""Profilverfahrenrepository""/>"; "                            <field name=""Profil"" ref=""CAV:1:0"" meta.id=""7111""/>"; "                            <field name=""Codeliste"" ref=""CAV:1:2""/>"; "                        </class>"; "                        <field name=""Normierungsfaktor"" ref=""CCI:3:0[CCI:1:0=Z06]"" meta.id=""7037""/>"; "                        <class name=""Bilanzierungsgebiet"" ref=""SG10"" key=""CCI:3:0[1:0=Z20]"">"; "                            <field name=""Gebiet"" ref=""CCI:3:0"" meta.id=""7037""/>"; "                        </class>"; "                    </class>"; "                    <class name=""Profildaten der beteiligten Marktrolle"" ref=""SG8"" key=""SEQ:1:0[SEQ:1:0=Z33]"" max=""99999"">"; "                        <class name=""Normiertes Profil (Strom)"" ref=""SG10"" key=""CAV:1:0[CCI:1:0=Z02|CCI:1:0=Z04]"" max=""1"">"; "                            <field name=""Klassentyp"" ref=""CCI:1:0"" meta.id=""7059"" meta.type=""repository"" meta.typeInfo=""Profiltyprepository""/>"; "                            <field name=""Typ"" ref=""CCI:3:0"" meta.id=""7037"" meta.type=""repository"" meta.typeInfo=""Profilverfahrenrepository""/>"; "                            <field name=""Profil"" ref=""CAV:1:0"" meta.id=""7111""/>"; "                            <field name=""Codeliste"" ref=""CAV:1:2""/>"; "                        </class>"; "                    </class>"; "                </class>"; "            </class>"; "        </class>"; "    </class>"; "</UTILMD>"; ""]%string).
(** tests/unit_tests/test_mig_xml_reader_real_data.py:33 *)
Example test_is_parsable_27 :
  check_file_can_be_parsed_as_mig_xml no_high no_high any_declaration no_doctype (fun _ => Raise XMLSyntaxError) (fun _ => false) (fun _ => false) decode_utf8 formats (Some file_FV2210_utilmd_7037_z02) = Ok tt.
Proof. vm_compute. repeat split; reflexivity. Qed.
(** tests/unit_tests/test_mig_xml_reader_real_data.py:33 *)
Example test_is_parsable_28 :
  document file_FV2210_utilmd_7037_z02 = Ok (Element (u "UTILMD") [] (Some (u "
    
")) [(Element (u "class") [((u "name"), (u "Dokument")); ((u "ref"), (u "/")); ((u "key"), (u "UNB:5:0"))] (Some (u "
        
    ")) [(Element (u "class") [((u "name"), (u "Nachricht")); ((u "ref"), (u "UNH")); ((u "key"), (u "UNH:1:0")); ((u "max"), (u "9999")); ((u "meta.type"), (u "group"))] (Some (u "
            
        ")) [(Element (u "class") [((u "name"), (u "Vorgang")); ((u "ref"), (u "SG4")); ((u "key"), (u "IDE:2:0")); ((u "max"), (u "99999")); ((u "meta.type"), (u "group")); ((u "groupKey"), (u "Vorgangsnummer"))] (Some (u "
                
            ")) [(Element (u "class") [((u "name"), (u "Daten der Marktlokation der beteiligten Marktrolle")); ((u "ref"), (u "SG8")); ((u "key"), (u "SEQ:1:0[SEQ:1:0=Z29]")); ((u "max"), (u "99999")); ((u "meta.type"), (u "group")); ((u "groupKey"), (u "Referenz auf die ID der Marktlokation"))] (Some (u "
                    
                    
                    
                ")) [(Element (u "class") [((u "name"), (u "OBIS-Daten der Marktlokation")); ((u "ref"), (u "SG8")); ((u "key"), (u "SEQ:1:0[SEQ:1:0=Z02]")); ((u "max"), (u "99999")); ((u "groupKey"), (u "OBIS-Kennzahl der Marktlokation")); ((u "meta.objType"), (u "OBIS-Kennzahl"))] (Some (u "
                        
                        
                        
                        
                        
                        
                        
                        
                    ")) [(Element (u "field") [((u "name"), (u "Referenz auf die ID der Marktlokation")); ((u "ref"), (u "RFF:1:1[1:0=Z18]")); ((u "meta.id"), (u "1154")); ((u "max"), (u "1")); ((u "meta.ref"), (u "Meldepunkt.ID"))] None []); (Element (u "field") [((u "name"), (u "OBIS-Kennzahl der Marktlokation")); ((u "ref"), (u "PIA:2:0")); ((u "meta.id"), (u "7140"))] None []); (Element (u "class") [((u "name"), (u "Wertegranularität")); ((u "ref"), (u "SG10")); ((u "key"), (u "CAV:1:0[CCI:3:0=ZE4]"))] (Some (u "
                            
                        ")) [(Element (u "field") [((u "name"), (u "Granularität")); ((u "meta.id"), (u "7111")); ((u "ref"), (u "CAV:1:0"))] None [])]); (Element (u "class") [((u "name"), (u "Zugeordnete Zählzeit")); ((u "ref"), (u "SG10")); ((u "key"), (u "CCI:3:0[1:0=Z39|1:0=Z41]"))] (Some (u "
                            
                            
                        ")) [(Element (u "field") [((u "name"), (u "Art")); ((u "meta.id"), (u "7059")); ((u "ref"), (u "CCI:1:0"))] None []); (Element (u "field") [((u "name"), (u "Code")); ((u "meta.id"), (u "7037")); ((u "ref"), (u "CCI:3:0"))] None [])]); (Element (u "field") [((u "name"), (u "Schwachlastfähigkeit")); ((u "ref"), (u "CCI:3:0[1:0=Z10]")); ((u "meta.sg"), (u "SG10")); ((u "meta.id"), (u "7037")); ((u "meta.type"), (u "repository")); ((u "meta.typeInfo"), (u "Schwachlastrepository"))] None []); (Element (u "class") [((u "name"), (u "Zugeordnetes Zählzeitregister")); ((u "ref"), (u "SG10")); ((u "key"), (u "CCI:3:0[1:0=Z38]"))] (Some (u "
                            
                        ")) [(Element (u "field") [((u "name"), (u "Code")); ((u "meta.id"), (u "7037")); ((u "ref"), (u "CCI:3:0"))] None [])]); (Element (u "class") [((u "name"), (u "OBIS Daten für Marktrolle relevant")); ((u "ref"), (u "SG10")); ((u "key"), (u "CCI:3:0[3:0=ZA7|3:0=ZA8|3:0=ZA9]")); ((u "max"), (u "3")); ((u "groupKey"), (u "Marktrolle"))] (Some (u "
                            
                            
                        ")) [(Element (u "field") [((u "name"), (u "Marktrolle")); ((u "ref"), (u "CCI:3:0")); ((u "meta.id"), (u "7037")); ((u "meta.type"), (u "repository")); ((u "meta.typeInfo"), (u "Marktrollenrepository"))] None []); (Element (u "class") [((u "name"), (u "Verwendungszweck der Werte")); ((u "ref"), (u "SG10")); ((u "key"), (u "CAV:1:0")); ((u "max"), (u "4")); ((u "groupKey"), (u "Zweck"))] (Some (u "
                                
                            ")) [(Element (u "field") [((u "name"), (u "Zweck")); ((u "ref"), (u "CAV:1:0")); ((u "meta.id"), (u "7111")); ((u "meta.type"), (u "repository")); ((u "meta.typeInfo"), (u "Verwendungszweckrepository"))] None [])])]); (Element (u "class") [((u "name"), (u "Verbrauchsart und Nutzung an der Marktlokation")); ((u "ref"), (u "SG10")); ((u "key"), (u "CAV:1:0[CCI:1:0=Z17]"))] (Some (u "
                            
                            
                            
                        ")) [(Element (u "field") [((u "name"), (u "Verbrauchsart")); ((u "ref"), (u "CAV:1:0[1:0=Z64|1:0=Z65|1:0=Z66|1:0=Z87|1:0=ZA8|1:0=ZB3]")); ((u "meta.id"), (u "7111")); ((u "meta.type"), (u "repository")); ((u "meta.typeInfo"), (u "Verbrauchsartrepository"))] None []); (Element (u "field") [((u "name"), (u "Unterbrechbarkeit")); ((u "ref"), (u "CAV:1:0[1:0=Z62|1:0=Z63]")); ((u "meta.id"), (u "7111")); ((u "meta.type"), (u "repository")); ((u "meta.typeInfo"), (u "Unterbrechbarkeitrepository"))] None []); (Element (u "field") [((u "name"), (u "Wärmenutzung")); ((u "ref"), (u "CAV:1:0[1:0=Z56|1:0=Z57|1:0=Z61]")); ((u "meta.id"), (u "7111")); ((u "meta.type"), (u "repository")); ((u "meta.typeInfo"), (u "Wärmenutzungrepository"))] None [])])]); (Element (u "class") [((u "name"), (u "Profildaten (Strom)")); ((u "ref"), (u "SG8")); ((u "key"), (u "SEQ:1:0[SEQ:1:0=Z21]")); ((u "max"), (u "99999"))] (Some (u "
                        
                        
                        
                        
                        
                        
                    ")) [(Element (u "field") [((u "name"), (u "Versionsangabe des Profils")); ((u "ref"), (u "RFF:1:1[1:0=Z12]")); ((u "meta.id"), (u "1154"))] None []); (Element (u "field") [((u "name"), (u "Referenz auf die ID der Marktlokation")); ((u "ref"), (u "RFF:1:1[1:0=Z18]")); ((u "meta.id"), (u "1154")); ((u "meta.ref"), (u "Meldepunkt.ID"))] None []); (Element (u "field") [((u "name"), (u "Profiltyp")); ((u "ref"), (u "CCI:3:0[CCI:1:0=Z07]")); ((u "meta.id"), (u "7037"))] None []); (Element (u "class") [((u "name"), (u "Normiertes Profil (Strom)")); ((u "ref"), (u "SG10")); ((u "key"), (u "CAV:1:0[CCI:1:0=Z02|CCI:1:0=Z04]")); ((u "max"), (u "1"))] (Some (u "
                            
                            
                            
                            
                        ")) [(Element (u "field") [((u "name"), (u "Klassentyp")); ((u "ref"), (u "CCI:1:0")); ((u "meta.id"), (u "7059")); ((u "meta.type"), (u "repository")); ((u "meta.typeInfo"), (u "Profiltyprepository"))] None []); (Element (u "field") [((u "name"), (u "Typ")); ((u "ref"), (u "CCI:3:0")); ((u "meta.id"), (u "7037")); ((u "meta.type"), (u "repository")); ((u "meta.typeInfo"), (u "Profilverfahrenrepository"))] None []); (Element (u "field") [((u "name"), (u "Profil")); ((u "ref"), (u "CAV:1:0")); ((u "meta.id"), (u "7111"))] None []); (Element (u "field") [((u "name"), (u "Codeliste")); ((u "ref"), (u "CAV:1:2"))] None [])]); (Element (u "field") [((u "name"), (u "Normierungsfaktor")); ((u "ref"), (u "CCI:3:0[CCI:1:0=Z06]")); ((u "meta.id"), (u "7037"))] None []); (Element (u "class") [((u "name"), (u "Bilanzierungsgebiet")); ((u "ref"), (u "SG10")); ((u "key"), (u "CCI:3:0[1:0=Z20]"))] (Some (u "
                            
                        ")) [(Element (u "field") [((u "name"), (u "Gebiet")); ((u "ref"), (u "CCI:3:0")); ((u "meta.id"), (u "7037"))] None [])])]); (Element (u "class") [((u "name"), (u "Profildaten der beteiligten Marktrolle")); ((u "ref"), (u "SG8")); ((u "key"), (u "SEQ:1:0[SEQ:1:0=Z33]")); ((u "max"), (u "99999"))] (Some (u "
                        
                    ")) [(Element (u "class") [((u "name"), (u "Normiertes Profil (Strom)")); ((u "ref"), (u "SG10")); ((u "key"), (u "CAV:1:0[CCI:1:0=Z02|CCI:1:0=Z04]")); ((u "max"), (u "1"))] (Some (u "
                            
                            
                            
                            
                        ")) [(Element (u "field") [((u "name"), (u "Klassentyp")); ((u "ref"), (u "CCI:1:0")); ((u "meta.id"), (u "7059")); ((u "meta.type"), (u "repository")); ((u "meta.typeInfo"), (u "Profiltyprepository"))] None []); (Element (u "field") [((u "name"), (u "Typ")); ((u "ref"), (u "CCI:3:0")); ((u "meta.id"), (u "7037")); ((u "meta.type"), (u "repository")); ((u "meta.typeInfo"), (u "Profilverfahrenrepository"))] None []); (Element (u "field") [((u "name"), (u "Profil")); ((u "ref"), (u "CAV:1:0")); ((u "meta.id"), (u "7111"))] None []); (Element (u "field") [((u "name"), (u "Codeliste")); ((u "ref"), (u "CAV:1:2"))] None [])])])])])])])]).
Proof. vm_compute. repeat split; reflexivity. Qed.
(** tests/unit_tests/migs/FV2210/template_xmls/utilmd_7059.xml, line by line *)
Definition file_FV2210_utilmd_7059 : list N := removelast (flat_map (fun l => bytes_of l ++ [10%N]) ["<?xml version=""1.0"" ?>"; "<UTILMD>"; "    <class name=""Dokument"" ref=""/"" key=""UNB:5:0"">"; "        <class name=""Nachricht"" ref=""UNH"" key=""UNH:1:0"" max=""9999"" meta.type=""group"">"; "            <class name=""Vorgang"" ref=""SG4"" key=""IDE:2:0"" max=""99999"" meta.type=""group"" groupKey=""Vorgangsnummer"">"; "                <class name=""Erforderliches Messprodukt der Marktlokation"" ref=""SG8"" key=""SEQ:1:0[SEQ:1:0=Z27]"" max=""99999"" groupKey=""OBIS-Kennzahl der Marktlokation"" meta.objType=""OBIS-Kennzahl"">"; "                    <field name=""Referenz auf die ID der Marktlokation"" ref=""RFF:1:1[1:0=Z18]"" meta.id=""1154"" max=""1"" meta.ref=""Meldepunkt.ID""/>"; "                    <field name=""OBIS-Kennzahl der Marktlokation"" ref=""PIA:2:0"" meta.id=""7140""/>"; "                    <class name=""Zugeordnete Zählzeit"" ref=""SG10"" key=""CCI:3:0[1:0=Z39|1:0=Z41]"">"; "                        <field name=""Art"" meta.id=""7059"" ref=""CCI:1:0""/>"; "                        <field name=""Code"" meta.id=""7037"" ref=""CCI:3:0""/>"; "                    </class>"; "                    <class name=""Zugeordnetes Zählzeitregister"" ref=""SG10"" key=""CCI:3:0[1:0=Z38]"">"; "                        <field name=""Art"" meta.id=""7059"" ref=""CCI:1:0""/>"; "                        <field name=""Code"" meta.id=""7037"" ref=""CCI:3:0""/>"; "                    </class>"; "                </class>"; "                <class name=""OBIS-Daten der Marktlokation"" ref=""SG8"" key=""SEQ:1:0[SEQ:1:0=Z02]"" max=""99999"" groupKey=""OBIS-Kennzahl der Marktlokation"" meta.objType=""OBIS-Kennzahl"">"; "                    <field name=""Referenz auf die ID der Marktlokation"" ref=""RFF:1:1[1:0=Z18]"" meta.id=""1154"" max=""1"" meta.ref=""Meldepunkt.ID""/>"; "                    <field name=""OBIS-Kennzahl der Marktlokation"" ref=""PIA:2:0"" meta.id=""7140""/>"; "                    <class name=""Wertegranularität"" ref=""SG10"" key=""CAV:1:0[CCI:3:0=ZE4]"">"; "                        <field name=""Granularität"" meta.id=""7111"" ref=""CAV:1:0""/>"; "                    </class>"; "                    <class name=""Zugeordnete Zählzeit"" ref=""SG10"" key=""CCI:3:0[1:0=Z39|1:0=Z41]"">"; "                        <field name=""Art"" meta.id=""7059"" ref=""CCI:1:0""/>"; "                        <field name=""Code"" meta.id=""7037"" ref=""CCI:3:0""/>"; "                    </class>"; "                </class>"; "                <class name=""Steuer-/Abgabeninformation"" ref=""SG8"" key=""SEQ:1:0[SEQ:1:0=Z10]"" max=""99999"" meta.type=""group"">"; "                    <field name=""Referenz auf die OBIS-Kennzahl der Marktlokation"" ref=""RFF:1:1[1:0=Z10]"" meta.id=""1154""/>"; "                    <class name=""Steuern-/Abgabenbefreiung"" ref=""SG10"">"; "                        <field name=""Steuern-/Abgabenbefreiung"" ref=""CCI:3:0"" meta.id=""7037""/>"; "                    </class>"; "                </class>"; "                <class name=""Gemeinderabatt"" ref=""SG8"" key=""SEQ:1:0[SEQ:1:0=Z12]"">"; "                    <class name=""Rabatt"" ahbName=""Gemeinderabatt"" ref=""SG9"">"; "                        <field name=""Rabatt"" ref=""QTY:1:1[1:0=Z16]"" meta.id=""6060""/>"; "                    </class>"; "                </class>"; "                <class name=""Erforderliches Messprodukt der Messlokation"" ref=""SG8"" key=""SEQ:1:0[SEQ:1:0=Z19]"" max=""99999"" groupKey=""OBIS-Kennzahl der Messlokation"" meta.objType=""OBIS-Kennzahl"">"; "                    <field name=""Referenz auf die ID einer Messlokation"" ref=""RFF:1:1[1:0=Z19]"" meta.id=""1154"" max=""1"" meta.ref=""Meldepunkt.ID""/>"; "                    <class name=""Referenz auf die ID einer Marktlokation"" ref=""RFF"" key=""RFF:1:1[1:0=Z18]"" meta.id=""1154"" max=""1"">"; "                        <field name=""Referenz"" ref=""RFF:1:1[1:0=Z18]"" meta.id=""1154"" max=""1""/>"; "                    </class>"; "                    <field name=""OBIS-Kennzahl der Messlokation"" ref=""PIA:2:0"" meta.id=""7140""/>"; "                    <class name=""Weitere Beschreibung erforderliches Messprodukt"" ref=""SG10"" key=""CCI:3:0[CCI:1:0=Z35]"">"; "                        <field name=""Notwendigkeit zweite Messung"" ref=""CAV:3:0[CAV:1:0=ZC9]"" meta.id=""7037""/>"; "                        <field name=""Werteübermittlung an den NB aufgrund weiterem Verwendungszweck"" ref=""CAV:3:0[CAV:1:0=Z88]"" meta.id=""7037""/>"; "                    </class>"; "                    <class name=""Zugeordnete Zählzeit"" ref=""SG10"" key=""CCI:3:0[1:0=Z39|1:0=Z41]"">"; "                        <field name=""Art"" meta.id=""7059"" ref=""CCI:1:0""/>"; "                        <field name=""Code"" meta.id=""7037"" ref=""CCI:3:0""/>"; "                    </class>"; "                </class>"; "                <class name=""OBIS-Daten der Zähleinrichtung / Mengenumwerter"" ref=""SG8"" key=""SEQ:1:0[SEQ:1:0=Z20]"" max=""99999"" groupKey=""OBIS-Kennzahl"" meta.objType=""OBIS-Kennzahl"">"; "                    <class name=""Referenz auf die Gerätenummer"" ref=""RFF"" key=""RFF:1:0[1:0=MG|1:0=Z11|1:0=Z14]"">"; "                        <field name=""Qualifier"" ref=""RFF:1:0[1:0=MG|1:0=Z11|1:0=Z14]"" meta.id=""1153"" meta.type=""repository"" meta.typeInfo=""GerätenummerTyprepository""/>"; "                        <field name=""Nummer"" ref=""RFF:1:1[1:0=MG|1:0=Z11|1:0=Z14]"" meta.id=""1154"" meta.ref=""Zählertyp.Identifikation/Nummer des Gerätes""/>"; "                    </class>"; "                    <field name=""Referenz auf die ID einer Messlokation"" ref=""RFF:1:1[1:0=Z19]"" meta.id=""1154"" max=""1"" meta.ref=""Meldepunkt.ID""/>"; "                    <class name=""Referenz auf die ID einer Marktlokation"" ref=""RFF"" key=""RFF:1:1[1:0=Z18]"" meta.id=""1154"" max=""9"">"; "                        <field name=""Referenz"" ref=""RFF:1:1[1:0=Z18]"" meta.id=""1154"" max=""1""/>"; "                    </class>"; "                    <field name=""Konfigurations-ID"" ref=""RFF:1:1[1:0=AGK]"" meta.id=""1154""/>"; "                    <field name=""OBIS-Kennzahl der Zähleinrichtung /Mengenumwerter"" ref=""PIA:2:0"" meta.id=""7140""/>"; "                    <class name=""Wertegranularität"" ref=""SG10"" key=""CAV:1:0[CCI:3:0=ZE4]"">"; "                        <field name=""Granularität"" meta.id=""7111"" ref=""CAV:1:0""/>"; "                    </class>"; "                    <class name=""Zugeordnete Zählzeit"" ref=""SG10"" key=""CCI:3:0[1:0=Z39|1:0=Z41]"">"; "                        <field name=""Art"" meta.id=""7059"" ref=""CCI:1:0""/>"; "                        <field name=""Code"" meta.id=""7037"" ref=""CCI:3:0""/>"; "                    </class>"; "                </class>"; "                <class name=""Lastprofildaten (Gas)"" ref=""SG8"" key=""SEQ:1:0[SEQ:1:0=Z35]"" max=""99999"">"; "                    <class name=""Lastprofil (Gas)"" ref=""SG10"" key=""CAV:1:0[CCI:1:0=Z12]"" max=""2"">"; "                        <field name=""Klassentyp"" ref=""CCI:1:0"" meta.id=""7059""/>"; "                        <field name=""Typ"" ref=""CCI:3:0"" meta.id=""7037""/>"; "                        <field name=""Profil"" ref=""CAV:1:0"" meta.id=""7111""/>"; "                        <field name=""Codeliste"" ref=""CAV:1:2"" meta.id=""3055""/>"; "                    </class>"; "                    <class name=""Klimazone / Temperaturmessstelle"" ref=""SG10"" key=""CCI:3:0[1:0=Z99|1:0=ZA0]"" max=""1"">"; "                        <field name=""Klassentyp"" ref=""CCI:1:0"" meta.id=""7059""/>"; "                        <field name=""ID"" ref=""CCI:3:0"" meta.id=""7037""/>"; "                        <field name=""Anbieter"" ref=""CCI:3:1"" meta.id=""1131""/>"; "                        <field name=""Codeliste"" ref=""CCI:3:2"" meta.id=""3055""/>"; "                    </class>"; "                </class>"; "                <class name=""Profildaten (Strom)"" ref=""SG8"" key=""SEQ:1:0[SEQ:1:0=Z21]"" max=""99999"">"; "                    <field name=""Versionsangabe des Profils"" ref=""RFF:1:1[1:0=Z12]"" meta.id=""1154""/>"; "                    <field name=""Referenz auf die ID der Marktlokation"" ref=""RFF:1:1[1:0=Z18]"" meta.id=""1154"" meta.ref=""Meldepunkt.ID""/>"; "                    <field name=""Profiltyp"" ref=""CCI:3:0[CCI:1:0=Z07]"" meta.id=""7037""/>"; "                    <class name=""Normiertes Profil (Strom)"" ref=""SG10"" key=""CAV:1:0[CCI:1:0=Z02|CCI:1:0=Z04]"" max=""1"" ahbName=""Normiertes Profil (Strom)"">"; "                        <field name=""Klassentyp"" ref=""CCI:1:0"" meta.id=""7059"" meta.type=""repository"" meta.typeInfo=""Profiltyprepository""/>"; "                        <field name=""Typ"" ref=""CCI:3:0"" meta.id=""7037"" meta.type=""repository"" meta.typeInfo=""Profilverfahrenrepository""/>"; "                        <field name=""Profil"" ref=""CAV:1:0"" meta.id=""7111""/>"; "                        <field name=""Codeliste"" ref=""CAV:1:2""/>"; "                    </class>"; "                    <field name=""Normierungsfaktor"" ref=""CCI:3:0[CCI:1:0=Z06]"" meta.id=""7037""/>"; "                    <class name=""Bilanzierungsgebiet"" ref=""SG10"" key=""CCI:3:0[1:0=Z20]"">"; "                        <field name=""Gebiet"" ref=""CCI:3:0"" meta.id=""7037""/>"; "                    </class>"; "                </class>"; "                <class name=""Profildaten der beteiligten Marktrolle"" ref=""SG8"" key=""SEQ:1:0[SEQ:1:0=Z33]"" max=""99999"">"; "                    <class name=""Normiertes Profil (Strom)"" ref=""SG10"" key=""CAV:1:0[CCI:1:0=Z02|CCI:1:0=Z04]"" max=""1"" ahbName=""Normiertes Profil (Strom)"">"; "                        <field name=""Klassentyp"" ref=""CCI:1:0"" meta.id=""7059"" meta.type=""repository"" meta.typeInfo=""Profiltyprepository""/>"; "                        <field name=""Typ"" ref=""CCI:3:0"" meta.id=""7037"" meta.type=""repository"" meta.typeInfo=""Profilverfahrenrepository""/>"; "                        <field name=""Profil"" ref=""CAV:1:0"" meta.id=""7111""/>"; "                        <field name=""Codeliste"" ref=""CAV:1:2""/>"; "                    </class>"; "                </class>"; "                <class name=""Profilschardaten"" ref=""SG8"" key=""SEQ:1:0[SEQ:1:0=Z08]"" max=""99999"">"; "                    <field name=""Versionsangabe des Profils"" ref=""RFF:1:1[1:0=Z12]"" meta.id=""1154""/>"; "                    <field name=""Referenz auf die ID der Marktlokation"" ref=""RFF:1:1[1:0=Z18]"" meta.id=""1154""/>"; "                    <class name=""Berechnung Tagesmitteltemperatur"" ref=""SG8"" key=""PIA:2:1"">"; "                        <field name=""Art"" ref=""PIA:2:1[1:0=Z01]"" meta.id=""7143""/>"; "                        <field name=""Anteil A"" ref=""QTY:1:1[1:0=Z11]"" meta.id=""6060""/>"; "                        <field name=""Anteil B"" ref=""QTY:1:1[1:0=Z12]"" meta.id=""6060""/>"; "                        <field name=""Anteil C"" ref=""QTY:1:1[1:0=Z13]"" meta.id=""6060""/>"; "                        <field name=""Anteil D"" ref=""QTY:1:1[1:0=Z14]"" meta.id=""6060""/>"; "                        <field name=""Bezugstemperatur"" ref=""QTY:1:1[1:0=Z15]"" meta.id=""6060""/>"; "                    </class>"; "                    <field name=""Profiltyp"" ref=""CCI:3:0[CCI:1:0=Z07]"" meta.id=""7037""/>"; "                    <class name=""Profilschar"" ref=""SG10"" key=""CAV:1:0[CCI:3:0=Z12]"">"; "                        <field name=""Schar"" ref=""CAV:1:0"" meta.id=""7111""/>"; "                    </class>"; "                    <class name=""Normiertes Profil"" ref=""SG10"" key=""CAV:1:0[CCI:1:0=Z03]"" max=""1"">"; "                        <field name=""Klassentyp"" ref=""CCI:1:0"" meta.id=""7059"" meta.type=""repository"" meta.typeInfo=""Profiltyprepository""/>"; "                        <field name=""Typ"" ref=""CCI:3:0[1:0=Z03]"" meta.id=""7037"" meta.type=""repository"" meta.typeInfo=""Profilverfahrenrepository""/>"; "                        <field name=""Profil"" ref=""CAV:1:0"" meta.id=""7111""/>"; "                        <field name=""Codeliste"" ref=""CAV:1:2""/>"; "                    </class>"; "                    <field name=""Normierungsfaktor"" ref=""CCI:3:0[CCI:1:0=Z06]"" meta.id=""7037""/>"; "                    <field name=""Begrenzungskonstante"" ref=""CCI:3:0[CCI:1:0=Z11]"" meta.id=""7037""/>"; "                    <class name=""Klimazone / Temperaturmessstelle"" ref=""SG10"" key=""CCI:3:0[1:0=Z99|1:0=ZA0]"" max=""1"">"; "                        <field name=""Klassentyp"" ref=""CCI:1:0"" meta.id=""7059""/>"; "                        <field name=""ID"" ref=""CCI:3:0"" meta.id=""7037""/>"; "                        <field name=""Anbieter"" ref=""CCI:3:1"" meta.id=""1131""/>"; "                        <field name=""Codeliste"" ref=""CCI:3:2"" meta.id=""3055""/>"; "                    </class>"; "                    <class name=""Bilanzierungsgebiet"" ref=""SG10"" key=""CCI:3:0[1:0=Z20]"">"; "                        <field name=""Gebiet"" ref=""CCI:3:0"" meta.id=""7037""/>"; "                    </class>"; "                </class>"; "                <class name=""Profilschardaten der beteiligten Marktrolle"" ref=""SG8"" key=""SEQ:1:0[SEQ:1:0=Z34]"" max=""99999"">"; "                    <class name=""Profilschar"" ref=""SG10"" key=""CAV:1:0[CCI:1:0=Z12]"" max=""1"">"; "                        <field name=""Klassentyp"" ref=""CCI:1:0"" meta.id=""7059"" meta.type=""repository"" meta.typeInfo=""Profiltyprepository""/>"; "                        <field name=""Typ"" ref=""CCI:3:0"" meta.id=""7037"" meta.type=""repository"" meta.typeInfo=""Profilverfahrenrepository""/>"; "                        <field name=""Profil"" ref=""CAV:1:0"" meta.id=""7111""/>"; "                        <field name=""Codeliste"" ref=""CAV:1:2""/>"; "                    </class>"; "                    <class name=""Klimazone / Temperaturmessstelle / Referenzmessung"" ref=""SG10"" key=""CCI:3:0[1:0=Z99|1:0=ZA0]"" max=""1"">"; "                        <field name=""Klassentyp"" ref=""CCI:1:0"" meta.id=""7059""/>"; "                        <field name=""ID"" ref=""CCI:3:0"" meta.id=""7037""/>"; "                        <field name=""Anbieter"" ref=""CCI:3:1"" meta.id=""1131""/>"; "                        <field name=""Codeliste"" ref=""CCI:3:2"" meta.id=""3055""/>"; "                    </class>"; "                </class>"; "            </class>"; "        </class>"; "    </class>"; "</UTILMD>"; ""]%string).
(** tests/unit_tests/test_mig_xml_reader_real_data.py:33 *)
Example test_is_parsable_29 :
  check_file_can_be_parsed_as_mig_xml no_high no_high any_declaration no_doctype (fun _ => Raise XMLSyntaxError) (fun _ => false) (fun _ => false) decode_utf8 formats (Some file_FV2210_utilmd_7059) = Ok tt.
Proof. vm_compute. repeat split; reflexivity. Qed.
(** tests/unit_tests/test_mig_xml_reader_real_data.py:33 *)
Example test_is_parsable_30 :
  document file_FV2210_utilmd_7059 = Ok (Element (u "UTILMD") [] (Some (u "
    
")) [(Element (u "class") [((u "name"), (u "Dokument")); ((u "ref"), (u "/")); ((u "key"), (u "UNB:5:0"))] (Some (u "
        
    ")) [(Element (u "class") [((u "name"), (u "Nachricht")); ((u "ref"), (u "UNH")); ((u "key"), (u "UNH:1:0")); ((u "max"), (u "9999")); ((u "meta.type"), (u "group"))] (Some (u "
            
        ")) [(Element (u "class") [((u "name"), (u "Vorgang")); ((u "ref"), (u "SG4")); ((u "key"), (u "IDE:2:0")); ((u "max"), (u "99999")); ((u "meta.type"), (u "group")); ((u "groupKey"), (u "Vorgangsnummer"))] (Some (u "
                
                
                
                
                
                
                
                
                
                
                
            ")) [(Element (u "class") [((u "name"), (u "Erforderliches Messprodukt der Marktlokation")); ((u "ref"), (u "SG8")); ((u "key"), (u "SEQ:1:0[SEQ:1:0=Z27]")); ((u "max"), (u "99999")); ((u "groupKey"), (u "OBIS-Kennzahl der Marktlokation")); ((u "meta.objType"), (u "OBIS-Kennzahl"))] (Some (u "
                    
                    
                    
                    
                ")) [(Element (u "field") [((u "name"), (u "Referenz auf die ID der Marktlokation")); ((u "ref"), (u "RFF:1:1[1:0=Z18]")); ((u "meta.id"), (u "1154")); ((u "max"), (u "1")); ((u "meta.ref"), (u "Meldepunkt.ID"))] None []); (Element (u "field") [((u "name"), (u "OBIS-Kennzahl der Marktlokation")); ((u "ref"), (u "PIA:2:0")); ((u "meta.id"), (u "7140"))] None []); (Element (u "class") [((u "name"), (u "Zugeordnete Zählzeit")); ((u "ref"), (u "SG10")); ((u "key"), (u "CCI:3:0[1:0=Z39|1:0=Z41]"))] (Some (u "
                        
                        
                    ")) [(Element (u "field") [((u "name"), (u "Art")); ((u "meta.id"), (u "7059")); ((u "ref"), (u "CCI:1:0"))] None []); (Element (u "field") [((u "name"), (u "Code")); ((u "meta.id"), (u "7037")); ((u "ref"), (u "CCI:3:0"))] None [])]); (Element (u "class") [((u "name"), (u "Zugeordnetes Zählzeitregister")); ((u "ref"), (u "SG10")); ((u "key"), (u "CCI:3:0[1:0=Z38]"))] (Some (u "
                        
                        
                    ")) [(Element (u "field") [((u "name"), (u "Art")); ((u "meta.id"), (u "7059")); ((u "ref"), (u "CCI:1:0"))] None []); (Element (u "field") [((u "name"), (u "Code")); ((u "meta.id"), (u "7037")); ((u "ref"), (u "CCI:3:0"))] None [])])]); (Element (u "class") [((u "name"), (u "OBIS-Daten der Marktlokation")); ((u "ref"), (u "SG8")); ((u "key"), (u "SEQ:1:0[SEQ:1:0=Z02]")); ((u "max"), (u "99999")); ((u "groupKey"), (u "OBIS-Kennzahl der Marktlokation")); ((u "meta.objType"), (u "OBIS-Kennzahl"))] (Some (u "
                    
                    
                    
                    
                ")) [(Element (u "field") [((u "name"), (u "Referenz auf die ID der Marktlokation")); ((u "ref"), (u "RFF:1:1[1:0=Z18]")); ((u "meta.id"), (u "1154")); ((u "max"), (u "1")); ((u "meta.ref"), (u "Meldepunkt.ID"))] None []); (Element (u "field") [((u "name"), (u "OBIS-Kennzahl der Marktlokation")); ((u "ref"), (u "PIA:2:0")); ((u "meta.id"), (u "7140"))] None []); (Element (u "class") [((u "name"), (u "Wertegranularität")); ((u "ref"), (u "SG10")); ((u "key"), (u "CAV:1:0[CCI:3:0=ZE4]"))] (Some (u "
                        
                    ")) [(Element (u "field") [((u "name"), (u "Granularität")); ((u "meta.id"), (u "7111")); ((u "ref"), (u "CAV:1:0"))] None [])]); (Element (u "class") [((u "name"), (u "Zugeordnete Zählzeit")); ((u "ref"), (u "SG10")); ((u "key"), (u "CCI:3:0[1:0=Z39|1:0=Z41]"))] (Some (u "
                        
                        
                    ")) [(Element (u "field") [((u "name"), (u "Art")); ((u "meta.id"), (u "7059")); ((u "ref"), (u "CCI:1:0"))] None []); (Element (u "field") [((u "name"), (u "Code")); ((u "meta.id"), (u "7037")); ((u "ref"), (u "CCI:3:0"))] None [])])]); (Element (u "class") [((u "name"), (u "Steuer-/Abgabeninformation")); ((u "ref"), (u "SG8")); ((u "key"), (u "SEQ:1:0[SEQ:1:0=Z10]")); ((u "max"), (u "99999")); ((u "meta.type"), (u "group"))] (Some (u "
                    
                    
                ")) [(Element (u "field") [((u "name"), (u "Referenz auf die OBIS-Kennzahl der Marktlokation")); ((u "ref"), (u "RFF:1:1[1:0=Z10]")); ((u "meta.id"), (u "1154"))] None []); (Element (u "class") [((u "name"), (u "Steuern-/Abgabenbefreiung")); ((u "ref"), (u "SG10"))] (Some (u "
                        
                    ")) [(Element (u "field") [((u "name"), (u "Steuern-/Abgabenbefreiung")); ((u "ref"), (u "CCI:3:0")); ((u "meta.id"), (u "7037"))] None [])])]); (Element (u "class") [((u "name"), (u "Gemeinderabatt")); ((u "ref"), (u "SG8")); ((u "key"), (u "SEQ:1:0[SEQ:1:0=Z12]"))] (Some (u "
                    
                ")) [(Element (u "class") [((u "name"), (u "Rabatt")); ((u "ahbName"), (u "Gemeinderabatt")); ((u "ref"), (u "SG9"))] (Some (u "
                        
                    ")) [(Element (u "field") [((u "name"), (u "Rabatt")); ((u "ref"), (u "QTY:1:1[1:0=Z16]")); ((u "meta.id"), (u "6060"))] None [])])]); (Element (u "class") [((u "name"), (u "Erforderliches Messprodukt der Messlokation")); ((u "ref"), (u "SG8")); ((u "key"), (u "SEQ:1:0[SEQ:1:0=Z19]")); ((u "max"), (u "99999")); ((u "groupKey"), (u "OBIS-Kennzahl der Messlokation")); ((u "meta.objType"), (u "OBIS-Kennzahl"))] (Some (u "
                    
                    
                    
                    
                    
                ")) [(Element (u "field") [((u "name"), (u "Referenz auf die ID einer Messlokation")); ((u "ref"), (u "RFF:1:1[1:0=Z19]")); ((u "meta.id"), (u "1154")); ((u "max"), (u "1")); ((u "meta.ref"), (u "Meldepunkt.ID"))] None []); (Element (u "class") [((u "name"), (u "Referenz auf die ID einer Marktlokation")); ((u "ref"), (u "RFF")); ((u "key"), (u "RFF:1:1[1:0=Z18]")); ((u "meta.id"), (u "1154")); ((u "max"), (u "1"))] (Some (u "
                        
                    ")) [(Element (u "field") [((u "name"), (u "Referenz")); ((u "ref"), (u "RFF:1:1[1:0=Z18]")); ((u "meta.id"), (u "1154")); ((u "max"), (u "1"))] None [])]); (Element (u "field") [((u "name"), (u "OBIS-Kennzahl der Messlokation")); ((u "ref"), (u "PIA:2:0")); ((u "meta.id"), (u "7140"))] None []); (Element (u "class") [((u "name"), (u "Weitere Beschreibung erforderliches Messprodukt")); ((u "ref"), (u "SG10")); ((u "key"), (u "CCI:3:0[CCI:1:0=Z35]"))] (Some (u "
                        
                        
                    ")) [(Element (u "field") [((u "name"), (u "Notwendigkeit zweite Messung")); ((u "ref"), (u "CAV:3:0[CAV:1:0=ZC9]")); ((u "meta.id"), (u "7037"))] None []); (Element (u "field") [((u "name"), (u "Werteübermittlung an den NB aufgrund weiterem Verwendungszweck")); ((u "ref"), (u "CAV:3:0[CAV:1:0=Z88]")); ((u "meta.id"), (u "7037"))] None [])]); (Element (u "class") [((u "name"), (u "Zugeordnete Zählzeit")); ((u "ref"), (u "SG10")); ((u "key"), (u "CCI:3:0[1:0=Z39|1:0=Z41]"))] (Some (u "
                        
                        
                    ")) [(Element (u "field") [((u "name"), (u "Art")); ((u "meta.id"), (u "7059")); ((u "ref"), (u "CCI:1:0"))] None []); (Element (u "field") [((u "name"), (u "Code")); ((u "meta.id"), (u "7037")); ((u "ref"), (u "CCI:3:0"))] None [])])]); (Element (u "class") [((u "name"), (u "OBIS-Daten der Zähleinrichtung / Mengenumwerter")); ((u "ref"), (u "SG8")); ((u "key"), (u "SEQ:1:0[SEQ:1:0=Z20]")); ((u "max"), (u "99999")); ((u "groupKey"), (u "OBIS-Kennzahl")); ((u "meta.objType"), (u "OBIS-Kennzahl"))] (Some (u "
                    
                    
                    
                    
                    
                    
                    
                ")) [(Element (u "class") [((u "name"), (u "Referenz auf die Gerätenummer")); ((u "ref"), (u "RFF")); ((u "key"), (u "RFF:1:0[1:0=MG|1:0=Z11|1:0=Z14]"))] (Some (u "
                        
                        
                    ")) [(Element (u "field") [((u "name"), (u "Qualifier")); ((u "ref"), (u "RFF:1:0[1:0=MG|1:0=Z11|1:0=Z14]")); ((u "meta.id"), (u "1153")); ((u "meta.type"), (u "repository")); ((u "meta.typeInfo"), (u "GerätenummerTyprepository"))] None []); (Element (u "field") [((u "name"), (u "Nummer")); ((u "ref"), (u "RFF:1:1[1:0=MG|1:0=Z11|1:0=Z14]")); ((u "meta.id"), (u "1154")); ((u "meta.ref"), (u "Zählertyp.Identifikation/Nummer des Gerätes"))] None [])]); (Element (u "field") [((u "name"), (u "Referenz auf die ID einer Messlokation")); ((u "ref"), (u "RFF:1:1[1:0=Z19]")); ((u "meta.id"), (u "1154")); ((u "max"), (u "1")); ((u "meta.ref"), (u "Meldepunkt.ID"))] None []); (Element (u "class") [((u "name"), (u "Referenz auf die ID einer Marktlokation")); ((u "ref"), (u "RFF")); ((u "key"), (u "RFF:1:1[1:0=Z18]")); ((u "meta.id"), (u "1154")); ((u "max"), (u "9"))] (Some (u "
                        
                    ")) [(Element (u "field") [((u "name"), (u "Referenz")); ((u "ref"), (u "RFF:1:1[1:0=Z18]")); ((u "meta.id"), (u "1154")); ((u "max"), (u "1"))] None [])]); (Element (u "field") [((u "name"), (u "Konfigurations-ID")); ((u "ref"), (u "RFF:1:1[1:0=AGK]")); ((u "meta.id"), (u "1154"))] None []); (Element (u "field") [((u "name"), (u "OBIS-Kennzahl der Zähleinrichtung /Mengenumwerter")); ((u "ref"), (u "PIA:2:0")); ((u "meta.id"), (u "7140"))] None []); (Element (u "class") [((u "name"), (u "Wertegranularität")); ((u "ref"), (u "SG10")); ((u "key"), (u "CAV:1:0[CCI:3:0=ZE4]"))] (Some (u "
                        
                    ")) [(Element (u "field") [((u "name"), (u "Granularität")); ((u "meta.id"), (u "7111")); ((u "ref"), (u "CAV:1:0"))] None [])]); (Element (u "class") [((u "name"), (u "Zugeordnete Zählzeit")); ((u "ref"), (u "SG10")); ((u "key"), (u "CCI:3:0[1:0=Z39|1:0=Z41]"))] (Some (u "
                        
                        
                    ")) [(Element (u "field") [((u "name"), (u "Art")); ((u "meta.id"), (u "7059")); ((u "ref"), (u "CCI:1:0"))] None []); (Element (u "field") [((u "name"), (u "Code")); ((u "meta.id"), (u "7037")); ((u "ref"), (u "CCI:3:0"))] None [])])]); (Element (u "class") [((u "name"), (u "Lastprofildaten (Gas)")); ((u "ref"), (u "SG8")); ((u "key"), (u "SEQ:1:0[SEQ:1:0=Z35]")); ((u "max"), (u "99999"))] (Some (u "
                    
                    
                ")) [(Element (u "class") [((u "name"), (u "Lastprofil (Gas)")); ((u "ref"), (u "SG10")); ((u "key"), (u "CAV:1:0[CCI:1:0=Z12]")); ((u "max"), (u "2"))] (Some (u "
                        
                        
                        
                        
                    ")) [(Element (u "field") [((u "name"), (u "Klassentyp")); ((u "ref"), (u "CCI:1:0")); ((u "meta.id"), (u "7059"))] None []); (Element (u "field") [((u "name"), (u "Typ")); ((u "ref"), (u "CCI:3:0")); ((u "meta.id"), (u "7037"))] None []); (Element (u "field") [((u "name"), (u "Profil")); ((u "ref"), (u "CAV:1:0")); ((u "meta.id"), (u "7111"))] None []); (Element (u "field") [((u "name"), (u "Codeliste")); ((u "ref"), (u "CAV:1:2")); ((u "meta.id"), (u "3055"))] None [])]); (Element (u "class") [((u "name"), (u "Klimazone / Temperaturmessstelle")); ((u "ref"), (u "SG10")); ((u "key"), (u "CCI:3:0[1:0=Z99|1:0=ZA0]")); ((u "max"), (u "1"))] (Some (u "
                        
                        
                        
                        
                    ")) [(Element (u "field") [((u "name"), (u "Klassentyp")); ((u "ref"), (u "CCI:1:0")); ((u "meta.id"), (u "7059"))] None []); (Element (u "field") [((u "name"), (u "ID")); ((u "ref"), (u "CCI:3:0")); ((u "meta.id"), (u "7037"))] None []); (Element (u "field") [((u "name"), (u "Anbieter")); ((u "ref"), (u "CCI:3:1")); ((u "meta.id"), (u "1131"))] None []); (Element (u "field") [((u "name"), (u "Codeliste")); ((u "ref"), (u "CCI:3:2")); ((u "meta.id"), (u "3055"))] None [])])]); (Element (u "class") [((u "name"), (u "Profildaten (Strom)")); ((u "ref"), (u "SG8")); ((u "key"), (u "SEQ:1:0[SEQ:1:0=Z21]")); ((u "max"), (u "99999"))] (Some (u "
                    
                    
                    
                    
                    
                    
                ")) [(Element (u "field") [((u "name"), (u "Versionsangabe des Profils")); ((u "ref"), (u "RFF:1:1[1:0=Z12]")); ((u "meta.id"), (u "1154"))] None []); (Element (u "field") [((u "name"), (u "Referenz auf die ID der Marktlokation")); ((u "ref"), (u "RFF:1:1[1:0=Z18]")); ((u "meta.id"), (u "1154")); ((u "meta.ref"), (u "Meldepunkt.ID"))] None []); (Element (u "field") [((u "name"), (u "Profiltyp")); ((u "ref"), (u "CCI:3:0[CCI:1:0=Z07]")); ((u "meta.id"), (u "7037"))] None []); (Element (u "class") [((u "name"), (u "Normiertes Profil (Strom)")); ((u "ref"), (u "SG10")); ((u "key"), (u "CAV:1:0[CCI:1:0=Z02|CCI:1:0=Z04]")); ((u "max"), (u "1")); ((u "ahbName"), (u "Normiertes Profil (Strom)"))] (Some (u "
                        
                        
                        
                        
                    ")) [(Element (u "field") [((u "name"), (u "Klassentyp")); ((u "ref"), (u "CCI:1:0")); ((u "meta.id"), (u "7059")); ((u "meta.type"), (u "repository")); ((u "meta.typeInfo"), (u "Profiltyprepository"))] None []); (Element (u "field") [((u "name"), (u "Typ")); ((u "ref"), (u "CCI:3:0")); ((u "meta.id"), (u "7037")); ((u "meta.type"), (u "repository")); ((u "meta.typeInfo"), (u "Profilverfahrenrepository"))] None []); (Element (u "field") [((u "name"), (u "Profil")); ((u "ref"), (u "CAV:1:0")); ((u "meta.id"), (u "7111"))] None []); (Element (u "field") [((u "name"), (u "Codeliste")); ((u "ref"), (u "CAV:1:2"))] None [])]); (Element (u "field") [((u "name"), (u "Normierungsfaktor")); ((u "ref"), (u "CCI:3:0[CCI:1:0=Z06]")); ((u "meta.id"), (u "7037"))] None []); (Element (u "class") [((u "name"), (u "Bilanzierungsgebiet")); ((u "ref"), (u "SG10")); ((u "key"), (u "CCI:3:0[1:0=Z20]"))] (Some (u "
                        
                    ")) [(Element (u "field") [((u "name"), (u "Gebiet")); ((u "ref"), (u "CCI:3:0")); ((u "meta.id"), (u "7037"))] None [])])]); (Element (u "class") [((u "name"), (u "Profildaten der beteiligten Marktrolle")); ((u "ref"), (u "SG8")); ((u "key"), (u "SEQ:1:0[SEQ:1:0=Z33]")); ((u "max"), (u "99999"))] (Some (u "
                    
                ")) [(Element (u "class") [((u "name"), (u "Normiertes Profil (Strom)")); ((u "ref"), (u "SG10")); ((u "key"), (u "CAV:1:0[CCI:1:0=Z02|CCI:1:0=Z04]")); ((u "max"), (u "1")); ((u "ahbName"), (u "Normiertes Profil (Strom)"))] (Some (u "
                        
                        
                        
                        
                    ")) [(Element (u "field") [((u "name"), (u "Klassentyp")); ((u "ref"), (u "CCI:1:0")); ((u "meta.id"), (u "7059")); ((u "meta.type"), (u "repository")); ((u "meta.typeInfo"), (u "Profiltyprepository"))] None []); (Element (u "field") [((u "name"), (u "Typ")); ((u "ref"), (u "CCI:3:0")); ((u "meta.id"), (u "7037")); ((u "meta.type"), (u "repository")); ((u "meta.typeInfo"), (u "Profilverfahrenrepository"))] None []); (Element (u "field") [((u "name"), (u "Profil")); ((u "ref"), (u "CAV:1:0")); ((u "meta.id"), (u "7111"))] None []); (Element (u "field") [((u "name"), (u "Codeliste")); ((u "ref"), (u "CAV:1:2"))] None [])])]); (Element (u "class") [((u "name"), (u "Profilschardaten")); ((u "ref"), (u "SG8")); ((u "key"), (u "SEQ:1:0[SEQ:1:0=Z08]")); ((u "max"), (u "99999"))] (Some (u "
                    
                    
                    
                    
                    
                    
                    
                    
                    
                    
                ")) [(Element (u "field") [((u "name"), (u "Versionsangabe des Profils")); ((u "ref"), (u "RFF:1:1[1:0=Z12]")); ((u "meta.id"), (u "1154"))] None []); (Element (u "field") [((u "name"), (u "Referenz auf die ID der Marktlokation")); ((u "ref"), (u "RFF:1:1[1:0=Z18]")); ((u "meta.id"), (u "1154"))] None []); (Element (u "class") [((u "name"), (u "Berechnung Tagesmitteltemperatur")); ((u "ref"), (u "SG8")); ((u "key"), (u "PIA:2:1"))] (Some (u "
                        
                        
                        
                        
                        
                        
                    ")) [(Element (u "field") [((u "name"), (u "Art")); ((u "ref"), (u "PIA:2:1[1:0=Z01]")); ((u "meta.id"), (u "7143"))] None []); (Element (u "field") [((u "name"), (u "Anteil A")); ((u "ref"), (u "QTY:1:1[1:0=Z11]")); ((u "meta.id"), (u "6060"))] None []); (Element (u "field") [((u "name"), (u "Anteil B")); ((u "ref"), (u "QTY:1:1[1:0=Z12]")); ((u "meta.id"), (u "6060"))] None []); (Element (u "field") [((u "name"), (u "Anteil C")); ((u "ref"), (u "QTY:1:1[1:0=Z13]")); ((u "meta.id"), (u "6060"))] None []); (Element (u "field") [((u "name"), (u "Anteil D")); ((u "ref"), (u "QTY:1:1[1:0=Z14]")); ((u "meta.id"), (u "6060"))] None []); (Element (u "field") [((u "name"), (u "Bezugstemperatur")); ((u "ref"), (u "QTY:1:1[1:0=Z15]")); ((u "meta.id"), (u "6060"))] None [])]); (Element (u "field") [((u "name"), (u "Profiltyp")); ((u "ref"), (u "CCI:3:0[CCI:1:0=Z07]")); ((u "meta.id"), (u "7037"))] None []); (Element (u "class") [((u "name"), (u "Profilschar")); ((u "ref"), (u "SG10")); ((u "key"), (u "CAV:1:0[CCI:3:0=Z12]"))] (Some (u "
                        
                    ")) [(Element (u "field") [((u "name"), (u "Schar")); ((u "ref"), (u "CAV:1:0")); ((u "meta.id"), (u "7111"))] None [])]); (Element (u "class") [((u "name"), (u "Normiertes Profil")); ((u "ref"), (u "SG10")); ((u "key"), (u "CAV:1:0[CCI:1:0=Z03]")); ((u "max"), (u "1"))] (Some (u "
                        
                        
                        
                        
                    ")) [(Element (u "field") [((u "name"), (u "Klassentyp")); ((u "ref"), (u "CCI:1:0")); ((u "meta.id"), (u "7059")); ((u "meta.type"), (u "repository")); ((u "meta.typeInfo"), (u "Profiltyprepository"))] None []); (Element (u "field") [((u "name"), (u "Typ")); ((u "ref"), (u "CCI:3:0[1:0=Z03]")); ((u "meta.id"), (u "7037")); ((u "meta.type"), (u "repository")); ((u "meta.typeInfo"), (u "Profilverfahrenrepository"))] None []); (Element (u "field") [((u "name"), (u "Profil")); ((u "ref"), (u "CAV:1:0")); ((u "meta.id"), (u "7111"))] None []); (Element (u "field") [((u "name"), (u "Codeliste")); ((u "ref"), (u "CAV:1:2"))] None [])]); (Element (u "field") [((u "name"), (u "Normierungsfaktor")); ((u "ref"), (u "CCI:3:0[CCI:1:0=Z06]")); ((u "meta.id"), (u "7037"))] None []); (Element (u "field") [((u "name"), (u "Begrenzungskonstante")); ((u "ref"), (u "CCI:3:0[CCI:1:0=Z11]")); ((u "meta.id"), (u "7037"))] None []); (Element (u "class") [((u "name"), (u "Klimazone / Temperaturmessstelle")); ((u "ref"), (u "SG10")); ((u "key"), (u "CCI:3:0[1:0=Z99|1:0=ZA0]")); ((u "max"), (u "1"))] (Some (u "
                        
                        
                        
                        
                    ")) [(Element (u "field") [((u "name"), (u "Klassentyp")); ((u "ref"), (u "CCI:1:0")); ((u "meta.id"), (u "7059"))] None []); (Element (u "field") [((u "name"), (u "ID")); ((u "ref"), (u "CCI:3:0")); ((u "meta.id"), (u "7037"))] None []); (Element (u "field") [((u "name"), (u "Anbieter")); ((u "ref"), (u "CCI:3:1")); ((u "meta.id"), (u "1131"))] None []); (Element (u "field") [((u "name"), (u "Codeliste")); ((u "ref"), (u "CCI:3:2")); ((u "meta.id"), (u "3055"))] None [])]); (Element (u "class") [((u "name"), (u "Bilanzierungsgebiet")); ((u "ref"), (u "SG10")); ((u "key"), (u "CCI:3:0[1:0=Z20]"))] (Some (u "
                        
                    ")) [(Element (u "field") [((u "name"), (u "Gebiet")); ((u "ref"), (u "CCI:3:0")); ((u "meta.id"), (u "7037"))] None [])])]); (Element (u "class") [((u "name"), (u "Profilschardaten der beteiligten Marktrolle")); ((u "ref"), (u "SG8")); ((u "key"), (u "SEQ:1:0[SEQ:1:0=Z34]")); ((u "max"), (u "99999"))] (Some (u "
                    
                    
                ")) [(Element (u "class") [((u "name"), (u "Profilschar")); ((u "ref"), (u "SG10")); ((u "key"), (u "CAV:1:0[CCI:1:0=Z12]")); ((u "max"), (u "1"))] (Some (u "
                        
                        
                        
                        
                    ")) [(Element (u "field") [((u "name"), (u "Klassentyp")); ((u "ref"), (u "CCI:1:0")); ((u "meta.id"), (u "7059")); ((u "meta.type"), (u "repository")); ((u "meta.typeInfo"), (u "Profiltyprepository"))] None []); (Element (u "field") [((u "name"), (u "Typ")); ((u "ref"), (u "CCI:3:0")); ((u "meta.id"), (u "7037")); ((u "meta.type"), (u "repository")); ((u "meta.typeInfo"), (u "Profilverfahrenrepository"))] None []); (Element (u "field") [((u "name"), (u "Profil")); ((u "ref"), (u "CAV:1:0")); ((u "meta.id"), (u "7111"))] None []); (Element (u "field") [((u "name"), (u "Codeliste")); ((u "ref"), (u "CAV:1:2"))] None [])]); (Element (u "class") [((u "name"), (u "Klimazone / Temperaturmessstelle / Referenzmessung")); ((u "ref"), (u "SG10")); ((u "key"), (u "CCI:3:0[1:0=Z99|1:0=ZA0]")); ((u "max"), (u "1"))] (Some (u "
                        
                        
                        
                        
                    ")) [(Element (u "field") [((u "name"), (u "Klassentyp")); ((u "ref"), (u "CCI:1:0")); ((u "meta.id"), (u "7059"))] None []); (Element (u "field") [((u "name"), (u "ID")); ((u "ref"), (u "CCI:3:0")); ((u "meta.id"), (u "7037"))] None []); (Element (u "field") [((u "name"), (u "Anbieter")); ((u "ref"), (u "CCI:3:1")); ((u "meta.id"), (u "1131"))] None []); (Element (u "field") [((u "name"), (u "Codeliste")); ((u "ref"), (u "CCI:3:2")); ((u "meta.id"), (u "3055"))] None [])])])])])])]).
Proof. vm_compute. repeat split; reflexivity. Qed.
(** tests/unit_tests/migs/FV2210/template_xmls/utilmd_7143.xml, line by line *)
Definition file_FV2210_utilmd_7143 : list N := removelast (flat_map (fun l => bytes_of l ++ [10%N]) ["<?xml version=""1.0"" ?>"; "<UTILMD>"; "    <class name=""Dokument"" ref=""/"" key=""UNB:5:0"">"; "        <class name=""Nachricht"" ref=""UNH"" key=""UNH:1:0"" max=""9999"" meta.type=""group"">"; "            <field name=""Nachrichten-Referenznummer"" ref=""UNH:1:0"" meta.id=""0062""/>"; "            <field"; "                    name=""Kategorie"""; "                    migName=""Beginn der Nachricht"""; "                    meta.id=""1001"""; "                    ref=""BGM:1:0"""; "                    groupBy=""Beginn der Nachricht"""; "                    meta.help=""Hier wird die Kategorie der gesamten Nachricht für alle Vorgänge angegeben."""; "                    meta.type=""repository"""; "                    meta.typeInfo=""Kategorierepository"""; "            />"; "            <class name=""Vorgang"" ref=""SG4"" key=""IDE:2:0"" max=""99999"" meta.type=""group"" groupKey=""Vorgangsnummer"">"; "                <class name=""Netznutzungsabrechnungsdaten der Marktlokation"" ref=""SG8"" key=""SEQ:1:0[SEQ:1:0=Z45]"" max=""99999"" meta.type=""group"" groupKey=""Referenz auf die ID der Marktlokation"">"; "                    <class name=""Gruppenartikel-ID"" ref=""PIA"" key=""PIA:2:0[PIA:1:0=Z02]"" ahbName=""Gruppenartikel-ID / Artikel-ID"">"; "                        <field name=""ID"" ref=""PIA:2:0[PIA:1:0=Z02]"" meta.id=""7140""/>"; "                        <field name=""Art der ID"" ref=""PIA:2:1[PIA:1:0=Z02]"" meta.id=""7143""/>"; "                    </class>"; "                </class>"; "                <class name=""Weitere Abrechnungsdaten der Marktlokation"" ref=""SG8"" key=""SEQ:1:0[SEQ:1:0=Z46]"" max=""99999"" meta.type=""group"" groupKey=""Referenz auf die ID der Marktlokation"">"; "                    <class name=""Gruppenartikel-ID"" ref=""PIA"" key=""PIA:2:0[PIA:1:0=Z02]"" ahbName=""Artikel-ID"">"; "                        <field name=""ID"" ref=""PIA:2:0[PIA:1:0=Z02]"" meta.id=""7140""/>"; "                        <field name=""Art der ID"" ref=""PIA:2:1[PIA:1:0=Z02]"" meta.id=""7143""/>"; "                    </class>"; "                </class>"; "                <class name=""Berechnung Tagesmitteltemperatur"" ref=""SG8"" key=""PIA:2:1"">"; "                    <field name=""Art"" ref=""PIA:2:1[1:0=Z01]"" meta.id=""7143""/>"; "                    <field name=""Anteil A"" ref=""QTY:1:1[1:0=Z11]"" meta.id=""6060""/>"; "                    <field name=""Anteil B"" ref=""QTY:1:1[1:0=Z12]"" meta.id=""6060""/>"; "                    <field name=""Anteil C"" ref=""QTY:1:1[1:0=Z13]"" meta.id=""6060""/>"; "                    <field name=""Anteil D"" ref=""QTY:1:1[1:0=Z14]"" meta.id=""6060""/>"; "                    <field name=""Bezugstemperatur"" ref=""QTY:1:1[1:0=Z15]"" meta.id=""6060""/>"; "                </class>"; "            </class>"; "        </class>"; "    </class>"; "</UTILMD>"; ""]%string).
(** tests/unit_tests/test_mig_xml_reader_real_data.py:33 *)
Example test_is_parsable_31 :
  check_file_can_be_parsed_as_mig_xml no_high no_high any_declaration no_doctype (fun _ => Raise XMLSyntaxError) (fun _ => false) (fun _ => false) decode_utf8 formats (Some file_FV2210_utilmd_7143) = Ok tt.
Proof. vm_compute. repeat split; reflexivity. Qed.
(** tests/unit_tests/test_mig_xml_reader_real_data.py:33 *)
Example test_is_parsable_32 :
  document file_FV2210_utilmd_7143 = Ok (Element (u "UTILMD") [] (Some (u "
    
")) [(Element (u "class") [((u "name"), (u "Dokument")); ((u "ref"), (u "/")); ((u "key"), (u "UNB:5:0"))] (Some (u "
        
    ")) [(Element (u "class") [((u "name"), (u "Nachricht")); ((u "ref"), (u "UNH")); ((u "key"), (u "UNH:1:0")); ((u "max"), (u "9999")); ((u "meta.type"), (u "group"))] (Some (u "
            
            
            
        ")) [(Element (u "field") [((u "name"), (u "Nachrichten-Referenznummer")); ((u "ref"), (u "UNH:1:0")); ((u "meta.id"), (u "0062"))] None []); (Element (u "field") [((u "name"), (u "Kategorie")); ((u "migName"), (u "Beginn der Nachricht")); ((u "meta.id"), (u "1001")); ((u "ref"), (u "BGM:1:0")); ((u "groupBy"), (u "Beginn der Nachricht")); ((u "meta.help"), (u "Hier wird die Kategorie der gesamten Nachricht für alle Vorgänge angegeben.")); ((u "meta.type"), (u "repository")); ((u "meta.typeInfo"), (u "Kategorierepository"))] None []); (Element (u "class") [((u "name"), (u "Vorgang")); ((u "ref"), (u "SG4")); ((u "key"), (u "IDE:2:0")); ((u "max"), (u "99999")); ((u "meta.type"), (u "group")); ((u "groupKey"), (u "Vorgangsnummer"))] (Some (u "
                
                
                
            ")) [(Element (u "class") [((u "name"), (u "Netznutzungsabrechnungsdaten der Marktlokation")); ((u "ref"), (u "SG8")); ((u "key"), (u "SEQ:1:0[SEQ:1:0=Z45]")); ((u "max"), (u "99999")); ((u "meta.type"), (u "group")); ((u "groupKey"), (u "Referenz auf die ID der Marktlokation"))] (Some (u "
                    
                ")) [(Element (u "class") [((u "name"), (u "Gruppenartikel-ID")); ((u "ref"), (u "PIA")); ((u "key"), (u "PIA:2:0[PIA:1:0=Z02]")); ((u "ahbName"), (u "Gruppenartikel-ID / Artikel-ID"))] (Some (u "
                        
                        
                    ")) [(Element (u "field") [((u "name"), (u "ID")); ((u "ref"), (u "PIA:2:0[PIA:1:0=Z02]")); ((u "meta.id"), (u "7140"))] None []); (Element (u "field") [((u "name"), (u "Art der ID")); ((u "ref"), (u "PIA:2:1[PIA:1:0=Z02]")); ((u "meta.id"), (u "7143"))] None [])])]); (Element (u "class") [((u "name"), (u "Weitere Abrechnungsdaten der Marktlokation")); ((u "ref"), (u "SG8")); ((u "key"), (u "SEQ:1:0[SEQ:1:0=Z46]")); ((u "max"), (u "99999")); ((u "meta.type"), (u "group")); ((u "groupKey"), (u "Referenz auf die ID der Marktlokation"))] (Some (u "
                    
                ")) [(Element (u "class") [((u "name"), (u "Gruppenartikel-ID")); ((u "ref"), (u "PIA")); ((u "key"), (u "PIA:2:0[PIA:1:0=Z02]")); ((u "ahbName"), (u "Artikel-ID"))] (Some (u "
                        
                        
                    ")) [(Element (u "field") [((u "name"), (u "ID")); ((u "ref"), (u "PIA:2:0[PIA:1:0=Z02]")); ((u "meta.id"), (u "7140"))] None []); (Element (u "field") [((u "name"), (u "Art der ID")); ((u "ref"), (u "PIA:2:1[PIA:1:0=Z02]")); ((u "meta.id"), (u "7143"))] None [])])]); (Element (u "class") [((u "name"), (u "Berechnung Tagesmitteltemperatur")); ((u "ref"), (u "SG8")); ((u "key"), (u "PIA:2:1"))] (Some (u "
                    
                    
                    
                    
                    
                    
                ")) [(Element (u "field") [((u "name"), (u "Art")); ((u "ref"), (u "PIA:2:1[1:0=Z01]")); ((u "meta.id"), (u "7143"))] None []); (Element (u "field") [((u "name"), (u "Anteil A")); ((u "ref"), (u "QTY:1:1[1:0=Z11]")); ((u "meta.id"), (u "6060"))] None []); (Element (u "field") [((u "name"), (u "Anteil B")); ((u "ref"), (u "QTY:1:1[1:0=Z12]")); ((u "meta.id"), (u "6060"))] None []); (Element (u "field") [((u "name"), (u "Anteil C")); ((u "ref"), (u "QTY:1:1[1:0=Z13]")); ((u "meta.id"), (u "6060"))] None []); (Element (u "field") [((u "name"), (u "Anteil D")); ((u "ref"), (u "QTY:1:1[1:0=Z14]")); ((u "meta.id"), (u "6060"))] None []); (Element (u "field") [((u "name"), (u "Bezugstemperatur")); ((u "ref"), (u "QTY:1:1[1:0=Z15]")); ((u "meta.id"), (u "6060"))] None [])])])])])]).
Proof. vm_compute. repeat split; reflexivity. Qed.
