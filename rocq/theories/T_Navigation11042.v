(** Generated by tools/gen_tests.py from tests/unit_tests/test_navigation.py: a test of the model, not a proof.
    The model is evaluated on the arguments of the project's own unit tests and compared with the values expected there. *)
From Coq Require Import Ascii String List NArith ZArith Bool.
From Verif Require Import PyBase PyStr M_Ahb M_Sgh M_Navigation.
Import ListNotations.
Local Open Scope list_scope.

(** tests/unit_tests/example_data_11042.py *)
Definition example_sgh : Sgh := (mkSgh None (u "UNH") (Some [(mkSgh (Some (u "SG1")) (u "RFF") (Some [])); (mkSgh (Some (u "SG2")) (u "NAD") (Some [(mkSgh (Some (u "SG3")) (u "CTA") (Some []))])); (mkSgh (Some (u "SG4")) (u "IDE") (Some [(mkSgh (Some (u "SG5")) (u "LOC") None); (mkSgh (Some (u "SG6")) (u "RFF") None); (mkSgh (Some (u "SG8")) (u "SEQ") (Some [(mkSgh (Some (u "SG9")) (u "QTY") None); (mkSgh (Some (u "SG10")) (u "CCI") None)])); (mkSgh (Some (u "SG12")) (u "NAD") None)]))])).
(** tests/unit_tests/example_data_11042.py *)
Definition example : list (AhbLine * Location * Change) := [
((mkLine (Some 208279654436017960485273027341594571045%N) None (Some (u "UNH")) None None None None (Some (u "Muss")) None (Some (u "Nachrichten-Kopfsegment")) (Some (1)%Z)), (mkLocation false [(mkLayer None (u "UNH") (Some (u "UTILMD")))] (Some (u "UNH")) None None), STAY);
((mkLine (Some 108157225268355726477433097063197471292%N) None (Some (u "UNH")) (Some (u "0062")) None None (Some (u "Nachrichten-Referenznummer")) (Some (u "X")) None (Some (u "Nachrichten-Kopfsegment")) (Some (2)%Z)), (mkLocation false [(mkLayer None (u "UNH") (Some (u "UTILMD")))] (Some (u "UNH")) (Some (u "0062")) None), STAY);
((mkLine (Some 157650212155963024382469457247711856683%N) None (Some (u "UNH")) (Some (u "0065")) None (Some (u "UTILMD")) (Some (u "Netzanschluss-Stammdaten")) (Some (u "X")) None (Some (u "Nachrichten-Kopfsegment")) (Some (3)%Z)), (mkLocation false [(mkLayer None (u "UNH") (Some (u "UTILMD")))] (Some (u "UNH")) (Some (u "0065")) (Some (u "UTILMD"))), STAY);
((mkLine (Some 311815312362878227187120576969970545812%N) None (Some (u "UNH")) (Some (u "0052")) None (Some (u "D")) (Some (u "Entwurfs-Version")) (Some (u "X")) None (Some (u "Nachrichten-Kopfsegment")) (Some (4)%Z)), (mkLocation false [(mkLayer None (u "UNH") (Some (u "UTILMD")))] (Some (u "UNH")) (Some (u "0052")) (Some (u "D"))), STAY);
((mkLine (Some 304245504291800440382216068096120479783%N) None (Some (u "UNH")) (Some (u "0054")) None (Some (u "11A")) (Some (u "Ausgabe 2011 - A")) (Some (u "X")) None (Some (u "Nachrichten-Kopfsegment")) (Some (5)%Z)), (mkLocation false [(mkLayer None (u "UNH") (Some (u "UTILMD")))] (Some (u "UNH")) (Some (u "0054")) (Some (u "11A"))), STAY);
((mkLine (Some 146810476954041561959288010560951974518%N) None (Some (u "UNH")) (Some (u "0051")) None (Some (u "UN")) (Some (u "UN/CEFACT")) (Some (u "X")) None (Some (u "Nachrichten-Kopfsegment")) (Some (6)%Z)), (mkLocation false [(mkLayer None (u "UNH") (Some (u "UTILMD")))] (Some (u "UNH")) (Some (u "0051")) (Some (u "UN"))), STAY);
((mkLine (Some 180024771227708144982600768737918319406%N) None (Some (u "UNH")) (Some (u "0057")) None (Some (u "5.2d")) (Some (u "Versionsnummer derzugrundeliegendenBDEW-Nachrichtenbeschreibung")) (Some (u "X")) None (Some (u "Nachrichten-Kopfsegment")) (Some (7)%Z)), (mkLocation false [(mkLayer None (u "UNH") (Some (u "UTILMD")))] (Some (u "UNH")) (Some (u "0057")) (Some (u "5.2d"))), STAY);
((mkLine (Some 226822578899444901338326873441744931282%N) None (Some (u "BGM")) None None None None (Some (u "Muss")) None (Some (u "Beginn der Nachricht")) (Some (9)%Z)), (mkLocation false [(mkLayer None (u "UNH") (Some (u "UTILMD")))] (Some (u "BGM")) None None), STAY);
((mkLine (Some 251753271648971810961720545284428448364%N) None (Some (u "BGM")) (Some (u "1001")) None (Some (u "E01")) (Some (u "Anmeldungen")) (Some (u "X")) None (Some (u "Beginn der Nachricht")) (Some (10)%Z)), (mkLocation false [(mkLayer None (u "UNH") (Some (u "UTILMD")))] (Some (u "BGM")) (Some (u "1001")) (Some (u "E01"))), STAY);
((mkLine (Some 320089499370969239071446681798191142510%N) None (Some (u "BGM")) (Some (u "1004")) None None (Some (u "Dokumentennummer")) (Some (u "X")) None (Some (u "Beginn der Nachricht")) (Some (11)%Z)), (mkLocation false [(mkLayer None (u "UNH") (Some (u "UTILMD")))] (Some (u "BGM")) (Some (u "1004")) None), STAY);
((mkLine (Some 243911857240588103006298995855792650067%N) None (Some (u "DTM")) None None None None (Some (u "Muss")) None (Some (u "Nachrichtendatum")) (Some (13)%Z)), (mkLocation false [(mkLayer None (u "UNH") (Some (u "UTILMD")))] (Some (u "DTM")) None None), STAY);
((mkLine (Some 179756110083902872229623156446295157164%N) None (Some (u "DTM")) (Some (u "2005")) None (Some (u "137")) (Some (u "Dokumenten-/Nachrichtendatum/-zeit")) (Some (u "X")) None (Some (u "Nachrichtendatum")) (Some (14)%Z)), (mkLocation false [(mkLayer None (u "UNH") (Some (u "UTILMD")))] (Some (u "DTM")) (Some (u "2005")) (Some (u "137"))), STAY);
((mkLine (Some 27793067753518571226028629694275149020%N) None (Some (u "DTM")) (Some (u "2380")) None None (Some (u "Datum oder Uhrzeit oderZeitspanne, Wert")) (Some (u "X [931] [494]")) None (Some (u "Nachrichtendatum")) (Some (15)%Z)), (mkLocation false [(mkLayer None (u "UNH") (Some (u "UTILMD")))] (Some (u "DTM")) (Some (u "2380")) None), STAY);
((mkLine (Some 139168787037488117955837983111778172559%N) None (Some (u "DTM")) (Some (u "2379")) None (Some (u "303")) (Some (u "CCYYMMDDHHMMZZZ")) (Some (u "X")) None (Some (u "Nachrichtendatum")) (Some (16)%Z)), (mkLocation false [(mkLayer None (u "UNH") (Some (u "UTILMD")))] (Some (u "DTM")) (Some (u "2379")) (Some (u "303"))), STAY);
((mkLine (Some 302690122599469547845759863461736176812%N) (Some (u "SG2")) None None None None None (Some (u "Muss")) None (Some (u "MP-ID Absender")) (Some (18)%Z)), (mkLocation false [(mkLayer None (u "UNH") (Some (u "UTILMD"))); (mkLayer (Some (u "SG2")) (u "NAD") (Some (u "MS")))] (Some (u "NAD")) None None), DIVE_INTO_SUB_GROUP);
((mkLine (Some 88168072023079393266097763004397286100%N) (Some (u "SG2")) (Some (u "NAD")) None None None None (Some (u "Muss")) None (Some (u "MP-ID Absender")) (Some (19)%Z)), (mkLocation false [(mkLayer None (u "UNH") (Some (u "UTILMD"))); (mkLayer (Some (u "SG2")) (u "NAD") (Some (u "MS")))] (Some (u "NAD")) None None), STAY);
((mkLine (Some 75098419442486618635422096596186129829%N) (Some (u "SG2")) (Some (u "NAD")) (Some (u "3035")) None (Some (u "MS")) (Some (u "Dokumenten-/Nachrichtenausstellerbzw. -absender")) (Some (u "X")) None (Some (u "MP-ID Absender")) (Some (20)%Z)), (mkLocation false [(mkLayer None (u "UNH") (Some (u "UTILMD"))); (mkLayer (Some (u "SG2")) (u "NAD") (Some (u "MS")))] (Some (u "NAD")) (Some (u "3035")) (Some (u "MS"))), STAY);
((mkLine (Some 245995203292111396443593713618725074779%N) (Some (u "SG2")) (Some (u "NAD")) (Some (u "3039")) None None (Some (u "MP-ID")) (Some (u "X")) None (Some (u "MP-ID Absender")) (Some (21)%Z)), (mkLocation false [(mkLayer None (u "UNH") (Some (u "UTILMD"))); (mkLayer (Some (u "SG2")) (u "NAD") (Some (u "MS")))] (Some (u "NAD")) (Some (u "3039")) None), STAY);
((mkLine (Some 211621752668792690407451774278396621620%N) (Some (u "SG2")) (Some (u "NAD")) (Some (u "3055")) None (Some (u "9")) (Some (u "GS1")) (Some (u "X")) None (Some (u "MP-ID Absender")) (Some (22)%Z)), (mkLocation false [(mkLayer None (u "UNH") (Some (u "UTILMD"))); (mkLayer (Some (u "SG2")) (u "NAD") (Some (u "MS")))] (Some (u "NAD")) (Some (u "3055")) (Some (u "9"))), STAY);
((mkLine (Some 151709749813637542738027017048676339037%N) (Some (u "SG2")) (Some (u "NAD")) (Some (u "3055")) None (Some (u "293")) (Some (u "DE, BDEW (Bundesverband der Energie- und Wasserwirtschaft e.V.)")) (Some (u "X")) None (Some (u "MP-ID Absender")) (Some (23)%Z)), (mkLocation false [(mkLayer None (u "UNH") (Some (u "UTILMD"))); (mkLayer (Some (u "SG2")) (u "NAD") (Some (u "MS")))] (Some (u "NAD")) (Some (u "3055")) (Some (u "293"))), STAY);
((mkLine (Some 36267946802262693370661175470279802155%N) (Some (u "SG2")) (Some (u "NAD")) (Some (u "3055")) None (Some (u "332")) (Some (u "DE, DVGW Service & Consult GmbH")) (Some (u "X")) None (Some (u "MP-ID Absender")) (Some (24)%Z)), (mkLocation false [(mkLayer None (u "UNH") (Some (u "UTILMD"))); (mkLayer (Some (u "SG2")) (u "NAD") (Some (u "MS")))] (Some (u "NAD")) (Some (u "3055")) (Some (u "332"))), STAY);
((mkLine (Some 37111503955069253107711177706210586526%N) (Some (u "SG3")) None None None None None (Some (u "Kann")) None (Some (u "Ansprechpartner")) (Some (26)%Z)), (mkLocation false [(mkLayer None (u "UNH") (Some (u "UTILMD"))); (mkLayer (Some (u "SG2")) (u "NAD") (Some (u "MS"))); (mkLayer (Some (u "SG3")) (u "CTA") (Some (u "IC")))] (Some (u "CTA")) None None), DIVE_INTO_SUB_GROUP);
((mkLine (Some 209984216671073527793755126820294972065%N) (Some (u "SG3")) (Some (u "CTA")) None None None None (Some (u "Muss")) None (Some (u "Ansprechpartner")) (Some (27)%Z)), (mkLocation false [(mkLayer None (u "UNH") (Some (u "UTILMD"))); (mkLayer (Some (u "SG2")) (u "NAD") (Some (u "MS"))); (mkLayer (Some (u "SG3")) (u "CTA") (Some (u "IC")))] (Some (u "CTA")) None None), STAY);
((mkLine (Some 149233684947245755755677514539706315170%N) (Some (u "SG3")) (Some (u "CTA")) (Some (u "3139")) None (Some (u "IC")) (Some (u "Informationskontakt")) (Some (u "X")) None (Some (u "Ansprechpartner")) (Some (28)%Z)), (mkLocation false [(mkLayer None (u "UNH") (Some (u "UTILMD"))); (mkLayer (Some (u "SG2")) (u "NAD") (Some (u "MS"))); (mkLayer (Some (u "SG3")) (u "CTA") (Some (u "IC")))] (Some (u "CTA")) (Some (u "3139")) (Some (u "IC"))), STAY);
((mkLine (Some 34045052890363593811950284645762324%N) (Some (u "SG3")) (Some (u "CTA")) (Some (u "3412")) None None (Some (u "Name vom Ansprechpartner")) (Some (u "X")) None (Some (u "Ansprechpartner")) (Some (29)%Z)), (mkLocation false [(mkLayer None (u "UNH") (Some (u "UTILMD"))); (mkLayer (Some (u "SG2")) (u "NAD") (Some (u "MS"))); (mkLayer (Some (u "SG3")) (u "CTA") (Some (u "IC")))] (Some (u "CTA")) (Some (u "3412")) None), STAY);
((mkLine (Some 157264950820003501096035443695167216906%N) (Some (u "SG3")) None None None None None None None (Some (u "Kommunikationsverbindung")) (Some (31)%Z)), (mkLocation false [(mkLayer None (u "UNH") (Some (u "UTILMD"))); (mkLayer (Some (u "SG2")) (u "NAD") (Some (u "MS"))); (mkLayer (Some (u "SG3")) (u "CTA") (Some (u "IC")))] (Some (u "COM")) None None), STAY);
((mkLine (Some 220244447254624464029339356720599218256%N) (Some (u "SG3")) (Some (u "COM")) None None None None (Some (u "Muss")) None (Some (u "Kommunikationsverbindung")) (Some (32)%Z)), (mkLocation false [(mkLayer None (u "UNH") (Some (u "UTILMD"))); (mkLayer (Some (u "SG2")) (u "NAD") (Some (u "MS"))); (mkLayer (Some (u "SG3")) (u "CTA") (Some (u "IC")))] (Some (u "COM")) None None), STAY);
((mkLine (Some 302418427305036403256259068199346611343%N) (Some (u "SG3")) (Some (u "COM")) (Some (u "3148")) None None (Some (u "Nummer / Adresse")) (Some (u "X")) None (Some (u "Kommunikationsverbindung")) (Some (33)%Z)), (mkLocation false [(mkLayer None (u "UNH") (Some (u "UTILMD"))); (mkLayer (Some (u "SG2")) (u "NAD") (Some (u "MS"))); (mkLayer (Some (u "SG3")) (u "CTA") (Some (u "IC")))] (Some (u "COM")) (Some (u "3148")) None), STAY);
((mkLine (Some 214090697118807979347800064332988006436%N) (Some (u "SG3")) (Some (u "COM")) (Some (u "3155")) None (Some (u "EM")) (Some (u "Elektronische Post")) (Some (u "X [1P0..1]")) None (Some (u "Kommunikationsverbindung")) (Some (34)%Z)), (mkLocation false [(mkLayer None (u "UNH") (Some (u "UTILMD"))); (mkLayer (Some (u "SG2")) (u "NAD") (Some (u "MS"))); (mkLayer (Some (u "SG3")) (u "CTA") (Some (u "IC")))] (Some (u "COM")) (Some (u "3155")) (Some (u "EM"))), STAY);
((mkLine (Some 51150038474486008551424193799946939588%N) (Some (u "SG3")) (Some (u "COM")) (Some (u "3155")) None (Some (u "FX")) (Some (u "Telefax")) (Some (u "X [1P0..1]")) None (Some (u "Kommunikationsverbindung")) (Some (35)%Z)), (mkLocation false [(mkLayer None (u "UNH") (Some (u "UTILMD"))); (mkLayer (Some (u "SG2")) (u "NAD") (Some (u "MS"))); (mkLayer (Some (u "SG3")) (u "CTA") (Some (u "IC")))] (Some (u "COM")) (Some (u "3155")) (Some (u "FX"))), STAY);
((mkLine (Some 57879412938462750094595807985821900260%N) (Some (u "SG3")) (Some (u "COM")) (Some (u "3155")) None (Some (u "TE")) (Some (u "Telefon")) (Some (u "X [1P0..1]")) None (Some (u "Kommunikationsverbindung")) (Some (36)%Z)), (mkLocation false [(mkLayer None (u "UNH") (Some (u "UTILMD"))); (mkLayer (Some (u "SG2")) (u "NAD") (Some (u "MS"))); (mkLayer (Some (u "SG3")) (u "CTA") (Some (u "IC")))] (Some (u "COM")) (Some (u "3155")) (Some (u "TE"))), STAY);
((mkLine (Some 337669159976585467434369299006586440755%N) (Some (u "SG3")) (Some (u "COM")) (Some (u "3155")) None (Some (u "AJ")) (Some (u "weiteres Telefon")) (Some (u "X [1P0..1]")) None (Some (u "Kommunikationsverbindung")) (Some (37)%Z)), (mkLocation false [(mkLayer None (u "UNH") (Some (u "UTILMD"))); (mkLayer (Some (u "SG2")) (u "NAD") (Some (u "MS"))); (mkLayer (Some (u "SG3")) (u "CTA") (Some (u "IC")))] (Some (u "COM")) (Some (u "3155")) (Some (u "AJ"))), STAY);
((mkLine (Some 119675740305655631829275068088227915980%N) (Some (u "SG3")) (Some (u "COM")) (Some (u "3155")) None (Some (u "AL")) (Some (u "Handy")) (Some (u "X [1P0..1]")) None (Some (u "Kommunikationsverbindung")) (Some (38)%Z)), (mkLocation false [(mkLayer None (u "UNH") (Some (u "UTILMD"))); (mkLayer (Some (u "SG2")) (u "NAD") (Some (u "MS"))); (mkLayer (Some (u "SG3")) (u "CTA") (Some (u "IC")))] (Some (u "COM")) (Some (u "3155")) (Some (u "AL"))), STAY);
((mkLine (Some 88136287044474969062807277742172347038%N) (Some (u "SG2")) None None None None None (Some (u "Muss")) None (Some (u "MP-ID Empfänger")) (Some (40)%Z)), (mkLocation false [(mkLayer None (u "UNH") (Some (u "UTILMD"))); (mkLayer (Some (u "SG2")) (u "NAD") (Some (u "MR")))] (Some (u "NAD")) None None), LEAVE_TO_PARENT_AND_DIVE_INTO_SUB_GROUP);
((mkLine (Some 326715693586793686719334283340643462004%N) (Some (u "SG2")) (Some (u "NAD")) None None None None (Some (u "Muss")) None (Some (u "MP-ID Empfänger")) (Some (41)%Z)), (mkLocation false [(mkLayer None (u "UNH") (Some (u "UTILMD"))); (mkLayer (Some (u "SG2")) (u "NAD") (Some (u "MR")))] (Some (u "NAD")) None None), STAY);
((mkLine (Some 215508090725051160738056412047121797960%N) (Some (u "SG2")) (Some (u "NAD")) (Some (u "3035")) None (Some (u "MR")) (Some (u "Nachrichtenempfänger")) (Some (u "X")) None (Some (u "MP-ID Empfänger")) (Some (42)%Z)), (mkLocation false [(mkLayer None (u "UNH") (Some (u "UTILMD"))); (mkLayer (Some (u "SG2")) (u "NAD") (Some (u "MR")))] (Some (u "NAD")) (Some (u "3035")) (Some (u "MR"))), STAY);
((mkLine (Some 249492976985456435195130144506712826674%N) (Some (u "SG2")) (Some (u "NAD")) (Some (u "3039")) None None (Some (u "MP-ID")) (Some (u "X")) None (Some (u "MP-ID Empfänger")) (Some (43)%Z)), (mkLocation false [(mkLayer None (u "UNH") (Some (u "UTILMD"))); (mkLayer (Some (u "SG2")) (u "NAD") (Some (u "MR")))] (Some (u "NAD")) (Some (u "3039")) None), STAY);
((mkLine (Some 91648945190012331176470510464690102737%N) (Some (u "SG2")) (Some (u "NAD")) (Some (u "3055")) None (Some (u "9")) (Some (u "GS1")) (Some (u "X")) None (Some (u "MP-ID Empfänger")) (Some (44)%Z)), (mkLocation false [(mkLayer None (u "UNH") (Some (u "UTILMD"))); (mkLayer (Some (u "SG2")) (u "NAD") (Some (u "MR")))] (Some (u "NAD")) (Some (u "3055")) (Some (u "9"))), STAY);
((mkLine (Some 11222517245626515465679053947768893213%N) (Some (u "SG2")) (Some (u "NAD")) (Some (u "3055")) None (Some (u "293")) (Some (u "DE, BDEW (Bundesverband der Energie- und Wasserwirtschaft e.V.)")) (Some (u "X")) None (Some (u "MP-ID Empfänger")) (Some (45)%Z)), (mkLocation false [(mkLayer None (u "UNH") (Some (u "UTILMD"))); (mkLayer (Some (u "SG2")) (u "NAD") (Some (u "MR")))] (Some (u "NAD")) (Some (u "3055")) (Some (u "293"))), STAY);
((mkLine (Some 6386437577610229682891959413351850131%N) (Some (u "SG2")) (Some (u "NAD")) (Some (u "3055")) None (Some (u "332")) (Some (u "DE, DVGW Service & Consult GmbH")) (Some (u "X")) None (Some (u "MP-ID Empfänger")) (Some (46)%Z)), (mkLocation false [(mkLayer None (u "UNH") (Some (u "UTILMD"))); (mkLayer (Some (u "SG2")) (u "NAD") (Some (u "MR")))] (Some (u "NAD")) (Some (u "3055")) (Some (u "332"))), STAY);
((mkLine (Some 126778924999593694844835942380007361536%N) (Some (u "SG4")) None None None None None (Some (u "Muss")) None (Some (u "Vorgang")) (Some (48)%Z)), (mkLocation false [(mkLayer None (u "UNH") (Some (u "UTILMD"))); (mkLayer (Some (u "SG4")) (u "IDE") (Some (u "24")))] (Some (u "IDE")) None None), LEAVE_TO_PARENT_AND_DIVE_INTO_SUB_GROUP);
((mkLine (Some 189449283581380169190829996515410316454%N) (Some (u "SG4")) (Some (u "IDE")) None None None None (Some (u "Muss")) None (Some (u "Vorgang")) (Some (49)%Z)), (mkLocation false [(mkLayer None (u "UNH") (Some (u "UTILMD"))); (mkLayer (Some (u "SG4")) (u "IDE") (Some (u "24")))] (Some (u "IDE")) None None), STAY);
((mkLine (Some 154070508398378671715945780243259223566%N) (Some (u "SG4")) (Some (u "IDE")) (Some (u "7495")) None (Some (u "24")) (Some (u "Transaktion")) (Some (u "X")) None (Some (u "Vorgang")) (Some (50)%Z)), (mkLocation false [(mkLayer None (u "UNH") (Some (u "UTILMD"))); (mkLayer (Some (u "SG4")) (u "IDE") (Some (u "24")))] (Some (u "IDE")) (Some (u "7495")) (Some (u "24"))), STAY);
((mkLine (Some 213042631110653716872616320488530527594%N) (Some (u "SG4")) (Some (u "IDE")) (Some (u "7402")) None None (Some (u "Vorgangsnummer")) (Some (u "X")) None (Some (u "Vorgang")) (Some (51)%Z)), (mkLocation false [(mkLayer None (u "UNH") (Some (u "UTILMD"))); (mkLayer (Some (u "SG4")) (u "IDE") (Some (u "24")))] (Some (u "IDE")) (Some (u "7402")) None), STAY);
((mkLine (Some 335758530100752093488895908746354612145%N) (Some (u "SG4")) None None None None None None None (Some (u "Datum zum geplanten Leistungsbeginn")) (Some (53)%Z)), (mkLocation false [(mkLayer None (u "UNH") (Some (u "UTILMD"))); (mkLayer (Some (u "SG4")) (u "IDE") (Some (u "24")))] (Some (u "DTM")) None None), STAY);
((mkLine (Some 319047541771117075334470801051206699308%N) (Some (u "SG4")) (Some (u "DTM")) None None None None (Some (u "Muss")) None (Some (u "Datum zum geplanten Leistungsbeginn")) (Some (54)%Z)), (mkLocation false [(mkLayer None (u "UNH") (Some (u "UTILMD"))); (mkLayer (Some (u "SG4")) (u "IDE") (Some (u "24")))] (Some (u "DTM")) None None), STAY);
((mkLine (Some 65096427776342941942740483381538867579%N) (Some (u "SG4")) (Some (u "DTM")) (Some (u "2005")) None (Some (u "76")) (Some (u "Lieferdatum/-zeit, geplant")) (Some (u "X")) None (Some (u "Datum zum geplanten Leistungsbeginn")) (Some (55)%Z)), (mkLocation false [(mkLayer None (u "UNH") (Some (u "UTILMD"))); (mkLayer (Some (u "SG4")) (u "IDE") (Some (u "24")))] (Some (u "DTM")) (Some (u "2005")) (Some (u "76"))), STAY);
((mkLine (Some 260050237023588858492144741420268996333%N) (Some (u "SG4")) (Some (u "DTM")) (Some (u "2380")) None None (Some (u "Datum oder Uhrzeit oderZeitspanne, Wert")) (Some (u "X [UB3]")) None (Some (u "Datum zum geplanten Leistungsbeginn")) (Some (56)%Z)), (mkLocation false [(mkLayer None (u "UNH") (Some (u "UTILMD"))); (mkLayer (Some (u "SG4")) (u "IDE") (Some (u "24")))] (Some (u "DTM")) (Some (u "2380")) None), STAY);
((mkLine (Some 16116889854661130367240153500997757957%N) (Some (u "SG4")) (Some (u "DTM")) (Some (u "2379")) None (Some (u "303")) (Some (u "CCYYMMDDHHMMZZZ")) (Some (u "X")) None (Some (u "Datum zum geplanten Leistungsbeginn")) (Some (57)%Z)), (mkLocation false [(mkLayer None (u "UNH") (Some (u "UTILMD"))); (mkLayer (Some (u "SG4")) (u "IDE") (Some (u "24")))] (Some (u "DTM")) (Some (u "2379")) (Some (u "303"))), STAY);
((mkLine (Some 28726306414123035215462770004575949904%N) (Some (u "SG4")) None None None None None None None (Some (u "Transaktionsgrund")) (Some (59)%Z)), (mkLocation false [(mkLayer None (u "UNH") (Some (u "UTILMD"))); (mkLayer (Some (u "SG4")) (u "IDE") (Some (u "24")))] (Some (u "STS")) None None), STAY);
((mkLine (Some 293888464676144765597908378181985883984%N) (Some (u "SG4")) (Some (u "STS")) None None None None (Some (u "Muss [61]")) None (Some (u "Transaktionsgrund")) (Some (60)%Z)), (mkLocation false [(mkLayer None (u "UNH") (Some (u "UTILMD"))); (mkLayer (Some (u "SG4")) (u "IDE") (Some (u "24")))] (Some (u "STS")) None None), STAY);
((mkLine (Some 162321924403145671779919417744620201450%N) (Some (u "SG4")) (Some (u "STS")) (Some (u "9015")) None (Some (u "7")) (Some (u "Transaktionsgrund")) (Some (u "X")) None (Some (u "Transaktionsgrund")) (Some (61)%Z)), (mkLocation false [(mkLayer None (u "UNH") (Some (u "UTILMD"))); (mkLayer (Some (u "SG4")) (u "IDE") (Some (u "24")))] (Some (u "STS")) (Some (u "9015")) (Some (u "7"))), STAY);
((mkLine (Some 229158961385774192388347454041334954425%N) (Some (u "SG4")) (Some (u "STS")) (Some (u "9013")) None (Some (u "E01")) (Some (u "Ein-/Auszug (Umzug)")) (Some (u "X")) None (Some (u "Transaktionsgrund")) (Some (62)%Z)), (mkLocation false [(mkLayer None (u "UNH") (Some (u "UTILMD"))); (mkLayer (Some (u "SG4")) (u "IDE") (Some (u "24")))] (Some (u "STS")) (Some (u "9013")) (Some (u "E01"))), STAY);
((mkLine (Some 100184042921080596469366860979373440408%N) (Some (u "SG4")) (Some (u "STS")) (Some (u "9013")) None (Some (u "E02")) (Some (u "Einzug/Neuanlage")) (Some (u "X")) None (Some (u "Transaktionsgrund")) (Some (63)%Z)), (mkLocation false [(mkLayer None (u "UNH") (Some (u "UTILMD"))); (mkLayer (Some (u "SG4")) (u "IDE") (Some (u "24")))] (Some (u "STS")) (Some (u "9013")) (Some (u "E02"))), STAY);
((mkLine (Some 139890341197893138961164979371554126048%N) (Some (u "SG4")) (Some (u "STS")) (Some (u "9013")) None (Some (u "E03")) (Some (u "Wechsel")) (Some (u "X")) None (Some (u "Transaktionsgrund")) (Some (64)%Z)), (mkLocation false [(mkLayer None (u "UNH") (Some (u "UTILMD"))); (mkLayer (Some (u "SG4")) (u "IDE") (Some (u "24")))] (Some (u "STS")) (Some (u "9013")) (Some (u "E03"))), STAY);
((mkLine (Some 295151339661204983789357525360920245023%N) (Some (u "SG4")) (Some (u "STS")) (Some (u "9013")) None (Some (u "ZJ4")) (Some (u "Übernahme aufgrund nicht erfolgtem iMS- Einbau")) (Some (u "X")) None (Some (u "Transaktionsgrund")) (Some (65)%Z)), (mkLocation false [(mkLayer None (u "UNH") (Some (u "UTILMD"))); (mkLayer (Some (u "SG4")) (u "IDE") (Some (u "24")))] (Some (u "STS")) (Some (u "9013")) (Some (u "ZJ4"))), STAY);
((mkLine (Some 118805407321920651817515383712024310430%N) (Some (u "SG4")) None None None None None None None (Some (u "Status der Antwort")) (Some (67)%Z)), (mkLocation false [(mkLayer None (u "UNH") (Some (u "UTILMD"))); (mkLayer (Some (u "SG4")) (u "IDE") (Some (u "24")))] (Some (u "STS")) None None), STAY);
((mkLine (Some 116388996770927654616299342598858123297%N) (Some (u "SG4")) (Some (u "STS")) None None None None None None (Some (u "Status der Antwort")) (Some (68)%Z)), (mkLocation false [(mkLayer None (u "UNH") (Some (u "UTILMD"))); (mkLayer (Some (u "SG4")) (u "IDE") (Some (u "24")))] (Some (u "STS")) None None), STAY);
((mkLine (Some 151057259283137614707050714927721243321%N) (Some (u "SG4")) (Some (u "STS")) (Some (u "9015")) None (Some (u "E01")) (Some (u "Status der Antwort")) None None (Some (u "Status der Antwort")) (Some (69)%Z)), (mkLocation false [(mkLayer None (u "UNH") (Some (u "UTILMD"))); (mkLayer (Some (u "SG4")) (u "IDE") (Some (u "24")))] (Some (u "STS")) (Some (u "9015")) (Some (u "E01"))), STAY);
((mkLine (Some 259768287580456736068576683946942138785%N) (Some (u "SG4")) (Some (u "STS")) (Some (u "9013")) None None (Some (u "Code des Prüfschritts")) None None (Some (u "Status der Antwort")) (Some (70)%Z)), (mkLocation false [(mkLayer None (u "UNH") (Some (u "UTILMD"))); (mkLayer (Some (u "SG4")) (u "IDE") (Some (u "24")))] (Some (u "STS")) (Some (u "9013")) None), STAY);
((mkLine (Some 263073240556829560597610830193249932168%N) (Some (u "SG4")) (Some (u "STS")) (Some (u "1131")) None (Some (u "G_0053")) (Some (u "Codeliste Gas Nr. G_0053")) None None (Some (u "Status der Antwort")) (Some (71)%Z)), (mkLocation false [(mkLayer None (u "UNH") (Some (u "UTILMD"))); (mkLayer (Some (u "SG4")) (u "IDE") (Some (u "24")))] (Some (u "STS")) (Some (u "1131")) (Some (u "G_0053"))), STAY);
((mkLine (Some 53713868036251836702349021716379020270%N) (Some (u "SG4")) (Some (u "STS")) (Some (u "1131")) None (Some (u "G_0054")) (Some (u "Codeliste Gas Nr. G_0054")) None None (Some (u "Status der Antwort")) (Some (72)%Z)), (mkLocation false [(mkLayer None (u "UNH") (Some (u "UTILMD"))); (mkLayer (Some (u "SG4")) (u "IDE") (Some (u "24")))] (Some (u "STS")) (Some (u "1131")) (Some (u "G_0054"))), STAY);
((mkLine (Some 109884203984473065388669151695962832063%N) (Some (u "SG4")) (Some (u "STS")) (Some (u "1131")) None (Some (u "Codeliste Strom Nr. S_0055")) (Some (u "S_0055")) None None (Some (u "Status der Antwort")) (Some (73)%Z)), (mkLocation false [(mkLayer None (u "UNH") (Some (u "UTILMD"))); (mkLayer (Some (u "SG4")) (u "IDE") (Some (u "24")))] (Some (u "STS")) (Some (u "1131")) (Some (u "Codeliste Strom Nr. S_0055"))), STAY);
((mkLine (Some 285100371636334840700711875017624423253%N) (Some (u "SG4")) (Some (u "STS")) (Some (u "1131")) None (Some (u "Codeliste Strom Nr. S_0056")) (Some (u "S_0056")) None None (Some (u "Status der Antwort")) (Some (74)%Z)), (mkLocation false [(mkLayer None (u "UNH") (Some (u "UTILMD"))); (mkLayer (Some (u "SG4")) (u "IDE") (Some (u "24")))] (Some (u "STS")) (Some (u "1131")) (Some (u "Codeliste Strom Nr. S_0056"))), STAY);
((mkLine (Some 264904642873611862278749920035985455112%N) (Some (u "SG4")) None None None None None None None (Some (u "Beauftragung oder Beendigung liegt vor")) (Some (76)%Z)), (mkLocation false [(mkLayer None (u "UNH") (Some (u "UTILMD"))); (mkLayer (Some (u "SG4")) (u "IDE") (Some (u "24")))] (Some (u "AGR")) None None), STAY);
((mkLine (Some 228026133666247654877370989093132204939%N) (Some (u "SG4")) (Some (u "AGR")) None None None None (Some (u "Kann")) None (Some (u "Beauftragung oder Beendigung liegt vor")) (Some (77)%Z)), (mkLocation false [(mkLayer None (u "UNH") (Some (u "UTILMD"))); (mkLayer (Some (u "SG4")) (u "IDE") (Some (u "24")))] (Some (u "AGR")) None None), STAY);
((mkLine (Some 133345040489155907171565317212463391837%N) (Some (u "SG4")) (Some (u "AGR")) (Some (u "7431")) None (Some (u "9")) (Some (u "Vertrag")) (Some (u "X")) None (Some (u "Beauftragung oder Beendigung liegt vor")) (Some (78)%Z)), (mkLocation false [(mkLayer None (u "UNH") (Some (u "UTILMD"))); (mkLayer (Some (u "SG4")) (u "IDE") (Some (u "24")))] (Some (u "AGR")) (Some (u "7431")) (Some (u "9"))), STAY);
((mkLine (Some 80302188957747172242698427812432898447%N) (Some (u "SG4")) (Some (u "AGR")) (Some (u "7433")) None (Some (u "Z04")) (Some (u "Vertrag zwischen AN und MSB")) (Some (u "X [1P0..1]")) None (Some (u "Beauftragung oder Beendigung liegt vor")) (Some (79)%Z)), (mkLocation false [(mkLayer None (u "UNH") (Some (u "UTILMD"))); (mkLayer (Some (u "SG4")) (u "IDE") (Some (u "24")))] (Some (u "AGR")) (Some (u "7433")) (Some (u "Z04"))), STAY);
((mkLine (Some 80437954732246409690012607305335937717%N) (Some (u "SG4")) (Some (u "AGR")) (Some (u "7433")) None (Some (u "Z06")) (Some (u "Vertragsbeendigung liegt vor")) (Some (u "X [1P0..1]")) None (Some (u "Beauftragung oder Beendigung liegt vor")) (Some (80)%Z)), (mkLocation false [(mkLayer None (u "UNH") (Some (u "UTILMD"))); (mkLayer (Some (u "SG4")) (u "IDE") (Some (u "24")))] (Some (u "AGR")) (Some (u "7433")) (Some (u "Z06"))), STAY);
((mkLine (Some 257816794297772340286589764552731455202%N) (Some (u "SG5")) None None None None None (Some (u "Muss ([77] u[78]) u (([61]u [584]) o[583])")) None (Some (u "Meldepunkt")) (Some (82)%Z)), (mkLocation false [(mkLayer None (u "UNH") (Some (u "UTILMD"))); (mkLayer (Some (u "SG4")) (u "IDE") (Some (u "24"))); (mkLayer (Some (u "SG5")) (u "LOC") (Some (u "172")))] (Some (u "LOC")) None None), DIVE_INTO_SUB_GROUP);
((mkLine (Some 258070239506671735577778334544120935663%N) (Some (u "SG5")) (Some (u "LOC")) None None None None (Some (u "Muss")) None (Some (u "Meldepunkt")) (Some (83)%Z)), (mkLocation false [(mkLayer None (u "UNH") (Some (u "UTILMD"))); (mkLayer (Some (u "SG4")) (u "IDE") (Some (u "24"))); (mkLayer (Some (u "SG5")) (u "LOC") (Some (u "172")))] (Some (u "LOC")) None None), STAY);
((mkLine (Some 185537611282026585831269417148273583202%N) (Some (u "SG5")) (Some (u "LOC")) (Some (u "3227")) None (Some (u "172")) (Some (u "Meldepunkt")) (Some (u "X")) None (Some (u "Meldepunkt")) (Some (84)%Z)), (mkLocation false [(mkLayer None (u "UNH") (Some (u "UTILMD"))); (mkLayer (Some (u "SG4")) (u "IDE") (Some (u "24"))); (mkLayer (Some (u "SG5")) (u "LOC") (Some (u "172")))] (Some (u "LOC")) (Some (u "3227")) (Some (u "172"))), STAY);
((mkLine (Some 77965646686509991813129751753626619035%N) (Some (u "SG5")) (Some (u "LOC")) (Some (u "3225")) None None (Some (u "Identifikator")) (Some (u "X [953]")) None (Some (u "Meldepunkt")) (Some (85)%Z)), (mkLocation false [(mkLayer None (u "UNH") (Some (u "UTILMD"))); (mkLayer (Some (u "SG4")) (u "IDE") (Some (u "24"))); (mkLayer (Some (u "SG5")) (u "LOC") (Some (u "172")))] (Some (u "LOC")) (Some (u "3225")) None), STAY);
((mkLine (Some 124102973189434349125373426923911135428%N) (Some (u "SG6")) None None None None None (Some (u "Muss")) None (Some (u "Prüfidentifikator")) (Some (88)%Z)), (mkLocation false [(mkLayer None (u "UNH") (Some (u "UTILMD"))); (mkLayer (Some (u "SG4")) (u "IDE") (Some (u "24"))); (mkLayer (Some (u "SG6")) (u "RFF") (Some (u "Z13")))] (Some (u "RFF")) None None), LEAVE_TO_PARENT_AND_DIVE_INTO_SUB_GROUP);
((mkLine (Some 294735234581533620506549508149047582381%N) (Some (u "SG6")) (Some (u "RFF")) None None None None (Some (u "Muss")) None (Some (u "Prüfidentifikator")) (Some (89)%Z)), (mkLocation false [(mkLayer None (u "UNH") (Some (u "UTILMD"))); (mkLayer (Some (u "SG4")) (u "IDE") (Some (u "24"))); (mkLayer (Some (u "SG6")) (u "RFF") (Some (u "Z13")))] (Some (u "RFF")) None None), STAY);
((mkLine (Some 241990486157027872544270392963234570218%N) (Some (u "SG6")) (Some (u "RFF")) (Some (u "1153")) None (Some (u "Z13")) (Some (u "Prüfidentifikator")) (Some (u "X")) None (Some (u "Prüfidentifikator")) (Some (90)%Z)), (mkLocation false [(mkLayer None (u "UNH") (Some (u "UTILMD"))); (mkLayer (Some (u "SG4")) (u "IDE") (Some (u "24"))); (mkLayer (Some (u "SG6")) (u "RFF") (Some (u "Z13")))] (Some (u "RFF")) (Some (u "1153")) (Some (u "Z13"))), STAY);
((mkLine (Some 214491357518195336103250115332100486233%N) (Some (u "SG6")) (Some (u "RFF")) (Some (u "1154")) None (Some (u "11042")) (Some (u "WiM / Anmeldung MSB")) (Some (u "X")) None (Some (u "Prüfidentifikator")) (Some (91)%Z)), (mkLocation false [(mkLayer None (u "UNH") (Some (u "UTILMD"))); (mkLayer (Some (u "SG4")) (u "IDE") (Some (u "24"))); (mkLayer (Some (u "SG6")) (u "RFF") (Some (u "Z13")))] (Some (u "RFF")) (Some (u "1154")) (Some (u "11042"))), STAY);
((mkLine (Some 228541896054998761156136993324552299240%N) (Some (u "SG6")) (Some (u "RFF")) (Some (u "1154")) None (Some (u "11043")) (Some (u "WiM / Bestätigung Anmeldung MSB")) None None (Some (u "Prüfidentifikator")) (Some (92)%Z)), (mkLocation false [(mkLayer None (u "UNH") (Some (u "UTILMD"))); (mkLayer (Some (u "SG4")) (u "IDE") (Some (u "24"))); (mkLayer (Some (u "SG6")) (u "RFF") (Some (u "Z13")))] (Some (u "RFF")) (Some (u "1154")) (Some (u "11043"))), STAY);
((mkLine (Some 78338957247233778896956389270188991629%N) (Some (u "SG6")) (Some (u "RFF")) (Some (u "1154")) None (Some (u "11044")) (Some (u "WiM / Ablehnung Anmeldung MSB")) None None (Some (u "Prüfidentifikator")) (Some (93)%Z)), (mkLocation false [(mkLayer None (u "UNH") (Some (u "UTILMD"))); (mkLayer (Some (u "SG4")) (u "IDE") (Some (u "24"))); (mkLayer (Some (u "SG6")) (u "RFF") (Some (u "Z13")))] (Some (u "RFF")) (Some (u "1154")) (Some (u "11044"))), STAY);
((mkLine (Some 329328567904580533998491280348794845558%N) (Some (u "SG6")) None None None None None None None (Some (u "Referenz Vorgangsnummer (aus Anfragenachricht)")) (Some (95)%Z)), (mkLocation false [(mkLayer None (u "UNH") (Some (u "UTILMD"))); (mkLayer (Some (u "SG4")) (u "IDE") (Some (u "24"))); (mkLayer (Some (u "SG6")) (u "RFF") (Some (u "TN")))] (Some (u "RFF")) None None), MOVE_TO_NEIGHBOUR_SAME_KEY);
((mkLine (Some 187405736717581259244643528038976800833%N) (Some (u "SG6")) (Some (u "RFF")) None None None None None None (Some (u "Referenz Vorgangsnummer (aus Anfragenachricht)")) (Some (96)%Z)), (mkLocation false [(mkLayer None (u "UNH") (Some (u "UTILMD"))); (mkLayer (Some (u "SG4")) (u "IDE") (Some (u "24"))); (mkLayer (Some (u "SG6")) (u "RFF") (Some (u "TN")))] (Some (u "RFF")) None None), STAY);
((mkLine (Some 143237722560310488046909063861313597375%N) (Some (u "SG6")) (Some (u "RFF")) (Some (u "1153")) None (Some (u "TN")) (Some (u "Transaktions-Referenznummer")) None None (Some (u "Referenz Vorgangsnummer (aus Anfragenachricht)")) (Some (97)%Z)), (mkLocation false [(mkLayer None (u "UNH") (Some (u "UTILMD"))); (mkLayer (Some (u "SG4")) (u "IDE") (Some (u "24"))); (mkLayer (Some (u "SG6")) (u "RFF") (Some (u "TN")))] (Some (u "RFF")) (Some (u "1153")) (Some (u "TN"))), STAY);
((mkLine (Some 285722470720453527499201133854096836093%N) (Some (u "SG6")) (Some (u "RFF")) (Some (u "1154")) None None (Some (u "Vorgangsnummer")) None None (Some (u "Referenz Vorgangsnummer (aus Anfragenachricht)")) (Some (98)%Z)), (mkLocation false [(mkLayer None (u "UNH") (Some (u "UTILMD"))); (mkLayer (Some (u "SG4")) (u "IDE") (Some (u "24"))); (mkLayer (Some (u "SG6")) (u "RFF") (Some (u "TN")))] (Some (u "RFF")) (Some (u "1154")) None), STAY);
((mkLine (Some 157679283739186898516056304624715674664%N) (Some (u "SG6")) None None None None None None None (Some (u "Referenz auf die ID der Marktlokation für Termine der Marktlokation")) (Some (100)%Z)), (mkLocation false [(mkLayer None (u "UNH") (Some (u "UTILMD"))); (mkLayer (Some (u "SG4")) (u "IDE") (Some (u "24"))); (mkLayer (Some (u "SG6")) (u "RFF") (Some (u "Z18")))] (Some (u "RFF")) None None), MOVE_TO_NEIGHBOUR_SAME_KEY);
((mkLine (Some 280399791018594940057579494931214994834%N) (Some (u "SG6")) (Some (u "RFF")) None None None None None None (Some (u "Referenz auf die ID der Marktlokation für Termine der Marktlokation")) (Some (101)%Z)), (mkLocation false [(mkLayer None (u "UNH") (Some (u "UTILMD"))); (mkLayer (Some (u "SG4")) (u "IDE") (Some (u "24"))); (mkLayer (Some (u "SG6")) (u "RFF") (Some (u "Z18")))] (Some (u "RFF")) None None), STAY);
((mkLine (Some 131880934038817239183497637798624403419%N) (Some (u "SG6")) (Some (u "RFF")) (Some (u "1153")) None (Some (u "Z18")) (Some (u "Marktlokation")) None None (Some (u "Referenz auf die ID der Marktlokation für Termine der Marktlokation")) (Some (102)%Z)), (mkLocation false [(mkLayer None (u "UNH") (Some (u "UTILMD"))); (mkLayer (Some (u "SG4")) (u "IDE") (Some (u "24"))); (mkLayer (Some (u "SG6")) (u "RFF") (Some (u "Z18")))] (Some (u "RFF")) (Some (u "1153")) (Some (u "Z18"))), STAY);
((mkLine (Some 312219591227635272372120346001356808056%N) (Some (u "SG6")) (Some (u "RFF")) (Some (u "1154")) None None (Some (u "ID der Marktlokation")) None None (Some (u "Referenz auf die ID der Marktlokation für Termine der Marktlokation")) (Some (103)%Z)), (mkLocation false [(mkLayer None (u "UNH") (Some (u "UTILMD"))); (mkLayer (Some (u "SG4")) (u "IDE") (Some (u "24"))); (mkLayer (Some (u "SG6")) (u "RFF") (Some (u "Z18")))] (Some (u "RFF")) (Some (u "1154")) None), STAY);
((mkLine (Some 309909562312915643455056301348216776571%N) (Some (u "SG6")) None None None None None None None (Some (u "Geplante Turnusablesung des MSB (Strom)")) (Some (105)%Z)), (mkLocation false [(mkLayer None (u "UNH") (Some (u "UTILMD"))); (mkLayer (Some (u "SG4")) (u "IDE") (Some (u "24"))); (mkLayer (Some (u "SG6")) (u "RFF") (Some (u "Z18")))] (Some (u "DTM")) None None), STAY);
((mkLine (Some 32977973267442258848001269395018544552%N) (Some (u "SG6")) (Some (u "DTM")) None None None None None None (Some (u "Geplante Turnusablesung des MSB (Strom)")) (Some (106)%Z)), (mkLocation false [(mkLayer None (u "UNH") (Some (u "UTILMD"))); (mkLayer (Some (u "SG4")) (u "IDE") (Some (u "24"))); (mkLayer (Some (u "SG6")) (u "RFF") (Some (u "Z18")))] (Some (u "DTM")) None None), STAY);
((mkLine (Some 224813936472445901971100995385473286526%N) (Some (u "SG6")) (Some (u "DTM")) (Some (u "2005")) None (Some (u "752")) (Some (u "Geplante Turnusablesung")) None None (Some (u "Geplante Turnusablesung des MSB (Strom)")) (Some (108)%Z)), (mkLocation false [(mkLayer None (u "UNH") (Some (u "UTILMD"))); (mkLayer (Some (u "SG4")) (u "IDE") (Some (u "24"))); (mkLayer (Some (u "SG6")) (u "RFF") (Some (u "Z18")))] (Some (u "DTM")) (Some (u "2005")) (Some (u "752"))), STAY);
((mkLine (Some 148824977154107873905635841561725460132%N) (Some (u "SG6")) (Some (u "DTM")) (Some (u "2380")) None None (Some (u "Datum oder Uhrzeit oderZeitspanne, Wert")) None None (Some (u "Geplante Turnusablesung des MSB (Strom)")) (Some (109)%Z)), (mkLocation false [(mkLayer None (u "UNH") (Some (u "UTILMD"))); (mkLayer (Some (u "SG4")) (u "IDE") (Some (u "24"))); (mkLayer (Some (u "SG6")) (u "RFF") (Some (u "Z18")))] (Some (u "DTM")) (Some (u "2380")) None), STAY);
((mkLine (Some 143870726022531298473779063980858859055%N) (Some (u "SG6")) (Some (u "DTM")) (Some (u "2379")) None (Some (u "104")) (Some (u "MMWW-MMWW")) None None (Some (u "Geplante Turnusablesung des MSB (Strom)")) (Some (110)%Z)), (mkLocation false [(mkLayer None (u "UNH") (Some (u "UTILMD"))); (mkLayer (Some (u "SG4")) (u "IDE") (Some (u "24"))); (mkLayer (Some (u "SG6")) (u "RFF") (Some (u "Z18")))] (Some (u "DTM")) (Some (u "2379")) (Some (u "104"))), STAY);
((mkLine (Some 45873989602411914512136584113702389021%N) (Some (u "SG6")) (Some (u "DTM")) (Some (u "2379")) None (Some (u "106")) (Some (u "MMDD")) None None (Some (u "Geplante Turnusablesung des MSB (Strom)")) (Some (111)%Z)), (mkLocation false [(mkLayer None (u "UNH") (Some (u "UTILMD"))); (mkLayer (Some (u "SG4")) (u "IDE") (Some (u "24"))); (mkLayer (Some (u "SG6")) (u "RFF") (Some (u "Z18")))] (Some (u "DTM")) (Some (u "2379")) (Some (u "106"))), STAY);
((mkLine (Some 65117879213739680774901827825734910604%N) (Some (u "SG6")) None None None None None None None (Some (u "Turnusableseintervall des MSB (Strom)")) (Some (113)%Z)), (mkLocation false [(mkLayer None (u "UNH") (Some (u "UTILMD"))); (mkLayer (Some (u "SG4")) (u "IDE") (Some (u "24"))); (mkLayer (Some (u "SG6")) (u "RFF") (Some (u "Z18")))] (Some (u "DTM")) None None), STAY);
((mkLine (Some 239158629925065219452867673392658713053%N) (Some (u "SG6")) (Some (u "DTM")) None None None None None None (Some (u "Turnusableseintervall des MSB (Strom)")) (Some (114)%Z)), (mkLocation false [(mkLayer None (u "UNH") (Some (u "UTILMD"))); (mkLayer (Some (u "SG4")) (u "IDE") (Some (u "24"))); (mkLayer (Some (u "SG6")) (u "RFF") (Some (u "Z18")))] (Some (u "DTM")) None None), STAY);
((mkLine (Some 52639387220785376171870244653975755395%N) (Some (u "SG6")) (Some (u "DTM")) (Some (u "2005")) None (Some (u "672")) (Some (u "zugewiesene Periode")) None None (Some (u "Turnusableseintervall des MSB (Strom)")) (Some (115)%Z)), (mkLocation false [(mkLayer None (u "UNH") (Some (u "UTILMD"))); (mkLayer (Some (u "SG4")) (u "IDE") (Some (u "24"))); (mkLayer (Some (u "SG6")) (u "RFF") (Some (u "Z18")))] (Some (u "DTM")) (Some (u "2005")) (Some (u "672"))), STAY);
((mkLine (Some 135877017926511222216849916457838789092%N) (Some (u "SG6")) (Some (u "DTM")) (Some (u "2380")) None None (Some (u "Datum oder Uhrzeit oderZeitspanne, Wert")) None None (Some (u "Turnusableseintervall des MSB (Strom)")) (Some (116)%Z)), (mkLocation false [(mkLayer None (u "UNH") (Some (u "UTILMD"))); (mkLayer (Some (u "SG4")) (u "IDE") (Some (u "24"))); (mkLayer (Some (u "SG6")) (u "RFF") (Some (u "Z18")))] (Some (u "DTM")) (Some (u "2380")) None), STAY);
((mkLine (Some 304944828329782422913339754663567725738%N) (Some (u "SG6")) (Some (u "DTM")) (Some (u "2379")) None (Some (u "802")) (Some (u "Monat")) None None (Some (u "Turnusableseintervall des MSB (Strom)")) (Some (117)%Z)), (mkLocation false [(mkLayer None (u "UNH") (Some (u "UTILMD"))); (mkLayer (Some (u "SG4")) (u "IDE") (Some (u "24"))); (mkLayer (Some (u "SG6")) (u "RFF") (Some (u "Z18")))] (Some (u "DTM")) (Some (u "2379")) (Some (u "802"))), STAY);
((mkLine (Some 5226927667008250077830398064127793187%N) (Some (u "SG6")) None None None None None None None (Some (u "Abrechnungsintervall des LF")) (Some (119)%Z)), (mkLocation false [(mkLayer None (u "UNH") (Some (u "UTILMD"))); (mkLayer (Some (u "SG4")) (u "IDE") (Some (u "24"))); (mkLayer (Some (u "SG6")) (u "RFF") (Some (u "Z18")))] (Some (u "DTM")) None None), STAY);
((mkLine (Some 156481926129747651818442149001205737527%N) (Some (u "SG6")) (Some (u "DTM")) None None None None None None (Some (u "Abrechnungsintervall des LF")) (Some (120)%Z)), (mkLocation false [(mkLayer None (u "UNH") (Some (u "UTILMD"))); (mkLayer (Some (u "SG4")) (u "IDE") (Some (u "24"))); (mkLayer (Some (u "SG6")) (u "RFF") (Some (u "Z18")))] (Some (u "DTM")) None None), STAY);
((mkLine (Some 278242491330863675859934177207619072556%N) (Some (u "SG6")) (Some (u "DTM")) (Some (u "2005")) None (Some (u "Z20")) (Some (u "Abrechnungsintervall desLF")) None None (Some (u "Abrechnungsintervall des LF")) (Some (121)%Z)), (mkLocation false [(mkLayer None (u "UNH") (Some (u "UTILMD"))); (mkLayer (Some (u "SG4")) (u "IDE") (Some (u "24"))); (mkLayer (Some (u "SG6")) (u "RFF") (Some (u "Z18")))] (Some (u "DTM")) (Some (u "2005")) (Some (u "Z20"))), STAY);
((mkLine (Some 136187002109426995293539105807991563495%N) (Some (u "SG6")) (Some (u "DTM")) (Some (u "2380")) None None (Some (u "Datum oder Uhrzeit oderZeitspanne, Wert")) None None (Some (u "Abrechnungsintervall des LF")) (Some (122)%Z)), (mkLocation false [(mkLayer None (u "UNH") (Some (u "UTILMD"))); (mkLayer (Some (u "SG4")) (u "IDE") (Some (u "24"))); (mkLayer (Some (u "SG6")) (u "RFF") (Some (u "Z18")))] (Some (u "DTM")) (Some (u "2380")) None), STAY);
((mkLine (Some 154149240105530286781790159496111971678%N) (Some (u "SG6")) (Some (u "DTM")) (Some (u "2379")) None (Some (u "802")) (Some (u "Monat")) None None (Some (u "Abrechnungsintervall des LF")) (Some (123)%Z)), (mkLocation false [(mkLayer None (u "UNH") (Some (u "UTILMD"))); (mkLayer (Some (u "SG4")) (u "IDE") (Some (u "24"))); (mkLayer (Some (u "SG6")) (u "RFF") (Some (u "Z18")))] (Some (u "DTM")) (Some (u "2379")) (Some (u "802"))), STAY);
((mkLine (Some 282590296106257205844855953380700655410%N) (Some (u "SG6")) None None None None None None None (Some (u "Referenz auf die ID der Messlokation für Termine der Messlokation")) (Some (125)%Z)), (mkLocation false [(mkLayer None (u "UNH") (Some (u "UTILMD"))); (mkLayer (Some (u "SG4")) (u "IDE") (Some (u "24"))); (mkLayer (Some (u "SG6")) (u "RFF") (Some (u "Z19")))] (Some (u "RFF")) None None), MOVE_TO_NEIGHBOUR_SAME_KEY);
((mkLine (Some 168515961052314069207774619419851207363%N) (Some (u "SG6")) (Some (u "RFF")) None None None None None None (Some (u "Referenz auf die ID der Messlokation für Termine der Messlokation")) (Some (126)%Z)), (mkLocation false [(mkLayer None (u "UNH") (Some (u "UTILMD"))); (mkLayer (Some (u "SG4")) (u "IDE") (Some (u "24"))); (mkLayer (Some (u "SG6")) (u "RFF") (Some (u "Z19")))] (Some (u "RFF")) None None), STAY);
((mkLine (Some 255611665227307039208112563591771505750%N) (Some (u "SG6")) (Some (u "RFF")) (Some (u "1153")) None (Some (u "Z19")) (Some (u "Messlokation")) None None (Some (u "Referenz auf die ID der Messlokation für Termine der Messlokation")) (Some (127)%Z)), (mkLocation false [(mkLayer None (u "UNH") (Some (u "UTILMD"))); (mkLayer (Some (u "SG4")) (u "IDE") (Some (u "24"))); (mkLayer (Some (u "SG6")) (u "RFF") (Some (u "Z19")))] (Some (u "RFF")) (Some (u "1153")) (Some (u "Z19"))), STAY);
((mkLine (Some 116112751246576235467814881385861300183%N) (Some (u "SG6")) (Some (u "RFF")) (Some (u "1154")) None None (Some (u "ID der Messlokation")) None None (Some (u "Referenz auf die ID der Messlokation für Termine der Messlokation")) (Some (128)%Z)), (mkLocation false [(mkLayer None (u "UNH") (Some (u "UTILMD"))); (mkLayer (Some (u "SG4")) (u "IDE") (Some (u "24"))); (mkLayer (Some (u "SG6")) (u "RFF") (Some (u "Z19")))] (Some (u "RFF")) (Some (u "1154")) None), STAY);
((mkLine (Some 129790484375902617540069422336815549598%N) (Some (u "SG6")) None None None None None None None (Some (u "Geplante Turnusablesung des NB (Gas)")) (Some (130)%Z)), (mkLocation false [(mkLayer None (u "UNH") (Some (u "UTILMD"))); (mkLayer (Some (u "SG4")) (u "IDE") (Some (u "24"))); (mkLayer (Some (u "SG6")) (u "RFF") (Some (u "Z19")))] (Some (u "DTM")) None None), STAY);
((mkLine (Some 184933515826843319697745193658856296712%N) (Some (u "SG6")) (Some (u "DTM")) None None None None None None (Some (u "Geplante Turnusablesung des NB (Gas)")) (Some (131)%Z)), (mkLocation false [(mkLayer None (u "UNH") (Some (u "UTILMD"))); (mkLayer (Some (u "SG4")) (u "IDE") (Some (u "24"))); (mkLayer (Some (u "SG6")) (u "RFF") (Some (u "Z19")))] (Some (u "DTM")) None None), STAY);
((mkLine (Some 299001920268711439718511424250867287949%N) (Some (u "SG6")) (Some (u "DTM")) (Some (u "2005")) None (Some (u "752")) (Some (u "Geplante Turnusablesung")) None None (Some (u "Geplante Turnusablesung des NB (Gas)")) (Some (132)%Z)), (mkLocation false [(mkLayer None (u "UNH") (Some (u "UTILMD"))); (mkLayer (Some (u "SG4")) (u "IDE") (Some (u "24"))); (mkLayer (Some (u "SG6")) (u "RFF") (Some (u "Z19")))] (Some (u "DTM")) (Some (u "2005")) (Some (u "752"))), STAY);
((mkLine (Some 116519039211648066655877978909458426406%N) (Some (u "SG6")) (Some (u "DTM")) (Some (u "2380")) None None (Some (u "Datum oder Uhrzeit oderZeitspanne, Wert")) None None (Some (u "Geplante Turnusablesung des NB (Gas)")) (Some (133)%Z)), (mkLocation false [(mkLayer None (u "UNH") (Some (u "UTILMD"))); (mkLayer (Some (u "SG4")) (u "IDE") (Some (u "24"))); (mkLayer (Some (u "SG6")) (u "RFF") (Some (u "Z19")))] (Some (u "DTM")) (Some (u "2380")) None), STAY);
((mkLine (Some 235944769223295434953962229837778996646%N) (Some (u "SG6")) (Some (u "DTM")) (Some (u "2379")) None (Some (u "104")) (Some (u "MMWW-MMWW")) None None (Some (u "Geplante Turnusablesung des NB (Gas)")) (Some (134)%Z)), (mkLocation false [(mkLayer None (u "UNH") (Some (u "UTILMD"))); (mkLayer (Some (u "SG4")) (u "IDE") (Some (u "24"))); (mkLayer (Some (u "SG6")) (u "RFF") (Some (u "Z19")))] (Some (u "DTM")) (Some (u "2379")) (Some (u "104"))), STAY);
((mkLine (Some 22638821353667528424542858270796418369%N) (Some (u "SG6")) (Some (u "DTM")) (Some (u "2379")) None (Some (u "106")) (Some (u "MMDD")) None None (Some (u "Geplante Turnusablesung des NB (Gas)")) (Some (135)%Z)), (mkLocation false [(mkLayer None (u "UNH") (Some (u "UTILMD"))); (mkLayer (Some (u "SG4")) (u "IDE") (Some (u "24"))); (mkLayer (Some (u "SG6")) (u "RFF") (Some (u "Z19")))] (Some (u "DTM")) (Some (u "2379")) (Some (u "106"))), STAY);
((mkLine (Some 262388057796397468848631270343514924162%N) (Some (u "SG6")) None None None None None None None (Some (u "Turnusableseintervall des NB (Gas)")) (Some (137)%Z)), (mkLocation false [(mkLayer None (u "UNH") (Some (u "UTILMD"))); (mkLayer (Some (u "SG4")) (u "IDE") (Some (u "24"))); (mkLayer (Some (u "SG6")) (u "RFF") (Some (u "Z19")))] (Some (u "DTM")) None None), STAY);
((mkLine (Some 87542028718190190554958845701635300243%N) (Some (u "SG6")) (Some (u "DTM")) None None None None None None (Some (u "Turnusableseintervall des NB (Gas)")) (Some (138)%Z)), (mkLocation false [(mkLayer None (u "UNH") (Some (u "UTILMD"))); (mkLayer (Some (u "SG4")) (u "IDE") (Some (u "24"))); (mkLayer (Some (u "SG6")) (u "RFF") (Some (u "Z19")))] (Some (u "DTM")) None None), STAY);
((mkLine (Some 54461881458021077732604417212491351334%N) (Some (u "SG6")) (Some (u "DTM")) (Some (u "2005")) None (Some (u "672")) (Some (u "zugewiesene Periode")) None None (Some (u "Turnusableseintervall des NB (Gas)")) (Some (139)%Z)), (mkLocation false [(mkLayer None (u "UNH") (Some (u "UTILMD"))); (mkLayer (Some (u "SG4")) (u "IDE") (Some (u "24"))); (mkLayer (Some (u "SG6")) (u "RFF") (Some (u "Z19")))] (Some (u "DTM")) (Some (u "2005")) (Some (u "672"))), STAY);
((mkLine (Some 301854054917905439659291474188013858900%N) (Some (u "SG6")) (Some (u "DTM")) (Some (u "2380")) None None (Some (u "Datum oder Uhrzeit oderZeitspanne, Wert")) None None (Some (u "Turnusableseintervall des NB (Gas)")) (Some (140)%Z)), (mkLocation false [(mkLayer None (u "UNH") (Some (u "UTILMD"))); (mkLayer (Some (u "SG4")) (u "IDE") (Some (u "24"))); (mkLayer (Some (u "SG6")) (u "RFF") (Some (u "Z19")))] (Some (u "DTM")) (Some (u "2380")) None), STAY);
((mkLine (Some 185686296103069930080662833131326070124%N) (Some (u "SG6")) (Some (u "DTM")) (Some (u "2379")) None (Some (u "802")) (Some (u "Monat")) None None (Some (u "Turnusableseintervall des NB (Gas)")) (Some (141)%Z)), (mkLocation false [(mkLayer None (u "UNH") (Some (u "UTILMD"))); (mkLayer (Some (u "SG4")) (u "IDE") (Some (u "24"))); (mkLayer (Some (u "SG6")) (u "RFF") (Some (u "Z19")))] (Some (u "DTM")) (Some (u "2379")) (Some (u "802"))), STAY);
((mkLine (Some 115670294499886606933655066030889372628%N) (Some (u "SG8")) None None None None None None None (Some (u "Daten der Marktlokation")) (Some (143)%Z)), (mkLocation false [(mkLayer None (u "UNH") (Some (u "UTILMD"))); (mkLayer (Some (u "SG4")) (u "IDE") (Some (u "24"))); (mkLayer (Some (u "SG8")) (u "SEQ") (Some (u "Z01")))] (Some (u "SEQ")) None None), LEAVE_TO_PARENT_AND_DIVE_INTO_SUB_GROUP);
((mkLine (Some 229910468405931902759163477996035427463%N) (Some (u "SG8")) (Some (u "SEQ")) None None None None None None (Some (u "Daten der Marktlokation")) (Some (144)%Z)), (mkLocation false [(mkLayer None (u "UNH") (Some (u "UTILMD"))); (mkLayer (Some (u "SG4")) (u "IDE") (Some (u "24"))); (mkLayer (Some (u "SG8")) (u "SEQ") (Some (u "Z01")))] (Some (u "SEQ")) None None), STAY);
((mkLine (Some 58347651382432790709043506487042755362%N) (Some (u "SG8")) (Some (u "SEQ")) (Some (u "1229")) None (Some (u "Z01")) (Some (u "Daten der Marktlokation")) None None (Some (u "Daten der Marktlokation")) (Some (145)%Z)), (mkLocation false [(mkLayer None (u "UNH") (Some (u "UTILMD"))); (mkLayer (Some (u "SG4")) (u "IDE") (Some (u "24"))); (mkLayer (Some (u "SG8")) (u "SEQ") (Some (u "Z01")))] (Some (u "SEQ")) (Some (u "1229")) (Some (u "Z01"))), STAY);
((mkLine (Some 326235536921821608253655440113995753588%N) (Some (u "SG8")) None None None None None None None (Some (u "Referenz auf die ID der Marktlokation")) (Some (147)%Z)), (mkLocation false [(mkLayer None (u "UNH") (Some (u "UTILMD"))); (mkLayer (Some (u "SG4")) (u "IDE") (Some (u "24"))); (mkLayer (Some (u "SG8")) (u "SEQ") (Some (u "Z01")))] (Some (u "RFF")) None None), STAY);
((mkLine (Some 39626064706662825939079777241896196548%N) (Some (u "SG8")) (Some (u "RFF")) None None None None None None (Some (u "Referenz auf die ID der Marktlokation")) (Some (148)%Z)), (mkLocation false [(mkLayer None (u "UNH") (Some (u "UTILMD"))); (mkLayer (Some (u "SG4")) (u "IDE") (Some (u "24"))); (mkLayer (Some (u "SG8")) (u "SEQ") (Some (u "Z01")))] (Some (u "RFF")) None None), STAY);
((mkLine (Some 265568208911618796494574524109222197328%N) (Some (u "SG8")) (Some (u "RFF")) (Some (u "1153")) None (Some (u "Z18")) (Some (u "Marktlokation")) None None (Some (u "Referenz auf die ID der Marktlokation")) (Some (149)%Z)), (mkLocation false [(mkLayer None (u "UNH") (Some (u "UTILMD"))); (mkLayer (Some (u "SG4")) (u "IDE") (Some (u "24"))); (mkLayer (Some (u "SG8")) (u "SEQ") (Some (u "Z01")))] (Some (u "RFF")) (Some (u "1153")) (Some (u "Z18"))), STAY);
((mkLine (Some 226123958511124349214890813119216886288%N) (Some (u "SG8")) (Some (u "RFF")) (Some (u "1154")) None None (Some (u "ID der Marktlokation")) None None (Some (u "Referenz auf die ID der Marktlokation")) (Some (150)%Z)), (mkLocation false [(mkLayer None (u "UNH") (Some (u "UTILMD"))); (mkLayer (Some (u "SG4")) (u "IDE") (Some (u "24"))); (mkLayer (Some (u "SG8")) (u "SEQ") (Some (u "Z01")))] (Some (u "RFF")) (Some (u "1154")) None), STAY);
((mkLine (Some 311672431814226071510255609652260201177%N) (Some (u "SG9")) None None None None None None None (Some (u "Arbeit / Leistung für tagesparameterabhängige Marktlokation")) (Some (152)%Z)), (mkLocation false [(mkLayer None (u "UNH") (Some (u "UTILMD"))); (mkLayer (Some (u "SG4")) (u "IDE") (Some (u "24"))); (mkLayer (Some (u "SG8")) (u "SEQ") (Some (u "Z01"))); (mkLayer (Some (u "SG9")) (u "QTY") (Some (u "265")))] (Some (u "QTY")) None None), DIVE_INTO_SUB_GROUP);
((mkLine (Some 39728800065949992895642352897720940952%N) (Some (u "SG9")) (Some (u "QTY")) None None None None None None (Some (u "Arbeit / Leistung für tagesparameterabhängige Marktlokation")) (Some (153)%Z)), (mkLocation false [(mkLayer None (u "UNH") (Some (u "UTILMD"))); (mkLayer (Some (u "SG4")) (u "IDE") (Some (u "24"))); (mkLayer (Some (u "SG8")) (u "SEQ") (Some (u "Z01"))); (mkLayer (Some (u "SG9")) (u "QTY") (Some (u "265")))] (Some (u "QTY")) None None), STAY);
((mkLine (Some 53206573437366299233261502822062753361%N) (Some (u "SG9")) (Some (u "QTY")) (Some (u "6063")) None (Some (u "265")) (Some (u "Veranschlagte Jahresmenge Gesamt/ Jahresverbrauchsprogno se für spezifische Arbeit für tagesparameterabhängig e Marktlokation")) None None (Some (u "Arbeit / Leistung für tagesparameterabhängige Marktlokation")) (Some (154)%Z)), (mkLocation false [(mkLayer None (u "UNH") (Some (u "UTILMD"))); (mkLayer (Some (u "SG4")) (u "IDE") (Some (u "24"))); (mkLayer (Some (u "SG8")) (u "SEQ") (Some (u "Z01"))); (mkLayer (Some (u "SG9")) (u "QTY") (Some (u "265")))] (Some (u "QTY")) (Some (u "6063")) (Some (u "265"))), STAY);
((mkLine (Some 130971238924957459987511817038496509816%N) (Some (u "SG9")) (Some (u "QTY")) (Some (u "6063")) None (Some (u "Z08")) (Some (u "Angepasste elektrische Arbeit nach Anhang D der VDN-Richtlinie ""Lastprofile für unterbrechbare Verbrauchseinrichtungen""")) None None (Some (u "Arbeit / Leistung für tagesparameterabhängige Marktlokation")) (Some (155)%Z)), (mkLocation false [(mkLayer None (u "UNH") (Some (u "UTILMD"))); (mkLayer (Some (u "SG4")) (u "IDE") (Some (u "24"))); (mkLayer (Some (u "SG8")) (u "SEQ") (Some (u "Z01"))); (mkLayer (Some (u "SG9")) (u "QTY") (Some (u "265")))] (Some (u "QTY")) (Some (u "6063")) (Some (u "Z08"))), STAY);
((mkLine (Some 126676048219737397480462093728950164037%N) (Some (u "SG9")) (Some (u "QTY")) (Some (u "6060")) None None (Some (u "Menge")) None None (Some (u "Arbeit / Leistung für tagesparameterabhängige Marktlokation")) (Some (156)%Z)), (mkLocation false [(mkLayer None (u "UNH") (Some (u "UTILMD"))); (mkLayer (Some (u "SG4")) (u "IDE") (Some (u "24"))); (mkLayer (Some (u "SG8")) (u "SEQ") (Some (u "Z01"))); (mkLayer (Some (u "SG9")) (u "QTY") (Some (u "265")))] (Some (u "QTY")) (Some (u "6060")) None), STAY);
((mkLine (Some 16992730613586789101083613241237664928%N) (Some (u "SG9")) (Some (u "QTY")) (Some (u "6411")) None (Some (u "Z16")) (Some (u "kWh/K (Kilowatt- Stunde/Kelvin)")) None None (Some (u "Arbeit / Leistung für tagesparameterabhängige Marktlokation")) (Some (157)%Z)), (mkLocation false [(mkLayer None (u "UNH") (Some (u "UTILMD"))); (mkLayer (Some (u "SG4")) (u "IDE") (Some (u "24"))); (mkLayer (Some (u "SG8")) (u "SEQ") (Some (u "Z01"))); (mkLayer (Some (u "SG9")) (u "QTY") (Some (u "265")))] (Some (u "QTY")) (Some (u "6411")) (Some (u "Z16"))), STAY);
((mkLine (Some 339197609617363266119177088782187580997%N) (Some (u "SG9")) (Some (u "QTY")) (Some (u "6411")) None (Some (u "KWH")) (Some (u "Kilowattstunde")) None None (Some (u "Arbeit / Leistung für tagesparameterabhängige Marktlokation")) (Some (158)%Z)), (mkLocation false [(mkLayer None (u "UNH") (Some (u "UTILMD"))); (mkLayer (Some (u "SG4")) (u "IDE") (Some (u "24"))); (mkLayer (Some (u "SG8")) (u "SEQ") (Some (u "Z01"))); (mkLayer (Some (u "SG9")) (u "QTY") (Some (u "265")))] (Some (u "QTY")) (Some (u "6411")) (Some (u "KWH"))), STAY);
((mkLine (Some 62216532225788953197794104408122499721%N) (Some (u "SG9")) None None None None None None None (Some (u "Veranschlagte Jahresmenge gesamt")) (Some (160)%Z)), (mkLocation false [(mkLayer None (u "UNH") (Some (u "UTILMD"))); (mkLayer (Some (u "SG4")) (u "IDE") (Some (u "24"))); (mkLayer (Some (u "SG8")) (u "SEQ") (Some (u "Z01"))); (mkLayer (Some (u "SG9")) (u "QTY") (Some (u "31")))] (Some (u "QTY")) None None), MOVE_TO_NEIGHBOUR_SAME_KEY);
((mkLine (Some 274156559914385558714478128953836491263%N) (Some (u "SG9")) (Some (u "QTY")) None None None None None None (Some (u "Veranschlagte Jahresmenge gesamt")) (Some (161)%Z)), (mkLocation false [(mkLayer None (u "UNH") (Some (u "UTILMD"))); (mkLayer (Some (u "SG4")) (u "IDE") (Some (u "24"))); (mkLayer (Some (u "SG8")) (u "SEQ") (Some (u "Z01"))); (mkLayer (Some (u "SG9")) (u "QTY") (Some (u "31")))] (Some (u "QTY")) None None), STAY);
((mkLine (Some 83094857562287191843663875942374687638%N) (Some (u "SG9")) (Some (u "QTY")) (Some (u "6063")) None (Some (u "31")) (Some (u "VeranschlagteJahresmenge Gesamt")) None None (Some (u "Veranschlagte Jahresmenge gesamt")) (Some (162)%Z)), (mkLocation false [(mkLayer None (u "UNH") (Some (u "UTILMD"))); (mkLayer (Some (u "SG4")) (u "IDE") (Some (u "24"))); (mkLayer (Some (u "SG8")) (u "SEQ") (Some (u "Z01"))); (mkLayer (Some (u "SG9")) (u "QTY") (Some (u "31")))] (Some (u "QTY")) (Some (u "6063")) (Some (u "31"))), STAY);
((mkLine (Some 324403006148061675865195570662121690875%N) (Some (u "SG9")) (Some (u "QTY")) (Some (u "6060")) None None (Some (u "Mengenangabe")) None None (Some (u "Veranschlagte Jahresmenge gesamt")) (Some (163)%Z)), (mkLocation false [(mkLayer None (u "UNH") (Some (u "UTILMD"))); (mkLayer (Some (u "SG4")) (u "IDE") (Some (u "24"))); (mkLayer (Some (u "SG8")) (u "SEQ") (Some (u "Z01"))); (mkLayer (Some (u "SG9")) (u "QTY") (Some (u "31")))] (Some (u "QTY")) (Some (u "6060")) None), STAY);
((mkLine (Some 317419111979754353882459276433308038845%N) (Some (u "SG9")) (Some (u "QTY")) (Some (u "6411")) None (Some (u "KWH")) (Some (u "Kilowattstunde")) None None (Some (u "Veranschlagte Jahresmenge gesamt")) (Some (165)%Z)), (mkLocation false [(mkLayer None (u "UNH") (Some (u "UTILMD"))); (mkLayer (Some (u "SG4")) (u "IDE") (Some (u "24"))); (mkLayer (Some (u "SG8")) (u "SEQ") (Some (u "Z01"))); (mkLayer (Some (u "SG9")) (u "QTY") (Some (u "31")))] (Some (u "QTY")) (Some (u "6411")) (Some (u "KWH"))), STAY);
((mkLine (Some 301562496411220127528918461167484297530%N) (Some (u "SG10")) None None None None None None None (Some (u "Lieferrichtung")) (Some (167)%Z)), (mkLocation false [(mkLayer None (u "UNH") (Some (u "UTILMD"))); (mkLayer (Some (u "SG4")) (u "IDE") (Some (u "24"))); (mkLayer (Some (u "SG8")) (u "SEQ") (Some (u "Z01"))); (mkLayer (Some (u "SG10")) (u "CCI") (Some (u "Z30")))] (Some (u "CCI")) None None), LEAVE_TO_PARENT_AND_DIVE_INTO_SUB_GROUP);
((mkLine (Some 236433753280094894833238465389061121782%N) (Some (u "SG10")) (Some (u "CCI")) None None None None None None (Some (u "Lieferrichtung")) (Some (168)%Z)), (mkLocation false [(mkLayer None (u "UNH") (Some (u "UTILMD"))); (mkLayer (Some (u "SG4")) (u "IDE") (Some (u "24"))); (mkLayer (Some (u "SG8")) (u "SEQ") (Some (u "Z01"))); (mkLayer (Some (u "SG10")) (u "CCI") (Some (u "Z30")))] (Some (u "CCI")) None None), STAY);
((mkLine (Some 305819171043794721271166395695867012997%N) (Some (u "SG10")) (Some (u "CCI")) (Some (u "7059")) None (Some (u "Z30")) (Some (u "Lieferrichtung")) None None (Some (u "Lieferrichtung")) (Some (169)%Z)), (mkLocation false [(mkLayer None (u "UNH") (Some (u "UTILMD"))); (mkLayer (Some (u "SG4")) (u "IDE") (Some (u "24"))); (mkLayer (Some (u "SG8")) (u "SEQ") (Some (u "Z01"))); (mkLayer (Some (u "SG10")) (u "CCI") (Some (u "Z30")))] (Some (u "CCI")) (Some (u "7059")) (Some (u "Z30"))), STAY);
((mkLine (Some 88297054533715987841477868977196327669%N) (Some (u "SG10")) (Some (u "CCI")) (Some (u "7037")) None (Some (u "Z06")) (Some (u "Erzeugung")) None None (Some (u "Lieferrichtung")) (Some (170)%Z)), (mkLocation false [(mkLayer None (u "UNH") (Some (u "UTILMD"))); (mkLayer (Some (u "SG4")) (u "IDE") (Some (u "24"))); (mkLayer (Some (u "SG8")) (u "SEQ") (Some (u "Z01"))); (mkLayer (Some (u "SG10")) (u "CCI") (Some (u "Z30")))] (Some (u "CCI")) (Some (u "7037")) (Some (u "Z06"))), STAY);
((mkLine (Some 195731741306760996928216290372927145514%N) (Some (u "SG10")) (Some (u "CCI")) (Some (u "7037")) None (Some (u "Z07")) (Some (u "Verbrauch")) None None (Some (u "Lieferrichtung")) (Some (171)%Z)), (mkLocation false [(mkLayer None (u "UNH") (Some (u "UTILMD"))); (mkLayer (Some (u "SG4")) (u "IDE") (Some (u "24"))); (mkLayer (Some (u "SG8")) (u "SEQ") (Some (u "Z01"))); (mkLayer (Some (u "SG10")) (u "CCI") (Some (u "Z30")))] (Some (u "CCI")) (Some (u "7037")) (Some (u "Z07"))), STAY);
((mkLine (Some 79643248856024136718639685601293816086%N) (Some (u "SG10")) None None None None None None None (Some (u "Zugeordnete Marktpartner")) (Some (173)%Z)), (mkLocation false [(mkLayer None (u "UNH") (Some (u "UTILMD"))); (mkLayer (Some (u "SG4")) (u "IDE") (Some (u "24"))); (mkLayer (Some (u "SG8")) (u "SEQ") (Some (u "Z01"))); (mkLayer (Some (u "SG10")) (u "CCI") (Some (u "ZB3")))] (Some (u "CCI")) None None), MOVE_TO_NEIGHBOUR_SAME_KEY);
((mkLine (Some 22475746448440156248406656488737805740%N) (Some (u "SG10")) (Some (u "CCI")) None None None None None None (Some (u "Zugeordnete Marktpartner")) (Some (174)%Z)), (mkLocation false [(mkLayer None (u "UNH") (Some (u "UTILMD"))); (mkLayer (Some (u "SG4")) (u "IDE") (Some (u "24"))); (mkLayer (Some (u "SG8")) (u "SEQ") (Some (u "Z01"))); (mkLayer (Some (u "SG10")) (u "CCI") (Some (u "ZB3")))] (Some (u "CCI")) None None), STAY);
((mkLine (Some 48082914957049413676613952205121655159%N) (Some (u "SG10")) (Some (u "CCI")) (Some (u "7037")) None (Some (u "ZB3")) (Some (u "ZugeordneterMarktpartner")) None None (Some (u "Zugeordnete Marktpartner")) (Some (175)%Z)), (mkLocation false [(mkLayer None (u "UNH") (Some (u "UTILMD"))); (mkLayer (Some (u "SG4")) (u "IDE") (Some (u "24"))); (mkLayer (Some (u "SG8")) (u "SEQ") (Some (u "Z01"))); (mkLayer (Some (u "SG10")) (u "CCI") (Some (u "ZB3")))] (Some (u "CCI")) (Some (u "7037")) (Some (u "ZB3"))), STAY);
((mkLine (Some 25539767577687235837708324249818525781%N) (Some (u "SG10")) None None None None None None None (Some (u "Lieferant")) (Some (177)%Z)), (mkLocation false [(mkLayer None (u "UNH") (Some (u "UTILMD"))); (mkLayer (Some (u "SG4")) (u "IDE") (Some (u "24"))); (mkLayer (Some (u "SG8")) (u "SEQ") (Some (u "Z01"))); (mkLayer (Some (u "SG10")) (u "CCI") (Some (u "ZB3")))] (Some (u "CAV")) None None), STAY);
((mkLine (Some 124757324969700832444108403905737363790%N) (Some (u "SG10")) (Some (u "CAV")) None None None None None None (Some (u "Lieferant")) (Some (178)%Z)), (mkLocation false [(mkLayer None (u "UNH") (Some (u "UTILMD"))); (mkLayer (Some (u "SG4")) (u "IDE") (Some (u "24"))); (mkLayer (Some (u "SG8")) (u "SEQ") (Some (u "Z01"))); (mkLayer (Some (u "SG10")) (u "CCI") (Some (u "ZB3")))] (Some (u "CAV")) None None), STAY);
((mkLine (Some 113425030409002260330801842858019842036%N) (Some (u "SG10")) (Some (u "CAV")) (Some (u "7111")) None (Some (u "Z89")) (Some (u "LF")) None None (Some (u "Lieferant")) (Some (179)%Z)), (mkLocation false [(mkLayer None (u "UNH") (Some (u "UTILMD"))); (mkLayer (Some (u "SG4")) (u "IDE") (Some (u "24"))); (mkLayer (Some (u "SG8")) (u "SEQ") (Some (u "Z01"))); (mkLayer (Some (u "SG10")) (u "CCI") (Some (u "ZB3")))] (Some (u "CAV")) (Some (u "7111")) (Some (u "Z89"))), STAY);
((mkLine (Some 34539026599921393140913033096570674455%N) (Some (u "SG10")) (Some (u "CAV")) (Some (u "1131")) None None (Some (u "MP-ID")) None None (Some (u "Lieferant")) (Some (180)%Z)), (mkLocation false [(mkLayer None (u "UNH") (Some (u "UTILMD"))); (mkLayer (Some (u "SG4")) (u "IDE") (Some (u "24"))); (mkLayer (Some (u "SG8")) (u "SEQ") (Some (u "Z01"))); (mkLayer (Some (u "SG10")) (u "CCI") (Some (u "ZB3")))] (Some (u "CAV")) (Some (u "1131")) None), STAY);
((mkLine (Some 41438892958956841402010454120828434899%N) (Some (u "SG10")) None None None None None None None (Some (u "Übertragungsnetzbetreiber")) (Some (182)%Z)), (mkLocation false [(mkLayer None (u "UNH") (Some (u "UTILMD"))); (mkLayer (Some (u "SG4")) (u "IDE") (Some (u "24"))); (mkLayer (Some (u "SG8")) (u "SEQ") (Some (u "Z01"))); (mkLayer (Some (u "SG10")) (u "CCI") (Some (u "ZB3")))] (Some (u "CAV")) None None), STAY);
((mkLine (Some 314745254974753238493884986439457182782%N) (Some (u "SG10")) (Some (u "CAV")) None None None None None None (Some (u "Übertragungsnetzbetreiber")) (Some (183)%Z)), (mkLocation false [(mkLayer None (u "UNH") (Some (u "UTILMD"))); (mkLayer (Some (u "SG4")) (u "IDE") (Some (u "24"))); (mkLayer (Some (u "SG8")) (u "SEQ") (Some (u "Z01"))); (mkLayer (Some (u "SG10")) (u "CCI") (Some (u "ZB3")))] (Some (u "CAV")) None None), STAY);
((mkLine (Some 35168582024700615651952871748095946146%N) (Some (u "SG10")) (Some (u "CAV")) (Some (u "7111")) None (Some (u "Z90")) (Some (u "ÜNB")) None None (Some (u "Übertragungsnetzbetreiber")) (Some (184)%Z)), (mkLocation false [(mkLayer None (u "UNH") (Some (u "UTILMD"))); (mkLayer (Some (u "SG4")) (u "IDE") (Some (u "24"))); (mkLayer (Some (u "SG8")) (u "SEQ") (Some (u "Z01"))); (mkLayer (Some (u "SG10")) (u "CCI") (Some (u "ZB3")))] (Some (u "CAV")) (Some (u "7111")) (Some (u "Z90"))), STAY);
((mkLine (Some 138598276641998500124247053120740836112%N) (Some (u "SG10")) (Some (u "CAV")) (Some (u "1131")) None None (Some (u "MP-ID")) None None (Some (u "Übertragungsnetzbetreiber")) (Some (185)%Z)), (mkLocation false [(mkLayer None (u "UNH") (Some (u "UTILMD"))); (mkLayer (Some (u "SG4")) (u "IDE") (Some (u "24"))); (mkLayer (Some (u "SG8")) (u "SEQ") (Some (u "Z01"))); (mkLayer (Some (u "SG10")) (u "CCI") (Some (u "ZB3")))] (Some (u "CAV")) (Some (u "1131")) None), STAY);
((mkLine (Some 182597555497214386138543824132402917376%N) (Some (u "SG10")) None None None None None None None (Some (u "Messstellenbetreiber")) (Some (187)%Z)), (mkLocation false [(mkLayer None (u "UNH") (Some (u "UTILMD"))); (mkLayer (Some (u "SG4")) (u "IDE") (Some (u "24"))); (mkLayer (Some (u "SG8")) (u "SEQ") (Some (u "Z01"))); (mkLayer (Some (u "SG10")) (u "CCI") (Some (u "ZB3")))] (Some (u "CAV")) None None), STAY);
((mkLine (Some 101574092498478404934117334253809148731%N) (Some (u "SG10")) (Some (u "CAV")) None None None None None None (Some (u "Messstellenbetreiber")) (Some (188)%Z)), (mkLocation false [(mkLayer None (u "UNH") (Some (u "UTILMD"))); (mkLayer (Some (u "SG4")) (u "IDE") (Some (u "24"))); (mkLayer (Some (u "SG8")) (u "SEQ") (Some (u "Z01"))); (mkLayer (Some (u "SG10")) (u "CCI") (Some (u "ZB3")))] (Some (u "CAV")) None None), STAY);
((mkLine (Some 138381303795618423826289731481942649301%N) (Some (u "SG10")) (Some (u "CAV")) (Some (u "7111")) None (Some (u "Z91")) (Some (u "MSB")) None None (Some (u "Messstellenbetreiber")) (Some (189)%Z)), (mkLocation false [(mkLayer None (u "UNH") (Some (u "UTILMD"))); (mkLayer (Some (u "SG4")) (u "IDE") (Some (u "24"))); (mkLayer (Some (u "SG8")) (u "SEQ") (Some (u "Z01"))); (mkLayer (Some (u "SG10")) (u "CCI") (Some (u "ZB3")))] (Some (u "CAV")) (Some (u "7111")) (Some (u "Z91"))), STAY);
((mkLine (Some 144058866920352482274007779484140904869%N) (Some (u "SG10")) (Some (u "CAV")) (Some (u "1131")) None None (Some (u "MP-ID")) None None (Some (u "Messstellenbetreiber")) (Some (190)%Z)), (mkLocation false [(mkLayer None (u "UNH") (Some (u "UTILMD"))); (mkLayer (Some (u "SG4")) (u "IDE") (Some (u "24"))); (mkLayer (Some (u "SG8")) (u "SEQ") (Some (u "Z01"))); (mkLayer (Some (u "SG10")) (u "CCI") (Some (u "ZB3")))] (Some (u "CAV")) (Some (u "1131")) None), STAY);
((mkLine (Some 235917345468731163941594705214661945767%N) (Some (u "SG10")) (Some (u "CAV")) (Some (u "7110")) None (Some (u "Z19")) (Some (u "Auf vertraglicher Grundlage gegenüber Anschlussnutzer / Anschlussnehmer")) None None (Some (u "Messstellenbetreiber")) (Some (191)%Z)), (mkLocation false [(mkLayer None (u "UNH") (Some (u "UTILMD"))); (mkLayer (Some (u "SG4")) (u "IDE") (Some (u "24"))); (mkLayer (Some (u "SG8")) (u "SEQ") (Some (u "Z01"))); (mkLayer (Some (u "SG10")) (u "CCI") (Some (u "ZB3")))] (Some (u "CAV")) (Some (u "7110")) (Some (u "Z19"))), STAY);
((mkLine (Some 297776174000603617306395608513974787695%N) (Some (u "SG10")) (Some (u "CAV")) (Some (u "7110")) None (Some (u "Z20")) (Some (u "In der Ausübung der Weiterverpflichtung durch den gMSB")) None None (Some (u "Messstellenbetreiber")) (Some (192)%Z)), (mkLocation false [(mkLayer None (u "UNH") (Some (u "UTILMD"))); (mkLayer (Some (u "SG4")) (u "IDE") (Some (u "24"))); (mkLayer (Some (u "SG8")) (u "SEQ") (Some (u "Z01"))); (mkLayer (Some (u "SG10")) (u "CCI") (Some (u "ZB3")))] (Some (u "CAV")) (Some (u "7110")) (Some (u "Z20"))), STAY);
((mkLine (Some 47228513294667957144859396747107615356%N) (Some (u "SG10")) None None None None None None None (Some (u "Spannungsebene der Marktlokation")) (Some (194)%Z)), (mkLocation false [(mkLayer None (u "UNH") (Some (u "UTILMD"))); (mkLayer (Some (u "SG4")) (u "IDE") (Some (u "24"))); (mkLayer (Some (u "SG8")) (u "SEQ") (Some (u "Z01"))); (mkLayer (Some (u "SG10")) (u "CCI") (Some (u "E03")))] (Some (u "CCI")) None None), MOVE_TO_NEIGHBOUR_SAME_KEY);
((mkLine (Some 123802602871348491004285473392120284032%N) (Some (u "SG10")) (Some (u "CCI")) None None None None None None (Some (u "Spannungsebene der Marktlokation")) (Some (195)%Z)), (mkLocation false [(mkLayer None (u "UNH") (Some (u "UTILMD"))); (mkLayer (Some (u "SG4")) (u "IDE") (Some (u "24"))); (mkLayer (Some (u "SG8")) (u "SEQ") (Some (u "Z01"))); (mkLayer (Some (u "SG10")) (u "CCI") (Some (u "E03")))] (Some (u "CCI")) None None), STAY);
((mkLine (Some 112446075676461201465357646215652523548%N) (Some (u "SG10")) (Some (u "CCI")) (Some (u "7037")) None (Some (u "E03")) (Some (u "Spannungsebene derMarktlokation")) None None (Some (u "Spannungsebene der Marktlokation")) (Some (196)%Z)), (mkLocation false [(mkLayer None (u "UNH") (Some (u "UTILMD"))); (mkLayer (Some (u "SG4")) (u "IDE") (Some (u "24"))); (mkLayer (Some (u "SG8")) (u "SEQ") (Some (u "Z01"))); (mkLayer (Some (u "SG10")) (u "CCI") (Some (u "E03")))] (Some (u "CCI")) (Some (u "7037")) (Some (u "E03"))), STAY);
((mkLine (Some 123821052498457004309861730237684846994%N) (Some (u "SG10")) None None None None None None None (Some (u "Spannungsebene der Marktlokation")) (Some (198)%Z)), (mkLocation false [(mkLayer None (u "UNH") (Some (u "UTILMD"))); (mkLayer (Some (u "SG4")) (u "IDE") (Some (u "24"))); (mkLayer (Some (u "SG8")) (u "SEQ") (Some (u "Z01"))); (mkLayer (Some (u "SG10")) (u "CCI") (Some (u "E03")))] (Some (u "CAV")) None None), STAY);
((mkLine (Some 162258806337751413175066411848182691360%N) (Some (u "SG10")) (Some (u "CAV")) None None None None None None (Some (u "Spannungsebene der Marktlokation")) (Some (199)%Z)), (mkLocation false [(mkLayer None (u "UNH") (Some (u "UTILMD"))); (mkLayer (Some (u "SG4")) (u "IDE") (Some (u "24"))); (mkLayer (Some (u "SG8")) (u "SEQ") (Some (u "Z01"))); (mkLayer (Some (u "SG10")) (u "CCI") (Some (u "E03")))] (Some (u "CAV")) None None), STAY);
((mkLine (Some 203033000113851096240729466028970527994%N) (Some (u "SG10")) (Some (u "CAV")) (Some (u "7111")) None (Some (u "E03")) (Some (u "Höchstspannung")) None None (Some (u "Spannungsebene der Marktlokation")) (Some (200)%Z)), (mkLocation false [(mkLayer None (u "UNH") (Some (u "UTILMD"))); (mkLayer (Some (u "SG4")) (u "IDE") (Some (u "24"))); (mkLayer (Some (u "SG8")) (u "SEQ") (Some (u "Z01"))); (mkLayer (Some (u "SG10")) (u "CCI") (Some (u "E03")))] (Some (u "CAV")) (Some (u "7111")) (Some (u "E03"))), STAY);
((mkLine (Some 194081926947931898627039390938717294305%N) (Some (u "SG10")) (Some (u "CAV")) (Some (u "7111")) None (Some (u "E04")) (Some (u "Hochspannung")) None None (Some (u "Spannungsebene der Marktlokation")) (Some (201)%Z)), (mkLocation false [(mkLayer None (u "UNH") (Some (u "UTILMD"))); (mkLayer (Some (u "SG4")) (u "IDE") (Some (u "24"))); (mkLayer (Some (u "SG8")) (u "SEQ") (Some (u "Z01"))); (mkLayer (Some (u "SG10")) (u "CCI") (Some (u "E03")))] (Some (u "CAV")) (Some (u "7111")) (Some (u "E04"))), STAY);
((mkLine (Some 238042367581675458525330756377376226103%N) (Some (u "SG10")) (Some (u "CAV")) (Some (u "7111")) None (Some (u "E05")) (Some (u "Mittelspannung")) None None (Some (u "Spannungsebene der Marktlokation")) (Some (202)%Z)), (mkLocation false [(mkLayer None (u "UNH") (Some (u "UTILMD"))); (mkLayer (Some (u "SG4")) (u "IDE") (Some (u "24"))); (mkLayer (Some (u "SG8")) (u "SEQ") (Some (u "Z01"))); (mkLayer (Some (u "SG10")) (u "CCI") (Some (u "E03")))] (Some (u "CAV")) (Some (u "7111")) (Some (u "E05"))), STAY);
((mkLine (Some 56930817566715397997145400872578516712%N) (Some (u "SG10")) (Some (u "CAV")) (Some (u "7111")) None (Some (u "E06")) (Some (u "Niederspannung")) None None (Some (u "Spannungsebene der Marktlokation")) (Some (203)%Z)), (mkLocation false [(mkLayer None (u "UNH") (Some (u "UTILMD"))); (mkLayer (Some (u "SG4")) (u "IDE") (Some (u "24"))); (mkLayer (Some (u "SG8")) (u "SEQ") (Some (u "Z01"))); (mkLayer (Some (u "SG10")) (u "CCI") (Some (u "E03")))] (Some (u "CAV")) (Some (u "7111")) (Some (u "E06"))), STAY);
((mkLine (Some 108040560135739552156292538004470540817%N) (Some (u "SG10")) None None None None None None None (Some (u "Messtechnische Einordnung der Marktlokation")) (Some (205)%Z)), (mkLocation false [(mkLayer None (u "UNH") (Some (u "UTILMD"))); (mkLayer (Some (u "SG4")) (u "IDE") (Some (u "24"))); (mkLayer (Some (u "SG8")) (u "SEQ") (Some (u "Z01"))); (mkLayer (Some (u "SG10")) (u "CCI") (Some (u "Z83")))] (Some (u "CCI")) None None), MOVE_TO_NEIGHBOUR_SAME_KEY);
((mkLine (Some 324665697332037051489951394127459633856%N) (Some (u "SG10")) (Some (u "CCI")) None None None None None None (Some (u "Messtechnische Einordnung der Marktlokation")) (Some (206)%Z)), (mkLocation false [(mkLayer None (u "UNH") (Some (u "UTILMD"))); (mkLayer (Some (u "SG4")) (u "IDE") (Some (u "24"))); (mkLayer (Some (u "SG8")) (u "SEQ") (Some (u "Z01"))); (mkLayer (Some (u "SG10")) (u "CCI") (Some (u "Z83")))] (Some (u "CCI")) None None), STAY);
((mkLine (Some 96156741697988410206608407428017410708%N) (Some (u "SG10")) (Some (u "CCI")) (Some (u "7037")) None (Some (u "Z83")) (Some (u "MesstechnischeEinordnung derMarktlokation")) None None (Some (u "Messtechnische Einordnung der Marktlokation")) (Some (207)%Z)), (mkLocation false [(mkLayer None (u "UNH") (Some (u "UTILMD"))); (mkLayer (Some (u "SG4")) (u "IDE") (Some (u "24"))); (mkLayer (Some (u "SG8")) (u "SEQ") (Some (u "Z01"))); (mkLayer (Some (u "SG10")) (u "CCI") (Some (u "Z83")))] (Some (u "CCI")) (Some (u "7037")) (Some (u "Z83"))), STAY);
((mkLine (Some 256661978850438922694733410622411516129%N) (Some (u "SG10")) None None None None None None None (Some (u "Messtechnische Einordnung der Marktlokation")) (Some (209)%Z)), (mkLocation false [(mkLayer None (u "UNH") (Some (u "UTILMD"))); (mkLayer (Some (u "SG4")) (u "IDE") (Some (u "24"))); (mkLayer (Some (u "SG8")) (u "SEQ") (Some (u "Z01"))); (mkLayer (Some (u "SG10")) (u "CCI") (Some (u "Z83")))] (Some (u "CAV")) None None), STAY);
((mkLine (Some 256009751464743988712565682114432790654%N) (Some (u "SG10")) (Some (u "CAV")) None None None None None None (Some (u "Messtechnische Einordnung der Marktlokation")) (Some (210)%Z)), (mkLocation false [(mkLayer None (u "UNH") (Some (u "UTILMD"))); (mkLayer (Some (u "SG4")) (u "IDE") (Some (u "24"))); (mkLayer (Some (u "SG8")) (u "SEQ") (Some (u "Z01"))); (mkLayer (Some (u "SG10")) (u "CCI") (Some (u "Z83")))] (Some (u "CAV")) None None), STAY);
((mkLine (Some 183890638597616991143330695167915333386%N) (Some (u "SG10")) (Some (u "CAV")) (Some (u "7111")) None (Some (u "Z52")) (Some (u "iMS")) None None (Some (u "Messtechnische Einordnung der Marktlokation")) (Some (211)%Z)), (mkLocation false [(mkLayer None (u "UNH") (Some (u "UTILMD"))); (mkLayer (Some (u "SG4")) (u "IDE") (Some (u "24"))); (mkLayer (Some (u "SG8")) (u "SEQ") (Some (u "Z01"))); (mkLayer (Some (u "SG10")) (u "CCI") (Some (u "Z83")))] (Some (u "CAV")) (Some (u "7111")) (Some (u "Z52"))), STAY);
((mkLine (Some 56177140200339700036192117019376863589%N) (Some (u "SG10")) (Some (u "CAV")) (Some (u "7111")) None (Some (u "Z53")) (Some (u "kME / mME")) None None (Some (u "Messtechnische Einordnung der Marktlokation")) (Some (212)%Z)), (mkLocation false [(mkLayer None (u "UNH") (Some (u "UTILMD"))); (mkLayer (Some (u "SG4")) (u "IDE") (Some (u "24"))); (mkLayer (Some (u "SG8")) (u "SEQ") (Some (u "Z01"))); (mkLayer (Some (u "SG10")) (u "CCI") (Some (u "Z83")))] (Some (u "CAV")) (Some (u "7111")) (Some (u "Z53"))), STAY);
((mkLine (Some 246740689399336257995342892638627930383%N) (Some (u "SG10")) None None None None None None None (Some (u "Aggregationsverantwortung in MaBiS")) (Some (214)%Z)), (mkLocation false [(mkLayer None (u "UNH") (Some (u "UTILMD"))); (mkLayer (Some (u "SG4")) (u "IDE") (Some (u "24"))); (mkLayer (Some (u "SG8")) (u "SEQ") (Some (u "Z01"))); (mkLayer (Some (u "SG10")) (u "CCI") (Some (u "6")))] (Some (u "CCI")) None None), MOVE_TO_NEIGHBOUR_SAME_KEY);
((mkLine (Some 224862772565255639268306665486746940639%N) (Some (u "SG10")) (Some (u "CCI")) None None None None None None (Some (u "Aggregationsverantwortung in MaBiS")) (Some (215)%Z)), (mkLocation false [(mkLayer None (u "UNH") (Some (u "UTILMD"))); (mkLayer (Some (u "SG4")) (u "IDE") (Some (u "24"))); (mkLayer (Some (u "SG8")) (u "SEQ") (Some (u "Z01"))); (mkLayer (Some (u "SG10")) (u "CCI") (Some (u "6")))] (Some (u "CCI")) None None), STAY);
((mkLine (Some 30396257361911348600332040138184489478%N) (Some (u "SG10")) (Some (u "CCI")) (Some (u "7059")) None (Some (u "6")) (Some (u "Verantwortlicher")) None None (Some (u "Aggregationsverantwortung in MaBiS")) (Some (216)%Z)), (mkLocation false [(mkLayer None (u "UNH") (Some (u "UTILMD"))); (mkLayer (Some (u "SG4")) (u "IDE") (Some (u "24"))); (mkLayer (Some (u "SG8")) (u "SEQ") (Some (u "Z01"))); (mkLayer (Some (u "SG10")) (u "CCI") (Some (u "6")))] (Some (u "CCI")) (Some (u "7059")) (Some (u "6"))), STAY);
((mkLine (Some 26106628165143240627045118997493786279%N) (Some (u "SG10")) (Some (u "CCI")) (Some (u "7037")) None (Some (u "ZA8")) (Some (u "NB")) None None (Some (u "Aggregationsverantwortung in MaBiS")) (Some (217)%Z)), (mkLocation false [(mkLayer None (u "UNH") (Some (u "UTILMD"))); (mkLayer (Some (u "SG4")) (u "IDE") (Some (u "24"))); (mkLayer (Some (u "SG8")) (u "SEQ") (Some (u "Z01"))); (mkLayer (Some (u "SG10")) (u "CCI") (Some (u "6")))] (Some (u "CCI")) (Some (u "7037")) (Some (u "ZA8"))), STAY);
((mkLine (Some 113444360882011804740733661073496490314%N) (Some (u "SG10")) (Some (u "CCI")) (Some (u "7037")) None (Some (u "ZA9")) (Some (u "ÜNB")) None None (Some (u "Aggregationsverantwortung in MaBiS")) (Some (218)%Z)), (mkLocation false [(mkLayer None (u "UNH") (Some (u "UTILMD"))); (mkLayer (Some (u "SG4")) (u "IDE") (Some (u "24"))); (mkLayer (Some (u "SG8")) (u "SEQ") (Some (u "Z01"))); (mkLayer (Some (u "SG10")) (u "CCI") (Some (u "6")))] (Some (u "CCI")) (Some (u "7037")) (Some (u "ZA9"))), STAY);
((mkLine (Some 111199933646076157044263727961777099540%N) (Some (u "SG10")) None None None None None None None (Some (u "Prognosegrundlage der Marktlokation")) (Some (220)%Z)), (mkLocation false [(mkLayer None (u "UNH") (Some (u "UTILMD"))); (mkLayer (Some (u "SG4")) (u "IDE") (Some (u "24"))); (mkLayer (Some (u "SG8")) (u "SEQ") (Some (u "Z01"))); (mkLayer (Some (u "SG10")) (u "CCI") (Some (u "ZC0")))] (Some (u "CCI")) None None), MOVE_TO_NEIGHBOUR_SAME_KEY);
((mkLine (Some 61568381015260346328641529329141591918%N) (Some (u "SG10")) (Some (u "CCI")) None None None None None None (Some (u "Prognosegrundlage der Marktlokation")) (Some (221)%Z)), (mkLocation false [(mkLayer None (u "UNH") (Some (u "UTILMD"))); (mkLayer (Some (u "SG4")) (u "IDE") (Some (u "24"))); (mkLayer (Some (u "SG8")) (u "SEQ") (Some (u "Z01"))); (mkLayer (Some (u "SG10")) (u "CCI") (Some (u "ZC0")))] (Some (u "CCI")) None None), STAY);
((mkLine (Some 314682762819251167609713446247091364599%N) (Some (u "SG10")) (Some (u "CCI")) (Some (u "7037")) None (Some (u "ZC0")) (Some (u "Prognose auf Basis von Werten")) None None (Some (u "Prognosegrundlage der Marktlokation")) (Some (222)%Z)), (mkLocation false [(mkLayer None (u "UNH") (Some (u "UTILMD"))); (mkLayer (Some (u "SG4")) (u "IDE") (Some (u "24"))); (mkLayer (Some (u "SG8")) (u "SEQ") (Some (u "Z01"))); (mkLayer (Some (u "SG10")) (u "CCI") (Some (u "ZC0")))] (Some (u "CCI")) (Some (u "7037")) (Some (u "ZC0"))), STAY);
((mkLine (Some 16116016103919097256162980443097093035%N) (Some (u "SG10")) (Some (u "CCI")) (Some (u "7037")) None (Some (u "ZA6")) (Some (u "Prognose auf Basis von Profilen")) None None (Some (u "Prognosegrundlage der Marktlokation")) (Some (223)%Z)), (mkLocation false [(mkLayer None (u "UNH") (Some (u "UTILMD"))); (mkLayer (Some (u "SG4")) (u "IDE") (Some (u "24"))); (mkLayer (Some (u "SG8")) (u "SEQ") (Some (u "Z01"))); (mkLayer (Some (u "SG10")) (u "CCI") (Some (u "ZC0")))] (Some (u "CCI")) (Some (u "7037")) (Some (u "ZA6"))), STAY);
((mkLine (Some 146428931553564996969218775898784688504%N) (Some (u "SG10")) None None None None None None None (Some (u "Details der Prognosegrundlage")) (Some (225)%Z)), (mkLocation false [(mkLayer None (u "UNH") (Some (u "UTILMD"))); (mkLayer (Some (u "SG4")) (u "IDE") (Some (u "24"))); (mkLayer (Some (u "SG8")) (u "SEQ") (Some (u "Z01"))); (mkLayer (Some (u "SG10")) (u "CCI") (Some (u "ZC0")))] (Some (u "CAV")) None None), STAY);
((mkLine (Some 63977148680417966854147919873347985176%N) (Some (u "SG10")) (Some (u "CAV")) None None None None None None (Some (u "Details der Prognosegrundlage")) (Some (226)%Z)), (mkLocation false [(mkLayer None (u "UNH") (Some (u "UTILMD"))); (mkLayer (Some (u "SG4")) (u "IDE") (Some (u "24"))); (mkLayer (Some (u "SG8")) (u "SEQ") (Some (u "Z01"))); (mkLayer (Some (u "SG10")) (u "CCI") (Some (u "ZC0")))] (Some (u "CAV")) None None), STAY);
((mkLine (Some 201164034168490670041520206582415985924%N) (Some (u "SG10")) (Some (u "CAV")) (Some (u "7111")) None (Some (u "E02")) (Some (u "SLP/SEP")) None None (Some (u "Details der Prognosegrundlage")) (Some (228)%Z)), (mkLocation false [(mkLayer None (u "UNH") (Some (u "UTILMD"))); (mkLayer (Some (u "SG4")) (u "IDE") (Some (u "24"))); (mkLayer (Some (u "SG8")) (u "SEQ") (Some (u "Z01"))); (mkLayer (Some (u "SG10")) (u "CCI") (Some (u "ZC0")))] (Some (u "CAV")) (Some (u "7111")) (Some (u "E02"))), STAY);
((mkLine (Some 142554934252350983544593870106496203649%N) (Some (u "SG10")) (Some (u "CAV")) (Some (u "7111")) None (Some (u "E14")) (Some (u "TLP/TEP")) None None (Some (u "Details der Prognosegrundlage")) (Some (229)%Z)), (mkLocation false [(mkLayer None (u "UNH") (Some (u "UTILMD"))); (mkLayer (Some (u "SG4")) (u "IDE") (Some (u "24"))); (mkLayer (Some (u "SG8")) (u "SEQ") (Some (u "Z01"))); (mkLayer (Some (u "SG10")) (u "CCI") (Some (u "ZC0")))] (Some (u "CAV")) (Some (u "7111")) (Some (u "E14"))), STAY);
((mkLine (Some 1280863266098837953557281382281468230%N) (Some (u "SG10")) (Some (u "CAV")) (Some (u "7111")) None (Some (u "Z36")) (Some (u "TEP mit Referenzmessung")) None None (Some (u "Details der Prognosegrundlage")) (Some (230)%Z)), (mkLocation false [(mkLayer None (u "UNH") (Some (u "UTILMD"))); (mkLayer (Some (u "SG4")) (u "IDE") (Some (u "24"))); (mkLayer (Some (u "SG8")) (u "SEQ") (Some (u "Z01"))); (mkLayer (Some (u "SG10")) (u "CCI") (Some (u "ZC0")))] (Some (u "CAV")) (Some (u "7111")) (Some (u "Z36"))), STAY);
((mkLine (Some 12383522208441063471723112941044686251%N) (Some (u "SG10")) None None None None None None None (Some (u "Art der erzeugenden Marktlokation")) (Some (232)%Z)), (mkLocation false [(mkLayer None (u "UNH") (Some (u "UTILMD"))); (mkLayer (Some (u "SG4")) (u "IDE") (Some (u "24"))); (mkLayer (Some (u "SG8")) (u "SEQ") (Some (u "Z01"))); (mkLayer (Some (u "SG10")) (u "CCI") (Some (u "Z34")))] (Some (u "CCI")) None None), MOVE_TO_NEIGHBOUR_SAME_KEY);
((mkLine (Some 36093537775676904955709626275887804039%N) (Some (u "SG10")) (Some (u "CCI")) None None None None None None (Some (u "Art der erzeugenden Marktlokation")) (Some (233)%Z)), (mkLocation false [(mkLayer None (u "UNH") (Some (u "UTILMD"))); (mkLayer (Some (u "SG4")) (u "IDE") (Some (u "24"))); (mkLayer (Some (u "SG8")) (u "SEQ") (Some (u "Z01"))); (mkLayer (Some (u "SG10")) (u "CCI") (Some (u "Z34")))] (Some (u "CCI")) None None), STAY);
((mkLine (Some 266615731331686933142406958286477484895%N) (Some (u "SG10")) (Some (u "CCI")) (Some (u "7037")) None (Some (u "Z34")) (Some (u "Art der erzeugendenMarktlokation")) None None (Some (u "Art der erzeugenden Marktlokation")) (Some (234)%Z)), (mkLocation false [(mkLayer None (u "UNH") (Some (u "UTILMD"))); (mkLayer (Some (u "SG4")) (u "IDE") (Some (u "24"))); (mkLayer (Some (u "SG8")) (u "SEQ") (Some (u "Z01"))); (mkLayer (Some (u "SG10")) (u "CCI") (Some (u "Z34")))] (Some (u "CCI")) (Some (u "7037")) (Some (u "Z34"))), STAY);
((mkLine (Some 54377528882047831156516080588153923962%N) (Some (u "SG10")) None None None None None None None (Some (u "Art der erzeugenden Marktlokation")) (Some (236)%Z)), (mkLocation false [(mkLayer None (u "UNH") (Some (u "UTILMD"))); (mkLayer (Some (u "SG4")) (u "IDE") (Some (u "24"))); (mkLayer (Some (u "SG8")) (u "SEQ") (Some (u "Z01"))); (mkLayer (Some (u "SG10")) (u "CCI") (Some (u "Z34")))] (Some (u "CAV")) None None), STAY);
((mkLine (Some 57583673891261263062628659630442839037%N) (Some (u "SG10")) (Some (u "CAV")) None None None None None None (Some (u "Art der erzeugenden Marktlokation")) (Some (237)%Z)), (mkLocation false [(mkLayer None (u "UNH") (Some (u "UTILMD"))); (mkLayer (Some (u "SG4")) (u "IDE") (Some (u "24"))); (mkLayer (Some (u "SG8")) (u "SEQ") (Some (u "Z01"))); (mkLayer (Some (u "SG10")) (u "CCI") (Some (u "Z34")))] (Some (u "CAV")) None None), STAY);
((mkLine (Some 246662813612810949576865061287441144213%N) (Some (u "SG10")) (Some (u "CAV")) (Some (u "7111")) None (Some (u "Z33")) (Some (u "EEG-Marktlokation ohne DV-Pflicht")) None None (Some (u "Art der erzeugenden Marktlokation")) (Some (238)%Z)), (mkLocation false [(mkLayer None (u "UNH") (Some (u "UTILMD"))); (mkLayer (Some (u "SG4")) (u "IDE") (Some (u "24"))); (mkLayer (Some (u "SG8")) (u "SEQ") (Some (u "Z01"))); (mkLayer (Some (u "SG10")) (u "CCI") (Some (u "Z34")))] (Some (u "CAV")) (Some (u "7111")) (Some (u "Z33"))), STAY);
((mkLine (Some 203112387221295890280309368397217746538%N) (Some (u "SG10")) (Some (u "CAV")) (Some (u "7111")) None (Some (u "Z34")) (Some (u "KWKG-Marktlokation ohne DV-Pflicht")) None None (Some (u "Art der erzeugenden Marktlokation")) (Some (239)%Z)), (mkLocation false [(mkLayer None (u "UNH") (Some (u "UTILMD"))); (mkLayer (Some (u "SG4")) (u "IDE") (Some (u "24"))); (mkLayer (Some (u "SG8")) (u "SEQ") (Some (u "Z01"))); (mkLayer (Some (u "SG10")) (u "CCI") (Some (u "Z34")))] (Some (u "CAV")) (Some (u "7111")) (Some (u "Z34"))), STAY);
((mkLine (Some 136133340168004023611824376572647465239%N) (Some (u "SG10")) (Some (u "CAV")) (Some (u "7111")) None (Some (u "Z35")) (Some (u "sonstige Marktlokation")) None None (Some (u "Art der erzeugenden Marktlokation")) (Some (240)%Z)), (mkLocation false [(mkLayer None (u "UNH") (Some (u "UTILMD"))); (mkLayer (Some (u "SG4")) (u "IDE") (Some (u "24"))); (mkLayer (Some (u "SG8")) (u "SEQ") (Some (u "Z01"))); (mkLayer (Some (u "SG10")) (u "CCI") (Some (u "Z34")))] (Some (u "CAV")) (Some (u "7111")) (Some (u "Z35"))), STAY);
((mkLine (Some 200749105977220938490910846617583802499%N) (Some (u "SG10")) (Some (u "CAV")) (Some (u "7111")) None (Some (u "Z37")) (Some (u "EEG-Marktlokation mit DV-Pflicht")) None None (Some (u "Art der erzeugenden Marktlokation")) (Some (241)%Z)), (mkLocation false [(mkLayer None (u "UNH") (Some (u "UTILMD"))); (mkLayer (Some (u "SG4")) (u "IDE") (Some (u "24"))); (mkLayer (Some (u "SG8")) (u "SEQ") (Some (u "Z01"))); (mkLayer (Some (u "SG10")) (u "CCI") (Some (u "Z34")))] (Some (u "CAV")) (Some (u "7111")) (Some (u "Z37"))), STAY);
((mkLine (Some 51500849972867666174278593286838414519%N) (Some (u "SG10")) (Some (u "CAV")) (Some (u "7111")) None (Some (u "Z46")) (Some (u "KWKG-Marktlokation mit DV-Pflicht")) None None (Some (u "Art der erzeugenden Marktlokation")) (Some (242)%Z)), (mkLocation false [(mkLayer None (u "UNH") (Some (u "UTILMD"))); (mkLayer (Some (u "SG4")) (u "IDE") (Some (u "24"))); (mkLayer (Some (u "SG8")) (u "SEQ") (Some (u "Z01"))); (mkLayer (Some (u "SG10")) (u "CCI") (Some (u "Z34")))] (Some (u "CAV")) (Some (u "7111")) (Some (u "Z46"))), STAY);
((mkLine (Some 3032677749397149277611860867785525030%N) (Some (u "SG10")) None None None None None None None (Some (u "Versorgungsart der Marktlokation")) (Some (244)%Z)), (mkLocation false [(mkLayer None (u "UNH") (Some (u "UTILMD"))); (mkLayer (Some (u "SG4")) (u "IDE") (Some (u "24"))); (mkLayer (Some (u "SG8")) (u "SEQ") (Some (u "Z01"))); (mkLayer (Some (u "SG10")) (u "CCI") (Some (u "Z36")))] (Some (u "CCI")) None None), MOVE_TO_NEIGHBOUR_SAME_KEY);
((mkLine (Some 87721297821021647819631761481674458851%N) (Some (u "SG10")) (Some (u "CCI")) None None None None None None (Some (u "Versorgungsart der Marktlokation")) (Some (245)%Z)), (mkLocation false [(mkLayer None (u "UNH") (Some (u "UTILMD"))); (mkLayer (Some (u "SG4")) (u "IDE") (Some (u "24"))); (mkLayer (Some (u "SG8")) (u "SEQ") (Some (u "Z01"))); (mkLayer (Some (u "SG10")) (u "CCI") (Some (u "Z36")))] (Some (u "CCI")) None None), STAY);
((mkLine (Some 3116813263554344504531805683556890362%N) (Some (u "SG10")) (Some (u "CCI")) (Some (u "7059")) None (Some (u "Z36")) (Some (u "Versorgungsart derMarktlokation")) None None (Some (u "Versorgungsart der Marktlokation")) (Some (246)%Z)), (mkLocation false [(mkLayer None (u "UNH") (Some (u "UTILMD"))); (mkLayer (Some (u "SG4")) (u "IDE") (Some (u "24"))); (mkLayer (Some (u "SG8")) (u "SEQ") (Some (u "Z01"))); (mkLayer (Some (u "SG10")) (u "CCI") (Some (u "Z36")))] (Some (u "CCI")) (Some (u "7059")) (Some (u "Z36"))), STAY);
((mkLine (Some 141477006396123783929011180887437585783%N) (Some (u "SG8")) None None None None None None None (Some (u "Erforderlicher Wert der Marktlokation")) (Some (248)%Z)), (mkLocation false [(mkLayer None (u "UNH") (Some (u "UTILMD"))); (mkLayer (Some (u "SG4")) (u "IDE") (Some (u "24"))); (mkLayer (Some (u "SG8")) (u "SEQ") (Some (u "Z27")))] (Some (u "SEQ")) None None), LEAVE_TO_PARENT_AND_DIVE_INTO_SUB_GROUP);
((mkLine (Some 204068339511377291317529548284664706408%N) (Some (u "SG8")) (Some (u "SEQ")) None None None None None None (Some (u "Erforderlicher Wert der Marktlokation")) (Some (250)%Z)), (mkLocation false [(mkLayer None (u "UNH") (Some (u "UTILMD"))); (mkLayer (Some (u "SG4")) (u "IDE") (Some (u "24"))); (mkLayer (Some (u "SG8")) (u "SEQ") (Some (u "Z27")))] (Some (u "SEQ")) None None), STAY);
((mkLine (Some 42411856556400255117096872441967312806%N) (Some (u "SG8")) (Some (u "SEQ")) (Some (u "1229")) None (Some (u "Z27")) (Some (u "Erforderlicher Wert derMarktlokation")) None None (Some (u "Erforderlicher Wert der Marktlokation")) (Some (251)%Z)), (mkLocation false [(mkLayer None (u "UNH") (Some (u "UTILMD"))); (mkLayer (Some (u "SG4")) (u "IDE") (Some (u "24"))); (mkLayer (Some (u "SG8")) (u "SEQ") (Some (u "Z27")))] (Some (u "SEQ")) (Some (u "1229")) (Some (u "Z27"))), STAY);
((mkLine (Some 260099748358513205358368131558061483522%N) (Some (u "SG8")) None None None None None None None (Some (u "Referenz auf die ID der Marktlokation")) (Some (253)%Z)), (mkLocation false [(mkLayer None (u "UNH") (Some (u "UTILMD"))); (mkLayer (Some (u "SG4")) (u "IDE") (Some (u "24"))); (mkLayer (Some (u "SG8")) (u "SEQ") (Some (u "Z27")))] (Some (u "RFF")) None None), STAY);
((mkLine (Some 322743193005487631286873251543709750525%N) (Some (u "SG8")) (Some (u "RFF")) None None None None None None (Some (u "Referenz auf die ID der Marktlokation")) (Some (254)%Z)), (mkLocation false [(mkLayer None (u "UNH") (Some (u "UTILMD"))); (mkLayer (Some (u "SG4")) (u "IDE") (Some (u "24"))); (mkLayer (Some (u "SG8")) (u "SEQ") (Some (u "Z27")))] (Some (u "RFF")) None None), STAY);
((mkLine (Some 282522415529454634688675718066394466301%N) (Some (u "SG8")) (Some (u "RFF")) (Some (u "1153")) None (Some (u "Z18")) (Some (u "Marktlokation")) None None (Some (u "Referenz auf die ID der Marktlokation")) (Some (255)%Z)), (mkLocation false [(mkLayer None (u "UNH") (Some (u "UTILMD"))); (mkLayer (Some (u "SG4")) (u "IDE") (Some (u "24"))); (mkLayer (Some (u "SG8")) (u "SEQ") (Some (u "Z27")))] (Some (u "RFF")) (Some (u "1153")) (Some (u "Z18"))), STAY);
((mkLine (Some 79410309931697490211405668219979091105%N) (Some (u "SG8")) (Some (u "RFF")) (Some (u "1154")) None None (Some (u "ID einer Marktlokation")) None None (Some (u "Referenz auf die ID der Marktlokation")) (Some (256)%Z)), (mkLocation false [(mkLayer None (u "UNH") (Some (u "UTILMD"))); (mkLayer (Some (u "SG4")) (u "IDE") (Some (u "24"))); (mkLayer (Some (u "SG8")) (u "SEQ") (Some (u "Z27")))] (Some (u "RFF")) (Some (u "1154")) None), STAY);
((mkLine (Some 18097671436778985870552322489227987936%N) (Some (u "SG10")) None None None None None None None (Some (u "Beschreibung erforderlicher Wert")) (Some (258)%Z)), (mkLocation false [(mkLayer None (u "UNH") (Some (u "UTILMD"))); (mkLayer (Some (u "SG4")) (u "IDE") (Some (u "24"))); (mkLayer (Some (u "SG8")) (u "SEQ") (Some (u "Z27"))); (mkLayer (Some (u "SG10")) (u "CCI") (Some (u "Z35")))] (Some (u "CCI")) None None), DIVE_INTO_SUB_GROUP);
((mkLine (Some 280736599196275837893982045904608888653%N) (Some (u "SG10")) (Some (u "CCI")) None None None None None None (Some (u "Beschreibung erforderlicher Wert")) (Some (259)%Z)), (mkLocation false [(mkLayer None (u "UNH") (Some (u "UTILMD"))); (mkLayer (Some (u "SG4")) (u "IDE") (Some (u "24"))); (mkLayer (Some (u "SG8")) (u "SEQ") (Some (u "Z27"))); (mkLayer (Some (u "SG10")) (u "CCI") (Some (u "Z35")))] (Some (u "CCI")) None None), STAY);
((mkLine (Some 323227067081859690992356864536667974315%N) (Some (u "SG10")) (Some (u "CCI")) (Some (u "7059")) None (Some (u "Z35")) (Some (u "Beschreibungerforderlicher Wert")) None None (Some (u "Beschreibung erforderlicher Wert")) (Some (260)%Z)), (mkLocation false [(mkLayer None (u "UNH") (Some (u "UTILMD"))); (mkLayer (Some (u "SG4")) (u "IDE") (Some (u "24"))); (mkLayer (Some (u "SG8")) (u "SEQ") (Some (u "Z27"))); (mkLayer (Some (u "SG10")) (u "CCI") (Some (u "Z35")))] (Some (u "CCI")) (Some (u "7059")) (Some (u "Z35"))), STAY);
((mkLine (Some 243614188234717619636468149493168053130%N) (Some (u "SG10")) None None None None None None None (Some (u "Wert")) (Some (262)%Z)), (mkLocation false [(mkLayer None (u "UNH") (Some (u "UTILMD"))); (mkLayer (Some (u "SG4")) (u "IDE") (Some (u "24"))); (mkLayer (Some (u "SG8")) (u "SEQ") (Some (u "Z27"))); (mkLayer (Some (u "SG10")) (u "CCI") (Some (u "Z35")))] (Some (u "CAV")) None None), STAY);
((mkLine (Some 28532160159238871144819512174053162059%N) (Some (u "SG10")) (Some (u "CAV")) None None None None None None (Some (u "Wert")) (Some (263)%Z)), (mkLocation false [(mkLayer None (u "UNH") (Some (u "UTILMD"))); (mkLayer (Some (u "SG4")) (u "IDE") (Some (u "24"))); (mkLayer (Some (u "SG8")) (u "SEQ") (Some (u "Z27"))); (mkLayer (Some (u "SG10")) (u "CCI") (Some (u "Z35")))] (Some (u "CAV")) None None), STAY);
((mkLine (Some 129485926721534405693163958853272439473%N) (Some (u "SG10")) (Some (u "CAV")) (Some (u "7111")) None (Some (u "ZC2")) (Some (u "Wirkarbeit")) None None (Some (u "Wert")) (Some (264)%Z)), (mkLocation false [(mkLayer None (u "UNH") (Some (u "UTILMD"))); (mkLayer (Some (u "SG4")) (u "IDE") (Some (u "24"))); (mkLayer (Some (u "SG8")) (u "SEQ") (Some (u "Z27"))); (mkLayer (Some (u "SG10")) (u "CCI") (Some (u "Z35")))] (Some (u "CAV")) (Some (u "7111")) (Some (u "ZC2"))), STAY);
((mkLine (Some 337413551027345961665517185830345690896%N) (Some (u "SG10")) (Some (u "CAV")) (Some (u "7111")) None (Some (u "ZC3")) (Some (u "Blindarbeit")) None None (Some (u "Wert")) (Some (265)%Z)), (mkLocation false [(mkLayer None (u "UNH") (Some (u "UTILMD"))); (mkLayer (Some (u "SG4")) (u "IDE") (Some (u "24"))); (mkLayer (Some (u "SG8")) (u "SEQ") (Some (u "Z27"))); (mkLayer (Some (u "SG10")) (u "CCI") (Some (u "Z35")))] (Some (u "CAV")) (Some (u "7111")) (Some (u "ZC3"))), STAY);
((mkLine (Some 121546876736759775589240639145872106993%N) (Some (u "SG10")) None None None None None None None (Some (u "Wertegranularität")) (Some (267)%Z)), (mkLocation false [(mkLayer None (u "UNH") (Some (u "UTILMD"))); (mkLayer (Some (u "SG4")) (u "IDE") (Some (u "24"))); (mkLayer (Some (u "SG8")) (u "SEQ") (Some (u "Z27"))); (mkLayer (Some (u "SG10")) (u "CCI") (Some (u "Z35")))] (Some (u "CAV")) None None), STAY);
((mkLine (Some 260339143007455460729017721914063017298%N) (Some (u "SG10")) (Some (u "CAV")) None None None None None None (Some (u "Wertegranularität")) (Some (268)%Z)), (mkLocation false [(mkLayer None (u "UNH") (Some (u "UTILMD"))); (mkLayer (Some (u "SG4")) (u "IDE") (Some (u "24"))); (mkLayer (Some (u "SG8")) (u "SEQ") (Some (u "Z27"))); (mkLayer (Some (u "SG10")) (u "CCI") (Some (u "Z35")))] (Some (u "CAV")) None None), STAY);
((mkLine (Some 213156141259201825648260877095807710867%N) (Some (u "SG10")) (Some (u "CAV")) (Some (u "7111")) None (Some (u "ZC4")) (Some (u "Kumuliert")) None None (Some (u "Wertegranularität")) (Some (269)%Z)), (mkLocation false [(mkLayer None (u "UNH") (Some (u "UTILMD"))); (mkLayer (Some (u "SG4")) (u "IDE") (Some (u "24"))); (mkLayer (Some (u "SG8")) (u "SEQ") (Some (u "Z27"))); (mkLayer (Some (u "SG10")) (u "CCI") (Some (u "Z35")))] (Some (u "CAV")) (Some (u "7111")) (Some (u "ZC4"))), STAY);
((mkLine (Some 199411309079644283355447403402503025028%N) (Some (u "SG10")) (Some (u "CAV")) (Some (u "7111")) None (Some (u "ZC5")) (Some (u "1/4 Stunde")) None None (Some (u "Wertegranularität")) (Some (270)%Z)), (mkLocation false [(mkLayer None (u "UNH") (Some (u "UTILMD"))); (mkLayer (Some (u "SG4")) (u "IDE") (Some (u "24"))); (mkLayer (Some (u "SG8")) (u "SEQ") (Some (u "Z27"))); (mkLayer (Some (u "SG10")) (u "CCI") (Some (u "Z35")))] (Some (u "CAV")) (Some (u "7111")) (Some (u "ZC5"))), STAY);
((mkLine (Some 55445241337747327386809589888037685463%N) (Some (u "SG10")) (Some (u "CAV")) (Some (u "7111")) None (Some (u "ZC7")) (Some (u "höchste 1/4 Stunde im Monat")) None None (Some (u "Wertegranularität")) (Some (271)%Z)), (mkLocation false [(mkLayer None (u "UNH") (Some (u "UTILMD"))); (mkLayer (Some (u "SG4")) (u "IDE") (Some (u "24"))); (mkLayer (Some (u "SG8")) (u "SEQ") (Some (u "Z27"))); (mkLayer (Some (u "SG10")) (u "CCI") (Some (u "Z35")))] (Some (u "CAV")) (Some (u "7111")) (Some (u "ZC7"))), STAY);
((mkLine (Some 148243839870476006944836084615141383914%N) (Some (u "SG10")) None None None None None None None (Some (u "Zugeordnete Zählzeit")) (Some (273)%Z)), (mkLocation false [(mkLayer None (u "UNH") (Some (u "UTILMD"))); (mkLayer (Some (u "SG4")) (u "IDE") (Some (u "24"))); (mkLayer (Some (u "SG8")) (u "SEQ") (Some (u "Z27"))); (mkLayer (Some (u "SG10")) (u "CCI") (Some (u "Z39")))] (Some (u "CCI")) None None), MOVE_TO_NEIGHBOUR_SAME_KEY);
((mkLine (Some 17680331303011196209699920213955970070%N) (Some (u "SG10")) (Some (u "CCI")) None None None None None None (Some (u "Zugeordnete Zählzeit")) (Some (274)%Z)), (mkLocation false [(mkLayer None (u "UNH") (Some (u "UTILMD"))); (mkLayer (Some (u "SG4")) (u "IDE") (Some (u "24"))); (mkLayer (Some (u "SG8")) (u "SEQ") (Some (u "Z27"))); (mkLayer (Some (u "SG10")) (u "CCI") (Some (u "Z39")))] (Some (u "CCI")) None None), STAY);
((mkLine (Some 22355745242020899465296520948908061864%N) (Some (u "SG10")) (Some (u "CCI")) (Some (u "7059")) None (Some (u "Z39")) (Some (u "Code der Zählzeit")) None None (Some (u "Zugeordnete Zählzeit")) (Some (275)%Z)), (mkLocation false [(mkLayer None (u "UNH") (Some (u "UTILMD"))); (mkLayer (Some (u "SG4")) (u "IDE") (Some (u "24"))); (mkLayer (Some (u "SG8")) (u "SEQ") (Some (u "Z27"))); (mkLayer (Some (u "SG10")) (u "CCI") (Some (u "Z39")))] (Some (u "CCI")) (Some (u "7059")) (Some (u "Z39"))), STAY);
((mkLine (Some 163943221055502872045221371659171955842%N) (Some (u "SG10")) (Some (u "CCI")) (Some (u "7037")) None (Some (u "0")) (Some (u "Code der ZählzeitZ61")) None None (Some (u "Zugeordnete Zählzeit")) (Some (276)%Z)), (mkLocation false [(mkLayer None (u "UNH") (Some (u "UTILMD"))); (mkLayer (Some (u "SG4")) (u "IDE") (Some (u "24"))); (mkLayer (Some (u "SG8")) (u "SEQ") (Some (u "Z27"))); (mkLayer (Some (u "SG10")) (u "CCI") (Some (u "Z39")))] (Some (u "CCI")) (Some (u "7037")) (Some (u "0"))), STAY);
((mkLine (Some 239163524940713001208771927828819378924%N) (Some (u "SG10")) None None None None None None None (Some (u "Wert für Netzbetreiber relevant")) (Some (278)%Z)), (mkLocation false [(mkLayer None (u "UNH") (Some (u "UTILMD"))); (mkLayer (Some (u "SG4")) (u "IDE") (Some (u "24"))); (mkLayer (Some (u "SG8")) (u "SEQ") (Some (u "Z27"))); (mkLayer (Some (u "SG10")) (u "CCI") (Some (u "ZA8")))] (Some (u "CCI")) None None), MOVE_TO_NEIGHBOUR_SAME_KEY);
((mkLine (Some 89075554231364238266156347261303641086%N) (Some (u "SG10")) (Some (u "CCI")) None None None None None None (Some (u "Wert für Netzbetreiber relevant")) (Some (279)%Z)), (mkLocation false [(mkLayer None (u "UNH") (Some (u "UTILMD"))); (mkLayer (Some (u "SG4")) (u "IDE") (Some (u "24"))); (mkLayer (Some (u "SG8")) (u "SEQ") (Some (u "Z27"))); (mkLayer (Some (u "SG10")) (u "CCI") (Some (u "ZA8")))] (Some (u "CCI")) None None), STAY);
((mkLine (Some 53822414179170850010336552602621567357%N) (Some (u "SG10")) (Some (u "CCI")) (Some (u "7037")) None (Some (u "ZA8")) (Some (u "NB")) None None (Some (u "Wert für Netzbetreiber relevant")) (Some (280)%Z)), (mkLocation false [(mkLayer None (u "UNH") (Some (u "UTILMD"))); (mkLayer (Some (u "SG4")) (u "IDE") (Some (u "24"))); (mkLayer (Some (u "SG8")) (u "SEQ") (Some (u "Z27"))); (mkLayer (Some (u "SG10")) (u "CCI") (Some (u "ZA8")))] (Some (u "CCI")) (Some (u "7037")) (Some (u "ZA8"))), STAY);
((mkLine (Some 273088645459136679987379266923321306643%N) (Some (u "SG10")) None None None None None None None (Some (u "Verwendungszweck des Wertes")) (Some (282)%Z)), (mkLocation false [(mkLayer None (u "UNH") (Some (u "UTILMD"))); (mkLayer (Some (u "SG4")) (u "IDE") (Some (u "24"))); (mkLayer (Some (u "SG8")) (u "SEQ") (Some (u "Z27"))); (mkLayer (Some (u "SG10")) (u "CCI") (Some (u "ZA8")))] (Some (u "CAV")) None None), STAY);
((mkLine (Some 120109376974796024819161918584199069677%N) (Some (u "SG10")) (Some (u "CAV")) None None None None None None (Some (u "Verwendungszweck des Wertes")) (Some (283)%Z)), (mkLocation false [(mkLayer None (u "UNH") (Some (u "UTILMD"))); (mkLayer (Some (u "SG4")) (u "IDE") (Some (u "24"))); (mkLayer (Some (u "SG8")) (u "SEQ") (Some (u "Z27"))); (mkLayer (Some (u "SG10")) (u "CCI") (Some (u "ZA8")))] (Some (u "CAV")) None None), STAY);
((mkLine (Some 170873208561031524018524580581984664240%N) (Some (u "SG10")) (Some (u "CAV")) (Some (u "7111")) None (Some (u "Z84")) (Some (u "Netznutzungsabrechnung")) None None (Some (u "Verwendungszweck des Wertes")) (Some (284)%Z)), (mkLocation false [(mkLayer None (u "UNH") (Some (u "UTILMD"))); (mkLayer (Some (u "SG4")) (u "IDE") (Some (u "24"))); (mkLayer (Some (u "SG8")) (u "SEQ") (Some (u "Z27"))); (mkLayer (Some (u "SG10")) (u "CCI") (Some (u "ZA8")))] (Some (u "CAV")) (Some (u "7111")) (Some (u "Z84"))), STAY);
((mkLine (Some 110760270216544655742382376380172637843%N) (Some (u "SG10")) (Some (u "CAV")) (Some (u "7111")) None (Some (u "Z85")) (Some (u "Bilanzkreisabrechnung")) None None (Some (u "Verwendungszweck des Wertes")) (Some (285)%Z)), (mkLocation false [(mkLayer None (u "UNH") (Some (u "UTILMD"))); (mkLayer (Some (u "SG4")) (u "IDE") (Some (u "24"))); (mkLayer (Some (u "SG8")) (u "SEQ") (Some (u "Z27"))); (mkLayer (Some (u "SG10")) (u "CCI") (Some (u "ZA8")))] (Some (u "CAV")) (Some (u "7111")) (Some (u "Z85"))), STAY);
((mkLine (Some 247200430189908259845353887361455163486%N) (Some (u "SG10")) (Some (u "CAV")) (Some (u "7111")) None (Some (u "Z86")) (Some (u "Mehrmindermengenabrec hnung	[27P1..1]")) None None (Some (u "Verwendungszweck des Wertes")) (Some (286)%Z)), (mkLocation false [(mkLayer None (u "UNH") (Some (u "UTILMD"))); (mkLayer (Some (u "SG4")) (u "IDE") (Some (u "24"))); (mkLayer (Some (u "SG8")) (u "SEQ") (Some (u "Z27"))); (mkLayer (Some (u "SG10")) (u "CCI") (Some (u "ZA8")))] (Some (u "CAV")) (Some (u "7111")) (Some (u "Z86"))), STAY);
((mkLine (Some 143466746734900707929932627220830674857%N) (Some (u "SG10")) (Some (u "CAV")) (Some (u "7111")) None (Some (u "Z92")) (Some (u "Übermittlung an das HKNR	[24P1..1]")) None None (Some (u "Verwendungszweck des Wertes")) (Some (287)%Z)), (mkLocation false [(mkLayer None (u "UNH") (Some (u "UTILMD"))); (mkLayer (Some (u "SG4")) (u "IDE") (Some (u "24"))); (mkLayer (Some (u "SG8")) (u "SEQ") (Some (u "Z27"))); (mkLayer (Some (u "SG10")) (u "CCI") (Some (u "ZA8")))] (Some (u "CAV")) (Some (u "7111")) (Some (u "Z92"))), STAY);
((mkLine (Some 221141706227019025522287271794008855257%N) (Some (u "SG10")) (Some (u "CAV")) (Some (u "7111")) None (Some (u "ZD1")) (Some (u "Blindstromabrechnung")) None None (Some (u "Verwendungszweck des Wertes")) (Some (288)%Z)), (mkLocation false [(mkLayer None (u "UNH") (Some (u "UTILMD"))); (mkLayer (Some (u "SG4")) (u "IDE") (Some (u "24"))); (mkLayer (Some (u "SG8")) (u "SEQ") (Some (u "Z27"))); (mkLayer (Some (u "SG10")) (u "CCI") (Some (u "ZA8")))] (Some (u "CAV")) (Some (u "7111")) (Some (u "ZD1"))), STAY);
((mkLine (Some 305930199953115476047882535507084613206%N) (Some (u "SG10")) (Some (u "CAV")) (Some (u "7111")) None (Some (u "ZE1")) (Some (u "Es liegt kein Verwendungszweck vor")) None None (Some (u "Verwendungszweck des Wertes")) (Some (289)%Z)), (mkLocation false [(mkLayer None (u "UNH") (Some (u "UTILMD"))); (mkLayer (Some (u "SG4")) (u "IDE") (Some (u "24"))); (mkLayer (Some (u "SG8")) (u "SEQ") (Some (u "Z27"))); (mkLayer (Some (u "SG10")) (u "CCI") (Some (u "ZA8")))] (Some (u "CAV")) (Some (u "7111")) (Some (u "ZE1"))), STAY);
((mkLine (Some 126187795633997416152258064493610032076%N) (Some (u "SG10")) None None None None None None None (Some (u "Wert für Lieferant relevant")) (Some (291)%Z)), (mkLocation false [(mkLayer None (u "UNH") (Some (u "UTILMD"))); (mkLayer (Some (u "SG4")) (u "IDE") (Some (u "24"))); (mkLayer (Some (u "SG8")) (u "SEQ") (Some (u "Z27"))); (mkLayer (Some (u "SG10")) (u "CCI") (Some (u "ZA7")))] (Some (u "CCI")) None None), MOVE_TO_NEIGHBOUR_SAME_KEY);
((mkLine (Some 261149720827319488759786105970014365807%N) (Some (u "SG10")) (Some (u "CCI")) None None None None None None (Some (u "Wert für Lieferant relevant")) (Some (292)%Z)), (mkLocation false [(mkLayer None (u "UNH") (Some (u "UTILMD"))); (mkLayer (Some (u "SG4")) (u "IDE") (Some (u "24"))); (mkLayer (Some (u "SG8")) (u "SEQ") (Some (u "Z27"))); (mkLayer (Some (u "SG10")) (u "CCI") (Some (u "ZA7")))] (Some (u "CCI")) None None), STAY);
((mkLine (Some 58096731566108319836978916686358536503%N) (Some (u "SG10")) (Some (u "CCI")) (Some (u "7037")) None (Some (u "ZA7")) (Some (u "LF")) None None (Some (u "Wert für Lieferant relevant")) (Some (293)%Z)), (mkLocation false [(mkLayer None (u "UNH") (Some (u "UTILMD"))); (mkLayer (Some (u "SG4")) (u "IDE") (Some (u "24"))); (mkLayer (Some (u "SG8")) (u "SEQ") (Some (u "Z27"))); (mkLayer (Some (u "SG10")) (u "CCI") (Some (u "ZA7")))] (Some (u "CCI")) (Some (u "7037")) (Some (u "ZA7"))), STAY);
((mkLine (Some 28488151698373674671832920564859731832%N) (Some (u "SG10")) None None None None None None None (Some (u "Verwendungszweck des Wertes")) (Some (295)%Z)), (mkLocation false [(mkLayer None (u "UNH") (Some (u "UTILMD"))); (mkLayer (Some (u "SG4")) (u "IDE") (Some (u "24"))); (mkLayer (Some (u "SG8")) (u "SEQ") (Some (u "Z27"))); (mkLayer (Some (u "SG10")) (u "CCI") (Some (u "ZA7")))] (Some (u "CAV")) None None), STAY);
((mkLine (Some 134950833599566716187453568220815573142%N) (Some (u "SG10")) (Some (u "CAV")) None None None None None None (Some (u "Verwendungszweck des Wertes")) (Some (296)%Z)), (mkLocation false [(mkLayer None (u "UNH") (Some (u "UTILMD"))); (mkLayer (Some (u "SG4")) (u "IDE") (Some (u "24"))); (mkLayer (Some (u "SG8")) (u "SEQ") (Some (u "Z27"))); (mkLayer (Some (u "SG10")) (u "CCI") (Some (u "ZA7")))] (Some (u "CAV")) None None), STAY);
((mkLine (Some 31003743234559006381141561229721681838%N) (Some (u "SG10")) (Some (u "CAV")) (Some (u "7111")) None (Some (u "Z84")) (Some (u "Netznutzungsabrechnung")) None None (Some (u "Verwendungszweck des Wertes")) (Some (297)%Z)), (mkLocation false [(mkLayer None (u "UNH") (Some (u "UTILMD"))); (mkLayer (Some (u "SG4")) (u "IDE") (Some (u "24"))); (mkLayer (Some (u "SG8")) (u "SEQ") (Some (u "Z27"))); (mkLayer (Some (u "SG10")) (u "CCI") (Some (u "ZA7")))] (Some (u "CAV")) (Some (u "7111")) (Some (u "Z84"))), STAY);
((mkLine (Some 18646993320346310830179251934766284098%N) (Some (u "SG10")) (Some (u "CAV")) (Some (u "7111")) None (Some (u "Z85")) (Some (u "Bilanzkreisabrechnung")) None None (Some (u "Verwendungszweck des Wertes")) (Some (298)%Z)), (mkLocation false [(mkLayer None (u "UNH") (Some (u "UTILMD"))); (mkLayer (Some (u "SG4")) (u "IDE") (Some (u "24"))); (mkLayer (Some (u "SG8")) (u "SEQ") (Some (u "Z27"))); (mkLayer (Some (u "SG10")) (u "CCI") (Some (u "ZA7")))] (Some (u "CAV")) (Some (u "7111")) (Some (u "Z85"))), STAY);
((mkLine (Some 131615057476837357438776974684809862261%N) (Some (u "SG10")) (Some (u "CAV")) (Some (u "7111")) None (Some (u "Z86")) (Some (u "Mehrmindermengenabrec hnung	[27P1..1]")) None None (Some (u "Verwendungszweck des Wertes")) (Some (299)%Z)), (mkLocation false [(mkLayer None (u "UNH") (Some (u "UTILMD"))); (mkLayer (Some (u "SG4")) (u "IDE") (Some (u "24"))); (mkLayer (Some (u "SG8")) (u "SEQ") (Some (u "Z27"))); (mkLayer (Some (u "SG10")) (u "CCI") (Some (u "ZA7")))] (Some (u "CAV")) (Some (u "7111")) (Some (u "Z86"))), STAY);
((mkLine (Some 19893915560554003554481290069083818732%N) (Some (u "SG10")) (Some (u "CAV")) (Some (u "7111")) None (Some (u "Z47")) (Some (u "Endkundenabrechnung")) None None (Some (u "Verwendungszweck des Wertes")) (Some (300)%Z)), (mkLocation false [(mkLayer None (u "UNH") (Some (u "UTILMD"))); (mkLayer (Some (u "SG4")) (u "IDE") (Some (u "24"))); (mkLayer (Some (u "SG8")) (u "SEQ") (Some (u "Z27"))); (mkLayer (Some (u "SG10")) (u "CCI") (Some (u "ZA7")))] (Some (u "CAV")) (Some (u "7111")) (Some (u "Z47"))), STAY);
((mkLine (Some 161943956437937878989291046014578454974%N) (Some (u "SG10")) (Some (u "CAV")) (Some (u "7111")) None (Some (u "ZD1")) (Some (u "Blindstromabrechnung")) None None (Some (u "Verwendungszweck des Wertes")) (Some (301)%Z)), (mkLocation false [(mkLayer None (u "UNH") (Some (u "UTILMD"))); (mkLayer (Some (u "SG4")) (u "IDE") (Some (u "24"))); (mkLayer (Some (u "SG8")) (u "SEQ") (Some (u "Z27"))); (mkLayer (Some (u "SG10")) (u "CCI") (Some (u "ZA7")))] (Some (u "CAV")) (Some (u "7111")) (Some (u "ZD1"))), STAY);
((mkLine (Some 317135897165746650870502231802953006537%N) (Some (u "SG10")) (Some (u "CAV")) (Some (u "7111")) None (Some (u "ZE1")) (Some (u "Es liegt kein Verwendungszweck vor")) None None (Some (u "Verwendungszweck des Wertes")) (Some (302)%Z)), (mkLocation false [(mkLayer None (u "UNH") (Some (u "UTILMD"))); (mkLayer (Some (u "SG4")) (u "IDE") (Some (u "24"))); (mkLayer (Some (u "SG8")) (u "SEQ") (Some (u "Z27"))); (mkLayer (Some (u "SG10")) (u "CCI") (Some (u "ZA7")))] (Some (u "CAV")) (Some (u "7111")) (Some (u "ZE1"))), STAY);
((mkLine (Some 273087151091098769435580920252401651293%N) (Some (u "SG10")) None None None None None None None (Some (u "Wert für Übertragungsnetzbetreiber relevant")) (Some (304)%Z)), (mkLocation false [(mkLayer None (u "UNH") (Some (u "UTILMD"))); (mkLayer (Some (u "SG4")) (u "IDE") (Some (u "24"))); (mkLayer (Some (u "SG8")) (u "SEQ") (Some (u "Z27"))); (mkLayer (Some (u "SG10")) (u "CCI") (Some (u "ZA9")))] (Some (u "CCI")) None None), MOVE_TO_NEIGHBOUR_SAME_KEY);
((mkLine (Some 248468948703354143091110129489787079336%N) (Some (u "SG10")) (Some (u "CCI")) None None None None None None (Some (u "Wert für Übertragungsnetzbetreiber relevant")) (Some (305)%Z)), (mkLocation false [(mkLayer None (u "UNH") (Some (u "UTILMD"))); (mkLayer (Some (u "SG4")) (u "IDE") (Some (u "24"))); (mkLayer (Some (u "SG8")) (u "SEQ") (Some (u "Z27"))); (mkLayer (Some (u "SG10")) (u "CCI") (Some (u "ZA9")))] (Some (u "CCI")) None None), STAY);
((mkLine (Some 58518693338516999744975613444235172055%N) (Some (u "SG10")) (Some (u "CCI")) (Some (u "7037")) None (Some (u "ZA9")) (Some (u "ÜNB")) None None (Some (u "Wert für Übertragungsnetzbetreiber relevant")) (Some (306)%Z)), (mkLocation false [(mkLayer None (u "UNH") (Some (u "UTILMD"))); (mkLayer (Some (u "SG4")) (u "IDE") (Some (u "24"))); (mkLayer (Some (u "SG8")) (u "SEQ") (Some (u "Z27"))); (mkLayer (Some (u "SG10")) (u "CCI") (Some (u "ZA9")))] (Some (u "CCI")) (Some (u "7037")) (Some (u "ZA9"))), STAY);
((mkLine (Some 58245993022424289497239950280996112369%N) (Some (u "SG10")) None None None None None None None (Some (u "Verwendungszweck des Wertes")) (Some (308)%Z)), (mkLocation false [(mkLayer None (u "UNH") (Some (u "UTILMD"))); (mkLayer (Some (u "SG4")) (u "IDE") (Some (u "24"))); (mkLayer (Some (u "SG8")) (u "SEQ") (Some (u "Z27"))); (mkLayer (Some (u "SG10")) (u "CCI") (Some (u "ZA9")))] (Some (u "CAV")) None None), STAY);
((mkLine (Some 73606235034733850570302163237345976533%N) (Some (u "SG10")) (Some (u "CAV")) None None None None None None (Some (u "Verwendungszweck des Wertes")) (Some (309)%Z)), (mkLocation false [(mkLayer None (u "UNH") (Some (u "UTILMD"))); (mkLayer (Some (u "SG4")) (u "IDE") (Some (u "24"))); (mkLayer (Some (u "SG8")) (u "SEQ") (Some (u "Z27"))); (mkLayer (Some (u "SG10")) (u "CCI") (Some (u "ZA9")))] (Some (u "CAV")) None None), STAY);
((mkLine (Some 302355078383321132871160830336952072442%N) (Some (u "SG10")) (Some (u "CAV")) (Some (u "7111")) None (Some (u "Z85")) (Some (u "Bilanzkreisabrechnung")) None None (Some (u "Verwendungszweck des Wertes")) (Some (310)%Z)), (mkLocation false [(mkLayer None (u "UNH") (Some (u "UTILMD"))); (mkLayer (Some (u "SG4")) (u "IDE") (Some (u "24"))); (mkLayer (Some (u "SG8")) (u "SEQ") (Some (u "Z27"))); (mkLayer (Some (u "SG10")) (u "CCI") (Some (u "ZA9")))] (Some (u "CAV")) (Some (u "7111")) (Some (u "Z85"))), STAY);
((mkLine (Some 2585077695907906085539437042145840121%N) (Some (u "SG10")) (Some (u "CAV")) (Some (u "7111")) None (Some (u "ZB5")) (Some (u "Zur Ermittlung der Ausgeglichenheit von Bilanzkreisen")) None None (Some (u "Verwendungszweck des Wertes")) (Some (311)%Z)), (mkLocation false [(mkLayer None (u "UNH") (Some (u "UTILMD"))); (mkLayer (Some (u "SG4")) (u "IDE") (Some (u "24"))); (mkLayer (Some (u "SG8")) (u "SEQ") (Some (u "Z27"))); (mkLayer (Some (u "SG10")) (u "CCI") (Some (u "ZA9")))] (Some (u "CAV")) (Some (u "7111")) (Some (u "ZB5"))), STAY);
((mkLine (Some 265166193216901753075666429944421312716%N) (Some (u "SG8")) None None None None None None None (Some (u "OBIS-Daten der Marktlokation")) (Some (313)%Z)), (mkLocation false [(mkLayer None (u "UNH") (Some (u "UTILMD"))); (mkLayer (Some (u "SG4")) (u "IDE") (Some (u "24"))); (mkLayer (Some (u "SG8")) (u "SEQ") (Some (u "Z02")))] (Some (u "SEQ")) None None), LEAVE_TO_PARENT_AND_DIVE_INTO_SUB_GROUP);
((mkLine (Some 16862671417457906299242275405057069522%N) (Some (u "SG8")) (Some (u "SEQ")) None None None None None None (Some (u "OBIS-Daten der Marktlokation")) (Some (314)%Z)), (mkLocation false [(mkLayer None (u "UNH") (Some (u "UTILMD"))); (mkLayer (Some (u "SG4")) (u "IDE") (Some (u "24"))); (mkLayer (Some (u "SG8")) (u "SEQ") (Some (u "Z02")))] (Some (u "SEQ")) None None), STAY);
((mkLine (Some 114400105364141251644050346473816797543%N) (Some (u "SG8")) (Some (u "SEQ")) (Some (u "1229")) None (Some (u "Z02")) (Some (u "OBIS-Daten derMarktlokation")) None None (Some (u "OBIS-Daten der Marktlokation")) (Some (315)%Z)), (mkLocation false [(mkLayer None (u "UNH") (Some (u "UTILMD"))); (mkLayer (Some (u "SG4")) (u "IDE") (Some (u "24"))); (mkLayer (Some (u "SG8")) (u "SEQ") (Some (u "Z02")))] (Some (u "SEQ")) (Some (u "1229")) (Some (u "Z02"))), STAY);
((mkLine (Some 116521518150325866708961498862667406247%N) (Some (u "SG8")) None None None None None None None (Some (u "Referenz auf die ID der Marktlokation")) (Some (317)%Z)), (mkLocation false [(mkLayer None (u "UNH") (Some (u "UTILMD"))); (mkLayer (Some (u "SG4")) (u "IDE") (Some (u "24"))); (mkLayer (Some (u "SG8")) (u "SEQ") (Some (u "Z02")))] (Some (u "RFF")) None None), STAY);
((mkLine (Some 134213113768021566237293477580520416675%N) (Some (u "SG8")) (Some (u "RFF")) None None None None None None (Some (u "Referenz auf die ID der Marktlokation")) (Some (318)%Z)), (mkLocation false [(mkLayer None (u "UNH") (Some (u "UTILMD"))); (mkLayer (Some (u "SG4")) (u "IDE") (Some (u "24"))); (mkLayer (Some (u "SG8")) (u "SEQ") (Some (u "Z02")))] (Some (u "RFF")) None None), STAY);
((mkLine (Some 306756750211233564714669045425496992927%N) (Some (u "SG8")) (Some (u "RFF")) (Some (u "1153")) None (Some (u "Z18")) (Some (u "Marktlokation")) None None (Some (u "Referenz auf die ID der Marktlokation")) (Some (319)%Z)), (mkLocation false [(mkLayer None (u "UNH") (Some (u "UTILMD"))); (mkLayer (Some (u "SG4")) (u "IDE") (Some (u "24"))); (mkLayer (Some (u "SG8")) (u "SEQ") (Some (u "Z02")))] (Some (u "RFF")) (Some (u "1153")) (Some (u "Z18"))), STAY);
((mkLine (Some 335683760795972140704995964173406040400%N) (Some (u "SG8")) (Some (u "RFF")) (Some (u "1154")) None None (Some (u "ID einer Marktlokation")) None None (Some (u "Referenz auf die ID der Marktlokation")) (Some (320)%Z)), (mkLocation false [(mkLayer None (u "UNH") (Some (u "UTILMD"))); (mkLayer (Some (u "SG4")) (u "IDE") (Some (u "24"))); (mkLayer (Some (u "SG8")) (u "SEQ") (Some (u "Z02")))] (Some (u "RFF")) (Some (u "1154")) None), STAY);
((mkLine (Some 159174793716798580346782174292308409325%N) (Some (u "SG8")) None None None None None None None (Some (u "OBIS-Kennzahl der Marktlokation")) (Some (322)%Z)), (mkLocation false [(mkLayer None (u "UNH") (Some (u "UTILMD"))); (mkLayer (Some (u "SG4")) (u "IDE") (Some (u "24"))); (mkLayer (Some (u "SG8")) (u "SEQ") (Some (u "Z02")))] (Some (u "PIA")) None None), STAY);
((mkLine (Some 242078325408287342565499348760060672042%N) (Some (u "SG8")) (Some (u "PIA")) None None None None None None (Some (u "OBIS-Kennzahl der Marktlokation")) (Some (323)%Z)), (mkLocation false [(mkLayer None (u "UNH") (Some (u "UTILMD"))); (mkLayer (Some (u "SG4")) (u "IDE") (Some (u "24"))); (mkLayer (Some (u "SG8")) (u "SEQ") (Some (u "Z02")))] (Some (u "PIA")) None None), STAY);
((mkLine (Some 192886765418769969959848171796049148065%N) (Some (u "SG8")) (Some (u "PIA")) (Some (u "4347")) None (Some (u "5")) (Some (u "Produktidentifikation")) None None (Some (u "OBIS-Kennzahl der Marktlokation")) (Some (324)%Z)), (mkLocation false [(mkLayer None (u "UNH") (Some (u "UTILMD"))); (mkLayer (Some (u "SG4")) (u "IDE") (Some (u "24"))); (mkLayer (Some (u "SG8")) (u "SEQ") (Some (u "Z02")))] (Some (u "PIA")) (Some (u "4347")) (Some (u "5"))), STAY);
((mkLine (Some 110504972614233596155528176915061273652%N) (Some (u "SG8")) (Some (u "PIA")) (Some (u "7140")) None None (Some (u "OBIS-Kennzahl der Marktlokation")) None None (Some (u "OBIS-Kennzahl der Marktlokation")) (Some (325)%Z)), (mkLocation false [(mkLayer None (u "UNH") (Some (u "UTILMD"))); (mkLayer (Some (u "SG4")) (u "IDE") (Some (u "24"))); (mkLayer (Some (u "SG8")) (u "SEQ") (Some (u "Z02")))] (Some (u "PIA")) (Some (u "7140")) None), STAY);
((mkLine (Some 207894225133956648950405028564623117005%N) (Some (u "SG8")) (Some (u "PIA")) (Some (u "7143")) None (Some (u "SRW")) (Some (u "OBIS-Kennzahl")) None None (Some (u "OBIS-Kennzahl der Marktlokation")) (Some (326)%Z)), (mkLocation false [(mkLayer None (u "UNH") (Some (u "UTILMD"))); (mkLayer (Some (u "SG4")) (u "IDE") (Some (u "24"))); (mkLayer (Some (u "SG8")) (u "SEQ") (Some (u "Z02")))] (Some (u "PIA")) (Some (u "7143")) (Some (u "SRW"))), STAY);
((mkLine (Some 189650321868325388571759736254147537174%N) (Some (u "SG10")) None None None None None None None (Some (u "Zugeordnete Zählzeit")) (Some (328)%Z)), (mkLocation false [(mkLayer None (u "UNH") (Some (u "UTILMD"))); (mkLayer (Some (u "SG4")) (u "IDE") (Some (u "24"))); (mkLayer (Some (u "SG8")) (u "SEQ") (Some (u "Z02"))); (mkLayer (Some (u "SG10")) (u "CCI") (Some (u "Z39")))] (Some (u "CCI")) None None), DIVE_INTO_SUB_GROUP);
((mkLine (Some 318337037530606548263344324359514774027%N) (Some (u "SG10")) (Some (u "CCI")) None None None None None None (Some (u "Zugeordnete Zählzeit")) (Some (329)%Z)), (mkLocation false [(mkLayer None (u "UNH") (Some (u "UTILMD"))); (mkLayer (Some (u "SG4")) (u "IDE") (Some (u "24"))); (mkLayer (Some (u "SG8")) (u "SEQ") (Some (u "Z02"))); (mkLayer (Some (u "SG10")) (u "CCI") (Some (u "Z39")))] (Some (u "CCI")) None None), STAY);
((mkLine (Some 196971768725397084244122727684733424856%N) (Some (u "SG10")) (Some (u "CCI")) (Some (u "7059")) None (Some (u "Z39")) (Some (u "Code der Zählzeit")) None None (Some (u "Zugeordnete Zählzeit")) (Some (330)%Z)), (mkLocation false [(mkLayer None (u "UNH") (Some (u "UTILMD"))); (mkLayer (Some (u "SG4")) (u "IDE") (Some (u "24"))); (mkLayer (Some (u "SG8")) (u "SEQ") (Some (u "Z02"))); (mkLayer (Some (u "SG10")) (u "CCI") (Some (u "Z39")))] (Some (u "CCI")) (Some (u "7059")) (Some (u "Z39"))), STAY);
((mkLine (Some 8557672071360977882036826061020552240%N) (Some (u "SG10")) (Some (u "CCI")) (Some (u "7037")) None None (Some (u "Code der Zählzeit")) None None (Some (u "Zugeordnete Zählzeit")) (Some (331)%Z)), (mkLocation false [(mkLayer None (u "UNH") (Some (u "UTILMD"))); (mkLayer (Some (u "SG4")) (u "IDE") (Some (u "24"))); (mkLayer (Some (u "SG8")) (u "SEQ") (Some (u "Z02"))); (mkLayer (Some (u "SG10")) (u "CCI") (Some (u "Z39")))] (Some (u "CCI")) (Some (u "7037")) None), STAY);
((mkLine (Some 91778374864280913329149821814648948991%N) (Some (u "SG10")) None None None None None None None (Some (u "Zugeordnete Zählzeitregister")) (Some (333)%Z)), (mkLocation false [(mkLayer None (u "UNH") (Some (u "UTILMD"))); (mkLayer (Some (u "SG4")) (u "IDE") (Some (u "24"))); (mkLayer (Some (u "SG8")) (u "SEQ") (Some (u "Z02"))); (mkLayer (Some (u "SG10")) (u "CCI") (Some (u "Z38")))] (Some (u "CCI")) None None), MOVE_TO_NEIGHBOUR_SAME_KEY);
((mkLine (Some 50057140837415176183722125359842176331%N) (Some (u "SG10")) (Some (u "CCI")) None None None None None None (Some (u "Zugeordnete Zählzeitregister")) (Some (334)%Z)), (mkLocation false [(mkLayer None (u "UNH") (Some (u "UTILMD"))); (mkLayer (Some (u "SG4")) (u "IDE") (Some (u "24"))); (mkLayer (Some (u "SG8")) (u "SEQ") (Some (u "Z02"))); (mkLayer (Some (u "SG10")) (u "CCI") (Some (u "Z38")))] (Some (u "CCI")) None None), STAY);
((mkLine (Some 70240545325822187697715886636940961934%N) (Some (u "SG10")) (Some (u "CCI")) (Some (u "7059")) None (Some (u "Z38")) (Some (u "Code desZählzeitregisters")) None None (Some (u "Zugeordnete Zählzeitregister")) (Some (335)%Z)), (mkLocation false [(mkLayer None (u "UNH") (Some (u "UTILMD"))); (mkLayer (Some (u "SG4")) (u "IDE") (Some (u "24"))); (mkLayer (Some (u "SG8")) (u "SEQ") (Some (u "Z02"))); (mkLayer (Some (u "SG10")) (u "CCI") (Some (u "Z38")))] (Some (u "CCI")) (Some (u "7059")) (Some (u "Z38"))), STAY);
((mkLine (Some 48101074492305730879685477843905518004%N) (Some (u "SG10")) (Some (u "CCI")) (Some (u "7037")) None None (Some (u "Code des Zählzeitregisters")) None None (Some (u "Zugeordnete Zählzeitregister")) (Some (336)%Z)), (mkLocation false [(mkLayer None (u "UNH") (Some (u "UTILMD"))); (mkLayer (Some (u "SG4")) (u "IDE") (Some (u "24"))); (mkLayer (Some (u "SG8")) (u "SEQ") (Some (u "Z02"))); (mkLayer (Some (u "SG10")) (u "CCI") (Some (u "Z38")))] (Some (u "CCI")) (Some (u "7037")) None), STAY);
((mkLine (Some 178056360883888999900256275941043068549%N) (Some (u "SG10")) None None None None None None None (Some (u "OBIS Daten für Netzbetreiber relevant")) (Some (338)%Z)), (mkLocation false [(mkLayer None (u "UNH") (Some (u "UTILMD"))); (mkLayer (Some (u "SG4")) (u "IDE") (Some (u "24"))); (mkLayer (Some (u "SG8")) (u "SEQ") (Some (u "Z02"))); (mkLayer (Some (u "SG10")) (u "CCI") (Some (u "ZA8")))] (Some (u "CCI")) None None), MOVE_TO_NEIGHBOUR_SAME_KEY);
((mkLine (Some 266597021055865544028329605188364442114%N) (Some (u "SG10")) (Some (u "CCI")) None None None None None None (Some (u "OBIS Daten für Netzbetreiber relevant")) (Some (339)%Z)), (mkLocation false [(mkLayer None (u "UNH") (Some (u "UTILMD"))); (mkLayer (Some (u "SG4")) (u "IDE") (Some (u "24"))); (mkLayer (Some (u "SG8")) (u "SEQ") (Some (u "Z02"))); (mkLayer (Some (u "SG10")) (u "CCI") (Some (u "ZA8")))] (Some (u "CCI")) None None), STAY);
((mkLine (Some 31600127998469736670685768418315784823%N) (Some (u "SG10")) (Some (u "CCI")) (Some (u "7037")) None (Some (u "ZA8")) (Some (u "NB")) None None (Some (u "OBIS Daten für Netzbetreiber relevant")) (Some (340)%Z)), (mkLocation false [(mkLayer None (u "UNH") (Some (u "UTILMD"))); (mkLayer (Some (u "SG4")) (u "IDE") (Some (u "24"))); (mkLayer (Some (u "SG8")) (u "SEQ") (Some (u "Z02"))); (mkLayer (Some (u "SG10")) (u "CCI") (Some (u "ZA8")))] (Some (u "CCI")) (Some (u "7037")) (Some (u "ZA8"))), STAY);
((mkLine (Some 160732569644420935250246801012249327101%N) (Some (u "SG10")) None None None None None None None (Some (u "Verwendungszweck der Werte")) (Some (342)%Z)), (mkLocation false [(mkLayer None (u "UNH") (Some (u "UTILMD"))); (mkLayer (Some (u "SG4")) (u "IDE") (Some (u "24"))); (mkLayer (Some (u "SG8")) (u "SEQ") (Some (u "Z02"))); (mkLayer (Some (u "SG10")) (u "CCI") (Some (u "ZA8")))] (Some (u "CAV")) None None), STAY);
((mkLine (Some 288273281154775392967684305850725229805%N) (Some (u "SG10")) (Some (u "CAV")) None None None None None None (Some (u "Verwendungszweck der Werte")) (Some (343)%Z)), (mkLocation false [(mkLayer None (u "UNH") (Some (u "UTILMD"))); (mkLayer (Some (u "SG4")) (u "IDE") (Some (u "24"))); (mkLayer (Some (u "SG8")) (u "SEQ") (Some (u "Z02"))); (mkLayer (Some (u "SG10")) (u "CCI") (Some (u "ZA8")))] (Some (u "CAV")) None None), STAY);
((mkLine (Some 92000590446431349190866192410527652203%N) (Some (u "SG10")) (Some (u "CAV")) (Some (u "7111")) None (Some (u "Z84")) (Some (u "Netznutzungsabrechnung")) None None (Some (u "Verwendungszweck der Werte")) (Some (344)%Z)), (mkLocation false [(mkLayer None (u "UNH") (Some (u "UTILMD"))); (mkLayer (Some (u "SG4")) (u "IDE") (Some (u "24"))); (mkLayer (Some (u "SG8")) (u "SEQ") (Some (u "Z02"))); (mkLayer (Some (u "SG10")) (u "CCI") (Some (u "ZA8")))] (Some (u "CAV")) (Some (u "7111")) (Some (u "Z84"))), STAY);
((mkLine (Some 102297914253446831884016362334084016241%N) (Some (u "SG10")) (Some (u "CAV")) (Some (u "7111")) None (Some (u "Z85")) (Some (u "Bilanzkreisabrechnung")) None None (Some (u "Verwendungszweck der Werte")) (Some (345)%Z)), (mkLocation false [(mkLayer None (u "UNH") (Some (u "UTILMD"))); (mkLayer (Some (u "SG4")) (u "IDE") (Some (u "24"))); (mkLayer (Some (u "SG8")) (u "SEQ") (Some (u "Z02"))); (mkLayer (Some (u "SG10")) (u "CCI") (Some (u "ZA8")))] (Some (u "CAV")) (Some (u "7111")) (Some (u "Z85"))), STAY);
((mkLine (Some 199660161646412838231404817422620151749%N) (Some (u "SG10")) (Some (u "CAV")) (Some (u "7111")) None (Some (u "Z86")) (Some (u "Mehrmindermengenabrec hnung	[37P1..1]")) None None (Some (u "Verwendungszweck der Werte")) (Some (346)%Z)), (mkLocation false [(mkLayer None (u "UNH") (Some (u "UTILMD"))); (mkLayer (Some (u "SG4")) (u "IDE") (Some (u "24"))); (mkLayer (Some (u "SG8")) (u "SEQ") (Some (u "Z02"))); (mkLayer (Some (u "SG10")) (u "CCI") (Some (u "ZA8")))] (Some (u "CAV")) (Some (u "7111")) (Some (u "Z86"))), STAY);
((mkLine (Some 119930798212001883342523349936016157144%N) (Some (u "SG10")) (Some (u "CAV")) (Some (u "7111")) None (Some (u "Z92")) (Some (u "Übermittlung an das HKNR	[34P1..1]")) None None (Some (u "Verwendungszweck der Werte")) (Some (347)%Z)), (mkLocation false [(mkLayer None (u "UNH") (Some (u "UTILMD"))); (mkLayer (Some (u "SG4")) (u "IDE") (Some (u "24"))); (mkLayer (Some (u "SG8")) (u "SEQ") (Some (u "Z02"))); (mkLayer (Some (u "SG10")) (u "CCI") (Some (u "ZA8")))] (Some (u "CAV")) (Some (u "7111")) (Some (u "Z92"))), STAY);
((mkLine (Some 251787765505476654173465916776543560733%N) (Some (u "SG10")) (Some (u "CAV")) (Some (u "7111")) None (Some (u "ZD1")) (Some (u "Blindstromabrechnung")) None None (Some (u "Verwendungszweck der Werte")) (Some (348)%Z)), (mkLocation false [(mkLayer None (u "UNH") (Some (u "UTILMD"))); (mkLayer (Some (u "SG4")) (u "IDE") (Some (u "24"))); (mkLayer (Some (u "SG8")) (u "SEQ") (Some (u "Z02"))); (mkLayer (Some (u "SG10")) (u "CCI") (Some (u "ZA8")))] (Some (u "CAV")) (Some (u "7111")) (Some (u "ZD1"))), STAY);
((mkLine (Some 168298931214194505992950869409210861857%N) (Some (u "SG10")) (Some (u "CAV")) (Some (u "7111")) None (Some (u "ZE1")) (Some (u "Es liegt kein Verwendungszweck vor")) None None (Some (u "Verwendungszweck der Werte")) (Some (349)%Z)), (mkLocation false [(mkLayer None (u "UNH") (Some (u "UTILMD"))); (mkLayer (Some (u "SG4")) (u "IDE") (Some (u "24"))); (mkLayer (Some (u "SG8")) (u "SEQ") (Some (u "Z02"))); (mkLayer (Some (u "SG10")) (u "CCI") (Some (u "ZA8")))] (Some (u "CAV")) (Some (u "7111")) (Some (u "ZE1"))), STAY);
((mkLine (Some 332479921102468587672676626927342230435%N) (Some (u "SG10")) None None None None None None None (Some (u "OBIS Daten für Marktrolle relevant")) (Some (351)%Z)), (mkLocation false [(mkLayer None (u "UNH") (Some (u "UTILMD"))); (mkLayer (Some (u "SG4")) (u "IDE") (Some (u "24"))); (mkLayer (Some (u "SG8")) (u "SEQ") (Some (u "Z02"))); (mkLayer (Some (u "SG10")) (u "CCI") (Some (u "ZA7")))] (Some (u "CCI")) None None), MOVE_TO_NEIGHBOUR_SAME_KEY);
((mkLine (Some 92247679645208772593307572904817493241%N) (Some (u "SG10")) (Some (u "CCI")) None None None None None None (Some (u "OBIS Daten für Marktrolle relevant")) (Some (352)%Z)), (mkLocation false [(mkLayer None (u "UNH") (Some (u "UTILMD"))); (mkLayer (Some (u "SG4")) (u "IDE") (Some (u "24"))); (mkLayer (Some (u "SG8")) (u "SEQ") (Some (u "Z02"))); (mkLayer (Some (u "SG10")) (u "CCI") (Some (u "ZA7")))] (Some (u "CCI")) None None), STAY);
((mkLine (Some 218791080800388475649441424402714510248%N) (Some (u "SG10")) (Some (u "CCI")) (Some (u "7037")) None (Some (u "ZA7")) (Some (u "LF")) None None (Some (u "OBIS Daten für Marktrolle relevant")) (Some (353)%Z)), (mkLocation false [(mkLayer None (u "UNH") (Some (u "UTILMD"))); (mkLayer (Some (u "SG4")) (u "IDE") (Some (u "24"))); (mkLayer (Some (u "SG8")) (u "SEQ") (Some (u "Z02"))); (mkLayer (Some (u "SG10")) (u "CCI") (Some (u "ZA7")))] (Some (u "CCI")) (Some (u "7037")) (Some (u "ZA7"))), STAY);
((mkLine (Some 202457416139400196203320758739302747240%N) (Some (u "SG10")) None None None None None None None (Some (u "Verwendungszweck der Werte")) (Some (355)%Z)), (mkLocation false [(mkLayer None (u "UNH") (Some (u "UTILMD"))); (mkLayer (Some (u "SG4")) (u "IDE") (Some (u "24"))); (mkLayer (Some (u "SG8")) (u "SEQ") (Some (u "Z02"))); (mkLayer (Some (u "SG10")) (u "CCI") (Some (u "ZA7")))] (Some (u "CAV")) None None), STAY);
((mkLine (Some 167183171863664743001133574846059254254%N) (Some (u "SG10")) (Some (u "CAV")) None None None None None None (Some (u "Verwendungszweck der Werte")) (Some (356)%Z)), (mkLocation false [(mkLayer None (u "UNH") (Some (u "UTILMD"))); (mkLayer (Some (u "SG4")) (u "IDE") (Some (u "24"))); (mkLayer (Some (u "SG8")) (u "SEQ") (Some (u "Z02"))); (mkLayer (Some (u "SG10")) (u "CCI") (Some (u "ZA7")))] (Some (u "CAV")) None None), STAY);
((mkLine (Some 158264868083558764805551888345427029705%N) (Some (u "SG10")) (Some (u "CAV")) (Some (u "7111")) None None None None None (Some (u "Verwendungszweck der Werte")) (Some (357)%Z)), (mkLocation false [(mkLayer None (u "UNH") (Some (u "UTILMD"))); (mkLayer (Some (u "SG4")) (u "IDE") (Some (u "24"))); (mkLayer (Some (u "SG8")) (u "SEQ") (Some (u "Z02"))); (mkLayer (Some (u "SG10")) (u "CCI") (Some (u "ZA7")))] (Some (u "CAV")) (Some (u "7111")) None), STAY);
((mkLine (Some 91728153615112831674844000822743327138%N) (Some (u "SG10")) (Some (u "CAV")) (Some (u "7111")) None (Some (u "Z84")) (Some (u "Netznutzungsabrechnung")) None None (Some (u "Verwendungszweck der Werte")) (Some (358)%Z)), (mkLocation false [(mkLayer None (u "UNH") (Some (u "UTILMD"))); (mkLayer (Some (u "SG4")) (u "IDE") (Some (u "24"))); (mkLayer (Some (u "SG8")) (u "SEQ") (Some (u "Z02"))); (mkLayer (Some (u "SG10")) (u "CCI") (Some (u "ZA7")))] (Some (u "CAV")) (Some (u "7111")) (Some (u "Z84"))), STAY);
((mkLine (Some 335116780489431285897184633495751289592%N) (Some (u "SG10")) (Some (u "CAV")) (Some (u "7111")) None (Some (u "Z85")) (Some (u "Bilanzkreisabrechnung")) None None (Some (u "Verwendungszweck der Werte")) (Some (359)%Z)), (mkLocation false [(mkLayer None (u "UNH") (Some (u "UTILMD"))); (mkLayer (Some (u "SG4")) (u "IDE") (Some (u "24"))); (mkLayer (Some (u "SG8")) (u "SEQ") (Some (u "Z02"))); (mkLayer (Some (u "SG10")) (u "CCI") (Some (u "ZA7")))] (Some (u "CAV")) (Some (u "7111")) (Some (u "Z85"))), STAY);
((mkLine (Some 47965495984688292296611066863366275879%N) (Some (u "SG10")) (Some (u "CAV")) (Some (u "7111")) None (Some (u "Z86")) (Some (u "Mehrmindermengenabrec hnung	[37P1..1]")) None None (Some (u "Verwendungszweck der Werte")) (Some (360)%Z)), (mkLocation false [(mkLayer None (u "UNH") (Some (u "UTILMD"))); (mkLayer (Some (u "SG4")) (u "IDE") (Some (u "24"))); (mkLayer (Some (u "SG8")) (u "SEQ") (Some (u "Z02"))); (mkLayer (Some (u "SG10")) (u "CCI") (Some (u "ZA7")))] (Some (u "CAV")) (Some (u "7111")) (Some (u "Z86"))), STAY);
((mkLine (Some 75013419948420850180686558424896000418%N) (Some (u "SG10")) (Some (u "CAV")) (Some (u "7111")) None (Some (u "Z47")) (Some (u "Endkundenabrechnung")) None None (Some (u "Verwendungszweck der Werte")) (Some (361)%Z)), (mkLocation false [(mkLayer None (u "UNH") (Some (u "UTILMD"))); (mkLayer (Some (u "SG4")) (u "IDE") (Some (u "24"))); (mkLayer (Some (u "SG8")) (u "SEQ") (Some (u "Z02"))); (mkLayer (Some (u "SG10")) (u "CCI") (Some (u "ZA7")))] (Some (u "CAV")) (Some (u "7111")) (Some (u "Z47"))), STAY);
((mkLine (Some 197590619171443038434233645376606856335%N) (Some (u "SG10")) (Some (u "CAV")) (Some (u "7111")) None (Some (u "ZD1")) (Some (u "Blindstromabrechnung")) None None (Some (u "Verwendungszweck der Werte")) (Some (362)%Z)), (mkLocation false [(mkLayer None (u "UNH") (Some (u "UTILMD"))); (mkLayer (Some (u "SG4")) (u "IDE") (Some (u "24"))); (mkLayer (Some (u "SG8")) (u "SEQ") (Some (u "Z02"))); (mkLayer (Some (u "SG10")) (u "CCI") (Some (u "ZA7")))] (Some (u "CAV")) (Some (u "7111")) (Some (u "ZD1"))), STAY);
((mkLine (Some 299288775868360550970979885146233281869%N) (Some (u "SG10")) (Some (u "CAV")) (Some (u "7111")) None (Some (u "ZE1")) (Some (u "Es liegt kein Verwendungszweck vor")) None None (Some (u "Verwendungszweck der Werte")) (Some (363)%Z)), (mkLocation false [(mkLayer None (u "UNH") (Some (u "UTILMD"))); (mkLayer (Some (u "SG4")) (u "IDE") (Some (u "24"))); (mkLayer (Some (u "SG8")) (u "SEQ") (Some (u "Z02"))); (mkLayer (Some (u "SG10")) (u "CCI") (Some (u "ZA7")))] (Some (u "CAV")) (Some (u "7111")) (Some (u "ZE1"))), STAY);
((mkLine (Some 189526238137068493179549811492681454688%N) (Some (u "SG10")) None None None None None None None (Some (u "OBIS Daten für Übertragungsnetzbetreiber relevant")) (Some (365)%Z)), (mkLocation false [(mkLayer None (u "UNH") (Some (u "UTILMD"))); (mkLayer (Some (u "SG4")) (u "IDE") (Some (u "24"))); (mkLayer (Some (u "SG8")) (u "SEQ") (Some (u "Z02"))); (mkLayer (Some (u "SG10")) (u "CCI") (Some (u "ZA9")))] (Some (u "CCI")) None None), MOVE_TO_NEIGHBOUR_SAME_KEY);
((mkLine (Some 310603139410955122519501472221126461531%N) (Some (u "SG10")) (Some (u "CCI")) None None None None None None (Some (u "OBIS Daten für Übertragungsnetzbetreiber relevant")) (Some (366)%Z)), (mkLocation false [(mkLayer None (u "UNH") (Some (u "UTILMD"))); (mkLayer (Some (u "SG4")) (u "IDE") (Some (u "24"))); (mkLayer (Some (u "SG8")) (u "SEQ") (Some (u "Z02"))); (mkLayer (Some (u "SG10")) (u "CCI") (Some (u "ZA9")))] (Some (u "CCI")) None None), STAY);
((mkLine (Some 282150193041760313125178916758670656839%N) (Some (u "SG10")) (Some (u "CCI")) (Some (u "7037")) None (Some (u "ZA9")) (Some (u "ÜNB")) None None (Some (u "OBIS Daten für Übertragungsnetzbetreiber relevant")) (Some (367)%Z)), (mkLocation false [(mkLayer None (u "UNH") (Some (u "UTILMD"))); (mkLayer (Some (u "SG4")) (u "IDE") (Some (u "24"))); (mkLayer (Some (u "SG8")) (u "SEQ") (Some (u "Z02"))); (mkLayer (Some (u "SG10")) (u "CCI") (Some (u "ZA9")))] (Some (u "CCI")) (Some (u "7037")) (Some (u "ZA9"))), STAY);
((mkLine (Some 60717865556315313838229676763043029673%N) (Some (u "SG10")) None None None None None None None (Some (u "Verwendungszweck der Werte")) (Some (369)%Z)), (mkLocation false [(mkLayer None (u "UNH") (Some (u "UTILMD"))); (mkLayer (Some (u "SG4")) (u "IDE") (Some (u "24"))); (mkLayer (Some (u "SG8")) (u "SEQ") (Some (u "Z02"))); (mkLayer (Some (u "SG10")) (u "CCI") (Some (u "ZA9")))] (Some (u "CAV")) None None), STAY);
((mkLine (Some 249145293080539494904931720019344845171%N) (Some (u "SG10")) (Some (u "CAV")) None None None None None None (Some (u "Verwendungszweck der Werte")) (Some (370)%Z)), (mkLocation false [(mkLayer None (u "UNH") (Some (u "UTILMD"))); (mkLayer (Some (u "SG4")) (u "IDE") (Some (u "24"))); (mkLayer (Some (u "SG8")) (u "SEQ") (Some (u "Z02"))); (mkLayer (Some (u "SG10")) (u "CCI") (Some (u "ZA9")))] (Some (u "CAV")) None None), STAY);
((mkLine (Some 210004629910147019025833732408353438922%N) (Some (u "SG10")) (Some (u "CAV")) (Some (u "7111")) None (Some (u "Z85")) (Some (u "Bilanzkreisabrechnung")) None None (Some (u "Verwendungszweck der Werte")) (Some (371)%Z)), (mkLocation false [(mkLayer None (u "UNH") (Some (u "UTILMD"))); (mkLayer (Some (u "SG4")) (u "IDE") (Some (u "24"))); (mkLayer (Some (u "SG8")) (u "SEQ") (Some (u "Z02"))); (mkLayer (Some (u "SG10")) (u "CCI") (Some (u "ZA9")))] (Some (u "CAV")) (Some (u "7111")) (Some (u "Z85"))), STAY);
((mkLine (Some 57969039342521219534225186691897390854%N) (Some (u "SG10")) (Some (u "CAV")) (Some (u "7111")) None (Some (u "ZB5")) (Some (u "Zur Ermittlung der Ausgeglichenheit von Bilanzkreisen")) None None (Some (u "Verwendungszweck der Werte")) (Some (372)%Z)), (mkLocation false [(mkLayer None (u "UNH") (Some (u "UTILMD"))); (mkLayer (Some (u "SG4")) (u "IDE") (Some (u "24"))); (mkLayer (Some (u "SG8")) (u "SEQ") (Some (u "Z02"))); (mkLayer (Some (u "SG10")) (u "CCI") (Some (u "ZA9")))] (Some (u "CAV")) (Some (u "7111")) (Some (u "ZB5"))), STAY);
((mkLine (Some 233751689139151581939817913808151216445%N) (Some (u "SG8")) None None None None None None None (Some (u "Daten der Tranche")) (Some (374)%Z)), (mkLocation false [(mkLayer None (u "UNH") (Some (u "UTILMD"))); (mkLayer (Some (u "SG4")) (u "IDE") (Some (u "24"))); (mkLayer (Some (u "SG8")) (u "SEQ") (Some (u "Z15")))] (Some (u "SEQ")) None None), LEAVE_TO_PARENT_AND_DIVE_INTO_SUB_GROUP);
((mkLine (Some 29782419102368642464372297034142236220%N) (Some (u "SG8")) (Some (u "SEQ")) None None None None None None (Some (u "Daten der Tranche")) (Some (375)%Z)), (mkLocation false [(mkLayer None (u "UNH") (Some (u "UTILMD"))); (mkLayer (Some (u "SG4")) (u "IDE") (Some (u "24"))); (mkLayer (Some (u "SG8")) (u "SEQ") (Some (u "Z15")))] (Some (u "SEQ")) None None), STAY);
((mkLine (Some 211496134382557360927466410152703372985%N) (Some (u "SG8")) (Some (u "SEQ")) (Some (u "1229")) None (Some (u "Z15")) (Some (u "Daten der Tranche")) None None (Some (u "Daten der Tranche")) (Some (376)%Z)), (mkLocation false [(mkLayer None (u "UNH") (Some (u "UTILMD"))); (mkLayer (Some (u "SG4")) (u "IDE") (Some (u "24"))); (mkLayer (Some (u "SG8")) (u "SEQ") (Some (u "Z15")))] (Some (u "SEQ")) (Some (u "1229")) (Some (u "Z15"))), STAY);
((mkLine (Some 65862011051647733533337906678011267366%N) (Some (u "SG8")) None None None None None None None (Some (u "Referenz auf die ID der Tranche")) (Some (378)%Z)), (mkLocation false [(mkLayer None (u "UNH") (Some (u "UTILMD"))); (mkLayer (Some (u "SG4")) (u "IDE") (Some (u "24"))); (mkLayer (Some (u "SG8")) (u "SEQ") (Some (u "Z15")))] (Some (u "RFF")) None None), STAY);
((mkLine (Some 42563752322054369424197453500876954381%N) (Some (u "SG8")) (Some (u "RFF")) None None None None None None (Some (u "Referenz auf die ID der Tranche")) (Some (379)%Z)), (mkLocation false [(mkLayer None (u "UNH") (Some (u "UTILMD"))); (mkLayer (Some (u "SG4")) (u "IDE") (Some (u "24"))); (mkLayer (Some (u "SG8")) (u "SEQ") (Some (u "Z15")))] (Some (u "RFF")) None None), STAY);
((mkLine (Some 145223914168320025002611745385243378815%N) (Some (u "SG8")) (Some (u "RFF")) (Some (u "1153")) None (Some (u "Z20")) (Some (u "Tranche")) None None (Some (u "Referenz auf die ID der Tranche")) (Some (380)%Z)), (mkLocation false [(mkLayer None (u "UNH") (Some (u "UTILMD"))); (mkLayer (Some (u "SG4")) (u "IDE") (Some (u "24"))); (mkLayer (Some (u "SG8")) (u "SEQ") (Some (u "Z15")))] (Some (u "RFF")) (Some (u "1153")) (Some (u "Z20"))), STAY);
((mkLine (Some 31424694371451944071360416066340235059%N) (Some (u "SG8")) (Some (u "RFF")) (Some (u "1154")) None None (Some (u "ID der Tranche")) None None (Some (u "Referenz auf die ID der Tranche")) (Some (381)%Z)), (mkLocation false [(mkLayer None (u "UNH") (Some (u "UTILMD"))); (mkLayer (Some (u "SG4")) (u "IDE") (Some (u "24"))); (mkLayer (Some (u "SG8")) (u "SEQ") (Some (u "Z15")))] (Some (u "RFF")) (Some (u "1154")) None), STAY);
((mkLine (Some 291534967582958008778528120239750375090%N) (Some (u "SG8")) None None None None None None None (Some (u "Referenz auf die Marktlokation der Tranche")) (Some (383)%Z)), (mkLocation false [(mkLayer None (u "UNH") (Some (u "UTILMD"))); (mkLayer (Some (u "SG4")) (u "IDE") (Some (u "24"))); (mkLayer (Some (u "SG8")) (u "SEQ") (Some (u "Z15")))] (Some (u "RFF")) None None), STAY);
((mkLine (Some 42731250384224111164870433484067713659%N) (Some (u "SG8")) (Some (u "RFF")) None None None None None None (Some (u "Referenz auf die Marktlokation der Tranche")) (Some (384)%Z)), (mkLocation false [(mkLayer None (u "UNH") (Some (u "UTILMD"))); (mkLayer (Some (u "SG4")) (u "IDE") (Some (u "24"))); (mkLayer (Some (u "SG8")) (u "SEQ") (Some (u "Z15")))] (Some (u "RFF")) None None), STAY);
((mkLine (Some 469388994341799468161024894314678930%N) (Some (u "SG8")) (Some (u "RFF")) (Some (u "1153")) None (Some (u "Z16")) (Some (u "zugeordneteMarktlokation")) None None (Some (u "Referenz auf die Marktlokation der Tranche")) (Some (385)%Z)), (mkLocation false [(mkLayer None (u "UNH") (Some (u "UTILMD"))); (mkLayer (Some (u "SG4")) (u "IDE") (Some (u "24"))); (mkLayer (Some (u "SG8")) (u "SEQ") (Some (u "Z15")))] (Some (u "RFF")) (Some (u "1153")) (Some (u "Z16"))), STAY);
((mkLine (Some 198693833565729311475603580049377355103%N) (Some (u "SG8")) (Some (u "RFF")) (Some (u "1154")) None None (Some (u "ID der Marktlokation")) None None (Some (u "Referenz auf die Marktlokation der Tranche")) (Some (386)%Z)), (mkLocation false [(mkLayer None (u "UNH") (Some (u "UTILMD"))); (mkLayer (Some (u "SG4")) (u "IDE") (Some (u "24"))); (mkLayer (Some (u "SG8")) (u "SEQ") (Some (u "Z15")))] (Some (u "RFF")) (Some (u "1154")) None), STAY);
((mkLine (Some 231762232406621472128193618642480691073%N) (Some (u "SG9")) None None None None None None None (Some (u "Prozentualer Anteil der Tranche an der erzeugenden Marktlokation")) (Some (388)%Z)), (mkLocation false [(mkLayer None (u "UNH") (Some (u "UTILMD"))); (mkLayer (Some (u "SG4")) (u "IDE") (Some (u "24"))); (mkLayer (Some (u "SG8")) (u "SEQ") (Some (u "Z15"))); (mkLayer (Some (u "SG9")) (u "QTY") (Some (u "11")))] (Some (u "QTY")) None None), DIVE_INTO_SUB_GROUP);
((mkLine (Some 144143980083855839522264760534843292315%N) (Some (u "SG9")) (Some (u "QTY")) None None None None None None (Some (u "Prozentualer Anteil der Tranche an der erzeugenden Marktlokation")) (Some (389)%Z)), (mkLocation false [(mkLayer None (u "UNH") (Some (u "UTILMD"))); (mkLayer (Some (u "SG4")) (u "IDE") (Some (u "24"))); (mkLayer (Some (u "SG8")) (u "SEQ") (Some (u "Z15"))); (mkLayer (Some (u "SG9")) (u "QTY") (Some (u "11")))] (Some (u "QTY")) None None), STAY);
((mkLine (Some 328978770604345221998904182403972641109%N) (Some (u "SG9")) (Some (u "QTY")) (Some (u "6063")) None (Some (u "11")) (Some (u "Aufteilungsmenge")) None None (Some (u "Prozentualer Anteil der Tranche an der erzeugenden Marktlokation")) (Some (390)%Z)), (mkLocation false [(mkLayer None (u "UNH") (Some (u "UTILMD"))); (mkLayer (Some (u "SG4")) (u "IDE") (Some (u "24"))); (mkLayer (Some (u "SG8")) (u "SEQ") (Some (u "Z15"))); (mkLayer (Some (u "SG9")) (u "QTY") (Some (u "11")))] (Some (u "QTY")) (Some (u "6063")) (Some (u "11"))), STAY);
((mkLine (Some 151291303715869731953993781189214653678%N) (Some (u "SG9")) (Some (u "QTY")) (Some (u "6060")) None None (Some (u "Mengenangabe in %")) None None (Some (u "Prozentualer Anteil der Tranche an der erzeugenden Marktlokation")) (Some (391)%Z)), (mkLocation false [(mkLayer None (u "UNH") (Some (u "UTILMD"))); (mkLayer (Some (u "SG4")) (u "IDE") (Some (u "24"))); (mkLayer (Some (u "SG8")) (u "SEQ") (Some (u "Z15"))); (mkLayer (Some (u "SG9")) (u "QTY") (Some (u "11")))] (Some (u "QTY")) (Some (u "6060")) None), STAY);
((mkLine (Some 319554080776568092439792086081015797557%N) (Some (u "SG9")) (Some (u "QTY")) (Some (u "6411")) None (Some (u "P1")) (Some (u "Prozent")) None None (Some (u "Prozentualer Anteil der Tranche an der erzeugenden Marktlokation")) (Some (392)%Z)), (mkLocation false [(mkLayer None (u "UNH") (Some (u "UTILMD"))); (mkLayer (Some (u "SG4")) (u "IDE") (Some (u "24"))); (mkLayer (Some (u "SG8")) (u "SEQ") (Some (u "Z15"))); (mkLayer (Some (u "SG9")) (u "QTY") (Some (u "11")))] (Some (u "QTY")) (Some (u "6411")) (Some (u "P1"))), STAY);
((mkLine (Some 324972519510306776788421927503109365863%N) (Some (u "SG10")) None None None None None None None (Some (u "Zugeordnete Marktpartner")) (Some (394)%Z)), (mkLocation false [(mkLayer None (u "UNH") (Some (u "UTILMD"))); (mkLayer (Some (u "SG4")) (u "IDE") (Some (u "24"))); (mkLayer (Some (u "SG8")) (u "SEQ") (Some (u "Z15"))); (mkLayer (Some (u "SG10")) (u "CCI") (Some (u "ZB3")))] (Some (u "CCI")) None None), LEAVE_TO_PARENT_AND_DIVE_INTO_SUB_GROUP);
((mkLine (Some 309225452311968638009798540727491843260%N) (Some (u "SG10")) (Some (u "CCI")) None None None None None None (Some (u "Zugeordnete Marktpartner")) (Some (395)%Z)), (mkLocation false [(mkLayer None (u "UNH") (Some (u "UTILMD"))); (mkLayer (Some (u "SG4")) (u "IDE") (Some (u "24"))); (mkLayer (Some (u "SG8")) (u "SEQ") (Some (u "Z15"))); (mkLayer (Some (u "SG10")) (u "CCI") (Some (u "ZB3")))] (Some (u "CCI")) None None), STAY);
((mkLine (Some 78942574300311150768954228223234325312%N) (Some (u "SG10")) (Some (u "CCI")) (Some (u "7037")) None (Some (u "ZB3")) (Some (u "ZugeordneterMarktpartner")) None None (Some (u "Zugeordnete Marktpartner")) (Some (396)%Z)), (mkLocation false [(mkLayer None (u "UNH") (Some (u "UTILMD"))); (mkLayer (Some (u "SG4")) (u "IDE") (Some (u "24"))); (mkLayer (Some (u "SG8")) (u "SEQ") (Some (u "Z15"))); (mkLayer (Some (u "SG10")) (u "CCI") (Some (u "ZB3")))] (Some (u "CCI")) (Some (u "7037")) (Some (u "ZB3"))), STAY);
((mkLine (Some 143277213404664517156635361353750208655%N) (Some (u "SG10")) None None None None None None None (Some (u "Lieferant")) (Some (398)%Z)), (mkLocation false [(mkLayer None (u "UNH") (Some (u "UTILMD"))); (mkLayer (Some (u "SG4")) (u "IDE") (Some (u "24"))); (mkLayer (Some (u "SG8")) (u "SEQ") (Some (u "Z15"))); (mkLayer (Some (u "SG10")) (u "CCI") (Some (u "ZB3")))] (Some (u "CAV")) None None), STAY);
((mkLine (Some 106951531169286068231374852539460364842%N) (Some (u "SG10")) (Some (u "CAV")) None None None None None None (Some (u "Lieferant")) (Some (399)%Z)), (mkLocation false [(mkLayer None (u "UNH") (Some (u "UTILMD"))); (mkLayer (Some (u "SG4")) (u "IDE") (Some (u "24"))); (mkLayer (Some (u "SG8")) (u "SEQ") (Some (u "Z15"))); (mkLayer (Some (u "SG10")) (u "CCI") (Some (u "ZB3")))] (Some (u "CAV")) None None), STAY);
((mkLine (Some 68463297954771457519615183045684078953%N) (Some (u "SG10")) (Some (u "CAV")) (Some (u "7111")) None (Some (u "Z89")) (Some (u "LF")) None None (Some (u "Lieferant")) (Some (400)%Z)), (mkLocation false [(mkLayer None (u "UNH") (Some (u "UTILMD"))); (mkLayer (Some (u "SG4")) (u "IDE") (Some (u "24"))); (mkLayer (Some (u "SG8")) (u "SEQ") (Some (u "Z15"))); (mkLayer (Some (u "SG10")) (u "CCI") (Some (u "ZB3")))] (Some (u "CAV")) (Some (u "7111")) (Some (u "Z89"))), STAY);
((mkLine (Some 180113186575828138653063113539652391935%N) (Some (u "SG10")) (Some (u "CAV")) (Some (u "1131")) None None (Some (u "MP-ID")) None None (Some (u "Lieferant")) (Some (401)%Z)), (mkLocation false [(mkLayer None (u "UNH") (Some (u "UTILMD"))); (mkLayer (Some (u "SG4")) (u "IDE") (Some (u "24"))); (mkLayer (Some (u "SG8")) (u "SEQ") (Some (u "Z15"))); (mkLayer (Some (u "SG10")) (u "CCI") (Some (u "ZB3")))] (Some (u "CAV")) (Some (u "1131")) None), STAY);
((mkLine (Some 39750752925964376736885405386133007850%N) (Some (u "SG10")) None None None None None None None (Some (u "Basis zur Bildung der Tranchengröße")) (Some (403)%Z)), (mkLocation false [(mkLayer None (u "UNH") (Some (u "UTILMD"))); (mkLayer (Some (u "SG4")) (u "IDE") (Some (u "24"))); (mkLayer (Some (u "SG8")) (u "SEQ") (Some (u "Z15"))); (mkLayer (Some (u "SG10")) (u "CCI") (Some (u "Z37")))] (Some (u "CCI")) None None), MOVE_TO_NEIGHBOUR_SAME_KEY);
((mkLine (Some 66617957559084672255443795963113208603%N) (Some (u "SG10")) (Some (u "CCI")) None None None None None None (Some (u "Basis zur Bildung der Tranchengröße")) (Some (404)%Z)), (mkLocation false [(mkLayer None (u "UNH") (Some (u "UTILMD"))); (mkLayer (Some (u "SG4")) (u "IDE") (Some (u "24"))); (mkLayer (Some (u "SG8")) (u "SEQ") (Some (u "Z15"))); (mkLayer (Some (u "SG10")) (u "CCI") (Some (u "Z37")))] (Some (u "CCI")) None None), STAY);
((mkLine (Some 173854072574623104469965154275153789991%N) (Some (u "SG10")) (Some (u "CCI")) (Some (u "7059")) None (Some (u "Z37")) (Some (u "Basis zur Bildung derTranchengröße")) None None (Some (u "Basis zur Bildung der Tranchengröße")) (Some (405)%Z)), (mkLocation false [(mkLayer None (u "UNH") (Some (u "UTILMD"))); (mkLayer (Some (u "SG4")) (u "IDE") (Some (u "24"))); (mkLayer (Some (u "SG8")) (u "SEQ") (Some (u "Z15"))); (mkLayer (Some (u "SG10")) (u "CCI") (Some (u "Z37")))] (Some (u "CCI")) (Some (u "7059")) (Some (u "Z37"))), STAY);
((mkLine (Some 205225597662112344943264293712402211707%N) (Some (u "SG10")) (Some (u "CCI")) (Some (u "7037")) None (Some (u "ZC11")) (Some (u "Prozentual")) None None (Some (u "Basis zur Bildung der Tranchengröße")) (Some (406)%Z)), (mkLocation false [(mkLayer None (u "UNH") (Some (u "UTILMD"))); (mkLayer (Some (u "SG4")) (u "IDE") (Some (u "24"))); (mkLayer (Some (u "SG8")) (u "SEQ") (Some (u "Z15"))); (mkLayer (Some (u "SG10")) (u "CCI") (Some (u "Z37")))] (Some (u "CCI")) (Some (u "7037")) (Some (u "ZC11"))), STAY);
((mkLine (Some 152028193232892735512665215424217029658%N) (Some (u "SG10")) (Some (u "CCI")) (Some (u "7037")) None (Some (u "ZC12")) (Some (u "Aufteilungsfaktor auf Basis von Referenzenträger/ installierter Leistung")) None None (Some (u "Basis zur Bildung der Tranchengröße")) (Some (407)%Z)), (mkLocation false [(mkLayer None (u "UNH") (Some (u "UTILMD"))); (mkLayer (Some (u "SG4")) (u "IDE") (Some (u "24"))); (mkLayer (Some (u "SG8")) (u "SEQ") (Some (u "Z15"))); (mkLayer (Some (u "SG10")) (u "CCI") (Some (u "Z37")))] (Some (u "CCI")) (Some (u "7037")) (Some (u "ZC12"))), STAY);
((mkLine (Some 39537633349492555832643586735430560539%N) (Some (u "SG8")) None None None None None None None (Some (u "Erforderlicher Wert der Tranche")) (Some (409)%Z)), (mkLocation false [(mkLayer None (u "UNH") (Some (u "UTILMD"))); (mkLayer (Some (u "SG4")) (u "IDE") (Some (u "24"))); (mkLayer (Some (u "SG8")) (u "SEQ") (Some (u "Z16")))] (Some (u "SEQ")) None None), LEAVE_TO_PARENT_AND_DIVE_INTO_SUB_GROUP);
((mkLine (Some 50549669986590427024427365033083785011%N) (Some (u "SG8")) (Some (u "SEQ")) None None None None None None (Some (u "Erforderlicher Wert der Tranche")) (Some (410)%Z)), (mkLocation false [(mkLayer None (u "UNH") (Some (u "UTILMD"))); (mkLayer (Some (u "SG4")) (u "IDE") (Some (u "24"))); (mkLayer (Some (u "SG8")) (u "SEQ") (Some (u "Z16")))] (Some (u "SEQ")) None None), STAY);
((mkLine (Some 128516866187981804203741437056905857206%N) (Some (u "SG8")) (Some (u "SEQ")) (Some (u "1229")) None (Some (u "Z16")) (Some (u "Erforderlicher Wert derTranche")) None None (Some (u "Erforderlicher Wert der Tranche")) (Some (411)%Z)), (mkLocation false [(mkLayer None (u "UNH") (Some (u "UTILMD"))); (mkLayer (Some (u "SG4")) (u "IDE") (Some (u "24"))); (mkLayer (Some (u "SG8")) (u "SEQ") (Some (u "Z16")))] (Some (u "SEQ")) (Some (u "1229")) (Some (u "Z16"))), STAY);
((mkLine (Some 203575863162239125258446195463029231334%N) (Some (u "SG8")) None None None None None None None (Some (u "Referenz auf die ID der Tranche")) (Some (413)%Z)), (mkLocation false [(mkLayer None (u "UNH") (Some (u "UTILMD"))); (mkLayer (Some (u "SG4")) (u "IDE") (Some (u "24"))); (mkLayer (Some (u "SG8")) (u "SEQ") (Some (u "Z16")))] (Some (u "RFF")) None None), STAY);
((mkLine (Some 85393246502551573270222682343875817740%N) (Some (u "SG8")) (Some (u "RFF")) None None None None None None (Some (u "Referenz auf die ID der Tranche")) (Some (414)%Z)), (mkLocation false [(mkLayer None (u "UNH") (Some (u "UTILMD"))); (mkLayer (Some (u "SG4")) (u "IDE") (Some (u "24"))); (mkLayer (Some (u "SG8")) (u "SEQ") (Some (u "Z16")))] (Some (u "RFF")) None None), STAY);
((mkLine (Some 303460284492943776197011335659761519285%N) (Some (u "SG8")) (Some (u "RFF")) (Some (u "1153")) None (Some (u "Z20")) (Some (u "Tranche")) None None (Some (u "Referenz auf die ID der Tranche")) (Some (415)%Z)), (mkLocation false [(mkLayer None (u "UNH") (Some (u "UTILMD"))); (mkLayer (Some (u "SG4")) (u "IDE") (Some (u "24"))); (mkLayer (Some (u "SG8")) (u "SEQ") (Some (u "Z16")))] (Some (u "RFF")) (Some (u "1153")) (Some (u "Z20"))), STAY);
((mkLine (Some 327521260707102927836299181667568495840%N) (Some (u "SG8")) (Some (u "RFF")) (Some (u "1154")) None None (Some (u "ID einer Tranche")) None None (Some (u "Referenz auf die ID der Tranche")) (Some (416)%Z)), (mkLocation false [(mkLayer None (u "UNH") (Some (u "UTILMD"))); (mkLayer (Some (u "SG4")) (u "IDE") (Some (u "24"))); (mkLayer (Some (u "SG8")) (u "SEQ") (Some (u "Z16")))] (Some (u "RFF")) (Some (u "1154")) None), STAY);
((mkLine (Some 204782327292254062081296620648887903411%N) (Some (u "SG10")) None None None None None None None (Some (u "Beschreibung erforderlicher Wert")) (Some (418)%Z)), (mkLocation false [(mkLayer None (u "UNH") (Some (u "UTILMD"))); (mkLayer (Some (u "SG4")) (u "IDE") (Some (u "24"))); (mkLayer (Some (u "SG8")) (u "SEQ") (Some (u "Z16"))); (mkLayer (Some (u "SG10")) (u "CCI") (Some (u "Z35")))] (Some (u "CCI")) None None), DIVE_INTO_SUB_GROUP);
((mkLine (Some 332124908928368357265291027580835798066%N) (Some (u "SG10")) (Some (u "CCI")) None None None None None None (Some (u "Beschreibung erforderlicher Wert")) (Some (419)%Z)), (mkLocation false [(mkLayer None (u "UNH") (Some (u "UTILMD"))); (mkLayer (Some (u "SG4")) (u "IDE") (Some (u "24"))); (mkLayer (Some (u "SG8")) (u "SEQ") (Some (u "Z16"))); (mkLayer (Some (u "SG10")) (u "CCI") (Some (u "Z35")))] (Some (u "CCI")) None None), STAY);
((mkLine (Some 108183852308393597137392981661929216984%N) (Some (u "SG10")) (Some (u "CCI")) (Some (u "7059")) None (Some (u "Z35")) (Some (u "Beschreibungerforderlicher Wert")) None None (Some (u "Beschreibung erforderlicher Wert")) (Some (420)%Z)), (mkLocation false [(mkLayer None (u "UNH") (Some (u "UTILMD"))); (mkLayer (Some (u "SG4")) (u "IDE") (Some (u "24"))); (mkLayer (Some (u "SG8")) (u "SEQ") (Some (u "Z16"))); (mkLayer (Some (u "SG10")) (u "CCI") (Some (u "Z35")))] (Some (u "CCI")) (Some (u "7059")) (Some (u "Z35"))), STAY);
((mkLine (Some 287711493426476533510721708338148329829%N) (Some (u "SG10")) None None None None None None None (Some (u "Wert")) (Some (422)%Z)), (mkLocation false [(mkLayer None (u "UNH") (Some (u "UTILMD"))); (mkLayer (Some (u "SG4")) (u "IDE") (Some (u "24"))); (mkLayer (Some (u "SG8")) (u "SEQ") (Some (u "Z16"))); (mkLayer (Some (u "SG10")) (u "CCI") (Some (u "Z35")))] (Some (u "CAV")) None None), STAY);
((mkLine (Some 248099320985008173606388021708588923970%N) (Some (u "SG10")) (Some (u "CAV")) None None None None None None (Some (u "Wert")) (Some (423)%Z)), (mkLocation false [(mkLayer None (u "UNH") (Some (u "UTILMD"))); (mkLayer (Some (u "SG4")) (u "IDE") (Some (u "24"))); (mkLayer (Some (u "SG8")) (u "SEQ") (Some (u "Z16"))); (mkLayer (Some (u "SG10")) (u "CCI") (Some (u "Z35")))] (Some (u "CAV")) None None), STAY);
((mkLine (Some 86699610101526435514103919717220744542%N) (Some (u "SG10")) (Some (u "CAV")) (Some (u "7111")) None (Some (u "ZC2")) (Some (u "Wirkarbeit")) None None (Some (u "Wert")) (Some (424)%Z)), (mkLocation false [(mkLayer None (u "UNH") (Some (u "UTILMD"))); (mkLayer (Some (u "SG4")) (u "IDE") (Some (u "24"))); (mkLayer (Some (u "SG8")) (u "SEQ") (Some (u "Z16"))); (mkLayer (Some (u "SG10")) (u "CCI") (Some (u "Z35")))] (Some (u "CAV")) (Some (u "7111")) (Some (u "ZC2"))), STAY);
((mkLine (Some 310227484494253205020876983865338269855%N) (Some (u "SG10")) None None None None None None None (Some (u "Wertegranularität")) (Some (426)%Z)), (mkLocation false [(mkLayer None (u "UNH") (Some (u "UTILMD"))); (mkLayer (Some (u "SG4")) (u "IDE") (Some (u "24"))); (mkLayer (Some (u "SG8")) (u "SEQ") (Some (u "Z16"))); (mkLayer (Some (u "SG10")) (u "CCI") (Some (u "Z35")))] (Some (u "CAV")) None None), STAY);
((mkLine (Some 295489843224410829905450458019744078506%N) (Some (u "SG10")) (Some (u "CAV")) None None None None None None (Some (u "Wertegranularität")) (Some (427)%Z)), (mkLocation false [(mkLayer None (u "UNH") (Some (u "UTILMD"))); (mkLayer (Some (u "SG4")) (u "IDE") (Some (u "24"))); (mkLayer (Some (u "SG8")) (u "SEQ") (Some (u "Z16"))); (mkLayer (Some (u "SG10")) (u "CCI") (Some (u "Z35")))] (Some (u "CAV")) None None), STAY);
((mkLine (Some 107357887422543203634500312198646277291%N) (Some (u "SG10")) (Some (u "CAV")) (Some (u "7111")) None (Some (u "ZC5")) (Some (u "1/4 Stunde")) None None (Some (u "Wertegranularität")) (Some (428)%Z)), (mkLocation false [(mkLayer None (u "UNH") (Some (u "UTILMD"))); (mkLayer (Some (u "SG4")) (u "IDE") (Some (u "24"))); (mkLayer (Some (u "SG8")) (u "SEQ") (Some (u "Z16"))); (mkLayer (Some (u "SG10")) (u "CCI") (Some (u "Z35")))] (Some (u "CAV")) (Some (u "7111")) (Some (u "ZC5"))), STAY);
((mkLine (Some 85625127378084869881790067914746288225%N) (Some (u "SG10")) None None None None None None None (Some (u "Werte für Netzbetreiber relevant")) (Some (430)%Z)), (mkLocation false [(mkLayer None (u "UNH") (Some (u "UTILMD"))); (mkLayer (Some (u "SG4")) (u "IDE") (Some (u "24"))); (mkLayer (Some (u "SG8")) (u "SEQ") (Some (u "Z16"))); (mkLayer (Some (u "SG10")) (u "CCI") (Some (u "ZA8")))] (Some (u "CCI")) None None), MOVE_TO_NEIGHBOUR_SAME_KEY);
((mkLine (Some 35140362355569451023200104698136785140%N) (Some (u "SG10")) (Some (u "CCI")) None None None None None None (Some (u "Werte für Netzbetreiber relevant")) (Some (431)%Z)), (mkLocation false [(mkLayer None (u "UNH") (Some (u "UTILMD"))); (mkLayer (Some (u "SG4")) (u "IDE") (Some (u "24"))); (mkLayer (Some (u "SG8")) (u "SEQ") (Some (u "Z16"))); (mkLayer (Some (u "SG10")) (u "CCI") (Some (u "ZA8")))] (Some (u "CCI")) None None), STAY);
((mkLine (Some 84935794501285327064871549313911614575%N) (Some (u "SG10")) (Some (u "CCI")) (Some (u "7037")) None (Some (u "ZA8")) (Some (u "NB")) None None (Some (u "Werte für Netzbetreiber relevant")) (Some (432)%Z)), (mkLocation false [(mkLayer None (u "UNH") (Some (u "UTILMD"))); (mkLayer (Some (u "SG4")) (u "IDE") (Some (u "24"))); (mkLayer (Some (u "SG8")) (u "SEQ") (Some (u "Z16"))); (mkLayer (Some (u "SG10")) (u "CCI") (Some (u "ZA8")))] (Some (u "CCI")) (Some (u "7037")) (Some (u "ZA8"))), STAY);
((mkLine (Some 289969493536273962928165102137465739674%N) (Some (u "SG10")) None None None None None None None (Some (u "Verwendungszweck der Werte")) (Some (434)%Z)), (mkLocation false [(mkLayer None (u "UNH") (Some (u "UTILMD"))); (mkLayer (Some (u "SG4")) (u "IDE") (Some (u "24"))); (mkLayer (Some (u "SG8")) (u "SEQ") (Some (u "Z16"))); (mkLayer (Some (u "SG10")) (u "CCI") (Some (u "ZA8")))] (Some (u "CAV")) None None), STAY);
((mkLine (Some 22986655741348595329294407945751642870%N) (Some (u "SG10")) (Some (u "CAV")) None None None None None None (Some (u "Verwendungszweck der Werte")) (Some (435)%Z)), (mkLocation false [(mkLayer None (u "UNH") (Some (u "UTILMD"))); (mkLayer (Some (u "SG4")) (u "IDE") (Some (u "24"))); (mkLayer (Some (u "SG8")) (u "SEQ") (Some (u "Z16"))); (mkLayer (Some (u "SG10")) (u "CCI") (Some (u "ZA8")))] (Some (u "CAV")) None None), STAY);
((mkLine (Some 302331712086220297770126103882056928212%N) (Some (u "SG10")) (Some (u "CAV")) (Some (u "7111")) None (Some (u "Z85")) (Some (u "Bilanzkreisabrechnung")) None None (Some (u "Verwendungszweck der Werte")) (Some (436)%Z)), (mkLocation false [(mkLayer None (u "UNH") (Some (u "UTILMD"))); (mkLayer (Some (u "SG4")) (u "IDE") (Some (u "24"))); (mkLayer (Some (u "SG8")) (u "SEQ") (Some (u "Z16"))); (mkLayer (Some (u "SG10")) (u "CCI") (Some (u "ZA8")))] (Some (u "CAV")) (Some (u "7111")) (Some (u "Z85"))), STAY);
((mkLine (Some 190235354944815680835737349193695237801%N) (Some (u "SG10")) (Some (u "CAV")) (Some (u "7111")) None (Some (u "Z92")) (Some (u "Übermittlung an das HKNR")) None None (Some (u "Verwendungszweck der Werte")) (Some (437)%Z)), (mkLocation false [(mkLayer None (u "UNH") (Some (u "UTILMD"))); (mkLayer (Some (u "SG4")) (u "IDE") (Some (u "24"))); (mkLayer (Some (u "SG8")) (u "SEQ") (Some (u "Z16"))); (mkLayer (Some (u "SG10")) (u "CCI") (Some (u "ZA8")))] (Some (u "CAV")) (Some (u "7111")) (Some (u "Z92"))), STAY);
((mkLine (Some 239879186059116032773462424193103940430%N) (Some (u "SG10")) None None None None None None None (Some (u "OBIS Daten für Marktrolle relevant")) (Some (439)%Z)), (mkLocation false [(mkLayer None (u "UNH") (Some (u "UTILMD"))); (mkLayer (Some (u "SG4")) (u "IDE") (Some (u "24"))); (mkLayer (Some (u "SG8")) (u "SEQ") (Some (u "Z16"))); (mkLayer (Some (u "SG10")) (u "CCI") (Some (u "ZA7")))] (Some (u "CCI")) None None), MOVE_TO_NEIGHBOUR_SAME_KEY);
((mkLine (Some 290708243028248832728268651279341763246%N) (Some (u "SG10")) (Some (u "CCI")) None None None None None None (Some (u "OBIS Daten für Marktrolle relevant")) (Some (440)%Z)), (mkLocation false [(mkLayer None (u "UNH") (Some (u "UTILMD"))); (mkLayer (Some (u "SG4")) (u "IDE") (Some (u "24"))); (mkLayer (Some (u "SG8")) (u "SEQ") (Some (u "Z16"))); (mkLayer (Some (u "SG10")) (u "CCI") (Some (u "ZA7")))] (Some (u "CCI")) None None), STAY);
((mkLine (Some 199644775991887239423345845686742208193%N) (Some (u "SG10")) (Some (u "CCI")) (Some (u "7037")) None (Some (u "ZA7")) (Some (u "LF")) None None (Some (u "OBIS Daten für Marktrolle relevant")) (Some (441)%Z)), (mkLocation false [(mkLayer None (u "UNH") (Some (u "UTILMD"))); (mkLayer (Some (u "SG4")) (u "IDE") (Some (u "24"))); (mkLayer (Some (u "SG8")) (u "SEQ") (Some (u "Z16"))); (mkLayer (Some (u "SG10")) (u "CCI") (Some (u "ZA7")))] (Some (u "CCI")) (Some (u "7037")) (Some (u "ZA7"))), STAY);
((mkLine (Some 180100803993037229005375046499436591188%N) (Some (u "SG10")) None None None None None None None (Some (u "Verwendungszweck der Werte")) (Some (443)%Z)), (mkLocation false [(mkLayer None (u "UNH") (Some (u "UTILMD"))); (mkLayer (Some (u "SG4")) (u "IDE") (Some (u "24"))); (mkLayer (Some (u "SG8")) (u "SEQ") (Some (u "Z16"))); (mkLayer (Some (u "SG10")) (u "CCI") (Some (u "ZA7")))] (Some (u "CAV")) None None), STAY);
((mkLine (Some 269296375203734771126242403555110423000%N) (Some (u "SG10")) (Some (u "CAV")) None None None None None None (Some (u "Verwendungszweck der Werte")) (Some (444)%Z)), (mkLocation false [(mkLayer None (u "UNH") (Some (u "UTILMD"))); (mkLayer (Some (u "SG4")) (u "IDE") (Some (u "24"))); (mkLayer (Some (u "SG8")) (u "SEQ") (Some (u "Z16"))); (mkLayer (Some (u "SG10")) (u "CCI") (Some (u "ZA7")))] (Some (u "CAV")) None None), STAY);
((mkLine (Some 243615300194348938341010259914472925551%N) (Some (u "SG10")) (Some (u "CAV")) (Some (u "7111")) None (Some (u "Z85")) (Some (u "Bilanzkreisabrechnung")) None None (Some (u "Verwendungszweck der Werte")) (Some (445)%Z)), (mkLocation false [(mkLayer None (u "UNH") (Some (u "UTILMD"))); (mkLayer (Some (u "SG4")) (u "IDE") (Some (u "24"))); (mkLayer (Some (u "SG8")) (u "SEQ") (Some (u "Z16"))); (mkLayer (Some (u "SG10")) (u "CCI") (Some (u "ZA7")))] (Some (u "CAV")) (Some (u "7111")) (Some (u "Z85"))), STAY);
((mkLine (Some 101870627240195754736960075169087669135%N) (Some (u "SG10")) (Some (u "CAV")) (Some (u "7111")) None (Some (u "Z47")) (Some (u "Endkundenabrechnung")) None None (Some (u "Verwendungszweck der Werte")) (Some (446)%Z)), (mkLocation false [(mkLayer None (u "UNH") (Some (u "UTILMD"))); (mkLayer (Some (u "SG4")) (u "IDE") (Some (u "24"))); (mkLayer (Some (u "SG8")) (u "SEQ") (Some (u "Z16"))); (mkLayer (Some (u "SG10")) (u "CCI") (Some (u "ZA7")))] (Some (u "CAV")) (Some (u "7111")) (Some (u "Z47"))), STAY);
((mkLine (Some 295111265775647275895893928629594526529%N) (Some (u "SG10")) None None None None None None None (Some (u "OBIS Daten für Übertragungsnetzbetreiber relevant")) (Some (448)%Z)), (mkLocation false [(mkLayer None (u "UNH") (Some (u "UTILMD"))); (mkLayer (Some (u "SG4")) (u "IDE") (Some (u "24"))); (mkLayer (Some (u "SG8")) (u "SEQ") (Some (u "Z16"))); (mkLayer (Some (u "SG10")) (u "CCI") (Some (u "ZA9")))] (Some (u "CCI")) None None), MOVE_TO_NEIGHBOUR_SAME_KEY);
((mkLine (Some 23160423126718482271895163730498778414%N) (Some (u "SG10")) (Some (u "CCI")) None None None None None None (Some (u "OBIS Daten für Übertragungsnetzbetreiber relevant")) (Some (449)%Z)), (mkLocation false [(mkLayer None (u "UNH") (Some (u "UTILMD"))); (mkLayer (Some (u "SG4")) (u "IDE") (Some (u "24"))); (mkLayer (Some (u "SG8")) (u "SEQ") (Some (u "Z16"))); (mkLayer (Some (u "SG10")) (u "CCI") (Some (u "ZA9")))] (Some (u "CCI")) None None), STAY);
((mkLine (Some 127890432014149171233195392943555481362%N) (Some (u "SG10")) (Some (u "CCI")) (Some (u "7037")) None (Some (u "ZA9")) (Some (u "ÜNB")) None None (Some (u "OBIS Daten für Übertragungsnetzbetreiber relevant")) (Some (450)%Z)), (mkLocation false [(mkLayer None (u "UNH") (Some (u "UTILMD"))); (mkLayer (Some (u "SG4")) (u "IDE") (Some (u "24"))); (mkLayer (Some (u "SG8")) (u "SEQ") (Some (u "Z16"))); (mkLayer (Some (u "SG10")) (u "CCI") (Some (u "ZA9")))] (Some (u "CCI")) (Some (u "7037")) (Some (u "ZA9"))), STAY);
((mkLine (Some 179282465109432644377734949603356288126%N) (Some (u "SG10")) None None None None None None None (Some (u "Verwendungszweck der Werte")) (Some (452)%Z)), (mkLocation false [(mkLayer None (u "UNH") (Some (u "UTILMD"))); (mkLayer (Some (u "SG4")) (u "IDE") (Some (u "24"))); (mkLayer (Some (u "SG8")) (u "SEQ") (Some (u "Z16"))); (mkLayer (Some (u "SG10")) (u "CCI") (Some (u "ZA9")))] (Some (u "CAV")) None None), STAY);
((mkLine (Some 121709682341507146838194593310924281659%N) (Some (u "SG10")) (Some (u "CAV")) None None None None None None (Some (u "Verwendungszweck der Werte")) (Some (453)%Z)), (mkLocation false [(mkLayer None (u "UNH") (Some (u "UTILMD"))); (mkLayer (Some (u "SG4")) (u "IDE") (Some (u "24"))); (mkLayer (Some (u "SG8")) (u "SEQ") (Some (u "Z16"))); (mkLayer (Some (u "SG10")) (u "CCI") (Some (u "ZA9")))] (Some (u "CAV")) None None), STAY);
((mkLine (Some 70385959205834150890419883239270571016%N) (Some (u "SG10")) (Some (u "CAV")) (Some (u "7111")) None (Some (u "Z85")) (Some (u "Bilanzkreisabrechnung")) None None (Some (u "Verwendungszweck der Werte")) (Some (454)%Z)), (mkLocation false [(mkLayer None (u "UNH") (Some (u "UTILMD"))); (mkLayer (Some (u "SG4")) (u "IDE") (Some (u "24"))); (mkLayer (Some (u "SG8")) (u "SEQ") (Some (u "Z16"))); (mkLayer (Some (u "SG10")) (u "CCI") (Some (u "ZA9")))] (Some (u "CAV")) (Some (u "7111")) (Some (u "Z85"))), STAY);
((mkLine (Some 296640763604822859932599370880438834473%N) (Some (u "SG10")) (Some (u "CAV")) (Some (u "7111")) None (Some (u "ZB5")) (Some (u "Zur Ermittlung der Ausgeglichenheit von Bilanzkreisen")) None None (Some (u "Verwendungszweck der Werte")) (Some (455)%Z)), (mkLocation false [(mkLayer None (u "UNH") (Some (u "UTILMD"))); (mkLayer (Some (u "SG4")) (u "IDE") (Some (u "24"))); (mkLayer (Some (u "SG8")) (u "SEQ") (Some (u "Z16"))); (mkLayer (Some (u "SG10")) (u "CCI") (Some (u "ZA9")))] (Some (u "CAV")) (Some (u "7111")) (Some (u "ZB5"))), STAY);
((mkLine (Some 230446357111057501970911145056346849360%N) (Some (u "SG8")) None None None None None None None (Some (u "Daten der Messlokation")) (Some (457)%Z)), (mkLocation false [(mkLayer None (u "UNH") (Some (u "UTILMD"))); (mkLayer (Some (u "SG4")) (u "IDE") (Some (u "24"))); (mkLayer (Some (u "SG8")) (u "SEQ") (Some (u "Z18")))] (Some (u "SEQ")) None None), LEAVE_TO_PARENT_AND_DIVE_INTO_SUB_GROUP);
((mkLine (Some 42886125474722889040908537554080495416%N) (Some (u "SG8")) (Some (u "SEQ")) None None None None None None (Some (u "Daten der Messlokation")) (Some (458)%Z)), (mkLocation false [(mkLayer None (u "UNH") (Some (u "UTILMD"))); (mkLayer (Some (u "SG4")) (u "IDE") (Some (u "24"))); (mkLayer (Some (u "SG8")) (u "SEQ") (Some (u "Z18")))] (Some (u "SEQ")) None None), STAY);
((mkLine (Some 221771821339849484521816439409800453431%N) (Some (u "SG8")) (Some (u "SEQ")) (Some (u "1229")) None (Some (u "Z18")) (Some (u "Daten der Messlokation")) None None (Some (u "Daten der Messlokation")) (Some (459)%Z)), (mkLocation false [(mkLayer None (u "UNH") (Some (u "UTILMD"))); (mkLayer (Some (u "SG4")) (u "IDE") (Some (u "24"))); (mkLayer (Some (u "SG8")) (u "SEQ") (Some (u "Z18")))] (Some (u "SEQ")) (Some (u "1229")) (Some (u "Z18"))), STAY);
((mkLine (Some 160306377434567389380815630459824449219%N) (Some (u "SG8")) None None None None None None None (Some (u "Referenz auf die ID der Messlokation")) (Some (461)%Z)), (mkLocation false [(mkLayer None (u "UNH") (Some (u "UTILMD"))); (mkLayer (Some (u "SG4")) (u "IDE") (Some (u "24"))); (mkLayer (Some (u "SG8")) (u "SEQ") (Some (u "Z18")))] (Some (u "RFF")) None None), STAY);
((mkLine (Some 157521396668535021916996898752276134829%N) (Some (u "SG8")) (Some (u "RFF")) None None None None None None (Some (u "Referenz auf die ID der Messlokation")) (Some (462)%Z)), (mkLocation false [(mkLayer None (u "UNH") (Some (u "UTILMD"))); (mkLayer (Some (u "SG4")) (u "IDE") (Some (u "24"))); (mkLayer (Some (u "SG8")) (u "SEQ") (Some (u "Z18")))] (Some (u "RFF")) None None), STAY);
((mkLine (Some 25723215764303505379904467957803559982%N) (Some (u "SG8")) (Some (u "RFF")) (Some (u "1153")) None (Some (u "Z19")) (Some (u "Messlokation")) None None (Some (u "Referenz auf die ID der Messlokation")) (Some (463)%Z)), (mkLocation false [(mkLayer None (u "UNH") (Some (u "UTILMD"))); (mkLayer (Some (u "SG4")) (u "IDE") (Some (u "24"))); (mkLayer (Some (u "SG8")) (u "SEQ") (Some (u "Z18")))] (Some (u "RFF")) (Some (u "1153")) (Some (u "Z19"))), STAY);
((mkLine (Some 178857503893499303611459196156915954955%N) (Some (u "SG8")) (Some (u "RFF")) (Some (u "1154")) None None (Some (u "ID der Messlokation")) None None (Some (u "Referenz auf die ID der Messlokation")) (Some (464)%Z)), (mkLocation false [(mkLayer None (u "UNH") (Some (u "UTILMD"))); (mkLayer (Some (u "SG4")) (u "IDE") (Some (u "24"))); (mkLayer (Some (u "SG8")) (u "SEQ") (Some (u "Z18")))] (Some (u "RFF")) (Some (u "1154")) None), STAY);
((mkLine (Some 253625688701057498000578172512339879871%N) (Some (u "SG8")) None None None None None None None (Some (u "Referenz auf die der Messlokation zugeordneten Marktlokation")) (Some (466)%Z)), (mkLocation false [(mkLayer None (u "UNH") (Some (u "UTILMD"))); (mkLayer (Some (u "SG4")) (u "IDE") (Some (u "24"))); (mkLayer (Some (u "SG8")) (u "SEQ") (Some (u "Z18")))] (Some (u "RFF")) None None), STAY);
((mkLine (Some 299271217098474548399931606915984374612%N) (Some (u "SG8")) (Some (u "RFF")) None None None None None None (Some (u "Referenz auf die der Messlokation zugeordneten Marktlokation")) (Some (467)%Z)), (mkLocation false [(mkLayer None (u "UNH") (Some (u "UTILMD"))); (mkLayer (Some (u "SG4")) (u "IDE") (Some (u "24"))); (mkLayer (Some (u "SG8")) (u "SEQ") (Some (u "Z18")))] (Some (u "RFF")) None None), STAY);
((mkLine (Some 167137633956143218663310270942297543655%N) (Some (u "SG8")) (Some (u "RFF")) (Some (u "1153")) None (Some (u "Z16")) (Some (u "zugeordneteMarktlokation")) None None (Some (u "Referenz auf die der Messlokation zugeordneten Marktlokation")) (Some (469)%Z)), (mkLocation false [(mkLayer None (u "UNH") (Some (u "UTILMD"))); (mkLayer (Some (u "SG4")) (u "IDE") (Some (u "24"))); (mkLayer (Some (u "SG8")) (u "SEQ") (Some (u "Z18")))] (Some (u "RFF")) (Some (u "1153")) (Some (u "Z16"))), STAY);
((mkLine (Some 327346761641969479983390060718947306966%N) (Some (u "SG8")) (Some (u "RFF")) (Some (u "1154")) None None (Some (u "ID der Marktlokation")) None None (Some (u "Referenz auf die der Messlokation zugeordneten Marktlokation")) (Some (470)%Z)), (mkLocation false [(mkLayer None (u "UNH") (Some (u "UTILMD"))); (mkLayer (Some (u "SG4")) (u "IDE") (Some (u "24"))); (mkLayer (Some (u "SG8")) (u "SEQ") (Some (u "Z18")))] (Some (u "RFF")) (Some (u "1154")) None), STAY);
((mkLine (Some 108417104297824865115448482575036780207%N) (Some (u "SG10")) None None None None None None None (Some (u "Zugeordnete Marktpartner")) (Some (472)%Z)), (mkLocation false [(mkLayer None (u "UNH") (Some (u "UTILMD"))); (mkLayer (Some (u "SG4")) (u "IDE") (Some (u "24"))); (mkLayer (Some (u "SG8")) (u "SEQ") (Some (u "Z18"))); (mkLayer (Some (u "SG10")) (u "CCI") (Some (u "ZB3")))] (Some (u "CCI")) None None), DIVE_INTO_SUB_GROUP);
((mkLine (Some 179068289879524599704174898074524975973%N) (Some (u "SG10")) (Some (u "CCI")) None None None None None None (Some (u "Zugeordnete Marktpartner")) (Some (473)%Z)), (mkLocation false [(mkLayer None (u "UNH") (Some (u "UTILMD"))); (mkLayer (Some (u "SG4")) (u "IDE") (Some (u "24"))); (mkLayer (Some (u "SG8")) (u "SEQ") (Some (u "Z18"))); (mkLayer (Some (u "SG10")) (u "CCI") (Some (u "ZB3")))] (Some (u "CCI")) None None), STAY);
((mkLine (Some 90593036507101842640894618332541384874%N) (Some (u "SG10")) (Some (u "CCI")) (Some (u "7037")) None (Some (u "ZB3")) (Some (u "ZugeordneterMarktpartner")) None None (Some (u "Zugeordnete Marktpartner")) (Some (474)%Z)), (mkLocation false [(mkLayer None (u "UNH") (Some (u "UTILMD"))); (mkLayer (Some (u "SG4")) (u "IDE") (Some (u "24"))); (mkLayer (Some (u "SG8")) (u "SEQ") (Some (u "Z18"))); (mkLayer (Some (u "SG10")) (u "CCI") (Some (u "ZB3")))] (Some (u "CCI")) (Some (u "7037")) (Some (u "ZB3"))), STAY);
((mkLine (Some 154353188728736424648250422762915250586%N) (Some (u "SG10")) None None None None None None None (Some (u "Messstellenbetreiber")) (Some (476)%Z)), (mkLocation false [(mkLayer None (u "UNH") (Some (u "UTILMD"))); (mkLayer (Some (u "SG4")) (u "IDE") (Some (u "24"))); (mkLayer (Some (u "SG8")) (u "SEQ") (Some (u "Z18"))); (mkLayer (Some (u "SG10")) (u "CCI") (Some (u "ZB3")))] (Some (u "CAV")) None None), STAY);
((mkLine (Some 304647797126963597632204383859222477352%N) (Some (u "SG10")) (Some (u "CAV")) None None None None None None (Some (u "Messstellenbetreiber")) (Some (477)%Z)), (mkLocation false [(mkLayer None (u "UNH") (Some (u "UTILMD"))); (mkLayer (Some (u "SG4")) (u "IDE") (Some (u "24"))); (mkLayer (Some (u "SG8")) (u "SEQ") (Some (u "Z18"))); (mkLayer (Some (u "SG10")) (u "CCI") (Some (u "ZB3")))] (Some (u "CAV")) None None), STAY);
((mkLine (Some 79716883891474254506068513747098160687%N) (Some (u "SG10")) (Some (u "CAV")) (Some (u "7111")) None (Some (u "Z91")) (Some (u "MSB")) None None (Some (u "Messstellenbetreiber")) (Some (478)%Z)), (mkLocation false [(mkLayer None (u "UNH") (Some (u "UTILMD"))); (mkLayer (Some (u "SG4")) (u "IDE") (Some (u "24"))); (mkLayer (Some (u "SG8")) (u "SEQ") (Some (u "Z18"))); (mkLayer (Some (u "SG10")) (u "CCI") (Some (u "ZB3")))] (Some (u "CAV")) (Some (u "7111")) (Some (u "Z91"))), STAY);
((mkLine (Some 19107183431720086036423518250370934642%N) (Some (u "SG10")) (Some (u "CAV")) (Some (u "1131")) None None (Some (u "MP-ID")) None None (Some (u "Messstellenbetreiber")) (Some (479)%Z)), (mkLocation false [(mkLayer None (u "UNH") (Some (u "UTILMD"))); (mkLayer (Some (u "SG4")) (u "IDE") (Some (u "24"))); (mkLayer (Some (u "SG8")) (u "SEQ") (Some (u "Z18"))); (mkLayer (Some (u "SG10")) (u "CCI") (Some (u "ZB3")))] (Some (u "CAV")) (Some (u "1131")) None), STAY);
((mkLine (Some 330166422883114068677381977936696518587%N) (Some (u "SG10")) (Some (u "CAV")) (Some (u "7110")) None (Some (u "Z19")) (Some (u "Auf vertraglicher Grundlage gegenüber Anschlussnutzer / Anschlussnehmer")) None None (Some (u "Messstellenbetreiber")) (Some (480)%Z)), (mkLocation false [(mkLayer None (u "UNH") (Some (u "UTILMD"))); (mkLayer (Some (u "SG4")) (u "IDE") (Some (u "24"))); (mkLayer (Some (u "SG8")) (u "SEQ") (Some (u "Z18"))); (mkLayer (Some (u "SG10")) (u "CCI") (Some (u "ZB3")))] (Some (u "CAV")) (Some (u "7110")) (Some (u "Z19"))), STAY);
((mkLine (Some 51124205306763372126641961740437984613%N) (Some (u "SG10")) (Some (u "CAV")) (Some (u "7110")) None (Some (u "Z20")) (Some (u "In der Ausübung der Weiterverpflichtung durch den gMSB")) None None (Some (u "Messstellenbetreiber")) (Some (481)%Z)), (mkLocation false [(mkLayer None (u "UNH") (Some (u "UTILMD"))); (mkLayer (Some (u "SG4")) (u "IDE") (Some (u "24"))); (mkLayer (Some (u "SG8")) (u "SEQ") (Some (u "Z18"))); (mkLayer (Some (u "SG10")) (u "CCI") (Some (u "ZB3")))] (Some (u "CAV")) (Some (u "7110")) (Some (u "Z20"))), STAY);
((mkLine (Some 305703691296822481127730562696793014771%N) (Some (u "SG10")) None None None None None None None (Some (u "Messstellenbetreiber Alt")) (Some (483)%Z)), (mkLocation false [(mkLayer None (u "UNH") (Some (u "UTILMD"))); (mkLayer (Some (u "SG4")) (u "IDE") (Some (u "24"))); (mkLayer (Some (u "SG8")) (u "SEQ") (Some (u "Z18"))); (mkLayer (Some (u "SG10")) (u "CCI") (Some (u "ZB3")))] (Some (u "CAV")) None None), STAY);
((mkLine (Some 250170164371165511237537357062213706018%N) (Some (u "SG10")) (Some (u "CAV")) None None None None None None (Some (u "Messstellenbetreiber Alt")) (Some (484)%Z)), (mkLocation false [(mkLayer None (u "UNH") (Some (u "UTILMD"))); (mkLayer (Some (u "SG4")) (u "IDE") (Some (u "24"))); (mkLayer (Some (u "SG8")) (u "SEQ") (Some (u "Z18"))); (mkLayer (Some (u "SG10")) (u "CCI") (Some (u "ZB3")))] (Some (u "CAV")) None None), STAY);
((mkLine (Some 214182617887138455870226155339493373662%N) (Some (u "SG10")) (Some (u "CAV")) (Some (u "7111")) None (Some (u "ZB4")) (Some (u "MSBA")) None None (Some (u "Messstellenbetreiber Alt")) (Some (485)%Z)), (mkLocation false [(mkLayer None (u "UNH") (Some (u "UTILMD"))); (mkLayer (Some (u "SG4")) (u "IDE") (Some (u "24"))); (mkLayer (Some (u "SG8")) (u "SEQ") (Some (u "Z18"))); (mkLayer (Some (u "SG10")) (u "CCI") (Some (u "ZB3")))] (Some (u "CAV")) (Some (u "7111")) (Some (u "ZB4"))), STAY);
((mkLine (Some 188664758778114855913694300155726898825%N) (Some (u "SG10")) (Some (u "CAV")) (Some (u "1131")) None None (Some (u "MP-ID")) None None (Some (u "Messstellenbetreiber Alt")) (Some (486)%Z)), (mkLocation false [(mkLayer None (u "UNH") (Some (u "UTILMD"))); (mkLayer (Some (u "SG4")) (u "IDE") (Some (u "24"))); (mkLayer (Some (u "SG8")) (u "SEQ") (Some (u "Z18"))); (mkLayer (Some (u "SG10")) (u "CCI") (Some (u "ZB3")))] (Some (u "CAV")) (Some (u "1131")) None), STAY);
((mkLine (Some 158186794875703137367048771400180729265%N) (Some (u "SG10")) None None None None None None None (Some (u "Spannungsebene der Messlokation")) (Some (488)%Z)), (mkLocation false [(mkLayer None (u "UNH") (Some (u "UTILMD"))); (mkLayer (Some (u "SG4")) (u "IDE") (Some (u "24"))); (mkLayer (Some (u "SG8")) (u "SEQ") (Some (u "Z18"))); (mkLayer (Some (u "SG10")) (u "CCI") (Some (u "E04")))] (Some (u "CCI")) None None), MOVE_TO_NEIGHBOUR_SAME_KEY);
((mkLine (Some 258530475484067316313128762177370586651%N) (Some (u "SG10")) (Some (u "CCI")) None None None None None None (Some (u "Spannungsebene der Messlokation")) (Some (489)%Z)), (mkLocation false [(mkLayer None (u "UNH") (Some (u "UTILMD"))); (mkLayer (Some (u "SG4")) (u "IDE") (Some (u "24"))); (mkLayer (Some (u "SG8")) (u "SEQ") (Some (u "Z18"))); (mkLayer (Some (u "SG10")) (u "CCI") (Some (u "E04")))] (Some (u "CCI")) None None), STAY);
((mkLine (Some 91635569934621836818471049812593372719%N) (Some (u "SG10")) (Some (u "CCI")) (Some (u "7037")) None (Some (u "E04")) (Some (u "Spannungsebene derMesslokation")) None None (Some (u "Spannungsebene der Messlokation")) (Some (490)%Z)), (mkLocation false [(mkLayer None (u "UNH") (Some (u "UTILMD"))); (mkLayer (Some (u "SG4")) (u "IDE") (Some (u "24"))); (mkLayer (Some (u "SG8")) (u "SEQ") (Some (u "Z18"))); (mkLayer (Some (u "SG10")) (u "CCI") (Some (u "E04")))] (Some (u "CCI")) (Some (u "7037")) (Some (u "E04"))), STAY);
((mkLine (Some 29435346312455294530579283725971827122%N) (Some (u "SG10")) None None None None None None None (Some (u "Spannungsebene der Messlokation")) (Some (492)%Z)), (mkLocation false [(mkLayer None (u "UNH") (Some (u "UTILMD"))); (mkLayer (Some (u "SG4")) (u "IDE") (Some (u "24"))); (mkLayer (Some (u "SG8")) (u "SEQ") (Some (u "Z18"))); (mkLayer (Some (u "SG10")) (u "CCI") (Some (u "E04")))] (Some (u "CAV")) None None), STAY);
((mkLine (Some 287002765413822089898692583339078302517%N) (Some (u "SG10")) (Some (u "CAV")) None None None None None None (Some (u "Spannungsebene der Messlokation")) (Some (493)%Z)), (mkLocation false [(mkLayer None (u "UNH") (Some (u "UTILMD"))); (mkLayer (Some (u "SG4")) (u "IDE") (Some (u "24"))); (mkLayer (Some (u "SG8")) (u "SEQ") (Some (u "Z18"))); (mkLayer (Some (u "SG10")) (u "CCI") (Some (u "E04")))] (Some (u "CAV")) None None), STAY);
((mkLine (Some 167793371640627729642431510648385271252%N) (Some (u "SG10")) (Some (u "CAV")) (Some (u "7111")) None (Some (u "E03")) (Some (u "Höchstspannung")) None None (Some (u "Spannungsebene der Messlokation")) (Some (494)%Z)), (mkLocation false [(mkLayer None (u "UNH") (Some (u "UTILMD"))); (mkLayer (Some (u "SG4")) (u "IDE") (Some (u "24"))); (mkLayer (Some (u "SG8")) (u "SEQ") (Some (u "Z18"))); (mkLayer (Some (u "SG10")) (u "CCI") (Some (u "E04")))] (Some (u "CAV")) (Some (u "7111")) (Some (u "E03"))), STAY);
((mkLine (Some 33906460201168343375549722766237770605%N) (Some (u "SG10")) (Some (u "CAV")) (Some (u "7111")) None (Some (u "E04")) (Some (u "Hochspannung")) None None (Some (u "Spannungsebene der Messlokation")) (Some (495)%Z)), (mkLocation false [(mkLayer None (u "UNH") (Some (u "UTILMD"))); (mkLayer (Some (u "SG4")) (u "IDE") (Some (u "24"))); (mkLayer (Some (u "SG8")) (u "SEQ") (Some (u "Z18"))); (mkLayer (Some (u "SG10")) (u "CCI") (Some (u "E04")))] (Some (u "CAV")) (Some (u "7111")) (Some (u "E04"))), STAY);
((mkLine (Some 139851207612993132828876987459055912436%N) (Some (u "SG10")) (Some (u "CAV")) (Some (u "7111")) None (Some (u "E05")) (Some (u "Mittelspannung")) None None (Some (u "Spannungsebene der Messlokation")) (Some (496)%Z)), (mkLocation false [(mkLayer None (u "UNH") (Some (u "UTILMD"))); (mkLayer (Some (u "SG4")) (u "IDE") (Some (u "24"))); (mkLayer (Some (u "SG8")) (u "SEQ") (Some (u "Z18"))); (mkLayer (Some (u "SG10")) (u "CCI") (Some (u "E04")))] (Some (u "CAV")) (Some (u "7111")) (Some (u "E05"))), STAY);
((mkLine (Some 152912922194916215064539355202706978964%N) (Some (u "SG10")) (Some (u "CAV")) (Some (u "7111")) None (Some (u "E06")) (Some (u "Niederspannung")) None None (Some (u "Spannungsebene der Messlokation")) (Some (497)%Z)), (mkLocation false [(mkLayer None (u "UNH") (Some (u "UTILMD"))); (mkLayer (Some (u "SG4")) (u "IDE") (Some (u "24"))); (mkLayer (Some (u "SG8")) (u "SEQ") (Some (u "Z18"))); (mkLayer (Some (u "SG10")) (u "CCI") (Some (u "E04")))] (Some (u "CAV")) (Some (u "7111")) (Some (u "E06"))), STAY);
((mkLine (Some 328171462821642359059005542641073438807%N) (Some (u "SG10")) None None None None None None None (Some (u "Gasqualität")) (Some (499)%Z)), (mkLocation false [(mkLayer None (u "UNH") (Some (u "UTILMD"))); (mkLayer (Some (u "SG4")) (u "IDE") (Some (u "24"))); (mkLayer (Some (u "SG8")) (u "SEQ") (Some (u "Z18"))); (mkLayer (Some (u "SG10")) (u "CCI") (Some (u "Y02")))] (Some (u "CCI")) None None), MOVE_TO_NEIGHBOUR_SAME_KEY);
((mkLine (Some 123749770364008772632678520230849638840%N) (Some (u "SG10")) (Some (u "CCI")) None None None None None None (Some (u "Gasqualität")) (Some (500)%Z)), (mkLocation false [(mkLayer None (u "UNH") (Some (u "UTILMD"))); (mkLayer (Some (u "SG4")) (u "IDE") (Some (u "24"))); (mkLayer (Some (u "SG8")) (u "SEQ") (Some (u "Z18"))); (mkLayer (Some (u "SG10")) (u "CCI") (Some (u "Y02")))] (Some (u "CCI")) None None), STAY);
((mkLine (Some 210466582675244583139833555417545700109%N) (Some (u "SG10")) (Some (u "CCI")) (Some (u "7037")) None (Some (u "Y02")) (Some (u "Gasqualität")) None None (Some (u "Gasqualität")) (Some (501)%Z)), (mkLocation false [(mkLayer None (u "UNH") (Some (u "UTILMD"))); (mkLayer (Some (u "SG4")) (u "IDE") (Some (u "24"))); (mkLayer (Some (u "SG8")) (u "SEQ") (Some (u "Z18"))); (mkLayer (Some (u "SG10")) (u "CCI") (Some (u "Y02")))] (Some (u "CCI")) (Some (u "7037")) (Some (u "Y02"))), STAY);
((mkLine (Some 133134485384837884587435239321995565133%N) (Some (u "SG10")) None None None None None None None (Some (u "Gasqualität")) (Some (503)%Z)), (mkLocation false [(mkLayer None (u "UNH") (Some (u "UTILMD"))); (mkLayer (Some (u "SG4")) (u "IDE") (Some (u "24"))); (mkLayer (Some (u "SG8")) (u "SEQ") (Some (u "Z18"))); (mkLayer (Some (u "SG10")) (u "CCI") (Some (u "Y02")))] (Some (u "CAV")) None None), STAY);
((mkLine (Some 133958002235096888402308780093782689419%N) (Some (u "SG10")) (Some (u "CAV")) None None None None None None (Some (u "Gasqualität")) (Some (504)%Z)), (mkLocation false [(mkLayer None (u "UNH") (Some (u "UTILMD"))); (mkLayer (Some (u "SG4")) (u "IDE") (Some (u "24"))); (mkLayer (Some (u "SG8")) (u "SEQ") (Some (u "Z18"))); (mkLayer (Some (u "SG10")) (u "CCI") (Some (u "Y02")))] (Some (u "CAV")) None None), STAY);
((mkLine (Some 85532619255412816728278815267702714186%N) (Some (u "SG10")) (Some (u "CAV")) (Some (u "7111")) None (Some (u "Y04")) (Some (u "H-Gas")) None None (Some (u "Gasqualität")) (Some (505)%Z)), (mkLocation false [(mkLayer None (u "UNH") (Some (u "UTILMD"))); (mkLayer (Some (u "SG4")) (u "IDE") (Some (u "24"))); (mkLayer (Some (u "SG8")) (u "SEQ") (Some (u "Z18"))); (mkLayer (Some (u "SG10")) (u "CCI") (Some (u "Y02")))] (Some (u "CAV")) (Some (u "7111")) (Some (u "Y04"))), STAY);
((mkLine (Some 188402545502483876200675644837922667943%N) (Some (u "SG10")) (Some (u "CAV")) (Some (u "7111")) None (Some (u "Y05")) (Some (u "L-Gas")) None None (Some (u "Gasqualität")) (Some (506)%Z)), (mkLocation false [(mkLayer None (u "UNH") (Some (u "UTILMD"))); (mkLayer (Some (u "SG4")) (u "IDE") (Some (u "24"))); (mkLayer (Some (u "SG8")) (u "SEQ") (Some (u "Z18"))); (mkLayer (Some (u "SG10")) (u "CCI") (Some (u "Y02")))] (Some (u "CAV")) (Some (u "7111")) (Some (u "Y05"))), STAY);
((mkLine (Some 229379453534839482990905642024664585479%N) (Some (u "SG10")) None None None None None None None (Some (u "Verwendungsumfang")) (Some (508)%Z)), (mkLocation false [(mkLayer None (u "UNH") (Some (u "UTILMD"))); (mkLayer (Some (u "SG4")) (u "IDE") (Some (u "24"))); (mkLayer (Some (u "SG8")) (u "SEQ") (Some (u "Z18"))); (mkLayer (Some (u "SG10")) (u "CCI") (Some (u "Z01")))] (Some (u "CCI")) None None), MOVE_TO_NEIGHBOUR_SAME_KEY);
((mkLine (Some 51188713249031662076497936132025130950%N) (Some (u "SG10")) (Some (u "CCI")) None None None None None None (Some (u "Verwendungsumfang")) (Some (509)%Z)), (mkLocation false [(mkLayer None (u "UNH") (Some (u "UTILMD"))); (mkLayer (Some (u "SG4")) (u "IDE") (Some (u "24"))); (mkLayer (Some (u "SG8")) (u "SEQ") (Some (u "Z18"))); (mkLayer (Some (u "SG10")) (u "CCI") (Some (u "Z01")))] (Some (u "CCI")) None None), STAY);
((mkLine (Some 179775484031768497092630805661679491325%N) (Some (u "SG10")) (Some (u "CCI")) (Some (u "7059")) None (Some (u "Z01")) (Some (u "Verwendungsumfang")) None None (Some (u "Verwendungsumfang")) (Some (510)%Z)), (mkLocation false [(mkLayer None (u "UNH") (Some (u "UTILMD"))); (mkLayer (Some (u "SG4")) (u "IDE") (Some (u "24"))); (mkLayer (Some (u "SG8")) (u "SEQ") (Some (u "Z18"))); (mkLayer (Some (u "SG10")) (u "CCI") (Some (u "Z01")))] (Some (u "CCI")) (Some (u "7059")) (Some (u "Z01"))), STAY);
((mkLine (Some 291505273255380403454453268469562377542%N) (Some (u "SG10")) (Some (u "CCI")) (Some (u "7037")) None (Some (u "Z82")) (Some (u "ID der prozessual behandelten Messlokation")) None None (Some (u "Verwendungsumfang")) (Some (511)%Z)), (mkLocation false [(mkLayer None (u "UNH") (Some (u "UTILMD"))); (mkLayer (Some (u "SG4")) (u "IDE") (Some (u "24"))); (mkLayer (Some (u "SG8")) (u "SEQ") (Some (u "Z18"))); (mkLayer (Some (u "SG10")) (u "CCI") (Some (u "Z01")))] (Some (u "CCI")) (Some (u "7037")) (Some (u "Z82"))), STAY);
((mkLine (Some 309592624853214060144420939226124684916%N) (Some (u "SG10")) (Some (u "CCI")) (Some (u "7037")) None (Some (u "Z81")) (Some (u "ID der Messlokation im Lokationsbündel")) None None (Some (u "Verwendungsumfang")) (Some (512)%Z)), (mkLocation false [(mkLayer None (u "UNH") (Some (u "UTILMD"))); (mkLayer (Some (u "SG4")) (u "IDE") (Some (u "24"))); (mkLayer (Some (u "SG8")) (u "SEQ") (Some (u "Z18"))); (mkLayer (Some (u "SG10")) (u "CCI") (Some (u "Z01")))] (Some (u "CCI")) (Some (u "7037")) (Some (u "Z81"))), STAY);
((mkLine (Some 294863055120561595450577127683229827807%N) (Some (u "SG10")) None None None None None None None (Some (u "Betriebszustand der Messlokation")) (Some (514)%Z)), (mkLocation false [(mkLayer None (u "UNH") (Some (u "UTILMD"))); (mkLayer (Some (u "SG4")) (u "IDE") (Some (u "24"))); (mkLayer (Some (u "SG8")) (u "SEQ") (Some (u "Z18"))); (mkLayer (Some (u "SG10")) (u "CCI") (Some (u "Z32")))] (Some (u "CCI")) None None), MOVE_TO_NEIGHBOUR_SAME_KEY);
((mkLine (Some 206989408312014931035320305756648331219%N) (Some (u "SG10")) (Some (u "CCI")) None None None None None None (Some (u "Betriebszustand der Messlokation")) (Some (515)%Z)), (mkLocation false [(mkLayer None (u "UNH") (Some (u "UTILMD"))); (mkLayer (Some (u "SG4")) (u "IDE") (Some (u "24"))); (mkLayer (Some (u "SG8")) (u "SEQ") (Some (u "Z18"))); (mkLayer (Some (u "SG10")) (u "CCI") (Some (u "Z32")))] (Some (u "CCI")) None None), STAY);
((mkLine (Some 150336857686006615977592319216384950763%N) (Some (u "SG10")) (Some (u "CCI")) (Some (u "7059")) None (Some (u "Z32")) (Some (u "Betriebszustand derMesslokation")) None None (Some (u "Betriebszustand der Messlokation")) (Some (516)%Z)), (mkLocation false [(mkLayer None (u "UNH") (Some (u "UTILMD"))); (mkLayer (Some (u "SG4")) (u "IDE") (Some (u "24"))); (mkLayer (Some (u "SG8")) (u "SEQ") (Some (u "Z18"))); (mkLayer (Some (u "SG10")) (u "CCI") (Some (u "Z32")))] (Some (u "CCI")) (Some (u "7059")) (Some (u "Z32"))), STAY);
((mkLine (Some 266406494092962481908336462802802008742%N) (Some (u "SG10")) (Some (u "CCI")) (Some (u "7037")) None (Some (u "ZC1")) (Some (u "Messlokation gesperrt und darf nicht entsperrt werden")) None None (Some (u "Betriebszustand der Messlokation")) (Some (517)%Z)), (mkLocation false [(mkLayer None (u "UNH") (Some (u "UTILMD"))); (mkLayer (Some (u "SG4")) (u "IDE") (Some (u "24"))); (mkLayer (Some (u "SG8")) (u "SEQ") (Some (u "Z18"))); (mkLayer (Some (u "SG10")) (u "CCI") (Some (u "Z32")))] (Some (u "CCI")) (Some (u "7037")) (Some (u "ZC1"))), STAY);
((mkLine (Some 167203094338634431706223642876594344105%N) (Some (u "SG10")) (Some (u "CCI")) (Some (u "7037")) None (Some (u "ZC2")) (Some (u "Messlokation gesperrt und darf entsperrt werden")) None None (Some (u "Betriebszustand der Messlokation")) (Some (518)%Z)), (mkLocation false [(mkLayer None (u "UNH") (Some (u "UTILMD"))); (mkLayer (Some (u "SG4")) (u "IDE") (Some (u "24"))); (mkLayer (Some (u "SG8")) (u "SEQ") (Some (u "Z18"))); (mkLayer (Some (u "SG10")) (u "CCI") (Some (u "Z32")))] (Some (u "CCI")) (Some (u "7037")) (Some (u "ZC2"))), STAY);
((mkLine (Some 43314997147746125652565246741010727631%N) (Some (u "SG10")) (Some (u "CCI")) (Some (u "7037")) None (Some (u "ZC3")) (Some (u "Messlokation im Regelbetrieb")) None None (Some (u "Betriebszustand der Messlokation")) (Some (519)%Z)), (mkLocation false [(mkLayer None (u "UNH") (Some (u "UTILMD"))); (mkLayer (Some (u "SG4")) (u "IDE") (Some (u "24"))); (mkLayer (Some (u "SG8")) (u "SEQ") (Some (u "Z18"))); (mkLayer (Some (u "SG10")) (u "CCI") (Some (u "Z32")))] (Some (u "CCI")) (Some (u "7037")) (Some (u "ZC3"))), STAY);
((mkLine (Some 244124424283661413004362849090453724925%N) (Some (u "SG8")) None None None None None None None (Some (u "Erforderlicher Wert der Messlokation")) (Some (521)%Z)), (mkLocation false [(mkLayer None (u "UNH") (Some (u "UTILMD"))); (mkLayer (Some (u "SG4")) (u "IDE") (Some (u "24"))); (mkLayer (Some (u "SG8")) (u "SEQ") (Some (u "Z19")))] (Some (u "SEQ")) None None), LEAVE_TO_PARENT_AND_DIVE_INTO_SUB_GROUP);
((mkLine (Some 95153685308466436263121395884636097812%N) (Some (u "SG8")) (Some (u "SEQ")) None None None None None None (Some (u "Erforderlicher Wert der Messlokation")) (Some (522)%Z)), (mkLocation false [(mkLayer None (u "UNH") (Some (u "UTILMD"))); (mkLayer (Some (u "SG4")) (u "IDE") (Some (u "24"))); (mkLayer (Some (u "SG8")) (u "SEQ") (Some (u "Z19")))] (Some (u "SEQ")) None None), STAY);
((mkLine (Some 165407368366081120131625753907784240664%N) (Some (u "SG8")) (Some (u "SEQ")) (Some (u "1229")) None (Some (u "Z19")) (Some (u "Erforderlicher Wert derMesslokation")) None None (Some (u "Erforderlicher Wert der Messlokation")) (Some (523)%Z)), (mkLocation false [(mkLayer None (u "UNH") (Some (u "UTILMD"))); (mkLayer (Some (u "SG4")) (u "IDE") (Some (u "24"))); (mkLayer (Some (u "SG8")) (u "SEQ") (Some (u "Z19")))] (Some (u "SEQ")) (Some (u "1229")) (Some (u "Z19"))), STAY);
((mkLine (Some 194638953319178576822453489983133339971%N) (Some (u "SG8")) None None None None None None None (Some (u "Referenz auf die ID einer Messlokation")) (Some (525)%Z)), (mkLocation false [(mkLayer None (u "UNH") (Some (u "UTILMD"))); (mkLayer (Some (u "SG4")) (u "IDE") (Some (u "24"))); (mkLayer (Some (u "SG8")) (u "SEQ") (Some (u "Z19")))] (Some (u "RFF")) None None), STAY);
((mkLine (Some 150319877204209960694267111646951998945%N) (Some (u "SG8")) (Some (u "RFF")) None None None None None None (Some (u "Referenz auf die ID einer Messlokation")) (Some (526)%Z)), (mkLocation false [(mkLayer None (u "UNH") (Some (u "UTILMD"))); (mkLayer (Some (u "SG4")) (u "IDE") (Some (u "24"))); (mkLayer (Some (u "SG8")) (u "SEQ") (Some (u "Z19")))] (Some (u "RFF")) None None), STAY);
((mkLine (Some 199567323767131563745080908684714759179%N) (Some (u "SG8")) (Some (u "RFF")) (Some (u "1153")) None (Some (u "Z19")) (Some (u "Messlokation")) None None (Some (u "Referenz auf die ID einer Messlokation")) (Some (527)%Z)), (mkLocation false [(mkLayer None (u "UNH") (Some (u "UTILMD"))); (mkLayer (Some (u "SG4")) (u "IDE") (Some (u "24"))); (mkLayer (Some (u "SG8")) (u "SEQ") (Some (u "Z19")))] (Some (u "RFF")) (Some (u "1153")) (Some (u "Z19"))), STAY);
((mkLine (Some 142760583155658803726186247190328631366%N) (Some (u "SG8")) (Some (u "RFF")) (Some (u "1154")) None None (Some (u "ID einer Messlokation")) None None (Some (u "Referenz auf die ID einer Messlokation")) (Some (528)%Z)), (mkLocation false [(mkLayer None (u "UNH") (Some (u "UTILMD"))); (mkLayer (Some (u "SG4")) (u "IDE") (Some (u "24"))); (mkLayer (Some (u "SG8")) (u "SEQ") (Some (u "Z19")))] (Some (u "RFF")) (Some (u "1154")) None), STAY);
((mkLine (Some 174058554750256962870570061090762746961%N) (Some (u "SG8")) None None None None None None None (Some (u "Referenz auf die ID einer Marktlokation")) (Some (530)%Z)), (mkLocation false [(mkLayer None (u "UNH") (Some (u "UTILMD"))); (mkLayer (Some (u "SG4")) (u "IDE") (Some (u "24"))); (mkLayer (Some (u "SG8")) (u "SEQ") (Some (u "Z19")))] (Some (u "RFF")) None None), STAY);
((mkLine (Some 156408476321762571274002932655539900408%N) (Some (u "SG8")) (Some (u "RFF")) None None None None None None (Some (u "Referenz auf die ID einer Marktlokation")) (Some (531)%Z)), (mkLocation false [(mkLayer None (u "UNH") (Some (u "UTILMD"))); (mkLayer (Some (u "SG4")) (u "IDE") (Some (u "24"))); (mkLayer (Some (u "SG8")) (u "SEQ") (Some (u "Z19")))] (Some (u "RFF")) None None), STAY);
((mkLine (Some 31467913269826077447680283402824072607%N) (Some (u "SG8")) (Some (u "RFF")) (Some (u "1153")) None (Some (u "Z18")) (Some (u "Marktlokation")) None None (Some (u "Referenz auf die ID einer Marktlokation")) (Some (532)%Z)), (mkLocation false [(mkLayer None (u "UNH") (Some (u "UTILMD"))); (mkLayer (Some (u "SG4")) (u "IDE") (Some (u "24"))); (mkLayer (Some (u "SG8")) (u "SEQ") (Some (u "Z19")))] (Some (u "RFF")) (Some (u "1153")) (Some (u "Z18"))), STAY);
((mkLine (Some 236120308959675235289147226494309763808%N) (Some (u "SG8")) (Some (u "RFF")) (Some (u "1154")) None None (Some (u "ID einer Marktlokation")) None None (Some (u "Referenz auf die ID einer Marktlokation")) (Some (533)%Z)), (mkLocation false [(mkLayer None (u "UNH") (Some (u "UTILMD"))); (mkLayer (Some (u "SG4")) (u "IDE") (Some (u "24"))); (mkLayer (Some (u "SG8")) (u "SEQ") (Some (u "Z19")))] (Some (u "RFF")) (Some (u "1154")) None), STAY);
((mkLine (Some 26494150281663368383942996567893322544%N) (Some (u "SG10")) None None None None None None None (Some (u "Beschreibung erforderlicher Wert")) (Some (535)%Z)), (mkLocation false [(mkLayer None (u "UNH") (Some (u "UTILMD"))); (mkLayer (Some (u "SG4")) (u "IDE") (Some (u "24"))); (mkLayer (Some (u "SG8")) (u "SEQ") (Some (u "Z19"))); (mkLayer (Some (u "SG10")) (u "CCI") (Some (u "Z35")))] (Some (u "CCI")) None None), DIVE_INTO_SUB_GROUP);
((mkLine (Some 191740920264166252532360467724992354362%N) (Some (u "SG10")) (Some (u "CCI")) None None None None None None (Some (u "Beschreibung erforderlicher Wert")) (Some (536)%Z)), (mkLocation false [(mkLayer None (u "UNH") (Some (u "UTILMD"))); (mkLayer (Some (u "SG4")) (u "IDE") (Some (u "24"))); (mkLayer (Some (u "SG8")) (u "SEQ") (Some (u "Z19"))); (mkLayer (Some (u "SG10")) (u "CCI") (Some (u "Z35")))] (Some (u "CCI")) None None), STAY);
((mkLine (Some 248118345886669501328740962903566522289%N) (Some (u "SG10")) (Some (u "CCI")) (Some (u "7059")) None (Some (u "Z35")) (Some (u "Beschreibungerforderlicher Wert")) None None (Some (u "Beschreibung erforderlicher Wert")) (Some (537)%Z)), (mkLocation false [(mkLayer None (u "UNH") (Some (u "UTILMD"))); (mkLayer (Some (u "SG4")) (u "IDE") (Some (u "24"))); (mkLayer (Some (u "SG8")) (u "SEQ") (Some (u "Z19"))); (mkLayer (Some (u "SG10")) (u "CCI") (Some (u "Z35")))] (Some (u "CCI")) (Some (u "7059")) (Some (u "Z35"))), STAY);
((mkLine (Some 224120703072898334462058344457822130952%N) (Some (u "SG10")) None None None None None None None (Some (u "Wert")) (Some (539)%Z)), (mkLocation false [(mkLayer None (u "UNH") (Some (u "UTILMD"))); (mkLayer (Some (u "SG4")) (u "IDE") (Some (u "24"))); (mkLayer (Some (u "SG8")) (u "SEQ") (Some (u "Z19"))); (mkLayer (Some (u "SG10")) (u "CCI") (Some (u "Z35")))] (Some (u "CAV")) None None), STAY);
((mkLine (Some 50525483307598693371255252662020701586%N) (Some (u "SG10")) (Some (u "CAV")) None None None None None None (Some (u "Wert")) (Some (540)%Z)), (mkLocation false [(mkLayer None (u "UNH") (Some (u "UTILMD"))); (mkLayer (Some (u "SG4")) (u "IDE") (Some (u "24"))); (mkLayer (Some (u "SG8")) (u "SEQ") (Some (u "Z19"))); (mkLayer (Some (u "SG10")) (u "CCI") (Some (u "Z35")))] (Some (u "CAV")) None None), STAY);
((mkLine (Some 250158602533540379069237468303596133504%N) (Some (u "SG10")) (Some (u "CAV")) (Some (u "7111")) None (Some (u "ZC2")) (Some (u "Wirkarbeit")) None None (Some (u "Wert")) (Some (541)%Z)), (mkLocation false [(mkLayer None (u "UNH") (Some (u "UTILMD"))); (mkLayer (Some (u "SG4")) (u "IDE") (Some (u "24"))); (mkLayer (Some (u "SG8")) (u "SEQ") (Some (u "Z19"))); (mkLayer (Some (u "SG10")) (u "CCI") (Some (u "Z35")))] (Some (u "CAV")) (Some (u "7111")) (Some (u "ZC2"))), STAY);
((mkLine (Some 118043805584951027115784772289619076936%N) (Some (u "SG10")) (Some (u "CAV")) (Some (u "7111")) None (Some (u "ZC3")) (Some (u "Blindarbeit")) None None (Some (u "Wert")) (Some (542)%Z)), (mkLocation false [(mkLayer None (u "UNH") (Some (u "UTILMD"))); (mkLayer (Some (u "SG4")) (u "IDE") (Some (u "24"))); (mkLayer (Some (u "SG8")) (u "SEQ") (Some (u "Z19"))); (mkLayer (Some (u "SG10")) (u "CCI") (Some (u "Z35")))] (Some (u "CAV")) (Some (u "7111")) (Some (u "ZC3"))), STAY);
((mkLine (Some 34750463620705985084985725994571192217%N) (Some (u "SG10")) None None None None None None None (Some (u "Wertegranularität")) (Some (544)%Z)), (mkLocation false [(mkLayer None (u "UNH") (Some (u "UTILMD"))); (mkLayer (Some (u "SG4")) (u "IDE") (Some (u "24"))); (mkLayer (Some (u "SG8")) (u "SEQ") (Some (u "Z19"))); (mkLayer (Some (u "SG10")) (u "CCI") (Some (u "Z35")))] (Some (u "CAV")) None None), STAY);
((mkLine (Some 45870588786786751085380713113710219939%N) (Some (u "SG10")) (Some (u "CAV")) None None None None None None (Some (u "Wertegranularität")) (Some (545)%Z)), (mkLocation false [(mkLayer None (u "UNH") (Some (u "UTILMD"))); (mkLayer (Some (u "SG4")) (u "IDE") (Some (u "24"))); (mkLayer (Some (u "SG8")) (u "SEQ") (Some (u "Z19"))); (mkLayer (Some (u "SG10")) (u "CCI") (Some (u "Z35")))] (Some (u "CAV")) None None), STAY);
((mkLine (Some 195246488437073745716815884195247841570%N) (Some (u "SG10")) (Some (u "CAV")) (Some (u "7111")) None (Some (u "ZC4")) (Some (u "Kumuliert")) None None (Some (u "Wertegranularität")) (Some (546)%Z)), (mkLocation false [(mkLayer None (u "UNH") (Some (u "UTILMD"))); (mkLayer (Some (u "SG4")) (u "IDE") (Some (u "24"))); (mkLayer (Some (u "SG8")) (u "SEQ") (Some (u "Z19"))); (mkLayer (Some (u "SG10")) (u "CCI") (Some (u "Z35")))] (Some (u "CAV")) (Some (u "7111")) (Some (u "ZC4"))), STAY);
((mkLine (Some 129414183626241318318906049945767152788%N) (Some (u "SG10")) (Some (u "CAV")) (Some (u "7111")) None (Some (u "ZC5")) (Some (u "1/4 Stunde")) None None (Some (u "Wertegranularität")) (Some (547)%Z)), (mkLocation false [(mkLayer None (u "UNH") (Some (u "UTILMD"))); (mkLayer (Some (u "SG4")) (u "IDE") (Some (u "24"))); (mkLayer (Some (u "SG8")) (u "SEQ") (Some (u "Z19"))); (mkLayer (Some (u "SG10")) (u "CCI") (Some (u "Z35")))] (Some (u "CAV")) (Some (u "7111")) (Some (u "ZC5"))), STAY);
((mkLine (Some 278136089585089727456973566193639895966%N) (Some (u "SG10")) (Some (u "CAV")) (Some (u "7111")) None (Some (u "ZC6")) (Some (u "Eine Stunde")) None None (Some (u "Wertegranularität")) (Some (548)%Z)), (mkLocation false [(mkLayer None (u "UNH") (Some (u "UTILMD"))); (mkLayer (Some (u "SG4")) (u "IDE") (Some (u "24"))); (mkLayer (Some (u "SG8")) (u "SEQ") (Some (u "Z19"))); (mkLayer (Some (u "SG10")) (u "CCI") (Some (u "Z35")))] (Some (u "CAV")) (Some (u "7111")) (Some (u "ZC6"))), STAY);
((mkLine (Some 240913872455803236814675229568042519000%N) (Some (u "SG10")) (Some (u "CAV")) (Some (u "7111")) None (Some (u "ZC7")) (Some (u "höchste 1/4 Stunde im Monat")) None None (Some (u "Wertegranularität")) (Some (549)%Z)), (mkLocation false [(mkLayer None (u "UNH") (Some (u "UTILMD"))); (mkLayer (Some (u "SG4")) (u "IDE") (Some (u "24"))); (mkLayer (Some (u "SG8")) (u "SEQ") (Some (u "Z19"))); (mkLayer (Some (u "SG10")) (u "CCI") (Some (u "Z35")))] (Some (u "CAV")) (Some (u "7111")) (Some (u "ZC7"))), STAY);
((mkLine (Some 171479838286694750708947642953799774436%N) (Some (u "SG10")) None None None None None None None (Some (u "Energieflussrichtung")) (Some (551)%Z)), (mkLocation false [(mkLayer None (u "UNH") (Some (u "UTILMD"))); (mkLayer (Some (u "SG4")) (u "IDE") (Some (u "24"))); (mkLayer (Some (u "SG8")) (u "SEQ") (Some (u "Z19"))); (mkLayer (Some (u "SG10")) (u "CCI") (Some (u "Z35")))] (Some (u "CAV")) None None), STAY);
((mkLine (Some 138591937873901832801394837647123380820%N) (Some (u "SG10")) (Some (u "CAV")) None None None None None None (Some (u "Energieflussrichtung")) (Some (552)%Z)), (mkLocation false [(mkLayer None (u "UNH") (Some (u "UTILMD"))); (mkLayer (Some (u "SG4")) (u "IDE") (Some (u "24"))); (mkLayer (Some (u "SG8")) (u "SEQ") (Some (u "Z19"))); (mkLayer (Some (u "SG10")) (u "CCI") (Some (u "Z35")))] (Some (u "CAV")) None None), STAY);
((mkLine (Some 165082711808132893474609803907962371209%N) (Some (u "SG10")) (Some (u "CAV")) (Some (u "7111")) None (Some (u "Z71")) (Some (u "Verbrauch")) None None (Some (u "Energieflussrichtung")) (Some (553)%Z)), (mkLocation false [(mkLayer None (u "UNH") (Some (u "UTILMD"))); (mkLayer (Some (u "SG4")) (u "IDE") (Some (u "24"))); (mkLayer (Some (u "SG8")) (u "SEQ") (Some (u "Z19"))); (mkLayer (Some (u "SG10")) (u "CCI") (Some (u "Z35")))] (Some (u "CAV")) (Some (u "7111")) (Some (u "Z71"))), STAY);
((mkLine (Some 233510663607569446875874957034112545588%N) (Some (u "SG10")) (Some (u "CAV")) (Some (u "7111")) None (Some (u "Z72")) (Some (u "Erzeugung")) None None (Some (u "Energieflussrichtung")) (Some (554)%Z)), (mkLocation false [(mkLayer None (u "UNH") (Some (u "UTILMD"))); (mkLayer (Some (u "SG4")) (u "IDE") (Some (u "24"))); (mkLayer (Some (u "SG8")) (u "SEQ") (Some (u "Z19"))); (mkLayer (Some (u "SG10")) (u "CCI") (Some (u "Z35")))] (Some (u "CAV")) (Some (u "7111")) (Some (u "Z72"))), STAY);
((mkLine (Some 109954506042142831135865508760774534785%N) (Some (u "SG10")) None None None None None None None (Some (u "Notwendigkeit einer zweiten Messung")) (Some (556)%Z)), (mkLocation false [(mkLayer None (u "UNH") (Some (u "UTILMD"))); (mkLayer (Some (u "SG4")) (u "IDE") (Some (u "24"))); (mkLayer (Some (u "SG8")) (u "SEQ") (Some (u "Z19"))); (mkLayer (Some (u "SG10")) (u "CCI") (Some (u "Z35")))] (Some (u "CAV")) None None), STAY);
((mkLine (Some 102776197606956483224595577285716937503%N) (Some (u "SG10")) (Some (u "CAV")) None None None None None None (Some (u "Notwendigkeit einer zweiten Messung")) (Some (557)%Z)), (mkLocation false [(mkLayer None (u "UNH") (Some (u "UTILMD"))); (mkLayer (Some (u "SG4")) (u "IDE") (Some (u "24"))); (mkLayer (Some (u "SG8")) (u "SEQ") (Some (u "Z19"))); (mkLayer (Some (u "SG10")) (u "CCI") (Some (u "Z35")))] (Some (u "CAV")) None None), STAY);
((mkLine (Some 27300108443970094144425341083613866958%N) (Some (u "SG10")) (Some (u "CAV")) (Some (u "7111")) None (Some (u "ZC9")) (Some (u "Zweite Messung fürVergleichsmessungerforderlich")) None None (Some (u "Notwendigkeit einer zweiten Messung")) (Some (558)%Z)), (mkLocation false [(mkLayer None (u "UNH") (Some (u "UTILMD"))); (mkLayer (Some (u "SG4")) (u "IDE") (Some (u "24"))); (mkLayer (Some (u "SG8")) (u "SEQ") (Some (u "Z19"))); (mkLayer (Some (u "SG10")) (u "CCI") (Some (u "Z35")))] (Some (u "CAV")) (Some (u "7111")) (Some (u "ZC9"))), STAY);
((mkLine (Some 57331694684648004940923325311285139694%N) (Some (u "SG10")) (Some (u "CAV")) (Some (u "7110")) None (Some (u "Z06")) (Some (u "vorhanden")) None None (Some (u "Notwendigkeit einer zweiten Messung")) (Some (559)%Z)), (mkLocation false [(mkLayer None (u "UNH") (Some (u "UTILMD"))); (mkLayer (Some (u "SG4")) (u "IDE") (Some (u "24"))); (mkLayer (Some (u "SG8")) (u "SEQ") (Some (u "Z19"))); (mkLayer (Some (u "SG10")) (u "CCI") (Some (u "Z35")))] (Some (u "CAV")) (Some (u "7110")) (Some (u "Z06"))), STAY);
((mkLine (Some 207784062864832870427862527635591517203%N) (Some (u "SG10")) (Some (u "CAV")) (Some (u "7110")) None (Some (u "Z07")) (Some (u "nicht vorhanden")) None None (Some (u "Notwendigkeit einer zweiten Messung")) (Some (560)%Z)), (mkLocation false [(mkLayer None (u "UNH") (Some (u "UTILMD"))); (mkLayer (Some (u "SG4")) (u "IDE") (Some (u "24"))); (mkLayer (Some (u "SG8")) (u "SEQ") (Some (u "Z19"))); (mkLayer (Some (u "SG10")) (u "CCI") (Some (u "Z35")))] (Some (u "CAV")) (Some (u "7110")) (Some (u "Z07"))), STAY);
((mkLine (Some 123119096188141812820677228844588338715%N) (Some (u "SG10")) None None None None None None None (Some (u "Werteübermittlung an den NB aufgrund weiterem Verwendungszweck")) (Some (562)%Z)), (mkLocation false [(mkLayer None (u "UNH") (Some (u "UTILMD"))); (mkLayer (Some (u "SG4")) (u "IDE") (Some (u "24"))); (mkLayer (Some (u "SG8")) (u "SEQ") (Some (u "Z19"))); (mkLayer (Some (u "SG10")) (u "CCI") (Some (u "Z35")))] (Some (u "CAV")) None None), STAY);
((mkLine (Some 34984662169864504243180722354988582721%N) (Some (u "SG10")) (Some (u "CAV")) None None None None None None (Some (u "Werteübermittlung an den NB aufgrund weiterem Verwendungszweck")) (Some (563)%Z)), (mkLocation false [(mkLayer None (u "UNH") (Some (u "UTILMD"))); (mkLayer (Some (u "SG4")) (u "IDE") (Some (u "24"))); (mkLayer (Some (u "SG8")) (u "SEQ") (Some (u "Z19"))); (mkLayer (Some (u "SG10")) (u "CCI") (Some (u "Z35")))] (Some (u "CAV")) None None), STAY);
((mkLine (Some 95020177858634961838047907828707422810%N) (Some (u "SG10")) (Some (u "CAV")) (Some (u "7111")) None (Some (u "Z88")) (Some (u "NB")) None None (Some (u "Werteübermittlung an den NB aufgrund weiterem Verwendungszweck")) (Some (564)%Z)), (mkLocation false [(mkLayer None (u "UNH") (Some (u "UTILMD"))); (mkLayer (Some (u "SG4")) (u "IDE") (Some (u "24"))); (mkLayer (Some (u "SG8")) (u "SEQ") (Some (u "Z19"))); (mkLayer (Some (u "SG10")) (u "CCI") (Some (u "Z35")))] (Some (u "CAV")) (Some (u "7111")) (Some (u "Z88"))), STAY);
((mkLine (Some 117073943841916548320940267067788383268%N) (Some (u "SG10")) (Some (u "CAV")) (Some (u "7110")) None (Some (u "Z06")) (Some (u "vorhanden")) None None (Some (u "Werteübermittlung an den NB aufgrund weiterem Verwendungszweck")) (Some (565)%Z)), (mkLocation false [(mkLayer None (u "UNH") (Some (u "UTILMD"))); (mkLayer (Some (u "SG4")) (u "IDE") (Some (u "24"))); (mkLayer (Some (u "SG8")) (u "SEQ") (Some (u "Z19"))); (mkLayer (Some (u "SG10")) (u "CCI") (Some (u "Z35")))] (Some (u "CAV")) (Some (u "7110")) (Some (u "Z06"))), STAY);
((mkLine (Some 322074000426198867501260771143975204766%N) (Some (u "SG10")) (Some (u "CAV")) (Some (u "7110")) None (Some (u "Z07")) (Some (u "nicht vorhanden")) None None (Some (u "Werteübermittlung an den NB aufgrund weiterem Verwendungszweck")) (Some (566)%Z)), (mkLocation false [(mkLayer None (u "UNH") (Some (u "UTILMD"))); (mkLayer (Some (u "SG4")) (u "IDE") (Some (u "24"))); (mkLayer (Some (u "SG8")) (u "SEQ") (Some (u "Z19"))); (mkLayer (Some (u "SG10")) (u "CCI") (Some (u "Z35")))] (Some (u "CAV")) (Some (u "7110")) (Some (u "Z07"))), STAY);
((mkLine (Some 11366814179143427439030727160791277287%N) (Some (u "SG10")) None None None None None None None (Some (u "Zugeordnete Zählzeit")) (Some (568)%Z)), (mkLocation false [(mkLayer None (u "UNH") (Some (u "UTILMD"))); (mkLayer (Some (u "SG4")) (u "IDE") (Some (u "24"))); (mkLayer (Some (u "SG8")) (u "SEQ") (Some (u "Z19"))); (mkLayer (Some (u "SG10")) (u "CCI") (Some (u "Z39")))] (Some (u "CCI")) None None), MOVE_TO_NEIGHBOUR_SAME_KEY);
((mkLine (Some 252612594777390109252710095221283364713%N) (Some (u "SG10")) (Some (u "CCI")) None None None None None None (Some (u "Zugeordnete Zählzeit")) (Some (569)%Z)), (mkLocation false [(mkLayer None (u "UNH") (Some (u "UTILMD"))); (mkLayer (Some (u "SG4")) (u "IDE") (Some (u "24"))); (mkLayer (Some (u "SG8")) (u "SEQ") (Some (u "Z19"))); (mkLayer (Some (u "SG10")) (u "CCI") (Some (u "Z39")))] (Some (u "CCI")) None None), STAY);
((mkLine (Some 256248694037934811651539767175113653640%N) (Some (u "SG10")) (Some (u "CCI")) (Some (u "7059")) None (Some (u "Z39")) (Some (u "Code der Zählzeit")) None None (Some (u "Zugeordnete Zählzeit")) (Some (570)%Z)), (mkLocation false [(mkLayer None (u "UNH") (Some (u "UTILMD"))); (mkLayer (Some (u "SG4")) (u "IDE") (Some (u "24"))); (mkLayer (Some (u "SG8")) (u "SEQ") (Some (u "Z19"))); (mkLayer (Some (u "SG10")) (u "CCI") (Some (u "Z39")))] (Some (u "CCI")) (Some (u "7059")) (Some (u "Z39"))), STAY);
((mkLine (Some 207511387261162923652272294540904693813%N) (Some (u "SG10")) (Some (u "CCI")) (Some (u "7037")) None (Some (u "0")) (Some (u "Code der ZählzeitZ61")) None None (Some (u "Zugeordnete Zählzeit")) (Some (571)%Z)), (mkLocation false [(mkLayer None (u "UNH") (Some (u "UTILMD"))); (mkLayer (Some (u "SG4")) (u "IDE") (Some (u "24"))); (mkLayer (Some (u "SG8")) (u "SEQ") (Some (u "Z19"))); (mkLayer (Some (u "SG10")) (u "CCI") (Some (u "Z39")))] (Some (u "CCI")) (Some (u "7037")) (Some (u "0"))), STAY);
((mkLine (Some 33515162683861906358918277518742511554%N) (Some (u "SG8")) None None None None None (Some (u "Muss [78] u[138]")) None (Some (u "Zähleinrichtungsdaten")) (Some (573)%Z)), (mkLocation false [(mkLayer None (u "UNH") (Some (u "UTILMD"))); (mkLayer (Some (u "SG4")) (u "IDE") (Some (u "24"))); (mkLayer (Some (u "SG8")) (u "SEQ") (Some (u "Z03")))] (Some (u "SEQ")) None None), LEAVE_TO_PARENT_AND_DIVE_INTO_SUB_GROUP);
((mkLine (Some 258303649668082692069077072845232981865%N) (Some (u "SG8")) (Some (u "SEQ")) None None None None (Some (u "Muss")) None (Some (u "Zähleinrichtungsdaten")) (Some (574)%Z)), (mkLocation false [(mkLayer None (u "UNH") (Some (u "UTILMD"))); (mkLayer (Some (u "SG4")) (u "IDE") (Some (u "24"))); (mkLayer (Some (u "SG8")) (u "SEQ") (Some (u "Z03")))] (Some (u "SEQ")) None None), STAY);
((mkLine (Some 184676097770360079274908535260476514536%N) (Some (u "SG8")) (Some (u "SEQ")) (Some (u "1229")) None (Some (u "Z03")) (Some (u "Zähleinrichtungsdaten")) (Some (u "X")) None (Some (u "Zähleinrichtungsdaten")) (Some (575)%Z)), (mkLocation false [(mkLayer None (u "UNH") (Some (u "UTILMD"))); (mkLayer (Some (u "SG4")) (u "IDE") (Some (u "24"))); (mkLayer (Some (u "SG8")) (u "SEQ") (Some (u "Z03")))] (Some (u "SEQ")) (Some (u "1229")) (Some (u "Z03"))), STAY);
((mkLine (Some 253690312380676952182576200906754973029%N) (Some (u "SG8")) None None None None None None None (Some (u "Referenz auf die ID einer Messlokation")) (Some (577)%Z)), (mkLocation false [(mkLayer None (u "UNH") (Some (u "UTILMD"))); (mkLayer (Some (u "SG4")) (u "IDE") (Some (u "24"))); (mkLayer (Some (u "SG8")) (u "SEQ") (Some (u "Z03")))] (Some (u "RFF")) None None), STAY);
((mkLine (Some 219177812390030839652878314077863889551%N) (Some (u "SG8")) (Some (u "RFF")) None None None None None None (Some (u "Referenz auf die ID einer Messlokation")) (Some (578)%Z)), (mkLocation false [(mkLayer None (u "UNH") (Some (u "UTILMD"))); (mkLayer (Some (u "SG4")) (u "IDE") (Some (u "24"))); (mkLayer (Some (u "SG8")) (u "SEQ") (Some (u "Z03")))] (Some (u "RFF")) None None), STAY);
((mkLine (Some 54032530869463624516099182336233968227%N) (Some (u "SG8")) (Some (u "RFF")) (Some (u "1153")) None (Some (u "Z19")) (Some (u "Messlokation")) None None (Some (u "Referenz auf die ID einer Messlokation")) (Some (579)%Z)), (mkLocation false [(mkLayer None (u "UNH") (Some (u "UTILMD"))); (mkLayer (Some (u "SG4")) (u "IDE") (Some (u "24"))); (mkLayer (Some (u "SG8")) (u "SEQ") (Some (u "Z03")))] (Some (u "RFF")) (Some (u "1153")) (Some (u "Z19"))), STAY);
((mkLine (Some 270707542627068397710300967823129328933%N) (Some (u "SG8")) (Some (u "RFF")) (Some (u "1154")) None None (Some (u "ID einer Messlokation")) None None (Some (u "Referenz auf die ID einer Messlokation")) (Some (580)%Z)), (mkLocation false [(mkLayer None (u "UNH") (Some (u "UTILMD"))); (mkLayer (Some (u "SG4")) (u "IDE") (Some (u "24"))); (mkLayer (Some (u "SG8")) (u "SEQ") (Some (u "Z03")))] (Some (u "RFF")) (Some (u "1154")) None), STAY);
((mkLine (Some 86690010383505338049034709047463532756%N) (Some (u "SG8")) None None None None None None None (Some (u "Referenz auf das Smartmeter-Gateway")) (Some (582)%Z)), (mkLocation false [(mkLayer None (u "UNH") (Some (u "UTILMD"))); (mkLayer (Some (u "SG4")) (u "IDE") (Some (u "24"))); (mkLayer (Some (u "SG8")) (u "SEQ") (Some (u "Z03")))] (Some (u "RFF")) None None), STAY);
((mkLine (Some 18362382853945990634454405722653962715%N) (Some (u "SG8")) (Some (u "RFF")) None None None None None None (Some (u "Referenz auf das Smartmeter-Gateway")) (Some (583)%Z)), (mkLocation false [(mkLayer None (u "UNH") (Some (u "UTILMD"))); (mkLayer (Some (u "SG4")) (u "IDE") (Some (u "24"))); (mkLayer (Some (u "SG8")) (u "SEQ") (Some (u "Z03")))] (Some (u "RFF")) None None), STAY);
((mkLine (Some 284008464204224779847556381801888097040%N) (Some (u "SG8")) (Some (u "RFF")) (Some (u "1153")) None (Some (u "Z14")) (Some (u "Smartmeter-Gateway")) None None (Some (u "Referenz auf das Smartmeter-Gateway")) (Some (584)%Z)), (mkLocation false [(mkLayer None (u "UNH") (Some (u "UTILMD"))); (mkLayer (Some (u "SG4")) (u "IDE") (Some (u "24"))); (mkLayer (Some (u "SG8")) (u "SEQ") (Some (u "Z03")))] (Some (u "RFF")) (Some (u "1153")) (Some (u "Z14"))), STAY);
((mkLine (Some 21244170678301217726706837578798705065%N) (Some (u "SG8")) (Some (u "RFF")) (Some (u "1154")) None None (Some (u "Identifikation / Nummer desSmartmeter-Gateways")) None None (Some (u "Referenz auf das Smartmeter-Gateway")) (Some (585)%Z)), (mkLocation false [(mkLayer None (u "UNH") (Some (u "UTILMD"))); (mkLayer (Some (u "SG4")) (u "IDE") (Some (u "24"))); (mkLayer (Some (u "SG8")) (u "SEQ") (Some (u "Z03")))] (Some (u "RFF")) (Some (u "1154")) None), STAY);
((mkLine (Some 54082287481402267031663973727122226705%N) (Some (u "SG10")) None None None None None (Some (u "Muss")) None (Some (u "Zählertyp")) (Some (587)%Z)), (mkLocation false [(mkLayer None (u "UNH") (Some (u "UTILMD"))); (mkLayer (Some (u "SG4")) (u "IDE") (Some (u "24"))); (mkLayer (Some (u "SG8")) (u "SEQ") (Some (u "Z03"))); (mkLayer (Some (u "SG10")) (u "CCI") (Some (u "E13")))] (Some (u "CCI")) None None), DIVE_INTO_SUB_GROUP);
((mkLine (Some 240399068604118782259226970144443234405%N) (Some (u "SG10")) (Some (u "CCI")) None None None None (Some (u "Muss")) None (Some (u "Zählertyp")) (Some (588)%Z)), (mkLocation false [(mkLayer None (u "UNH") (Some (u "UTILMD"))); (mkLayer (Some (u "SG4")) (u "IDE") (Some (u "24"))); (mkLayer (Some (u "SG8")) (u "SEQ") (Some (u "Z03"))); (mkLayer (Some (u "SG10")) (u "CCI") (Some (u "E13")))] (Some (u "CCI")) None None), STAY);
((mkLine (Some 270960133377997768923448593892495897049%N) (Some (u "SG10")) (Some (u "CCI")) (Some (u "7037")) None (Some (u "E13")) (Some (u "Zählertyp")) (Some (u "X")) None (Some (u "Zählertyp")) (Some (589)%Z)), (mkLocation false [(mkLayer None (u "UNH") (Some (u "UTILMD"))); (mkLayer (Some (u "SG4")) (u "IDE") (Some (u "24"))); (mkLayer (Some (u "SG8")) (u "SEQ") (Some (u "Z03"))); (mkLayer (Some (u "SG10")) (u "CCI") (Some (u "E13")))] (Some (u "CCI")) (Some (u "7037")) (Some (u "E13"))), STAY);
((mkLine (Some 100777483007060050073817193850474911828%N) (Some (u "SG10")) None None None None None None None (Some (u "Zählertyp")) (Some (591)%Z)), (mkLocation false [(mkLayer None (u "UNH") (Some (u "UTILMD"))); (mkLayer (Some (u "SG4")) (u "IDE") (Some (u "24"))); (mkLayer (Some (u "SG8")) (u "SEQ") (Some (u "Z03"))); (mkLayer (Some (u "SG10")) (u "CCI") (Some (u "E13")))] (Some (u "CAV")) None None), STAY);
((mkLine (Some 263635625192508125041283631543286230972%N) (Some (u "SG10")) (Some (u "CAV")) None None None None None None (Some (u "Zählertyp")) (Some (592)%Z)), (mkLocation false [(mkLayer None (u "UNH") (Some (u "UTILMD"))); (mkLayer (Some (u "SG4")) (u "IDE") (Some (u "24"))); (mkLayer (Some (u "SG8")) (u "SEQ") (Some (u "Z03"))); (mkLayer (Some (u "SG10")) (u "CCI") (Some (u "E13")))] (Some (u "CAV")) None None), STAY);
((mkLine (Some 248548974705322089562426568240594101014%N) (Some (u "SG10")) (Some (u "CAV")) (Some (u "7111")) None (Some (u "AHZ")) (Some (u "analoger Haushaltszähler (Drehstrom)")) None None (Some (u "Zählertyp")) (Some (593)%Z)), (mkLocation false [(mkLayer None (u "UNH") (Some (u "UTILMD"))); (mkLayer (Some (u "SG4")) (u "IDE") (Some (u "24"))); (mkLayer (Some (u "SG8")) (u "SEQ") (Some (u "Z03"))); (mkLayer (Some (u "SG10")) (u "CCI") (Some (u "E13")))] (Some (u "CAV")) (Some (u "7111")) (Some (u "AHZ"))), STAY);
((mkLine (Some 136831425834447308465975814625441956167%N) (Some (u "SG10")) (Some (u "CAV")) (Some (u "7111")) None (Some (u "WSZ")) (Some (u "analoger Wechselstromzähler")) None None (Some (u "Zählertyp")) (Some (594)%Z)), (mkLocation false [(mkLayer None (u "UNH") (Some (u "UTILMD"))); (mkLayer (Some (u "SG4")) (u "IDE") (Some (u "24"))); (mkLayer (Some (u "SG8")) (u "SEQ") (Some (u "Z03"))); (mkLayer (Some (u "SG10")) (u "CCI") (Some (u "E13")))] (Some (u "CAV")) (Some (u "7111")) (Some (u "WSZ"))), STAY);
((mkLine (Some 36736284957516735795172897361690670172%N) (Some (u "SG10")) (Some (u "CAV")) (Some (u "7111")) None (Some (u "LAZ")) (Some (u "Lastgangzähler")) None None (Some (u "Zählertyp")) (Some (595)%Z)), (mkLocation false [(mkLayer None (u "UNH") (Some (u "UTILMD"))); (mkLayer (Some (u "SG4")) (u "IDE") (Some (u "24"))); (mkLayer (Some (u "SG8")) (u "SEQ") (Some (u "Z03"))); (mkLayer (Some (u "SG10")) (u "CCI") (Some (u "E13")))] (Some (u "CAV")) (Some (u "7111")) (Some (u "LAZ"))), STAY);
((mkLine (Some 60031754552945243844713543509327006415%N) (Some (u "SG10")) (Some (u "CAV")) (Some (u "7111")) None (Some (u "MAZ")) (Some (u "Maximumzähler")) None None (Some (u "Zählertyp")) (Some (596)%Z)), (mkLocation false [(mkLayer None (u "UNH") (Some (u "UTILMD"))); (mkLayer (Some (u "SG4")) (u "IDE") (Some (u "24"))); (mkLayer (Some (u "SG8")) (u "SEQ") (Some (u "Z03"))); (mkLayer (Some (u "SG10")) (u "CCI") (Some (u "E13")))] (Some (u "CAV")) (Some (u "7111")) (Some (u "MAZ"))), STAY);
((mkLine (Some 332402582587019643077285257749577942203%N) (Some (u "SG10")) (Some (u "CAV")) (Some (u "7111")) None (Some (u "MME")) (Some (u "moderne Messeinrichtung nach MsbG")) None None (Some (u "Zählertyp")) (Some (597)%Z)), (mkLocation false [(mkLayer None (u "UNH") (Some (u "UTILMD"))); (mkLayer (Some (u "SG4")) (u "IDE") (Some (u "24"))); (mkLayer (Some (u "SG8")) (u "SEQ") (Some (u "Z03"))); (mkLayer (Some (u "SG10")) (u "CCI") (Some (u "E13")))] (Some (u "CAV")) (Some (u "7111")) (Some (u "MME"))), STAY);
((mkLine (Some 306452897986318346855500838520236338897%N) (Some (u "SG10")) (Some (u "CAV")) (Some (u "7111")) None (Some (u "DKZ")) (Some (u "Drehkolbengaszähler")) None None (Some (u "Zählertyp")) (Some (598)%Z)), (mkLocation false [(mkLayer None (u "UNH") (Some (u "UTILMD"))); (mkLayer (Some (u "SG4")) (u "IDE") (Some (u "24"))); (mkLayer (Some (u "SG8")) (u "SEQ") (Some (u "Z03"))); (mkLayer (Some (u "SG10")) (u "CCI") (Some (u "E13")))] (Some (u "CAV")) (Some (u "7111")) (Some (u "DKZ"))), STAY);
((mkLine (Some 293610680824848040132227200929437491124%N) (Some (u "SG10")) (Some (u "CAV")) (Some (u "7111")) None (Some (u "BGZ")) (Some (u "Balgengaszähler")) None None (Some (u "Zählertyp")) (Some (599)%Z)), (mkLocation false [(mkLayer None (u "UNH") (Some (u "UTILMD"))); (mkLayer (Some (u "SG4")) (u "IDE") (Some (u "24"))); (mkLayer (Some (u "SG8")) (u "SEQ") (Some (u "Z03"))); (mkLayer (Some (u "SG10")) (u "CCI") (Some (u "E13")))] (Some (u "CAV")) (Some (u "7111")) (Some (u "BGZ"))), STAY);
((mkLine (Some 289860411285902365882170159662861141516%N) (Some (u "SG10")) (Some (u "CAV")) (Some (u "7111")) None (Some (u "TRZ")) (Some (u "Turbinenradgaszähler")) None None (Some (u "Zählertyp")) (Some (600)%Z)), (mkLocation false [(mkLayer None (u "UNH") (Some (u "UTILMD"))); (mkLayer (Some (u "SG4")) (u "IDE") (Some (u "24"))); (mkLayer (Some (u "SG8")) (u "SEQ") (Some (u "Z03"))); (mkLayer (Some (u "SG10")) (u "CCI") (Some (u "E13")))] (Some (u "CAV")) (Some (u "7111")) (Some (u "TRZ"))), STAY);
((mkLine (Some 35235779855196782708070225936259862892%N) (Some (u "SG10")) (Some (u "CAV")) (Some (u "7111")) None (Some (u "UGZ")) (Some (u "Ultraschallgaszähler")) None None (Some (u "Zählertyp")) (Some (601)%Z)), (mkLocation false [(mkLayer None (u "UNH") (Some (u "UTILMD"))); (mkLayer (Some (u "SG4")) (u "IDE") (Some (u "24"))); (mkLayer (Some (u "SG8")) (u "SEQ") (Some (u "Z03"))); (mkLayer (Some (u "SG10")) (u "CCI") (Some (u "E13")))] (Some (u "CAV")) (Some (u "7111")) (Some (u "UGZ"))), STAY);
((mkLine (Some 210729856593981517181711111709320065990%N) (Some (u "SG10")) (Some (u "CAV")) (Some (u "7111")) None (Some (u "WGZ")) (Some (u "Wirbelgaszähler")) None None (Some (u "Zählertyp")) (Some (602)%Z)), (mkLocation false [(mkLayer None (u "UNH") (Some (u "UTILMD"))); (mkLayer (Some (u "SG4")) (u "IDE") (Some (u "24"))); (mkLayer (Some (u "SG8")) (u "SEQ") (Some (u "Z03"))); (mkLayer (Some (u "SG10")) (u "CCI") (Some (u "E13")))] (Some (u "CAV")) (Some (u "7111")) (Some (u "WGZ"))), STAY);
((mkLine (Some 13709575913212425123199307255318216384%N) (Some (u "SG10")) (Some (u "CAV")) (Some (u "7111")) None (Some (u "MRG")) (Some (u "Messdatenregistriergerät")) None None (Some (u "Zählertyp")) (Some (603)%Z)), (mkLocation false [(mkLayer None (u "UNH") (Some (u "UTILMD"))); (mkLayer (Some (u "SG4")) (u "IDE") (Some (u "24"))); (mkLayer (Some (u "SG8")) (u "SEQ") (Some (u "Z03"))); (mkLayer (Some (u "SG10")) (u "CCI") (Some (u "E13")))] (Some (u "CAV")) (Some (u "7111")) (Some (u "MRG"))), STAY);
((mkLine (Some 52947554779538043721382932579174235904%N) (Some (u "SG10")) (Some (u "CAV")) (Some (u "7111")) None (Some (u "EHZ")) (Some (u "elektronischer Haushaltszähler")) None None (Some (u "Zählertyp")) (Some (604)%Z)), (mkLocation false [(mkLayer None (u "UNH") (Some (u "UTILMD"))); (mkLayer (Some (u "SG4")) (u "IDE") (Some (u "24"))); (mkLayer (Some (u "SG8")) (u "SEQ") (Some (u "Z03"))); (mkLayer (Some (u "SG10")) (u "CCI") (Some (u "E13")))] (Some (u "CAV")) (Some (u "7111")) (Some (u "EHZ"))), STAY);
((mkLine (Some 56785547248171333616386173169943607181%N) (Some (u "SG10")) (Some (u "CAV")) (Some (u "7111")) None (Some (u "IVA")) (Some (u "Individuelle Abstimmung (Sonderausstattung)")) None None (Some (u "Zählertyp")) (Some (605)%Z)), (mkLocation false [(mkLayer None (u "UNH") (Some (u "UTILMD"))); (mkLayer (Some (u "SG4")) (u "IDE") (Some (u "24"))); (mkLayer (Some (u "SG8")) (u "SEQ") (Some (u "Z03"))); (mkLayer (Some (u "SG10")) (u "CCI") (Some (u "E13")))] (Some (u "CAV")) (Some (u "7111")) (Some (u "IVA"))), STAY);
((mkLine (Some 289769334845264475440066350229251900398%N) (Some (u "SG10")) (Some (u "CAV")) (Some (u "7110")) None (Some (u "Z01")) (Some (u "EDL40")) None None (Some (u "Zählertyp")) (Some (606)%Z)), (mkLocation false [(mkLayer None (u "UNH") (Some (u "UTILMD"))); (mkLayer (Some (u "SG4")) (u "IDE") (Some (u "24"))); (mkLayer (Some (u "SG8")) (u "SEQ") (Some (u "Z03"))); (mkLayer (Some (u "SG10")) (u "CCI") (Some (u "E13")))] (Some (u "CAV")) (Some (u "7110")) (Some (u "Z01"))), STAY);
((mkLine (Some 167022744403047084785102526590455797994%N) (Some (u "SG10")) (Some (u "CAV")) (Some (u "7110")) None (Some (u "Z02")) (Some (u "EDL21")) None None (Some (u "Zählertyp")) (Some (607)%Z)), (mkLocation false [(mkLayer None (u "UNH") (Some (u "UTILMD"))); (mkLayer (Some (u "SG4")) (u "IDE") (Some (u "24"))); (mkLayer (Some (u "SG8")) (u "SEQ") (Some (u "Z03"))); (mkLayer (Some (u "SG10")) (u "CCI") (Some (u "E13")))] (Some (u "CAV")) (Some (u "7110")) (Some (u "Z02"))), STAY);
((mkLine (Some 76400447331357111719193872091773968693%N) (Some (u "SG10")) (Some (u "CAV")) (Some (u "7110")) None (Some (u "Z03")) (Some (u "sonstiger EHZ")) None None (Some (u "Zählertyp")) (Some (608)%Z)), (mkLocation false [(mkLayer None (u "UNH") (Some (u "UTILMD"))); (mkLayer (Some (u "SG4")) (u "IDE") (Some (u "24"))); (mkLayer (Some (u "SG8")) (u "SEQ") (Some (u "Z03"))); (mkLayer (Some (u "SG10")) (u "CCI") (Some (u "E13")))] (Some (u "CAV")) (Some (u "7110")) (Some (u "Z03"))), STAY);
((mkLine (Some 236561964359500715885289325964870098473%N) (Some (u "SG10")) (Some (u "CAV")) (Some (u "7110")) None (Some (u "Z04")) (Some (u "Standard")) None None (Some (u "Zählertyp")) (Some (609)%Z)), (mkLocation false [(mkLayer None (u "UNH") (Some (u "UTILMD"))); (mkLayer (Some (u "SG4")) (u "IDE") (Some (u "24"))); (mkLayer (Some (u "SG8")) (u "SEQ") (Some (u "Z03"))); (mkLayer (Some (u "SG10")) (u "CCI") (Some (u "E13")))] (Some (u "CAV")) (Some (u "7110")) (Some (u "Z04"))), STAY);
((mkLine (Some 271073719085354986408169591823813364707%N) (Some (u "SG10")) (Some (u "CAV")) (Some (u "7110")) None (Some (u "Z05")) (Some (u "MeDa-Zähler")) None None (Some (u "Zählertyp")) (Some (610)%Z)), (mkLocation false [(mkLayer None (u "UNH") (Some (u "UTILMD"))); (mkLayer (Some (u "SG4")) (u "IDE") (Some (u "24"))); (mkLayer (Some (u "SG8")) (u "SEQ") (Some (u "Z03"))); (mkLayer (Some (u "SG10")) (u "CCI") (Some (u "E13")))] (Some (u "CAV")) (Some (u "7110")) (Some (u "Z05"))), STAY);
((mkLine (Some 15561053287243347087758825877029742782%N) (Some (u "SG10")) None None None None None None None (Some (u "Zählergröße (Gas)")) (Some (612)%Z)), (mkLocation false [(mkLayer None (u "UNH") (Some (u "UTILMD"))); (mkLayer (Some (u "SG4")) (u "IDE") (Some (u "24"))); (mkLayer (Some (u "SG8")) (u "SEQ") (Some (u "Z03"))); (mkLayer (Some (u "SG10")) (u "CCI") (Some (u "E13")))] (Some (u "CAV")) None None), STAY);
((mkLine (Some 75636017942018070697377914448865969129%N) (Some (u "SG10")) (Some (u "CAV")) None None None None None None (Some (u "Zählergröße (Gas)")) (Some (613)%Z)), (mkLocation false [(mkLayer None (u "UNH") (Some (u "UTILMD"))); (mkLayer (Some (u "SG4")) (u "IDE") (Some (u "24"))); (mkLayer (Some (u "SG8")) (u "SEQ") (Some (u "Z03"))); (mkLayer (Some (u "SG10")) (u "CCI") (Some (u "E13")))] (Some (u "CAV")) None None), STAY);
((mkLine (Some 56640031574181532058311319977957975470%N) (Some (u "SG10")) (Some (u "CAV")) (Some (u "7110")) None (Some (u "G10")) (Some (u "Gaszähler G10")) None None (Some (u "Zählergröße (Gas)")) (Some (614)%Z)), (mkLocation false [(mkLayer None (u "UNH") (Some (u "UTILMD"))); (mkLayer (Some (u "SG4")) (u "IDE") (Some (u "24"))); (mkLayer (Some (u "SG8")) (u "SEQ") (Some (u "Z03"))); (mkLayer (Some (u "SG10")) (u "CCI") (Some (u "E13")))] (Some (u "CAV")) (Some (u "7110")) (Some (u "G10"))), STAY);
((mkLine (Some 265236540493554422525744910517252194690%N) (Some (u "SG10")) (Some (u "CAV")) (Some (u "7110")) None (Some (u "G100")) (Some (u "Gaszähler G100")) None None (Some (u "Zählergröße (Gas)")) (Some (615)%Z)), (mkLocation false [(mkLayer None (u "UNH") (Some (u "UTILMD"))); (mkLayer (Some (u "SG4")) (u "IDE") (Some (u "24"))); (mkLayer (Some (u "SG8")) (u "SEQ") (Some (u "Z03"))); (mkLayer (Some (u "SG10")) (u "CCI") (Some (u "E13")))] (Some (u "CAV")) (Some (u "7110")) (Some (u "G100"))), STAY);
((mkLine (Some 118596721405497582173086999551417465005%N) (Some (u "SG10")) (Some (u "CAV")) (Some (u "7110")) None (Some (u "G1000")) (Some (u "Gaszähler G1000")) None None (Some (u "Zählergröße (Gas)")) (Some (616)%Z)), (mkLocation false [(mkLayer None (u "UNH") (Some (u "UTILMD"))); (mkLayer (Some (u "SG4")) (u "IDE") (Some (u "24"))); (mkLayer (Some (u "SG8")) (u "SEQ") (Some (u "Z03"))); (mkLayer (Some (u "SG10")) (u "CCI") (Some (u "E13")))] (Some (u "CAV")) (Some (u "7110")) (Some (u "G1000"))), STAY);
((mkLine (Some 228430403315515495479886152441421660130%N) (Some (u "SG10")) (Some (u "CAV")) (Some (u "7110")) None (Some (u "G10000")) (Some (u "Gaszähler G10000")) None None (Some (u "Zählergröße (Gas)")) (Some (617)%Z)), (mkLocation false [(mkLayer None (u "UNH") (Some (u "UTILMD"))); (mkLayer (Some (u "SG4")) (u "IDE") (Some (u "24"))); (mkLayer (Some (u "SG8")) (u "SEQ") (Some (u "Z03"))); (mkLayer (Some (u "SG10")) (u "CCI") (Some (u "E13")))] (Some (u "CAV")) (Some (u "7110")) (Some (u "G10000"))), STAY);
((mkLine (Some 44848512674388921598973377896054630413%N) (Some (u "SG10")) (Some (u "CAV")) (Some (u "7110")) None (Some (u "G12500")) (Some (u "Gaszähler G12500")) None None (Some (u "Zählergröße (Gas)")) (Some (618)%Z)), (mkLocation false [(mkLayer None (u "UNH") (Some (u "UTILMD"))); (mkLayer (Some (u "SG4")) (u "IDE") (Some (u "24"))); (mkLayer (Some (u "SG8")) (u "SEQ") (Some (u "Z03"))); (mkLayer (Some (u "SG10")) (u "CCI") (Some (u "E13")))] (Some (u "CAV")) (Some (u "7110")) (Some (u "G12500"))), STAY);
((mkLine (Some 198472177505495865252973584747321688070%N) (Some (u "SG10")) (Some (u "CAV")) (Some (u "7110")) None (Some (u "G16")) (Some (u "Gaszähler G16")) None None (Some (u "Zählergröße (Gas)")) (Some (619)%Z)), (mkLocation false [(mkLayer None (u "UNH") (Some (u "UTILMD"))); (mkLayer (Some (u "SG4")) (u "IDE") (Some (u "24"))); (mkLayer (Some (u "SG8")) (u "SEQ") (Some (u "Z03"))); (mkLayer (Some (u "SG10")) (u "CCI") (Some (u "E13")))] (Some (u "CAV")) (Some (u "7110")) (Some (u "G16"))), STAY);
((mkLine (Some 172251407145437890601040367515358130234%N) (Some (u "SG10")) (Some (u "CAV")) (Some (u "7110")) None (Some (u "G160")) (Some (u "Gaszähler G160")) None None (Some (u "Zählergröße (Gas)")) (Some (620)%Z)), (mkLocation false [(mkLayer None (u "UNH") (Some (u "UTILMD"))); (mkLayer (Some (u "SG4")) (u "IDE") (Some (u "24"))); (mkLayer (Some (u "SG8")) (u "SEQ") (Some (u "Z03"))); (mkLayer (Some (u "SG10")) (u "CCI") (Some (u "E13")))] (Some (u "CAV")) (Some (u "7110")) (Some (u "G160"))), STAY);
((mkLine (Some 76809428762066436530172763435243777414%N) (Some (u "SG10")) (Some (u "CAV")) (Some (u "7110")) None (Some (u "G1600")) (Some (u "Gaszähler G1600")) None None (Some (u "Zählergröße (Gas)")) (Some (621)%Z)), (mkLocation false [(mkLayer None (u "UNH") (Some (u "UTILMD"))); (mkLayer (Some (u "SG4")) (u "IDE") (Some (u "24"))); (mkLayer (Some (u "SG8")) (u "SEQ") (Some (u "Z03"))); (mkLayer (Some (u "SG10")) (u "CCI") (Some (u "E13")))] (Some (u "CAV")) (Some (u "7110")) (Some (u "G1600"))), STAY);
((mkLine (Some 210512529356965928064765545105112604164%N) (Some (u "SG10")) (Some (u "CAV")) (Some (u "7110")) None (Some (u "G16000")) (Some (u "Gaszähler G16000")) None None (Some (u "Zählergröße (Gas)")) (Some (622)%Z)), (mkLocation false [(mkLayer None (u "UNH") (Some (u "UTILMD"))); (mkLayer (Some (u "SG4")) (u "IDE") (Some (u "24"))); (mkLayer (Some (u "SG8")) (u "SEQ") (Some (u "Z03"))); (mkLayer (Some (u "SG10")) (u "CCI") (Some (u "E13")))] (Some (u "CAV")) (Some (u "7110")) (Some (u "G16000"))), STAY);
((mkLine (Some 154801854373439537880007514682670136694%N) (Some (u "SG10")) (Some (u "CAV")) (Some (u "7110")) None (Some (u "Gaszähler G2.5")) (Some (u "G2.5")) None None (Some (u "Zählergröße (Gas)")) (Some (623)%Z)), (mkLocation false [(mkLayer None (u "UNH") (Some (u "UTILMD"))); (mkLayer (Some (u "SG4")) (u "IDE") (Some (u "24"))); (mkLayer (Some (u "SG8")) (u "SEQ") (Some (u "Z03"))); (mkLayer (Some (u "SG10")) (u "CCI") (Some (u "E13")))] (Some (u "CAV")) (Some (u "7110")) (Some (u "Gaszähler G2.5"))), STAY);
((mkLine (Some 47275202464265158176139959091175431569%N) (Some (u "SG10")) (Some (u "CAV")) (Some (u "7110")) None (Some (u "G25")) (Some (u "Gaszähler G25")) None None (Some (u "Zählergröße (Gas)")) (Some (624)%Z)), (mkLocation false [(mkLayer None (u "UNH") (Some (u "UTILMD"))); (mkLayer (Some (u "SG4")) (u "IDE") (Some (u "24"))); (mkLayer (Some (u "SG8")) (u "SEQ") (Some (u "Z03"))); (mkLayer (Some (u "SG10")) (u "CCI") (Some (u "E13")))] (Some (u "CAV")) (Some (u "7110")) (Some (u "G25"))), STAY);
((mkLine (Some 56761656161754346072977537894700213135%N) (Some (u "SG10")) (Some (u "CAV")) (Some (u "7110")) None (Some (u "G250")) (Some (u "Gaszähler G250")) None None (Some (u "Zählergröße (Gas)")) (Some (625)%Z)), (mkLocation false [(mkLayer None (u "UNH") (Some (u "UTILMD"))); (mkLayer (Some (u "SG4")) (u "IDE") (Some (u "24"))); (mkLayer (Some (u "SG8")) (u "SEQ") (Some (u "Z03"))); (mkLayer (Some (u "SG10")) (u "CCI") (Some (u "E13")))] (Some (u "CAV")) (Some (u "7110")) (Some (u "G250"))), STAY);
((mkLine (Some 114569441204057422812443628250073313843%N) (Some (u "SG10")) (Some (u "CAV")) (Some (u "7110")) None (Some (u "G2500")) (Some (u "Gaszähler G2500")) None None (Some (u "Zählergröße (Gas)")) (Some (626)%Z)), (mkLocation false [(mkLayer None (u "UNH") (Some (u "UTILMD"))); (mkLayer (Some (u "SG4")) (u "IDE") (Some (u "24"))); (mkLayer (Some (u "SG8")) (u "SEQ") (Some (u "Z03"))); (mkLayer (Some (u "SG10")) (u "CCI") (Some (u "E13")))] (Some (u "CAV")) (Some (u "7110")) (Some (u "G2500"))), STAY);
((mkLine (Some 294387587170992353413729621094628264295%N) (Some (u "SG10")) (Some (u "CAV")) (Some (u "7110")) None (Some (u "G350")) (Some (u "Gaszähler G350")) None None (Some (u "Zählergröße (Gas)")) (Some (627)%Z)), (mkLocation false [(mkLayer None (u "UNH") (Some (u "UTILMD"))); (mkLayer (Some (u "SG4")) (u "IDE") (Some (u "24"))); (mkLayer (Some (u "SG8")) (u "SEQ") (Some (u "Z03"))); (mkLayer (Some (u "SG10")) (u "CCI") (Some (u "E13")))] (Some (u "CAV")) (Some (u "7110")) (Some (u "G350"))), STAY);
((mkLine (Some 208331412541650860925942272339683137286%N) (Some (u "SG10")) (Some (u "CAV")) (Some (u "7110")) None (Some (u "G4")) (Some (u "Gaszähler G4")) None None (Some (u "Zählergröße (Gas)")) (Some (628)%Z)), (mkLocation false [(mkLayer None (u "UNH") (Some (u "UTILMD"))); (mkLayer (Some (u "SG4")) (u "IDE") (Some (u "24"))); (mkLayer (Some (u "SG8")) (u "SEQ") (Some (u "Z03"))); (mkLayer (Some (u "SG10")) (u "CCI") (Some (u "E13")))] (Some (u "CAV")) (Some (u "7110")) (Some (u "G4"))), STAY);
((mkLine (Some 135044594903020894056622588726217152466%N) (Some (u "SG10")) (Some (u "CAV")) (Some (u "7110")) None (Some (u "G40")) (Some (u "Gaszähler G40")) None None (Some (u "Zählergröße (Gas)")) (Some (629)%Z)), (mkLocation false [(mkLayer None (u "UNH") (Some (u "UTILMD"))); (mkLayer (Some (u "SG4")) (u "IDE") (Some (u "24"))); (mkLayer (Some (u "SG8")) (u "SEQ") (Some (u "Z03"))); (mkLayer (Some (u "SG10")) (u "CCI") (Some (u "E13")))] (Some (u "CAV")) (Some (u "7110")) (Some (u "G40"))), STAY);
((mkLine (Some 70597774664030397075525488946080834460%N) (Some (u "SG10")) (Some (u "CAV")) (Some (u "7110")) None (Some (u "G400")) (Some (u "Gaszähler G400")) None None (Some (u "Zählergröße (Gas)")) (Some (630)%Z)), (mkLocation false [(mkLayer None (u "UNH") (Some (u "UTILMD"))); (mkLayer (Some (u "SG4")) (u "IDE") (Some (u "24"))); (mkLayer (Some (u "SG8")) (u "SEQ") (Some (u "Z03"))); (mkLayer (Some (u "SG10")) (u "CCI") (Some (u "E13")))] (Some (u "CAV")) (Some (u "7110")) (Some (u "G400"))), STAY);
((mkLine (Some 3584940449272433046898170859328915022%N) (Some (u "SG10")) (Some (u "CAV")) (Some (u "7110")) None (Some (u "G4000")) (Some (u "Gaszähler G4000")) None None (Some (u "Zählergröße (Gas)")) (Some (631)%Z)), (mkLocation false [(mkLayer None (u "UNH") (Some (u "UTILMD"))); (mkLayer (Some (u "SG4")) (u "IDE") (Some (u "24"))); (mkLayer (Some (u "SG8")) (u "SEQ") (Some (u "Z03"))); (mkLayer (Some (u "SG10")) (u "CCI") (Some (u "E13")))] (Some (u "CAV")) (Some (u "7110")) (Some (u "G4000"))), STAY);
((mkLine (Some 294128105062567971942788787415598738495%N) (Some (u "SG10")) (Some (u "CAV")) (Some (u "7110")) None (Some (u "G6")) (Some (u "Gaszähler G6")) None None (Some (u "Zählergröße (Gas)")) (Some (632)%Z)), (mkLocation false [(mkLayer None (u "UNH") (Some (u "UTILMD"))); (mkLayer (Some (u "SG4")) (u "IDE") (Some (u "24"))); (mkLayer (Some (u "SG8")) (u "SEQ") (Some (u "Z03"))); (mkLayer (Some (u "SG10")) (u "CCI") (Some (u "E13")))] (Some (u "CAV")) (Some (u "7110")) (Some (u "G6"))), STAY);
((mkLine (Some 306084101973789153601394044552185863145%N) (Some (u "SG10")) (Some (u "CAV")) (Some (u "7110")) None (Some (u "G65")) (Some (u "Gaszähler G65")) None None (Some (u "Zählergröße (Gas)")) (Some (633)%Z)), (mkLocation false [(mkLayer None (u "UNH") (Some (u "UTILMD"))); (mkLayer (Some (u "SG4")) (u "IDE") (Some (u "24"))); (mkLayer (Some (u "SG8")) (u "SEQ") (Some (u "Z03"))); (mkLayer (Some (u "SG10")) (u "CCI") (Some (u "E13")))] (Some (u "CAV")) (Some (u "7110")) (Some (u "G65"))), STAY);
((mkLine (Some 57356488437565774622675243016131663001%N) (Some (u "SG10")) (Some (u "CAV")) (Some (u "7110")) None (Some (u "G650")) (Some (u "Gaszähler G650")) None None (Some (u "Zählergröße (Gas)")) (Some (634)%Z)), (mkLocation false [(mkLayer None (u "UNH") (Some (u "UTILMD"))); (mkLayer (Some (u "SG4")) (u "IDE") (Some (u "24"))); (mkLayer (Some (u "SG8")) (u "SEQ") (Some (u "Z03"))); (mkLayer (Some (u "SG10")) (u "CCI") (Some (u "E13")))] (Some (u "CAV")) (Some (u "7110")) (Some (u "G650"))), STAY);
((mkLine (Some 56436408066712965632209175744071137376%N) (Some (u "SG10")) (Some (u "CAV")) (Some (u "7110")) None (Some (u "G6500")) (Some (u "Gaszähler G6500")) None None (Some (u "Zählergröße (Gas)")) (Some (635)%Z)), (mkLocation false [(mkLayer None (u "UNH") (Some (u "UTILMD"))); (mkLayer (Some (u "SG4")) (u "IDE") (Some (u "24"))); (mkLayer (Some (u "SG8")) (u "SEQ") (Some (u "Z03"))); (mkLayer (Some (u "SG10")) (u "CCI") (Some (u "E13")))] (Some (u "CAV")) (Some (u "7110")) (Some (u "G6500"))), STAY);
((mkLine (Some 251465815511779305142612931799130253445%N) (Some (u "SG10")) None None None None None None None (Some (u "Identifikation / Nummer des Gerätes")) (Some (637)%Z)), (mkLocation false [(mkLayer None (u "UNH") (Some (u "UTILMD"))); (mkLayer (Some (u "SG4")) (u "IDE") (Some (u "24"))); (mkLayer (Some (u "SG8")) (u "SEQ") (Some (u "Z03"))); (mkLayer (Some (u "SG10")) (u "CCI") (Some (u "E13")))] (Some (u "CAV")) None None), STAY);
((mkLine (Some 143871838734936646444815751114906039108%N) (Some (u "SG10")) (Some (u "CAV")) None None None None (Some (u "Muss")) None (Some (u "Identifikation / Nummer des Gerätes")) (Some (638)%Z)), (mkLocation false [(mkLayer None (u "UNH") (Some (u "UTILMD"))); (mkLayer (Some (u "SG4")) (u "IDE") (Some (u "24"))); (mkLayer (Some (u "SG8")) (u "SEQ") (Some (u "Z03"))); (mkLayer (Some (u "SG10")) (u "CCI") (Some (u "E13")))] (Some (u "CAV")) None None), STAY);
((mkLine (Some 169211968135909808006284682073699737579%N) (Some (u "SG10")) (Some (u "CAV")) (Some (u "7111")) None (Some (u "Z30")) (Some (u "Gerätenummer")) (Some (u "X")) None (Some (u "Identifikation / Nummer des Gerätes")) (Some (639)%Z)), (mkLocation false [(mkLayer None (u "UNH") (Some (u "UTILMD"))); (mkLayer (Some (u "SG4")) (u "IDE") (Some (u "24"))); (mkLayer (Some (u "SG8")) (u "SEQ") (Some (u "Z03"))); (mkLayer (Some (u "SG10")) (u "CCI") (Some (u "E13")))] (Some (u "CAV")) (Some (u "7111")) (Some (u "Z30"))), STAY);
((mkLine (Some 257488072212657511195665039672549152873%N) (Some (u "SG10")) (Some (u "CAV")) (Some (u "7110")) None None (Some (u "Gerätenummer")) (Some (u "X")) None (Some (u "Identifikation / Nummer des Gerätes")) (Some (640)%Z)), (mkLocation false [(mkLayer None (u "UNH") (Some (u "UTILMD"))); (mkLayer (Some (u "SG4")) (u "IDE") (Some (u "24"))); (mkLayer (Some (u "SG8")) (u "SEQ") (Some (u "Z03"))); (mkLayer (Some (u "SG10")) (u "CCI") (Some (u "E13")))] (Some (u "CAV")) (Some (u "7110")) None), STAY);
((mkLine (Some 194662168958727601449936815681280230590%N) (Some (u "SG10")) None None None None None None None (Some (u "Registeranzahl")) (Some (642)%Z)), (mkLocation false [(mkLayer None (u "UNH") (Some (u "UTILMD"))); (mkLayer (Some (u "SG4")) (u "IDE") (Some (u "24"))); (mkLayer (Some (u "SG8")) (u "SEQ") (Some (u "Z03"))); (mkLayer (Some (u "SG10")) (u "CCI") (Some (u "E13")))] (Some (u "CAV")) None None), STAY);
((mkLine (Some 208723922775670869915176647206729238477%N) (Some (u "SG10")) (Some (u "CAV")) None None None None None None (Some (u "Registeranzahl")) (Some (643)%Z)), (mkLocation false [(mkLayer None (u "UNH") (Some (u "UTILMD"))); (mkLayer (Some (u "SG4")) (u "IDE") (Some (u "24"))); (mkLayer (Some (u "SG8")) (u "SEQ") (Some (u "Z03"))); (mkLayer (Some (u "SG10")) (u "CCI") (Some (u "E13")))] (Some (u "CAV")) None None), STAY);
((mkLine (Some 180794637587971974049680227570085676577%N) (Some (u "SG10")) (Some (u "CAV")) (Some (u "7111")) None (Some (u "ETZ")) (Some (u "Eintarif")) None None (Some (u "Registeranzahl")) (Some (644)%Z)), (mkLocation false [(mkLayer None (u "UNH") (Some (u "UTILMD"))); (mkLayer (Some (u "SG4")) (u "IDE") (Some (u "24"))); (mkLayer (Some (u "SG8")) (u "SEQ") (Some (u "Z03"))); (mkLayer (Some (u "SG10")) (u "CCI") (Some (u "E13")))] (Some (u "CAV")) (Some (u "7111")) (Some (u "ETZ"))), STAY);
((mkLine (Some 63844093245188092940329093303061248066%N) (Some (u "SG10")) (Some (u "CAV")) (Some (u "7111")) None (Some (u "ZTZ")) (Some (u "Zweitarif")) None None (Some (u "Registeranzahl")) (Some (645)%Z)), (mkLocation false [(mkLayer None (u "UNH") (Some (u "UTILMD"))); (mkLayer (Some (u "SG4")) (u "IDE") (Some (u "24"))); (mkLayer (Some (u "SG8")) (u "SEQ") (Some (u "Z03"))); (mkLayer (Some (u "SG10")) (u "CCI") (Some (u "E13")))] (Some (u "CAV")) (Some (u "7111")) (Some (u "ZTZ"))), STAY);
((mkLine (Some 144218809061565949919108016896543707693%N) (Some (u "SG10")) (Some (u "CAV")) (Some (u "7111")) None (Some (u "NTZ")) (Some (u "Mehrtarif")) None None (Some (u "Registeranzahl")) (Some (646)%Z)), (mkLocation false [(mkLayer None (u "UNH") (Some (u "UTILMD"))); (mkLayer (Some (u "SG4")) (u "IDE") (Some (u "24"))); (mkLayer (Some (u "SG8")) (u "SEQ") (Some (u "Z03"))); (mkLayer (Some (u "SG10")) (u "CCI") (Some (u "E13")))] (Some (u "CAV")) (Some (u "7111")) (Some (u "NTZ"))), STAY);
((mkLine (Some 285548838768590356915908866521840212274%N) (Some (u "SG10")) None None None None None None None (Some (u "Energierichtung")) (Some (648)%Z)), (mkLocation false [(mkLayer None (u "UNH") (Some (u "UTILMD"))); (mkLayer (Some (u "SG4")) (u "IDE") (Some (u "24"))); (mkLayer (Some (u "SG8")) (u "SEQ") (Some (u "Z03"))); (mkLayer (Some (u "SG10")) (u "CCI") (Some (u "E13")))] (Some (u "CAV")) None None), STAY);
((mkLine (Some 144634670889744339917410128741859125993%N) (Some (u "SG10")) (Some (u "CAV")) None None None None None None (Some (u "Energierichtung")) (Some (649)%Z)), (mkLocation false [(mkLayer None (u "UNH") (Some (u "UTILMD"))); (mkLayer (Some (u "SG4")) (u "IDE") (Some (u "24"))); (mkLayer (Some (u "SG8")) (u "SEQ") (Some (u "Z03"))); (mkLayer (Some (u "SG10")) (u "CCI") (Some (u "E13")))] (Some (u "CAV")) None None), STAY);
((mkLine (Some 248776850332460195642446344762003860728%N) (Some (u "SG10")) (Some (u "CAV")) (Some (u "7111")) None (Some (u "ERZ")) (Some (u "Einrichtungszähler")) None None (Some (u "Energierichtung")) (Some (650)%Z)), (mkLocation false [(mkLayer None (u "UNH") (Some (u "UTILMD"))); (mkLayer (Some (u "SG4")) (u "IDE") (Some (u "24"))); (mkLayer (Some (u "SG8")) (u "SEQ") (Some (u "Z03"))); (mkLayer (Some (u "SG10")) (u "CCI") (Some (u "E13")))] (Some (u "CAV")) (Some (u "7111")) (Some (u "ERZ"))), STAY);
((mkLine (Some 218211951446319714061946114253656640863%N) (Some (u "SG10")) (Some (u "CAV")) (Some (u "7111")) None (Some (u "ZRZ")) (Some (u "Zweirichtungszähler")) None None (Some (u "Energierichtung")) (Some (651)%Z)), (mkLocation false [(mkLayer None (u "UNH") (Some (u "UTILMD"))); (mkLayer (Some (u "SG4")) (u "IDE") (Some (u "24"))); (mkLayer (Some (u "SG8")) (u "SEQ") (Some (u "Z03"))); (mkLayer (Some (u "SG10")) (u "CCI") (Some (u "E13")))] (Some (u "CAV")) (Some (u "7111")) (Some (u "ZRZ"))), STAY);
((mkLine (Some 329507428349820338792720312083444889094%N) (Some (u "SG10")) None None None None None None None (Some (u "Fernschaltung der Zähleinrichtung")) (Some (653)%Z)), (mkLocation false [(mkLayer None (u "UNH") (Some (u "UTILMD"))); (mkLayer (Some (u "SG4")) (u "IDE") (Some (u "24"))); (mkLayer (Some (u "SG8")) (u "SEQ") (Some (u "Z03"))); (mkLayer (Some (u "SG10")) (u "CCI") (Some (u "E13")))] (Some (u "CAV")) None None), STAY);
((mkLine (Some 222891402735439277780979543775557410778%N) (Some (u "SG10")) (Some (u "CAV")) None None None None None None (Some (u "Fernschaltung der Zähleinrichtung")) (Some (654)%Z)), (mkLocation false [(mkLayer None (u "UNH") (Some (u "UTILMD"))); (mkLayer (Some (u "SG4")) (u "IDE") (Some (u "24"))); (mkLayer (Some (u "SG8")) (u "SEQ") (Some (u "Z03"))); (mkLayer (Some (u "SG10")) (u "CCI") (Some (u "E13")))] (Some (u "CAV")) None None), STAY);
((mkLine (Some 313067548355485705520453798912582828615%N) (Some (u "SG10")) (Some (u "CAV")) (Some (u "7111")) None (Some (u "Z58")) (Some (u "Fernschaltung derZähleinrichtung")) None None (Some (u "Fernschaltung der Zähleinrichtung")) (Some (655)%Z)), (mkLocation false [(mkLayer None (u "UNH") (Some (u "UTILMD"))); (mkLayer (Some (u "SG4")) (u "IDE") (Some (u "24"))); (mkLayer (Some (u "SG8")) (u "SEQ") (Some (u "Z03"))); (mkLayer (Some (u "SG10")) (u "CCI") (Some (u "E13")))] (Some (u "CAV")) (Some (u "7111")) (Some (u "Z58"))), STAY);
((mkLine (Some 27314055659284317612489957899480241337%N) (Some (u "SG10")) (Some (u "CAV")) (Some (u "7110")) None (Some (u "Z06")) (Some (u "vorhanden")) None None (Some (u "Fernschaltung der Zähleinrichtung")) (Some (656)%Z)), (mkLocation false [(mkLayer None (u "UNH") (Some (u "UTILMD"))); (mkLayer (Some (u "SG4")) (u "IDE") (Some (u "24"))); (mkLayer (Some (u "SG8")) (u "SEQ") (Some (u "Z03"))); (mkLayer (Some (u "SG10")) (u "CCI") (Some (u "E13")))] (Some (u "CAV")) (Some (u "7110")) (Some (u "Z06"))), STAY);
((mkLine (Some 169872171565357303623303364607164551577%N) (Some (u "SG10")) (Some (u "CAV")) (Some (u "7110")) None (Some (u "Z07")) (Some (u "nicht vorhanden")) None None (Some (u "Fernschaltung der Zähleinrichtung")) (Some (657)%Z)), (mkLocation false [(mkLayer None (u "UNH") (Some (u "UTILMD"))); (mkLayer (Some (u "SG4")) (u "IDE") (Some (u "24"))); (mkLayer (Some (u "SG8")) (u "SEQ") (Some (u "Z03"))); (mkLayer (Some (u "SG10")) (u "CCI") (Some (u "E13")))] (Some (u "CAV")) (Some (u "7110")) (Some (u "Z07"))), STAY);
((mkLine (Some 120331911442232155126058210871605965132%N) (Some (u "SG10")) None None None None None None None (Some (u "Art der Volumenerfassung (Gas)")) (Some (659)%Z)), (mkLocation false [(mkLayer None (u "UNH") (Some (u "UTILMD"))); (mkLayer (Some (u "SG4")) (u "IDE") (Some (u "24"))); (mkLayer (Some (u "SG8")) (u "SEQ") (Some (u "Z03"))); (mkLayer (Some (u "SG10")) (u "CCI") (Some (u "E13")))] (Some (u "CAV")) None None), STAY);
((mkLine (Some 84297123408606501446125484241010099737%N) (Some (u "SG10")) (Some (u "CAV")) None None None None None None (Some (u "Art der Volumenerfassung (Gas)")) (Some (660)%Z)), (mkLocation false [(mkLayer None (u "UNH") (Some (u "UTILMD"))); (mkLayer (Some (u "SG4")) (u "IDE") (Some (u "24"))); (mkLayer (Some (u "SG8")) (u "SEQ") (Some (u "Z03"))); (mkLayer (Some (u "SG10")) (u "CCI") (Some (u "E13")))] (Some (u "CAV")) None None), STAY);
((mkLine (Some 50528705772950924924818196540131143186%N) (Some (u "SG10")) (Some (u "CAV")) (Some (u "7111")) None (Some (u "ZC0")) (Some (u "Art derVolumenerfassung")) None None (Some (u "Art der Volumenerfassung (Gas)")) (Some (661)%Z)), (mkLocation false [(mkLayer None (u "UNH") (Some (u "UTILMD"))); (mkLayer (Some (u "SG4")) (u "IDE") (Some (u "24"))); (mkLayer (Some (u "SG8")) (u "SEQ") (Some (u "Z03"))); (mkLayer (Some (u "SG10")) (u "CCI") (Some (u "E13")))] (Some (u "CAV")) (Some (u "7111")) (Some (u "ZC0"))), STAY);
((mkLine (Some 308044994434993922940886348298516290765%N) (Some (u "SG10")) (Some (u "CAV")) (Some (u "7110")) None (Some (u "Z16")) (Some (u "Hochfrequenzsonde")) None None (Some (u "Art der Volumenerfassung (Gas)")) (Some (662)%Z)), (mkLocation false [(mkLayer None (u "UNH") (Some (u "UTILMD"))); (mkLayer (Some (u "SG4")) (u "IDE") (Some (u "24"))); (mkLayer (Some (u "SG8")) (u "SEQ") (Some (u "Z03"))); (mkLayer (Some (u "SG10")) (u "CCI") (Some (u "E13")))] (Some (u "CAV")) (Some (u "7110")) (Some (u "Z16"))), STAY);
((mkLine (Some 172689795661730302686356598395304604880%N) (Some (u "SG10")) None None None None None None None (Some (u "Befestigungsart Zähleinrichtung")) (Some (664)%Z)), (mkLocation false [(mkLayer None (u "UNH") (Some (u "UTILMD"))); (mkLayer (Some (u "SG4")) (u "IDE") (Some (u "24"))); (mkLayer (Some (u "SG8")) (u "SEQ") (Some (u "Z03"))); (mkLayer (Some (u "SG10")) (u "CCI") (Some (u "Z28")))] (Some (u "CCI")) None None), MOVE_TO_NEIGHBOUR_SAME_KEY);
((mkLine (Some 256991322060431702039998811302933293281%N) (Some (u "SG10")) (Some (u "CCI")) None None None None None None (Some (u "Befestigungsart Zähleinrichtung")) (Some (665)%Z)), (mkLocation false [(mkLayer None (u "UNH") (Some (u "UTILMD"))); (mkLayer (Some (u "SG4")) (u "IDE") (Some (u "24"))); (mkLayer (Some (u "SG8")) (u "SEQ") (Some (u "Z03"))); (mkLayer (Some (u "SG10")) (u "CCI") (Some (u "Z28")))] (Some (u "CCI")) None None), STAY);
((mkLine (Some 42291862444898180551448982752606871377%N) (Some (u "SG10")) (Some (u "CCI")) (Some (u "7037")) None (Some (u "Z28")) (Some (u "BefestigungsartZähleinrichtung")) None None (Some (u "Befestigungsart Zähleinrichtung")) (Some (666)%Z)), (mkLocation false [(mkLayer None (u "UNH") (Some (u "UTILMD"))); (mkLayer (Some (u "SG4")) (u "IDE") (Some (u "24"))); (mkLayer (Some (u "SG8")) (u "SEQ") (Some (u "Z03"))); (mkLayer (Some (u "SG10")) (u "CCI") (Some (u "Z28")))] (Some (u "CCI")) (Some (u "7037")) (Some (u "Z28"))), STAY);
((mkLine (Some 298228200837568545455591474518459977085%N) (Some (u "SG10")) None None None None None None None (Some (u "Befestigungsart Zähleinrichtung")) (Some (668)%Z)), (mkLocation false [(mkLayer None (u "UNH") (Some (u "UTILMD"))); (mkLayer (Some (u "SG4")) (u "IDE") (Some (u "24"))); (mkLayer (Some (u "SG8")) (u "SEQ") (Some (u "Z03"))); (mkLayer (Some (u "SG10")) (u "CCI") (Some (u "Z28")))] (Some (u "CAV")) None None), STAY);
((mkLine (Some 79905924165439831775443653416088404894%N) (Some (u "SG10")) (Some (u "CAV")) None None None None None None (Some (u "Befestigungsart Zähleinrichtung")) (Some (669)%Z)), (mkLocation false [(mkLayer None (u "UNH") (Some (u "UTILMD"))); (mkLayer (Some (u "SG4")) (u "IDE") (Some (u "24"))); (mkLayer (Some (u "SG8")) (u "SEQ") (Some (u "Z03"))); (mkLayer (Some (u "SG10")) (u "CCI") (Some (u "Z28")))] (Some (u "CAV")) None None), STAY);
((mkLine (Some 120418341777475826128265361580018458565%N) (Some (u "SG10")) (Some (u "CAV")) (Some (u "7111")) None (Some (u "BKE")) (Some (u "Stecktechnik (Befestigungs- und Kontaktierungseinrichtun g)")) None None (Some (u "Befestigungsart Zähleinrichtung")) (Some (670)%Z)), (mkLocation false [(mkLayer None (u "UNH") (Some (u "UTILMD"))); (mkLayer (Some (u "SG4")) (u "IDE") (Some (u "24"))); (mkLayer (Some (u "SG8")) (u "SEQ") (Some (u "Z03"))); (mkLayer (Some (u "SG10")) (u "CCI") (Some (u "Z28")))] (Some (u "CAV")) (Some (u "7111")) (Some (u "BKE"))), STAY);
((mkLine (Some 311824625088858592990644478575676088313%N) (Some (u "SG10")) (Some (u "CAV")) (Some (u "7111")) None (Some (u "DPA")) (Some (u "3-Dreipunktaufhängung")) None None (Some (u "Befestigungsart Zähleinrichtung")) (Some (671)%Z)), (mkLocation false [(mkLayer None (u "UNH") (Some (u "UTILMD"))); (mkLayer (Some (u "SG4")) (u "IDE") (Some (u "24"))); (mkLayer (Some (u "SG8")) (u "SEQ") (Some (u "Z03"))); (mkLayer (Some (u "SG10")) (u "CCI") (Some (u "Z28")))] (Some (u "CAV")) (Some (u "7111")) (Some (u "DPA"))), STAY);
((mkLine (Some 126293229298473474449021344941715849203%N) (Some (u "SG10")) (Some (u "CAV")) (Some (u "7111")) None (Some (u "HUT")) (Some (u "Hutschiene")) None None (Some (u "Befestigungsart Zähleinrichtung")) (Some (672)%Z)), (mkLocation false [(mkLayer None (u "UNH") (Some (u "UTILMD"))); (mkLayer (Some (u "SG4")) (u "IDE") (Some (u "24"))); (mkLayer (Some (u "SG8")) (u "SEQ") (Some (u "Z03"))); (mkLayer (Some (u "SG10")) (u "CCI") (Some (u "Z28")))] (Some (u "CAV")) (Some (u "7111")) (Some (u "HUT"))), STAY);
((mkLine (Some 87985773807478584664836917520718533138%N) (Some (u "SG10")) (Some (u "CAV")) (Some (u "7111")) None (Some (u "Z31")) (Some (u "Einstutzen-Zähler")) None None (Some (u "Befestigungsart Zähleinrichtung")) (Some (673)%Z)), (mkLocation false [(mkLayer None (u "UNH") (Some (u "UTILMD"))); (mkLayer (Some (u "SG4")) (u "IDE") (Some (u "24"))); (mkLayer (Some (u "SG8")) (u "SEQ") (Some (u "Z03"))); (mkLayer (Some (u "SG10")) (u "CCI") (Some (u "Z28")))] (Some (u "CAV")) (Some (u "7111")) (Some (u "Z31"))), STAY);
((mkLine (Some 10372101929156673389337588698132466680%N) (Some (u "SG10")) (Some (u "CAV")) (Some (u "7111")) None (Some (u "Z32")) (Some (u "Zweistutzen-Zähler")) None None (Some (u "Befestigungsart Zähleinrichtung")) (Some (674)%Z)), (mkLocation false [(mkLayer None (u "UNH") (Some (u "UTILMD"))); (mkLayer (Some (u "SG4")) (u "IDE") (Some (u "24"))); (mkLayer (Some (u "SG8")) (u "SEQ") (Some (u "Z03"))); (mkLayer (Some (u "SG10")) (u "CCI") (Some (u "Z28")))] (Some (u "CAV")) (Some (u "7111")) (Some (u "Z32"))), STAY);
((mkLine (Some 294646140930487426130107117658954830885%N) (Some (u "SG10")) None None None None None None None (Some (u "Messwerterfassung an der Zähleinrichtung")) (Some (676)%Z)), (mkLocation false [(mkLayer None (u "UNH") (Some (u "UTILMD"))); (mkLayer (Some (u "SG4")) (u "IDE") (Some (u "24"))); (mkLayer (Some (u "SG8")) (u "SEQ") (Some (u "Z03"))); (mkLayer (Some (u "SG10")) (u "CCI") (Some (u "E12")))] (Some (u "CCI")) None None), MOVE_TO_NEIGHBOUR_SAME_KEY);
((mkLine (Some 285079740087946200215782801221548084908%N) (Some (u "SG10")) (Some (u "CCI")) None None None None None None (Some (u "Messwerterfassung an der Zähleinrichtung")) (Some (677)%Z)), (mkLocation false [(mkLayer None (u "UNH") (Some (u "UTILMD"))); (mkLayer (Some (u "SG4")) (u "IDE") (Some (u "24"))); (mkLayer (Some (u "SG8")) (u "SEQ") (Some (u "Z03"))); (mkLayer (Some (u "SG10")) (u "CCI") (Some (u "E12")))] (Some (u "CCI")) None None), STAY);
((mkLine (Some 322749778160031047016216144357270113219%N) (Some (u "SG10")) (Some (u "CCI")) (Some (u "7037")) None (Some (u "E12")) (Some (u "Messwerterfassung ander Zähleinrichtung")) None None (Some (u "Messwerterfassung an der Zähleinrichtung")) (Some (678)%Z)), (mkLocation false [(mkLayer None (u "UNH") (Some (u "UTILMD"))); (mkLayer (Some (u "SG4")) (u "IDE") (Some (u "24"))); (mkLayer (Some (u "SG8")) (u "SEQ") (Some (u "Z03"))); (mkLayer (Some (u "SG10")) (u "CCI") (Some (u "E12")))] (Some (u "CCI")) (Some (u "7037")) (Some (u "E12"))), STAY);
((mkLine (Some 241983254618000977144056980019789902253%N) (Some (u "SG10")) None None None None None None None (Some (u "Messwerterfassung an der Zähleinrichtung")) (Some (680)%Z)), (mkLocation false [(mkLayer None (u "UNH") (Some (u "UTILMD"))); (mkLayer (Some (u "SG4")) (u "IDE") (Some (u "24"))); (mkLayer (Some (u "SG8")) (u "SEQ") (Some (u "Z03"))); (mkLayer (Some (u "SG10")) (u "CCI") (Some (u "E12")))] (Some (u "CAV")) None None), STAY);
((mkLine (Some 253875188332913077036449564252111141171%N) (Some (u "SG10")) (Some (u "CAV")) None None None None None None (Some (u "Messwerterfassung an der Zähleinrichtung")) (Some (681)%Z)), (mkLocation false [(mkLayer None (u "UNH") (Some (u "UTILMD"))); (mkLayer (Some (u "SG4")) (u "IDE") (Some (u "24"))); (mkLayer (Some (u "SG8")) (u "SEQ") (Some (u "Z03"))); (mkLayer (Some (u "SG10")) (u "CCI") (Some (u "E12")))] (Some (u "CAV")) None None), STAY);
((mkLine (Some 127365184117828181535246884693314970126%N) (Some (u "SG10")) (Some (u "CAV")) (Some (u "7111")) None (Some (u "AMR")) (Some (u "fernauslesbare Zähler")) None None (Some (u "Messwerterfassung an der Zähleinrichtung")) (Some (682)%Z)), (mkLocation false [(mkLayer None (u "UNH") (Some (u "UTILMD"))); (mkLayer (Some (u "SG4")) (u "IDE") (Some (u "24"))); (mkLayer (Some (u "SG8")) (u "SEQ") (Some (u "Z03"))); (mkLayer (Some (u "SG10")) (u "CCI") (Some (u "E12")))] (Some (u "CAV")) (Some (u "7111")) (Some (u "AMR"))), STAY);
((mkLine (Some 128902741497965029292550262764373912592%N) (Some (u "SG10")) (Some (u "CAV")) (Some (u "7111")) None (Some (u "MMR")) (Some (u "manuell ausgelesene Zähler")) None None (Some (u "Messwerterfassung an der Zähleinrichtung")) (Some (683)%Z)), (mkLocation false [(mkLayer None (u "UNH") (Some (u "UTILMD"))); (mkLayer (Some (u "SG4")) (u "IDE") (Some (u "24"))); (mkLayer (Some (u "SG8")) (u "SEQ") (Some (u "Z03"))); (mkLayer (Some (u "SG10")) (u "CCI") (Some (u "E12")))] (Some (u "CAV")) (Some (u "7111")) (Some (u "MMR"))), STAY);
((mkLine (Some 8161892906263521780588576751479245595%N) (Some (u "SG8")) None None None None None None None (Some (u "Mengenumwerterdaten")) (Some (685)%Z)), (mkLocation false [(mkLayer None (u "UNH") (Some (u "UTILMD"))); (mkLayer (Some (u "SG4")) (u "IDE") (Some (u "24"))); (mkLayer (Some (u "SG8")) (u "SEQ") (Some (u "Z09")))] (Some (u "SEQ")) None None), LEAVE_TO_PARENT_AND_DIVE_INTO_SUB_GROUP);
((mkLine (Some 287472429679549940129089158766455912059%N) (Some (u "SG8")) (Some (u "SEQ")) None None None None None None (Some (u "Mengenumwerterdaten")) (Some (686)%Z)), (mkLocation false [(mkLayer None (u "UNH") (Some (u "UTILMD"))); (mkLayer (Some (u "SG4")) (u "IDE") (Some (u "24"))); (mkLayer (Some (u "SG8")) (u "SEQ") (Some (u "Z09")))] (Some (u "SEQ")) None None), STAY);
((mkLine (Some 228986358081433739053761735365110501853%N) (Some (u "SG8")) (Some (u "SEQ")) (Some (u "1229")) None (Some (u "Z09")) (Some (u "Mengenumwerter-Daten")) None None (Some (u "Mengenumwerterdaten")) (Some (687)%Z)), (mkLocation false [(mkLayer None (u "UNH") (Some (u "UTILMD"))); (mkLayer (Some (u "SG4")) (u "IDE") (Some (u "24"))); (mkLayer (Some (u "SG8")) (u "SEQ") (Some (u "Z09")))] (Some (u "SEQ")) (Some (u "1229")) (Some (u "Z09"))), STAY);
((mkLine (Some 66450660448853969903450214718214758393%N) (Some (u "SG8")) None None None None None None None (Some (u "Referenz auf die Gerätenummer")) (Some (689)%Z)), (mkLocation false [(mkLayer None (u "UNH") (Some (u "UTILMD"))); (mkLayer (Some (u "SG4")) (u "IDE") (Some (u "24"))); (mkLayer (Some (u "SG8")) (u "SEQ") (Some (u "Z09")))] (Some (u "RFF")) None None), STAY);
((mkLine (Some 18040083444073284580445793384275678711%N) (Some (u "SG8")) (Some (u "RFF")) None None None None None None (Some (u "Referenz auf die Gerätenummer")) (Some (690)%Z)), (mkLocation false [(mkLayer None (u "UNH") (Some (u "UTILMD"))); (mkLayer (Some (u "SG4")) (u "IDE") (Some (u "24"))); (mkLayer (Some (u "SG8")) (u "SEQ") (Some (u "Z09")))] (Some (u "RFF")) None None), STAY);
((mkLine (Some 43398512061010092624321958009269642593%N) (Some (u "SG8")) (Some (u "RFF")) (Some (u "1153")) None (Some (u "MG")) (Some (u "Gerätenummer desZählers")) None None (Some (u "Referenz auf die Gerätenummer")) (Some (691)%Z)), (mkLocation false [(mkLayer None (u "UNH") (Some (u "UTILMD"))); (mkLayer (Some (u "SG4")) (u "IDE") (Some (u "24"))); (mkLayer (Some (u "SG8")) (u "SEQ") (Some (u "Z09")))] (Some (u "RFF")) (Some (u "1153")) (Some (u "MG"))), STAY);
((mkLine (Some 45238353219883245538043183316691649291%N) (Some (u "SG8")) (Some (u "RFF")) (Some (u "1154")) None None (Some (u "Gerätenummer")) None None (Some (u "Referenz auf die Gerätenummer")) (Some (692)%Z)), (mkLocation false [(mkLayer None (u "UNH") (Some (u "UTILMD"))); (mkLayer (Some (u "SG4")) (u "IDE") (Some (u "24"))); (mkLayer (Some (u "SG8")) (u "SEQ") (Some (u "Z09")))] (Some (u "RFF")) (Some (u "1154")) None), STAY);
((mkLine (Some 132238639686718909188340593639979288354%N) (Some (u "SG10")) None None None None None None None (Some (u "Mengenumwerter")) (Some (694)%Z)), (mkLocation false [(mkLayer None (u "UNH") (Some (u "UTILMD"))); (mkLayer (Some (u "SG4")) (u "IDE") (Some (u "24"))); (mkLayer (Some (u "SG8")) (u "SEQ") (Some (u "Z09"))); (mkLayer (Some (u "SG10")) (u "CCI") (Some (u "Z64")))] (Some (u "CCI")) None None), DIVE_INTO_SUB_GROUP);
((mkLine (Some 276354362918546851498315599473445735332%N) (Some (u "SG10")) (Some (u "CCI")) None None None None None None (Some (u "Mengenumwerter")) (Some (695)%Z)), (mkLocation false [(mkLayer None (u "UNH") (Some (u "UTILMD"))); (mkLayer (Some (u "SG4")) (u "IDE") (Some (u "24"))); (mkLayer (Some (u "SG8")) (u "SEQ") (Some (u "Z09"))); (mkLayer (Some (u "SG10")) (u "CCI") (Some (u "Z64")))] (Some (u "CCI")) None None), STAY);
((mkLine (Some 68909675302802337485727055226845886676%N) (Some (u "SG10")) (Some (u "CCI")) (Some (u "7037")) None (Some (u "Z64")) (Some (u "Mengenumwerter")) None None (Some (u "Mengenumwerter")) (Some (696)%Z)), (mkLocation false [(mkLayer None (u "UNH") (Some (u "UTILMD"))); (mkLayer (Some (u "SG4")) (u "IDE") (Some (u "24"))); (mkLayer (Some (u "SG8")) (u "SEQ") (Some (u "Z09"))); (mkLayer (Some (u "SG10")) (u "CCI") (Some (u "Z64")))] (Some (u "CCI")) (Some (u "7037")) (Some (u "Z64"))), STAY);
((mkLine (Some 188226804535221196359253395959517431209%N) (Some (u "SG10")) None None None None None None None (Some (u "Identifikation / Nummer des Gerätes")) (Some (698)%Z)), (mkLocation false [(mkLayer None (u "UNH") (Some (u "UTILMD"))); (mkLayer (Some (u "SG4")) (u "IDE") (Some (u "24"))); (mkLayer (Some (u "SG8")) (u "SEQ") (Some (u "Z09"))); (mkLayer (Some (u "SG10")) (u "CCI") (Some (u "Z64")))] (Some (u "CAV")) None None), STAY);
((mkLine (Some 134199281982753183922676461057545242020%N) (Some (u "SG10")) (Some (u "CAV")) None None None None None None (Some (u "Identifikation / Nummer des Gerätes")) (Some (699)%Z)), (mkLocation false [(mkLayer None (u "UNH") (Some (u "UTILMD"))); (mkLayer (Some (u "SG4")) (u "IDE") (Some (u "24"))); (mkLayer (Some (u "SG8")) (u "SEQ") (Some (u "Z09"))); (mkLayer (Some (u "SG10")) (u "CCI") (Some (u "Z64")))] (Some (u "CAV")) None None), STAY);
((mkLine (Some 248336145778790978692671999927783105116%N) (Some (u "SG10")) (Some (u "CAV")) (Some (u "7111")) None (Some (u "Z30")) (Some (u "Gerätenummer")) None None (Some (u "Identifikation / Nummer des Gerätes")) (Some (700)%Z)), (mkLocation false [(mkLayer None (u "UNH") (Some (u "UTILMD"))); (mkLayer (Some (u "SG4")) (u "IDE") (Some (u "24"))); (mkLayer (Some (u "SG8")) (u "SEQ") (Some (u "Z09"))); (mkLayer (Some (u "SG10")) (u "CCI") (Some (u "Z64")))] (Some (u "CAV")) (Some (u "7111")) (Some (u "Z30"))), STAY);
((mkLine (Some 100967463706600367863104437833373309305%N) (Some (u "SG10")) (Some (u "CAV")) (Some (u "7110")) None None (Some (u "Gerätenummer")) None None (Some (u "Identifikation / Nummer des Gerätes")) (Some (701)%Z)), (mkLocation false [(mkLayer None (u "UNH") (Some (u "UTILMD"))); (mkLayer (Some (u "SG4")) (u "IDE") (Some (u "24"))); (mkLayer (Some (u "SG8")) (u "SEQ") (Some (u "Z09"))); (mkLayer (Some (u "SG10")) (u "CCI") (Some (u "Z64")))] (Some (u "CAV")) (Some (u "7110")) None), STAY);
((mkLine (Some 124031898830602954862882402127153751301%N) (Some (u "SG10")) None None None None None None None (Some (u "Mengenumwertertyp")) (Some (703)%Z)), (mkLocation false [(mkLayer None (u "UNH") (Some (u "UTILMD"))); (mkLayer (Some (u "SG4")) (u "IDE") (Some (u "24"))); (mkLayer (Some (u "SG8")) (u "SEQ") (Some (u "Z09"))); (mkLayer (Some (u "SG10")) (u "CCI") (Some (u "Z64")))] (Some (u "CAV")) None None), STAY);
((mkLine (Some 117172235882374388443654303720369229202%N) (Some (u "SG10")) (Some (u "CAV")) None None None None None None (Some (u "Mengenumwertertyp")) (Some (704)%Z)), (mkLocation false [(mkLayer None (u "UNH") (Some (u "UTILMD"))); (mkLayer (Some (u "SG4")) (u "IDE") (Some (u "24"))); (mkLayer (Some (u "SG8")) (u "SEQ") (Some (u "Z09"))); (mkLayer (Some (u "SG10")) (u "CCI") (Some (u "Z64")))] (Some (u "CAV")) None None), STAY);
((mkLine (Some 339700130368951052485642445405842265427%N) (Some (u "SG10")) (Some (u "CAV")) (Some (u "7111")) None (Some (u "DMU")) (Some (u "Dichtemengenumwerter")) None None (Some (u "Mengenumwertertyp")) (Some (705)%Z)), (mkLocation false [(mkLayer None (u "UNH") (Some (u "UTILMD"))); (mkLayer (Some (u "SG4")) (u "IDE") (Some (u "24"))); (mkLayer (Some (u "SG8")) (u "SEQ") (Some (u "Z09"))); (mkLayer (Some (u "SG10")) (u "CCI") (Some (u "Z64")))] (Some (u "CAV")) (Some (u "7111")) (Some (u "DMU"))), STAY);
((mkLine (Some 304852360464324403905838316110919318500%N) (Some (u "SG10")) (Some (u "CAV")) (Some (u "7111")) None (Some (u "TMU")) (Some (u "Temperaturmengenumwe rter")) None None (Some (u "Mengenumwertertyp")) (Some (706)%Z)), (mkLocation false [(mkLayer None (u "UNH") (Some (u "UTILMD"))); (mkLayer (Some (u "SG4")) (u "IDE") (Some (u "24"))); (mkLayer (Some (u "SG8")) (u "SEQ") (Some (u "Z09"))); (mkLayer (Some (u "SG10")) (u "CCI") (Some (u "Z64")))] (Some (u "CAV")) (Some (u "7111")) (Some (u "TMU"))), STAY);
((mkLine (Some 16136954758887789580470776787192897030%N) (Some (u "SG10")) (Some (u "CAV")) (Some (u "7111")) None (Some (u "ZMU")) (Some (u "Zustandsmengenumwert er")) None None (Some (u "Mengenumwertertyp")) (Some (707)%Z)), (mkLocation false [(mkLayer None (u "UNH") (Some (u "UTILMD"))); (mkLayer (Some (u "SG4")) (u "IDE") (Some (u "24"))); (mkLayer (Some (u "SG8")) (u "SEQ") (Some (u "Z09"))); (mkLayer (Some (u "SG10")) (u "CCI") (Some (u "Z64")))] (Some (u "CAV")) (Some (u "7111")) (Some (u "ZMU"))), STAY);
((mkLine (Some 43969980005367532208551377612441312789%N) (Some (u "SG10")) None None None None None None None (Some (u "Art der Volumenerfassung (Gas)")) (Some (709)%Z)), (mkLocation false [(mkLayer None (u "UNH") (Some (u "UTILMD"))); (mkLayer (Some (u "SG4")) (u "IDE") (Some (u "24"))); (mkLayer (Some (u "SG8")) (u "SEQ") (Some (u "Z09"))); (mkLayer (Some (u "SG10")) (u "CCI") (Some (u "Z64")))] (Some (u "CAV")) None None), STAY);
((mkLine (Some 303167840008757434807870392037892710431%N) (Some (u "SG10")) (Some (u "CAV")) None None None None None None (Some (u "Art der Volumenerfassung (Gas)")) (Some (710)%Z)), (mkLocation false [(mkLayer None (u "UNH") (Some (u "UTILMD"))); (mkLayer (Some (u "SG4")) (u "IDE") (Some (u "24"))); (mkLayer (Some (u "SG8")) (u "SEQ") (Some (u "Z09"))); (mkLayer (Some (u "SG10")) (u "CCI") (Some (u "Z64")))] (Some (u "CAV")) None None), STAY);
((mkLine (Some 27880194233424256553836367210853700496%N) (Some (u "SG10")) (Some (u "CAV")) (Some (u "7111")) None (Some (u "ZC0")) (Some (u "Art derVolumenerfassung")) None None (Some (u "Art der Volumenerfassung (Gas)")) (Some (711)%Z)), (mkLocation false [(mkLayer None (u "UNH") (Some (u "UTILMD"))); (mkLayer (Some (u "SG4")) (u "IDE") (Some (u "24"))); (mkLayer (Some (u "SG8")) (u "SEQ") (Some (u "Z09"))); (mkLayer (Some (u "SG10")) (u "CCI") (Some (u "Z64")))] (Some (u "CAV")) (Some (u "7111")) (Some (u "ZC0"))), STAY);
((mkLine (Some 329653363116286176185548728174951084229%N) (Some (u "SG10")) (Some (u "CAV")) (Some (u "7110")) None (Some (u "Z17")) (Some (u "Kennlinienkorrektur")) None None (Some (u "Art der Volumenerfassung (Gas)")) (Some (712)%Z)), (mkLocation false [(mkLayer None (u "UNH") (Some (u "UTILMD"))); (mkLayer (Some (u "SG4")) (u "IDE") (Some (u "24"))); (mkLayer (Some (u "SG8")) (u "SEQ") (Some (u "Z09"))); (mkLayer (Some (u "SG10")) (u "CCI") (Some (u "Z64")))] (Some (u "CAV")) (Some (u "7110")) (Some (u "Z17"))), STAY);
((mkLine (Some 238792712519599387592689964495582590652%N) (Some (u "SG10")) (Some (u "CAV")) (Some (u "7110")) None (Some (u "Z18")) (Some (u "Schleichmengenunterdrü ckung")) None None (Some (u "Art der Volumenerfassung (Gas)")) (Some (713)%Z)), (mkLocation false [(mkLayer None (u "UNH") (Some (u "UTILMD"))); (mkLayer (Some (u "SG4")) (u "IDE") (Some (u "24"))); (mkLayer (Some (u "SG8")) (u "SEQ") (Some (u "Z09"))); (mkLayer (Some (u "SG10")) (u "CCI") (Some (u "Z64")))] (Some (u "CAV")) (Some (u "7110")) (Some (u "Z18"))), STAY);
((mkLine (Some 115289443434887957785986039610035245101%N) (Some (u "SG8")) None None None None None None None (Some (u "OBIS-Daten der Zähleinrichtung / Mengenumwerter")) (Some (715)%Z)), (mkLocation false [(mkLayer None (u "UNH") (Some (u "UTILMD"))); (mkLayer (Some (u "SG4")) (u "IDE") (Some (u "24"))); (mkLayer (Some (u "SG8")) (u "SEQ") (Some (u "Z20")))] (Some (u "SEQ")) None None), LEAVE_TO_PARENT_AND_DIVE_INTO_SUB_GROUP);
((mkLine (Some 322645450790991691574230427531940958295%N) (Some (u "SG8")) (Some (u "SEQ")) None None None None None None (Some (u "OBIS-Daten der Zähleinrichtung / Mengenumwerter")) (Some (716)%Z)), (mkLocation false [(mkLayer None (u "UNH") (Some (u "UTILMD"))); (mkLayer (Some (u "SG4")) (u "IDE") (Some (u "24"))); (mkLayer (Some (u "SG8")) (u "SEQ") (Some (u "Z20")))] (Some (u "SEQ")) None None), STAY);
((mkLine (Some 206985335836444459152688742719661456820%N) (Some (u "SG8")) (Some (u "SEQ")) (Some (u "1229")) None (Some (u "Z20")) (Some (u "OBIS-Daten derZähleinrichtung")) None None (Some (u "OBIS-Daten der Zähleinrichtung / Mengenumwerter")) (Some (717)%Z)), (mkLocation false [(mkLayer None (u "UNH") (Some (u "UTILMD"))); (mkLayer (Some (u "SG4")) (u "IDE") (Some (u "24"))); (mkLayer (Some (u "SG8")) (u "SEQ") (Some (u "Z20")))] (Some (u "SEQ")) (Some (u "1229")) (Some (u "Z20"))), STAY);
((mkLine (Some 290331257362178184116424153314541710143%N) (Some (u "SG8")) None None None None None None None (Some (u "Referenz auf die Gerätenummer")) (Some (719)%Z)), (mkLocation false [(mkLayer None (u "UNH") (Some (u "UTILMD"))); (mkLayer (Some (u "SG4")) (u "IDE") (Some (u "24"))); (mkLayer (Some (u "SG8")) (u "SEQ") (Some (u "Z20")))] (Some (u "RFF")) None None), STAY);
((mkLine (Some 228838505585128813337890735372034022602%N) (Some (u "SG8")) (Some (u "RFF")) None None None None None None (Some (u "Referenz auf die Gerätenummer")) (Some (720)%Z)), (mkLocation false [(mkLayer None (u "UNH") (Some (u "UTILMD"))); (mkLayer (Some (u "SG4")) (u "IDE") (Some (u "24"))); (mkLayer (Some (u "SG8")) (u "SEQ") (Some (u "Z20")))] (Some (u "RFF")) None None), STAY);
((mkLine (Some 275225469417027397357934654015161659145%N) (Some (u "SG8")) (Some (u "RFF")) (Some (u "1153")) None (Some (u "MG")) (Some (u "Gerätenummer des Zählers")) None None (Some (u "Referenz auf die Gerätenummer")) (Some (721)%Z)), (mkLocation false [(mkLayer None (u "UNH") (Some (u "UTILMD"))); (mkLayer (Some (u "SG4")) (u "IDE") (Some (u "24"))); (mkLayer (Some (u "SG8")) (u "SEQ") (Some (u "Z20")))] (Some (u "RFF")) (Some (u "1153")) (Some (u "MG"))), STAY);
((mkLine (Some 312430600107209106109250055060390844769%N) (Some (u "SG8")) (Some (u "RFF")) (Some (u "1153")) None (Some (u "Z11")) (Some (u "Gerätenummer des Mengenumwerters")) None None (Some (u "Referenz auf die Gerätenummer")) (Some (722)%Z)), (mkLocation false [(mkLayer None (u "UNH") (Some (u "UTILMD"))); (mkLayer (Some (u "SG4")) (u "IDE") (Some (u "24"))); (mkLayer (Some (u "SG8")) (u "SEQ") (Some (u "Z20")))] (Some (u "RFF")) (Some (u "1153")) (Some (u "Z11"))), STAY);
((mkLine (Some 170869536915463481198304271716940157844%N) (Some (u "SG8")) (Some (u "RFF")) (Some (u "1153")) None (Some (u "Z14")) (Some (u "Smartmeter-Gateway")) None None (Some (u "Referenz auf die Gerätenummer")) (Some (723)%Z)), (mkLocation false [(mkLayer None (u "UNH") (Some (u "UTILMD"))); (mkLayer (Some (u "SG4")) (u "IDE") (Some (u "24"))); (mkLayer (Some (u "SG8")) (u "SEQ") (Some (u "Z20")))] (Some (u "RFF")) (Some (u "1153")) (Some (u "Z14"))), STAY);
((mkLine (Some 162045244588487501957008372638136859298%N) (Some (u "SG8")) (Some (u "RFF")) (Some (u "1154")) None None (Some (u "Gerätenummer")) None None (Some (u "Referenz auf die Gerätenummer")) (Some (724)%Z)), (mkLocation false [(mkLayer None (u "UNH") (Some (u "UTILMD"))); (mkLayer (Some (u "SG4")) (u "IDE") (Some (u "24"))); (mkLayer (Some (u "SG8")) (u "SEQ") (Some (u "Z20")))] (Some (u "RFF")) (Some (u "1154")) None), STAY);
((mkLine (Some 268815750845270964009628334114970281875%N) (Some (u "SG8")) None None None None None None None (Some (u "Referenz auf die ID einer Marktlokation")) (Some (726)%Z)), (mkLocation false [(mkLayer None (u "UNH") (Some (u "UTILMD"))); (mkLayer (Some (u "SG4")) (u "IDE") (Some (u "24"))); (mkLayer (Some (u "SG8")) (u "SEQ") (Some (u "Z20")))] (Some (u "RFF")) None None), STAY);
((mkLine (Some 279219308796324005454009944315339476129%N) (Some (u "SG8")) (Some (u "RFF")) None None None None None None (Some (u "Referenz auf die ID einer Marktlokation")) (Some (727)%Z)), (mkLocation false [(mkLayer None (u "UNH") (Some (u "UTILMD"))); (mkLayer (Some (u "SG4")) (u "IDE") (Some (u "24"))); (mkLayer (Some (u "SG8")) (u "SEQ") (Some (u "Z20")))] (Some (u "RFF")) None None), STAY);
((mkLine (Some 263503492665101957742922296523555606449%N) (Some (u "SG8")) (Some (u "RFF")) (Some (u "1153")) None (Some (u "Z18")) (Some (u "Marktlokation")) None None (Some (u "Referenz auf die ID einer Marktlokation")) (Some (728)%Z)), (mkLocation false [(mkLayer None (u "UNH") (Some (u "UTILMD"))); (mkLayer (Some (u "SG4")) (u "IDE") (Some (u "24"))); (mkLayer (Some (u "SG8")) (u "SEQ") (Some (u "Z20")))] (Some (u "RFF")) (Some (u "1153")) (Some (u "Z18"))), STAY);
((mkLine (Some 247461538561415383175447760707531319006%N) (Some (u "SG8")) (Some (u "RFF")) (Some (u "1154")) None None (Some (u "ID einer Marktlokation")) None None (Some (u "Referenz auf die ID einer Marktlokation")) (Some (729)%Z)), (mkLocation false [(mkLayer None (u "UNH") (Some (u "UTILMD"))); (mkLayer (Some (u "SG4")) (u "IDE") (Some (u "24"))); (mkLayer (Some (u "SG8")) (u "SEQ") (Some (u "Z20")))] (Some (u "RFF")) (Some (u "1154")) None), STAY);
((mkLine (Some 125147067984173806027635886297265107883%N) (Some (u "SG8")) None None None None None None None (Some (u "Konfigurnations-ID")) (Some (731)%Z)), (mkLocation false [(mkLayer None (u "UNH") (Some (u "UTILMD"))); (mkLayer (Some (u "SG4")) (u "IDE") (Some (u "24"))); (mkLayer (Some (u "SG8")) (u "SEQ") (Some (u "Z20")))] (Some (u "RFF")) None None), STAY);
((mkLine (Some 275998067239410446862536132444525684813%N) (Some (u "SG8")) (Some (u "RFF")) None None None None None None (Some (u "Konfigurnations-ID")) (Some (732)%Z)), (mkLocation false [(mkLayer None (u "UNH") (Some (u "UTILMD"))); (mkLayer (Some (u "SG4")) (u "IDE") (Some (u "24"))); (mkLayer (Some (u "SG8")) (u "SEQ") (Some (u "Z20")))] (Some (u "RFF")) None None), STAY);
((mkLine (Some 132787285288202893070827401369498123745%N) (Some (u "SG8")) (Some (u "RFF")) (Some (u "1153")) None (Some (u "AGK")) (Some (u "Anwendungsreferenznummer")) None None (Some (u "Konfigurnations-ID")) (Some (734)%Z)), (mkLocation false [(mkLayer None (u "UNH") (Some (u "UTILMD"))); (mkLayer (Some (u "SG4")) (u "IDE") (Some (u "24"))); (mkLayer (Some (u "SG8")) (u "SEQ") (Some (u "Z20")))] (Some (u "RFF")) (Some (u "1153")) (Some (u "AGK"))), STAY);
((mkLine (Some 128661645189657623271151895094857795966%N) (Some (u "SG8")) (Some (u "RFF")) (Some (u "1154")) None None (Some (u "Referenz, Identifikation")) None None (Some (u "Konfigurnations-ID")) (Some (735)%Z)), (mkLocation false [(mkLayer None (u "UNH") (Some (u "UTILMD"))); (mkLayer (Some (u "SG4")) (u "IDE") (Some (u "24"))); (mkLayer (Some (u "SG8")) (u "SEQ") (Some (u "Z20")))] (Some (u "RFF")) (Some (u "1154")) None), STAY);
((mkLine (Some 57720419950812757596899903180884992895%N) (Some (u "SG8")) None None None None None None None (Some (u "OBIS-Kennzahl der Zähleinrichtung / Mengenumwerter")) (Some (737)%Z)), (mkLocation false [(mkLayer None (u "UNH") (Some (u "UTILMD"))); (mkLayer (Some (u "SG4")) (u "IDE") (Some (u "24"))); (mkLayer (Some (u "SG8")) (u "SEQ") (Some (u "Z20")))] (Some (u "PIA")) None None), STAY);
((mkLine (Some 77303227588855081552857265934721381691%N) (Some (u "SG8")) (Some (u "PIA")) None None None None None None (Some (u "OBIS-Kennzahl der Zähleinrichtung / Mengenumwerter")) (Some (738)%Z)), (mkLocation false [(mkLayer None (u "UNH") (Some (u "UTILMD"))); (mkLayer (Some (u "SG4")) (u "IDE") (Some (u "24"))); (mkLayer (Some (u "SG8")) (u "SEQ") (Some (u "Z20")))] (Some (u "PIA")) None None), STAY);
((mkLine (Some 8158468788598027032365753530836086522%N) (Some (u "SG8")) (Some (u "PIA")) (Some (u "4347")) None (Some (u "5")) (Some (u "Produktidentifikation")) None None (Some (u "OBIS-Kennzahl der Zähleinrichtung / Mengenumwerter")) (Some (739)%Z)), (mkLocation false [(mkLayer None (u "UNH") (Some (u "UTILMD"))); (mkLayer (Some (u "SG4")) (u "IDE") (Some (u "24"))); (mkLayer (Some (u "SG8")) (u "SEQ") (Some (u "Z20")))] (Some (u "PIA")) (Some (u "4347")) (Some (u "5"))), STAY);
((mkLine (Some 72693690756449533848658356135048815194%N) (Some (u "SG8")) (Some (u "PIA")) (Some (u "7140")) None None (Some (u "OBIS-Kennzahl derZähleinrichtung")) None None (Some (u "OBIS-Kennzahl der Zähleinrichtung / Mengenumwerter")) (Some (740)%Z)), (mkLocation false [(mkLayer None (u "UNH") (Some (u "UTILMD"))); (mkLayer (Some (u "SG4")) (u "IDE") (Some (u "24"))); (mkLayer (Some (u "SG8")) (u "SEQ") (Some (u "Z20")))] (Some (u "PIA")) (Some (u "7140")) None), STAY);
((mkLine (Some 301380328991769990114151535279352045385%N) (Some (u "SG8")) (Some (u "PIA")) (Some (u "7143")) None (Some (u "SRW")) (Some (u "OBIS-Kennzahl")) None None (Some (u "OBIS-Kennzahl der Zähleinrichtung / Mengenumwerter")) (Some (741)%Z)), (mkLocation false [(mkLayer None (u "UNH") (Some (u "UTILMD"))); (mkLayer (Some (u "SG4")) (u "IDE") (Some (u "24"))); (mkLayer (Some (u "SG8")) (u "SEQ") (Some (u "Z20")))] (Some (u "PIA")) (Some (u "7143")) (Some (u "SRW"))), STAY);
((mkLine (Some 253049464408702734029212282560241595427%N) (Some (u "SG10")) None None None None None None None (Some (u "Vor- und Nachkommastellen des Zählwerks")) (Some (743)%Z)), (mkLocation false [(mkLayer None (u "UNH") (Some (u "UTILMD"))); (mkLayer (Some (u "SG4")) (u "IDE") (Some (u "24"))); (mkLayer (Some (u "SG8")) (u "SEQ") (Some (u "Z20"))); (mkLayer (Some (u "SG10")) (u "CCI") (Some (u "11")))] (Some (u "CCI")) None None), DIVE_INTO_SUB_GROUP);
((mkLine (Some 281494074417216024481202860815300653367%N) (Some (u "SG10")) (Some (u "CCI")) None None None None None None (Some (u "Vor- und Nachkommastellen des Zählwerks")) (Some (745)%Z)), (mkLocation false [(mkLayer None (u "UNH") (Some (u "UTILMD"))); (mkLayer (Some (u "SG4")) (u "IDE") (Some (u "24"))); (mkLayer (Some (u "SG8")) (u "SEQ") (Some (u "Z20"))); (mkLayer (Some (u "SG10")) (u "CCI") (Some (u "11")))] (Some (u "CCI")) None None), STAY);
((mkLine (Some 206307847488438666094116376778275802578%N) (Some (u "SG10")) (Some (u "CCI")) (Some (u "7059")) None (Some (u "11")) (Some (u "Produkt")) None None (Some (u "Vor- und Nachkommastellen des Zählwerks")) (Some (746)%Z)), (mkLocation false [(mkLayer None (u "UNH") (Some (u "UTILMD"))); (mkLayer (Some (u "SG4")) (u "IDE") (Some (u "24"))); (mkLayer (Some (u "SG8")) (u "SEQ") (Some (u "Z20"))); (mkLayer (Some (u "SG10")) (u "CCI") (Some (u "11")))] (Some (u "CCI")) (Some (u "7059")) (Some (u "11"))), STAY);
((mkLine (Some 327113795474455931754737828856473801742%N) (Some (u "SG10")) (Some (u "CCI")) (Some (u "7037")) None (Some (u "Z33")) (Some (u "Vor- undNachkommastellen desZählwerkes")) None None (Some (u "Vor- und Nachkommastellen des Zählwerks")) (Some (747)%Z)), (mkLocation false [(mkLayer None (u "UNH") (Some (u "UTILMD"))); (mkLayer (Some (u "SG4")) (u "IDE") (Some (u "24"))); (mkLayer (Some (u "SG8")) (u "SEQ") (Some (u "Z20"))); (mkLayer (Some (u "SG10")) (u "CCI") (Some (u "11")))] (Some (u "CCI")) (Some (u "7037")) (Some (u "Z33"))), STAY);
((mkLine (Some 101509341328028858520771227665038344390%N) (Some (u "SG10")) None None None None None None None (Some (u "Vor- und Nachkommastellen des Zählwerks")) (Some (749)%Z)), (mkLocation false [(mkLayer None (u "UNH") (Some (u "UTILMD"))); (mkLayer (Some (u "SG4")) (u "IDE") (Some (u "24"))); (mkLayer (Some (u "SG8")) (u "SEQ") (Some (u "Z20"))); (mkLayer (Some (u "SG10")) (u "CCI") (Some (u "11")))] (Some (u "CAV")) None None), STAY);
((mkLine (Some 326869560182769840993638478700919382199%N) (Some (u "SG10")) (Some (u "CAV")) None None None None None None (Some (u "Vor- und Nachkommastellen des Zählwerks")) (Some (750)%Z)), (mkLocation false [(mkLayer None (u "UNH") (Some (u "UTILMD"))); (mkLayer (Some (u "SG4")) (u "IDE") (Some (u "24"))); (mkLayer (Some (u "SG8")) (u "SEQ") (Some (u "Z20"))); (mkLayer (Some (u "SG10")) (u "CCI") (Some (u "11")))] (Some (u "CAV")) None None), STAY);
((mkLine (Some 55081720902112451348818675452265531900%N) (Some (u "SG10")) (Some (u "CAV")) (Some (u "7110")) None None (Some (u "Angabe der Vorkommastelle")) None None (Some (u "Vor- und Nachkommastellen des Zählwerks")) (Some (751)%Z)), (mkLocation false [(mkLayer None (u "UNH") (Some (u "UTILMD"))); (mkLayer (Some (u "SG4")) (u "IDE") (Some (u "24"))); (mkLayer (Some (u "SG8")) (u "SEQ") (Some (u "Z20"))); (mkLayer (Some (u "SG10")) (u "CCI") (Some (u "11")))] (Some (u "CAV")) (Some (u "7110")) None), STAY);
((mkLine (Some 42494638458470751154961044491245344962%N) (Some (u "SG10")) (Some (u "CAV")) (Some (u "7110")) None None (Some (u "Angabe der Nachkommastelle")) None None (Some (u "Vor- und Nachkommastellen des Zählwerks")) (Some (752)%Z)), (mkLocation false [(mkLayer None (u "UNH") (Some (u "UTILMD"))); (mkLayer (Some (u "SG4")) (u "IDE") (Some (u "24"))); (mkLayer (Some (u "SG8")) (u "SEQ") (Some (u "Z20"))); (mkLayer (Some (u "SG10")) (u "CCI") (Some (u "11")))] (Some (u "CAV")) (Some (u "7110")) None), STAY);
((mkLine (Some 216112453081006352990703321563260243229%N) (Some (u "SG8")) None None None None None None None (Some (u "Wandlerdaten")) (Some (754)%Z)), (mkLocation false [(mkLayer None (u "UNH") (Some (u "UTILMD"))); (mkLayer (Some (u "SG4")) (u "IDE") (Some (u "24"))); (mkLayer (Some (u "SG8")) (u "SEQ") (Some (u "Z04")))] (Some (u "SEQ")) None None), LEAVE_TO_PARENT_AND_DIVE_INTO_SUB_GROUP);
((mkLine (Some 330356069690720952509058089332390338130%N) (Some (u "SG8")) (Some (u "SEQ")) None None None None None None (Some (u "Wandlerdaten")) (Some (755)%Z)), (mkLocation false [(mkLayer None (u "UNH") (Some (u "UTILMD"))); (mkLayer (Some (u "SG4")) (u "IDE") (Some (u "24"))); (mkLayer (Some (u "SG8")) (u "SEQ") (Some (u "Z04")))] (Some (u "SEQ")) None None), STAY);
((mkLine (Some 263657560174043781411414480529704138503%N) (Some (u "SG8")) (Some (u "SEQ")) (Some (u "1229")) None (Some (u "Z04")) (Some (u "Wandler-Daten")) None None (Some (u "Wandlerdaten")) (Some (756)%Z)), (mkLocation false [(mkLayer None (u "UNH") (Some (u "UTILMD"))); (mkLayer (Some (u "SG4")) (u "IDE") (Some (u "24"))); (mkLayer (Some (u "SG8")) (u "SEQ") (Some (u "Z04")))] (Some (u "SEQ")) (Some (u "1229")) (Some (u "Z04"))), STAY);
((mkLine (Some 254149750326613585854218291968516375161%N) (Some (u "SG8")) None None None None None None None (Some (u "Referenz auf die Gerätenummer")) (Some (758)%Z)), (mkLocation false [(mkLayer None (u "UNH") (Some (u "UTILMD"))); (mkLayer (Some (u "SG4")) (u "IDE") (Some (u "24"))); (mkLayer (Some (u "SG8")) (u "SEQ") (Some (u "Z04")))] (Some (u "RFF")) None None), STAY);
((mkLine (Some 249805479490180447362594145305205773220%N) (Some (u "SG8")) (Some (u "RFF")) None None None None None None (Some (u "Referenz auf die Gerätenummer")) (Some (759)%Z)), (mkLocation false [(mkLayer None (u "UNH") (Some (u "UTILMD"))); (mkLayer (Some (u "SG4")) (u "IDE") (Some (u "24"))); (mkLayer (Some (u "SG8")) (u "SEQ") (Some (u "Z04")))] (Some (u "RFF")) None None), STAY);
((mkLine (Some 65941361035718861466997962828912754126%N) (Some (u "SG8")) (Some (u "RFF")) (Some (u "1153")) None (Some (u "MG")) (Some (u "Gerätenummer desZählers")) None None (Some (u "Referenz auf die Gerätenummer")) (Some (760)%Z)), (mkLocation false [(mkLayer None (u "UNH") (Some (u "UTILMD"))); (mkLayer (Some (u "SG4")) (u "IDE") (Some (u "24"))); (mkLayer (Some (u "SG8")) (u "SEQ") (Some (u "Z04")))] (Some (u "RFF")) (Some (u "1153")) (Some (u "MG"))), STAY);
((mkLine (Some 300616060524777229034559248616400739932%N) (Some (u "SG8")) (Some (u "RFF")) (Some (u "1154")) None None (Some (u "Gerätenummer")) None None (Some (u "Referenz auf die Gerätenummer")) (Some (761)%Z)), (mkLocation false [(mkLayer None (u "UNH") (Some (u "UTILMD"))); (mkLayer (Some (u "SG4")) (u "IDE") (Some (u "24"))); (mkLayer (Some (u "SG8")) (u "SEQ") (Some (u "Z04")))] (Some (u "RFF")) (Some (u "1154")) None), STAY);
((mkLine (Some 46043277786420241252135762471350134235%N) (Some (u "SG10")) None None None None None None None (Some (u "Wandler")) (Some (763)%Z)), (mkLocation false [(mkLayer None (u "UNH") (Some (u "UTILMD"))); (mkLayer (Some (u "SG4")) (u "IDE") (Some (u "24"))); (mkLayer (Some (u "SG8")) (u "SEQ") (Some (u "Z04"))); (mkLayer (Some (u "SG10")) (u "CCI") (Some (u "Z25")))] (Some (u "CCI")) None None), DIVE_INTO_SUB_GROUP);
((mkLine (Some 90777150848955123499586661645483529164%N) (Some (u "SG10")) (Some (u "CCI")) None None None None None None (Some (u "Wandler")) (Some (764)%Z)), (mkLocation false [(mkLayer None (u "UNH") (Some (u "UTILMD"))); (mkLayer (Some (u "SG4")) (u "IDE") (Some (u "24"))); (mkLayer (Some (u "SG8")) (u "SEQ") (Some (u "Z04"))); (mkLayer (Some (u "SG10")) (u "CCI") (Some (u "Z25")))] (Some (u "CCI")) None None), STAY);
((mkLine (Some 30644474384166352565736215660005458543%N) (Some (u "SG10")) (Some (u "CCI")) (Some (u "7037")) None (Some (u "Z25")) (Some (u "Wandler")) None None (Some (u "Wandler")) (Some (765)%Z)), (mkLocation false [(mkLayer None (u "UNH") (Some (u "UTILMD"))); (mkLayer (Some (u "SG4")) (u "IDE") (Some (u "24"))); (mkLayer (Some (u "SG8")) (u "SEQ") (Some (u "Z04"))); (mkLayer (Some (u "SG10")) (u "CCI") (Some (u "Z25")))] (Some (u "CCI")) (Some (u "7037")) (Some (u "Z25"))), STAY);
((mkLine (Some 248856894626347347400586345087653456689%N) (Some (u "SG10")) None None None None None None None (Some (u "Identifikation / Nummer des Gerätes")) (Some (767)%Z)), (mkLocation false [(mkLayer None (u "UNH") (Some (u "UTILMD"))); (mkLayer (Some (u "SG4")) (u "IDE") (Some (u "24"))); (mkLayer (Some (u "SG8")) (u "SEQ") (Some (u "Z04"))); (mkLayer (Some (u "SG10")) (u "CCI") (Some (u "Z25")))] (Some (u "CAV")) None None), STAY);
((mkLine (Some 150859256115058656843222144442095280448%N) (Some (u "SG10")) (Some (u "CAV")) None None None None None None (Some (u "Identifikation / Nummer des Gerätes")) (Some (768)%Z)), (mkLocation false [(mkLayer None (u "UNH") (Some (u "UTILMD"))); (mkLayer (Some (u "SG4")) (u "IDE") (Some (u "24"))); (mkLayer (Some (u "SG8")) (u "SEQ") (Some (u "Z04"))); (mkLayer (Some (u "SG10")) (u "CCI") (Some (u "Z25")))] (Some (u "CAV")) None None), STAY);
((mkLine (Some 44564485926214945359382483661935332310%N) (Some (u "SG10")) (Some (u "CAV")) (Some (u "7111")) None (Some (u "Z30")) (Some (u "Gerätenummer")) None None (Some (u "Identifikation / Nummer des Gerätes")) (Some (770)%Z)), (mkLocation false [(mkLayer None (u "UNH") (Some (u "UTILMD"))); (mkLayer (Some (u "SG4")) (u "IDE") (Some (u "24"))); (mkLayer (Some (u "SG8")) (u "SEQ") (Some (u "Z04"))); (mkLayer (Some (u "SG10")) (u "CCI") (Some (u "Z25")))] (Some (u "CAV")) (Some (u "7111")) (Some (u "Z30"))), STAY);
((mkLine (Some 96798531390610026646104593841353989477%N) (Some (u "SG10")) (Some (u "CAV")) (Some (u "7110")) None None (Some (u "Gerätenummer")) None None (Some (u "Identifikation / Nummer des Gerätes")) (Some (771)%Z)), (mkLocation false [(mkLayer None (u "UNH") (Some (u "UTILMD"))); (mkLayer (Some (u "SG4")) (u "IDE") (Some (u "24"))); (mkLayer (Some (u "SG8")) (u "SEQ") (Some (u "Z04"))); (mkLayer (Some (u "SG10")) (u "CCI") (Some (u "Z25")))] (Some (u "CAV")) (Some (u "7110")) None), STAY);
((mkLine (Some 82040813740721971815443678209482290860%N) (Some (u "SG10")) None None None None None None None (Some (u "Wandlertyp und Faktor")) (Some (773)%Z)), (mkLocation false [(mkLayer None (u "UNH") (Some (u "UTILMD"))); (mkLayer (Some (u "SG4")) (u "IDE") (Some (u "24"))); (mkLayer (Some (u "SG8")) (u "SEQ") (Some (u "Z04"))); (mkLayer (Some (u "SG10")) (u "CCI") (Some (u "Z25")))] (Some (u "CAV")) None None), STAY);
((mkLine (Some 82310581393333288176380725289655152992%N) (Some (u "SG10")) (Some (u "CAV")) None None None None None None (Some (u "Wandlertyp und Faktor")) (Some (774)%Z)), (mkLocation false [(mkLayer None (u "UNH") (Some (u "UTILMD"))); (mkLayer (Some (u "SG4")) (u "IDE") (Some (u "24"))); (mkLayer (Some (u "SG8")) (u "SEQ") (Some (u "Z04"))); (mkLayer (Some (u "SG10")) (u "CCI") (Some (u "Z25")))] (Some (u "CAV")) None None), STAY);
((mkLine (Some 268591057908828230296808421153446739276%N) (Some (u "SG10")) (Some (u "CAV")) (Some (u "7111")) None (Some (u "MIW")) (Some (u "Messwandlersatz Strom")) None None (Some (u "Wandlertyp und Faktor")) (Some (775)%Z)), (mkLocation false [(mkLayer None (u "UNH") (Some (u "UTILMD"))); (mkLayer (Some (u "SG4")) (u "IDE") (Some (u "24"))); (mkLayer (Some (u "SG8")) (u "SEQ") (Some (u "Z04"))); (mkLayer (Some (u "SG10")) (u "CCI") (Some (u "Z25")))] (Some (u "CAV")) (Some (u "7111")) (Some (u "MIW"))), STAY);
((mkLine (Some 268464130391548870973505039778143752666%N) (Some (u "SG10")) (Some (u "CAV")) (Some (u "7111")) None (Some (u "MPW")) (Some (u "Kombimesswandlersatz (Strom und Spannung)")) None None (Some (u "Wandlertyp und Faktor")) (Some (776)%Z)), (mkLocation false [(mkLayer None (u "UNH") (Some (u "UTILMD"))); (mkLayer (Some (u "SG4")) (u "IDE") (Some (u "24"))); (mkLayer (Some (u "SG8")) (u "SEQ") (Some (u "Z04"))); (mkLayer (Some (u "SG10")) (u "CCI") (Some (u "Z25")))] (Some (u "CAV")) (Some (u "7111")) (Some (u "MPW"))), STAY);
((mkLine (Some 130081411124132659466348918812862105511%N) (Some (u "SG10")) (Some (u "CAV")) (Some (u "7111")) None (Some (u "MBW")) (Some (u "Blockstromwandler")) None None (Some (u "Wandlertyp und Faktor")) (Some (777)%Z)), (mkLocation false [(mkLayer None (u "UNH") (Some (u "UTILMD"))); (mkLayer (Some (u "SG4")) (u "IDE") (Some (u "24"))); (mkLayer (Some (u "SG8")) (u "SEQ") (Some (u "Z04"))); (mkLayer (Some (u "SG10")) (u "CCI") (Some (u "Z25")))] (Some (u "CAV")) (Some (u "7111")) (Some (u "MBW"))), STAY);
((mkLine (Some 325759232710358108425872884880141258040%N) (Some (u "SG10")) (Some (u "CAV")) (Some (u "7111")) None (Some (u "MUW")) (Some (u "Messwandlersatz Spannung")) None None (Some (u "Wandlertyp und Faktor")) (Some (778)%Z)), (mkLocation false [(mkLayer None (u "UNH") (Some (u "UTILMD"))); (mkLayer (Some (u "SG4")) (u "IDE") (Some (u "24"))); (mkLayer (Some (u "SG8")) (u "SEQ") (Some (u "Z04"))); (mkLayer (Some (u "SG10")) (u "CCI") (Some (u "Z25")))] (Some (u "CAV")) (Some (u "7111")) (Some (u "MUW"))), STAY);
((mkLine (Some 245238784785107411452498428071873234899%N) (Some (u "SG10")) (Some (u "CAV")) (Some (u "7110")) None None (Some (u "Wandlerfaktor")) None None (Some (u "Wandlertyp und Faktor")) (Some (779)%Z)), (mkLocation false [(mkLayer None (u "UNH") (Some (u "UTILMD"))); (mkLayer (Some (u "SG4")) (u "IDE") (Some (u "24"))); (mkLayer (Some (u "SG8")) (u "SEQ") (Some (u "Z04"))); (mkLayer (Some (u "SG10")) (u "CCI") (Some (u "Z25")))] (Some (u "CAV")) (Some (u "7110")) None), STAY);
((mkLine (Some 221067574081048245735499046047342773247%N) (Some (u "SG8")) None None None None None None None (Some (u "Kommunikationseinrichtung sdaten")) (Some (781)%Z)), (mkLocation false [(mkLayer None (u "UNH") (Some (u "UTILMD"))); (mkLayer (Some (u "SG4")) (u "IDE") (Some (u "24"))); (mkLayer (Some (u "SG8")) (u "SEQ") (Some (u "Z05")))] (Some (u "SEQ")) None None), LEAVE_TO_PARENT_AND_DIVE_INTO_SUB_GROUP);
((mkLine (Some 194427836796030081329262349167530167013%N) (Some (u "SG8")) (Some (u "SEQ")) None None None None None None (Some (u "Kommunikationseinrichtung sdaten")) (Some (782)%Z)), (mkLocation false [(mkLayer None (u "UNH") (Some (u "UTILMD"))); (mkLayer (Some (u "SG4")) (u "IDE") (Some (u "24"))); (mkLayer (Some (u "SG8")) (u "SEQ") (Some (u "Z05")))] (Some (u "SEQ")) None None), STAY);
((mkLine (Some 47477462346627032274675075230133547004%N) (Some (u "SG8")) (Some (u "SEQ")) (Some (u "1229")) None (Some (u "Z05")) (Some (u "Kommunikationseinrichtungsdaten")) None None (Some (u "Kommunikationseinrichtung sdaten")) (Some (783)%Z)), (mkLocation false [(mkLayer None (u "UNH") (Some (u "UTILMD"))); (mkLayer (Some (u "SG4")) (u "IDE") (Some (u "24"))); (mkLayer (Some (u "SG8")) (u "SEQ") (Some (u "Z05")))] (Some (u "SEQ")) (Some (u "1229")) (Some (u "Z05"))), STAY);
((mkLine (Some 79124545893939787719856580108823860401%N) (Some (u "SG8")) None None None None None None None (Some (u "Referenz auf die Gerätenummer")) (Some (785)%Z)), (mkLocation false [(mkLayer None (u "UNH") (Some (u "UTILMD"))); (mkLayer (Some (u "SG4")) (u "IDE") (Some (u "24"))); (mkLayer (Some (u "SG8")) (u "SEQ") (Some (u "Z05")))] (Some (u "RFF")) None None), STAY);
((mkLine (Some 801854008197984882624225561218957830%N) (Some (u "SG8")) (Some (u "RFF")) None None None None None None (Some (u "Referenz auf die Gerätenummer")) (Some (786)%Z)), (mkLocation false [(mkLayer None (u "UNH") (Some (u "UTILMD"))); (mkLayer (Some (u "SG4")) (u "IDE") (Some (u "24"))); (mkLayer (Some (u "SG8")) (u "SEQ") (Some (u "Z05")))] (Some (u "RFF")) None None), STAY);
((mkLine (Some 275847339522908271138339987798775522876%N) (Some (u "SG8")) (Some (u "RFF")) (Some (u "1153")) None (Some (u "MG")) (Some (u "Gerätenummer desZählers")) None None (Some (u "Referenz auf die Gerätenummer")) (Some (787)%Z)), (mkLocation false [(mkLayer None (u "UNH") (Some (u "UTILMD"))); (mkLayer (Some (u "SG4")) (u "IDE") (Some (u "24"))); (mkLayer (Some (u "SG8")) (u "SEQ") (Some (u "Z05")))] (Some (u "RFF")) (Some (u "1153")) (Some (u "MG"))), STAY);
((mkLine (Some 308932877973897506956606998265740721247%N) (Some (u "SG8")) (Some (u "RFF")) (Some (u "1154")) None None (Some (u "Gerätenummer")) None None (Some (u "Referenz auf die Gerätenummer")) (Some (788)%Z)), (mkLocation false [(mkLayer None (u "UNH") (Some (u "UTILMD"))); (mkLayer (Some (u "SG4")) (u "IDE") (Some (u "24"))); (mkLayer (Some (u "SG8")) (u "SEQ") (Some (u "Z05")))] (Some (u "RFF")) (Some (u "1154")) None), STAY);
((mkLine (Some 17801326363184463601554082837612752231%N) (Some (u "SG10")) None None None None None None None (Some (u "Kommunikationseinrichtung")) (Some (790)%Z)), (mkLocation false [(mkLayer None (u "UNH") (Some (u "UTILMD"))); (mkLayer (Some (u "SG4")) (u "IDE") (Some (u "24"))); (mkLayer (Some (u "SG8")) (u "SEQ") (Some (u "Z05"))); (mkLayer (Some (u "SG10")) (u "CCI") (Some (u "Z26")))] (Some (u "CCI")) None None), DIVE_INTO_SUB_GROUP);
((mkLine (Some 230183507090250083086648386620440176929%N) (Some (u "SG10")) (Some (u "CCI")) None None None None None None (Some (u "Kommunikationseinrichtung")) (Some (791)%Z)), (mkLocation false [(mkLayer None (u "UNH") (Some (u "UTILMD"))); (mkLayer (Some (u "SG4")) (u "IDE") (Some (u "24"))); (mkLayer (Some (u "SG8")) (u "SEQ") (Some (u "Z05"))); (mkLayer (Some (u "SG10")) (u "CCI") (Some (u "Z26")))] (Some (u "CCI")) None None), STAY);
((mkLine (Some 334301930238013199315489688804127199551%N) (Some (u "SG10")) (Some (u "CCI")) (Some (u "7037")) None (Some (u "Z26")) (Some (u "Kommunikationseinrichtung")) None None (Some (u "Kommunikationseinrichtung")) (Some (792)%Z)), (mkLocation false [(mkLayer None (u "UNH") (Some (u "UTILMD"))); (mkLayer (Some (u "SG4")) (u "IDE") (Some (u "24"))); (mkLayer (Some (u "SG8")) (u "SEQ") (Some (u "Z05"))); (mkLayer (Some (u "SG10")) (u "CCI") (Some (u "Z26")))] (Some (u "CCI")) (Some (u "7037")) (Some (u "Z26"))), STAY);
((mkLine (Some 32719928122440426072025629712035182959%N) (Some (u "SG10")) None None None None None None None (Some (u "Identifikation / Nummer des Gerätes")) (Some (794)%Z)), (mkLocation false [(mkLayer None (u "UNH") (Some (u "UTILMD"))); (mkLayer (Some (u "SG4")) (u "IDE") (Some (u "24"))); (mkLayer (Some (u "SG8")) (u "SEQ") (Some (u "Z05"))); (mkLayer (Some (u "SG10")) (u "CCI") (Some (u "Z26")))] (Some (u "CAV")) None None), STAY);
((mkLine (Some 58018771341134048745421043299228557552%N) (Some (u "SG10")) (Some (u "CAV")) None None None None None None (Some (u "Identifikation / Nummer des Gerätes")) (Some (795)%Z)), (mkLocation false [(mkLayer None (u "UNH") (Some (u "UTILMD"))); (mkLayer (Some (u "SG4")) (u "IDE") (Some (u "24"))); (mkLayer (Some (u "SG8")) (u "SEQ") (Some (u "Z05"))); (mkLayer (Some (u "SG10")) (u "CCI") (Some (u "Z26")))] (Some (u "CAV")) None None), STAY);
((mkLine (Some 284476567068811913105107794053819985690%N) (Some (u "SG10")) (Some (u "CAV")) (Some (u "7111")) None (Some (u "Z30")) (Some (u "Gerätenummer")) None None (Some (u "Identifikation / Nummer des Gerätes")) (Some (796)%Z)), (mkLocation false [(mkLayer None (u "UNH") (Some (u "UTILMD"))); (mkLayer (Some (u "SG4")) (u "IDE") (Some (u "24"))); (mkLayer (Some (u "SG8")) (u "SEQ") (Some (u "Z05"))); (mkLayer (Some (u "SG10")) (u "CCI") (Some (u "Z26")))] (Some (u "CAV")) (Some (u "7111")) (Some (u "Z30"))), STAY);
((mkLine (Some 194133095156473860604277606492114531442%N) (Some (u "SG10")) (Some (u "CAV")) (Some (u "7110")) None None (Some (u "Gerätenummer")) None None (Some (u "Identifikation / Nummer des Gerätes")) (Some (797)%Z)), (mkLocation false [(mkLayer None (u "UNH") (Some (u "UTILMD"))); (mkLayer (Some (u "SG4")) (u "IDE") (Some (u "24"))); (mkLayer (Some (u "SG8")) (u "SEQ") (Some (u "Z05"))); (mkLayer (Some (u "SG10")) (u "CCI") (Some (u "Z26")))] (Some (u "CAV")) (Some (u "7110")) None), STAY);
((mkLine (Some 189703009540418600746173130593909606557%N) (Some (u "SG10")) None None None None None None None (Some (u "Kommunikationseinrichtung styp")) (Some (799)%Z)), (mkLocation false [(mkLayer None (u "UNH") (Some (u "UTILMD"))); (mkLayer (Some (u "SG4")) (u "IDE") (Some (u "24"))); (mkLayer (Some (u "SG8")) (u "SEQ") (Some (u "Z05"))); (mkLayer (Some (u "SG10")) (u "CCI") (Some (u "Z26")))] (Some (u "CAV")) None None), STAY);
((mkLine (Some 38823122439351913127965313735638664769%N) (Some (u "SG10")) (Some (u "CAV")) None None None None None None (Some (u "Kommunikationseinrichtung styp")) (Some (800)%Z)), (mkLocation false [(mkLayer None (u "UNH") (Some (u "UTILMD"))); (mkLayer (Some (u "SG4")) (u "IDE") (Some (u "24"))); (mkLayer (Some (u "SG8")) (u "SEQ") (Some (u "Z05"))); (mkLayer (Some (u "SG10")) (u "CCI") (Some (u "Z26")))] (Some (u "CAV")) None None), STAY);
((mkLine (Some 72975399145353617288311621571957874606%N) (Some (u "SG10")) (Some (u "CAV")) (Some (u "7111")) None (Some (u "GSM")) (Some (u "GSM/GPRS/UMTS- Kom.-Einr.")) None None (Some (u "Kommunikationseinrichtung styp")) (Some (801)%Z)), (mkLocation false [(mkLayer None (u "UNH") (Some (u "UTILMD"))); (mkLayer (Some (u "SG4")) (u "IDE") (Some (u "24"))); (mkLayer (Some (u "SG8")) (u "SEQ") (Some (u "Z05"))); (mkLayer (Some (u "SG10")) (u "CCI") (Some (u "Z26")))] (Some (u "CAV")) (Some (u "7111")) (Some (u "GSM"))), STAY);
((mkLine (Some 32703609461085024291002111142401280698%N) (Some (u "SG10")) (Some (u "CAV")) (Some (u "7111")) None (Some (u "ETH")) (Some (u "Ethernet-Kom.-Einricht. LAN/WLAN")) None None (Some (u "Kommunikationseinrichtung styp")) (Some (802)%Z)), (mkLocation false [(mkLayer None (u "UNH") (Some (u "UTILMD"))); (mkLayer (Some (u "SG4")) (u "IDE") (Some (u "24"))); (mkLayer (Some (u "SG8")) (u "SEQ") (Some (u "Z05"))); (mkLayer (Some (u "SG10")) (u "CCI") (Some (u "Z26")))] (Some (u "CAV")) (Some (u "7111")) (Some (u "ETH"))), STAY);
((mkLine (Some 335417709995302713861867346343589889187%N) (Some (u "SG10")) (Some (u "CAV")) (Some (u "7111")) None (Some (u "PLC")) (Some (u "PLC-Kom.-Einrichtung")) None None (Some (u "Kommunikationseinrichtung styp")) (Some (803)%Z)), (mkLocation false [(mkLayer None (u "UNH") (Some (u "UTILMD"))); (mkLayer (Some (u "SG4")) (u "IDE") (Some (u "24"))); (mkLayer (Some (u "SG8")) (u "SEQ") (Some (u "Z05"))); (mkLayer (Some (u "SG10")) (u "CCI") (Some (u "Z26")))] (Some (u "CAV")) (Some (u "7111")) (Some (u "PLC"))), STAY);
((mkLine (Some 40469507919807889531564112492424098627%N) (Some (u "SG10")) (Some (u "CAV")) (Some (u "7111")) None (Some (u "PST")) (Some (u "Festnetz-Kom.-Einricht. TAE")) None None (Some (u "Kommunikationseinrichtung styp")) (Some (804)%Z)), (mkLocation false [(mkLayer None (u "UNH") (Some (u "UTILMD"))); (mkLayer (Some (u "SG4")) (u "IDE") (Some (u "24"))); (mkLayer (Some (u "SG8")) (u "SEQ") (Some (u "Z05"))); (mkLayer (Some (u "SG10")) (u "CCI") (Some (u "Z26")))] (Some (u "CAV")) (Some (u "7111")) (Some (u "PST"))), STAY);
((mkLine (Some 139394074695948626520713447963228291580%N) (Some (u "SG10")) (Some (u "CAV")) (Some (u "7111")) None (Some (u "DSL")) (Some (u "DSL-Kom.Einr.")) None None (Some (u "Kommunikationseinrichtung styp")) (Some (805)%Z)), (mkLocation false [(mkLayer None (u "UNH") (Some (u "UTILMD"))); (mkLayer (Some (u "SG4")) (u "IDE") (Some (u "24"))); (mkLayer (Some (u "SG8")) (u "SEQ") (Some (u "Z05"))); (mkLayer (Some (u "SG10")) (u "CCI") (Some (u "Z26")))] (Some (u "CAV")) (Some (u "7111")) (Some (u "DSL"))), STAY);
((mkLine (Some 309715378710509594244973788204726530542%N) (Some (u "SG10")) (Some (u "CAV")) (Some (u "7111")) None (Some (u "LTE")) (Some (u "LTE-Kom.-Einr.")) None None (Some (u "Kommunikationseinrichtung styp")) (Some (806)%Z)), (mkLocation false [(mkLayer None (u "UNH") (Some (u "UTILMD"))); (mkLayer (Some (u "SG4")) (u "IDE") (Some (u "24"))); (mkLayer (Some (u "SG8")) (u "SEQ") (Some (u "Z05"))); (mkLayer (Some (u "SG10")) (u "CCI") (Some (u "Z26")))] (Some (u "CAV")) (Some (u "7111")) (Some (u "LTE"))), STAY);
((mkLine (Some 132006002570659036208569952759474564788%N) (Some (u "SG8")) None None None None None None None (Some (u "Daten der technischen Steuereinrichtung")) (Some (808)%Z)), (mkLocation false [(mkLayer None (u "UNH") (Some (u "UTILMD"))); (mkLayer (Some (u "SG4")) (u "IDE") (Some (u "24"))); (mkLayer (Some (u "SG8")) (u "SEQ") (Some (u "Z06")))] (Some (u "SEQ")) None None), LEAVE_TO_PARENT_AND_DIVE_INTO_SUB_GROUP);
((mkLine (Some 44755159166659047970226193966470793663%N) (Some (u "SG8")) (Some (u "SEQ")) None None None None None None (Some (u "Daten der technischen Steuereinrichtung")) (Some (809)%Z)), (mkLocation false [(mkLayer None (u "UNH") (Some (u "UTILMD"))); (mkLayer (Some (u "SG4")) (u "IDE") (Some (u "24"))); (mkLayer (Some (u "SG8")) (u "SEQ") (Some (u "Z06")))] (Some (u "SEQ")) None None), STAY);
((mkLine (Some 102199508315075330243715215212257647206%N) (Some (u "SG8")) (Some (u "SEQ")) (Some (u "1229")) None (Some (u "Z06")) (Some (u "Daten der technischenSteuereinrichtung")) None None (Some (u "Daten der technischen Steuereinrichtung")) (Some (810)%Z)), (mkLocation false [(mkLayer None (u "UNH") (Some (u "UTILMD"))); (mkLayer (Some (u "SG4")) (u "IDE") (Some (u "24"))); (mkLayer (Some (u "SG8")) (u "SEQ") (Some (u "Z06")))] (Some (u "SEQ")) (Some (u "1229")) (Some (u "Z06"))), STAY);
((mkLine (Some 136193500228585549272233500151572172821%N) (Some (u "SG8")) None None None None None None None (Some (u "Referenz auf die Gerätenummer")) (Some (812)%Z)), (mkLocation false [(mkLayer None (u "UNH") (Some (u "UTILMD"))); (mkLayer (Some (u "SG4")) (u "IDE") (Some (u "24"))); (mkLayer (Some (u "SG8")) (u "SEQ") (Some (u "Z06")))] (Some (u "RFF")) None None), STAY);
((mkLine (Some 13584922670552690775610172005164232652%N) (Some (u "SG8")) (Some (u "RFF")) None None None None None None (Some (u "Referenz auf die Gerätenummer")) (Some (813)%Z)), (mkLocation false [(mkLayer None (u "UNH") (Some (u "UTILMD"))); (mkLayer (Some (u "SG4")) (u "IDE") (Some (u "24"))); (mkLayer (Some (u "SG8")) (u "SEQ") (Some (u "Z06")))] (Some (u "RFF")) None None), STAY);
((mkLine (Some 194303468396419679265786421729873124866%N) (Some (u "SG8")) (Some (u "RFF")) (Some (u "1153")) None (Some (u "MG")) (Some (u "Gerätenummer desZählers")) None None (Some (u "Referenz auf die Gerätenummer")) (Some (814)%Z)), (mkLocation false [(mkLayer None (u "UNH") (Some (u "UTILMD"))); (mkLayer (Some (u "SG4")) (u "IDE") (Some (u "24"))); (mkLayer (Some (u "SG8")) (u "SEQ") (Some (u "Z06")))] (Some (u "RFF")) (Some (u "1153")) (Some (u "MG"))), STAY);
((mkLine (Some 198560902328644807357501713575374831764%N) (Some (u "SG8")) (Some (u "RFF")) (Some (u "1154")) None None (Some (u "Gerätenummer")) None None (Some (u "Referenz auf die Gerätenummer")) (Some (815)%Z)), (mkLocation false [(mkLayer None (u "UNH") (Some (u "UTILMD"))); (mkLayer (Some (u "SG4")) (u "IDE") (Some (u "24"))); (mkLayer (Some (u "SG8")) (u "SEQ") (Some (u "Z06")))] (Some (u "RFF")) (Some (u "1154")) None), STAY);
((mkLine (Some 187693532508667597230699686251980548456%N) (Some (u "SG10")) None None None None None None None (Some (u "Technische Steuereinrichtung")) (Some (817)%Z)), (mkLocation false [(mkLayer None (u "UNH") (Some (u "UTILMD"))); (mkLayer (Some (u "SG4")) (u "IDE") (Some (u "24"))); (mkLayer (Some (u "SG8")) (u "SEQ") (Some (u "Z06"))); (mkLayer (Some (u "SG10")) (u "CCI") (Some (u "Z27")))] (Some (u "CCI")) None None), DIVE_INTO_SUB_GROUP);
((mkLine (Some 338578223958778095309040386033680254824%N) (Some (u "SG10")) (Some (u "CCI")) None None None None None None (Some (u "Technische Steuereinrichtung")) (Some (818)%Z)), (mkLocation false [(mkLayer None (u "UNH") (Some (u "UTILMD"))); (mkLayer (Some (u "SG4")) (u "IDE") (Some (u "24"))); (mkLayer (Some (u "SG8")) (u "SEQ") (Some (u "Z06"))); (mkLayer (Some (u "SG10")) (u "CCI") (Some (u "Z27")))] (Some (u "CCI")) None None), STAY);
((mkLine (Some 135974805211444513386590160255885305438%N) (Some (u "SG10")) (Some (u "CCI")) (Some (u "7037")) None (Some (u "Z27")) (Some (u "TechnischeSteuereinrichtung")) None None (Some (u "Technische Steuereinrichtung")) (Some (819)%Z)), (mkLocation false [(mkLayer None (u "UNH") (Some (u "UTILMD"))); (mkLayer (Some (u "SG4")) (u "IDE") (Some (u "24"))); (mkLayer (Some (u "SG8")) (u "SEQ") (Some (u "Z06"))); (mkLayer (Some (u "SG10")) (u "CCI") (Some (u "Z27")))] (Some (u "CCI")) (Some (u "7037")) (Some (u "Z27"))), STAY);
((mkLine (Some 48024564304222819523890395922821458132%N) (Some (u "SG10")) None None None None None None None (Some (u "Identifikation / Nummer des Gerätes")) (Some (821)%Z)), (mkLocation false [(mkLayer None (u "UNH") (Some (u "UTILMD"))); (mkLayer (Some (u "SG4")) (u "IDE") (Some (u "24"))); (mkLayer (Some (u "SG8")) (u "SEQ") (Some (u "Z06"))); (mkLayer (Some (u "SG10")) (u "CCI") (Some (u "Z27")))] (Some (u "CAV")) None None), STAY);
((mkLine (Some 63389906263408534428795685821075822938%N) (Some (u "SG10")) (Some (u "CAV")) None None None None None None (Some (u "Identifikation / Nummer des Gerätes")) (Some (822)%Z)), (mkLocation false [(mkLayer None (u "UNH") (Some (u "UTILMD"))); (mkLayer (Some (u "SG4")) (u "IDE") (Some (u "24"))); (mkLayer (Some (u "SG8")) (u "SEQ") (Some (u "Z06"))); (mkLayer (Some (u "SG10")) (u "CCI") (Some (u "Z27")))] (Some (u "CAV")) None None), STAY);
((mkLine (Some 44286165228426325704858379921055234010%N) (Some (u "SG10")) (Some (u "CAV")) (Some (u "7111")) None (Some (u "Z30")) (Some (u "Gerätenummer")) None None (Some (u "Identifikation / Nummer des Gerätes")) (Some (823)%Z)), (mkLocation false [(mkLayer None (u "UNH") (Some (u "UTILMD"))); (mkLayer (Some (u "SG4")) (u "IDE") (Some (u "24"))); (mkLayer (Some (u "SG8")) (u "SEQ") (Some (u "Z06"))); (mkLayer (Some (u "SG10")) (u "CCI") (Some (u "Z27")))] (Some (u "CAV")) (Some (u "7111")) (Some (u "Z30"))), STAY);
((mkLine (Some 72025325365759726486670668426827596271%N) (Some (u "SG10")) (Some (u "CAV")) (Some (u "7110")) None None (Some (u "Gerätenummer")) None None (Some (u "Identifikation / Nummer des Gerätes")) (Some (824)%Z)), (mkLocation false [(mkLayer None (u "UNH") (Some (u "UTILMD"))); (mkLayer (Some (u "SG4")) (u "IDE") (Some (u "24"))); (mkLayer (Some (u "SG8")) (u "SEQ") (Some (u "Z06"))); (mkLayer (Some (u "SG10")) (u "CCI") (Some (u "Z27")))] (Some (u "CAV")) (Some (u "7110")) None), STAY);
((mkLine (Some 218539858477908441944342540681136455061%N) (Some (u "SG10")) None None None None None None None (Some (u "Technische Steuereinrichtungstyp")) (Some (826)%Z)), (mkLocation false [(mkLayer None (u "UNH") (Some (u "UTILMD"))); (mkLayer (Some (u "SG4")) (u "IDE") (Some (u "24"))); (mkLayer (Some (u "SG8")) (u "SEQ") (Some (u "Z06"))); (mkLayer (Some (u "SG10")) (u "CCI") (Some (u "Z27")))] (Some (u "CAV")) None None), STAY);
((mkLine (Some 293424788449178798316949371721512133518%N) (Some (u "SG10")) (Some (u "CAV")) None None None None None None (Some (u "Technische Steuereinrichtungstyp")) (Some (827)%Z)), (mkLocation false [(mkLayer None (u "UNH") (Some (u "UTILMD"))); (mkLayer (Some (u "SG4")) (u "IDE") (Some (u "24"))); (mkLayer (Some (u "SG8")) (u "SEQ") (Some (u "Z06"))); (mkLayer (Some (u "SG10")) (u "CCI") (Some (u "Z27")))] (Some (u "CAV")) None None), STAY);
((mkLine (Some 334577918984704657043789237071180457406%N) (Some (u "SG10")) (Some (u "CAV")) (Some (u "7111")) None (Some (u "RSU")) (Some (u "Rundsteuerempfänger")) None None (Some (u "Technische Steuereinrichtungstyp")) (Some (828)%Z)), (mkLocation false [(mkLayer None (u "UNH") (Some (u "UTILMD"))); (mkLayer (Some (u "SG4")) (u "IDE") (Some (u "24"))); (mkLayer (Some (u "SG8")) (u "SEQ") (Some (u "Z06"))); (mkLayer (Some (u "SG10")) (u "CCI") (Some (u "Z27")))] (Some (u "CAV")) (Some (u "7111")) (Some (u "RSU"))), STAY);
((mkLine (Some 50041411778610431623415326070671643563%N) (Some (u "SG10")) (Some (u "CAV")) (Some (u "7111")) None (Some (u "TSU")) (Some (u "Tarifschaltuhr")) None None (Some (u "Technische Steuereinrichtungstyp")) (Some (829)%Z)), (mkLocation false [(mkLayer None (u "UNH") (Some (u "UTILMD"))); (mkLayer (Some (u "SG4")) (u "IDE") (Some (u "24"))); (mkLayer (Some (u "SG8")) (u "SEQ") (Some (u "Z06"))); (mkLayer (Some (u "SG10")) (u "CCI") (Some (u "Z27")))] (Some (u "CAV")) (Some (u "7111")) (Some (u "TSU"))), STAY);
((mkLine (Some 152198113622679447206542846533013158786%N) (Some (u "SG8")) None None None None None None None (Some (u "Smartmeter-Gateway")) (Some (831)%Z)), (mkLocation false [(mkLayer None (u "UNH") (Some (u "UTILMD"))); (mkLayer (Some (u "SG4")) (u "IDE") (Some (u "24"))); (mkLayer (Some (u "SG8")) (u "SEQ") (Some (u "Z13")))] (Some (u "SEQ")) None None), LEAVE_TO_PARENT_AND_DIVE_INTO_SUB_GROUP);
((mkLine (Some 78489547139108188959377819040843136952%N) (Some (u "SG8")) (Some (u "SEQ")) None None None None None None (Some (u "Smartmeter-Gateway")) (Some (832)%Z)), (mkLocation false [(mkLayer None (u "UNH") (Some (u "UTILMD"))); (mkLayer (Some (u "SG4")) (u "IDE") (Some (u "24"))); (mkLayer (Some (u "SG8")) (u "SEQ") (Some (u "Z13")))] (Some (u "SEQ")) None None), STAY);
((mkLine (Some 73425385407554767664074903960953517856%N) (Some (u "SG8")) (Some (u "SEQ")) (Some (u "1229")) None (Some (u "Z13")) (Some (u "Smartmeter-Gateway")) None None (Some (u "Smartmeter-Gateway")) (Some (833)%Z)), (mkLocation false [(mkLayer None (u "UNH") (Some (u "UTILMD"))); (mkLayer (Some (u "SG4")) (u "IDE") (Some (u "24"))); (mkLayer (Some (u "SG8")) (u "SEQ") (Some (u "Z13")))] (Some (u "SEQ")) (Some (u "1229")) (Some (u "Z13"))), STAY);
((mkLine (Some 225036227868486376976362535910022131077%N) (Some (u "SG10")) None None None None None None None (Some (u "Smartmeter-Gateway")) (Some (835)%Z)), (mkLocation false [(mkLayer None (u "UNH") (Some (u "UTILMD"))); (mkLayer (Some (u "SG4")) (u "IDE") (Some (u "24"))); (mkLayer (Some (u "SG8")) (u "SEQ") (Some (u "Z13"))); (mkLayer (Some (u "SG10")) (u "CCI") (Some (u "Z75")))] (Some (u "CCI")) None None), DIVE_INTO_SUB_GROUP);
((mkLine (Some 156729348487309118179180942842873508241%N) (Some (u "SG10")) (Some (u "CCI")) None None None None None None (Some (u "Smartmeter-Gateway")) (Some (836)%Z)), (mkLocation false [(mkLayer None (u "UNH") (Some (u "UTILMD"))); (mkLayer (Some (u "SG4")) (u "IDE") (Some (u "24"))); (mkLayer (Some (u "SG8")) (u "SEQ") (Some (u "Z13"))); (mkLayer (Some (u "SG10")) (u "CCI") (Some (u "Z75")))] (Some (u "CCI")) None None), STAY);
((mkLine (Some 121309492542772223404919832496073701860%N) (Some (u "SG10")) (Some (u "CCI")) (Some (u "7037")) None (Some (u "Z75")) (Some (u "Smartmeter-Gateway")) None None (Some (u "Smartmeter-Gateway")) (Some (837)%Z)), (mkLocation false [(mkLayer None (u "UNH") (Some (u "UTILMD"))); (mkLayer (Some (u "SG4")) (u "IDE") (Some (u "24"))); (mkLayer (Some (u "SG8")) (u "SEQ") (Some (u "Z13"))); (mkLayer (Some (u "SG10")) (u "CCI") (Some (u "Z75")))] (Some (u "CCI")) (Some (u "7037")) (Some (u "Z75"))), STAY);
((mkLine (Some 282039895011744350554355340642673866241%N) (Some (u "SG10")) None None None None None None None (Some (u "Identifikation / Nummer des Gerätes")) (Some (839)%Z)), (mkLocation false [(mkLayer None (u "UNH") (Some (u "UTILMD"))); (mkLayer (Some (u "SG4")) (u "IDE") (Some (u "24"))); (mkLayer (Some (u "SG8")) (u "SEQ") (Some (u "Z13"))); (mkLayer (Some (u "SG10")) (u "CCI") (Some (u "Z75")))] (Some (u "CAV")) None None), STAY);
((mkLine (Some 30414851610143932139414726669580469600%N) (Some (u "SG10")) (Some (u "CAV")) None None None None None None (Some (u "Identifikation / Nummer des Gerätes")) (Some (840)%Z)), (mkLocation false [(mkLayer None (u "UNH") (Some (u "UTILMD"))); (mkLayer (Some (u "SG4")) (u "IDE") (Some (u "24"))); (mkLayer (Some (u "SG8")) (u "SEQ") (Some (u "Z13"))); (mkLayer (Some (u "SG10")) (u "CCI") (Some (u "Z75")))] (Some (u "CAV")) None None), STAY);
((mkLine (Some 211424530766880043207186512710479705210%N) (Some (u "SG10")) (Some (u "CAV")) (Some (u "7111")) None (Some (u "Z30")) (Some (u "Gerätenummer")) None None (Some (u "Identifikation / Nummer des Gerätes")) (Some (841)%Z)), (mkLocation false [(mkLayer None (u "UNH") (Some (u "UTILMD"))); (mkLayer (Some (u "SG4")) (u "IDE") (Some (u "24"))); (mkLayer (Some (u "SG8")) (u "SEQ") (Some (u "Z13"))); (mkLayer (Some (u "SG10")) (u "CCI") (Some (u "Z75")))] (Some (u "CAV")) (Some (u "7111")) (Some (u "Z30"))), STAY);
((mkLine (Some 58838669755707286385184770878487909507%N) (Some (u "SG10")) (Some (u "CAV")) (Some (u "7110")) None None (Some (u "Gerätenummer")) None None (Some (u "Identifikation / Nummer des Gerätes")) (Some (842)%Z)), (mkLocation false [(mkLayer None (u "UNH") (Some (u "UTILMD"))); (mkLayer (Some (u "SG4")) (u "IDE") (Some (u "24"))); (mkLayer (Some (u "SG8")) (u "SEQ") (Some (u "Z13"))); (mkLayer (Some (u "SG10")) (u "CCI") (Some (u "Z75")))] (Some (u "CAV")) (Some (u "7110")) None), STAY);
((mkLine (Some 171778602500582991610832646767648737020%N) (Some (u "SG8")) None None None None None None None (Some (u "Daten der Steuerbox")) (Some (844)%Z)), (mkLocation false [(mkLayer None (u "UNH") (Some (u "UTILMD"))); (mkLayer (Some (u "SG4")) (u "IDE") (Some (u "24"))); (mkLayer (Some (u "SG8")) (u "SEQ") (Some (u "Z14")))] (Some (u "SEQ")) None None), LEAVE_TO_PARENT_AND_DIVE_INTO_SUB_GROUP);
((mkLine (Some 293989346603218042977229022196817853782%N) (Some (u "SG8")) (Some (u "SEQ")) None None None None None None (Some (u "Daten der Steuerbox")) (Some (845)%Z)), (mkLocation false [(mkLayer None (u "UNH") (Some (u "UTILMD"))); (mkLayer (Some (u "SG4")) (u "IDE") (Some (u "24"))); (mkLayer (Some (u "SG8")) (u "SEQ") (Some (u "Z14")))] (Some (u "SEQ")) None None), STAY);
((mkLine (Some 274168429335533730497103469419285692441%N) (Some (u "SG8")) (Some (u "SEQ")) (Some (u "1229")) None (Some (u "Z14")) (Some (u "Steuerbox")) None None (Some (u "Daten der Steuerbox")) (Some (846)%Z)), (mkLocation false [(mkLayer None (u "UNH") (Some (u "UTILMD"))); (mkLayer (Some (u "SG4")) (u "IDE") (Some (u "24"))); (mkLayer (Some (u "SG8")) (u "SEQ") (Some (u "Z14")))] (Some (u "SEQ")) (Some (u "1229")) (Some (u "Z14"))), STAY);
((mkLine (Some 190381237677594621187270641456697724220%N) (Some (u "SG8")) None None None None None None None (Some (u "Referenz auf das Smartmeter-Gateway")) (Some (848)%Z)), (mkLocation false [(mkLayer None (u "UNH") (Some (u "UTILMD"))); (mkLayer (Some (u "SG4")) (u "IDE") (Some (u "24"))); (mkLayer (Some (u "SG8")) (u "SEQ") (Some (u "Z14")))] (Some (u "RFF")) None None), STAY);
((mkLine (Some 71855055752809927999679708334324656921%N) (Some (u "SG8")) (Some (u "RFF")) None None None None None None (Some (u "Referenz auf das Smartmeter-Gateway")) (Some (849)%Z)), (mkLocation false [(mkLayer None (u "UNH") (Some (u "UTILMD"))); (mkLayer (Some (u "SG4")) (u "IDE") (Some (u "24"))); (mkLayer (Some (u "SG8")) (u "SEQ") (Some (u "Z14")))] (Some (u "RFF")) None None), STAY);
((mkLine (Some 162548287651480357778328109793083230983%N) (Some (u "SG8")) (Some (u "RFF")) (Some (u "1153")) None (Some (u "Z14")) (Some (u "Smartmeter-Gateway")) None None (Some (u "Referenz auf das Smartmeter-Gateway")) (Some (850)%Z)), (mkLocation false [(mkLayer None (u "UNH") (Some (u "UTILMD"))); (mkLayer (Some (u "SG4")) (u "IDE") (Some (u "24"))); (mkLayer (Some (u "SG8")) (u "SEQ") (Some (u "Z14")))] (Some (u "RFF")) (Some (u "1153")) (Some (u "Z14"))), STAY);
((mkLine (Some 270457241680241330071828192277365544919%N) (Some (u "SG8")) (Some (u "RFF")) (Some (u "1154")) None None (Some (u "Identifikation / Nummer desSmartmeter-Gateways")) None None (Some (u "Referenz auf das Smartmeter-Gateway")) (Some (851)%Z)), (mkLocation false [(mkLayer None (u "UNH") (Some (u "UTILMD"))); (mkLayer (Some (u "SG4")) (u "IDE") (Some (u "24"))); (mkLayer (Some (u "SG8")) (u "SEQ") (Some (u "Z14")))] (Some (u "RFF")) (Some (u "1154")) None), STAY);
((mkLine (Some 236211050164198006010937330106501510302%N) (Some (u "SG8")) None None None None None None None (Some (u "Referenz auf die ID der Marktlokation")) (Some (853)%Z)), (mkLocation false [(mkLayer None (u "UNH") (Some (u "UTILMD"))); (mkLayer (Some (u "SG4")) (u "IDE") (Some (u "24"))); (mkLayer (Some (u "SG8")) (u "SEQ") (Some (u "Z14")))] (Some (u "RFF")) None None), STAY);
((mkLine (Some 219654154404938424103904433827266849442%N) (Some (u "SG8")) (Some (u "RFF")) None None None None None None (Some (u "Referenz auf die ID der Marktlokation")) (Some (854)%Z)), (mkLocation false [(mkLayer None (u "UNH") (Some (u "UTILMD"))); (mkLayer (Some (u "SG4")) (u "IDE") (Some (u "24"))); (mkLayer (Some (u "SG8")) (u "SEQ") (Some (u "Z14")))] (Some (u "RFF")) None None), STAY);
((mkLine (Some 86641877224187083060660343672118411525%N) (Some (u "SG8")) (Some (u "RFF")) (Some (u "1153")) None (Some (u "Z18")) (Some (u "Marktlokation")) None None (Some (u "Referenz auf die ID der Marktlokation")) (Some (855)%Z)), (mkLocation false [(mkLayer None (u "UNH") (Some (u "UTILMD"))); (mkLayer (Some (u "SG4")) (u "IDE") (Some (u "24"))); (mkLayer (Some (u "SG8")) (u "SEQ") (Some (u "Z14")))] (Some (u "RFF")) (Some (u "1153")) (Some (u "Z18"))), STAY);
((mkLine (Some 90036364480488663635155609801015884478%N) (Some (u "SG8")) (Some (u "RFF")) (Some (u "1154")) None None (Some (u "ID einer Marktlokation")) None None (Some (u "Referenz auf die ID der Marktlokation")) (Some (856)%Z)), (mkLocation false [(mkLayer None (u "UNH") (Some (u "UTILMD"))); (mkLayer (Some (u "SG4")) (u "IDE") (Some (u "24"))); (mkLayer (Some (u "SG8")) (u "SEQ") (Some (u "Z14")))] (Some (u "RFF")) (Some (u "1154")) None), STAY);
((mkLine (Some 172895003865403162222324648672536659004%N) (Some (u "SG10")) None None None None None None None (Some (u "Steuerbox")) (Some (858)%Z)), (mkLocation false [(mkLayer None (u "UNH") (Some (u "UTILMD"))); (mkLayer (Some (u "SG4")) (u "IDE") (Some (u "24"))); (mkLayer (Some (u "SG8")) (u "SEQ") (Some (u "Z14"))); (mkLayer (Some (u "SG10")) (u "CCI") (Some (u "Z76")))] (Some (u "CCI")) None None), DIVE_INTO_SUB_GROUP);
((mkLine (Some 249650230626589899960143650219647720605%N) (Some (u "SG10")) (Some (u "CCI")) None None None None None None (Some (u "Steuerbox")) (Some (859)%Z)), (mkLocation false [(mkLayer None (u "UNH") (Some (u "UTILMD"))); (mkLayer (Some (u "SG4")) (u "IDE") (Some (u "24"))); (mkLayer (Some (u "SG8")) (u "SEQ") (Some (u "Z14"))); (mkLayer (Some (u "SG10")) (u "CCI") (Some (u "Z76")))] (Some (u "CCI")) None None), STAY);
((mkLine (Some 321037233601315128703480309500574032272%N) (Some (u "SG10")) (Some (u "CCI")) (Some (u "7037")) None (Some (u "Z76")) (Some (u "Steuerbox")) None None (Some (u "Steuerbox")) (Some (860)%Z)), (mkLocation false [(mkLayer None (u "UNH") (Some (u "UTILMD"))); (mkLayer (Some (u "SG4")) (u "IDE") (Some (u "24"))); (mkLayer (Some (u "SG8")) (u "SEQ") (Some (u "Z14"))); (mkLayer (Some (u "SG10")) (u "CCI") (Some (u "Z76")))] (Some (u "CCI")) (Some (u "7037")) (Some (u "Z76"))), STAY);
((mkLine (Some 153852194174699484181672467666618678694%N) (Some (u "SG10")) None None None None None None None (Some (u "Identifikation / Nummer des Gerätes")) (Some (862)%Z)), (mkLocation false [(mkLayer None (u "UNH") (Some (u "UTILMD"))); (mkLayer (Some (u "SG4")) (u "IDE") (Some (u "24"))); (mkLayer (Some (u "SG8")) (u "SEQ") (Some (u "Z14"))); (mkLayer (Some (u "SG10")) (u "CCI") (Some (u "Z76")))] (Some (u "CAV")) None None), STAY);
((mkLine (Some 217065066453695231227676755046437556249%N) (Some (u "SG10")) (Some (u "CAV")) None None None None None None (Some (u "Identifikation / Nummer des Gerätes")) (Some (863)%Z)), (mkLocation false [(mkLayer None (u "UNH") (Some (u "UTILMD"))); (mkLayer (Some (u "SG4")) (u "IDE") (Some (u "24"))); (mkLayer (Some (u "SG8")) (u "SEQ") (Some (u "Z14"))); (mkLayer (Some (u "SG10")) (u "CCI") (Some (u "Z76")))] (Some (u "CAV")) None None), STAY);
((mkLine (Some 72152430765899039510134283100441776005%N) (Some (u "SG10")) (Some (u "CAV")) (Some (u "7111")) None (Some (u "Z30")) (Some (u "Gerätenummer")) None None (Some (u "Identifikation / Nummer des Gerätes")) (Some (864)%Z)), (mkLocation false [(mkLayer None (u "UNH") (Some (u "UTILMD"))); (mkLayer (Some (u "SG4")) (u "IDE") (Some (u "24"))); (mkLayer (Some (u "SG8")) (u "SEQ") (Some (u "Z14"))); (mkLayer (Some (u "SG10")) (u "CCI") (Some (u "Z76")))] (Some (u "CAV")) (Some (u "7111")) (Some (u "Z30"))), STAY);
((mkLine (Some 96783449909907142414044854505561369750%N) (Some (u "SG10")) (Some (u "CAV")) (Some (u "7110")) None None (Some (u "Gerätenummer")) None None (Some (u "Identifikation / Nummer des Gerätes")) (Some (865)%Z)), (mkLocation false [(mkLayer None (u "UNH") (Some (u "UTILMD"))); (mkLayer (Some (u "SG4")) (u "IDE") (Some (u "24"))); (mkLayer (Some (u "SG8")) (u "SEQ") (Some (u "Z14"))); (mkLayer (Some (u "SG10")) (u "CCI") (Some (u "Z76")))] (Some (u "CAV")) (Some (u "7110")) None), STAY);
((mkLine (Some 312523707226270234884512846260477983808%N) (Some (u "SG8")) None None None None None None None (Some (u "Profildaten (Strom)")) (Some (867)%Z)), (mkLocation false [(mkLayer None (u "UNH") (Some (u "UTILMD"))); (mkLayer (Some (u "SG4")) (u "IDE") (Some (u "24"))); (mkLayer (Some (u "SG8")) (u "SEQ") (Some (u "Z21")))] (Some (u "SEQ")) None None), LEAVE_TO_PARENT_AND_DIVE_INTO_SUB_GROUP);
((mkLine (Some 58512774854278221638428029955101529118%N) (Some (u "SG8")) (Some (u "SEQ")) None None None None None None (Some (u "Profildaten (Strom)")) (Some (869)%Z)), (mkLocation false [(mkLayer None (u "UNH") (Some (u "UTILMD"))); (mkLayer (Some (u "SG4")) (u "IDE") (Some (u "24"))); (mkLayer (Some (u "SG8")) (u "SEQ") (Some (u "Z21")))] (Some (u "SEQ")) None None), STAY);
((mkLine (Some 138358657743636881197505963335225912023%N) (Some (u "SG8")) (Some (u "SEQ")) (Some (u "1229")) None (Some (u "Z21")) (Some (u "Profildaten")) None None (Some (u "Profildaten (Strom)")) (Some (870)%Z)), (mkLocation false [(mkLayer None (u "UNH") (Some (u "UTILMD"))); (mkLayer (Some (u "SG4")) (u "IDE") (Some (u "24"))); (mkLayer (Some (u "SG8")) (u "SEQ") (Some (u "Z21")))] (Some (u "SEQ")) (Some (u "1229")) (Some (u "Z21"))), STAY);
((mkLine (Some 32691576671196111772562487457564691650%N) (Some (u "SG8")) None None None None None None None (Some (u "Referenz auf die ID der Marktlokation")) (Some (872)%Z)), (mkLocation false [(mkLayer None (u "UNH") (Some (u "UTILMD"))); (mkLayer (Some (u "SG4")) (u "IDE") (Some (u "24"))); (mkLayer (Some (u "SG8")) (u "SEQ") (Some (u "Z21")))] (Some (u "RFF")) None None), STAY);
((mkLine (Some 18556690487426352746884262479140186567%N) (Some (u "SG8")) (Some (u "RFF")) None None None None None None (Some (u "Referenz auf die ID der Marktlokation")) (Some (873)%Z)), (mkLocation false [(mkLayer None (u "UNH") (Some (u "UTILMD"))); (mkLayer (Some (u "SG4")) (u "IDE") (Some (u "24"))); (mkLayer (Some (u "SG8")) (u "SEQ") (Some (u "Z21")))] (Some (u "RFF")) None None), STAY);
((mkLine (Some 15526976072881440293011000881757161844%N) (Some (u "SG8")) (Some (u "RFF")) (Some (u "1153")) None (Some (u "Z18")) (Some (u "Marktlokation")) None None (Some (u "Referenz auf die ID der Marktlokation")) (Some (874)%Z)), (mkLocation false [(mkLayer None (u "UNH") (Some (u "UTILMD"))); (mkLayer (Some (u "SG4")) (u "IDE") (Some (u "24"))); (mkLayer (Some (u "SG8")) (u "SEQ") (Some (u "Z21")))] (Some (u "RFF")) (Some (u "1153")) (Some (u "Z18"))), STAY);
((mkLine (Some 40203761826947261881089410765014447650%N) (Some (u "SG8")) (Some (u "RFF")) (Some (u "1154")) None None (Some (u "ID einer Marktlokation")) None None (Some (u "Referenz auf die ID der Marktlokation")) (Some (875)%Z)), (mkLocation false [(mkLayer None (u "UNH") (Some (u "UTILMD"))); (mkLayer (Some (u "SG4")) (u "IDE") (Some (u "24"))); (mkLayer (Some (u "SG8")) (u "SEQ") (Some (u "Z21")))] (Some (u "RFF")) (Some (u "1154")) None), STAY);
((mkLine (Some 259404291633356780273877876610611560949%N) (Some (u "SG10")) None None None None None None None (Some (u "Normiertes Profil (Strom)")) (Some (877)%Z)), (mkLocation false [(mkLayer None (u "UNH") (Some (u "UTILMD"))); (mkLayer (Some (u "SG4")) (u "IDE") (Some (u "24"))); (mkLayer (Some (u "SG8")) (u "SEQ") (Some (u "Z21"))); (mkLayer (Some (u "SG10")) (u "CCI") (Some (u "Z02")))] (Some (u "CCI")) None None), DIVE_INTO_SUB_GROUP);
((mkLine (Some 145350781082333076206335566890437480831%N) (Some (u "SG10")) (Some (u "CCI")) None None None None None None (Some (u "Normiertes Profil (Strom)")) (Some (878)%Z)), (mkLocation false [(mkLayer None (u "UNH") (Some (u "UTILMD"))); (mkLayer (Some (u "SG4")) (u "IDE") (Some (u "24"))); (mkLayer (Some (u "SG8")) (u "SEQ") (Some (u "Z21"))); (mkLayer (Some (u "SG10")) (u "CCI") (Some (u "Z02")))] (Some (u "CCI")) None None), STAY);
((mkLine (Some 18913017941785170268651831996038679677%N) (Some (u "SG10")) (Some (u "CCI")) (Some (u "7059")) None (Some (u "Z02")) (Some (u "Standardlastprofil")) None None (Some (u "Normiertes Profil (Strom)")) (Some (879)%Z)), (mkLocation false [(mkLayer None (u "UNH") (Some (u "UTILMD"))); (mkLayer (Some (u "SG4")) (u "IDE") (Some (u "24"))); (mkLayer (Some (u "SG8")) (u "SEQ") (Some (u "Z21"))); (mkLayer (Some (u "SG10")) (u "CCI") (Some (u "Z02")))] (Some (u "CCI")) (Some (u "7059")) (Some (u "Z02"))), STAY);
((mkLine (Some 303496865761589113472504180794514698888%N) (Some (u "SG10")) (Some (u "CCI")) (Some (u "7059")) None (Some (u "Z04")) (Some (u "Standardeinspeiseprofil")) None None (Some (u "Normiertes Profil (Strom)")) (Some (880)%Z)), (mkLocation false [(mkLayer None (u "UNH") (Some (u "UTILMD"))); (mkLayer (Some (u "SG4")) (u "IDE") (Some (u "24"))); (mkLayer (Some (u "SG8")) (u "SEQ") (Some (u "Z21"))); (mkLayer (Some (u "SG10")) (u "CCI") (Some (u "Z02")))] (Some (u "CCI")) (Some (u "7059")) (Some (u "Z04"))), STAY);
((mkLine (Some 142879648753685792813614479002396689734%N) (Some (u "SG10")) (Some (u "CCI")) (Some (u "7037")) None (Some (u "E01")) (Some (u "synthetisches Verfahren")) None None (Some (u "Normiertes Profil (Strom)")) (Some (881)%Z)), (mkLocation false [(mkLayer None (u "UNH") (Some (u "UTILMD"))); (mkLayer (Some (u "SG4")) (u "IDE") (Some (u "24"))); (mkLayer (Some (u "SG8")) (u "SEQ") (Some (u "Z21"))); (mkLayer (Some (u "SG10")) (u "CCI") (Some (u "Z02")))] (Some (u "CCI")) (Some (u "7037")) (Some (u "E01"))), STAY);
((mkLine (Some 290709231479377375903538518693140944939%N) (Some (u "SG10")) (Some (u "CCI")) (Some (u "7037")) None (Some (u "Z10")) (Some (u "analytisches Verfahren")) None None (Some (u "Normiertes Profil (Strom)")) (Some (882)%Z)), (mkLocation false [(mkLayer None (u "UNH") (Some (u "UTILMD"))); (mkLayer (Some (u "SG4")) (u "IDE") (Some (u "24"))); (mkLayer (Some (u "SG8")) (u "SEQ") (Some (u "Z21"))); (mkLayer (Some (u "SG10")) (u "CCI") (Some (u "Z02")))] (Some (u "CCI")) (Some (u "7037")) (Some (u "Z10"))), STAY);
((mkLine (Some 47705923207801871704576017889189083235%N) (Some (u "SG10")) None None None None None None None (Some (u "Normiertes Profil (Strom)")) (Some (884)%Z)), (mkLocation false [(mkLayer None (u "UNH") (Some (u "UTILMD"))); (mkLayer (Some (u "SG4")) (u "IDE") (Some (u "24"))); (mkLayer (Some (u "SG8")) (u "SEQ") (Some (u "Z21"))); (mkLayer (Some (u "SG10")) (u "CCI") (Some (u "Z02")))] (Some (u "CAV")) None None), STAY);
((mkLine (Some 244566550045649765434514845698585893532%N) (Some (u "SG10")) (Some (u "CAV")) None None None None None None (Some (u "Normiertes Profil (Strom)")) (Some (885)%Z)), (mkLocation false [(mkLayer None (u "UNH") (Some (u "UTILMD"))); (mkLayer (Some (u "SG4")) (u "IDE") (Some (u "24"))); (mkLayer (Some (u "SG8")) (u "SEQ") (Some (u "Z21"))); (mkLayer (Some (u "SG10")) (u "CCI") (Some (u "Z02")))] (Some (u "CAV")) None None), STAY);
((mkLine (Some 123947926544098780156535109929811038116%N) (Some (u "SG10")) (Some (u "CAV")) (Some (u "7111")) None None (Some (u "Code des Normierten Profils")) None None (Some (u "Normiertes Profil (Strom)")) (Some (886)%Z)), (mkLocation false [(mkLayer None (u "UNH") (Some (u "UTILMD"))); (mkLayer (Some (u "SG4")) (u "IDE") (Some (u "24"))); (mkLayer (Some (u "SG8")) (u "SEQ") (Some (u "Z21"))); (mkLayer (Some (u "SG10")) (u "CCI") (Some (u "Z02")))] (Some (u "CAV")) (Some (u "7111")) None), STAY);
((mkLine (Some 229945049433764169487880400938404578891%N) (Some (u "SG8")) None None None None None None None (Some (u "Profilschardaten")) (Some (888)%Z)), (mkLocation false [(mkLayer None (u "UNH") (Some (u "UTILMD"))); (mkLayer (Some (u "SG4")) (u "IDE") (Some (u "24"))); (mkLayer (Some (u "SG8")) (u "SEQ") (Some (u "Z08")))] (Some (u "SEQ")) None None), LEAVE_TO_PARENT_AND_DIVE_INTO_SUB_GROUP);
((mkLine (Some 72625564305640838157496694463776412118%N) (Some (u "SG8")) (Some (u "SEQ")) None None None None None None (Some (u "Profilschardaten")) (Some (889)%Z)), (mkLocation false [(mkLayer None (u "UNH") (Some (u "UTILMD"))); (mkLayer (Some (u "SG4")) (u "IDE") (Some (u "24"))); (mkLayer (Some (u "SG8")) (u "SEQ") (Some (u "Z08")))] (Some (u "SEQ")) None None), STAY);
((mkLine (Some 106089851960339044589608166747220986883%N) (Some (u "SG8")) (Some (u "SEQ")) (Some (u "1229")) None (Some (u "Z08")) (Some (u "Profilschardaten")) None None (Some (u "Profilschardaten")) (Some (890)%Z)), (mkLocation false [(mkLayer None (u "UNH") (Some (u "UTILMD"))); (mkLayer (Some (u "SG4")) (u "IDE") (Some (u "24"))); (mkLayer (Some (u "SG8")) (u "SEQ") (Some (u "Z08")))] (Some (u "SEQ")) (Some (u "1229")) (Some (u "Z08"))), STAY);
((mkLine (Some 211467483243152819686168395677488162840%N) (Some (u "SG8")) None None None None None None None (Some (u "Referenz auf die ID der Marktlokation")) (Some (892)%Z)), (mkLocation false [(mkLayer None (u "UNH") (Some (u "UTILMD"))); (mkLayer (Some (u "SG4")) (u "IDE") (Some (u "24"))); (mkLayer (Some (u "SG8")) (u "SEQ") (Some (u "Z08")))] (Some (u "RFF")) None None), STAY);
((mkLine (Some 264255285265560316020192833846634208500%N) (Some (u "SG8")) (Some (u "RFF")) None None None None None None (Some (u "Referenz auf die ID der Marktlokation")) (Some (893)%Z)), (mkLocation false [(mkLayer None (u "UNH") (Some (u "UTILMD"))); (mkLayer (Some (u "SG4")) (u "IDE") (Some (u "24"))); (mkLayer (Some (u "SG8")) (u "SEQ") (Some (u "Z08")))] (Some (u "RFF")) None None), STAY);
((mkLine (Some 95361219116003533700654326466929821477%N) (Some (u "SG8")) (Some (u "RFF")) (Some (u "1153")) None (Some (u "Z18")) (Some (u "Marktlokation")) None None (Some (u "Referenz auf die ID der Marktlokation")) (Some (894)%Z)), (mkLocation false [(mkLayer None (u "UNH") (Some (u "UTILMD"))); (mkLayer (Some (u "SG4")) (u "IDE") (Some (u "24"))); (mkLayer (Some (u "SG8")) (u "SEQ") (Some (u "Z08")))] (Some (u "RFF")) (Some (u "1153")) (Some (u "Z18"))), STAY);
((mkLine (Some 312507830215256292772769530003214612614%N) (Some (u "SG8")) (Some (u "RFF")) (Some (u "1154")) None None (Some (u "ID einer Marktlokation")) None None (Some (u "Referenz auf die ID der Marktlokation")) (Some (895)%Z)), (mkLocation false [(mkLayer None (u "UNH") (Some (u "UTILMD"))); (mkLayer (Some (u "SG4")) (u "IDE") (Some (u "24"))); (mkLayer (Some (u "SG8")) (u "SEQ") (Some (u "Z08")))] (Some (u "RFF")) (Some (u "1154")) None), STAY);
((mkLine (Some 302732840893080158687691653580053186035%N) (Some (u "SG10")) None None None None None None None (Some (u "Normiertes Profil")) (Some (897)%Z)), (mkLocation false [(mkLayer None (u "UNH") (Some (u "UTILMD"))); (mkLayer (Some (u "SG4")) (u "IDE") (Some (u "24"))); (mkLayer (Some (u "SG8")) (u "SEQ") (Some (u "Z08"))); (mkLayer (Some (u "SG10")) (u "CCI") (Some (u "Z03")))] (Some (u "CCI")) None None), DIVE_INTO_SUB_GROUP);
((mkLine (Some 204823384730300322972685044287732463771%N) (Some (u "SG10")) (Some (u "CCI")) None None None None None None (Some (u "Normiertes Profil")) (Some (898)%Z)), (mkLocation false [(mkLayer None (u "UNH") (Some (u "UTILMD"))); (mkLayer (Some (u "SG4")) (u "IDE") (Some (u "24"))); (mkLayer (Some (u "SG8")) (u "SEQ") (Some (u "Z08"))); (mkLayer (Some (u "SG10")) (u "CCI") (Some (u "Z03")))] (Some (u "CCI")) None None), STAY);
((mkLine (Some 207865775476571199581255988839311807118%N) (Some (u "SG10")) (Some (u "CCI")) (Some (u "7059")) None (Some (u "Z03")) (Some (u "tagesparameterabhängig es Lastprofil")) None None (Some (u "Normiertes Profil")) (Some (899)%Z)), (mkLocation false [(mkLayer None (u "UNH") (Some (u "UTILMD"))); (mkLayer (Some (u "SG4")) (u "IDE") (Some (u "24"))); (mkLayer (Some (u "SG8")) (u "SEQ") (Some (u "Z08"))); (mkLayer (Some (u "SG10")) (u "CCI") (Some (u "Z03")))] (Some (u "CCI")) (Some (u "7059")) (Some (u "Z03"))), STAY);
((mkLine (Some 99100329971066866355304171216144480143%N) (Some (u "SG10")) (Some (u "CCI")) (Some (u "7059")) None (Some (u "Z05")) (Some (u "tagesparameterabhängig es Einspeiseprofil")) None None (Some (u "Normiertes Profil")) (Some (900)%Z)), (mkLocation false [(mkLayer None (u "UNH") (Some (u "UTILMD"))); (mkLayer (Some (u "SG4")) (u "IDE") (Some (u "24"))); (mkLayer (Some (u "SG8")) (u "SEQ") (Some (u "Z08"))); (mkLayer (Some (u "SG10")) (u "CCI") (Some (u "Z03")))] (Some (u "CCI")) (Some (u "7059")) (Some (u "Z05"))), STAY);
((mkLine (Some 2583100861317987923523838509428398426%N) (Some (u "SG10")) (Some (u "CCI")) (Some (u "7037")) None (Some (u "E01")) (Some (u "synthetisches Verfahren")) None None (Some (u "Normiertes Profil")) (Some (901)%Z)), (mkLocation false [(mkLayer None (u "UNH") (Some (u "UTILMD"))); (mkLayer (Some (u "SG4")) (u "IDE") (Some (u "24"))); (mkLayer (Some (u "SG8")) (u "SEQ") (Some (u "Z08"))); (mkLayer (Some (u "SG10")) (u "CCI") (Some (u "Z03")))] (Some (u "CCI")) (Some (u "7037")) (Some (u "E01"))), STAY);
((mkLine (Some 200509923180913187734278643534178523919%N) (Some (u "SG10")) (Some (u "CCI")) (Some (u "7037")) None (Some (u "Z10")) (Some (u "analytisches Verfahren")) None None (Some (u "Normiertes Profil")) (Some (902)%Z)), (mkLocation false [(mkLayer None (u "UNH") (Some (u "UTILMD"))); (mkLayer (Some (u "SG4")) (u "IDE") (Some (u "24"))); (mkLayer (Some (u "SG8")) (u "SEQ") (Some (u "Z08"))); (mkLayer (Some (u "SG10")) (u "CCI") (Some (u "Z03")))] (Some (u "CCI")) (Some (u "7037")) (Some (u "Z10"))), STAY);
((mkLine (Some 140430550594710144658190525342204165697%N) (Some (u "SG10")) None None None None None None None (Some (u "Normiertes Profil")) (Some (904)%Z)), (mkLocation false [(mkLayer None (u "UNH") (Some (u "UTILMD"))); (mkLayer (Some (u "SG4")) (u "IDE") (Some (u "24"))); (mkLayer (Some (u "SG8")) (u "SEQ") (Some (u "Z08"))); (mkLayer (Some (u "SG10")) (u "CCI") (Some (u "Z03")))] (Some (u "CAV")) None None), STAY);
((mkLine (Some 224747833379215522059989916937088295377%N) (Some (u "SG10")) (Some (u "CAV")) None None None None None None (Some (u "Normiertes Profil")) (Some (905)%Z)), (mkLocation false [(mkLayer None (u "UNH") (Some (u "UTILMD"))); (mkLayer (Some (u "SG4")) (u "IDE") (Some (u "24"))); (mkLayer (Some (u "SG8")) (u "SEQ") (Some (u "Z08"))); (mkLayer (Some (u "SG10")) (u "CCI") (Some (u "Z03")))] (Some (u "CAV")) None None), STAY);
((mkLine (Some 144910281042711246489600066015143920465%N) (Some (u "SG10")) (Some (u "CAV")) (Some (u "7111")) None None (Some (u "Code des Normierten Profils(Strom)")) None None (Some (u "Normiertes Profil")) (Some (906)%Z)), (mkLocation false [(mkLayer None (u "UNH") (Some (u "UTILMD"))); (mkLayer (Some (u "SG4")) (u "IDE") (Some (u "24"))); (mkLayer (Some (u "SG8")) (u "SEQ") (Some (u "Z08"))); (mkLayer (Some (u "SG10")) (u "CCI") (Some (u "Z03")))] (Some (u "CAV")) (Some (u "7111")) None), STAY);
((mkLine (Some 61428353321559323292161544298495613614%N) (Some (u "SG10")) None None None None None None None (Some (u "Klimazone / Temperaturmessstelle")) (Some (908)%Z)), (mkLocation false [(mkLayer None (u "UNH") (Some (u "UTILMD"))); (mkLayer (Some (u "SG4")) (u "IDE") (Some (u "24"))); (mkLayer (Some (u "SG8")) (u "SEQ") (Some (u "Z08"))); (mkLayer (Some (u "SG10")) (u "CCI") (Some (u "Z99")))] (Some (u "CCI")) None None), MOVE_TO_NEIGHBOUR_SAME_KEY);
((mkLine (Some 267470926862082238988216699678952180535%N) (Some (u "SG10")) (Some (u "CCI")) None None None None None None (Some (u "Klimazone / Temperaturmessstelle")) (Some (909)%Z)), (mkLocation false [(mkLayer None (u "UNH") (Some (u "UTILMD"))); (mkLayer (Some (u "SG4")) (u "IDE") (Some (u "24"))); (mkLayer (Some (u "SG8")) (u "SEQ") (Some (u "Z08"))); (mkLayer (Some (u "SG10")) (u "CCI") (Some (u "Z99")))] (Some (u "CCI")) None None), STAY);
((mkLine (Some 7619925866630755703890391406288024174%N) (Some (u "SG10")) (Some (u "CCI")) (Some (u "7059")) None (Some (u "Z99")) (Some (u "Messstelle des Tagesparameters (derzeit ist nur die Temperatur ein erlaubter Tagesparameter)")) None None (Some (u "Klimazone / Temperaturmessstelle")) (Some (910)%Z)), (mkLocation false [(mkLayer None (u "UNH") (Some (u "UTILMD"))); (mkLayer (Some (u "SG4")) (u "IDE") (Some (u "24"))); (mkLayer (Some (u "SG8")) (u "SEQ") (Some (u "Z08"))); (mkLayer (Some (u "SG10")) (u "CCI") (Some (u "Z99")))] (Some (u "CCI")) (Some (u "7059")) (Some (u "Z99"))), STAY);
((mkLine (Some 87021267283487929238144422136681693011%N) (Some (u "SG10")) (Some (u "CCI")) (Some (u "7059")) None (Some (u "ZA0")) (Some (u "Klimazone des Tagesparameters (derzeit ist Tagesparameter)")) None None (Some (u "Klimazone / Temperaturmessstelle")) (Some (911)%Z)), (mkLocation false [(mkLayer None (u "UNH") (Some (u "UTILMD"))); (mkLayer (Some (u "SG4")) (u "IDE") (Some (u "24"))); (mkLayer (Some (u "SG8")) (u "SEQ") (Some (u "Z08"))); (mkLayer (Some (u "SG10")) (u "CCI") (Some (u "Z99")))] (Some (u "CCI")) (Some (u "7059")) (Some (u "ZA0"))), STAY);
((mkLine (Some 30140560829748639395917458126811084280%N) (Some (u "SG10")) (Some (u "CCI")) (Some (u "7037")) None None (Some (u "ID Klimazone /Temperaturmessstelle")) None None (Some (u "Klimazone / Temperaturmessstelle")) (Some (912)%Z)), (mkLocation false [(mkLayer None (u "UNH") (Some (u "UTILMD"))); (mkLayer (Some (u "SG4")) (u "IDE") (Some (u "24"))); (mkLayer (Some (u "SG8")) (u "SEQ") (Some (u "Z08"))); (mkLayer (Some (u "SG10")) (u "CCI") (Some (u "Z99")))] (Some (u "CCI")) (Some (u "7037")) None), STAY);
((mkLine (Some 303163410557209145360651581837534500831%N) (Some (u "SG10")) (Some (u "CCI")) (Some (u "1131")) None None (Some (u "Dienstanbieter")) None None (Some (u "Klimazone / Temperaturmessstelle")) (Some (913)%Z)), (mkLocation false [(mkLayer None (u "UNH") (Some (u "UTILMD"))); (mkLayer (Some (u "SG4")) (u "IDE") (Some (u "24"))); (mkLayer (Some (u "SG8")) (u "SEQ") (Some (u "Z08"))); (mkLayer (Some (u "SG10")) (u "CCI") (Some (u "Z99")))] (Some (u "CCI")) (Some (u "1131")) None), STAY);
((mkLine (Some 45157329239968976153354561249130122330%N) (Some (u "SG10")) (Some (u "CCI")) (Some (u "3055")) None (Some (u "89")) (Some (u "Vergeben vom Händler (hier Netzbetreiber)")) None None (Some (u "Klimazone / Temperaturmessstelle")) (Some (914)%Z)), (mkLocation false [(mkLayer None (u "UNH") (Some (u "UTILMD"))); (mkLayer (Some (u "SG4")) (u "IDE") (Some (u "24"))); (mkLayer (Some (u "SG8")) (u "SEQ") (Some (u "Z08"))); (mkLayer (Some (u "SG10")) (u "CCI") (Some (u "Z99")))] (Some (u "CCI")) (Some (u "3055")) (Some (u "89"))), STAY);
((mkLine (Some 79593463585156997990374384178862195943%N) (Some (u "SG10")) (Some (u "CCI")) (Some (u "3055")) None (Some (u "293")) (Some (u "DE, BDEW (Bundesverband der Energie- und Wasserwirtschaft e.V.)")) None None (Some (u "Klimazone / Temperaturmessstelle")) (Some (915)%Z)), (mkLocation false [(mkLayer None (u "UNH") (Some (u "UTILMD"))); (mkLayer (Some (u "SG4")) (u "IDE") (Some (u "24"))); (mkLayer (Some (u "SG8")) (u "SEQ") (Some (u "Z08"))); (mkLayer (Some (u "SG10")) (u "CCI") (Some (u "Z99")))] (Some (u "CCI")) (Some (u "3055")) (Some (u "293"))), STAY);
((mkLine (Some 224515439340053141593092340423845241907%N) (Some (u "SG8")) None None None None None None None (Some (u "Referenzprofildaten")) (Some (917)%Z)), (mkLocation false [(mkLayer None (u "UNH") (Some (u "UTILMD"))); (mkLayer (Some (u "SG4")) (u "IDE") (Some (u "24"))); (mkLayer (Some (u "SG8")) (u "SEQ") (Some (u "Z38")))] (Some (u "SEQ")) None None), LEAVE_TO_PARENT_AND_DIVE_INTO_SUB_GROUP);
((mkLine (Some 323009399444095190832727936148060794131%N) (Some (u "SG8")) (Some (u "SEQ")) None None None None None None (Some (u "Referenzprofildaten")) (Some (919)%Z)), (mkLocation false [(mkLayer None (u "UNH") (Some (u "UTILMD"))); (mkLayer (Some (u "SG4")) (u "IDE") (Some (u "24"))); (mkLayer (Some (u "SG8")) (u "SEQ") (Some (u "Z38")))] (Some (u "SEQ")) None None), STAY);
((mkLine (Some 203224772637399982259764298815863667652%N) (Some (u "SG8")) (Some (u "SEQ")) (Some (u "1229")) None (Some (u "Z38")) (Some (u "Referenzprofildaten")) None None (Some (u "Referenzprofildaten")) (Some (920)%Z)), (mkLocation false [(mkLayer None (u "UNH") (Some (u "UTILMD"))); (mkLayer (Some (u "SG4")) (u "IDE") (Some (u "24"))); (mkLayer (Some (u "SG8")) (u "SEQ") (Some (u "Z38")))] (Some (u "SEQ")) (Some (u "1229")) (Some (u "Z38"))), STAY);
((mkLine (Some 25693883776764399722348450639538358023%N) (Some (u "SG8")) None None None None None None None (Some (u "Referenz auf die ID der Marktlokation")) (Some (922)%Z)), (mkLocation false [(mkLayer None (u "UNH") (Some (u "UTILMD"))); (mkLayer (Some (u "SG4")) (u "IDE") (Some (u "24"))); (mkLayer (Some (u "SG8")) (u "SEQ") (Some (u "Z38")))] (Some (u "RFF")) None None), STAY);
((mkLine (Some 235389343784776083907990043995490867938%N) (Some (u "SG8")) (Some (u "RFF")) None None None None None None (Some (u "Referenz auf die ID der Marktlokation")) (Some (923)%Z)), (mkLocation false [(mkLayer None (u "UNH") (Some (u "UTILMD"))); (mkLayer (Some (u "SG4")) (u "IDE") (Some (u "24"))); (mkLayer (Some (u "SG8")) (u "SEQ") (Some (u "Z38")))] (Some (u "RFF")) None None), STAY);
((mkLine (Some 323909338141858500362777992913389834406%N) (Some (u "SG8")) (Some (u "RFF")) (Some (u "1153")) None (Some (u "Z18")) (Some (u "Marktlokation")) None None (Some (u "Referenz auf die ID der Marktlokation")) (Some (924)%Z)), (mkLocation false [(mkLayer None (u "UNH") (Some (u "UTILMD"))); (mkLayer (Some (u "SG4")) (u "IDE") (Some (u "24"))); (mkLayer (Some (u "SG8")) (u "SEQ") (Some (u "Z38")))] (Some (u "RFF")) (Some (u "1153")) (Some (u "Z18"))), STAY);
((mkLine (Some 265398169603918098838347120030135809117%N) (Some (u "SG8")) (Some (u "RFF")) (Some (u "1154")) None None (Some (u "ID einer Marktlokation")) None None (Some (u "Referenz auf die ID der Marktlokation")) (Some (925)%Z)), (mkLocation false [(mkLayer None (u "UNH") (Some (u "UTILMD"))); (mkLayer (Some (u "SG4")) (u "IDE") (Some (u "24"))); (mkLayer (Some (u "SG8")) (u "SEQ") (Some (u "Z38")))] (Some (u "RFF")) (Some (u "1154")) None), STAY);
((mkLine (Some 277472944564314859932046422883485754503%N) (Some (u "SG10")) None None None None None None None (Some (u "Referenzprofil")) (Some (927)%Z)), (mkLocation false [(mkLayer None (u "UNH") (Some (u "UTILMD"))); (mkLayer (Some (u "SG4")) (u "IDE") (Some (u "24"))); (mkLayer (Some (u "SG8")) (u "SEQ") (Some (u "Z38"))); (mkLayer (Some (u "SG10")) (u "CCI") (Some (u "Z05")))] (Some (u "CCI")) None None), DIVE_INTO_SUB_GROUP);
((mkLine (Some 224556544623129142625592008370452790357%N) (Some (u "SG10")) (Some (u "CCI")) None None None None None None (Some (u "Referenzprofil")) (Some (928)%Z)), (mkLocation false [(mkLayer None (u "UNH") (Some (u "UTILMD"))); (mkLayer (Some (u "SG4")) (u "IDE") (Some (u "24"))); (mkLayer (Some (u "SG8")) (u "SEQ") (Some (u "Z38"))); (mkLayer (Some (u "SG10")) (u "CCI") (Some (u "Z05")))] (Some (u "CCI")) None None), STAY);
((mkLine (Some 310482791927159811157656789646961196034%N) (Some (u "SG10")) (Some (u "CCI")) (Some (u "7059")) None (Some (u "Z05")) (Some (u "tagesparameterabhängiges Einspeiseprofil")) None None (Some (u "Referenzprofil")) (Some (929)%Z)), (mkLocation false [(mkLayer None (u "UNH") (Some (u "UTILMD"))); (mkLayer (Some (u "SG4")) (u "IDE") (Some (u "24"))); (mkLayer (Some (u "SG8")) (u "SEQ") (Some (u "Z38"))); (mkLayer (Some (u "SG10")) (u "CCI") (Some (u "Z05")))] (Some (u "CCI")) (Some (u "7059")) (Some (u "Z05"))), STAY);
((mkLine (Some 279836485338546529386428598323060943067%N) (Some (u "SG10")) None None None None None None None (Some (u "Referenzprofil")) (Some (931)%Z)), (mkLocation false [(mkLayer None (u "UNH") (Some (u "UTILMD"))); (mkLayer (Some (u "SG4")) (u "IDE") (Some (u "24"))); (mkLayer (Some (u "SG8")) (u "SEQ") (Some (u "Z38"))); (mkLayer (Some (u "SG10")) (u "CCI") (Some (u "Z05")))] (Some (u "CAV")) None None), STAY);
((mkLine (Some 46845918864134588107751039746480003663%N) (Some (u "SG10")) (Some (u "CAV")) None None None None None None (Some (u "Referenzprofil")) (Some (932)%Z)), (mkLocation false [(mkLayer None (u "UNH") (Some (u "UTILMD"))); (mkLayer (Some (u "SG4")) (u "IDE") (Some (u "24"))); (mkLayer (Some (u "SG8")) (u "SEQ") (Some (u "Z38"))); (mkLayer (Some (u "SG10")) (u "CCI") (Some (u "Z05")))] (Some (u "CAV")) None None), STAY);
((mkLine (Some 167481721368255744496252750489338101157%N) (Some (u "SG10")) (Some (u "CAV")) (Some (u "7111")) None None (Some (u "Code des Referenzprofils")) None None (Some (u "Referenzprofil")) (Some (933)%Z)), (mkLocation false [(mkLayer None (u "UNH") (Some (u "UTILMD"))); (mkLayer (Some (u "SG4")) (u "IDE") (Some (u "24"))); (mkLayer (Some (u "SG8")) (u "SEQ") (Some (u "Z38"))); (mkLayer (Some (u "SG10")) (u "CCI") (Some (u "Z05")))] (Some (u "CAV")) (Some (u "7111")) None), STAY);
((mkLine (Some 85454872753185787110624552272807583780%N) (Some (u "SG12")) None None None None None None None (Some (u "Kunde des Lieferanten")) (Some (935)%Z)), (mkLocation false [(mkLayer None (u "UNH") (Some (u "UTILMD"))); (mkLayer (Some (u "SG4")) (u "IDE") (Some (u "24"))); (mkLayer (Some (u "SG12")) (u "NAD") (Some (u "Z09")))] (Some (u "NAD")) None None), LEAVE_TO_PARENT_AND_DIVE_INTO_SUB_GROUP);
((mkLine (Some 78353932844898954650663707251331380194%N) (Some (u "SG12")) (Some (u "NAD")) None None None None None None (Some (u "Kunde des Lieferanten")) (Some (936)%Z)), (mkLocation false [(mkLayer None (u "UNH") (Some (u "UTILMD"))); (mkLayer (Some (u "SG4")) (u "IDE") (Some (u "24"))); (mkLayer (Some (u "SG12")) (u "NAD") (Some (u "Z09")))] (Some (u "NAD")) None None), STAY);
((mkLine (Some 281525723444663804098991106467930608528%N) (Some (u "SG12")) (Some (u "NAD")) (Some (u "3035")) None (Some (u "Z09")) (Some (u "Kunde des LF")) None None (Some (u "Kunde des Lieferanten")) (Some (937)%Z)), (mkLocation false [(mkLayer None (u "UNH") (Some (u "UTILMD"))); (mkLayer (Some (u "SG4")) (u "IDE") (Some (u "24"))); (mkLayer (Some (u "SG12")) (u "NAD") (Some (u "Z09")))] (Some (u "NAD")) (Some (u "3035")) (Some (u "Z09"))), STAY);
((mkLine (Some 230281263520447871435848924600211188411%N) (Some (u "SG12")) (Some (u "NAD")) (Some (u "3036")) None None (Some (u "Name")) None None (Some (u "Kunde des Lieferanten")) (Some (938)%Z)), (mkLocation false [(mkLayer None (u "UNH") (Some (u "UTILMD"))); (mkLayer (Some (u "SG4")) (u "IDE") (Some (u "24"))); (mkLayer (Some (u "SG12")) (u "NAD") (Some (u "Z09")))] (Some (u "NAD")) (Some (u "3036")) None), STAY);
((mkLine (Some 299630882960606841440610474597428244699%N) (Some (u "SG12")) (Some (u "NAD")) (Some (u "3045")) None (Some (u "Z01")) (Some (u "Struktur von Personennamen")) None None (Some (u "Kunde des Lieferanten")) (Some (939)%Z)), (mkLocation false [(mkLayer None (u "UNH") (Some (u "UTILMD"))); (mkLayer (Some (u "SG4")) (u "IDE") (Some (u "24"))); (mkLayer (Some (u "SG12")) (u "NAD") (Some (u "Z09")))] (Some (u "NAD")) (Some (u "3045")) (Some (u "Z01"))), STAY);
((mkLine (Some 65347663696639195533048462717522738300%N) (Some (u "SG12")) (Some (u "NAD")) (Some (u "3045")) None (Some (u "Z02")) (Some (u "Struktur der Firmenbezeichnung")) None None (Some (u "Kunde des Lieferanten")) (Some (940)%Z)), (mkLocation false [(mkLayer None (u "UNH") (Some (u "UTILMD"))); (mkLayer (Some (u "SG4")) (u "IDE") (Some (u "24"))); (mkLayer (Some (u "SG12")) (u "NAD") (Some (u "Z09")))] (Some (u "NAD")) (Some (u "3045")) (Some (u "Z02"))), STAY);
((mkLine (Some 249371092881062564211715620445984403943%N) (Some (u "SG12")) None None None None None None None (Some (u "Referenz auf die ID der Marktlokation")) (Some (942)%Z)), (mkLocation false [(mkLayer None (u "UNH") (Some (u "UTILMD"))); (mkLayer (Some (u "SG4")) (u "IDE") (Some (u "24"))); (mkLayer (Some (u "SG12")) (u "NAD") (Some (u "Z09")))] (Some (u "RFF")) None None), STAY);
((mkLine (Some 118905379068660163862155619732276344554%N) (Some (u "SG12")) (Some (u "RFF")) None None None None None None (Some (u "Referenz auf die ID der Marktlokation")) (Some (943)%Z)), (mkLocation false [(mkLayer None (u "UNH") (Some (u "UTILMD"))); (mkLayer (Some (u "SG4")) (u "IDE") (Some (u "24"))); (mkLayer (Some (u "SG12")) (u "NAD") (Some (u "Z09")))] (Some (u "RFF")) None None), STAY);
((mkLine (Some 326479400866094225809516110102045473031%N) (Some (u "SG12")) (Some (u "RFF")) (Some (u "1153")) None (Some (u "Z18")) (Some (u "Marktlokation")) None None (Some (u "Referenz auf die ID der Marktlokation")) (Some (944)%Z)), (mkLocation false [(mkLayer None (u "UNH") (Some (u "UTILMD"))); (mkLayer (Some (u "SG4")) (u "IDE") (Some (u "24"))); (mkLayer (Some (u "SG12")) (u "NAD") (Some (u "Z09")))] (Some (u "RFF")) (Some (u "1153")) (Some (u "Z18"))), STAY);
((mkLine (Some 318658822445324810139962549164472803119%N) (Some (u "SG12")) (Some (u "RFF")) (Some (u "1154")) None None (Some (u "ID der Marktlokation")) None None (Some (u "Referenz auf die ID der Marktlokation")) (Some (945)%Z)), (mkLocation false [(mkLayer None (u "UNH") (Some (u "UTILMD"))); (mkLayer (Some (u "SG4")) (u "IDE") (Some (u "24"))); (mkLayer (Some (u "SG12")) (u "NAD") (Some (u "Z09")))] (Some (u "RFF")) (Some (u "1154")) None), STAY);
((mkLine (Some 182282302118835352279696322347098135054%N) (Some (u "SG12")) None None None None None None None (Some (u "Korrespondenzanschrift des Kunden des Lieferanten")) (Some (947)%Z)), (mkLocation false [(mkLayer None (u "UNH") (Some (u "UTILMD"))); (mkLayer (Some (u "SG4")) (u "IDE") (Some (u "24"))); (mkLayer (Some (u "SG12")) (u "NAD") (Some (u "Z04")))] (Some (u "NAD")) None None), MOVE_TO_NEIGHBOUR_SAME_KEY);
((mkLine (Some 270932563996597975103014202335631192715%N) (Some (u "SG12")) (Some (u "NAD")) None None None None None None (Some (u "Korrespondenzanschrift des Kunden des Lieferanten")) (Some (949)%Z)), (mkLocation false [(mkLayer None (u "UNH") (Some (u "UTILMD"))); (mkLayer (Some (u "SG4")) (u "IDE") (Some (u "24"))); (mkLayer (Some (u "SG12")) (u "NAD") (Some (u "Z04")))] (Some (u "NAD")) None None), STAY);
((mkLine (Some 5390155258763920145333891993746662207%N) (Some (u "SG12")) (Some (u "NAD")) (Some (u "3035")) None (Some (u "Z04")) (Some (u "Korrespondenzanschriftdes Kunden des LF")) None None (Some (u "Korrespondenzanschrift des Kunden des Lieferanten")) (Some (950)%Z)), (mkLocation false [(mkLayer None (u "UNH") (Some (u "UTILMD"))); (mkLayer (Some (u "SG4")) (u "IDE") (Some (u "24"))); (mkLayer (Some (u "SG12")) (u "NAD") (Some (u "Z04")))] (Some (u "NAD")) (Some (u "3035")) (Some (u "Z04"))), STAY);
((mkLine (Some 97452057140777833776355946350518339938%N) (Some (u "SG12")) (Some (u "NAD")) (Some (u "3036")) None None (Some (u "Name")) None None (Some (u "Korrespondenzanschrift des Kunden des Lieferanten")) (Some (951)%Z)), (mkLocation false [(mkLayer None (u "UNH") (Some (u "UTILMD"))); (mkLayer (Some (u "SG4")) (u "IDE") (Some (u "24"))); (mkLayer (Some (u "SG12")) (u "NAD") (Some (u "Z04")))] (Some (u "NAD")) (Some (u "3036")) None), STAY);
((mkLine (Some 159887394511605341419709177653478719365%N) (Some (u "SG12")) (Some (u "NAD")) (Some (u "3045")) None (Some (u "Z01")) (Some (u "Struktur von Personennamen")) None None (Some (u "Korrespondenzanschrift des Kunden des Lieferanten")) (Some (952)%Z)), (mkLocation false [(mkLayer None (u "UNH") (Some (u "UTILMD"))); (mkLayer (Some (u "SG4")) (u "IDE") (Some (u "24"))); (mkLayer (Some (u "SG12")) (u "NAD") (Some (u "Z04")))] (Some (u "NAD")) (Some (u "3045")) (Some (u "Z01"))), STAY);
((mkLine (Some 206220066674705746908881538457168515554%N) (Some (u "SG12")) (Some (u "NAD")) (Some (u "3045")) None (Some (u "Z02")) (Some (u "Struktur der Firmenbezeichnung")) None None (Some (u "Korrespondenzanschrift des Kunden des Lieferanten")) (Some (953)%Z)), (mkLocation false [(mkLayer None (u "UNH") (Some (u "UTILMD"))); (mkLayer (Some (u "SG4")) (u "IDE") (Some (u "24"))); (mkLayer (Some (u "SG12")) (u "NAD") (Some (u "Z04")))] (Some (u "NAD")) (Some (u "3045")) (Some (u "Z02"))), STAY);
((mkLine (Some 303637471581770268848157522916228558793%N) (Some (u "SG12")) (Some (u "NAD")) (Some (u "3042")) None None (Some (u "Straße und Hausnummer oderPostfach")) None None (Some (u "Korrespondenzanschrift des Kunden des Lieferanten")) (Some (954)%Z)), (mkLocation false [(mkLayer None (u "UNH") (Some (u "UTILMD"))); (mkLayer (Some (u "SG4")) (u "IDE") (Some (u "24"))); (mkLayer (Some (u "SG12")) (u "NAD") (Some (u "Z04")))] (Some (u "NAD")) (Some (u "3042")) None), STAY);
((mkLine (Some 980152952059557917866376199144798969%N) (Some (u "SG12")) (Some (u "NAD")) (Some (u "3164")) None None (Some (u "Ort")) None None (Some (u "Korrespondenzanschrift des Kunden des Lieferanten")) (Some (955)%Z)), (mkLocation false [(mkLayer None (u "UNH") (Some (u "UTILMD"))); (mkLayer (Some (u "SG4")) (u "IDE") (Some (u "24"))); (mkLayer (Some (u "SG12")) (u "NAD") (Some (u "Z04")))] (Some (u "NAD")) (Some (u "3164")) None), STAY);
((mkLine (Some 39357389969242369800917522444124806076%N) (Some (u "SG12")) (Some (u "NAD")) (Some (u "3251")) None None (Some (u "Postleitzahl")) None None (Some (u "Korrespondenzanschrift des Kunden des Lieferanten")) (Some (956)%Z)), (mkLocation false [(mkLayer None (u "UNH") (Some (u "UTILMD"))); (mkLayer (Some (u "SG4")) (u "IDE") (Some (u "24"))); (mkLayer (Some (u "SG12")) (u "NAD") (Some (u "Z04")))] (Some (u "NAD")) (Some (u "3251")) None), STAY);
((mkLine (Some 103187842696064703004148532952209761843%N) (Some (u "SG12")) (Some (u "NAD")) (Some (u "3207")) None None (Some (u "Ländername, Code")) None None (Some (u "Korrespondenzanschrift des Kunden des Lieferanten")) (Some (957)%Z)), (mkLocation false [(mkLayer None (u "UNH") (Some (u "UTILMD"))); (mkLayer (Some (u "SG4")) (u "IDE") (Some (u "24"))); (mkLayer (Some (u "SG12")) (u "NAD") (Some (u "Z04")))] (Some (u "NAD")) (Some (u "3207")) None), STAY);
((mkLine (Some 132309528997055942887321225509913518923%N) (Some (u "SG12")) None None None None None None None (Some (u "Referenz auf die ID der Marktlokation")) (Some (959)%Z)), (mkLocation false [(mkLayer None (u "UNH") (Some (u "UTILMD"))); (mkLayer (Some (u "SG4")) (u "IDE") (Some (u "24"))); (mkLayer (Some (u "SG12")) (u "NAD") (Some (u "Z04")))] (Some (u "RFF")) None None), STAY);
((mkLine (Some 140947150362619502840522665082433051865%N) (Some (u "SG12")) (Some (u "RFF")) None None None None None None (Some (u "Referenz auf die ID der Marktlokation")) (Some (960)%Z)), (mkLocation false [(mkLayer None (u "UNH") (Some (u "UTILMD"))); (mkLayer (Some (u "SG4")) (u "IDE") (Some (u "24"))); (mkLayer (Some (u "SG12")) (u "NAD") (Some (u "Z04")))] (Some (u "RFF")) None None), STAY);
((mkLine (Some 95112260217191339243905782358347231987%N) (Some (u "SG12")) (Some (u "RFF")) (Some (u "1153")) None (Some (u "Z18")) (Some (u "Marktlokation")) None None (Some (u "Referenz auf die ID der Marktlokation")) (Some (961)%Z)), (mkLocation false [(mkLayer None (u "UNH") (Some (u "UTILMD"))); (mkLayer (Some (u "SG4")) (u "IDE") (Some (u "24"))); (mkLayer (Some (u "SG12")) (u "NAD") (Some (u "Z04")))] (Some (u "RFF")) (Some (u "1153")) (Some (u "Z18"))), STAY);
((mkLine (Some 125667542238790610452375648629912480802%N) (Some (u "SG12")) (Some (u "RFF")) (Some (u "1154")) None None (Some (u "ID der Marktlokation")) None None (Some (u "Referenz auf die ID der Marktlokation")) (Some (962)%Z)), (mkLocation false [(mkLayer None (u "UNH") (Some (u "UTILMD"))); (mkLayer (Some (u "SG4")) (u "IDE") (Some (u "24"))); (mkLayer (Some (u "SG12")) (u "NAD") (Some (u "Z04")))] (Some (u "RFF")) (Some (u "1154")) None), STAY);
((mkLine (Some 53804524452946067183003932328672082536%N) (Some (u "SG12")) None None None None None (Some (u "Muss")) None (Some (u "Kunde des Messstellenbetreibers")) (Some (964)%Z)), (mkLocation false [(mkLayer None (u "UNH") (Some (u "UTILMD"))); (mkLayer (Some (u "SG4")) (u "IDE") (Some (u "24"))); (mkLayer (Some (u "SG12")) (u "NAD") (Some (u "Z07")))] (Some (u "NAD")) None None), MOVE_TO_NEIGHBOUR_SAME_KEY);
((mkLine (Some 303933873491903645447732260153982322944%N) (Some (u "SG12")) (Some (u "NAD")) None None None None (Some (u "Muss")) None (Some (u "Kunde des Messstellenbetreibers")) (Some (965)%Z)), (mkLocation false [(mkLayer None (u "UNH") (Some (u "UTILMD"))); (mkLayer (Some (u "SG4")) (u "IDE") (Some (u "24"))); (mkLayer (Some (u "SG12")) (u "NAD") (Some (u "Z07")))] (Some (u "NAD")) None None), STAY);
((mkLine (Some 117614540495965068808650828231376008035%N) (Some (u "SG12")) (Some (u "NAD")) (Some (u "3035")) None (Some (u "Z07")) (Some (u "Kunde des MSB")) (Some (u "X")) None (Some (u "Kunde des Messstellenbetreibers")) (Some (966)%Z)), (mkLocation false [(mkLayer None (u "UNH") (Some (u "UTILMD"))); (mkLayer (Some (u "SG4")) (u "IDE") (Some (u "24"))); (mkLayer (Some (u "SG12")) (u "NAD") (Some (u "Z07")))] (Some (u "NAD")) (Some (u "3035")) (Some (u "Z07"))), STAY);
((mkLine (Some 217587524337040889327332074127763825448%N) (Some (u "SG12")) (Some (u "NAD")) (Some (u "3036")) None None (Some (u "Name")) (Some (u "X")) None (Some (u "Kunde des Messstellenbetreibers")) (Some (967)%Z)), (mkLocation false [(mkLayer None (u "UNH") (Some (u "UTILMD"))); (mkLayer (Some (u "SG4")) (u "IDE") (Some (u "24"))); (mkLayer (Some (u "SG12")) (u "NAD") (Some (u "Z07")))] (Some (u "NAD")) (Some (u "3036")) None), STAY);
((mkLine (Some 140914321374778029575457457247006333%N) (Some (u "SG12")) (Some (u "NAD")) (Some (u "3045")) None (Some (u "Z01")) (Some (u "Struktur von Personennamen")) (Some (u "X")) None (Some (u "Kunde des Messstellenbetreibers")) (Some (968)%Z)), (mkLocation false [(mkLayer None (u "UNH") (Some (u "UTILMD"))); (mkLayer (Some (u "SG4")) (u "IDE") (Some (u "24"))); (mkLayer (Some (u "SG12")) (u "NAD") (Some (u "Z07")))] (Some (u "NAD")) (Some (u "3045")) (Some (u "Z01"))), STAY);
((mkLine (Some 117755396571268165370179531800327964069%N) (Some (u "SG12")) (Some (u "NAD")) (Some (u "3045")) None (Some (u "Z02")) (Some (u "Struktur der Firmenbezeichnung")) (Some (u "X")) None (Some (u "Kunde des Messstellenbetreibers")) (Some (969)%Z)), (mkLocation false [(mkLayer None (u "UNH") (Some (u "UTILMD"))); (mkLayer (Some (u "SG4")) (u "IDE") (Some (u "24"))); (mkLayer (Some (u "SG12")) (u "NAD") (Some (u "Z07")))] (Some (u "NAD")) (Some (u "3045")) (Some (u "Z02"))), STAY);
((mkLine (Some 322670398180958106226706272950728328685%N) (Some (u "SG12")) None None None None None None None (Some (u "Referenz auf die ID der Messlokation")) (Some (971)%Z)), (mkLocation false [(mkLayer None (u "UNH") (Some (u "UTILMD"))); (mkLayer (Some (u "SG4")) (u "IDE") (Some (u "24"))); (mkLayer (Some (u "SG12")) (u "NAD") (Some (u "Z07")))] (Some (u "RFF")) None None), STAY);
((mkLine (Some 207730686161856596615186319336988049946%N) (Some (u "SG12")) (Some (u "RFF")) None None None None None None (Some (u "Referenz auf die ID der Messlokation")) (Some (972)%Z)), (mkLocation false [(mkLayer None (u "UNH") (Some (u "UTILMD"))); (mkLayer (Some (u "SG4")) (u "IDE") (Some (u "24"))); (mkLayer (Some (u "SG12")) (u "NAD") (Some (u "Z07")))] (Some (u "RFF")) None None), STAY);
((mkLine (Some 237558523944310997986168211396793376913%N) (Some (u "SG12")) (Some (u "RFF")) (Some (u "1153")) None (Some (u "Z19")) (Some (u "Messlokation")) None None (Some (u "Referenz auf die ID der Messlokation")) (Some (973)%Z)), (mkLocation false [(mkLayer None (u "UNH") (Some (u "UTILMD"))); (mkLayer (Some (u "SG4")) (u "IDE") (Some (u "24"))); (mkLayer (Some (u "SG12")) (u "NAD") (Some (u "Z07")))] (Some (u "RFF")) (Some (u "1153")) (Some (u "Z19"))), STAY);
((mkLine (Some 27000451609774043170933603928379026552%N) (Some (u "SG12")) (Some (u "RFF")) (Some (u "1154")) None None (Some (u "ID der Messlokation")) None None (Some (u "Referenz auf die ID der Messlokation")) (Some (974)%Z)), (mkLocation false [(mkLayer None (u "UNH") (Some (u "UTILMD"))); (mkLayer (Some (u "SG4")) (u "IDE") (Some (u "24"))); (mkLayer (Some (u "SG12")) (u "NAD") (Some (u "Z07")))] (Some (u "RFF")) (Some (u "1154")) None), STAY);
((mkLine (Some 312702279858921884703979727889326101400%N) (Some (u "SG12")) None None None None None (Some (u "Muss")) None (Some (u "Korrespondenzanschrift des Kunden des Messstellenbetreibers")) (Some (976)%Z)), (mkLocation false [(mkLayer None (u "UNH") (Some (u "UTILMD"))); (mkLayer (Some (u "SG4")) (u "IDE") (Some (u "24"))); (mkLayer (Some (u "SG12")) (u "NAD") (Some (u "Z08")))] (Some (u "NAD")) None None), MOVE_TO_NEIGHBOUR_SAME_KEY);
((mkLine (Some 245331143036474299524313264789797925557%N) (Some (u "SG12")) (Some (u "NAD")) None None None None (Some (u "Muss")) None (Some (u "Korrespondenzanschrift des Kunden des Messstellenbetreibers")) (Some (977)%Z)), (mkLocation false [(mkLayer None (u "UNH") (Some (u "UTILMD"))); (mkLayer (Some (u "SG4")) (u "IDE") (Some (u "24"))); (mkLayer (Some (u "SG12")) (u "NAD") (Some (u "Z08")))] (Some (u "NAD")) None None), STAY);
((mkLine (Some 297125742295615511725283491402264827919%N) (Some (u "SG12")) (Some (u "NAD")) (Some (u "3035")) None (Some (u "Z08")) (Some (u "Korrespondenzanschriftdes Kunden des MSB")) (Some (u "X")) None (Some (u "Korrespondenzanschrift des Kunden des Messstellenbetreibers")) (Some (978)%Z)), (mkLocation false [(mkLayer None (u "UNH") (Some (u "UTILMD"))); (mkLayer (Some (u "SG4")) (u "IDE") (Some (u "24"))); (mkLayer (Some (u "SG12")) (u "NAD") (Some (u "Z08")))] (Some (u "NAD")) (Some (u "3035")) (Some (u "Z08"))), STAY);
((mkLine (Some 120394156487894094727317550094910524651%N) (Some (u "SG12")) (Some (u "NAD")) (Some (u "3036")) None None (Some (u "Name")) (Some (u "X")) None (Some (u "Korrespondenzanschrift des Kunden des Messstellenbetreibers")) (Some (979)%Z)), (mkLocation false [(mkLayer None (u "UNH") (Some (u "UTILMD"))); (mkLayer (Some (u "SG4")) (u "IDE") (Some (u "24"))); (mkLayer (Some (u "SG12")) (u "NAD") (Some (u "Z08")))] (Some (u "NAD")) (Some (u "3036")) None), STAY);
((mkLine (Some 225314549216293921149126416728198996477%N) (Some (u "SG12")) (Some (u "NAD")) (Some (u "3045")) None (Some (u "Z01")) (Some (u "Struktur von Personennamen")) (Some (u "X")) None (Some (u "Korrespondenzanschrift des Kunden des Messstellenbetreibers")) (Some (980)%Z)), (mkLocation false [(mkLayer None (u "UNH") (Some (u "UTILMD"))); (mkLayer (Some (u "SG4")) (u "IDE") (Some (u "24"))); (mkLayer (Some (u "SG12")) (u "NAD") (Some (u "Z08")))] (Some (u "NAD")) (Some (u "3045")) (Some (u "Z01"))), STAY);
((mkLine (Some 328808986303109565807818059020213773196%N) (Some (u "SG12")) (Some (u "NAD")) (Some (u "3045")) None (Some (u "Z02")) (Some (u "Struktur der Firmenbezeichnung")) (Some (u "X")) None (Some (u "Korrespondenzanschrift des Kunden des Messstellenbetreibers")) (Some (981)%Z)), (mkLocation false [(mkLayer None (u "UNH") (Some (u "UTILMD"))); (mkLayer (Some (u "SG4")) (u "IDE") (Some (u "24"))); (mkLayer (Some (u "SG12")) (u "NAD") (Some (u "Z08")))] (Some (u "NAD")) (Some (u "3045")) (Some (u "Z02"))), STAY);
((mkLine (Some 337927139395764984988441612369168027863%N) (Some (u "SG12")) (Some (u "NAD")) (Some (u "3042")) None None (Some (u "Straße und Hausnummer oderPostfach")) (Some (u "X")) None (Some (u "Korrespondenzanschrift des Kunden des Messstellenbetreibers")) (Some (982)%Z)), (mkLocation false [(mkLayer None (u "UNH") (Some (u "UTILMD"))); (mkLayer (Some (u "SG4")) (u "IDE") (Some (u "24"))); (mkLayer (Some (u "SG12")) (u "NAD") (Some (u "Z08")))] (Some (u "NAD")) (Some (u "3042")) None), STAY);
((mkLine (Some 61547997651263295597435304320221167024%N) (Some (u "SG12")) (Some (u "NAD")) (Some (u "3164")) None None (Some (u "Ort")) (Some (u "X")) None (Some (u "Korrespondenzanschrift des Kunden des Messstellenbetreibers")) (Some (983)%Z)), (mkLocation false [(mkLayer None (u "UNH") (Some (u "UTILMD"))); (mkLayer (Some (u "SG4")) (u "IDE") (Some (u "24"))); (mkLayer (Some (u "SG12")) (u "NAD") (Some (u "Z08")))] (Some (u "NAD")) (Some (u "3164")) None), STAY);
((mkLine (Some 294213641991642825910786346562794389755%N) (Some (u "SG12")) (Some (u "NAD")) (Some (u "3251")) None None (Some (u "Postleitzahl")) (Some (u "M [268]S [166]")) None (Some (u "Korrespondenzanschrift des Kunden des Messstellenbetreibers")) (Some (984)%Z)), (mkLocation false [(mkLayer None (u "UNH") (Some (u "UTILMD"))); (mkLayer (Some (u "SG4")) (u "IDE") (Some (u "24"))); (mkLayer (Some (u "SG12")) (u "NAD") (Some (u "Z08")))] (Some (u "NAD")) (Some (u "3251")) None), STAY);
((mkLine (Some 183823901337713610554407654969650218097%N) (Some (u "SG12")) (Some (u "NAD")) (Some (u "3207")) None None (Some (u "Ländername, Code")) (Some (u "X")) None (Some (u "Korrespondenzanschrift des Kunden des Messstellenbetreibers")) (Some (985)%Z)), (mkLocation false [(mkLayer None (u "UNH") (Some (u "UTILMD"))); (mkLayer (Some (u "SG4")) (u "IDE") (Some (u "24"))); (mkLayer (Some (u "SG12")) (u "NAD") (Some (u "Z08")))] (Some (u "NAD")) (Some (u "3207")) None), STAY);
((mkLine (Some 64088059891084323087946900782774991787%N) (Some (u "SG12")) None None None None None None None (Some (u "Referenz auf die ID der Marktlokation")) (Some (987)%Z)), (mkLocation false [(mkLayer None (u "UNH") (Some (u "UTILMD"))); (mkLayer (Some (u "SG4")) (u "IDE") (Some (u "24"))); (mkLayer (Some (u "SG12")) (u "NAD") (Some (u "Z08")))] (Some (u "RFF")) None None), STAY);
((mkLine (Some 316432187859836529770437149573753045361%N) (Some (u "SG12")) (Some (u "RFF")) None None None None None None (Some (u "Referenz auf die ID der Marktlokation")) (Some (988)%Z)), (mkLocation false [(mkLayer None (u "UNH") (Some (u "UTILMD"))); (mkLayer (Some (u "SG4")) (u "IDE") (Some (u "24"))); (mkLayer (Some (u "SG12")) (u "NAD") (Some (u "Z08")))] (Some (u "RFF")) None None), STAY);
((mkLine (Some 80020956969468357687601753815684648918%N) (Some (u "SG12")) (Some (u "RFF")) (Some (u "1153")) None (Some (u "Z18")) (Some (u "Marktlokation")) None None (Some (u "Referenz auf die ID der Marktlokation")) (Some (989)%Z)), (mkLocation false [(mkLayer None (u "UNH") (Some (u "UTILMD"))); (mkLayer (Some (u "SG4")) (u "IDE") (Some (u "24"))); (mkLayer (Some (u "SG12")) (u "NAD") (Some (u "Z08")))] (Some (u "RFF")) (Some (u "1153")) (Some (u "Z18"))), STAY);
((mkLine (Some 79909534349511696831443850254594302866%N) (Some (u "SG12")) (Some (u "RFF")) (Some (u "1154")) None None (Some (u "ID der Marktlokation")) None None (Some (u "Referenz auf die ID der Marktlokation")) (Some (990)%Z)), (mkLocation false [(mkLayer None (u "UNH") (Some (u "UTILMD"))); (mkLayer (Some (u "SG4")) (u "IDE") (Some (u "24"))); (mkLayer (Some (u "SG12")) (u "NAD") (Some (u "Z08")))] (Some (u "RFF")) (Some (u "1154")) None), STAY);
((mkLine (Some 66891206033409279505987521588764603330%N) (Some (u "SG12")) None None None None None (Some (u "Soll [165]")) None (Some (u "Messlokationsadresse")) (Some (992)%Z)), (mkLocation false [(mkLayer None (u "UNH") (Some (u "UTILMD"))); (mkLayer (Some (u "SG4")) (u "IDE") (Some (u "24"))); (mkLayer (Some (u "SG12")) (u "NAD") (Some (u "Z03")))] (Some (u "NAD")) None None), MOVE_TO_NEIGHBOUR_SAME_KEY);
((mkLine (Some 51450032338475536758594898237674366648%N) (Some (u "SG12")) (Some (u "NAD")) None None None None (Some (u "Muss")) None (Some (u "Messlokationsadresse")) (Some (993)%Z)), (mkLocation false [(mkLayer None (u "UNH") (Some (u "UTILMD"))); (mkLayer (Some (u "SG4")) (u "IDE") (Some (u "24"))); (mkLayer (Some (u "SG12")) (u "NAD") (Some (u "Z03")))] (Some (u "NAD")) None None), STAY);
((mkLine (Some 135223790949090517244693944198207762022%N) (Some (u "SG12")) (Some (u "NAD")) (Some (u "3035")) None (Some (u "Z03")) (Some (u "Messlokationsadresse")) (Some (u "X")) None (Some (u "Messlokationsadresse")) (Some (994)%Z)), (mkLocation false [(mkLayer None (u "UNH") (Some (u "UTILMD"))); (mkLayer (Some (u "SG4")) (u "IDE") (Some (u "24"))); (mkLayer (Some (u "SG12")) (u "NAD") (Some (u "Z03")))] (Some (u "NAD")) (Some (u "3035")) (Some (u "Z03"))), STAY);
((mkLine (Some 174044742093833912857939499728431259328%N) (Some (u "SG12")) (Some (u "NAD")) (Some (u "3124")) None None (Some (u "Zusatzinformation zurIdentifizierung")) (Some (u "K")) None (Some (u "Messlokationsadresse")) (Some (995)%Z)), (mkLocation false [(mkLayer None (u "UNH") (Some (u "UTILMD"))); (mkLayer (Some (u "SG4")) (u "IDE") (Some (u "24"))); (mkLayer (Some (u "SG12")) (u "NAD") (Some (u "Z03")))] (Some (u "NAD")) (Some (u "3124")) None), STAY);
((mkLine (Some 149687630562324993754692672637230607628%N) (Some (u "SG12")) (Some (u "NAD")) (Some (u "3042")) None None (Some (u "Straße und Hausnummer oderPostfach")) (Some (u "S [166]M [212]")) None (Some (u "Messlokationsadresse")) (Some (996)%Z)), (mkLocation false [(mkLayer None (u "UNH") (Some (u "UTILMD"))); (mkLayer (Some (u "SG4")) (u "IDE") (Some (u "24"))); (mkLayer (Some (u "SG12")) (u "NAD") (Some (u "Z03")))] (Some (u "NAD")) (Some (u "3042")) None), STAY);
((mkLine (Some 128784061859362270149240795058232710445%N) (Some (u "SG12")) (Some (u "NAD")) (Some (u "3164")) None None (Some (u "Ort")) (Some (u "X")) None (Some (u "Messlokationsadresse")) (Some (997)%Z)), (mkLocation false [(mkLayer None (u "UNH") (Some (u "UTILMD"))); (mkLayer (Some (u "SG4")) (u "IDE") (Some (u "24"))); (mkLayer (Some (u "SG12")) (u "NAD") (Some (u "Z03")))] (Some (u "NAD")) (Some (u "3164")) None), STAY);
((mkLine (Some 192604486160747519304783802827794401026%N) (Some (u "SG12")) (Some (u "NAD")) (Some (u "3251")) None None (Some (u "Postleitzahl")) (Some (u "X")) None (Some (u "Messlokationsadresse")) (Some (998)%Z)), (mkLocation false [(mkLayer None (u "UNH") (Some (u "UTILMD"))); (mkLayer (Some (u "SG4")) (u "IDE") (Some (u "24"))); (mkLayer (Some (u "SG12")) (u "NAD") (Some (u "Z03")))] (Some (u "NAD")) (Some (u "3251")) None), STAY);
((mkLine (Some 189523925801573712976296376886140480041%N) (Some (u "SG12")) (Some (u "NAD")) (Some (u "3207")) None None (Some (u "Ländername, Code")) (Some (u "X")) None (Some (u "Messlokationsadresse")) (Some (999)%Z)), (mkLocation false [(mkLayer None (u "UNH") (Some (u "UTILMD"))); (mkLayer (Some (u "SG4")) (u "IDE") (Some (u "24"))); (mkLayer (Some (u "SG12")) (u "NAD") (Some (u "Z03")))] (Some (u "NAD")) (Some (u "3207")) None), STAY);
((mkLine (Some 208549625027373759190612077749468599239%N) (Some (u "SG12")) None None None None None None None (Some (u "Referenz auf die ID einer Messlokation")) (Some (1001)%Z)), (mkLocation false [(mkLayer None (u "UNH") (Some (u "UTILMD"))); (mkLayer (Some (u "SG4")) (u "IDE") (Some (u "24"))); (mkLayer (Some (u "SG12")) (u "NAD") (Some (u "Z03")))] (Some (u "RFF")) None None), STAY);
((mkLine (Some 50620944437050564875955137543890584376%N) (Some (u "SG12")) (Some (u "RFF")) None None None None None None (Some (u "Referenz auf die ID einer Messlokation")) (Some (1002)%Z)), (mkLocation false [(mkLayer None (u "UNH") (Some (u "UTILMD"))); (mkLayer (Some (u "SG4")) (u "IDE") (Some (u "24"))); (mkLayer (Some (u "SG12")) (u "NAD") (Some (u "Z03")))] (Some (u "RFF")) None None), STAY);
((mkLine (Some 123075694401862969375561744409678685700%N) (Some (u "SG12")) (Some (u "RFF")) (Some (u "1153")) None (Some (u "Z19")) (Some (u "Messlokation")) None None (Some (u "Referenz auf die ID einer Messlokation")) (Some (1003)%Z)), (mkLocation false [(mkLayer None (u "UNH") (Some (u "UTILMD"))); (mkLayer (Some (u "SG4")) (u "IDE") (Some (u "24"))); (mkLayer (Some (u "SG12")) (u "NAD") (Some (u "Z03")))] (Some (u "RFF")) (Some (u "1153")) (Some (u "Z19"))), STAY);
((mkLine (Some 2326999021961364036901251268496274805%N) (Some (u "SG12")) (Some (u "RFF")) (Some (u "1154")) None None (Some (u "ID einer Messlokation")) None None (Some (u "Referenz auf die ID einer Messlokation")) (Some (1004)%Z)), (mkLocation false [(mkLayer None (u "UNH") (Some (u "UTILMD"))); (mkLayer (Some (u "SG4")) (u "IDE") (Some (u "24"))); (mkLayer (Some (u "SG12")) (u "NAD") (Some (u "Z03")))] (Some (u "RFF")) (Some (u "1154")) None), STAY);
((mkLine (Some 113811887534699803122411622212730530454%N) (Some (u "SG12")) None None None None None (Some (u "Muss")) None (Some (u "Name und Adresse für die Ablesekarte")) (Some (1006)%Z)), (mkLocation false [(mkLayer None (u "UNH") (Some (u "UTILMD"))); (mkLayer (Some (u "SG4")) (u "IDE") (Some (u "24"))); (mkLayer (Some (u "SG12")) (u "NAD") (Some (u "Z05")))] (Some (u "NAD")) None None), MOVE_TO_NEIGHBOUR_SAME_KEY);
((mkLine (Some 13793608085532636774225849964141429934%N) (Some (u "SG12")) (Some (u "NAD")) None None None None (Some (u "Muss")) None (Some (u "Name und Adresse für die Ablesekarte")) (Some (1007)%Z)), (mkLocation false [(mkLayer None (u "UNH") (Some (u "UTILMD"))); (mkLayer (Some (u "SG4")) (u "IDE") (Some (u "24"))); (mkLayer (Some (u "SG12")) (u "NAD") (Some (u "Z05")))] (Some (u "NAD")) None None), STAY);
((mkLine (Some 306911522257298422481461676039721894344%N) (Some (u "SG12")) (Some (u "NAD")) (Some (u "3035")) None (Some (u "Z05")) (Some (u "Name und Adresse fürdie Ablesekarte")) (Some (u "X")) None (Some (u "Name und Adresse für die Ablesekarte")) (Some (1008)%Z)), (mkLocation false [(mkLayer None (u "UNH") (Some (u "UTILMD"))); (mkLayer (Some (u "SG4")) (u "IDE") (Some (u "24"))); (mkLayer (Some (u "SG12")) (u "NAD") (Some (u "Z05")))] (Some (u "NAD")) (Some (u "3035")) (Some (u "Z05"))), STAY);
((mkLine (Some 260200743087251050379772166439981391535%N) (Some (u "SG12")) (Some (u "NAD")) (Some (u "3036")) None None (Some (u "Name")) (Some (u "X")) None (Some (u "Name und Adresse für die Ablesekarte")) (Some (1009)%Z)), (mkLocation false [(mkLayer None (u "UNH") (Some (u "UTILMD"))); (mkLayer (Some (u "SG4")) (u "IDE") (Some (u "24"))); (mkLayer (Some (u "SG12")) (u "NAD") (Some (u "Z05")))] (Some (u "NAD")) (Some (u "3036")) None), STAY);
((mkLine (Some 255620392637817441769740324598188117298%N) (Some (u "SG12")) (Some (u "NAD")) (Some (u "3045")) None (Some (u "Z01")) (Some (u "Struktur von Personennamen")) (Some (u "X")) None (Some (u "Name und Adresse für die Ablesekarte")) (Some (1010)%Z)), (mkLocation false [(mkLayer None (u "UNH") (Some (u "UTILMD"))); (mkLayer (Some (u "SG4")) (u "IDE") (Some (u "24"))); (mkLayer (Some (u "SG12")) (u "NAD") (Some (u "Z05")))] (Some (u "NAD")) (Some (u "3045")) (Some (u "Z01"))), STAY);
((mkLine (Some 320796663887479840520857301742076734540%N) (Some (u "SG12")) (Some (u "NAD")) (Some (u "3045")) None (Some (u "Z02")) (Some (u "Struktur der Firmenbezeichnung")) (Some (u "X")) None (Some (u "Name und Adresse für die Ablesekarte")) (Some (1011)%Z)), (mkLocation false [(mkLayer None (u "UNH") (Some (u "UTILMD"))); (mkLayer (Some (u "SG4")) (u "IDE") (Some (u "24"))); (mkLayer (Some (u "SG12")) (u "NAD") (Some (u "Z05")))] (Some (u "NAD")) (Some (u "3045")) (Some (u "Z02"))), STAY);
((mkLine (Some 74654203167124595116178923263960727834%N) (Some (u "SG12")) (Some (u "NAD")) (Some (u "3042")) None None (Some (u "Straße und Hausnummer oderPostfach")) (Some (u "X")) None (Some (u "Name und Adresse für die Ablesekarte")) (Some (1012)%Z)), (mkLocation false [(mkLayer None (u "UNH") (Some (u "UTILMD"))); (mkLayer (Some (u "SG4")) (u "IDE") (Some (u "24"))); (mkLayer (Some (u "SG12")) (u "NAD") (Some (u "Z05")))] (Some (u "NAD")) (Some (u "3042")) None), STAY);
((mkLine (Some 296118773331820316265121401148055395057%N) (Some (u "SG12")) (Some (u "NAD")) (Some (u "3164")) None None (Some (u "Ort")) (Some (u "X")) None (Some (u "Name und Adresse für die Ablesekarte")) (Some (1013)%Z)), (mkLocation false [(mkLayer None (u "UNH") (Some (u "UTILMD"))); (mkLayer (Some (u "SG4")) (u "IDE") (Some (u "24"))); (mkLayer (Some (u "SG12")) (u "NAD") (Some (u "Z05")))] (Some (u "NAD")) (Some (u "3164")) None), STAY);
((mkLine (Some 132978367621087988160057443867754885033%N) (Some (u "SG12")) (Some (u "NAD")) (Some (u "3251")) None None (Some (u "Postleitzahl")) (Some (u "M [268]S [166]")) None (Some (u "Name und Adresse für die Ablesekarte")) (Some (1014)%Z)), (mkLocation false [(mkLayer None (u "UNH") (Some (u "UTILMD"))); (mkLayer (Some (u "SG4")) (u "IDE") (Some (u "24"))); (mkLayer (Some (u "SG12")) (u "NAD") (Some (u "Z05")))] (Some (u "NAD")) (Some (u "3251")) None), STAY);
((mkLine (Some 326167125754478955231434202491599287662%N) (Some (u "SG12")) (Some (u "NAD")) (Some (u "3207")) None None (Some (u "Ländername, Code")) (Some (u "X")) None (Some (u "Name und Adresse für die Ablesekarte")) (Some (1015)%Z)), (mkLocation false [(mkLayer None (u "UNH") (Some (u "UTILMD"))); (mkLayer (Some (u "SG4")) (u "IDE") (Some (u "24"))); (mkLayer (Some (u "SG12")) (u "NAD") (Some (u "Z05")))] (Some (u "NAD")) (Some (u "3207")) None), STAY);
((mkLine (Some 245731472837994861803817027293737448465%N) (Some (u "SG12")) None None None None None None None (Some (u "Referenz auf die ID einer Messlokation")) (Some (1017)%Z)), (mkLocation false [(mkLayer None (u "UNH") (Some (u "UTILMD"))); (mkLayer (Some (u "SG4")) (u "IDE") (Some (u "24"))); (mkLayer (Some (u "SG12")) (u "NAD") (Some (u "Z05")))] (Some (u "RFF")) None None), STAY);
((mkLine (Some 63320457321208715453220310096669918067%N) (Some (u "SG12")) (Some (u "RFF")) None None None None (Some (u "Kann")) None (Some (u "Referenz auf die ID einer Messlokation")) (Some (1018)%Z)), (mkLocation false [(mkLayer None (u "UNH") (Some (u "UTILMD"))); (mkLayer (Some (u "SG4")) (u "IDE") (Some (u "24"))); (mkLayer (Some (u "SG12")) (u "NAD") (Some (u "Z05")))] (Some (u "RFF")) None None), STAY);
((mkLine (Some 134458096175802577557763289421876768196%N) (Some (u "SG12")) (Some (u "RFF")) (Some (u "1153")) None (Some (u "Z19")) (Some (u "Messlokation")) (Some (u "X")) None (Some (u "Referenz auf die ID einer Messlokation")) (Some (1019)%Z)), (mkLocation false [(mkLayer None (u "UNH") (Some (u "UTILMD"))); (mkLayer (Some (u "SG4")) (u "IDE") (Some (u "24"))); (mkLayer (Some (u "SG12")) (u "NAD") (Some (u "Z05")))] (Some (u "RFF")) (Some (u "1153")) (Some (u "Z19"))), STAY);
((mkLine (Some 35144681653724881597134288172485157090%N) (Some (u "SG12")) (Some (u "RFF")) (Some (u "1154")) None None (Some (u "ID einer Messlokation")) (Some (u "X [951]")) None (Some (u "Referenz auf die ID einer Messlokation")) (Some (1020)%Z)), (mkLocation false [(mkLayer None (u "UNH") (Some (u "UTILMD"))); (mkLayer (Some (u "SG4")) (u "IDE") (Some (u "24"))); (mkLayer (Some (u "SG12")) (u "NAD") (Some (u "Z05")))] (Some (u "RFF")) (Some (u "1154")) None), STAY);
((mkLine (Some 212891682722631677929899680616709051578%N) None (Some (u "UNT")) None None None None (Some (u "Muss")) None (Some (u "Nachrichten-Endesegment")) (Some (1022)%Z)), (mkLocation false [(mkLayer None (u "UNT") None)] (Some (u "UNT")) None None), LEAVE_TO_PARENT_AND_DIVE_INTO_SUB_GROUP);
((mkLine (Some 173310104854088395577527344371530882309%N) None (Some (u "UNT")) (Some (u "0074")) None None (Some (u "Anzahl der Segmente in einerNachricht")) (Some (u "X")) None (Some (u "Nachrichten-Endesegment")) (Some (1023)%Z)), (mkLocation false [(mkLayer None (u "UNT") None)] (Some (u "UNT")) (Some (u "0074")) None), STAY);
((mkLine (Some 121635629482521570917763505862270742134%N) None (Some (u "UNT")) (Some (u "0062")) None None (Some (u "Nachrichten-Referenznummer")) (Some (u "X")) None (Some (u "Nachrichten-Endesegment")) (Some (1024)%Z)), (mkLocation false [(mkLayer None (u "UNT") None)] (Some (u "UNT")) (Some (u "0062")) None), STAY)].
(** tests/unit_tests/example_data_11042.py *)
Definition example_lines : list AhbLine := map (fun x => fst (fst x)) example.
(** tests/unit_tests/test_navigation.py:551 *)
Example test_determine_locations_1 :
  match determine_locations example_sgh example_lines with Ok l => map snd l | Raise _ => [] end = map (fun x => snd (fst x)) example.
Proof. vm_compute. repeat split; reflexivity. Qed.
(** tests/unit_tests/test_navigation.py:558 *)
Example test_determine_differential_changes_1 :
  match determine_hierarchy_changes example_lines example_sgh with Ok l => map snd l | Raise _ => [] end = map snd example.
Proof. vm_compute. repeat split; reflexivity. Qed.
