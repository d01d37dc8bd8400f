(** Generated by tools/gen_tests.py from tests/unit_tests/test_ahb_csv_reader.py: a test of the model, not a proof.
    The model is evaluated on the arguments of the project's own unit tests and compared with the values expected there. *)
From Coq Require Import Ascii String List NArith ZArith Bool.
From Verif Require Import PyBase PyStr M_Components M_Ahb M_CsvReader M_JsonText M_CsvText.
Import ListNotations.
Local Open Scope list_scope.

(** tests/unit_tests/ahbs/FV2204/UTILMD/11042.csv; its lines end with carriage return and line feed *)
Definition csv_bytes : list N := flat_map (fun l => bytes_of l ++ [13; 10]%N) [
",Segment Gruppe,Segment,Datenelement,Codes und Qualifier,Beschreibung,11042,Bedingung";
"0,Nachrichten-Kopfsegment,,,,,,";
"1,,UNH,,,,Muss,";
"2,,UNH,0062,Nachrichten-Referenznummer,,X,";
"3,,UNH,0065,UTILMD,Netzanschluss-Stammdaten,X,";
"4,,UNH,0052,D,Entwurfs-Version,X,";
"5,,UNH,0054,11A,Ausgabe 2011 - A,X,";
"6,,UNH,0051,UN,UN/CEFACT,X,";
"7,,UNH,0057,5.2d,Versionsnummer derzugrundeliegendenBDEW-Nachrichtenbeschreibung,X,";
"8,Beginn der Nachricht,,,,,,";
"9,,BGM,,,,Muss,";
"10,,BGM,1001,E01,Anmeldungen,X,";
"11,,BGM,1004,Dokumentennummer,,X,";
"12,Nachrichtendatum,,,,,,";
"13,,DTM,,,,Muss,";
"14,,DTM,2005,137,Dokumenten-/Nachrichtendatum/-zeit,X,";
"15,,DTM,2380,""Datum oder Uhrzeit oderZeitspanne, Wert"",,X [931] [494],""[494] Der Wert muss ≤ der zum Erzeugungszeitpunkt sein.";
"[931] Format: ZZZ = +00""";
"16,,DTM,2379,303,CCYYMMDDHHMMZZZ,X,";
"17,MP-ID Absender,,,,,,";
"18,SG2,,,,,Muss,";
"19,SG2,NAD,,,,Muss,";
"20,SG2,NAD,3035,MS ,Dokumenten-/Nachrichtenausstellerbzw. -absender,X,";
"21,SG2,NAD,3039,MP-ID,,X,";
"22,SG2,NAD,3055,9,GS1,X,";
"23,SG2,NAD,3055,293,""DE, BDEW (Bundesverband der Energie- und Wasserwirtschaft e.V.)"",X,";
"24,SG2,NAD,3055,332,""DE, DVGW Service & Consult GmbH"",X,";
"25,Ansprechpartner,,,,,,";
"26,SG3,,,,,Kann,";
"27,SG3,CTA,,,,Muss,";
"28,SG3,CTA,3139,IC,Informationskontakt,X,";
"29,SG3,CTA,3412,Name vom Ansprechpartner,,X,";
"30,Kommunikationsverbindung,,,,,,";
"31,SG3,,,,,,";
"32,SG3,COM,,,,Muss,";
"33,SG3,COM,3148,Nummer / Adresse,,X,";
"34,SG3,COM,3155,EM,Elektronische Post,X [1P0..1],";
"35,SG3,COM,3155,FX,Telefax,X [1P0..1],";
"36,SG3,COM,3155,TE,Telefon,X [1P0..1],";
"37,SG3,COM,3155,AJ,weiteres Telefon,X [1P0..1],";
"38,SG3,COM,3155,AL,Handy,X [1P0..1],";
"39,MP-ID Empfänger,,,,,,";
"40,SG2,,,,,Muss,";
"41,SG2,NAD,,,,Muss,";
"42,SG2,NAD,3035,MR,Nachrichtenempfänger,X,";
"43,SG2,NAD,3039,MP-ID,,X,";
"44,SG2,NAD,3055,9,GS1,X,";
"45,SG2,NAD,3055,293,""DE, BDEW (Bundesverband der Energie- und Wasserwirtschaft e.V.)"",X,";
"46,SG2,NAD,3055,332,""DE, DVGW Service & Consult GmbH"",X,";
"47,Vorgang,,,,,,";
"48,SG4,,,,,Muss,";
"49,SG4,IDE,,,,Muss,";
"50,SG4,IDE,7495,24,Transaktion,X,";
"51,SG4,IDE,7402,Vorgangsnummer,,X,";
"52,Datum zum geplanten Leistungsbeginn,,,,,,";
"53,SG4,,,,,,";
"54,SG4,DTM,,,,Muss,";
"55,SG4,DTM,2005,76,""Lieferdatum/-zeit, geplant"",X,";
"56,SG4,DTM,2380,""Datum oder Uhrzeit oderZeitspanne, Wert"",,X [UB3],";
"57,SG4,DTM,2379,303,CCYYMMDDHHMMZZZ,X,";
"58,Transaktionsgrund,,,,,,";
"59,SG4,,,,,,";
"60,SG4,STS,,,,Muss [61],[61] Segment bzw. Segmentgruppe ist genau einmal je SG4 IDE (Vorgang) anzugeben";
"61,SG4,STS,9015,7,Transaktionsgrund,X,";
"62,SG4,STS,9013,E01,Ein-/Auszug (Umzug),X,";
"63,SG4,STS,9013,E02,Einzug/Neuanlage,X,";
"64,SG4,STS,9013,E03,Wechsel,X,";
"65,SG4,STS,9013,ZJ4,Übernahme aufgrund nicht erfolgtem iMS- Einbau,X,";
"66,Status der Antwort,,,,,,";
"67,SG4,,,,,,";
"68,SG4,STS,,,,,[249] Innerhalb eines SG4 IDE müssen alle DE1131 der SG4 STS+E01 den identischen Wert enthalten";
"69,SG4,STS,9015,E01,Status der Antwort,,";
"70,SG4,STS,9013,Code des Prüfschritts,,,";
"71,SG4,STS,1131,G_0053,Codeliste Gas Nr. G_0053,,""[492] Wenn MP-ID in NAD+MR (Nachrichtenempfänger) aus Sparte Strom";
"[493] Wenn MP-ID in NAD+MR (Nachrichtenempfänger) aus Sparte Gas""";
"72,SG4,STS,1131,G_0054,Codeliste Gas Nr. G_0054,,";
"73,SG4,STS,1131,S_0055,Codeliste Strom Nr. S_0055,,";
"74,SG4,STS,1131,S_0056,Codeliste Strom Nr. S_0056,,";
"75,Beauftragung oder Beendigung liegt vor,,,,,,";
"76,SG4,,,,,,";
"77,SG4,AGR,,,,Kann,";
"78,SG4,AGR,7431,9,Vertrag,X,";
"79,SG4,AGR,7433,Z04,Vertrag zwischen AN und MSB,X [1P0..1],";
"80,SG4,AGR,7433,Z06,Vertragsbeendigung liegt vor,X [1P0..1],";
"81,Meldepunkt,,,,,,";
"82,SG5,,,,,Muss ([77] u[78]) u (([61]u [584]) o[583]),""[61] Segment bzw. Segmentgruppe ist genau einmal je SG4 IDE (Vorgang) anzugeben";
"[77] Wenn SG8 SEQ+Z03 (Zähleinrichtungsdaten) CAV+Z30 (Identifikation/Nummer des Gerätes) nicht vorhanden";
"[78] Wenn SG4 STS+7++E02 (Transaktionsgrund: Einzug/Neuanlage) nicht vorhanden";
"[492] Wenn MP-ID in NAD+MR (Nachrichtenempfänger) aus Sparte Strom";
"[493] Wenn MP-ID in NAD+MR (Nachrichtenempfänger) aus Sparte Gas";
"[580] Hinweis: Es sind alle Marktlokationen, Tranchen und Messlokationen zu nennen, die aktuell dem gleichen Lokationsbündel gehören wie die prozessual behandelte Messlokation";
"[583] Hinweis: Verwendung der ID der Marktlokation";
"[584] Hinweis: Verwendung der ID der Messlokation""";
"83,SG5,LOC,,,,Muss,";
"84,SG5,LOC,3227,172,Meldepunkt,X,";
"85,SG5,LOC,3225,Identifikator,,X [953],""[492] Wenn MP-ID in NAD+MR (Nachrichtenempfänger) aus Sparte Strom";
"[950] Format: Marktlokations-ID";
"[951] Format: Zählpunktbezeichnung """;
"86,,,,,,,[953] Format: Marktlokations-ID oder Zählpunktbezeichnung";
"87,Prüfidentifikator,,,,,,";
"88,SG6,,,,,Muss,";
"89,SG6,RFF,,,,Muss,";
"90,SG6,RFF,1153,Z13,Prüfidentifikator,X,";
"91,SG6,RFF,1154,11042,WiM / Anmeldung MSB,X,";
"92,SG6,RFF,1154,11043,WiM / Bestätigung Anmeldung MSB,,";
"93,SG6,RFF,1154,11044,WiM / Ablehnung Anmeldung MSB,,";
"94,Referenz Vorgangsnummer (aus Anfragenachricht),,,,,,";
"95,SG6,,,,,,";
"96,SG6,RFF,,,,,";
"97,SG6,RFF,1153,TN,Transaktions-Referenznummer,,";
"98,SG6,RFF,1154,Vorgangsnummer,,,";
"99,Referenz auf die ID der Marktlokation für Termine der Marktlokation,,,,,,";
"100,SG6,,,,,,[492] Wenn MP-ID in NAD+MR (Nachrichtenempfänger) aus Sparte Strom";
"101,SG6,RFF,,,,,[636] Hinweis: Dieses RFF klassifiziert mit einem Code im DE1153 die in derselben Segmentgruppe enthaltenen DTM zu einem Markt- bzw. Messlokation relevanten Inhalt";
"102,SG6,RFF,1153,Z18,Marktlokation,,";
"103,SG6,RFF,1154,ID der Marktlokation,,,[950] Format: Marktlokations-ID";
"104,Geplante Turnusablesung des MSB (Strom),,,,,,";
"105,SG6,,,,,,";
"106,SG6,DTM,,,,,""[78] Wenn SG4 STS+7++E02 (Transaktionsgrund: Einzug/Neuanlage) nicht vorhanden";
"[86] Wenn das RFF+Z18 (Marktlokation) aus dieser SG6 (Termine der Marktlokation) auf das gleiche SG5 LOC+172 (Meldepunkt), wie ein RFF+Z18 (Marktlokation) aus einer SG8 SEQ+Z01 (Daten der Marktlokation), in dem SG10 CCI+++ZA6 (Prognose auf Basis von Profilen) vorhanden ist, referenziert """;
"107,,,,,,,""[234] Wenn SG10 CCI+++Z83 (Messtechnische Einordnung der Marktlokation) CAV+Z53 (kME/ mME) vorhanden";
"[618] Hinweis: Bisheriges Datum des MSBA. Sollte der MSBN ein abweichendes Datum verwenden wollen, so teilt er das neue Datum mit einer Stammdatenänderung mit """;
"108,SG6,DTM,2005,752,Geplante Turnusablesung,,";
"109,SG6,DTM,2380,""Datum oder Uhrzeit oderZeitspanne, Wert"",,,";
"110,SG6,DTM,2379,104,MMWW-MMWW,,";
"111,SG6,DTM,2379,106,MMDD,,";
"112,Turnusableseintervall des MSB (Strom),,,,,,";
"113,SG6,,,,,,";
"114,SG6,DTM,,,,,""[86] Wenn das RFF+Z18 (Marktlokation) aus dieser SG6 (Termine der Marktlokation) auf das gleiche SG5 LOC+172 (Meldepunkt), wie ein RFF+Z18 (Marktlokation) aus einer SG8 SEQ+Z01 (Daten der Marktlokation), in dem SG10 CCI+++ZA6 (Prognose auf Basis von Profilen) vorhanden ist, referenziert";
"[234] Wenn SG10 CCI+++Z83 (Messtechnische Einordnung der Marktlokation) CAV+Z53 (kME/ mME) vorhanden";
"[618] Hinweis: Bisheriges Datum des MSBA. Sollte der MSBN ein abweichendes Datum verwenden wollen, so teilt er das neue Datum mit einer Stammdatenänderung mit """;
"115,SG6,DTM,2005,672,zugewiesene Periode,,";
"116,SG6,DTM,2380,""Datum oder Uhrzeit oderZeitspanne, Wert"",,,";
"117,SG6,DTM,2379,802,Monat,,";
"118,Abrechnungsintervall des LF,,,,,,";
"119,SG6,,,,,,";
"120,SG6,DTM,,,,,";
"121,SG6,DTM,2005,Z20,Abrechnungsintervall desLF,,";
"122,SG6,DTM,2380,""Datum oder Uhrzeit oderZeitspanne, Wert"",,,";
"123,SG6,DTM,2379,802,Monat,,";
"124,Referenz auf die ID der Messlokation für Termine der Messlokation,,,,,,";
"125,SG6,,,,,,[493] Wenn MP-ID in NAD+MR (Nachrichtenempfänger) aus Sparte Gas";
"126,SG6,RFF,,,,,[636] Hinweis: Dieses RFF klassifiziert mit einem Code im DE1153 die in derselben Segmentgruppe enthaltenen DTM zu einem Markt- bzw. Messlokation relevanten Inhalt";
"127,SG6,RFF,1153,Z19,Messlokation,,";
"128,SG6,RFF,1154,ID der Messlokation,,,[951] Format: Zählpunktbezeichnung";
"129,Geplante Turnusablesung des NB (Gas),,,,,,";
"130,SG6,,,,,,";
"131,SG6,DTM,,,,,";
"132,SG6,DTM,2005,752,Geplante Turnusablesung,,";
"133,SG6,DTM,2380,""Datum oder Uhrzeit oderZeitspanne, Wert"",,,";
"134,SG6,DTM,2379,104,MMWW-MMWW,,";
"135,SG6,DTM,2379,106,MMDD,,";
"136,Turnusableseintervall des NB (Gas),,,,,,";
"137,SG6,,,,,,";
"138,SG6,DTM,,,,,";
"139,SG6,DTM,2005,672,zugewiesene Periode,,";
"140,SG6,DTM,2380,""Datum oder Uhrzeit oderZeitspanne, Wert"",,,";
"141,SG6,DTM,2379,802,Monat,,";
"142,Daten der Marktlokation,,,,,,";
"143,SG8,,,,,,""[310] Für jede 11-stellige ID im SG5 LOC+172 (Meldepunkt) DE3225 auf die das RFF+Z20 (Tranche) der SG8 SEQ+Z15 (Daten der Tranche) nicht referenziert genau einmal anzugeben";
"[492] Wenn MP-ID in NAD+MR (Nachrichtenempfänger) aus Sparte Strom""";
"144,SG8,SEQ,,,,,";
"145,SG8,SEQ,1229,Z01,Daten der Marktlokation,,";
"146,Referenz auf die ID der Marktlokation,,,,,,";
"147,SG8,,,,,,";
"148,SG8,RFF,,,,,";
"149,SG8,RFF,1153,Z18,Marktlokation,,";
"150,SG8,RFF,1154,ID der Marktlokation,,,[950] Format: Marktlokations-ID";
"151,Arbeit / Leistung für tagesparameterabhängige Marktlokation,,,,,,";
"152,SG9,,,,,,[101] Wenn SG10 CCI+++ZA6 (Prognosegrundlage der Marktlokation: Prognose auf Basis von Profilen) CAV+E14/ Z36 (TLP/ TEP/ TEP mit Ref. messung) in dieser SG8 vorhanden";
"153,SG9,QTY,,,,,";
"154,SG9,QTY,6063,265,Veranschlagte Jahresmenge Gesamt/ Jahresverbrauchsprogno se für spezifische Arbeit für tagesparameterabhängig e Marktlokation,,";
"155,SG9,QTY,6063,Z08,""Angepasste elektrische Arbeit nach Anhang D der VDN-Richtlinie """"Lastprofile für unterbrechbare Verbrauchseinrichtungen"""""",,";
"156,SG9,QTY,6060,Menge,,,[902] Format: Möglicher Wert: ≥ 0";
"157,SG9,QTY,6411,Z16,kWh/K (Kilowatt- Stunde/Kelvin),,""[103] Wenn SG9 QTY+265 (Arbeit / Leistung für tagesparameterabhängig e Marktlokation: Veranschlagte Jahresmenge Gesamt) in dieser SG8 vorhanden";
"[104] Wenn SG9 QTY+Z08 (Arbeit / Leistung für tagesparameterabhängig e Marktlokation: angepasste elektrische Arbeit nach Anhang D) in dieser SG8 vorhanden""";
"158,SG9,QTY,6411,KWH,Kilowattstunde,,";
"159,Veranschlagte Jahresmenge gesamt,,,,,,";
"160,SG9,,,,,,[106] Wenn in dieser SG8 SEQ+Z01 SG10 CCI+++ZA6 (Prognosegrundlage der Marktlokation: Prognose auf Basis von Profilen) CAV+E02 (SLP/SEP) vorhanden";
"161,SG9,QTY,,,,,";
"162,SG9,QTY,6063,31,VeranschlagteJahresmenge Gesamt,,";
"163,SG9,QTY,6060,Mengenangabe,,,[902] Format: Möglicher Wert: ≥ 0";
"164,,,,,,,[937] Format: keine Nachkommastelle";
"165,SG9,QTY,6411,KWH,Kilowattstunde,,";
"166,Lieferrichtung,,,,,,";
"167,SG10,,,,,,";
"168,SG10,CCI,,,,,";
"169,SG10,CCI,7059,Z30,Lieferrichtung,,";
"170,SG10,CCI,7037,Z06,Erzeugung,,";
"171,SG10,CCI,7037,Z07,Verbrauch,,";
"172,Zugeordnete Marktpartner,,,,,,";
"173,SG10,,,,,,";
"174,SG10,CCI,,,,,";
"175,SG10,CCI,7037,ZB3,ZugeordneterMarktpartner,,";
"176,Lieferant,,,,,,";
"177,SG10,,,,,,";
"178,SG10,CAV,,,,,""[78] Wenn SG4 STS+7++E02 (Transaktionsgrund: Einzug/Neuanlage) nicht vorhanden";
"[221] Wenn kein SG8 SEQ+Z15 (Daten der Tranche) auf die gleiche Marktlokation-ID mit dem RFF+Z18 (Marktlokation) referenziert wie dieses SG8 SEQ+Z01 (Daten der Marktlokation)""";
"179,SG10,CAV,7111,Z89,LF,,";
"180,SG10,CAV,1131,MP-ID,,,""[611] Hinweis: Wenn das Unternehmen NB die Aufgaben der Marktrolle LF wahrnimmt, ist die MP-ID des Unternehmens NB in der Marktrolle LF anzugeben""";
"181,Übertragungsnetzbetreiber,,,,,,";
"182,SG10,,,,,,";
"183,SG10,CAV,,,,,";
"184,SG10,CAV,7111,Z90,ÜNB,,";
"185,SG10,CAV,1131,MP-ID,,,";
"186,Messstellenbetreiber,,,,,,";
"187,SG10,,,,,,";
"188,SG10,CAV,,,,,";
"189,SG10,CAV,7111,Z91,MSB,,";
"190,SG10,CAV,1131,MP-ID,,,""[621] Hinweis: Es ist der MSB anzugeben, welcher ab dem Zeitpunkt der Lokation zugeordnet ist, der in DTM+76 (Datum zum geplanten Leistungsbeginn) genannt ist.""";
"191,SG10,CAV,7110,Z19,Auf vertraglicher Grundlage gegenüber Anschlussnutzer / Anschlussnehmer,,";
"192,SG10,CAV,7110,Z20,In der Ausübung der Weiterverpflichtung durch den gMSB,,";
"194,Spannungsebene der Marktlokation,,,,,,";
"195,SG10,,,,,,";
"196,SG10,CCI,,,,,";
"197,SG10,CCI,7037,E03,Spannungsebene derMarktlokation,,";
"198,Spannungsebene der Marktlokation,,,,,,";
"199,SG10,,,,,,";
"200,SG10,CAV,,,,,";
"201,SG10,CAV,7111,E03,Höchstspannung,,";
"202,SG10,CAV,7111,E04,Hochspannung,,";
"203,SG10,CAV,7111,E05,Mittelspannung,,";
"204,SG10,CAV,7111,E06,Niederspannung,,";
"205,Messtechnische Einordnung der Marktlokation,,,,,,";
"206,SG10,,,,,,";
"207,SG10,CCI,,,,,";
"208,SG10,CCI,7037,Z83,MesstechnischeEinordnung derMarktlokation,,";
"209,Messtechnische Einordnung der Marktlokation,,,,,,";
"210,SG10,,,,,,";
"211,SG10,CAV,,,,,";
"212,SG10,CAV,7111,Z52,iMS,,";
"213,SG10,CAV,7111,Z53,kME / mME,,";
"214,Aggregationsverantwortung in MaBiS,,,,,,";
"215,SG10,,,,,,[492] Wenn MP-ID in NAD+MR (Nachrichtenempfänger) aus Sparte Strom";
"216,SG10,CCI,,,,,";
"217,SG10,CCI,7059,6,Verantwortlicher,,";
"218,SG10,CCI,7037,ZA8,NB,,";
"219,SG10,CCI,7037,ZA9,ÜNB,,";
"220,Prognosegrundlage der Marktlokation,,,,,,";
"221,SG10,,,,,,";
"222,SG10,CCI,,,,,";
"223,SG10,CCI,7037,ZC0,Prognose auf Basis von Werten,,";
"224,SG10,CCI,7037,ZA6,Prognose auf Basis von Profilen,,";
"225,Details der Prognosegrundlage,,,,,,";
"226,SG10,,,,,,";
"227,SG10,CAV,,,,,[90] Wenn SG10 CCI+++ZA6 (Prognosegrundlage der Marktlokation: Prognose auf Basis von Profilen) einmal mit CAV+E14 (TLP/TEP) und einmal mit CAV+E02 (SLP/SEP) in dieser SG8 vorhanden";
"228,,,,,,,"" [182] Segmentgruppe ist genau einmal je SG8 SEQ+Z01 (Daten der Marktlokation) anzugeben";
"[183] Segmentgruppe ist genau zweimal je SG8 SEQ+Z01 (Daten der Marktlokation) anzugeben";
"[210] Wenn SG10 CCI+++ZA6 (Prognose auf Basis von Profilen) in dieser SG8 vorhanden""";
"229,SG10,CAV,7111,E02,SLP/SEP,,";
"230,SG10,CAV,7111,E14,TLP/TEP,,";
"231,SG10,CAV,7111,Z36,TEP mit Referenzmessung,,";
"232,Art der erzeugenden Marktlokation,,,,,,";
"233,SG10,,,,,,[220] Wenn SG8 SEQ+Z01 (Daten der Marktlokation) SG10 CCI+Z30++Z06 (Lieferrichtung: Erzeugung) in dieser SG8 vorhanden";
"234,SG10,CCI,,,,,";
"235,SG10,CCI,7037,Z34,Art der erzeugendenMarktlokation,,";
"236,Art der erzeugenden Marktlokation ,,,,,,";
"237,SG10,,,,,,";
"238,SG10,CAV,,,,,";
"239,SG10,CAV,7111,Z33,EEG-Marktlokation ohne DV-Pflicht,,";
"240,SG10,CAV,7111,Z34,KWKG-Marktlokation ohne DV-Pflicht,,";
"241,SG10,CAV,7111,Z35,sonstige Marktlokation,,";
"242,SG10,CAV,7111,Z37,EEG-Marktlokation mit DV-Pflicht,,";
"243,SG10,CAV,7111,Z46,KWKG-Marktlokation mit DV-Pflicht,,";
"244,Versorgungsart der Marktlokation,,,,,,";
"245,SG10,,,,,,";
"246,SG10,CCI,,,,,";
"247,SG10,CCI,7059,Z36,Versorgungsart derMarktlokation,,";
"248,Erforderlicher Wert der Marktlokation,,,,,,";
"249,SG8,,,,,,""[311] Für jede 11-stellige ID im SG5 LOC+172 (Meldepunkt) DE3225 auf die das RFF+Z18 (Marktlokation) der SG8 SEQ+Z01 (Daten der Marktlokation) referenziert mindestens einmal anzugeben";
"[492] Wenn MP-ID in""";
"250,,,,,,,NAD+MR (Nachrichtenempfänger) aus Sparte Strom";
"251,SG8,SEQ,,,,,";
"252,SG8,SEQ,1229,Z27,Erforderlicher Wert derMarktlokation,,";
"253,Referenz auf die ID der Marktlokation,,,,,,";
"254,SG8,,,,,,";
"255,SG8,RFF,,,,,";
"256,SG8,RFF,1153,Z18,Marktlokation,,";
"257,SG8,RFF,1154,ID einer Marktlokation,,,[950] Format: Marktlokations-ID";
"258,Beschreibung erforderlicher Wert,,,,,,";
"259,SG10,,,,,,";
"260,SG10,CCI,,,,,";
"261,SG10,CCI,7059,Z35,Beschreibungerforderlicher Wert,,";
"262,Wert,,,,,,";
"263,SG10,,,,,,";
"264,SG10,CAV,,,,,";
"265,SG10,CAV,7111,ZC2,Wirkarbeit,,";
"266,SG10,CAV,7111,ZC3,Blindarbeit,,";
"267,Wertegranularität,,,,,,";
"268,SG10,,,,,,";
"269,SG10,CAV,,,,,";
"270,SG10,CAV,7111,ZC4,Kumuliert,,";
"271,SG10,CAV,7111,ZC5,1/4 Stunde,,";
"272,SG10,CAV,7111,ZC7,höchste 1/4 Stunde im Monat,,";
"273,Zugeordnete Zählzeit,,,,,,";
"274,SG10,,,,,,""[389] Wenn in derselben SG8 SEQ+Z27 (Erforderlicher Wert der Marktlokation) das SG10 CCI+Z35 CAV+ZC4 (Kumuliert) vorhanden";
"[394] Wenn in derselben SG8 SEQ+Z27 (Erforderlicher Wert der Marktlokation) das SG10 CCI+Z35 CAV+ZC2 (Wirkarbeit) vorhanden""";
"275,SG10,CCI,,,,,";
"276,SG10,CCI,7059,Z39,Code der Zählzeit,,";
"277,SG10,CCI,7037,Code der ZählzeitZ61,0,,[417] Wenn für den erforderlichen Wert keine Zählzeit benötigt wird";
"278,Wert für Netzbetreiber relevant,,,,,,";
"279,SG10,,,,,,";
"280,SG10,CCI,,,,,";
"281,SG10,CCI,7037,ZA8,NB,,";
"282,Verwendungszweck des Wertes,,,,,,";
"283,SG10,,,,,,";
"284,SG10,CAV,,,,,";
"285,SG10,CAV,7111,Z84,Netznutzungsabrechnung,,";
"286,SG10,CAV,7111,Z85,Bilanzkreisabrechnung,,";
"287,SG10,CAV,7111,Z86,Mehrmindermengenabrec hnung	[27P1..1],,";
"288,SG10,CAV,7111,Z92,Übermittlung an das HKNR	[24P1..1],,";
"289,SG10,CAV,7111,ZD1,Blindstromabrechnung,,";
"290,SG10,CAV,7111,ZE1,Es liegt kein Verwendungszweck vor,,";
"291,Wert für Lieferant relevant,,,,,,";
"292,SG10,,,,,,";
"293,SG10,CCI,,,,,";
"294,SG10,CCI,7037,ZA7,LF,,";
"295,Verwendungszweck des Wertes,,,,,,";
"296,SG10,,,,,,";
"297,SG10,CAV,,,,,";
"298,SG10,CAV,7111,Z84,Netznutzungsabrechnung,,";
"299,SG10,CAV,7111,Z85,Bilanzkreisabrechnung,,";
"300,SG10,CAV,7111,Z86,Mehrmindermengenabrec hnung	[27P1..1],,";
"301,SG10,CAV,7111,Z47,Endkundenabrechnung,,";
"302,SG10,CAV,7111,ZD1,Blindstromabrechnung,,";
"303,SG10,CAV,7111,ZE1,Es liegt kein Verwendungszweck vor,,";
"304,Wert für Übertragungsnetzbetreiber relevant,,,,,,";
"305,SG10,,,,,,""[394] Wenn in derselben SG8 SEQ+Z27 (Erforderlicher Wert der Marktlokation) das SG10 CCI+Z35 CAV+ZC2 (Wirkarbeit) vorhanden";
"[395] Wenn in derselben SG8 SEQ+Z27 (Erforderlicher Wert der Marktlokation) das SG10 CCI+Z35 CAV+ZC5 (1/4 Stunde) vorhanden""";
"306,SG10,CCI,,,,,";
"307,SG10,CCI,7037,ZA9,ÜNB,,";
"308,Verwendungszweck des Wertes,,,,,,";
"309,SG10,,,,,,";
"310,SG10,CAV,,,,,";
"311,SG10,CAV,7111,Z85,Bilanzkreisabrechnung,,";
"312,SG10,CAV,7111,ZB5,Zur Ermittlung der Ausgeglichenheit von Bilanzkreisen,,";
"313,OBIS-Daten der Marktlokation,,,,,,";
"314,SG8,,,,,,""[311] Für jede 11-stellige ID im SG5 LOC+172 (Meldepunkt) DE3225 auf die das RFF+Z18 (Marktlokation) der SG8 SEQ+Z01 (Daten der Marktlokation) referenziert mindestens einmal anzugeben";
"[404] Wenn nicht dieselbe MP-ID in SG2 NAD+MR (Nachrichtenempfänger) und im SG8 SEQ+Z01 (Daten der Marktlokation) SG10 CCI+++ZB3 (Zugeordnete Marktpartner) CAV+91 (Messtellenbetreiber) vorhanden";
"[492] Wenn MP-ID in NAD+MR (Nachrichtenempfänger) aus Sparte Strom""";
"315,SG8,SEQ,,,,,";
"316,SG8,SEQ,1229,Z02,OBIS-Daten derMarktlokation,,";
"317,Referenz auf die ID der Marktlokation,,,,,,";
"318,SG8,,,,,,";
"319,SG8,RFF,,,,,";
"320,SG8,RFF,1153,Z18,Marktlokation,,";
"321,SG8,RFF,1154,ID einer Marktlokation,,,[950] Format: Marktlokations-ID";
"322,OBIS-Kennzahl der Marktlokation,,,,,,";
"323,SG8,,,,,,";
"324,SG8,PIA,,,,,";
"325,SG8,PIA,4347,5,Produktidentifikation,,";
"326,SG8,PIA,7140,OBIS-Kennzahl der Marktlokation,,,""[314] Es sind alle OBIS- Kennzahlen gem. EDI@Energy Codeliste der OBIS-Kennzahlen und Medien für den deutschen Energiemarkt Kap. 3 anzugeben welche an der Marktlokation erforderlich sind, dabei muss der Mindestumfang aus Kap. 3.4 eingehalten werden """;
"328,SG8,PIA,7143,SRW,OBIS-Kennzahl,,";
"329,Zugeordnete Zählzeit,,,,,,";
"330,SG10,,,,,,""[386] Wenn mehr als eine SG8 SEQ+Z02 (OBIS- Daten der Marktlokation) mit einer OBIS-Kennzahl für Energiemenge im PIA+5 vorhanden";
"[387] Wenn in derselben SG8 SEQ+Z02 (OBIS- Daten der Marktlokation) eine OBIS-Kennzahl für Energiemenge im PIA+5 vorhanden";
"[492] Wenn MP-ID in NAD+MR (Nachrichtenempfänger) aus Sparte Strom""";
"331,SG10,CCI,,,,,";
"332,SG10,CCI,7059,Z39,Code der Zählzeit,,";
"333,SG10,CCI,7037,Code der Zählzeit,,,";
"334,Zugeordnete Zählzeitregister,,,,,,";
"335,SG10,,,,,,[421] Wenn in dieser SG8 das CCI+Z39 (Zugeordnete Zählzeitdefinition) vorhanden ist";
"336,SG10,CCI,,,,,";
"337,SG10,CCI,7059,Z38,Code desZählzeitregisters,,";
"338,SG10,CCI,7037,Code des Zählzeitregisters,,,";
"339,OBIS Daten für Netzbetreiber relevant,,,,,,";
"340,SG10,,,,,,";
"341,SG10,CCI,,,,,";
"342,SG10,CCI,7037,ZA8,NB,,";
"343,Verwendungszweck der,,,,,,";
"344,Werte,,,,,,";
"345,SG10,,,,,,";
"346,SG10,CAV,,,,,";
"347,SG10,CAV,7111,Z84,Netznutzungsabrechnung,,";
"348,SG10,CAV,7111,Z85,Bilanzkreisabrechnung,,";
"349,SG10,CAV,7111,Z86,Mehrmindermengenabrec hnung	[37P1..1],,";
"350,SG10,CAV,7111,Z92,Übermittlung an das HKNR	[34P1..1],,";
"351,SG10,CAV,7111,ZD1,Blindstromabrechnung,,";
"352,SG10,CAV,7111,ZE1,Es liegt kein Verwendungszweck vor,,";
"353,OBIS Daten für Lieferant relevant,,,,,,";
"354,SG10,,,,,,";
"355,SG10,CCI,,,,,";
"356,SG10,CCI,7037,ZA7,LF,,";
"357,Verwendungszweck der Werte,,,,,,";
"358,SG10,,,,,,";
"359,SG10,CAV,,,,,";
"360,SG10,CAV,7111,,,,";
"361,SG10,CAV,7111,Z84,Netznutzungsabrechnung,,";
"362,SG10,CAV,7111,Z85,Bilanzkreisabrechnung,,";
"363,SG10,CAV,7111,Z86,Mehrmindermengenabrec hnung	[37P1..1],,";
"364,SG10,CAV,7111,Z47,Endkundenabrechnung,,";
"365,SG10,CAV,7111,ZD1,Blindstromabrechnung,,";
"366,SG10,CAV,7111,ZE1,Es liegt kein Verwendungszweck vor,,";
"367,OBIS Daten für Übertragungsnetzbetreiber relevant,,,,,,";
"368,SG10,,,,,,[396] Wenn in derselben SG8 SEQ+Z02 (OBIS- Daten der Marktlokation) eine OBIS-Kennzahl für Wirkarbeit und 1/4 Stunde im PIA+5 vorhanden";
"369,SG10,CCI,,,,,";
"370,SG10,CCI,7037,ZA9,ÜNB,,";
"371,Verwendungszweck der Werte,,,,,,";
"372,SG10,,,,,,";
"373,SG10,CAV,,,,,";
"374,SG10,CAV,7111,Z85,Bilanzkreisabrechnung,,";
"375,SG10,CAV,7111,ZB5,Zur Ermittlung der Ausgeglichenheit von Bilanzkreisen,,";
"376,Daten der Tranche,,,,,,";
"377,SG8,,,,,,""[307] Für jede 11-stellige ID im SG5 LOC+172 (Meldepunkt) DE3225 auf die das RFF+Z18 (Marktlokation) der SG8+Z01(Daten der Marktlokation) nicht referenziert genau einmal anzugeben";
"[492] Wenn MP-ID in NAD+MR (Nachrichtenempfänger) aus Sparte Strom""";
"378,SG8,SEQ,,,,,";
"379,SG8,SEQ,1229,Z15,Daten der Tranche,,";
"380,Referenz auf die ID der Tranche,,,,,,";
"381,SG8,,,,,,";
"382,SG8,RFF,,,,,";
"383,SG8,RFF,1153,Z20,Tranche,,";
"384,SG8,RFF,1154,ID der Tranche,,,[950] Format: Marktlokations-ID";
"385,Referenz auf die Marktlokation der Tranche ,,,,,,";
"386,SG8,,,,,,";
"387,SG8,RFF,,,,,";
"388,SG8,RFF,1153,Z16,zugeordneteMarktlokation,,";
"389,SG8,RFF,1154,ID der Marktlokation,,,[950] Format: Marktlokations-ID";
"390,Prozentualer Anteil der Tranche an der erzeugenden Marktlokation,,,,,,";
"391,SG9,,,,,,[384] Wenn SG10 CCI+Z37++ZC11 (Basis zur Bildung der Tranchengröße) (Prozentual) vorhanden";
"392,SG9,QTY,,,,,";
"393,SG9,QTY,6063,11,Aufteilungsmenge,,";
"394,SG9,QTY,6060,Mengenangabe in %,,,""[914] Format: Möglicher Wert: > 0";
"[930] Format: max. 2 Nachkommastellen""";
"395,SG9,QTY,6411,P1,Prozent,,";
"396,Zugeordnete Marktpartner,,,,,,";
"397,SG10,,,,,,";
"398,SG10,CCI,,,,,";
"399,SG10,CCI,7037,ZB3,ZugeordneterMarktpartner,,";
"400,Lieferant,,,,,,";
"401,SG10,,,,,,";
"402,SG10,CAV,,,,,";
"403,SG10,CAV,7111,Z89,LF,,";
"404,SG10,CAV,1131,MP-ID,,,";
"405,Basis zur Bildung der Tranchengröße,,,,,,";
"406,SG10,,,,,,";
"407,SG10,CCI,,,,,";
"408,SG10,CCI,7059,Z37,Basis zur Bildung derTranchengröße,,";
"409,SG10,CCI,7037,ZC11,Prozentual  ,,";
"410,SG10,CCI,7037,ZC12,Aufteilungsfaktor auf Basis von Referenzenträger/ installierter Leistung,,";
"411,Erforderlicher Wert der Tranche,,,,,,";
"412,SG8,,,,,,""[308] Für jede ID im SG5 LOC+172 (Meldepunkt) DE3225, auf die ein SG8 RFF+Z20 (Tranche) einer SG8 SEQ+Z15 (Daten der Tranche) referenziert, ist diese Segmentgruppe mindestens einmal anzugeben";
"[492] Wenn MP-ID in NAD+MR (Nachrichtenempfänger) aus Sparte Strom""";
"413,SG8,SEQ,,,,,";
"414,SG8,SEQ,1229,Z16,Erforderlicher Wert derTranche,,";
"415,Referenz auf die ID der Tranche,,,,,,";
"416,SG8,,,,,,";
"417,SG8,RFF,,,,,";
"418,SG8,RFF,1153,Z20,Tranche,,";
"419,SG8,RFF,1154,ID einer Tranche,,,[950] Format: Marktlokations-ID";
"420,Beschreibung erforderlicher Wert,,,,,,";
"421,SG10,,,,,,";
"422,SG10,CCI,,,,,";
"423,SG10,CCI,7059,Z35,Beschreibungerforderlicher Wert,,";
"424,Wert,,,,,,";
"425,SG10,,,,,,";
"426,SG10,CAV,,,,,";
"427,SG10,CAV,7111,ZC2,Wirkarbeit,,";
"428,Wertegranularität,,,,,,";
"429,SG10,,,,,,";
"430,SG10,CAV,,,,,";
"431,SG10,CAV,7111,ZC5,1/4 Stunde,,";
"432,Werte für Netzbetreiber relevant,,,,,,";
"433,SG10,,,,,,";
"434,SG10,CCI,,,,,";
"435,SG10,CCI,7037,ZA8,NB,,";
"436,Verwendungszweck der Werte,,,,,,";
"437,SG10,,,,,,";
"438,SG10,CAV,,,,,";
"439,SG10,CAV,7111,Z85,Bilanzkreisabrechnung,,";
"440,SG10,CAV,7111,Z92,Übermittlung an das HKNR,,";
"441,OBIS Daten für Lieferant relevant,,,,,,";
"442,SG10,,,,,,";
"443,SG10,CCI,,,,,";
"444,SG10,CCI,7037,ZA7,LF,,";
"445,Verwendungszweck der Werte,,,,,,";
"446,SG10,,,,,,";
"447,SG10,CAV,,,,,";
"448,SG10,CAV,7111,Z85,Bilanzkreisabrechnung,,";
"449,SG10,CAV,7111,Z47,Endkundenabrechnung,,";
"450,OBIS Daten für Übertragungsnetzbetreiber relevant,,,,,,";
"451,SG10,,,,,,";
"452,SG10,CCI,,,,,";
"453,SG10,CCI,7037,ZA9,ÜNB,,";
"454,Verwendungszweck der Werte,,,,,,";
"455,SG10,,,,,,";
"456,SG10,CAV,,,,,";
"457,SG10,CAV,7111,Z85,Bilanzkreisabrechnung,,";
"458,SG10,CAV,7111,ZB5,Zur Ermittlung der Ausgeglichenheit von Bilanzkreisen,,";
"459,Daten der Messlokation,,,,,,";
"460,SG8,,,,,,[284] Für jede Messlokations-ID im SG5 LOC+172 (Meldepunkt) DE3225 genau einmal anzugeben";
"461,SG8,SEQ,,,,,";
"462,SG8,SEQ,1229,Z18,Daten der Messlokation,,";
"463,Referenz auf die ID der Messlokation,,,,,,";
"464,SG8,,,,,,";
"465,SG8,RFF,,,,,";
"466,SG8,RFF,1153,Z19,Messlokation,,";
"467,SG8,RFF,1154,ID der Messlokation,,,[951] Format: Zählpunktbezeichnung";
"468,Referenz auf die der Messlokation zugeordneten Marktlokation ,,,,,,";
"469,SG8,,,,,,";
"470,SG8,RFF,,,,,[492] Wenn MP-ID in NAD+MR (Nachrichtenempfänger)";
"471,,,,,,,aus Sparte Strom";
"472,SG8,RFF,1153,Z16,zugeordneteMarktlokation,,";
"473,SG8,RFF,1154,ID der Marktlokation,,,[950] Format: Marktlokations-ID";
"474,Zugeordnete Marktpartner,,,,,,";
"475,SG10,,,,,,[492] Wenn MP-ID in NAD+MR (Nachrichtenempfänger) aus Sparte Strom";
"476,SG10,CCI,,,,,";
"477,SG10,CCI,7037,ZB3,ZugeordneterMarktpartner,,";
"478,Messstellenbetreiber,,,,,,";
"479,SG10,,,,,,";
"480,SG10,CAV,,,,,";
"481,SG10,CAV,7111,Z91,MSB,,";
"482,SG10,CAV,1131,MP-ID,,,""[621] Hinweis: Es ist der MSB anzugeben, welcher ab dem Zeitpunkt der Lokation zugeordnet ist, der in DTM+76 (Datum zum geplanten Leistungsbeginn) genannt ist.""";
"483,SG10,CAV,7110,Z19,Auf vertraglicher Grundlage gegenüber Anschlussnutzer / Anschlussnehmer,,";
"484,SG10,CAV,7110,Z20,In der Ausübung der Weiterverpflichtung durch den gMSB,,";
"485,Messstellenbetreiber Alt,,,,,,";
"486,SG10,,,,,,";
"487,SG10,CAV,,,,,""[78] Wenn SG4 STS+7++E02 (Transaktionsgrund: Einzug/Neuanlage) nicht vorhanden";
"[184] Wenn in derselben SG8 SEQ+Z18 (Daten der Messlokation) ein CCI+Z01++Z82 (Verwendungsumfang: ID der prozessual behandelten Messlokation) vorhanden""";
"488,SG10,CAV,7111,ZB4,MSBA,,";
"489,SG10,CAV,1131,MP-ID,,,";
"490,Spannungsebene der Messlokation,,,,,,";
"491,SG10,,,,,,[492] Wenn MP-ID in NAD+MR (Nachrichtenempfänger) aus Sparte Strom";
"492,SG10,CCI,,,,,";
"493,SG10,CCI,7037,E04,Spannungsebene derMesslokation,,";
"494,Spannungsebene der Messlokation,,,,,,";
"495,SG10,,,,,,";
"496,SG10,CAV,,,,,";
"497,SG10,CAV,7111,E03,Höchstspannung,,";
"498,SG10,CAV,7111,E04,Hochspannung,,";
"499,SG10,CAV,7111,E05,Mittelspannung,,";
"500,SG10,CAV,7111,E06,Niederspannung,,";
"501,Gasqualität,,,,,,";
"502,SG10,,,,,,[493] Wenn MP-ID in NAD+MR (Nachrichtenempfänger) aus Sparte Gas";
"503,SG10,CCI,,,,,";
"504,SG10,CCI,7037,Y02,Gasqualität,,";
"505,Gasqualität,,,,,,";
"506,SG10,,,,,,";
"507,SG10,CAV,,,,,";
"508,SG10,CAV,7111,Y04,H-Gas,,";
"509,SG10,CAV,7111,Y05,L-Gas,,";
"510,Verwendungsumfang,,,,,,";
"511,SG10,,,,,,[492] Wenn MP-ID in NAD+MR (Nachrichtenempfänger) aus Sparte Strom";
"512,SG10,CCI,,,,,";
"513,SG10,CCI,7059,Z01,Verwendungsumfang,,";
"514,SG10,CCI,7037,Z82,ID der prozessual behandelten Messlokation,,[236] Code einmal je SG4 IDE+24 (Identifikation einer Liste)";
"515,SG10,CCI,7037,Z81,ID der Messlokation im Lokationsbündel,,";
"516,Betriebszustand der Messlokation,,,,,,";
"517,SG10,,,,,,[45] Wenn in der selben SG8 das SG10 CCI+Z01++Z82 (Verwendungsumfang: ID der prozessual behandelten Messlokation) vorhanden";
"518,SG10,CCI,,,,,";
"519,SG10,CCI,7059,Z32,Betriebszustand derMesslokation,,";
"520,SG10,CCI,7037,ZC1,Messlokation gesperrt und darf nicht entsperrt werden,,";
"521,SG10,CCI,7037,ZC2,Messlokation gesperrt und darf entsperrt werden,,";
"522,SG10,CCI,7037,ZC3,Messlokation im Regelbetrieb,,";
"523,Erforderlicher Wert der Messlokation,,,,,,";
"524,SG8,,,,,,[309] Für jede 33-stellige ID im SG5 LOC+172 (Meldepunkt) DE3225 mindestens einmal anzugeben";
"525,SG8,SEQ,,,,,";
"526,SG8,SEQ,1229,Z19,Erforderlicher Wert derMesslokation,,";
"527,Referenz auf die ID einer,,,,,,";
"528,Messlokation,,,,,,";
"529,SG8,,,,,,";
"530,SG8,RFF,,,,,";
"531,SG8,RFF,1153,Z19,Messlokation,,";
"532,SG8,RFF,1154,ID einer Messlokation,,,[951] Format: Zählpunktbezeichnung";
"533,Referenz auf die ID einer Marktlokation,,,,,,";
"534,SG8,,,,,,";
"535,SG8,RFF,,,,,";
"536,SG8,RFF,1153,Z18,Marktlokation,,";
"537,SG8,RFF,1154,ID einer Marktlokation,,,[950] Format: Marktlokations-ID";
"538,Beschreibung erforderlicher Wert,,,,,,";
"539,SG10,,,,,,";
"540,SG10,CCI,,,,,";
"541,SG10,CCI,7059,Z35,Beschreibungerforderlicher Wert,,";
"542,Wert,,,,,,";
"543,SG10,,,,,,";
"544,SG10,CAV,,,,,";
"545,SG10,CAV,7111,ZC2,Wirkarbeit,,";
"546,SG10,CAV,7111,ZC3,Blindarbeit,,";
"547,Wertegranularität,,,,,,";
"548,SG10,,,,,,";
"549,SG10,CAV,,,,,";
"550,SG10,CAV,7111,ZC4,Kumuliert,,""[492] Wenn MP-ID in NAD+MR (Nachrichtenempfänger) aus Sparte Strom";
"[493] Wenn MP-ID in NAD+MR (Nachrichtenempfänger) aus Sparte Gas""";
"551,SG10,CAV,7111,ZC5,1/4 Stunde,,";
"552,SG10,CAV,7111,ZC6,Eine Stunde,,";
"553,SG10,CAV,7111,ZC7,höchste 1/4 Stunde im Monat,,";
"554,Energieflussrichtung,,,,,,";
"555,SG10,,,,,,";
"556,SG10,CAV,,,,,";
"557,SG10,CAV,7111,Z71,Verbrauch,,";
"558,SG10,CAV,7111,Z72,Erzeugung,,";
"559,Notwendigkeit einer zweiten Messung,,,,,,";
"560,SG10,,,,,,";
"561,SG10,CAV,,,,,";
"562,SG10,CAV,7111,ZC9,Zweite Messung fürVergleichsmessungerforderlich,,";
"563,SG10,CAV,7110,Z06,vorhanden,,";
"564,SG10,CAV,7110,Z07,nicht vorhanden,,";
"565,Werteübermittlung an den NB aufgrund weiterem Verwendungszweck,,,,,,";
"566,SG10,,,,,,";
"567,SG10,CAV,,,,,";
"568,SG10,CAV,7111,Z88,NB,,";
"569,SG10,CAV,7110,Z06,vorhanden,,";
"570,SG10,CAV,7110,Z07,nicht vorhanden,,";
"571,Zugeordnete Zählzeit,,,,,,";
"572,SG10,,,,,,""[393] Wenn in derselben SG8 SEQ+Z19 (Erforderlicher Wert der Messlokation) das SG10 CCI+Z35 CAV+ZC4 (Kumuliert) vorhanden";
"[418] Wenn in derselben SG8 SEQ+Z19 (Erforderlicher Wert der Messlokation) das SG10 CCI+Z35 CAV+ZC2 (Wirkarbeit) vorhanden";
"[492] Wenn MP-ID in NAD+MR (Nachrichtenempfänger) aus Sparte Strom""";
"573,SG10,CCI,,,,,";
"574,SG10,CCI,7059,Z39,Code der Zählzeit,,";
"575,SG10,CCI,7037,Code der ZählzeitZ61,0,,[417] Wenn für den erforderlichen Wert keine Zählzeit benötigt wird";
"576,Zähleinrichtungsdaten,,,,,,";
"577,SG8,,,,,Muss [78] u[138],""[78] Wenn SG4 STS+7++E02 (Transaktionsgrund: Einzug/Neuanlage) nicht vorhanden";
"[138] Wenn SG5 LOC+172 (Meldepunkt) nicht vorhanden""";
"578,SG8,SEQ,,,,Muss,";
"579,SG8,SEQ,1229,Z03,Zähleinrichtungsdaten,X,";
"580,Referenz auf die ID einer Messlokation,,,,,,";
"581,SG8,,,,,,";
"582,SG8,RFF,,,,,";
"583,SG8,RFF,1153,Z19,Messlokation,,";
"584,SG8,RFF,1154,ID einer Messlokation,,,[951] Format: Zählpunktbezeichnung";
"585,Referenz auf das Smartmeter-Gateway,,,,,,";
"586,SG8,,,,,,";
"587,SG8,RFF,,,,,""[166] Wenn vorhanden";
"[215] Wenn in der selben SG8 SEQ+Z03 (Zähleinrichtungsdaten) SG10 CCI+++E13 CAV+MME (Zählertyp: mME) vorhanden""";
"588,SG8,RFF,1153,Z14,Smartmeter-Gateway,,";
"589,SG8,RFF,1154,Identifikation / Nummer desSmartmeter-Gateways,,,";
"590,Zählertyp,,,,,,";
"591,SG10,,,,,Muss,";
"592,SG10,CCI,,,,Muss,";
"593,SG10,CCI,7037,E13,Zählertyp,X,";
"594,Zählertyp,,,,,,";
"595,SG10,,,,,,";
"596,SG10,CAV,,,,,";
"597,SG10,CAV,7111,AHZ,analoger Haushaltszähler (Drehstrom),,""[492] Wenn MP-ID in NAD+MR (Nachrichtenempfänger) aus Sparte Strom";
"[493] Wenn MP-ID in NAD+MR (Nachrichtenempfänger) aus Sparte Gas""";
"598,SG10,CAV,7111,WSZ,analoger Wechselstromzähler,,";
"599,SG10,CAV,7111,LAZ,Lastgangzähler,,";
"600,SG10,CAV,7111,MAZ,Maximumzähler,,";
"601,SG10,CAV,7111,MME,moderne Messeinrichtung nach MsbG,,";
"602,SG10,CAV,7111,DKZ,Drehkolbengaszähler,,";
"603,SG10,CAV,7111,BGZ,Balgengaszähler,,";
"604,SG10,CAV,7111,TRZ,Turbinenradgaszähler,,";
"605,SG10,CAV,7111,UGZ,Ultraschallgaszähler,,";
"606,SG10,CAV,7111,WGZ,Wirbelgaszähler,,";
"607,SG10,CAV,7111,MRG,Messdatenregistriergerät,,";
"608,SG10,CAV,7111,EHZ,elektronischer Haushaltszähler,,";
"609,SG10,CAV,7111,IVA,Individuelle Abstimmung (Sonderausstattung),,";
"610,SG10,CAV,7110,Z01,EDL40,,""[136] Wenn SG10 CCI+++E13 (Zählertyp) CAV+EHZ (elektronischer Haushaltszähler) vorhanden";
"[346] Wenn SG10 CCI+++E13 (Zählertyp) CAV+MME (mME) vorhanden""";
"611,SG10,CAV,7110,Z02,EDL21,,";
"612,SG10,CAV,7110,Z03,sonstiger EHZ,,";
"613,SG10,CAV,7110,Z04,Standard,,";
"614,SG10,CAV,7110,Z05,MeDa-Zähler,,";
"615,Zählergröße (Gas),,,,,,";
"616,SG10,,,,,,";
"617,SG10,CAV,,,,,""[229] Wenn SG10 CCI+++E13 CAV+MRG (Zählertyp: Messdatenregistriergerät) nicht vorhanden";
"[493] Wenn MP-ID in NAD+MR (Nachrichtenempfänger) aus Sparte Gas""";
"618,SG10,CAV,7110,G10,Gaszähler G10,,";
"619,SG10,CAV,7110,G100,Gaszähler G100,,";
"620,SG10,CAV,7110,G1000,Gaszähler G1000,,";
"621,SG10,CAV,7110,G10000,Gaszähler G10000,,";
"622,SG10,CAV,7110,G12500,Gaszähler G12500,,";
"623,SG10,CAV,7110,G16,Gaszähler G16,,";
"624,SG10,CAV,7110,G160,Gaszähler G160,,";
"625,SG10,CAV,7110,G1600,Gaszähler G1600,,";
"626,SG10,CAV,7110,G16000,Gaszähler G16000,,";
"627,SG10,CAV,7110,G2.5,Gaszähler G2.5,,";
"628,SG10,CAV,7110,G25,Gaszähler G25,,";
"629,SG10,CAV,7110,G250,Gaszähler G250,,";
"630,SG10,CAV,7110,G2500,Gaszähler G2500,,";
"631,SG10,CAV,7110,G350,Gaszähler G350,,";
"632,SG10,CAV,7110,G4,Gaszähler G4,,";
"633,SG10,CAV,7110,G40,Gaszähler G40,,";
"634,SG10,CAV,7110,G400,Gaszähler G400,,";
"635,SG10,CAV,7110,G4000,Gaszähler G4000,,";
"636,SG10,CAV,7110,G6,Gaszähler G6,,";
"637,SG10,CAV,7110,G65,Gaszähler G65,,";
"638,SG10,CAV,7110,G650,Gaszähler G650,,";
"639,SG10,CAV,7110,G6500,Gaszähler G6500,,";
"640,Identifikation / Nummer des Gerätes,,,,,,";
"641,SG10,,,,,,";
"642,SG10,CAV,,,,Muss,";
"643,SG10,CAV,7111,Z30,Gerätenummer,X,";
"644,SG10,CAV,7110,Gerätenummer,,X,";
"645,Registeranzahl,,,,,,";
"646,SG10,,,,,,";
"647,SG10,CAV,,,,,""[139] Wenn SG10 CAV+IVA (Individuelle Abstimmung) nicht vorhanden";
"[492] Wenn MP-ID in NAD+MR (Nachrichtenempfänger) aus Sparte Strom""";
"648,SG10,CAV,7111,ETZ,Eintarif,,";
"649,SG10,CAV,7111,ZTZ,Zweitarif,,";
"650,SG10,CAV,7111,NTZ,Mehrtarif,,";
"651,Energierichtung,,,,,,";
"652,SG10,,,,,,";
"653,SG10,CAV,,,,,[492] Wenn MP-ID in NAD+MR (Nachrichtenempfänger) aus Sparte Strom";
"654,SG10,CAV,7111,ERZ,Einrichtungszähler,,";
"655,SG10,CAV,7111,ZRZ,Zweirichtungszähler,,";
"656,Fernschaltung der Zähleinrichtung,,,,,,";
"657,SG10,,,,,,";
"658,SG10,CAV,,,,,[492] Wenn MP-ID in NAD+MR (Nachrichtenempfänger) aus Sparte Strom";
"659,SG10,CAV,7111,Z58,Fernschaltung derZähleinrichtung,,";
"660,SG10,CAV,7110,Z06,vorhanden,,";
"661,SG10,CAV,7110,Z07,nicht vorhanden,,";
"662,Art der Volumenerfassung (Gas),,,,,,";
"663,SG10,,,,,,";
"664,SG10,CAV,,,,,""[166] Wenn vorhanden";
"[493] Wenn MP-ID in NAD+MR (Nachrichtenempfänger) aus Sparte Gas""";
"665,SG10,CAV,7111,ZC0,Art derVolumenerfassung,,";
"666,SG10,CAV,7110,Z16,Hochfrequenzsonde,,";
"667,Befestigungsart Zähleinrichtung,,,,,,";
"668,SG10,,,,,,";
"669,SG10,CCI,,,,,";
"670,SG10,CCI,7037,Z28,BefestigungsartZähleinrichtung,,";
"671,Befestigungsart,,,,,,";
"672,Zähleinrichtung,,,,,,";
"673,SG10,,,,,,";
"674,SG10,CAV,,,,,";
"675,SG10,CAV,7111,BKE,Stecktechnik (Befestigungs- und Kontaktierungseinrichtun g),,";
"676,SG10,CAV,7111,DPA,3-Dreipunktaufhängung,,";
"677,SG10,CAV,7111,HUT,Hutschiene,,";
"678,SG10,CAV,7111,Z31,Einstutzen-Zähler,,";
"679,SG10,CAV,7111,Z32,Zweistutzen-Zähler,,";
"680,Messwerterfassung an der Zähleinrichtung,,,,,,";
"681,SG10,,,,,,[316] Wenn in derselben SG8 das RFF+Z14 (Smartmeter-Gateway) nicht vorhanden";
"682,SG10,CCI,,,,,";
"683,SG10,CCI,7037,E12,Messwerterfassung ander Zähleinrichtung,,";
"684,Messwerterfassung an der Zähleinrichtung,,,,,,";
"685,SG10,,,,,,";
"686,SG10,CAV,,,,,";
"687,SG10,CAV,7111,AMR,fernauslesbare Zähler,,";
"688,SG10,CAV,7111,MMR,manuell ausgelesene Zähler,,";
"689,Mengenumwerterdaten,,,,,,";
"690,SG8,,,,,,""[130] Wenn an Messlokation vorhanden";
"[493] Wenn MP-ID in NAD+MR (Nachrichtenempfänger) aus Sparte Gas""";
"691,SG8,SEQ,,,,,";
"692,SG8,SEQ,1229,Z09,Mengenumwerter-Daten,,";
"693,Referenz auf die Gerätenummer,,,,,,";
"694,SG8,,,,,,";
"695,SG8,RFF,,,,,";
"696,SG8,RFF,1153,MG,Gerätenummer desZählers,,";
"697,SG8,RFF,1154,Gerätenummer,,,";
"698,Mengenumwerter,,,,,,";
"699,SG10,,,,,,";
"700,SG10,CCI,,,,,";
"701,SG10,CCI,7037,Z64,Mengenumwerter,,";
"702,Identifikation / Nummer des Gerätes,,,,,,";
"703,SG10,,,,,,";
"704,SG10,CAV,,,,,";
"705,SG10,CAV,7111,Z30,Gerätenummer,,";
"706,SG10,CAV,7110,Gerätenummer,,,";
"707,Mengenumwertertyp,,,,,,";
"708,SG10,,,,,,";
"709,SG10,CAV,,,,,";
"710,SG10,CAV,7111,DMU,Dichtemengenumwerter,,";
"711,SG10,CAV,7111,TMU,Temperaturmengenumwe rter,,";
"712,SG10,CAV,7111,ZMU,Zustandsmengenumwert er,,";
"713,Art der Volumenerfassung (Gas),,,,,,";
"714,SG10,,,,,,";
"715,SG10,CAV,,,,,[166] Wenn vorhanden";
"716,SG10,CAV,7111,ZC0,Art derVolumenerfassung,,";
"717,SG10,CAV,7110,Z17,Kennlinienkorrektur,,";
"718,SG10,CAV,7110,Z18,Schleichmengenunterdrü ckung,,";
"719,OBIS-Daten der Zähleinrichtung / Mengenumwerter / Smartmeter-Gateway,,,,,,";
"720,SG8,,,,,,[287] Für jede SEQ+Z03 (Zähleinrichtungsdaten) mindestens einmal anzugeben";
"721,SG8,SEQ,,,,,";
"722,SG8,SEQ,1229,Z20,OBIS-Daten derZähleinrichtung,,";
"723,Referenz auf die Gerätenummer,,,,,,";
"724,SG8,,,,,,";
"725,SG8,RFF,,,,,[78] Wenn SG4 STS+7++E02 (Transaktionsgrund: Einzug/Neuanlage) nicht vorhanden";
"726,SG8,RFF,1153,MG,Gerätenummer des Zählers,,";
"727,SG8,RFF,1153,Z11,Gerätenummer des Mengenumwerters,,";
"728,SG8,RFF,1153,Z14,Smartmeter-Gateway,,";
"729,SG8,RFF,1154,Gerätenummer,,,";
"730,Referenz auf die ID einer Marktlokation,,,,,,";
"731,SG8,,,,,,";
"732,SG8,RFF,,,,,[78] Wenn SG4 STS+7++E02 (Transaktionsgrund: Einzug/Neuanlage) nicht vorhanden";
"733,SG8,RFF,1153,Z18,Marktlokation,,";
"734,SG8,RFF,1154,ID einer Marktlokation,,,[950] Format: Marktlokations-ID";
"735,Konfigurnations-ID,,,,,,";
"736,SG8,,,,,,";
"737,SG8,RFF,,,,,""[405] Wenn in derselben SG8 SEQ+Z02 (OBIS- Daten der Marktlokation) eine OBIS-Kennzahl für Wirkarbeit und Kumuliert im PIA+5 vorhanden";
"[420] Wenn in dieser SG8 das RFF+Z14 (Referenz auf die Gerätenummer)""";
"738,,,,,,,vorhanden ist";
"739,SG8,RFF,1153,AGK,Anwendungsreferenznummer,,";
"740,SG8,RFF,1154,""Referenz, Identifikation"",,,";
"741,OBIS-Kennzahl der Zähleinrichtung / Mengenumwerter / Smartmeter-Gateway,,,,,,";
"742,SG8,,,,,,";
"743,SG8,PIA,,,,,";
"744,SG8,PIA,4347,5,Produktidentifikation,,";
"745,SG8,PIA,7140,OBIS-Kennzahl derZähleinrichtung,,,""[323] Es sind alle OBIS- Kennzahlen gem. EDI@Energy Codeliste der OBIS-Kennzahlen und Medien für den deutschen Energiemarkt Kap. 3. anzugeben welche an der Zähleinrichtung genutzt werden, dabei muss der Mindestumfang aus Kap. 3.4 eingehalten werden";
"[324] Es sind alle OBIS- Kennzahlen gem. EDI@Energy Codeliste der OBIS Kennzahlen Kap. 4. anzugeben welche an der Zähleinrichtung genutzt werden, dabei muss der Mindestumfang aus Kap. 4.5 eingehalten werden";
"[492] Wenn MP-ID in NAD+MR (Nachrichtenempfänger) aus Sparte Strom";
"[493] Wenn MP-ID in NAD+MR (Nachrichtenempfänger) aus Sparte Gas""";
"746,SG8,PIA,7143,SRW,OBIS-Kennzahl,,";
"747,Vor- und Nachkommastellen des Zählwerks,,,,,,";
"748,SG10,,,,,,""[273] Wenn in derselben SG8 SEQ+Z20 (OBIS- Daten der Zähleinrichtung) das PIA+5+1-b?:1.8.e / 1-b?: 2.8.e / 1-b?:3.8.e / 1-b?: 4.8.e / 1-b?:5.8.e / 1-b?: 6.8.e / 1-b?:7.8.e / 1-b?: 8.8.e /  1-65?:1.8.e / 1- 65?:2.8.0 / 1-65?:1.8.63 vorhanden";
"[274] Wenn in derselben SG8 SEQ+Z20 (OBIS- Daten der Zähleinrichtung) das PIA+5+7-b?:3.0.0 / 7-b?: 6.0.0 / 7-b?:3.1.0 / 7-b?:""";
"749,,,,,,,""6.1.0 / 7-b?:3.2.0 / 7-b?: 6.2.0 / 7-b?:13.2.0 / 7- b?:16.2.0 / 7-b?:1.0.0 / 7-b?:2.0.0 / 7-b?:4.0.0 / 7-b?:5.0.0 / 7-b?:11.2.0 / 7-b?:12.2.0 / 7-b?:14.2.0 / 7-b?:15.2.0 vorhanden  [492] Wenn MP-ID in NAD+MR (Nachrichtenempfänger) aus Sparte Strom";
"[493] Wenn MP-ID in NAD+MR (Nachrichtenempfänger) aus Sparte Gas""";
"750,SG10,CCI,,,,,";
"751,SG10,CCI,7059,11,Produkt,,";
"752,SG10,CCI,7037,Z33,Vor- undNachkommastellen desZählwerkes,,";
"753,Vor- und Nachkommastellen des Zählwerks,,,,,,";
"754,SG10,,,,,,";
"755,SG10,CAV,,,,,";
"756,SG10,CAV,7110,Angabe der Vorkommastelle,,,";
"757,SG10,CAV,7110,Angabe der Nachkommastelle,,,";
"758,Wandlerdaten,,,,,,";
"759,SG8,,,,,,""[130] Wenn an Messlokation vorhanden";
"[492] Wenn MP-ID in NAD+MR (Nachrichtenempfänger) aus Sparte Strom""";
"760,SG8,SEQ,,,,,";
"761,SG8,SEQ,1229,Z04,Wandler-Daten,,";
"762,Referenz auf die Gerätenummer,,,,,,";
"763,SG8,,,,,,";
"764,SG8,RFF,,,,,";
"765,SG8,RFF,1153,MG,Gerätenummer desZählers,,";
"766,SG8,RFF,1154,Gerätenummer,,,";
"767,Wandler,,,,,,";
"768,SG10,,,,,,";
"769,SG10,CCI,,,,,";
"770,SG10,CCI,7037,Z25,Wandler,,";
"771,Identifikation / Nummer des Gerätes,,,,,,";
"772,SG10,,,,,,";
"773,SG10,CAV,,,,,""[317] Wenn in derselben SG8 SEQ+Z04 (Wandlerdaten) das SG10 CCI+++Z25 (Wandler) CAV+MIW/ MPW/MUW vorhanden, ist das Segment mindestens zweimal anzugeben""";
"774,,,,,,,"" [318] Wenn in derselben SG8 SEQ+Z04 (Wandlerdaten) das SG10 CCI+++Z25 (Wandler) CAV+MBW (Blockstromwandler) vorhanden, ist das Segment genau einmal anzugeben""";
"775,SG10,CAV,7111,Z30,Gerätenummer,,";
"776,SG10,CAV,7110,Gerätenummer,,,";
"777,Wandlertyp und Faktor,,,,,,";
"778,SG10,,,,,,";
"779,SG10,CAV,,,,,";
"780,SG10,CAV,7111,MIW,Messwandlersatz Strom,,";
"781,SG10,CAV,7111,MPW,Kombimesswandlersatz (Strom und Spannung),,";
"782,SG10,CAV,7111,MBW,Blockstromwandler,,";
"783,SG10,CAV,7111,MUW,Messwandlersatz Spannung,,";
"784,SG10,CAV,7110,Wandlerfaktor,,,""[141] Wenn SG10 CAV+MIW/ MPW/ MBW vorhanden";
"[902] Format: Möglicher Wert: ≥ 0""";
"785,Kommunikationseinrichtung sdaten,,,,,,";
"786,SG8,,,,,,""[119] Je SG8 SEQ+Z13 (Smartmeter-Gateway) ist genau einmal die Segmentgruppe anzugeben";
"[130] Wenn an Messlokation vorhanden""";
"787,SG8,SEQ,,,,,";
"788,SG8,SEQ,1229,Z05,Kommunikationseinrichtungsdaten,,";
"789,Referenz auf die Gerätenummer,,,,,,";
"790,SG8,,,,,,";
"791,SG8,RFF,,,,,";
"792,SG8,RFF,1153,MG,Gerätenummer desZählers,,";
"793,SG8,RFF,1154,Gerätenummer,,,";
"794,Kommunikationseinrichtung,,,,,,";
"795,SG10,,,,,,";
"796,SG10,CCI,,,,,";
"797,SG10,CCI,7037,Z26,Kommunikationseinrichtung,,";
"798,Identifikation / Nummer des Gerätes,,,,,,";
"799,SG10,,,,,,";
"800,SG10,CAV,,,,,";
"801,SG10,CAV,7111,Z30,Gerätenummer,,";
"802,SG10,CAV,7110,Gerätenummer,,,";
"803,Kommunikationseinrichtung,,,,,,";
"804,styp,,,,,,";
"805,SG10,,,,,,";
"806,SG10,CAV,,,,,";
"807,SG10,CAV,7111,GSM,GSM/GPRS/UMTS- Kom.-Einr.,,";
"808,SG10,CAV,7111,ETH,Ethernet-Kom.-Einricht. LAN/WLAN,,";
"809,SG10,CAV,7111,PLC,PLC-Kom.-Einrichtung,,";
"810,SG10,CAV,7111,PST,Festnetz-Kom.-Einricht. TAE,,";
"811,SG10,CAV,7111,DSL,DSL-Kom.Einr.,,";
"812,SG10,CAV,7111,LTE,LTE-Kom.-Einr.,,";
"813,Daten der technischen Steuereinrichtung,,,,,,";
"814,SG8,,,,,,[130] Wenn an Messlokation vorhanden";
"815,SG8,SEQ,,,,,";
"816,SG8,SEQ,1229,Z06,Daten der technischenSteuereinrichtung,,";
"817,Referenz auf die Gerätenummer,,,,,,";
"818,SG8,,,,,,";
"819,SG8,RFF,,,,,";
"820,SG8,RFF,1153,MG,Gerätenummer desZählers,,";
"821,SG8,RFF,1154,Gerätenummer,,,";
"822,Technische Steuereinrichtung,,,,,,";
"823,SG10,,,,,,";
"824,SG10,CCI,,,,,";
"825,SG10,CCI,7037,Z27,TechnischeSteuereinrichtung,,";
"826,Identifikation / Nummer des Gerätes,,,,,,";
"827,SG10,,,,,,";
"828,SG10,CAV,,,,,";
"829,SG10,CAV,7111,Z30,Gerätenummer,,";
"830,SG10,CAV,7110,Gerätenummer,,,";
"831,Technische Steuereinrichtungstyp,,,,,,";
"832,SG10,,,,,,";
"833,SG10,CAV,,,,,";
"834,SG10,CAV,7111,RSU,Rundsteuerempfänger,,";
"835,SG10,CAV,7111,TSU,Tarifschaltuhr,,";
"836,Smartmeter-Gateway,,,,,,";
"837,SG8,,,,,,[130] Wenn an Messlokation vorhanden";
"838,SG8,SEQ,,,,,";
"839,SG8,SEQ,1229,Z13,Smartmeter-Gateway,,";
"840,Smartmeter-Gateway,,,,,,";
"841,SG10,,,,,,";
"842,SG10,CCI,,,,,";
"843,SG10,CCI,7037,Z75,Smartmeter-Gateway,,";
"844,Identifikation / Nummer des Gerätes,,,,,,";
"845,SG10,,,,,,";
"846,SG10,CAV,,,,,";
"847,SG10,CAV,7111,Z30,Gerätenummer,,";
"848,SG10,CAV,7110,Gerätenummer,,,[952] Format: Gerätenummer nach DIN 43863-5";
"849,Daten der Steuerbox,,,,,,";
"850,SG8,,,,,,""[133] Wenn an der übermittelten Marktlokation / Messlokation vorhanden";
"[492] Wenn MP-ID in NAD+MR (Nachrichtenempfänger) aus Sparte Strom""";
"851,SG8,SEQ,,,,,";
"852,SG8,SEQ,1229,Z14,Steuerbox,,";
"853,Referenz auf das Smartmeter-Gateway,,,,,,";
"854,SG8,,,,,,";
"855,SG8,RFF,,,,,";
"856,SG8,RFF,1153,Z14,Smartmeter-Gateway,,";
"857,SG8,RFF,1154,Identifikation / Nummer desSmartmeter-Gateways,,,";
"858,Referenz auf die ID der Marktlokation,,,,,,";
"859,SG8,,,,,,";
"860,SG8,RFF,,,,,";
"861,SG8,RFF,1153,Z18,Marktlokation,,";
"862,SG8,RFF,1154,ID einer Marktlokation,,,[950] Format: Marktlokations-ID";
"863,Steuerbox,,,,,,";
"864,SG10,,,,,,";
"865,SG10,CCI,,,,,";
"866,SG10,CCI,7037,Z76,Steuerbox,,";
"867,Identifikation / Nummer des Gerätes,,,,,,";
"868,SG10,,,,,,";
"869,SG10,CAV,,,,,";
"870,SG10,CAV,7111,Z30,Gerätenummer,,";
"871,SG10,CAV,7110,Gerätenummer,,,[952] Format: Gerätenummer nach DIN 43863-5";
"872,Profildaten (Strom),,,,,,";
"873,SG8,,,,,,""[197] Wenn das RFF+Z18 (Marktlokation) aus dieser SG8 auf das gleiche SG5 LOC+172, wie ein RFF+Z18 (Marktlokation) aus einer SG8 SEQ+Z01 (Daten der Marktlokation), in dem SG10 CCI+++ZA6 (Prognosegrundlage der Marktlokation: Prognose auf Basis von Profilen) CAV+E02 (SLP/SEP) vorhanden """;
"874,,,,,,,""[311] Für jede 11-stellige ID im SG5 LOC+172 (Meldepunkt) DE3225 auf die das RFF+Z18 (Marktlokation) der SG8 SEQ+Z01 (Daten der Marktlokation) referenziert mindestens einmal anzugeben";
"[492] Wenn MP-ID in NAD+MR (Nachrichtenempfänger) aus Sparte Strom""";
"875,SG8,SEQ,,,,,";
"876,SG8,SEQ,1229,Z21,Profildaten,,";
"877,Referenz auf die ID der Marktlokation,,,,,,";
"878,SG8,,,,,,";
"879,SG8,RFF,,,,,";
"880,SG8,RFF,1153,Z18,Marktlokation,,";
"881,SG8,RFF,1154,ID einer Marktlokation,,,[950] Format: Marktlokations-ID";
"882,Normiertes Profil (Strom),,,,,,";
"883,SG10,,,,,,";
"884,SG10,CCI,,,,,";
"885,SG10,CCI,7059,Z02,Standardlastprofil,,";
"886,SG10,CCI,7059,Z04,Standardeinspeiseprofil,,";
"887,SG10,CCI,7037,E01,synthetisches Verfahren,,";
"888,SG10,CCI,7037,Z10,analytisches Verfahren,,";
"889,Normiertes Profil (Strom),,,,,,";
"890,SG10,,,,,,";
"891,SG10,CAV,,,,,";
"892,SG10,CAV,7111,Code des Normierten Profils,,,";
"893,Profilschardaten,,,,,,";
"894,SG8,,,,,,""[89] Wenn SG10 CCI+++ZA6 (Prognosegrundlage der Marktlokation: Prognose auf Basis von Profilen) CAV+E14 (TLP/TEP) vorhanden";
"[311] Für jede 11-stellige ID im SG5 LOC+172 (Meldepunkt) DE3225 auf die das RFF+Z18 (Marktlokation) der SG8 SEQ+Z01 (Daten der Marktlokation) referenziert mindestens einmal anzugeben";
"[492] Wenn MP-ID in NAD+MR (Nachrichtenempfänger) aus Sparte Strom""";
"895,SG8,SEQ,,,,,";
"896,SG8,SEQ,1229,Z08,Profilschardaten,,";
"897,Referenz auf die ID der Marktlokation,,,,,,";
"898,SG8,,,,,,";
"899,SG8,RFF,,,,,";
"900,SG8,RFF,1153,Z18,Marktlokation,,";
"901,SG8,RFF,1154,ID einer Marktlokation,,,[950] Format: Marktlokations-ID";
"902,Normiertes Profil,,,,,,";
"903,SG10,,,,,,";
"904,SG10,CCI,,,,,";
"905,SG10,CCI,7059,Z03,tagesparameterabhängig es Lastprofil,,";
"906,SG10,CCI,7059,Z05,tagesparameterabhängig es Einspeiseprofil,,";
"907,SG10,CCI,7037,E01,synthetisches Verfahren,,";
"908,SG10,CCI,7037,Z10,analytisches Verfahren,,";
"909,Normiertes Profil,,,,,,";
"910,SG10,,,,,,";
"911,SG10,CAV,,,,,";
"912,SG10,CAV,7111,Code des Normierten Profils(Strom),,,";
"913,Klimazone / Temperaturmessstelle,,,,,,";
"914,SG10,,,,,,";
"915,SG10,CCI,,,,,";
"916,SG10,CCI,7059,Z99,Messstelle des Tagesparameters (derzeit ist nur die Temperatur ein erlaubter Tagesparameter),,";
"917,SG10,CCI,7059,ZA0,Klimazone des Tagesparameters (derzeit ist Tagesparameter),,";
"918,SG10,CCI,7037,ID Klimazone /Temperaturmessstelle,,,";
"919,SG10,CCI,1131,Dienstanbieter,,,[58] Wenn in diesem CCI das DE3055 mit dem Code 293 vorhanden";
"920,SG10,CCI,3055,89,Vergeben vom Händler (hier Netzbetreiber),,";
"921,SG10,CCI,3055,293,""DE, BDEW (Bundesverband der Energie- und Wasserwirtschaft e.V.)"",,";
"922,Referenzprofildaten,,,,,,";
"923,SG8,,,,,,""[223] Wenn das RFF+Z18 (Marktlokation) aus dieser SG8 auf das gleiche SG5 LOC+172, wie ein RFF+Z18 (Marktlokation) aus einer SG8 SEQ+Z01 (Daten der Marktlokation) verweist, und dort das SG10 CCI+Z30++Z06 (Lieferrichtung: Erzeugung) vorhanden ist";
"[265] Wenn SG10 CCI+++ZA6 (Prognosegrundlage der Marktlokation: Prognose auf Basis von Profilen)""";
"924,,,,,,,CAV+Z36 (TEP m. Referenzmessung) vorhanden  [492] Wenn MP-ID in NAD+MR (Nachrichtenempfänger) aus Sparte Strom";
"925,SG8,SEQ,,,,,";
"926,SG8,SEQ,1229,Z38,Referenzprofildaten,,";
"927,Referenz auf die ID der Marktlokation,,,,,,";
"928,SG8,,,,,,";
"929,SG8,RFF,,,,,";
"930,SG8,RFF,1153,Z18,Marktlokation,,";
"931,SG8,RFF,1154,ID einer Marktlokation,,,[950] Format: Marktlokations-ID";
"932,Referenzprofil,,,,,,";
"933,SG10,,,,,,";
"934,SG10,CCI,,,,,";
"935,SG10,CCI,7059,Z05,tagesparameterabhängiges Einspeiseprofil,,";
"936,Referenzprofil,,,,,,";
"937,SG10,,,,,,";
"938,SG10,CAV,,,,,";
"939,SG10,CAV,7111,Code des Referenzprofils,,,";
"940,Kunde des Lieferanten,,,,,,";
"941,SG12,,,,,,""[165] Wenn bekannt";
"[492] Wenn MP-ID in NAD+MR (Nachrichtenempfänger) aus Sparte Strom";
"[506] Hinweis: Für jeden 11-stelligen Code im LOC+172 (Meldepunkt) sollen die entsprechenden Kundendaten des LF angegeben werden, falls bekannt""";
"942,SG12,NAD,,,,,";
"943,SG12,NAD,3035,Z09,Kunde des LF,,";
"944,SG12,NAD,3036,Name,,,";
"945,SG12,NAD,3045,Z01,Struktur von Personennamen,,";
"946,SG12,NAD,3045,Z02,Struktur der Firmenbezeichnung,,";
"947,Referenz auf die ID der Marktlokation,,,,,,";
"948,SG12,,,,,,";
"949,SG12,RFF,,,,,";
"950,SG12,RFF,1153,Z18,Marktlokation,,";
"951,SG12,RFF,1154,ID der Marktlokation,,,[950] Format: Marktlokations-ID";
"952,Korrespondenzanschrift des Kunden des Lieferanten,,,,,,";
"953,SG12,,,,,,[165] Wenn bekannt";
"954,,,,,,,"" [492] Wenn MP-ID in NAD+MR (Nachrichtenempfänger) aus Sparte Strom";
"[506] Hinweis: Für jeden 11-stelligen Code im LOC+172 (Meldepunkt) sollen die entsprechenden Kundendaten des LF angegeben werden, falls bekannt""";
"955,SG12,NAD,,,,,";
"956,SG12,NAD,3035,Z04,Korrespondenzanschriftdes Kunden des LF,,";
"957,SG12,NAD,3036,Name,,,";
"958,SG12,NAD,3045,Z01,Struktur von Personennamen,,";
"959,SG12,NAD,3045,Z02,Struktur der Firmenbezeichnung,,";
"960,SG12,NAD,3042,Straße und Hausnummer oderPostfach,,,";
"961,SG12,NAD,3164,Ort,,,";
"962,SG12,NAD,3251,Postleitzahl,,,""[166] Wenn vorhanden";
"[268] Wenn der Code im DE3207 in der """"EDI@Energy Codeliste der europäischen Ländercodes"""" in der Spalte """"PLZ vorhanden"""" ein """"X"""" aufgeführt ist""";
"963,SG12,NAD,3207,""Ländername, Code"",,,";
"964,Referenz auf die ID der Marktlokation,,,,,,";
"965,SG12,,,,,,";
"966,SG12,RFF,,,,,";
"967,SG12,RFF,1153,Z18,Marktlokation,,";
"968,SG12,RFF,1154,ID der Marktlokation,,,[950] Format: Marktlokations-ID";
"969,Kunde des Messstellenbetreibers,,,,,,";
"970,SG12,,,,,Muss,";
"971,SG12,NAD,,,,Muss,";
"972,SG12,NAD,3035,Z07,Kunde des MSB,X,";
"973,SG12,NAD,3036,Name,,X,";
"974,SG12,NAD,3045,Z01,Struktur von Personennamen,X,";
"975,SG12,NAD,3045,Z02,Struktur der Firmenbezeichnung,X,";
"976,Referenz auf die ID der Messlokation,,,,,,";
"977,SG12,,,,,,";
"978,SG12,RFF,,,,,";
"979,SG12,RFF,1153,Z19,Messlokation,,";
"980,SG12,RFF,1154,ID der Messlokation,,,[951] Format: Zählpunktbezeichnung";
"981,Korrespondenzanschrift des Kunden des,,,,,,";
"982,Messstellenbetreibers,,,,,,";
"983,SG12,,,,,Muss,";
"984,SG12,NAD,,,,Muss,";
"985,SG12,NAD,3035,Z08,Korrespondenzanschriftdes Kunden des MSB,X,";
"986,SG12,NAD,3036,Name,,X,";
"987,SG12,NAD,3045,Z01,Struktur von Personennamen,X,";
"988,SG12,NAD,3045,Z02,Struktur der Firmenbezeichnung,X,";
"989,SG12,NAD,3042,Straße und Hausnummer oderPostfach,,X,";
"990,SG12,NAD,3164,Ort,,X,";
"991,SG12,NAD,3251,Postleitzahl,,M [268]S [166],""[166] Wenn vorhanden";
"[268] Wenn der Code im DE3207 in der """"EDI@Energy Codeliste der europäischen Ländercodes"""" in der Spalte """"PLZ vorhanden"""" ein """"X"""" aufgeführt ist""";
"992,SG12,NAD,3207,""Ländername, Code"",,X,";
"993,Referenz auf die ID der Marktlokation,,,,,,";
"994,SG12,,,,,,";
"995,SG12,RFF,,,,,";
"996,SG12,RFF,1153,Z18,Marktlokation,,";
"997,SG12,RFF,1154,ID der Marktlokation,,,[950] Format: Marktlokations-ID";
"998,Messlokationsadresse,,,,,,";
"999,SG12,,,,,Soll [165],""[165] Wenn bekannt";
"[586] Hinweis: Die Messlokationsadresse ist der Messlokation zugeordnet, welche in SG8 SEQ+Z18 (Daten der Messlokation) mit CCI+Z01++Z82 (Verwendungsumfang: ID der prozessual behandelten Messlokation) gekennzeichnet ist""";
"1000,SG12,NAD,,,,Muss,";
"1001,SG12,NAD,3035,Z03,Messlokationsadresse,X,";
"1002,SG12,NAD,3124,Zusatzinformation zurIdentifizierung,,K,";
"1003,SG12,NAD,3042,Straße und Hausnummer oderPostfach,,S [166]M [212],""[166] Wenn vorhanden";
"[212] Wenn im selben SG12 NAD DE3124 nicht vorhanden""";
"1004,SG12,NAD,3164,Ort,,X,";
"1005,SG12,NAD,3251,Postleitzahl,,X,";
"1006,SG12,NAD,3207,""Ländername, Code"",,X,";
"1007,Referenz auf die ID einer Messlokation,,,,,,";
"1008,SG12,,,,,,";
"1009,SG12,RFF,,,,,";
"1010,SG12,RFF,1153,Z19,Messlokation,,";
"1011,SG12,RFF,1154,ID einer Messlokation,,,[951] Format: Zählpunktbezeichnung";
"1012,Name und Adresse für die Ablesekarte,,,,,,";
"1013,SG12,,,,,Muss,""[599] Hinweis: Es ist der Name und die Adresse des Ablesekartenempfängers für die Messlokation anzugeben, welche in SG8 SEQ+Z18 (Daten der Messlokation) mit CCI+Z01++Z82 (Verwendungsumfang: ID der prozessual behandelten Messlokation) gekennzeichnet ist""";
"1014,SG12,NAD,,,,Muss,";
"1015,SG12,NAD,3035,Z05,Name und Adresse fürdie Ablesekarte,X,";
"1016,SG12,NAD,3036,Name,,X,";
"1017,SG12,NAD,3045,Z01,Struktur von Personennamen,X,";
"1018,SG12,NAD,3045,Z02,Struktur der Firmenbezeichnung,X,";
"1019,SG12,NAD,3042,Straße und Hausnummer oderPostfach,,X,";
"1020,SG12,NAD,3164,Ort,,X,";
"1021,SG12,NAD,3251,Postleitzahl,,M [268]S [166],""[166] Wenn vorhanden";
"[268] Wenn der Code im DE3207 in der """"EDI@Energy Codeliste der europäischen Ländercodes"""" in der Spalte """"PLZ vorhanden"""" ein """"X"""" aufgeführt ist""";
"1022,SG12,NAD,3207,""Ländername, Code"",,X,";
"1023,Referenz auf die ID einer Messlokation,,,,,,";
"1024,SG12,,,,,,";
"1025,SG12,RFF,,,,Kann,";
"1026,SG12,RFF,1153,Z19,Messlokation,X,";
"1027,SG12,RFF,1154,ID einer Messlokation,,X [951],[951] Format: Zählpunktbezeichnung";
"1028,Nachrichten-Endesegment,,,,,,";
"1029,,UNT,,,,Muss,";
"1030,,UNT,0074,Anzahl der Segmente in einerNachricht,,X,";
"1031,,UNT,0062,Nachrichten-Referenznummer,,X,"]%string.
(** csv.field_size_limit() *)
Definition read := read_csv_file (ch ",") 131072%N decode_utf8 None N.of_nat csv_bytes.
(** tests/unit_tests/test_ahb_csv_reader.py:192 *)
Example test_csv_file_reading_11042_1 :
  match read with
  | Raise _ => False
  | Ok (p, r) =>
      List.length (rd_rows r) = 844
      /\ existsb (fun l => ostr_eqb (al_section l) (Some (u "Korrespondenzanschrift des Kunden des Messstellenbetreibers"))) (rd_rows r) = true
      /\ match rd_rows r with l :: _ => al_segment l = Some (u "UNH") /\ al_expression l = Some (u "Muss") | [] => False end
      /\ match rev (rd_rows r) with
         | l :: _ => al_segment l = Some (u "UNT") /\ al_element l = Some (u "0062") /\ al_name l = Some (u "Nachrichten-Referenznummer") /\ al_expression l = Some (u "X")
         | [] => False
         end
      /\ match reader_to_flat_ahb (p, r) with
         | Ok a => Nat.ltb (List.length (fa_lines a)) (List.length (rd_rows r)) = true
                   /\ get_segment_groups a = None :: map (fun k => Some (u k)) ["SG2"; "SG3"; "SG4"; "SG5"; "SG6"; "SG8"; "SG9"; "SG10"; "SG12"]%string
                   /\ forallb (fun l => match al_index l with Some _ => true | None => false end) (fa_lines a) = true
         | Raise _ => False
         end
  end.
Proof. vm_compute. repeat split; reflexivity. Qed.
(** tests/unit_tests/test_ahb_csv_reader.py:274 *)
Example test_extract_bedingungen_from_csv_1 :
  match read with Raise _ => False | Ok (p, r) => dict_get (u "931") (rd_bedingungen r) = Some (u "Format: ZZZ = +00") /\ dict_get (u "621") (rd_bedingungen r) = Some (u "Hinweis: Es ist der MSB anzugeben, welcher ab dem Zeitpunkt der Lokation zugeordnet ist, der in DTM+76 (Datum zum geplanten Leistungsbeginn) genannt ist.") end.
Proof. vm_compute. repeat split; reflexivity. Qed.
(** tests/unit_tests/test_ahb_csv_reader.py:255 *)
Example test_is_parsable_1 :
  check_file_can_be_parsed_as_ahb_csv 131072%N N.of_nat csv_bytes = Ok tt.
Proof. vm_compute. repeat split; reflexivity. Qed.
