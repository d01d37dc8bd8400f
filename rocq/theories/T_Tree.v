(** Generated by tools/gen_tests.py from tests/unit_tests/test_tree_to_sgh.py: a test of the model, not a proof.
    The model is evaluated on the arguments of the project's own unit tests and compared with the values expected there. *)
From Coq Require Import Ascii String List NArith ZArith Bool.
From Verif Require Import PyBase PyStr M_Tree L_ReFirst.
Import ListNotations.
Local Open Scope list_scope.

(** tests/unit_tests/migs/FV2210/segment_group_hierarchies/UTILTS1.1a.tree *)
Definition file : node := File (bytes_of "/:UNB[M;M;M*Man4*Mnn1+M*Man35*Can4*Can14+M*Man35*Can4*Can14+M*Mnn6*Mnn4+C*Man14*Can2+C*Can14+C*Can1+C*Can1+C*Can35+C*Cnn1;M*Man4{UNOC}*Mnn1{3}+M*Man35*Ran4{14.500.501.502.ZZZ}*N+M*Man35*Ran4{14.500.501.502.ZZZ}*N+M*Mnn6*Mnn4+M*Man14+N+C*Can14+N+N+N+C*Cnn1],UNH[M;M;M*Man14+M*Man6*Man3*Man3*Man2*Can6+C*Can35+C*Mnn2*Caa1;M*Man14+M*Man6{UTILTS}*Man3{D}*Man3{18A}*Man2{UN}*Can6+C*Can35+C*Rnn2*Caa1{C.F}],UNZ[M;M]
UNH:BGM[M;M;C*Can3+C*Can35;R*Ran3{E01.E02.E03.E06.Z14.E35.E44.Z02.E40.Z05.Z07.Z13.Z17.Z18.Z22.Z26}+R*Ran35],DTM[M;M;M*Man3*Can35*Can3;M*Man3{137.735.157}*Ran35*Ran3{203.406.610}],SG1[C;C],SG2[C;R],SG5[C;R],UNT[M;M;M*Mnn6+M*Man14;M*Mnn6+M*Man14]
SG1:RFF[M;M;M*Man3*Can70;M*Man3{AAV}*Ran70]
SG2:NAD[M;M;C*Man3+C*Man35*Can17*Can3;(NAD#1#0=MR)C*Man3+R*Man35*N*Ran3{9.293.305.321.332}|(NAD#1#0=MS)C*Man3+R*Man35*N*Ran3{9.293.305.321.332}],SG3[C;C]
SG3:CTA[M;M;C*Can3+C*Can17*Can256;C*Ran3{IC}+R*N*Ran35],COM[C;R;M*Man512*Man3;M*Man512*Man3{EM.FX.TE.AJ.AL}]
SG5:IDE[M;M;M*Man3+C*Man35;M*Man3{24}+R*Man35],LOC[M;M;M*Man3+C*Can35*Can17*Can3+C*Can25+C*Can25+C*Can3;(LOC#1#0=Z02)M*Man3+C*Ran35*Can17*Ran3{89.293}|(LOC#1#0=Z03)M*Man3+C*Ran35*Can17*Ran3{89.293}|(LOC#1#0=Z05)M*Man3+C*Ran35*Can17*Ran3{89.293}|(LOC#1#0=107)M*Man3+C*Ran35|(LOC#1#0=237)M*Man3+R*Ran35+C*N+C*N+C*N+C*Cnn1|(LOC#1#0=231)M*Man3+C*Ran35*N*N|(LOC#1#0=172)M*Man3+C*Ran35*N+C*N+C*N+C*Can3{Z21}|(LOC#1#0=Z01)M*Man3+C*Ran35*N*Ran3{89}|(LOC#1#0=Z07)M*Man3+C*Ran35],DTM[C;C;M*Man3*Can35*Can3;M*Man3{76.294.92.93.157.158.471.155.752.672.159.Z01.Z05.Z06.Z07.Z08.Z09.Z10}*Ran35*Ran3{102.203.104.106.602.802.Z01}],STS[C;C;C*Man3+C*Man3+C*Man3;(STS#1#0=7)R*Man3+N*N+R*Man3{E01.E02.E03.E05.E06.Z26.Z33.Z36.Z37.Z38.Z39.Z40.Z41.Z69.ZB2.ZB3.ZC6.ZC7.ZC8.ZG9.ZH0.ZH1.ZH2.ZD0.ZD2.ZD9.Z15.ZE3.ZE4.ZE5.ZG5.ZE6.ZE7.ZE8.ZE9.ZF0.ZF1.ZF2.ZF3.ZF4.ZF5.ZF6.ZF7.ZF8}|(STS#1#0=E01)R*Man3+N*N+R*Man3{E11.E12.E13.E14.E15.E17.E62.Z01.Z07.Z08.Z09.Z11.Z12.Z14.Z15.Z29.Z30.Z34.Z35.Z43.Z44.Z45.Z48.Z49.Z50.Z52.Z54.Z56.Z57.Z58.Z59.Z60.Z61.Z62.ZB4.ZB5.ZB6.ZC5.ZD3.ZD4.ZD5.ZD6.ZE0.ZE1.ZE2.ZF9.ZG0.ZG1.ZG2.ZG4.ZI3.ZI4.ZI5.ZI6.ZI7}|(STS#1#0=Z17)R*Man3+N*N+R*Man3{E01.E03}|(STS#1#0=Z04)R*Man3+R*Man3{Z01.Z03.Z04.Z06}|(STS#1#0=Z18)R*Man3+R*Man3{Z13.Z14}|(STS#1#0=5)R*Man3+R*Man3{Z18.Z19.Z21.Z22.Z23.Z29}|(STS#1#0=Z16)R*Man3+R*Man3{Z26.Z27.Z28}|(STS#1#0=Z22)R*Man3+C*N+R*Man3*Can17*Can3{293}],FTX[C;C;M*Man3+C*Can3+C*Man17+C*Man512*Can512*Can512*Can512*Can512;M*Man3{ACB.ABO.ADM.Z01}+C*N+C*Man17{Z01.Z02.Z03.Z04.Z05.Z06}+C*Man512*Can512*Can512*Can512*Can512],AGR[C;C;C*Man3*Can3;R*Man3{9.11.E03.Z01}*Ran3{E01.E02.Z03.Z04.Z06.E09.E10}],SG6[M;M],SG7[C;C],SG8[C;C]
SG6:RFF[M;M;M*Man3*Can70;(RFF#1#0=Z13)M*Man3{Z13}*Rnn5|M*Man3{TN.ACW.AAV.AVE.AUU.Z07.Z16}*Ran70]
SG7:CCI[M;M;C*Can3+C*Can3+C*Man17*Can17;C*Can3{Z02.Z03.Z04.Z05.Z12.Z06.Z07.Z11}+C*N+R*Man17*Can17{GABi-RLMNEV.GABi-RLMmT.GABi-RLMoT.GABi-Entryso.GABi-Exitso.GABi-SLPana.GABi-SLPsyn.Entry_Biogas.ENTRY_H2}],CAV[C;C;M*Can3*Can17*Can3*Can35;(CCI#3#0=E01)M*Ran3*N*Can3{89.293}|(CCI#3#0=E17)M*Ran3{Z22}*N*N*Rnp35|(CCI#3#0=Z10)M*Ran3*N*Can3{89.293}|(CCI#3#0=Z12)M*Ran3|(CCI#3#0=Z72)M*Ran3*N*Can3{E01.E02.E14.E24.Z36.Z29}|(CCI#3#0=Y02)M*Ran3{Y04.Y05}|(CAV#1#0=Z14)M*Ran3*N*N*Can35|(CCI#3#0=Z16)M*Ran3{Z28}*N*N*Rnn35|M*Ran3{E01.E02.E03.E04.E05.E06.E07.E08.E09.E14.E24.Y01.Y02.Y03.Z14.Z22.Z29.Z36.EGS.LGS.NZR.SES.SLS.TES.TLS.BAS.DBA.DZR.FPE.FPI.SRE.SRI.VZR}*N*Can3{89.293}]
SG8:SEQ[M;M;C*Can3;C*Ran3{Z01.Z02.Z03.Z04.Z05.Z06.Z07.Z08.Z09.Z10.Z12}],DTM[C;C;M*Man3*Can35*Can3;M*Man3*Ran35*Ran3],RFF[C;C;M*Man3*Can70;M*Man3{AVE.AUU.MG.Z10.Z11}*Man70],PIA[C;R;M*Man3+M*Can35*Can3+C*Can35*Can3+C*Can35*Can3*Can17;(PIA#1#0=5)M*Man3+M*Ran35*Ran3{SRW}+C*Ran35*Can3{BN}+C*N*Ran3{MP}*Ran17{ZNS.ZSF}|(PIA#1#0=Z01)M*Man3+M*N*Ran3{Z03.Z04.Z05}],SG9[C;C]
SG9:CCI[M;M;C*Can3+C*Can3+C*Man17*Can17*Can3*Can35;C*N+C*N+C*Ran17{E04.E12.E13.Z08.Z09.Z16.Z21.Z25.Z26.Z27.Z28.Z30.Z31.Z32.Z33.Z34.Z63.Z59.Z60.Z62.Z64.Z65.Z66.Z67.Z68.Z69.Z70.Z35.Z37.Z82.Z83.Z84.Z78.Z85}*N*N*Can35],CAV[C;C;M*Can3*Can17*Can3*Can35*Can35;M*Can3{AHZ.AMR.BAS.BGZ.BI1.BI2.BI3.BIL.BIP.BIT.BKE.DBA.DKZ.DMU.DPA.DZR.E03.E04.E05.E06.DSL.EGS.EHZ.ERZ.ETH.ETZ.FPE.FPI.GAA.GAB.GAC.GAL.GAP.GAT.GE1.GE2.GE3.GEL.GEP.GET.GSM.HUT.IVA.LAZ.LGS.LTE.MAZ.MBW.MIW.MME.MMR.MPW.MRG.MUW.NTZ.NZR.PLC.PST.RSU.SES.SLS.SO1.SO2.SO3.SOL.SOP.SOT.SRE.SRI.TES.TLS.TMU.TRZ.TSU.UGZ.VZR.WAA.WAB.WAC.WAL.WAP.WAT.WF1.WF2.WF3.WFL.WFP.WFT.WGZ.WN1.WN2.WN3.WNL.WNP.WNT.WSZ.Z01.Z02.Z03.Z14.Z28.Z30.Z31.Z32.ZMU.ZRZ.ZTZ.Z33.Z34.Z35.KAS.SA.SAS.TA.TAS.TK.TKS.TS.TSS.Z33.Z34.Z35.Z37.Z46.Z52.Z53.Z54.Z55.Z68.Z59.Z40.Z41.Z42.Z43.Z67.Z60.Z58.Z69.Z70.Z80.Z81.Z82.Z83}*N*N*Can35*Can35]
").
(** tests/unit_tests/test_tree_to_sgh.py:15 *)
Example test_read_tree_1 :
  is_ok (read_tree (TreePath (Some file))) = true.
Proof. rewrite read_tree_by_first. vm_compute. reflexivity. Qed.
(** tests/unit_tests/test_tree_to_sgh.py:21 *)
Example test_check_file_can_be_parsed_as_tree_1 :
  check_file_can_be_parsed_as_tree (Some file) = Ok tt.
Proof. unfold check_file_can_be_parsed_as_tree. rewrite read_tree_by_first. vm_compute. reflexivity. Qed.
(** tests/unit_tests/test_tree_to_sgh.py:25 *)
Example test_check_youngest_tree_is_parseable_1 :
  check_youngest_tree_is_parseable (Some (Directory [(u "UTILTS1.1a.tree", file)])) = Ok tt.
Proof. lazy -[check_file_can_be_parsed_as_tree file]. unfold check_file_can_be_parsed_as_tree. rewrite read_tree_by_first. vm_compute. reflexivity. Qed.
(** tests/unit_tests/test_tree_to_sgh.py:28 *)
Example test_get_edifact_format_error_1 :
  read_tree TreeOther = Raise ValueError.
Proof. vm_compute. repeat split; reflexivity. Qed.
