(** Generated by tools/gen_tests.py from /repo/test/testdata_real.cpp and test_parser.cpp 238-285: the project's own unit tests, run
    against the model. These are tests of the model's fidelity, not properties. *)

From Verif Require Import Prim Regex Float Values Weather Groups1 Groups2 Groups3 Groups4 Parser TestLib.
Local Open Scope string_scope.
Local Open Scope bool_scope.

Definition real_data_0 : list real_row :=
 [("METAR KFFO 051658Z 30008KT 4SM -SN FEW014 OVC019 M05/M07 A2996 RMK AO1A SLP159 P0000 T10471072=", RT_METAR, "KFFO", [false; false; false; false; true; false; false; false; false; false; false; false], 0%N);
  ("METAR OIII 021300Z 27048G60KT 4000 +TSRA +DSSS SCT025CB SCT030 BKN070 23/11 Q1014 A2995 TEMPO FM 1300 32030G40KT 1500 SA TEMPO 1000 SA TSRA=", RT_METAR, "OIII", [false; false; false; false; false; false; false; false; false; false; false; false], 0%N);
  ("TAF OIII 021100Z 0212/0318 15006MPS 6000 FEW030 BKN090 TEMPO 0212/0215 15009G15MPS 1000 SA/TSRA SCT030CB SCT035 OVC090 TEMPO 0218/0303 14007G12MPS 3000 SA/TSRA SCT030CB SCT035 OVC090 TEMPO 0308/0318 15007G12MPS 3000 SA/TSRA SCT030CB SCT035 OVC090=", RT_TAF, "OIII", [false; false; false; false; false; false; false; false; false; false; false; false], 0%N);
  ("METAR LLBG 110620Z 19014KT 1200 R08/2000 R26/2000 R30/2000 DS VV012 12/M00 Q1010 BECMG 20020G30KT 2500 DU NSC RMK REP AT 0535Z VIS 2500M IN APCH RWY21=", RT_METAR, "LLBG", [false; false; false; false; false; false; false; false; false; false; false; false], 0%N);
  ("TAF LLBG 110501Z 1106/1206 24020G30KT 2500 DU NSC TEMPO 1106/1109 25025G40KT 0900 DS FEW030 BECMG 1112/1114 5000 SHRA SCT025TCU BKN030 TEMPO 1114/1206 25025G40KT 3000 TSRA FEW015 SCT025CB BKN030 TX15/1111Z TN13/1204Z=", RT_TAF, "LLBG", [false; false; false; false; false; false; false; false; false; false; false; false], 0%N);
  ("METAR TIST 061553Z AUTO 32051G76KT 1/2SM RA FG OVC014 26/26 RMK AO2 PK WND 31076/1547 SLPNO P0016 T02610261=", RT_METAR, "TIST", [false; false; true; false; false; true; false; false; false; false; false; false], 0%N);
  ("TIST 060435Z 0605/0624 05015G25KT P6SM VCSH BKN025 BKN030 FM060600 07020G30KT P6SM VCSH BKN030 OVC080 FM061200 01035G50KT 6SM -SHRA BKN030 BKN060 OVC080 FM061600 33045G65KT 6SM -SHRA BKN030 BKN060 OVC080 FM062300 27080G100KT 6SM -SHRA SCT015 BKN030 OVC060=", RT_TAF, "TIST", [false; false; false; false; false; false; false; false; false; false; false; false], 0%N);
  ("METAR VIDP 021000Z 13009KT 3500 HZ FEW040 FEW040CB SCT100 38/20 Q1004 TEMPO 32020G30KT 1500 DS TS=", RT_METAR, "VIDP", [false; false; false; false; false; false; false; false; false; false; false; false], 0%N);
  ("TAF VIDP 020800Z 0209/0218 10008G18KT 4000 BLDU FEW035 TEMPO 0212/0218 11010G20KT 1000 DSTS SCT030 FEW035CB BKN090 BECMG 0214/0216 13006KT 3000 HZ BR=", RT_TAF, "VIDP", [false; false; false; false; false; false; false; false; false; false; false; false], 0%N);
  ("METAR EGXC 180250Z 08019KT 1600 -SN -BLSN BKN016 OVC030 M02/M04 Q1011 BLACKYLO2=", RT_METAR, "EGXC", [false; false; false; false; false; false; false; false; false; false; false; false], 0%N);
  ("TAF EGXC 180140Z 1803/1821 08020G30KT 9999 BKN025 TEMPO 1803/1812 3000 -SHSN BKN012 PROB40 TEMPO 1803/1809 0400 +SHSN BKN004 BKN015TCU=", RT_TAF, "EGXC", [false; false; false; false; false; false; false; false; false; false; false; false], 0%N);
  ("METAR EGYD 261218Z 09010KT 9999 6000S -SHSN FEW008 SCT018 BKN050 M01/M01 Q1033 BLACKWHT TEMPO 9999 NSW FEW015 BLU=", RT_METAR, "EGYD", [false; false; false; false; false; false; false; false; false; false; false; false], 0%N);
  ("TAF EGYD 261044Z 2612/2619 06012KT 9999 FEW015 SCT040 TEMPO 2612/2619 3000 -SHSN BKN015 PROB30 TEMPO 2612/2619 1000 SHSN BKN003=", RT_TAF, "EGYD", [false; false; false; false; false; false; false; false; false; false; false; false], 0%N);
  ("METAR EGLC 280750Z AUTO 07008KT 9999 NCD M04/M07 Q1018 R/SNOCLO=", RT_METAR, "EGLC", [false; false; true; false; false; false; false; false; false; false; false; false], 0%N);
  ("TAF EGLC 280512Z 2806/2815 07004KT 9999 SCT040 TEMPO 2806/2815 4000 -SHSN FEW008 BKN014 PROB30 TEMPO 2806/2807 1200 SHSN BKN008 BECMG 2809/2812 07014KT TEMPO 2812/2815 07018G28KT=", RT_TAF, "EGLC", [false; false; false; false; false; false; false; false; false; false; false; false], 0%N);
  ("METAR EGYD 281050Z 11015KT 5000 -SHSN FEW004 BKN012CB BKN025 M04/M05 Q1020 BLACKGRN=", RT_METAR, "EGYD", [false; false; false; false; false; false; false; false; false; false; false; false], 0%N);
  ("TAF AMD EGYD 280939Z 2809/2818 CNL=", RT_TAF, "EGYD", [false; false; false; false; false; false; false; false; true; true; false; false], 0%N);
  ("METAR EGYD 281427Z 09022G35KT 0700 SHSN BLSN BKN020CB SCT050 M04/M07 Q1019 BLACKRED=", RT_METAR, "EGYD", [false; false; false; false; false; false; false; false; false; false; false; false], 0%N);
  ("TAF EGYD 280812Z 2809/2818 11010KT 9999 FEW010 SCT030 TEMPO 2809/2818 1500 SHSN BKN003 PROB40 TEMPO 2809/2818 0400 +SHSN VV/// BECMG 2810/2813 11016G26KT=", RT_TAF, "EGYD", [false; false; false; false; false; false; false; false; false; false; false; false], 0%N);
  ("METAR EGYM 010850Z 08014KT 2500 -SN FEW015 BKN020 M04/M06 Q1007 BLACKYLO1 NOSIG=", RT_METAR, "EGYM", [false; false; false; false; false; false; false; false; false; false; false; false], 0%N);
  ("TAF EGYM 010731Z 0109/0118 08018G28KT 9999 OVC025 TEMPO 0109/0118 09022G35KT 4000 BLSN BKN018 PROB30 TEMPO 0109/0112 3000 -SHSN SCT010=", RT_TAF, "EGYM", [false; false; false; false; false; false; false; false; false; false; false; false], 0%N);
  ("METAR EGMC 011020Z 08013KT 1000 R05/1100 SN OVC012 M04/M05 Q1002 SNOCLO=", RT_METAR, "EGMC", [false; false; false; false; false; false; false; false; false; false; false; false], 0%N);
  ("TAF AMD EGMC 010841Z 0109/0118 09015KT 9999 FEW020 SCT035 TEMPO 0109/0118 09020G30KT 3000 -SN FEW010 PROB30 TEMPO 0109/0115 1400 SN BKN006=", RT_TAF, "EGMC", [false; false; false; false; false; false; false; false; false; true; false; false], 0%N);
  ("METAR EGXC 180150Z 08021KT 1500 -SN -BLSN OVC030 M02/M03 Q1011 BLACKAMB=", RT_METAR, "EGXC", [false; false; false; false; false; false; false; false; false; false; false; false], 0%N);
  ("TAF EGXC 180140Z 1803/1821 08020G30KT 9999 BKN025 TEMPO 1803/1812 3000 -SHSN BKN012 PROB40 TEMPO 1803/1809 0400 +SHSN BKN004 BKN015TCU=", RT_TAF, "EGXC", [false; false; false; false; false; false; false; false; false; false; false; false], 0%N);
  ("METAR EGXC 180450Z 08024KT 9999 OVC030 M01/M05 Q1011 BLACKBLU=", RT_METAR, "EGXC", [false; false; false; false; false; false; false; false; false; false; false; false], 0%N);
  ("TAF EGXC 180438Z 1806/1824 08025G35KT 9999 BKN030 TEMPO 1806/1812 3000 -SHSN BKN01 PROB30 TEMPO 1806/1809 0700 SHSN SCT005 BKN015TCU=", RT_TAF, "EGXC", [false; false; false; false; false; false; false; false; false; false; false; false], 0%N);
  ("METAR EGKB 182050Z 05007KT 6000 -SN SCT007 BKN017 M01/M02 Q1010 RESN R21/SNOCLO=", RT_METAR, "EGKB", [false; false; false; false; false; false; false; false; false; false; false; false], 0%N);
  ("TAF EGKB 182000Z NIL=", RT_TAF, "EGKB", [false; false; false; false; false; false; false; true; false; false; false; false], 0%N);
  ("METAR EGUW 030650Z 05003KT 0600 FG FEW060 12/12 Q1021 RED BECMG 9999 NSW BLU=", RT_METAR, "EGUW", [false; false; false; false; false; false; false; false; false; false; false; false], 0%N);
  ("TAF EGUW 030549Z 0306/0315 03005KT 0500 PRFG NSC BECMG 0306/0308 9999 NSW=", RT_TAF, "EGUW", [false; false; false; false; false; false; false; false; false; false; false; false], 0%N);
  ("SPECI CYRB 030346Z 15011KT 3/8SM R35/3500VP6000FT/D -DZSN FG OVC002 00/M00 A2939 RMK FG6ST2 SLP960=", RT_METAR, "CYRB", [true; false; false; false; false; false; false; false; false; false; false; false], 0%N);
  ("TAF AMD CYRB 030204Z 0302/0324 13007KT 6SM -RA SCT008 OVC012 TEMPO 0302/0306 2SM -DZSN BR SCT002 BKN004 BKN008 OVC012 FM030600 19012G22KT 2SM -SN OVC008 TEMPO 0306/0320 6SM -RASN SCT008 OVC015 PROB30 0306/0318 1/2SM FG VV003 FM032000 25015G25KT P6SM SCT012 BKN030 RMK NXT FCST BY 030600Z=", RT_TAF, "CYRB", [false; false; false; false; false; false; false; false; false; true; false; false], 0%N);
  ("SPECI BGTL 060926Z AUTO 00000KT 1400 R08/1400VP1500 BR VV001 01/01 A2983 RMK AO2 VIS 1400V9999 SLP086 PNO TSNO $=", RT_METAR, "BGTL", [true; false; true; false; false; true; false; false; false; false; false; true], 0%N);
  ("TAF BGTL 060900Z 0609/0715 VRB06KT 8000 -SHRASN OVC003 610105 QNH2980INS BECMG 0614/0615 VRB06KT 9999 NSW BKN005 OVC015 620105 QNH2983INS TX03/0620Z TNM02/0709Z=", RT_TAF, "BGTL", [false; false; false; false; false; false; false; false; false; false; false; false], 0%N);
  ("METAR ENLA 061120Z AUTO 14008KT 9999NDV FEW018/// BKN044/// 15/11 Q1013 W///S2=", RT_METAR, "ENLA", [false; false; true; false; false; false; false; false; false; false; false; false], 0%N);
  ("METAR CYCB 070800Z 20007KT 15SM -SN FEW025 BKN060 OVC090 04/02 A2996 RMK SC1SC4AC3 SLP151=", RT_METAR, "CYCB", [false; false; false; false; false; false; false; false; false; false; false; false], 0%N);
  ("TAF AMD CYCB 070732Z 0707/0719 19010KT P6SM OVC060 TEMPO 0707/0713 6SM -SHRA -SHPL BR SCT008 BKN015 OVC060 FM071300 23015KT P6SM BKN025 OVC060 TEMPO 0713/0719 6SM -SHRA BR BKN008 OVC015 BECMG 0717/0719 26015KT RMK NXT FCST BY 071300Z=", RT_TAF, "CYCB", [false; false; false; false; false; false; false; false; false; true; false; false], 0%N);
  ("METAR CYYB 070900Z AUTO 00000KT 9SM R08/6000FT/ CLR 07/06 A3027 RMK SLP256=", RT_METAR, "CYYB", [false; false; true; false; false; false; false; false; false; false; false; false], 0%N);
  ("TAF CYYB 070738Z 0708/0720 VRB03KT P6SM FEW050 BECMG 0714/0716 31010KT RMK FCST BASED ON AUTO OBS. NXT FCST BY 071400Z=", RT_TAF, "CYYB", [false; false; false; false; false; false; false; false; false; false; false; false], 0%N);
  ("METAR CWFD 092000Z AUTO 22006KT ////SM //// NCD ///// A////=", RT_METAR, "CWFD", [false; false; true; false; false; false; false; false; false; false; false; false], 0%N);
  ("METAR YBAS 090030Z AUTO 08013KT 9999 // NCD 21/M03 Q1026 RF00.0/000.0 PRESENT WEATHER SENSOR US=", RT_METAR, "YBAS", [false; false; true; false; false; false; false; false; false; false; false; false], 0%N);
  ("TAF YBAS 082312Z 0900/0924 10014KT CAVOK FM090800 10005KT CAVOK FM091500 07005KT CAVOK=", RT_TAF, "YBAS", [false; false; false; false; false; false; false; false; false; false; false; false], 0%N);
  ("METAR BGKK 091950Z AUTO 08010KT 9999NDV -DZ OVC025/// 06/04 Q1003=", RT_METAR, "BGKK", [false; false; true; false; false; false; false; false; false; false; false; false], 0%N);
  ("TAF BGKK 091418Z 0915/0921 08008KT 9999 -RA BKN040 TEMPO 0915/0921 4000 RADZ BR BKN008=", RT_TAF, "BGKK", [false; false; false; false; false; false; false; false; false; false; false; false], 0%N);
  ("METAR BGJN 091950Z AUTO 14003KT 9999NDV SCT016/// BKN019/// 04/01 Q1003=", RT_METAR, "BGJN", [false; false; true; false; false; false; false; false; false; false; false; false], 0%N);
  ("TAF AMD BGJN 091907Z 0919/0922 VRB03KT 9999 BKN020 TEMPO 0919/0922 BKN010=", RT_TAF, "BGJN", [false; false; false; false; false; false; false; false; false; true; false; false], 0%N);
  ("METAR BGSF 091950Z AUTO 24004KT 9999NDV -SHRA BKN030/// BKN035/// 06/04 Q1004=", RT_METAR, "BGSF", [false; false; true; false; false; false; false; false; false; false; false; false], 0%N);
  ("TAF AMD BGSF 091757Z 0918/1024 25007KT 9999 FEW020 BKN040 TEMPO 0918/1002 BKN020 BECMG 1002/1004 BKN015 TEMPO 1004/1012 3000 -SNRA BKN003 BECMG 1012/1014 SCT030 TEMPO 1014/1024 BKN030=", RT_TAF, "BGSF", [false; false; false; false; false; false; false; false; false; true; false; false], 0%N);
  ("METAR ENNE 092050Z AUTO 13027KT 9999NDV NCD 14/11 Q1006 W///S4=", RT_METAR, "ENNE", [false; false; true; false; false; false; false; false; false; false; false; false], 0%N);
  ("ENNE 091100Z 0912/0917 11020KT 9999 FEW040=", RT_TAF, "ENNE", [false; false; false; false; false; false; false; false; false; false; false; false], 0%N);
  ("METAR PABR 091953Z 28006KT 3/4SM R07/2000V4500FT BR OVC003 06/06 A3006 RMK SLP179 VIS 1/2V1 T00560056 VIA AUTODIAL=", RT_METAR, "PABR", [false; false; false; false; false; false; false; false; false; false; false; false], 0%N);
  ("TAF PABR 091734Z 0918/1018 29007KT 3SM BR VCSH BKN003 OVC010 TEMPO 0918/0920 1/2SM FG BKN004 FM100000 VRB05KT 1 1/2SM BR OVC003 FM101100 11011KT 1/2SM FG OVC003=", RT_TAF, "PABR", [false; false; false; false; false; false; false; false; false; false; false; false], 0%N);
  ("METAR CYRB 092000Z 08020KT 15SM FEW025 FEW038 BKN061 BKN070 M02/M04 A2945 RMK SC1SC1SC3AC2 SLP980=", RT_METAR, "CYRB", [false; false; false; false; false; false; false; false; false; false; false; false], 0%N);
  ("TAF AMD CYRB 091740Z 0918/1018 09018KT P6SM SCT020 BKN080 TEMPO 0918/1008 5SM -SN BR OVC020 FM100800 02010KT P6SM OVC020 TEMPO 1008/1018 3SM -SN BR OVC008 RMK NXT FCST BY 100000Z=", RT_TAF, "CYRB", [false; false; false; false; false; false; false; false; false; true; false; false], 0%N);
  ("CYEV 092000Z 25007KT 220V300 15SM FEW030 BKN085 OVC250 08/02 A2999 RMK SC1AC6CI1 SLP162=", RT_METAR, "CYEV", [false; false; false; false; false; false; false; false; false; false; false; false], 0%N);
  ("TAF CYEV 091838Z 0919/1007 27005KT P6SM BKN080 BKN200 FM092100 28010G20KT P6SM FEW015 SCT040 OVC070 TEMPO 0921/0923 P6SM -RA BKN015 OVC040 FM092300 30010G20KT P6SM -RA OVC015 TEMPO 0923/1007 4SM -RA BR OVC006 RMK NXT FCST BY 100100Z=", RT_TAF, "CYEV", [false; false; false; false; false; false; false; false; false; false; false; false], 0%N);
  ("METAR PABA 091952Z AUTO 28011KT 10SM BKN050 OVC060 06/03 A3003 RMK AO2 SLP156 T00560028 TSNO=", RT_METAR, "PABA", [false; false; true; false; false; true; false; false; false; false; false; false], 0%N);
  ("METAR PASC 091953Z 26010KT 10SM FEW040 OVC065 08/06 A3004 RMK AO2 SLP174 CIG LWR DSNT W T00830056=", RT_METAR, "PASC", [false; false; false; false; false; true; false; false; false; false; false; false], 0%N);
  ("TAF PASC 091734Z 0918/1018 22006KT P6SM BKN050 OVC070 FM092200 26010KT 4SM BR VCSH BKN007 OVC015 FM100800 08008KT 1 1/2SM BR VCSH OVC004=", RT_TAF, "PASC", [false; false; false; false; false; false; false; false; false; false; false; false], 0%N);
  ("METAR CYMA 092000Z VRB02KT 20SM FEW040 FEW190 SCT210 10/01 A3002 RMK CF1AS2CC1 CF TR SLP190=", RT_METAR, "CYMA", [false; false; false; false; false; false; false; false; false; false; false; false], 0%N);
  ("TAF CYMA 091738Z 0918/1006 VRB03KT P6SM FEW200 RMK NXT FCST BY 100000Z=", RT_TAF, "CYMA", [false; false; false; false; false; false; false; false; false; false; false; false], 0%N);
  ("METAR UHMA 092030Z 08002MPS CAVOK 16/14 Q1020 R88/60D NOSIG RMK END R01/09002MPS QFE761/1015=", RT_METAR, "UHMA", [false; false; false; false; false; false; false; false; false; false; false; false], 0%N);
  ("TAF UHMA 091650Z 0918/1018 17003G08MPS 9999 SCT030 TEMPO 0918/0921 2000 BR BKN005 BKN015 TEMPO 0921/1012 24006G11MPS SCT007 BKN020 TEMPO 1012/1018 1000 BR BKN005 BKN015=", RT_TAF, "UHMA", [false; false; false; false; false; false; false; false; false; false; false; false], 0%N);
  ("METAR UHPP 092030Z 15001MPS 9999 BKN010 OVC033 11/11 Q1020 R16R/290155 NOSIG RMK MT OBSC QFE762/1016=", RT_METAR, "UHPP", [false; false; false; false; false; false; false; false; false; false; false; false], 0%N);
  ("TAF UHPP 091658Z 0918/1024 15003G12MPS 3100 -SHRA BR BKN008 OVC015CB TEMPO 0918/0922 0700 -SHRA FG VA VV002 FM092200 31003G12MPS 9999 SCT015 BKN020CB TEMPO 0922/0924 1000 BR VV003 TEMPO 1000/1006 19003G12MPS 3100 -SHRA BKN011 OVC015CB TEMPO 1012/1022 0900 FG VV003=", RT_TAF, "UHPP", [false; false; false; false; false; false; false; false; false; false; false; false], 0%N);
  ("METAR UHMM 092030Z 07001MPS 9999 FEW010 OVC020CB 11/11 Q1008 R10/290550 NOSIG RMK MT OBSC QFE741=", RT_METAR, "UHMM", [false; false; false; false; false; false; false; false; false; false; false; false], 0%N);
  ("TAF UHMM 091702Z 0918/1024 11005G10MPS 9999 -SHRA BKN011 OVC025CB TEMPO 0918/1021 14003G08MPS 4000 -SHRA BR FEW007 OVC011CB BECMG 1021/1022 24003G08MPS=", RT_TAF, "UHMM", [false; false; false; false; false; false; false; false; false; false; false; false], 0%N);
  ("METAR UHSS 092030Z 14001MPS 9999 NSC 05/05 Q1021 R01/70D NOSIG RMK QFE765/1020=", RT_METAR, "UHSS", [false; false; false; false; false; false; false; false; false; false; false; false], 0%N);
  ("TAF UHSS 091700Z 0918/1024 VRB01MPS 9999 SCT040CB BECMG 0921/0923 25006MPS BECMG 1007/1009 19003MPS=", RT_TAF, "UHSS", [false; false; false; false; false; false; false; false; false; false; false; false], 0%N);
  ("SPECI PASN 092045Z AUTO 06007KT 10SM BKN010 BKN017 08/07 A3026 RMK AO2 CIG 008V014 T00830072 TSNO $=", RT_METAR, "PASN", [true; false; true; false; false; true; false; false; false; false; false; true], 0%N);
  ("PASN 091818Z 0918/1018 04008KT P6SM OVC014 TEMPO 0918/0922 BKN006 FM100600 33010KT P6SM BKN014=", RT_TAF, "PASN", [false; false; false; false; false; false; false; false; false; false; false; false], 0%N);
  ("METAR CWEU 092000Z VRB02KT 15SM FEW025 FEW060 FEW110 FEW250 01/M07 A2964 RMK SC1SC1AC1CI1 SC TR SC TR AC TR CI TR SLP039=", RT_METAR, "CWEU", [false; false; false; false; false; false; false; false; false; false; false; false], 0%N);
  ("SPECI CYVR 092044Z 10014G21KT 12SM -RA SCT019 BKN035 OVC058 16/13 A2993 RMK SF3SC3SC2 SLP136 DENSITY ALT 100FT=", RT_METAR, "CYVR", [true; false; false; false; false; false; false; false; false; false; false; false], 0%N);
  ("TAF CYVR 091742Z 0918/1024 11010G20KT P6SM -SHRA FEW007 SCT015 OVC080 TEMPO 0918/1002 4SM SHRA BR SCT007 OVC015 FM100200 11008KT P6SM SCT012 BKN030 TEMPO 1002/1009 P6SM -SHRA BKN012 OVC030 FM100900 09010KT P6SM SCT020 BKN050 TEMPO 1009/1015 SCT007 BKN020 OVC050 FM101500 12010KT P6SM -SHRA BKN020 RMK NXT FCST BY 092100Z=", RT_TAF, "CYVR", [false; false; false; false; false; false; false; false; false; false; false; false], 0%N);
  ("METAR KABQ 092052Z 23004KT 10SM FEW080 FEW120 FEW180 SCT300 29/07 A3005 RMK AO2 LTG DSNT SE SLP085 CB DSNT N-NE AND SE T02940067 58025=", RT_METAR, "KABQ", [false; false; false; false; false; true; false; false; false; false; false; false], 0%N);
  ("TAF KABQ 091721Z 0918/1018 20006KT P6SM FEW120 FM092000 30007KT P6SM SCT120 FM100000 02010KT P6SM VCSH BKN100 FM100300 08014G22KT P6SM SCT120 FM100600 08010KT P6SM SKC FM101500 06006KT P6SM FEW100=", RT_TAF, "KABQ", [false; false; false; false; false; false; false; false; false; false; false; false], 0%N);
  ("KMIA 092053Z 17008KT 10SM VCTS SCT030 SCT065 SCT130 BKN250 29/24 A2990 RMK AO2 LTG DSNT W SLP125 CB DSNT NW MOV NE T02890239 58010 $=", RT_METAR, "KMIA", [false; false; false; false; false; true; false; false; false; false; false; true], 0%N);
  ("TAF KMIA 091720Z 0918/1024 21008KT P6SM VCTS SCT025CB BKN070 FM092200 23007KT P6SM VCSH SCT025 BKN120 FM100000 24005KT P6SM FEW025 SCT120 FM100300 VRB03KT P6SM FEW025 SCT250 FM101700 17007KT P6SM SCT050 SCT250=", RT_TAF, "KMIA", [false; false; false; false; false; false; false; false; false; false; false; false], 0%N);
  ("METAR KHTS 092051Z 00000KT 3/4SM +RA BR FEW055 BKN070 OVC090 22/21 A2980 RMK AO2 SLP086 P0018 60080 T02170206 57010=", RT_METAR, "KHTS", [false; false; false; false; false; true; false; false; false; false; false; false], 0%N);
  ("KHTS 092055Z 0921/1018 00000KT 3/4SM +RA BR VCTS FEW060CB BKN070 OVC090 FM100400 21005KT 2SM SHRA OVC020 FM101100 24005KT P6SM VCSH OVC010 FM101300 24005KT P6SM OVC007=", RT_TAF, "KHTS", [false; false; false; false; false; false; false; false; false; false; false; false], 0%N);
  ("METAR KPIT 092051Z 08015G22KT 3SM RA BR BKN008 OVC023 16/13 A2995 RMK AO2 SLP149 P0018 60072 T01560133 56005 $=", RT_METAR, "KPIT", [false; false; false; false; false; true; false; false; false; false; false; true], 0%N);
  ("KPIT 091738Z 0918/1024 09012G20KT 5SM RA BKN005 OVC015 TEMPO 0918/0922 2SM RA FM100900 11010G20KT P6SM RA OVC008 FM101400 16008G17KT 3SM -RA OVC008 FM101700 18008G17KT P6SM VCSH OVC015 FM102200 20007KT P6SM OVC025=", RT_TAF, "KPIT", [false; false; false; false; false; false; false; false; false; false; false; false], 0%N);
  ("METAR KMFV 092035Z AUTO 09015G23KT 5SM -VCTSRA SCT009 OVC013 23/23 A2991 RMK AO2 LTG DSNT W P0009 T02320225=", RT_METAR, "KMFV", [false; false; true; false; false; true; false; false; false; false; false; false], 0%N);
  ("MBPV 082000Z 13005KT 9999 SCT016 30/23 Q1011=", RT_METAR, "MBPV", [false; false; false; false; false; false; false; false; false; false; false; false], 0%N);
  ("TAF MBPV 091000Z 0912/1012 09005KT 9999 SCT015CB BKN250=", RT_TAF, "MBPV", [false; false; false; false; false; false; false; false; false; false; false; false], 0%N);
  ("SPECI CYCB 092016Z 31019G26KT 15SM VCSH FEW015 SCT022 BKN100 01/M03 A2967 RMK SC1SC3AC3 SLP050=", RT_METAR, "CYCB", [true; false; false; false; false; false; false; false; false; false; false; false], 0%N);
  ("TAF CYCB 091838Z 0919/1007 32015G25KT P6SM -SN BKN025 OVC060 TEMPO 0919/0921 2SM -SN FEW006 BKN015 OVC040 FM092100 32015G25KT P6SM BKN040 BKN180 TEMPO 0921/1007 6SM -SN BKN020 BKN040 BECMG 0921/0923 31015KT RMK NXT FCST BY 100100Z=", RT_TAF, "CYCB", [false; false; false; false; false; false; false; false; false; false; false; false], 0%N);
  ("METAR KPHF 092054Z 36005KT 10SM FEW021 BKN027 OVC060 26/23 A2990 RMK AO2 LTG DSNT NE RAB41E50 SLP123 P0000 60000 T02560228 55010=", RT_METAR, "KPHF", [false; false; false; false; false; true; false; false; false; false; false; false], 0%N);
  ("KPHF 091814Z 0918/1018 08009KT P6SM VCSH BKN025 TEMPO 0918/0921 3SM SHRA BR FM100500 17004KT P6SM VCSH BKN040 FM100800 18004KT P6SM BKN020 FM101500 18005KT P6SM BKN040=", RT_TAF, "KPHF", [false; false; false; false; false; false; false; false; false; false; false; false], 0%N);
  ("METAR VRMM 092000Z 26006KT 9999 FEW018 29/24 Q1011 NOSIG=", RT_METAR, "VRMM", [false; false; false; false; false; false; false; false; false; false; false; false], 0%N);
  ("TAF VRMM 091700Z 0918/1024 27005KT 9999 FEW018 TEMPO 0920/0924 FEW019CB=", RT_TAF, "VRMM", [false; false; false; false; false; false; false; false; false; false; false; false], 0%N);
  ("METAR OMAA 092100Z 03007KT 6000 NSC 31/28 Q1003 BECMG 09008KT=", RT_METAR, "OMAA", [false; false; false; false; false; false; false; false; false; false; false; false], 0%N);
  ("TAF OMAA 091700Z 0918/1100 05007KT 7000 NSC BECMG 1000/1002 14014KT PROB30 TEMPO 1003/1008 4000 DU BECMG 1010/1012 30010KT BECMG 1016/1018 06008KT=", RT_TAF, "OMAA", [false; false; false; false; false; false; false; false; false; false; false; false], 0%N);
  ("METAR LTBA 092050Z 34004KT CAVOK 21/16 Q1016 NOSIG RMK RWY17L 35002KT RWY05 VRB02KT RWY23 04003KT=", RT_METAR, "LTBA", [false; false; false; false; false; false; false; false; false; false; false; false], 0%N);
  ("TAF LTBA 091640Z 0918/1024 01008KT 9999 SCT032 PROB30 TEMPO 0923/1003 34015G25KT -TSRA FEW017CB BKN025 TEMPO 1006/1010 34015G25KT 4000 -TSRA FEW018CB BKN028=", RT_TAF, "LTBA", [false; false; false; false; false; false; false; false; false; false; false; false], 0%N);
  ("METAR LBSF 092100Z 29006KT 260V340 CAVOK 17/10 Q1021 NOSIG=", RT_METAR, "LBSF", [false; false; false; false; false; false; false; false; false; false; false; false], 0%N);
  ("TAF LBSF 091700Z 0918/1018 30010KT 9999 SCT050 BECMG 0920/0922 VRB04KT TEMPO 1003/1006 5000 BR BECMG 1008/1010 33010KT=", RT_TAF, "LBSF", [false; false; false; false; false; false; false; false; false; false; false; false], 0%N);
  ("METAR LFRB 092100Z AUTO 22002KT 9000 2300 FEW006 15/15 Q1023 TEMPO 2000 BR OVC002=", RT_METAR, "LFRB", [false; false; true; false; false; false; false; false; false; false; false; false], 0%N);
  ("TAF AMD LFRB 091746Z 0918/1024 24004KT 9999 SCT016 TEMPO 0922/1006 2000 BR OVC002 PROB40 TEMPO 1002/1005 0400 FG VV///=", RT_TAF, "LFRB", [false; false; false; false; false; false; false; false; false; true; false; false], 0%N);
  ("METAR LSGG 092050Z VRB01KT CAVOK 19/14 Q1022 NOSIG=", RT_METAR, "LSGG", [false; false; false; false; false; false; false; false; false; false; false; false], 0%N);
  ("TAF LSGG 092025Z 0921/1103 VRB03KT CAVOK TX28/1015Z TN11/1005Z BECMG 1010/1012 04007KT 9999 FEW045=", RT_TAF, "LSGG", [false; false; false; false; false; false; false; false; false; false; false; false], 0%N);
  ("EIKN 092100Z 24011KT 9999 FEW018 BKN031 11/07 Q1015 NOSIG=", RT_METAR, "EIKN", [false; false; false; false; false; false; false; false; false; false; false; false], 0%N);
  ("TAF COR EIKN 091726Z 0918/1018 25014KT 9999 SCT018 BKN030 TEMPO 0918/0921 25016G26KT BECMG 1001/1004 23009KT BECMG 1006/1009 20008KT BECMG 1009/1011 18013KT -RA SCT007 BKN012 TEMPO 1009/1011 5000 -RADZ BKN007 BECMG 1011/1014 5000 -RADZ SCT003 BKN007 TEMPO 1011/1017 18015G25KT 2000 RADZ BR BKN003 PROB30 TEMPO 1011/1017 0800 FG BKN002 BECMG 1016/1018 24014KT 9999 SCT008 BKN020 TEMPO 1016/1018 24016G26KT=", RT_TAF, "EIKN", [false; false; false; false; false; false; false; false; false; false; true; false], 0%N);
  ("METAR EGPO 092050Z 23016KT 9000 SHRA SCT006 SCT016 BKN026 11/10 Q0999=", RT_METAR, "EGPO", [false; false; false; false; false; false; false; false; false; false; false; false], 0%N);
  ("TAF EGPO 091953Z 0921/1006 22015KT 9999 SCT015 TEMPO 0921/1006 23018G28KT 4000 SHRA BKN008 PROB30 TEMPO 0921/0924 24025G38KT +SHRA=", RT_TAF, "EGPO", [false; false; false; false; false; false; false; false; false; false; false; false], 0%N);
  ("METAR EGPU 092050Z AUTO 24025G35KT 210V270 9999 SCT021/// SCT033/// 12/11 Q1005 RERA=", RT_METAR, "EGPU", [false; false; true; false; false; false; false; false; false; false; false; false], 0%N);
  ("METAR EGPL 092050Z AUTO 25027G37KT 9999 SCT012/// BKN017/// 13/11 Q1000 RERA=", RT_METAR, "EGPL", [false; false; true; false; false; false; false; false; false; false; false; false], 0%N);
  ("METAR EINN 092100Z 25012KT 9999 -DZ FEW018 BKN024 BKN037 14/08 Q1018 NOSIG=", RT_METAR, "EINN", [false; false; false; false; false; false; false; false; false; false; false; false], 0%N);
  ("TAF EINN 091700Z 0918/1018 25016KT 9999 FEW025 BKN035 PROB40 TEMPO 0918/0919 25018G28KT BECMG 0921/0924 24010KT BECMG 1000/1003 21009KT BECMG 1004/1007 18009KT BECMG 1010/1012 17014KT TEMPO 1010/1012 6000 -RA BKN015 BECMG 1012/1015 21014KT 6000 -RA SCT007 BKN015 TEMPO 1014/1018 22015G25KT 3000 -RADZ BKN007 PROB30 TEMPO 1016/1018 2000 BR BKN003=", RT_TAF, "EINN", [false; false; false; false; false; false; false; false; false; false; false; false], 0%N);
  ("METAR EICK 092100Z 23007KT 9999 FEW038 BKN180 11/08 Q1019 NOSIG=", RT_METAR, "EICK", [false; false; false; false; false; false; false; false; false; false; false; false], 0%N);
  ("TAF EICK 091700Z 0918/1018 27012KT 9999 BKN025 BECMG 0920/0923 24007KT BECMG 1002/1005 21007KT BECMG 1009/1012 21015KT TEMPO 1010/1013 -RA BKN012 TEMPO 1010/1018 21018G28KT BECMG 1013/1016 6000 -RA SCT003 BKN010 TEMPO 1014/1018 3000 -RADZ BKN003 PROB40 TEMPO 1015/1018 1200 BR BKN002=", RT_TAF, "EICK", [false; false; false; false; false; false; false; false; false; false; false; false], 0%N);
  ("METAR EGPF 092050Z AUTO 22017KT 7000 -RA FEW028/// BKN033/// //////TCU 12/09 Q1010=", RT_METAR, "EGPF", [false; false; true; false; false; false; false; false; false; false; false; false], 0%N);
  ("TAF EGPF 091657Z 0918/1018 25013KT 9999 SCT035 TEMPO 0918/1014 23016G26KT TEMPO 0918/1008 6000 SHRA PROB30 TEMPO 0921/1008 23023G36KT BKN014 TEMPO 1012/1018 7000 -RA BKN009 BECMG 1014/1017 19011KT=", RT_TAF, "EGPF", [false; false; false; false; false; false; false; false; false; false; false; false], 0%N);
  ("METAR EGQK 092050Z AUTO 21011KT 9999 FEW048/// 12/06 Q1004=", RT_METAR, "EGQK", [false; false; true; false; false; false; false; false; false; false; false; false], 0%N);
  ("METAR ENHM 092050Z AUTO 23019KT 9999NDV FEW017/// SCT026/// BKN087/// 14/12 Q1004 W15/S4=", RT_METAR, "ENHM", [false; false; true; false; false; false; false; false; false; false; false; false], 0%N);
  ("METAR EDDT 092050Z 00000KT CAVOK 17/09 Q1021 NOSIG=", RT_METAR, "EDDT", [false; false; false; false; false; false; false; false; false; false; false; false], 0%N);
  ("TAF EDDT 091700Z 0918/1018 VRB03KT CAVOK BECMG 1006/1009 24007KT=", RT_TAF, "EDDT", [false; false; false; false; false; false; false; false; false; false; false; false], 0%N);
  ("METAR EDDS 092050Z VRB04KT CAVOK 16/11 Q1022=", RT_METAR, "EDDS", [false; false; false; false; false; false; false; false; false; false; false; false], 0%N);
  ("TAF EDDS 091700Z 0918/1018 VRB03KT CAVOK=", RT_TAF, "EDDS", [false; false; false; false; false; false; false; false; false; false; false; false], 0%N);
  ("METAR ELLX 092050Z VRB02KT CAVOK 18/09 Q1022 NOSIG=", RT_METAR, "ELLX", [false; false; false; false; false; false; false; false; false; false; false; false], 0%N);
  ("TAF ELLX 091700Z 0918/1024 17005KT CAVOK=", RT_TAF, "ELLX", [false; false; false; false; false; false; false; false; false; false; false; false], 0%N);
  ("ZSSS 092100Z 34003MPS CAVOK 21/17 Q1018 NOSIG=", RT_METAR, "ZSSS", [false; false; false; false; false; false; false; false; false; false; false; false], 0%N);
  ("TAF ZSSS 091512Z 0918/1018 03004MPS 6000 SCT030 TX28/1006Z TN22/0921Z=", RT_TAF, "ZSSS", [false; false; false; false; false; false; false; false; false; false; false; false], 0%N);
  ("METAR RPLL 092100Z 00000KT 9999 SCT023 BKN100 27/27 Q1010 NOSIG RMK A2983=", RT_METAR, "RPLL", [false; false; false; false; false; false; false; false; false; false; false; false], 0%N);
  ("TAF RPLL 091700Z 0918/1024 25008KT 9999 FEW023 SCT300 TX32/1006Z TN26/0921Z TEMPO 0918/0924 24004KT FEW023 SCT250=", RT_TAF, "RPLL", [false; false; false; false; false; false; false; false; false; false; false; false], 0%N);
  ("METAR UIBB 092100Z AUTO 02002MPS 330V070 9999 // ///074/// 12/09 Q1006 RMK QFE712/0949=", RT_METAR, "UIBB", [false; false; true; false; false; false; false; false; false; false; false; false], 0%N);
  ("TAF UIBB 092000Z 0921/1021 30003G08MPS 3100 -SHRA BR BKN016CB PROB40 TEMPO 1003/1015 -TSRA=", RT_TAF, "UIBB", [false; false; false; false; false; false; false; false; false; false; false; false], 0%N);
  ("METAR YSSY 092100Z 25007KT 9999 FEW032 14/05 Q1024=", RT_METAR, "YSSY", [false; false; false; false; false; false; false; false; false; false; false; false], 0%N);
  ("TAF YSSY 091644Z 0918/1024 25010KT CAVOK FM100000 14012KT 9999 FEW035 FM101000 08008KT 9999 FEW030 FM101400 29008KT 9999 FEW030=", RT_TAF, "YSSY", [false; false; false; false; false; false; false; false; false; false; false; false], 0%N);
  ("METAR EGYP 092050Z 06007KT CAVOK 08/02 Q1024 BLU=", RT_METAR, "EGYP", [false; false; false; false; false; false; false; false; false; false; false; false], 0%N);
  ("TAF EGYP 091921Z 0921/1015 27008KT 9999 FEW025 PROB30 1004/1012 1200 BR SCT002 BECMG 1012/1015 35015G25KT 520003=", RT_TAF, "EGYP", [false; false; false; false; false; false; false; false; false; false; false; false], 0%N);
  ("METAR SAWH 092100Z 34006KT 9999 FEW045 SCT100 09/M01 Q1015=", RT_METAR, "SAWH", [false; false; false; false; false; false; false; false; false; false; false; false], 0%N);
  ("TAF SAWH 091700Z 0918/1018 VRB03KT 9999 SCT030 BKN090 TX10/0918Z TN00/1010Z BECMG 0919/0921 34015G30KT BECMG 1003/1005 02010KT 2000 BR SCT003 BKN010 BECMG 1012/1014 36015KT 9999 NSW SCT030=", RT_TAF, "SAWH", [false; false; false; false; false; false; false; false; false; false; false; false], 0%N);
  ("METAR VHHH 092100Z 07006KT 9999 FEW035 26/22 Q1012 NOSIG=", RT_METAR, "VHHH", [false; false; false; false; false; false; false; false; false; false; false; false], 0%N);
  ("TAF VHHH 091700Z 0918/1024 08010KT 9000 FEW020 TX32/1006Z TN26/0922Z TN27/1022Z TEMPO 1000/1003 VRB05KT BECMG 1003/1005 32010KT BECMG 1009/1011 VRB05KT=", RT_TAF, "VHHH", [false; false; false; false; false; false; false; false; false; false; false; false], 0%N);
  ("METAR PMDY 092056Z AUTO 22015KT 10SM BKN023 29/23 A2987 RMK AO2 SLP114 T02890233 51002=", RT_METAR, "PMDY", [false; false; true; false; false; true; false; false; false; false; false; false], 0%N);
  ("PMDY 091749Z 0918/1018 22010KT P6SM VCSH SCT020 SCT050 BKN100 FM100600 23015G20KT P6SM VCSH SCT015 BKN040 TEMPO 1008/1012 4SM SHRA BR BKN015=", RT_TAF, "PMDY", [false; false; false; false; false; false; false; false; false; false; false; false], 0%N);
  ("METAR SBBV 092100Z 30003KT 9999 SCT015 FEW020TCU OVC070 26/23 Q1010=", RT_METAR, "SBBV", [false; false; false; false; false; false; false; false; false; false; false; false], 0%N);
  ("TAF SBBV 091600Z 0918/1018 17008KT 9999 SCT010 FEW020TCU TN25/1007Z T X33/1018Z PROB30 TEMPO 0918/0921 5000 RA BECMG 0922/0924 18005KT FEW030 BECMG 1002/1004 23005KT BECMG 1007/1009 36005KT BECMG 1011/1013 30005KT BECMG 1015/1 017 27005KT BKN035 FEW040TCU RMK PCQ=", RT_TAF, "SBBV", [false; false; false; false; false; false; false; false; false; false; false; false], 0%N);
  ("METAR DAAT 092100Z 23004KT 3000 HZ SCT046 27/10 Q1025=", RT_METAR, "DAAT", [false; false; false; false; false; false; false; false; false; false; false; false], 0%N);
  ("TAF DAAT 091700Z 0918/1018 11010KT 8000 SCT046 SCT100 PROB40 TEMPO 0918/0921 11015G25KT 5000 -TSRA FEW040CB PROB30 TEMPO 0920/0924 3000 HZ BECMG 1006/1009 05010KT PROB30 TEMPO 1006/1010 FEW046TCU=", RT_TAF, "DAAT", [false; false; false; false; false; false; false; false; false; false; false; false], 0%N);
  ("METAR LMML 092045Z 14004KT 9999 FEW020 25/21 Q1020 NOSIG RMK SMOKE TO NE=", RT_METAR, "LMML", [false; false; false; false; false; false; false; false; false; false; false; false], 0%N);
  ("TAF LMML 091700Z 0918/1018 14007KT 9999 SCT016 PROB30 0918/1006 8000 BKN012=", RT_TAF, "LMML", [false; false; false; false; false; false; false; false; false; false; false; false], 0%N);
  ("METAR LPPT 092100Z 32014KT CAVOK 18/15 Q1020=", RT_METAR, "LPPT", [false; false; false; false; false; false; false; false; false; false; false; false], 0%N);
  ("TAF LPPT 091700Z 0918/1024 32015KT 9999 FEW020 BECMG 0919/0922 32010KT FEW012 BECMG 1006/1009 03007KT FEW020 BECMG 1014/1016 35012KT CAVOK=", RT_TAF, "LPPT", [false; false; false; false; false; false; false; false; false; false; false; false], 0%N);
  ("METAR LFBD 092100Z AUTO 26004KT CAVOK 20/18 Q1023 NOSIG=", RT_METAR, "LFBD", [false; false; true; false; false; false; false; false; false; false; false; false], 0%N);
  ("TAF LFBD 091700Z 0918/1024 30005KT CAVOK TX30/1015Z TN16/1006Z PROB30 1004/1007 4000 MIFG BKN010=", RT_TAF, "LFBD", [false; false; false; false; false; false; false; false; false; false; false; false], 0%N);
  ("METAR EKCH 092050Z 16005KT CAVOK 17/15 Q1020 NOSIG=", RT_METAR, "EKCH", [false; false; false; false; false; false; false; false; false; false; false; false], 0%N);
  ("TAF EKCH 091657Z 0918/1018 18012KT 9999 SCT030 BECMG 1008/1010 25010KT=", RT_TAF, "EKCH", [false; false; false; false; false; false; false; false; false; false; false; false], 0%N)].
Example real_data_0_passes : real_failures real_data_0 = []. Proof. vm_compute. reflexivity. Qed.
Definition real_data_1 : list real_row :=
 [("METAR ENTC 092050Z VRB02KT CAVOK 09/07 Q1018 NOSIG RMK WIND 2600FT 18019KT=", RT_METAR, "ENTC", [false; false; false; false; false; false; false; false; false; false; false; false], 0%N);
  ("TAF ENTC 0918/1018 06005KT CAVOK TEMPO 0924/1018 18010KT=", RT_TAF, "ENTC", [false; false; false; false; false; false; false; false; false; false; false; false], 0%N);
  ("METAR ENSB 092050Z 25009KT 9999 FEW006 BKN018 05/04 Q1017 RMK WIND 1400FT 23012KT=", RT_METAR, "ENSB", [false; false; false; false; false; false; false; false; false; false; false; false], 0%N);
  ("TAF ENSB 0918/1018 24012KT 9999 FEW008 BKN025 BECMG 1007/1009 VRB05KT PROB40 TEMPO 0918/0924 BKN012=", RT_TAF, "ENSB", [false; false; false; false; false; false; false; false; false; false; false; false], 0%N);
  ("METAR BIAR 092100Z 04005KT 9999 FEW040 BKN057 09/07 Q1001=", RT_METAR, "BIAR", [false; false; false; false; false; false; false; false; false; false; false; false], 0%N);
  ("TAF BIAR 091958Z 0921/1021 31010KT 9999 FEW030 BKN060 TX12/1015Z TN05/1006Z BECMG 0921/0923 VRB02KT PROB40 TEMPO 1000/1006 BKN010 OVC013=", RT_TAF, "BIAR", [false; false; false; false; false; false; false; false; false; false; false; false], 0%N);
  ("METAR FBMN 092100Z 16005KT CAVOK 14/M12 Q1022=", RT_METAR, "FBMN", [false; false; false; false; false; false; false; false; false; false; false; false], 0%N);
  ("TAF FBMN 091200Z 0915/0924 15010KT CAVOK=", RT_TAF, "FBMN", [false; false; false; false; false; false; false; false; false; false; false; false], 0%N);
  ("METAR FALW 092100Z AUTO 20004KT //// // ////// 08/05 Q1022=", RT_METAR, "FALW", [false; false; true; false; false; false; false; false; false; false; false; false], 0%N);
  ("METAR LESA 092100Z AUTO 07007KT 9999 NCD 19/11 Q1023=", RT_METAR, "LESA", [false; false; true; false; false; false; false; false; false; false; false; false], 0%N);
  ("TAF LESA 091700Z 0918/1018 VRB05KT 9999 FEW045 TX26/1015Z TN11/1006Z PROB40 TEMPO 0918/0921 FEW040TCU PROB30 TEMPO 0918/0921 VRB15G25KT 3000 TS SHRA FEW040CB=", RT_TAF, "LESA", [false; false; false; false; false; false; false; false; false; false; false; false], 0%N);
  ("METAR COR LEIB 092100Z 30008KT 280V350 9999 -RA FEW016 SCT019 BKN023 26/21 Q1018 TEMPO 4000 TSRA FEW022CB=", RT_METAR, "LEIB", [false; false; false; false; false; false; false; false; false; false; true; false], 0%N);
  ("TAF LEIB 092000Z 0921/1021 06012KT 9999 SCT020 TX28/1012Z TN20/1005Z TEMPO 0922/1007 05005KT TEMPO 0921/1003 SCT020 FEW025CB TEMPO 0921/1011 VRB15G25KT 3000 TSRA SCT018CB BKN020=", RT_TAF, "LEIB", [false; false; false; false; false; false; false; false; false; false; false; false], 0%N);
  ("METAR LEZG 092100Z 30009KT 9999 VCTS FEW060CB 23/18 Q1021=", RT_METAR, "LEZG", [false; false; false; false; false; false; false; false; false; false; false; false], 0%N);
  ("TAF AMD LEZG 091935Z 0919/1018 30010KT 9999 FEW040 TX27/1014Z TN18/1005Z PROB40 TEMPO 0919/0923 TSRA FEW030CB SCT035 BECMG 1012/1015 08007KT=", RT_TAF, "LEZG", [false; false; false; false; false; false; false; false; false; true; false; false], 0%N);
  ("METAR LEHC 092100Z AUTO 04003KT 360V080 CAVOK 20/17 Q1023=", RT_METAR, "LEHC", [false; false; true; false; false; false; false; false; false; false; false; false], 0%N);
  ("TAF LEHC 090800Z 0909/1009 08008KT 9999 SCT025 TX26/0914Z TN17/1005Z BECMG 0910/0913 15008KT TEMPO 0912/0921 FEW030CB BKN040 PROB40 TEMPO 0912/0920 TSRA FEW030CB BKN040=", RT_TAF, "LEHC", [false; false; false; false; false; false; false; false; false; false; false; false], 0%N);
  ("METAR LRCK 092130Z 32007KT CAVOK 16/11 Q1017 NOSIG=", RT_METAR, "LRCK", [false; false; false; false; false; false; false; false; false; false; false; false], 0%N);
  ("TAF LRCK 091700Z 0918/1018 35006KT CAVOK TEMPO 0918/0920 FEW050CB BECMG 1007/1009 34016KT TEMPO 1014/1018 SCT050CB BECMG 1016/1018 28006KT=", RT_TAF, "LRCK", [false; false; false; false; false; false; false; false; false; false; false; false], 0%N);
  ("METAR CYVQ 092100Z VRB03KT 30SM FEW100 BKN120 BKN250 08/02 A3003 RMK AC2AC4CI1 SLP175=", RT_METAR, "CYVQ", [false; false; false; false; false; false; false; false; false; false; false; false], 0%N);
  ("TAF CYVQ 091738Z 0918/1006 VRB03KT P6SM FEW003 SCT120 BKN210 FM092000 25006KT P6SM FEW080 BKN120 BKN210 RMK NXT FCST BY 100000Z=", RT_TAF, "CYVQ", [false; false; false; false; false; false; false; false; false; false; false; false], 0%N);
  ("METAR BGTL 092056Z AUTO 30007KT 9999 CLR 02/00 A2954 RMK AO2 SLP989 T00150003 58001 PNO TSNO $=", RT_METAR, "BGTL", [false; false; true; false; false; true; false; false; false; false; false; true], 0%N);
  ("SPECI KCRW 092124Z 06005KT 2SM -RA BR BKN006 OVC045 22/22 A2982 RMK AO2 LTG DSNT NE AND SW TSE18 CB DSNT NE-SE-SW P0001 T02170217=", RT_METAR, "KCRW", [true; false; false; false; false; true; false; false; false; false; false; false], 0%N);
  ("KCRW 092054Z 0921/1018 01006KT 2SM +TSRA BR VCTS SCT008 BKN027CB OVC060 FM092300 17006KT 6SM -RA BKN045 FM100000 14006KT 3SM SHRA OVC050 FM100500 17006KT 6SM -RA BR OVC015 FM101200 23004KT 4SM -RA BR OVC003=", RT_TAF, "KCRW", [false; false; false; false; false; false; false; false; false; false; false; false], 0%N);
  ("METAR KIOB 092115Z AUTO 00000KT 7SM RA BKN004 BKN013 OVC033 21/21 A2981 RMK AO2 P0002=", RT_METAR, "KIOB", [false; false; true; false; false; true; false; false; false; false; false; false], 0%N);
  ("METAR KJST 092054Z AUTO 09009KT 3SM RA BR OVC009 13/11 A3004 RMK AO2 CIG 006V013 SLP173 P0015 60035 T01280111 57007=", RT_METAR, "KJST", [false; false; true; false; false; true; false; false; false; false; false; false], 0%N);
  ("TAF KJST 091757Z 0918/1018 09010G19KT 3SM RA BR BKN006 OVC012 FM100400 12013G23KT 3SM -RA BR OVC004=", RT_TAF, "KJST", [false; false; false; false; false; false; false; false; false; false; false; false], 0%N);
  ("METAR KSJS 092135Z AUTO 00000KT 7SM RA SCT007 BKN013 OVC023 22/22 A2984 RMK AO2 T02230223=", RT_METAR, "KSJS", [false; false; true; false; false; true; false; false; false; false; false; false], 0%N);
  ("TAF KSJS 091721Z 0918/1018 20006KT P6SM VCTS BKN035CB OVC130 FM092000 VRB04KT 5SM -SHRA VCTS BKN025CB OVC045 FM100600 VRB04KT 3SM -SHRA BR BKN003 OVC015 FM101200 VRB04KT 3SM BR BKN003 OVC010 FM101400 25005KT P6SM BKN003 OVC008=", RT_TAF, "KSJS", [false; false; false; false; false; false; false; false; false; false; false; false], 0%N);
  ("SPECI KPKB 092126Z 09007KT 1SM -RA BR OVC006 20/19 A2987 RMK AO2 CIG 002V008 P0005 T02000189 $=", RT_METAR, "KPKB", [true; false; false; false; false; true; false; false; false; false; false; true], 0%N);
  ("KPKB 092055Z 0921/1018 00000KT 1SM -RA BR BKN004 OVC007 FM092200 10007KT 6SM SHRA OVC040 FM100300 14008KT 5SM SHRA OVC010 FM101000 18004KT P6SM OVC006=", RT_TAF, "KPKB", [false; false; false; false; false; false; false; false; false; false; false; false], 0%N);
  ("METAR KZZV 092053Z AUTO 07007KT 6SM -RA BR OVC006 16/14 A2985 RMK AO2 RAB21 SLP106 P0002 60004 T01610144 56013=", RT_METAR, "KZZV", [false; false; true; false; false; true; false; false; false; false; false; false], 0%N);
  ("TAF KZZV 091738Z 0918/1018 08009G17KT 6SM -RA OVC008 FM092200 10009KT 6SM -RA OVC010 FM100300 13009G18KT 3SM -RA OVC008 FM101000 18006KT 3SM -RA OVC008 FM101400 21006KT P6SM VCSH OVC015=", RT_TAF, "KZZV", [false; false; false; false; false; false; false; false; false; false; false; false], 0%N);
  ("KYNG 092051Z 09017G21KT 4SM RA BR BKN005 OVC013 14/13 A2999 RMK AO2 SLP154 P0011 60050 T01440133 58010 $=", RT_METAR, "KYNG", [false; false; false; false; false; true; false; false; false; false; false; true], 0%N);
  ("KYNG 092055Z 0921/1018 09014G22KT 4SM -RA BR SCT005 OVC012 TEMPO 0921/1001 2SM -RA OVC005 FM100200 11018G30KT 2SM RA OVC003 FM101100 12012G20KT 3SM -RA OVC006 FM101500 16010KT 6SM -RA OVC008=", RT_TAF, "KYNG", [false; false; false; false; false; false; false; false; false; false; false; false], 0%N);
  ("SPECI KRDG 092115Z VRB04G15KT 2SM RA BKN009 OVC021 13/13 A3015 RMK AO2 SFC VIS 10 P0003 T01330128=", RT_METAR, "KRDG", [true; false; false; false; false; true; false; false; false; false; false; false], 0%N);
  ("KRDG 091959Z 0920/1018 06009KT 6SM -RA FEW015 OVC030 TEMPO 0920/0922 4SM RA BKN009 OVC030 FM092200 08010KT 3SM RA OVC010 FM100900 08013KT 6SM -RA OVC008 FM101200 09013KT 4SM -SHRA OVC008=", RT_TAF, "KRDG", [false; false; false; false; false; false; false; false; false; false; false; false], 0%N);
  ("METAR KIDI 092135Z AUTO 09010G16KT 060V120 3SM BR SCT009 BKN014 OVC055 13/13 A3008 RMK A01=", RT_METAR, "KIDI", [false; false; true; false; false; false; false; false; false; false; false; false], 0%N);
  ("METAR EGPI 092120Z AUTO 24026G36KT 9999 FEW028/// 13/10 Q1010=", RT_METAR, "EGPI", [false; false; true; false; false; false; false; false; false; false; false; false], 0%N);
  ("METAR ENBL 092050Z 18006KT 9999 VCSH SCT035 BKN040 13/10 Q1005=", RT_METAR, "ENBL", [false; false; false; false; false; false; false; false; false; false; false; false], 0%N);
  ("TAF ENBL 092300Z NIL=", RT_TAF, "ENBL", [false; false; false; false; false; false; false; true; false; false; false; false], 0%N);
  ("METAR ENOV 092050Z 06008KT 330V120 9999 -SHRA FEW030 BKN059 16/07 Q1004 RMK WIND 2175FT 13026KT=", RT_METAR, "ENOV", [false; false; false; false; false; false; false; false; false; false; false; false], 0%N);
  ("METAR ENAL 092120Z 09009KT 050V120 9999 -RA SCT053 OVC076 14/10 Q1003=", RT_METAR, "ENAL", [false; false; false; false; false; false; false; false; false; false; false; false], 0%N);
  ("TAF ENAL 091700Z 0918/0922 VRB07KT 9999 -SHRA FEW035TCU BKN050 PROB40 TEMPO 0918/0922 SHRA BKN035CB BECMG 0918/0920 12010KT=", RT_TAF, "ENAL", [false; false; false; false; false; false; false; false; false; false; false; false], 0%N);
  ("METAR NZSP 091750Z 11009KT 9999 IC FEW015 M70/ A2823 RMK CLN AIR 10009KT ALL WNDS GRID=", RT_METAR, "NZSP", [false; false; false; false; false; false; false; false; false; false; false; false], 0%N);
  ("METAR USPP 100330Z 26002MPS 0100 R21/M0200 FG VV001 02/02 Q1028 R21/090060 NOSIG RMK QBB030 QFE760=", RT_METAR, "USPP", [false; false; false; false; false; false; false; false; false; false; false; false], 0%N);
  ("TAF AMD USPP 100258Z 1003/1103 23003MPS 0300 FG VV001 TEMPO 1003/1004 1500 BR SCT011 BECMG 1004/1006 9999 NSW SCT011 BECMG 1006/1008 35003MPS SCT016=", RT_TAF, "USPP", [false; false; false; false; false; false; false; false; false; true; false; false], 0%N);
  ("METAR EFHK 101150Z 12010KT 9999 -SHRA SCT013 SCT030CB BKN040 17/15 Q1022 TEMPO 6000 SHRA BKN013 SCT030CB=", RT_METAR, "EFHK", [false; false; false; false; false; false; false; false; false; false; false; false], 0%N);
  ("TAF EFHK 101124Z 1012/1112 13010KT 9999 FEW018 BKN085 TEMPO 1012/1016 6000 SHRA BKN012 FEW030CB PROB40 1012/1014 4000 TSRA PROB30 1022/1101 0500 FG VV002 TEMPO 1106/1112 6000 SHRA BKN012 SCT030CB=", RT_TAF, "EFHK", [false; false; false; false; false; false; false; false; false; false; false; false], 0%N);
  ("METAR ENLE 101220Z 23029KT 9999 VCSH FEW020TCU BKN025 14/09 Q1013 W17/S5=", RT_METAR, "ENLE", [false; false; false; false; false; false; false; false; false; false; false; false], 0%N);
  ("TAF ENLE 101100Z 1012/1021 24028KT 9999 FEW020TCU BKN035=", RT_TAF, "ENLE", [false; false; false; false; false; false; false; false; false; false; false; false], 0%N);
  ("METAR UKLI 101730Z 28003MPS 230V310 9999 FEW025CB BKN046 15/13 Q1020 R28/190068 TEMPO VRB10G15MPS 0500 +TSRAGR BKN010CB=", RT_METAR, "UKLI", [false; false; false; false; false; false; false; false; false; false; false; false], 0%N);
  ("TAF UKLI 101703Z 1018/1103 30006MPS 9999 BKN020CB TEMPO 1018/1022 VRB10G15MPS 1100 TSRAGR BKN004 BKN010CB=", RT_TAF, "UKLI", [false; false; false; false; false; false; false; false; false; false; false; false], 0%N);
  ("METAR KTPA 102242Z COR 08004KT 10SM TS OVC026CB 28/22 A2998 RMK AO2 LTG DSNT NE-SE RAB2159E09 TSE2159B13E22E27E32E39B42 CONS LTGICCCG OHD AND NE-E TS OHD AND NE-E MOV NE P0000 T02830222=", RT_METAR, "KTPA", [false; false; false; false; false; true; false; false; false; false; true; false], 0%N);
  ("TAF KTPA 102324Z 1100/1206 VRB04KT P6SM SCT035 BKN250 FM111500 25006KT P6SM VCTS SCT035CB BKN250 FM112200 29006KT P6SM SCT035 BKN250=", RT_TAF, "KTPA", [false; false; false; false; false; false; false; false; false; false; false; false], 0%N);
  ("METAR UKHH 111430Z 12006MPS CAVOK 25/02 Q1019 R07/0///72 TEMPO 10009G16MPS=", RT_METAR, "UKHH", [false; false; false; false; false; false; false; false; false; false; false; false], 0%N);
  ("TAF UKHH 111410Z 1115/1124 12007G13MPS 9999 SCT020CB BKN030 PROB40 TEMPO 1115/1118 10009G16MPS=", RT_TAF, "UKHH", [false; false; false; false; false; false; false; false; false; false; false; false], 0%N);
  ("SPECI EGDY 111709Z 33007KT 2800 RADZ FEW006 OVC008 17/16 Q1019 YLO1 BECMG 4000 SCT008 GRN=", RT_METAR, "EGDY", [true; false; false; false; false; false; false; false; false; false; false; false], 0%N);
  ("TAF COR EGDY 111703Z 1118/1203 33005KT 9999 FEW008 BKN015 TEMPO 1118/1120 4000 -DZ SCT008 BKN012 BECMG 1122/1203 SCT030=", RT_TAF, "EGDY", [false; false; false; false; false; false; false; false; false; false; true; false], 0%N);
  ("METAR NZSP 111750Z 10008KT 4000 IC BR FEW000 M62/ A2823 RMK BR FEW000 CLN AIR 10007KT ALL WNDS GRID=", RT_METAR, "NZSP", [false; false; false; false; false; false; false; false; false; false; false; false], 0%N);
  ("METAR KMOB 111856Z 00000KT 7SM -RA SCT034 BKN055 BKN100 26/22 A3001 RMK AO2 RAB50 SLP160 CB DSNT ALQDS P0001 T02610222=", RT_METAR, "KMOB", [false; false; false; false; false; true; false; false; false; false; false; false], 0%N);
  ("TAF KMOB 111722Z 1118/1218 VRB04KT P6SM VCSH SCT030 BKN060 BKN100 TEMPO 1118/1121 VRB12KT 3SM TSRA BKN030CB OVC050 FM112100 18006KT P6SM SCT040 BKN120 BKN250 FM120300 00000KT P6SM FEW040 BKN250 FM121000 04002KT 4SM BR FEW002 FEW250 FM121400 04005KT P6SM FEW250=", RT_TAF, "KMOB", [false; false; false; false; false; false; false; false; false; false; false; false], 0%N);
  ("METAR LFRB 111900Z AUTO 23007KT 9999 OVC019 18/15 Q1023 BECMG OVC009=", RT_METAR, "LFRB", [false; false; true; false; false; false; false; false; false; false; false; false], 0%N);
  ("TAF LFRB 111700Z 1118/1224 22010KT 9999 OVC020 BECMG 1120/1122 OVC009 BECMG 1205/1207 04010KT TEMPO 1208/1218 1500 DZ OVC005=", RT_TAF, "LFRB", [false; false; false; false; false; false; false; false; false; false; false; false], 0%N);
  ("METAR EFHK 111850Z 18010KT 9999 SHRA SCT050CB BKN063 14/12 Q1006 BECMG -SHRA=", RT_METAR, "EFHK", [false; false; false; false; false; false; false; false; false; false; false; false], 0%N);
  ("TAF EFHK 111727Z 1118/1218 18007KT 9999 -SHRA FEW010 BKN057 TEMPO 1118/1201 5000 SHRA SCT030CB PROB30 TEMPO 1118/1119 4000 TSRA BKN010 BKN030CB PROB40 TEMPO 1122/1201 4000 TSRA BKN009 BKN030CB BECMG 1201/1203 24018KT TEMPO 1206/1215 25018G30KT TEMPO 1215/1218 SCT030CB=", RT_TAF, "EFHK", [false; false; false; false; false; false; false; false; false; false; false; false], 0%N);
  ("METAR UKLL 111900Z 14001MPS 6000 NSC 15/14 Q1023 R13/CLRD// NOSIG=", RT_METAR, "UKLL", [false; false; false; false; false; false; false; false; false; false; false; false], 0%N);
  ("TAF UKLL 111702Z 1118/1218 VRB01MPS 3000 BR BKN010 TEMPO 1122/1206 0400 FG VV002 BECMG 1206/1208 9999 NSW SCT030=", RT_TAF, "UKLL", [false; false; false; false; false; false; false; false; false; false; false; false], 0%N);
  ("METAR EHGG 111855Z AUTO 24013KT 4900 BR FEW019 BKN023 OVC027 18/16 Q1018 BECMG 28008KT 5000 DZ BKN006=", RT_METAR, "EHGG", [false; false; true; false; false; false; false; false; false; false; false; false], 0%N);
  ("TAF EHGG 111711Z 1118/1224 22010KT 9999 BKN020 BECMG 1118/1121 27006KT 6000 -DZRA BKN008 PROB40 TEMPO 1118/1205 3000 DZ BKN004 PROB40 1120/1202 9999 BKN020 BECMG 1202/1205 9999 NSW BKN030 PROB40 TEMPO 1205/1215 6000 RADZ PROB40 1220/1224 1200 BCFG=", RT_TAF, "EHGG", [false; false; false; false; false; false; false; false; false; false; false; false], 0%N);
  ("METAR EGSS 111850Z AUTO VRB03KT 3400 DZ BKN003 BKN007 OVC016 17/17 Q1019 RERA=", RT_METAR, "EGSS", [false; false; true; false; false; false; false; false; false; false; false; false], 0%N);
  ("TAF AMD EGSS 111815Z 1118/1224 24010KT 9999 BKN020 TEMPO 1118/1210 8000 -RA BKN012 PROB40 TEMPO 1118/1120 VRB03KT 3000 RADZ OVC004 BECMG 1200/1203 30008KT PROB40 TEMPO 1206/1210 4000 RADZ BKN009=", RT_TAF, "EGSS", [false; false; false; false; false; false; false; false; false; true; false; false], 0%N);
  ("METAR EGGD 111850Z 26011KT 2200 -DZ BR BKN001 15/15 Q1020 RERA=", RT_METAR, "EGGD", [false; false; false; false; false; false; false; false; false; false; false; false], 0%N);
  ("TAF AMD EGGD 111831Z 1118/1218 26009KT 0300 DZ FG OVC001 TEMPO 1118/1120 3000 -DZ OVC003 BECMG 1120/1122 9999 NSW SCT020 TEMPO 1122/1208 7000 -RA BKN010 PROB40 TEMPO 1205/1208 3000 RADZ BKN004=", RT_TAF, "EGGD", [false; false; false; false; false; false; false; false; false; true; false; false], 0%N);
  ("METAR KHON 111855Z AUTO 18022G37KT 10SM CLR 29/17 A2968 RMK AO2 PK WND 17039/1814 SLP041 T02940172=", RT_METAR, "KHON", [false; false; true; false; false; true; false; false; false; false; false; false], 0%N);
  ("KHON 111832Z 1118/1218 18020G27KT P6SM FEW250 FM120300 17012G17KT P6SM BKN250 FM120400 17011KT P6SM BKN080 FM120900 14008KT P6SM BKN200 FM121200 15010KT P6SM SCT200=", RT_TAF, "KHON", [false; false; false; false; false; false; false; false; false; false; false; false], 0%N);
  ("METAR ZBAA 111900Z 35002MPS 5000 BR NSC 17/16 Q1014 NOSIG=", RT_METAR, "ZBAA", [false; false; false; false; false; false; false; false; false; false; false; false], 0%N);
  ("TAF ZBAA 111530Z 1118/1218 14004MPS 7000 NSC TX27/1207Z TN16/1121Z=", RT_TAF, "ZBAA", [false; false; false; false; false; false; false; false; false; false; false; false], 0%N);
  ("METAR VEPT 111900Z 00000KT 3500 HZ FEW020 SCT250 28/26 Q1005 NOSIG=", RT_METAR, "VEPT", [false; false; false; false; false; false; false; false; false; false; false; false], 0%N);
  ("TAF VEPT 111100Z 1112/1218 27005KT 4500 HZ SCT018 SCT025 BKN100 BECMG 1115/1117 00000KT 3500 HZ/-RA SCT018 FEW030CB BKN100 BECMG 1119/1121 2500 BR/-RA BECMG 1203/1205 27005KT 3500 HZ/-RA SCT015 SCT025 BKN100 BECMG 1209/1211 4500 HZ/-RA SCT018 FEW030CB SCT100 BECMG 1216/1218 00000KT 3500 HZ/-RA=", RT_TAF, "VEPT", [false; false; false; false; false; false; false; false; false; false; false; false], 0%N);
  ("METAR OAKB 111850Z 02014G25KT 340V060 CAVOK 25/M05 Q1020 NOSIG RMK A3013 BLU BLU=", RT_METAR, "OAKB", [false; false; false; false; false; false; false; false; false; false; false; false], 0%N);
  ("TAF OAKB 111705Z 1118/1218 03015G25KT CAVOK BECMG 1120/1122 35008KT PROB40 TEMPO 1200/1205 5000 HZ BECMG 1206/1208 35015G25KT TEMPO 1210/1218 02025G35KT=", RT_TAF, "OAKB", [false; false; false; false; false; false; false; false; false; false; false; false], 0%N);
  ("METAR UTST 111900Z 23004KT CAVOK 23/05 Q1011 R88/CLRD70 NOSIG=", RT_METAR, "UTST", [false; false; false; false; false; false; false; false; false; false; false; false], 0%N);
  ("TAF UTST 111700Z 1118/1218 24010G20KT 6000 NSC TX38/1211Z TEMPO 1202/1212 27012G22KT=", RT_TAF, "UTST", [false; false; false; false; false; false; false; false; false; false; false; false], 0%N);
  ("METAR OAHR 111855Z 00000KT CAVOK 27/M02 Q1017 RMK A3005 BLU=", RT_METAR, "OAHR", [false; false; false; false; false; false; false; false; false; false; false; false], 0%N);
  ("TAF OAHR 111700Z 1118/1218 02012KT CAVOK BECMG 1120/1122 VRB03KT BECMG 1204/1206 31008KT BECMG 1209/1211 02016KT TEMPO 1110/1114 02018G28KT=", RT_TAF, "OAHR", [false; false; false; false; false; false; false; false; false; false; false; false], 0%N);
  ("METAR DAAT 111900Z 13016KT 7000 TS FEW040CB SCT046 25/07 Q1025=", RT_METAR, "DAAT", [false; false; false; false; false; false; false; false; false; false; false; false], 0%N);
  ("TAF COR DAAT 111700Z 1118/1218 12015KT 6000 NSC TEMPO 1118/1122 12015G40KT 5000 -TSRA FEW046CB PROB40 TEMPO 1118/1123 12015G25KT 3000 DRSA FEW040TCU PROB30 TEMPO 1120/1123 1500 HZ FEW040CB BECMG 1123/1202 12010KT=", RT_TAF, "DAAT", [false; false; false; false; false; false; false; false; false; false; true; false], 0%N);
  ("METAR COR GQNO 111900Z VRB03KT 3000 TSRA FEW020 FEW030TCU FEW033CB 23/23 Q1010 TEMPO 6000 TSRA=", RT_METAR, "GQNO", [false; false; false; false; false; false; false; false; false; false; true; false], 0%N);
  ("TAF GQNO 111700Z 1118/1224 25012KT 7000 FEW030CB SCT020 TEMPO 1118/1122 10012G30KT 3000 TSRA BKN010 FEW030CB TEMPO 1201/1205 10012G35KT 3000 TSRA BKN010 FEW030CB=", RT_TAF, "GQNO", [false; false; false; false; false; false; false; false; false; false; false; false], 0%N);
  ("METAR GQPP 111900Z 36018KT 6000 DRSA SCT010 23/17 Q1009 NOSIG=", RT_METAR, "GQPP", [false; false; false; false; false; false; false; false; false; false; false; false], 0%N);
  ("TAF GQPP 111700Z 1118/1218 35015KT 6000 NSC PROB30 TEMPO 1122/1204 10012G35KT 3000 TSRA BKN010 FEW030CB=", RT_TAF, "GQPP", [false; false; false; false; false; false; false; false; false; false; false; false], 0%N);
  ("SPECI CYQB 111914Z 00000KT 4SM BR SCT008 OVC013 16/16 A3014 RMK SF4SC4 SLP210 DENSITY ALT 300FT=", RT_METAR, "CYQB", [true; false; false; false; false; false; false; false; false; false; false; false], 0%N);
  ("TAF CYQB 111740Z 1118/1218 07007KT 11/2SM -DZ BR OVC005 TEMPO 1118/1120 6SM BR OVC008 FM112000 VRB03KT 6SM -DZ BR BKN006 OVC015 TEMPO 1120/1124 P6SM NSW OVC012 FM120000 VRB03KT P6SM FEW010 OVC020 PROB40 1203/1208 1SM BR OVC005 FM120800 VRB03KT 6SM BR FEW002 SCT030 PROB40 1208/1213 3/8SM FG VV002 FM121300 VRB03KT P6SM SCT020 TEMPO 1213/1215 BKN020 RMK NXT FCST BY 120000Z=", RT_TAF, "CYQB", [false; false; false; false; false; false; false; false; false; false; false; false], 0%N);
  ("SPECI MROC 111928Z 25010KT 210V290 9999 4000N -TSRA FEW020CB FEW030 SCT100 25/23 A2997 NOSIG", RT_METAR, "MROC", [true; false; false; false; false; false; false; false; false; false; false; false], 0%N);
  ("MROC 111700Z 1118/1218 24010KT 9999 FEW030 TX28/1218Z TN19/1209Z TEMPO 1119/1123 3000 TSRA SCT015CB TEMPO 1123/1202 RA SCT030 BECMG 1202/1204 05005KT TEMPO 1203/1210 VRB02KT BECMG 1215/1217 25008KT=", RT_TAF, "MROC", [false; false; false; false; false; false; false; false; false; false; false; false], 0%N);
  ("METAR MHPL 111900Z 00000KT 9999 BKN030TCU 33/26 Q1012 TCU ALL HZ=", RT_METAR, "MHPL", [false; false; false; false; false; false; false; false; false; false; false; false], 0%N);
  ("SPECI KLCH 111908Z 11004KT 3SM -RA BR BKN004 BKN075 OVC090 26/26 A2999 RMK AO2 P0002 T02560256 $=", RT_METAR, "KLCH", [true; false; false; false; false; true; false; false; false; false; false; true], 0%N);
  ("KLCH 111840Z 1119/1218 07006KT 4SM SHRA BR BKN010 BKN025 OVC060 TEMPO 1119/1122 -RA BKN008 OVC050 FM112200 07006KT P6SM SHRA SCT020 BKN030 OVC080 TEMPO 1122/1124 5SM -RA BR OVC021 FM120600 06005KT P6SM VCSH OVC020=", RT_TAF, "KLCH", [false; false; false; false; false; false; false; false; false; false; false; false], 0%N);
  ("METAR EGYP 111850Z 33023KT 9999 FEW008 09/05 Q1003 BLU NOSIG=", RT_METAR, "EGYP", [false; false; false; false; false; false; false; false; false; false; false; false], 0%N);
  ("TAF AMD EGYP 111758Z 1118/1212 32022G32KT 9999 FEW008 BECMG 1118/1121 29012KT BECMG 1209/1212 33015G25KT=", RT_TAF, "EGYP", [false; false; false; false; false; false; false; false; false; true; false; false], 0%N);
  ("METAR FABL 111900Z AUTO VRB01KT 9999 ///////// 08/M05 Q1020=", RT_METAR, "FABL", [false; false; true; false; false; false; false; false; false; false; false; false], 0%N);
  ("TAF FABL 111600Z 1118/1218 VRB03KT CAVOK BECMG 1210/1212 30008KT BECMG 1216/1218 20006KT TX24/1213Z TN03/1204Z=", RT_TAF, "FABL", [false; false; false; false; false; false; false; false; false; false; false; false], 0%N);
  ("METAR FIMR 111800Z 08010KT 8000 VCSH BKN017 22/18 Q1022=", RT_METAR, "FIMR", [false; false; false; false; false; false; false; false; false; false; false; false], 0%N);
  ("TAF FIMR 111735Z 1118/1212 07015G25KT 9999 SCT018=", RT_TAF, "FIMR", [false; false; false; false; false; false; false; false; false; false; false; false], 0%N);
  ("METAR PAFA 111853Z 09003KT 10SM FEW100 SCT250 08/04 A3018 RMK AO2 SLP226 T00830039 $=", RT_METAR, "PAFA", [false; false; false; false; false; true; false; false; false; false; false; true], 0%N);
  ("PAFA 111739Z 1118/1224 03003KT P6SM FEW100 SCT200 FM112100 21004KT P6SM BKN100 FM120600 VRB03KT P6SM SCT100 PROB30 1216/1220 -RA BKN080=", RT_TAF, "PAFA", [false; false; false; false; false; false; false; false; false; false; false; false], 0%N);
  ("METAR UAAA 111930Z 28002MPS 220V310 9999 FEW050CB BKN100 14/04 Q1018 R23L/CLRD65 NOSIG=", RT_METAR, "UAAA", [false; false; false; false; false; false; false; false; false; false; false; false], 0%N);
  ("TAF UAAA 111700Z 1118/1218 21004MPS 9999 BKN030CB BKN100 TX19/1209Z TN09/1201Z BECMG 1202/1203 35005MPS TEMPO 1206/1215 26008MPS 5000 -SHRA BR BKN010 OVC020CB PROB40 TEMPO 1206/1215 TS TEMPO 1215/1218 16005MPS 3000 FU=", RT_TAF, "UAAA", [false; false; false; false; false; false; false; false; false; false; false; false], 0%N);
  ("METAR COR EGLL 111920Z AUTO 22010KT 9999 BKN011 OVC016 20/17 Q1019 TEMPO BKN008=", RT_METAR, "EGLL", [false; false; true; false; false; false; false; false; false; false; true; false], 0%N);
  ("TAF AMD EGLL 111941Z 1119/1224 22012KT 9999 BKN018 TEMPO 1119/1124 4000 RADZ BKN006 BECMG 1121/1124 32005KT PROB40 TEMPO 1200/1204 7000 -RA BKN010 PROB40 TEMPO 1208/1212 7000 RA BKN012=", RT_TAF, "EGLL", [false; false; false; false; false; false; false; false; false; true; false; false], 0%N);
  ("METAR EGWU 111850Z 24007KT 7000 -RADZ BKN012 20/17 Q1019 TEMPO 4000 RADZ=", RT_METAR, "EGWU", [false; false; false; false; false; false; false; false; false; false; false; false], 0%N);
  ("TAF EGWU 111629Z 1118/1212 24010KT 9999 BKN020 TEMPO 1118/1203 7000 -RADZ BKN012 PROB30 TEMPO 1120/1202 4000 RADZ SCT006 BECMG 1203/1205 BKN030 TEMPO 1205/1209 7000 -RADZ SCT010 TEMPO 1209/1211 SCT020=", RT_TAF, "EGWU", [false; false; false; false; false; false; false; false; false; false; false; false], 0%N);
  ("METAR KAIK 111935Z AUTO 16012G18KT 4SM +TSRA SCT015 BKN038 OVC070 25/22 A3006 RMK AO2 LTG DSNT E THRU SW=", RT_METAR, "KAIK", [false; false; true; false; false; true; false; false; false; false; false; false], 0%N);
  ("METAR K2J3 111930Z AUTO 34012G17KT 7SM VCTSRA SCT029 OVC048 27/24 A3003 RMK AO2 LTG DSNT ALQDS P0003 T02730236=", RT_METAR, "K2J3", [false; false; true; false; false; true; false; false; false; false; false; false], 0%N);
  ("METAR KMYR 111856Z COR 12008KT 10SM SCT020 BKN030 29/24 A3006 RMK AO2 SLP178 T02940239=", RT_METAR, "KMYR", [false; false; false; false; false; true; false; false; false; false; true; false], 0%N);
  ("KMYR 111723Z 1118/1218 13007KT P6SM VCTS SCT035CB FM120100 VRB03KT P6SM SCT025 FM121400 06008KT P6SM BKN050 FM121700 10010KT P6SM BKN050=", RT_TAF, "KMYR", [false; false; false; false; false; false; false; false; false; false; false; false], 0%N);
  ("METAR EKVG 111950Z AUTO 33005KT 9999NDV FEW023/// BKN036/// 08/07 Q0996 RMK FEW015/// SCT022/// WIND 850FT 29018KT=", RT_METAR, "EKVG", [false; false; true; false; false; false; false; false; false; false; false; false], 0%N);
  ("TAF EKVG 111421Z 1115/1120 26008KT 9999 SCT007 BKN020 TEMPO 1115/1120 3000 SHRA BKN008 SCT015CB=", RT_TAF, "EKVG", [false; false; false; false; false; false; false; false; false; false; false; false], 0%N);
  ("METAR EHGR 111955Z AUTO 25006KT 9999 BKN370 20/15 Q1020 BLU 25008KT 9999 SCT050=", RT_METAR, "EHGR", [false; false; true; false; false; false; false; false; false; false; false; false], 0%N);
  ("TAF EHGR 111750Z 1117/1205 24006KT CAVOK BECMG 1122/1201 8000 BKN013 TEMPO 1202/1205 3000 DZ BR BKN005=", RT_TAF, "EHGR", [false; false; false; false; false; false; false; false; false; false; false; false], 0%N);
  ("METAR EFJY 111950Z AUTO VRB03KT 110V190 9999 -RA OVC011 13/13 Q1003 RERA RERA=", RT_METAR, "EFJY", [false; false; true; false; false; false; false; false; false; false; false; false], 0%N);
  ("TAF EFJY 111727Z 1118/1218 14006KT 9999 SCT013 BKN107 TEMPO 1118/1121 6000 SHRA BKN012 BKN030CB TEMPO 1121/1209 6000 RA BKN010 BECMG 1204/1206 25011KT TEMPO 1206/1215 SCT020CB=", RT_TAF, "EFJY", [false; false; false; false; false; false; false; false; false; false; false; false], 0%N);
  ("METAR KCHS 111956Z 09006KT 10SM SCT035 SCT055 BKN200 29/26 A3001 RMK AO2 WSHFT 1851 LTG DSNT SW-NW RAB01E35 TSB08E29 SLP161 CB DSNT SW-NW P0017 T02890261=", RT_METAR, "KCHS", [false; false; false; false; false; true; false; false; false; false; false; false], 0%N);
  ("KCHS 111720Z 1118/1218 13006KT P6SM VCTS SCT040CB FM112000 14007KT P6SM SCT040 FM120200 VRB03KT P6SM SCT040 FM121400 06008KT P6SM SCT040=", RT_TAF, "KCHS", [false; false; false; false; false; false; false; false; false; false; false; false], 0%N);
  ("METAR CYHZ 112000Z 14011KT 4SM -RA FEW021 BKN062 OVC090 18/17 A3030 RMK CU1SC5AC2 PRESFR SLP263 DENSITY ALT 600FT=", RT_METAR, "CYHZ", [false; false; false; false; false; false; false; false; false; false; false; false], 0%N);
  ("TAF CYHZ 111738Z 1118/1218 14010G20KT P6SM -SHRA OVC040 TEMPO 1118/1122 5SM -SHRA BR OVC020 FM112200 15012G22KT 6SM -RA BR SCT008 OVC020 TEMPO 1122/1202 3SM -RA BR BKN008 OVC020 FM120200 16010KT 2SM -RA BR BKN004 OVC008 PROB30 1202/1212 1/4SM FG VV001 FM121200 32008KT P6SM OVC008 FM121500 35010KT P6SM OVC015 RMK NXT FCST BY 112100Z=", RT_TAF, "CYHZ", [false; false; false; false; false; false; false; false; false; false; false; false], 0%N);
  ("METAR KLGA 111951Z 04004KT 2 1/2SM HZ BKN008 OVC015 23/21 A3012 RMK AO2 SFC VIS 4 SLP198 T02330206=", RT_METAR, "KLGA", [false; false; false; false; false; true; false; false; false; false; false; false], 0%N);
  ("KLGA 111931Z 1120/1224 05005KT P6SM BKN008 BKN012 BKN040 TEMPO 1120/1124 SCT008 BKN015 FM120300 06005KT 1SM BR OVC003 FM121400 06007KT 4SM BR OVC008 FM121800 07007KT P6SM SCT010 BKN020 BKN120=", RT_TAF, "KLGA", [false; false; false; false; false; false; false; false; false; false; false; false], 0%N);
  ("METAR DAAG 112000Z 10008KT 9999 FEW026 FEW030CB BKN200 27/21 Q1018=", RT_METAR, "DAAG", [false; false; false; false; false; false; false; false; false; false; false; false], 0%N);
  ("TAF COR DAAG 111700Z 1118/1218 08010KT CAVOK PROB40 TEMPO 1118/1121 5000 -TSRA FEW026CB BECMG 1122/1201 VRB02KT PROB40 TEMPO 1208/1214 5000 -TSRA FEW026CB BECMG 1208/1212 10010KT=", RT_TAF, "DAAG", [false; false; false; false; false; false; false; false; false; false; true; false], 0%N);
  ("METAR URML 112000Z 33006MPS 9999 NSC 25/10 Q1016 R32/01//70 TEMPO VRB10G16MPS 6000 -TSRA SCT011 SCT020CB RMK QFE761/1015=", RT_METAR, "URML", [false; false; false; false; false; false; false; false; false; false; false; false], 0%N);
  ("TAF URML 111700Z 1118/1203 31007G12MPS 9999 SCT050CB TEMPO 1118/1124 VRB10G16MPS 6000 -TSRA SCT011 SCT020CB=", RT_TAF, "URML", [false; false; false; false; false; false; false; false; false; false; false; false], 0%N);
  ("METAR UBBY 112000Z 03008KT 9999 FEW050CB BKN100 22/15 Q1021 R33/////// NOSIG RMK MT OP=", RT_METAR, "UBBY", [false; false; false; false; false; false; false; false; false; false; false; false], 0%N);
  ("TAF UBBY 111700Z 1118/1203 31010KT 9999 SCT035CB BKN060 TEMPO 1118/1120 VRB16KT -TSRA=", RT_TAF, "UBBY", [false; false; false; false; false; false; false; false; false; false; false; false], 0%N);
  ("METAR URMM 112000Z 27002MPS 9999 SCT015 16/14 Q1021 R30/290050 TEMPO 0300 FG OVC002 RMK MT OBSC QFE737/0983=", RT_METAR, "URMM", [false; false; false; false; false; false; false; false; false; false; false; false], 0%N);
  ("TAF URMM 111658Z 1118/1218 28003G08MPS 9999 BKN030 TX26/1211Z TN15/1202Z TEMPO 1118/1121 3100 -SHRA BKN011 BKN030CB TEMPO 1121/1206 VRB01MPS 3100 BR BKN011=", RT_TAF, "URMM", [false; false; false; false; false; false; false; false; false; false; false; false], 0%N);
  ("METAR COR GQNO 112000Z 02004KT 6000 TS FEW020 FEW030TCU FEW033CB 25/24 Q1008 TEMPO 4000 TSRA=", RT_METAR, "GQNO", [false; false; false; false; false; false; false; false; false; false; true; false], 0%N);
  ("TAF GQNO 111700Z 1118/1224 25012KT 7000 FEW030CB SCT020 TEMPO 1118/1122 10012G30KT 3000 TSRA BKN010 FEW030CB TEMPO 1201/1205 10012G35KT 3000 TSRA BKN010 FEW030CB=", RT_TAF, "GQNO", [false; false; false; false; false; false; false; false; false; false; false; false], 0%N);
  ("METAR COR EGLL 112020Z 28006KT 3000 DZ BKN006 OVC012 18/17 Q1020 TEMPO 5000 -DZ=", RT_METAR, "EGLL", [false; false; false; false; false; false; false; false; false; false; true; false], 0%N);
  ("TAF AMD EGLL 111941Z 1119/1224 22012KT 9999 BKN018 TEMPO 1119/1124 4000 RADZ BKN006 BECMG 1121/1124 32005KT PROB40 TEMPO 1200/1204 7000 -RA BKN010 PROB40 TEMPO 1208/1212 7000 RA BKN012=", RT_TAF, "EGLL", [false; false; false; false; false; false; false; false; false; true; false; false], 0%N);
  ("METAR EGUW 112250Z 25007KT 2500 RADZ FEW002 SCT003 BKN010 16/16 Q1019 YLO2=", RT_METAR, "EGUW", [false; false; false; false; false; false; false; false; false; false; false; false], 0%N);
  ("SPECI CYBN 121023Z AUTO 22002KT 1 1/4SM VV000 05/05 A3026=", RT_METAR, "CYBN", [true; false; true; false; false; false; false; false; false; false; false; false], 0%N);
  ("TAF CYBN 121018Z 1210/1222 VRB03KT 1SM BR OVC001 BECMG 1210/1212 P6SM NSW SCT008 FM121200 VRB03KT P6SM SCT008 TEMPO 1212/1214 BKN008 FM121500 VRB03KT P6SM BKN015 TEMPO 1214/1217 BKN025 FM121800 15008KT P6SM BKN025 RMK FCST BASED ON AUTO OBS. NXT FCST BY 121200Z=", RT_TAF, "CYBN", [false; false; false; false; false; false; false; false; false; false; false; false], 0%N);
  ("METAR KILM 121953Z 09009KT 10SM CLR 31/22 A3003 RMK AO2 SLP168 T03060222=", RT_METAR, "KILM", [false; false; false; false; false; true; false; false; false; false; false; false], 0%N);
  ("KILM 121720Z 1218/1318 06013KT P6SM VCSH FEW025 FM130200 03008KT P6SM VCSH SCT025 SCT100 FM131000 01015G25KT P6SM VCSH OVC015 FM131600 01020G30KT P6SM VCSH OVC015=", RT_TAF, "KILM", [false; false; false; false; false; false; false; false; false; false; false; false], 0%N);
  ("METAR KILM 122253Z AUTO 06007KT 10SM CLR 29/23 A3002 RMK AO2 SLP165 LAST T02890233=", RT_METAR, "KILM", [false; false; true; false; false; true; false; false; false; false; false; false], 0%N);
  ("TAF KILM 121720Z 1218/1318 06013KT P6SM VCSH FEW025 FM130200 03008KT P6SM VCSH SCT025 SCT100 FM131000 01015G25KT P6SM VCSH OVC015 FM131600 01020G30KT P6SM VCSH OVC015=", RT_TAF, "KILM", [false; false; false; false; false; false; false; false; false; false; false; false], 0%N);
  ("METAR KNCA 121556Z AUTO 08008KT 10SM FEW035 31/23 A3010 RMK AO2 SLP195 T03110233=", RT_METAR, "KNCA", [false; false; true; false; false; true; false; false; false; false; false; false], 0%N);
  ("TAF KNCA 1215/1315 09010KT 9999 SCT120 QNH3008INS FM130000 36010G20KT 9999 SCT030 BKN050 QNH3000INS FM131500 VRB25G50KT 0800 +TSRA BR SCT025CB BKN030 QNH2950INS T30/1218Z T24/1306Z LAST NO AMDS AFT 1215 NEXT 1709=", RT_TAF, "KNCA", [false; false; false; false; false; false; false; false; false; false; false; false], 0%N)].
Example real_data_1_passes : real_failures real_data_1 = []. Proof. vm_compute. reflexivity. Qed.
Definition real_data_2 : list real_row :=
 [("SPECI RJTK 130029Z 02010KT 9999 FEW020 SCT040 BKN230 24/16 Q1021 RMK 1CU020 4SC040 5CI230 A3016=", RT_METAR, "RJTK", [true; false; false; false; false; false; false; false; false; false; false; false], 0%N);
  ("SPECI KEKN 130503Z AUTO 00000KT 1/4SM FG VV002 19/18 A3024 RMK AO2 T01890183 TSNO=", RT_METAR, "KEKN", [true; false; true; false; false; true; false; false; false; false; false; false], 0%N);
  ("KEKN 130300Z 1303/1324 00000KT 1/4SM FG VV002 FM131400 00000KT P6SM SCT250 FM131500 00000KT P6SM SCT020 FM132000 10004KT P6SM SCT035=", RT_TAF, "KEKN", [false; false; false; false; false; false; false; false; false; false; false; false], 0%N);
  ("METAR YMHB 130000Z 33015KT 9999 VCSH FEW035 BKN042 15/05 Q1009 RF00.0/000.0=", RT_METAR, "YMHB", [false; false; false; false; false; false; false; false; false; false; false; false], 0%N);
  ("TAF YMHB 122303Z 1300/1324 32012KT 9999 SCT045 FM130100 31015KT 9999 SCT045 FM130900 33012KT 9999 SCT045 FM131200 35008KT 9999 SCT045=", RT_TAF, "YMHB", [false; false; false; false; false; false; false; false; false; false; false; false], 0%N);
  ("METAR SAWH 130000Z 32008G58KT 9999 DZ SCT030 BKN100 08/01 Q0987=", RT_METAR, "SAWH", [false; false; false; false; false; false; false; false; false; false; false; false], 0%N);
  ("TAF SAWH 122300Z 1300/1324 32018KT 9999 BKN025 BKN040 TX09/1319Z TN03/1310Z TEMPO 1300/1306 34027KT=", RT_TAF, "SAWH", [false; false; false; false; false; false; false; false; false; false; false; false], 0%N);
  ("METAR CYBG 131000Z 00000KT 25SM R11/4500FT BCFG FEW001 FEW030 10/09 A3029 RMK ST1SC1 FG BANK S VIS 1/2 SLP261=", RT_METAR, "CYBG", [false; false; false; false; false; false; false; false; false; false; false; false], 0%N);
  ("TAF CYBG 130530Z 1306/1406 VRB03KT P6SM SKC FM130700 VRB03KT 6SM BR SCT030 TEMPO 1307/1312 2SM BR FM131200 VRB03KT P6SM SCT030 BECMG 1315/1317 29008KT FM140000 VRB03KT P6SM FEW030 RMK NXT FCST BY 131200Z=", RT_TAF, "CYBG", [false; false; false; false; false; false; false; false; false; false; false; false], 0%N);
  ("METAR SCRM 131600Z 32030KT 9999 FEW020 M01/M03 Q0966=", RT_METAR, "SCRM", [false; false; false; false; false; false; false; false; false; false; false; false], 0%N);
  ("TAF SCRM 131604Z 1318/1418 30030KT 9999 SCT035 TXM01/1402Z TNM03/1418Z TEMPO 1319/1323 31030G45KT 2000 -SHSN DRSN BKN035 BECMG 1403/1405 31025G40KT 3000 -SHSN BKN030 TEMPO 1410/1415 9999 NSW SCT030 BECMG 1415/1417 29020KT=", RT_TAF, "SCRM", [false; false; false; false; false; false; false; false; false; false; false; false], 0%N);
  ("SPECI EGVA 130810Z AUTO 00000KT 0400 R09/0500V0800 FG VV000 08/08 A3023 RMK AO2 SLP242 $=", RT_METAR, "EGVA", [true; false; true; false; false; true; false; false; false; false; false; true], 0%N);
  ("SPECI KEWN 131541Z AUTO 04024G40KT 1/4SM +RA FG BKN012 BKN022 OVC065 22/22 A2987 RMK AO2 PK WND 06044/1526 RAB24 P0066 T02170217=", RT_METAR, "KEWN", [true; false; true; false; false; true; false; false; false; false; false; false], 0%N);
  ("TAF KEWN 131126Z 1312/1412 36015G25KT 5SM -SHRA OVC025 FM131500 03035G45KT 3SM +SHRA OVC025 FM132000 04045G60KT 3SM +SHRA OVC025 FM140300 07055G75KT 3SM +SHRA OVC025 FM141100 11053G70KT 3SM +SHRA OVC015=", RT_TAF, "KEWN", [false; false; false; false; false; false; false; false; false; false; false; false], 0%N);
  ("SPECI LTBA 131616Z 03011KT 350V110 9999 -SHRA FEW018CB BKN028 24/20 Q1011 RETSRA TEMPO -TSRA RMK RWY17L 04013KT 010V070 RWY05 01013KT RWY23 04013KT 010V090=", RT_METAR, "LTBA", [true; false; false; false; false; false; false; false; false; false; false; false], 0%N);
  ("TAF AMD LTBA 131609Z 1316/1418 34009KT 9999 -SHRA SCT030 BKN100 TEMPO 1316/1318 04015G25KT -TSRA FEW015CB BKN027 TEMPO 1318/1320 04015G25KT -TSRA FEW015CB BKN025 TEMPO 1322/1402 04015G25KT 3500 TSRA SCT015CB BKN030 TEMPO 1405/1409 02015G25KT 3500 TSRA SCT015CB BKN030 PROB30 1410/1414 02015G25KT -TSRA FEW017CB BKN025=", RT_TAF, "LTBA", [false; false; false; false; false; false; false; false; false; true; false; false], 0%N);
  ("METAR LTBR 131550Z 18006KT 090V260 9999 VCSH TS FEW025CB SCT030 BKN090 23/13 Q1011 TEMPO TL1700 34015G25KT 4500 TSRA=", RT_METAR, "LTBR", [false; false; false; false; false; false; false; false; false; false; false; false], 0%N);
  ("TAF LTBR 131040Z 1312/1412 33012KT 9999 -SHRA SCT035 BKN100 TEMPO 1312/1316 34015G25KT 4500 TSRA SCT025CB BKN030 BECMG 1316/1318 VRB02KT BECMG 1319/1323 4500 SHRA SCT022CB BKN025 PROB40 TEMPO 1402/1406 27013KT 2500 +SHRA BECMG 1406/1409 30012KT 9999 NSW=", RT_TAF, "LTBR", [false; false; false; false; false; false; false; false; false; false; false; false], 0%N);
  ("METAR LSME 131620Z AUTO 33018G38KT 300V360 9999NDV -RA FEW032 BKN044 22/15 Q1018 RMK=", RT_METAR, "LSME", [false; false; true; false; false; false; false; false; false; false; false; false], 0%N);
  ("TAF LSME 131625Z 1317/1423 VRB03KT 9999 SCT050 TEMPO 1317/1408 SHRA SCT050TCU PROB30 TEMPO 1317/1321 29015G25KT 4000 TSRA SCT040CB PROB30 TEMPO 1414/1418 SHRA=", RT_TAF, "LSME", [false; false; false; false; false; false; false; false; false; false; false; false], 0%N);
  ("METAR LSMP 131620Z AUTO 10004KT 070V140 9999NDV SHRA FEW013 SCT047 BKN063 20/17 Q1018 RESHRA RMK=", RT_METAR, "LSMP", [false; false; true; false; false; false; false; false; false; false; false; false], 0%N);
  ("TAF LSMP 131625Z 1317/1423 VRB03KT 9999 FEW025 SCT050 PROB40 TEMPO 1317/1402 VRB15G25KT TSRA SCT040CB=", RT_TAF, "LSMP", [false; false; false; false; false; false; false; false; false; false; false; false], 0%N);
  ("LIMH 131555Z /////KT 0200 FG VV/// 06/04 Q1031 RMK MON INVIS VAL INVIS VIS MIN 0200=", RT_METAR, "LIMH", [false; false; false; false; false; false; false; false; false; false; false; false], 0%N);
  ("METAR OEGT 131600Z 30016KT 2500 DU FEW040 BKN100 37/08 Q1009 NOSIG=", RT_METAR, "OEGT", [false; false; false; false; false; false; false; false; false; false; false; false], 0%N);
  ("TAF OEGT 131100Z 1312/1418 18014KT 7000 SCT040 BECMG 1314/1316 30010G20KT TEMPO 1314/1324 3500 BLDU TSRA FEW035CB BKN040=", RT_TAF, "OEGT", [false; false; false; false; false; false; false; false; false; false; false; false], 0%N);
  ("METAR ORBD 131555Z 35007KT 9000 FU CLR 40/06 A2972 RMK WND DATA ALSTG ESTMD=", RT_METAR, "ORBD", [false; false; false; false; false; false; false; false; false; false; false; false], 0%N);
  ("TAF ORBD 131100Z 1311/1417 35010G15KT 9999 FEW200 QNH2979INS WND 290V040 WND 33009KT AFT 1315 TEMPO 1311/1314 34015G25KT 8000 BLDU 280V020 BECMG 1407/1408 33010G15KT 9999 FEW200 QNH2962INS WND 320V040 WND 33009KT AFT 1415 TX47/1412Z TN29/1402Z=", RT_TAF, "ORBD", [false; false; false; false; false; false; false; false; false; false; false; false], 0%N);
  ("METAR OODQ 131550Z AUTO 21023KT //// R22///// NCD 26/21 Q1004 NOSIG=", RT_METAR, "OODQ", [false; false; true; false; false; false; false; false; false; false; false; false], 0%N);
  ("TAF OODQ 130500Z 1306/1406 20020KT 8000 NSC TEMPO 1316/1403 4900 HZ SCT010=", RT_TAF, "OODQ", [false; false; false; false; false; false; false; false; false; false; false; false], 0%N);
  ("METAR GMMH 131600Z 10011KT 0600 DU NSC 31/20 Q1012 NOSIG=", RT_METAR, "GMMH", [false; false; false; false; false; false; false; false; false; false; false; false], 0%N);
  ("TAF GMMH 131100Z 1312/1418 03020KT 3000 DU NSC TEMPO 1312/1318 1000 DU PROB40 TEMPO 1314/1320 4000 -TSRA FEW020CB SCT040 BECMG 1320/1323 6000 NSW=", RT_TAF, "GMMH", [false; false; false; false; false; false; false; false; false; false; false; false], 0%N);
  ("METAR DRRT 131600Z 12018KT 3000 SA FEW040 FEW050 CB 36/18 Q1009=", RT_METAR, "DRRT", [false; false; false; false; false; false; false; false; false; false; false; false], 0%N);
  ("METAR DIAP 131630Z 22008KT 9999 TS SCT012 FEW020CB BKN030 27/23 Q1010 TEMPO BKN011 FEW020CB BKN030=", RT_METAR, "DIAP", [false; false; false; false; false; false; false; false; false; false; false; false], 0%N);
  ("TAF DIAP 131100Z 1312/1418 22010KT 8000 SCT012 TEMPO 1312/1318 BKN012 TEMPO 1400/1406 4000 RA BKN012=", RT_TAF, "DIAP", [false; false; false; false; false; false; false; false; false; false; false; false], 0%N);
  ("METAR YCIN 131630Z AUTO 35005KT 1600 // OVC003 21/21 Q1011 RF00.0/000.0=", RT_METAR, "YCIN", [false; false; true; false; false; false; false; false; false; false; false; false], 0%N);
  ("TAF AMD YCIN 131514Z 1315/1402 VRB05KT 0300 FG BKN001=", RT_TAF, "YCIN", [false; false; false; false; false; false; false; false; false; true; false; false], 0%N);
  ("METAR UTTT 131630Z 16006KT 4000 FU NSC 17/06 Q1018 R08R/CLRD70 NOSIG=", RT_METAR, "UTTT", [false; false; false; false; false; false; false; false; false; false; false; false], 0%N);
  ("TAF UTTT 131100Z 1312/1412 06010KT 7000 NSC TEMPO 1312/1316 34015KT=", RT_TAF, "UTTT", [false; false; false; false; false; false; false; false; false; false; false; false], 0%N);
  ("METAR OAJL 131555Z 26011G24KT 2800 BLDU CLR 35/M04 A2961 RMK AO2A SLP971 T03491042=", RT_METAR, "OAJL", [false; false; false; false; false; false; true; false; false; false; false; false], 0%N);
  ("TAF AMD OAJL 131630Z 1316/1422 29015G25KT 3200 BLDU SKC QNH2954INS TEMPO 1316/1318 30025G35KT 2800 BLDU BECMG 1317/1318 30012G18KT 6000 HZ SKC QNH2953INS BECMG 1322/1323 30009KT 9000 HZ SKC QNH2955INS BECMG 1408/1409 11015G25KT 8000 HZ FEW120 QNH2952INS=", RT_TAF, "OAJL", [false; false; false; false; false; false; false; false; false; true; false; false], 0%N);
  ("METAR BIHN 131600Z 22004KT 9999 VCSH FEW010 BKN022 OVC038 10/06 Q1002 REDZ=", RT_METAR, "BIHN", [false; false; false; false; false; false; false; false; false; false; false; false], 0%N);
  ("TAF BIHN 131329Z 1314/1323 22008KT 9999 FEW010 BKN025 OVC045 TEMPO 1314/1323 -RADZ BKN020=", RT_TAF, "BIHN", [false; false; false; false; false; false; false; false; false; false; false; false], 0%N);
  ("METAR CYPC 131700Z 30012KT 6SM -FZDZ SCT005 OVC010 M04/M06 A3022 RMK ST3SC5 SLP236=", RT_METAR, "CYPC", [false; false; false; false; false; false; false; false; false; false; false; false], 0%N);
  ("TAF AMD CYPC 131705Z 1317/1323 30012KT P6SM SCT006 OVC015 TEMPO 1317/1318 5SM -FZDZ -SN BR BKN006 OVC015 FM131800 32015KT 2SM -SN OVC004 TEMPO 1318/1323 6SM -SN SCT004 OVC010 PROB30 1318/1321 3/4SM -SHSN RMK NXT FCST BY 131900Z=", RT_TAF, "CYPC", [false; false; false; false; false; false; false; false; false; true; false; false], 0%N);
  ("SPECI CYCB 131713Z 31019G28KT 1SM -SN BLSN SCT009 OVC020 M03/M05 A2983 RMK BLSN1CF3SC4 VIS VRB 1/2-1 1/2 SLP106=", RT_METAR, "CYCB", [true; false; false; false; false; false; false; false; false; false; false; false], 0%N);
  ("TAF AMD CYCB 131639Z 1316/1401 31020G30KT 6SM -SN SCT008 OVC025 TEMPO 1316/1401 11/2SM -SN BLSN SCT008 OVC015 RMK NXT FCST BY 131900Z=", RT_TAF, "CYCB", [false; false; false; false; false; false; false; false; false; true; false; false], 0%N);
  ("METAR PAGH 131656Z AUTO 00000KT 1/4SM FG OVC002 04/04 A3033 RMK AO2 SLP276 T00440044=", RT_METAR, "PAGH", [false; false; true; false; false; true; false; false; false; false; false; false], 0%N);
  ("METAR PATC 131655Z AUTO 26003KT 1/4SM FG VV003 07/07 A3025 RMK AO2 SLP245 T00690068=", RT_METAR, "PATC", [false; false; true; false; false; true; false; false; false; false; false; false], 0%N);
  ("UHMA 131700Z 08007MPS 9999 -RA SCT010 BKN050 09/09 Q1014 NOSIG RMK END R01/09009MPS MT OBSC QFE757/1009=", RT_METAR, "UHMA", [false; false; false; false; false; false; false; false; false; false; false; false], 0%N);
  ("TAF UHMA 131333Z 1315/1415 11013G18MPS 4000 -RA BKN008 OVC015 TEMPO 1315/1321 05006MPS 1000 BR VV004 TEMPO 1321/1415 09018G23MPS 0500 DZ FG VV002=", RT_TAF, "UHMA", [false; false; false; false; false; false; false; false; false; false; false; false], 0%N);
  ("METAR PASY 131656Z COR 00000KT 1SM BR BKN007 OVC018 11/10 A2942 RMK VIS NW-N 3/4 RAE14DZB14E20RAB35E52 SLP966 P0001 T01060103 COR 1703=", RT_METAR, "PASY", [false; false; false; false; false; false; false; false; false; false; true; false], 0%N);
  ("TAF AMD PASY 131552Z 1315/1420 34009KT 0800 FG OVC005 QNH2936INS TEMPO 1315/1321 0400 FG OVC001 BECMG 1404/1405 33015G20KT 4800 BR BKN007 QNH2934INS BECMG 1410/1411 33030G35KT 4800 -RA BR BKN007 510003 QNH2947INS TX12/1401Z TN11/1315Z=", RT_TAF, "PASY", [false; false; false; false; false; false; false; false; false; true; false; false], 0%N);
  ("METAR CYEG 131700Z 34010KT 1 1/2SM R30/5000VP6000FT/U R02/5000FT/N -SN SCT004 BKN007 OVC011 M01/M03 A3007 RMK SN3SF1SC3SC1 /S02/ SLP220=", RT_METAR, "CYEG", [false; false; false; false; false; false; false; false; false; false; false; false], 0%N);
  ("TAF CYEG 131438Z 1315/1412 34008KT 6SM -SN SCT007 OVC015 TEMPO 1315/1318 1SM -SN VV007 FM131800 35007KT 6SM -SN SCT008 OVC025 TEMPO 1318/1322 2SM -SN VV008 FM132200 01007KT P6SM -SN FEW020 BKN040 FM140300 VRB03KT P6SM BKN020 RMK NXT FCST BY 131800Z=", RT_TAF, "CYEG", [false; false; false; false; false; false; false; false; false; false; false; false], 0%N);
  ("SPECI CYCB 131713Z 31019G28KT 1SM -SN BLSN SCT009 OVC020 M03/M05 A2983 RMK BLSN1CF3SC4 VIS VRB 1/2-1 1/2 SLP106=", RT_METAR, "CYCB", [true; false; false; false; false; false; false; false; false; false; false; false], 0%N);
  ("TAF AMD CYCB 131639Z 1316/1401 31020G30KT 6SM -SN SCT008 OVC025 TEMPO 1316/1401 11/2SM -SN BLSN SCT008 OVC015 RMK NXT FCST BY 131900Z=", RT_TAF, "CYCB", [false; false; false; false; false; false; false; false; false; true; false; false], 0%N);
  ("METAR CYSY 131700Z 33016KT 2SM -SN BR BKN006 OVC035 M07/M08 A3019 RMK FG2ST3SC3 CIG RAG, SLP236=", RT_METAR, "CYSY", [false; false; false; false; false; false; false; false; false; false; false; false], 0%N);
  ("TAF CYSY 131438Z 1315/1323 34015KT 6SM -SN BR BKN006 OVC010 TEMPO 1315/1318 1/2SM -SN FZFG VV004 FM131800 36015KT 6SM -SN BR BKN008 OVC020 TEMPO 1318/1323 2SM -SN BR OVC004 PROB30 1318/1323 3/4SM -FZDZ BR RMK NXT FCST BY 131900Z=", RT_TAF, "CYSY", [false; false; false; false; false; false; false; false; false; false; false; false], 0%N);
  ("METAR CYLT 131700Z 35004KT 15SM FEW016 BKN026 M05/M07 A3010 RMK SC2SC6 SLP197=", RT_METAR, "CYLT", [false; false; false; false; false; false; false; false; false; false; false; false], 0%N);
  ("TAF CYLT 131131Z 1312/1324 35005KT P6SM FEW002 FEW090 PROB30 1312/1316 2SM BR BKN002 FM131600 35008KT 2SM BR BKN002 TEMPO 1316/1324 6SM BR SCT002 BKN030 PROB30 1318/1324 1/2SM -SHSN FG VV001 RMK NXT FCST BY 131800Z=", RT_TAF, "CYLT", [false; false; false; false; false; false; false; false; false; false; false; false], 0%N);
  ("METAR MYNN 131800Z 16011KT 9999 VCTS SCT015CB SCT022TCU 31/23 A2998 RMK CB SW-N LTG W TCU OVHD/N=", RT_METAR, "MYNN", [false; false; false; false; false; false; false; false; false; false; false; false], 0%N);
  ("MYNN 131000Z 1312/1412 13006KT 9999 SCT018CB SCT050=", RT_TAF, "MYNN", [false; false; false; false; false; false; false; false; false; false; false; false], 0%N);
  ("METAR COR MWCR 131800Z 02010G26KT 320V060 1000 TSRA BKN016CB 27/26 Q1013=", RT_METAR, "MWCR", [false; false; false; false; false; false; false; false; false; false; true; false], 0%N);
  ("TAF MWCR 131700Z 1318/1418 09005KT 9999 VCSH SCT018=", RT_TAF, "MWCR", [false; false; false; false; false; false; false; false; false; false; false; false], 0%N);
  ("SPECI KILM 131504Z AUTO 36020G28KT 10SM SCT026 SCT030 BKN037 29/23 A2984 RMK AO2 PK WND 35029/1454 T02890233=", RT_METAR, "KILM", [true; false; true; false; false; true; false; false; false; false; false; false], 0%N);
  ("TAF KILM 131120Z 1312/1412 36017G26KT P6SM VCSH SCT015 BKN100 TEMPO 1312/1316 BKN015 FM131700 36034G46KT 6SM -SHRA SCT012 OVC050 FM140000 35047G60KT 3SM SHRA SCT010 OVC025 FM140400 36060G70KT 2SM +SHRA SCT008 OVC018=", RT_TAF, "KILM", [false; false; false; false; false; false; false; false; false; false; false; false], 0%N);
  ("METAR KECG 131454Z AUTO 05024G31KT 9SM -RA BKN017 BKN024 OVC030 28/26 A3001 RMK AO2 PK WND 04033/1428 RAB52 SLP161 P0000 60000 T02830261 56007=", RT_METAR, "KECG", [false; false; true; false; false; true; false; false; false; false; false; false], 0%N);
  ("TAF KECG 131126Z 1312/1412 05017G26KT P6SM VCSH OVC015 FM131500 06023G33KT 6SM -SHRA OVC025 FM132000 07028G38KT 4SM SHRA OVC025 FM140900 09025G35KT 4SM SHRA OVC020=", RT_TAF, "KECG", [false; false; false; false; false; false; false; false; false; false; false; false], 0%N);
  ("SPECI K2DP 131533Z AUTO 06013G19KT 10SM SCT013 24/23 A2992 RMK AO2 SHRAB1456E33 SLPNO $=", RT_METAR, "K2DP", [true; false; true; false; false; true; false; false; false; false; false; true], 0%N);
  ("METAR KHSE 131451Z AUTO 06016G29KT 7SM -RA FEW035 SCT065 BKN085 27/24 A2983 RMK AO2 PK WND 08039/1356 RAB1352 SLP102 P0005 60006 T02670244 56019=", RT_METAR, "KHSE", [false; false; true; false; false; true; false; false; false; false; false; false], 0%N);
  ("SPECI KNKT 131504Z 03036G49KT 1 1/2SM BR SCT022 BKN028 BKN075 27/26 A2983 RMK AO2 PK WND 03049/1503 P0007 T02720261=", RT_METAR, "KNKT", [true; false; false; false; false; true; false; false; false; false; false; false], 0%N);
  ("TAF AMD KNKT 1315/1415 02028G48KT 2400 +RA BR SCT022 BKN028 OVC250 QNH2957INS BECMG 1316/1318 05035G60KT 1600 +TSRA BR BKN008CB OVC020 QNH2975INS T24/1321Z T28/1407Z AMD 1515=", RT_TAF, "KNKT", [false; false; false; false; false; false; false; false; false; true; false; false], 0%N);
  ("SPECI KMRH 131549Z AUTO 03027G44KT 2SM -RA BR SCT025 BKN036 OVC048 26/24 A2972 RMK AO2 PK WND 04044/1546 P0011 T02610244 $=", RT_METAR, "KMRH", [true; false; true; false; false; true; false; false; false; false; false; true], 0%N);
  ("METAR TFFR 131530Z AUTO 10021G33KT 070V130 9999 BKN019 BKN027 BKN032 28/25 Q1009 TEMPO 1000 TSRA BKN010CB=", RT_METAR, "TFFR", [false; false; true; false; false; false; false; false; false; false; false; false], 0%N);
  ("TAF TFFR 131000Z 1312/1412 06012KT 9999 BKN025 BKN050 PROB30 TEMPO 1312/1412 4000 SHRA SCT010CB SCT015TCU PROB30 TEMPO 1315/1412 VRB20G30KT 2000 +SHRA TEMPO 1314/1318 09025G40KT PROB30 TEMPO 1315/1403 VRB30G40KT 1000 TSRA BKN010CB BECMG 1320/1324 14020G35KT=", RT_TAF, "TFFR", [false; false; false; false; false; false; false; false; false; false; false; false], 0%N);
  ("METAR TDCF 131500Z 08002KT 9999 -TSRA BKN008 FEW///CB 26/25 Q1007=", RT_METAR, "TDCF", [false; false; false; false; false; false; false; false; false; false; false; false], 0%N);
  ("METAR TRPG 131500Z 10019G33KT 9999 BKN018 27/25 Q1011=", RT_METAR, "TRPG", [false; false; false; false; false; false; false; false; false; false; false; false], 0%N);
  ("TAF TRPG 131140Z 1312/1412 06020KT 9999 SCT018 SCT038 PROB40 TEMPO 1316/1412 SHRA TEMPO 1318/1322 10020G32KT 4800 TSRA FEW011CB BKN012 BKN035 BECMG 1400/1412 13016KT=", RT_TAF, "TRPG", [false; false; false; false; false; false; false; false; false; false; false; false], 0%N);
  ("METAR TBPB 131500Z 18023KT 9999 VCSH FEW014CB BKN034 27/22 Q1011 NOSIG=", RT_METAR, "TBPB", [false; false; false; false; false; false; false; false; false; false; false; false], 0%N);
  ("TAF TBPB 131105Z 1312/1412 17014KT 9999 SCT016 SCT036 PROB30 TEMPO 1318/1324 17015G25KT 5000 SHRA SCT012CB BKN014=", RT_TAF, "TBPB", [false; false; false; false; false; false; false; false; false; false; false; false], 0%N);
  ("METAR TNCE 131455Z AUTO 05021KT 030V090 //// // ///////// 30/24 Q1012 RE//=", RT_METAR, "TNCE", [false; false; true; false; false; false; false; false; false; false; false; false], 0%N);
  ("METAR TNCM 131500Z 09016G26KT 060V130 9999 SCT016 32/23 Q1013 A2992 NOSIG RMK HZ ALQDS=", RT_METAR, "TNCM", [false; false; false; false; false; false; false; false; false; false; false; false], 0%N);
  ("TNCM 131511Z 1315/1412 07017G32KT P6SM VCSH SCT016 FM131800 05024G36KT P6SM SHRA VCTS SCT015 BKN050CB TEMPO 1318/1322 FEW012 BKN016 OVC030CB FM140600 09011KT P6SM VCSH SCT015 SCT040=", RT_TAF, "TNCM", [false; false; false; false; false; false; false; false; false; false; false; false], 0%N);
  ("METAR TJSJ 131456Z 07014G22KT 9SM SCT035 31/25 A2995 RMK AO2 SLP139 HZ ALQDZ T03060250 51008=", RT_METAR, "TJSJ", [false; false; false; false; false; true; false; false; false; false; false; false], 0%N);
  ("TJSJ 131144Z 1312/1412 14004KT P6SM VCSH FEW020 SCT028 SCT035 FM131400 06010KT P6SM FEW025 FEW040 FM131600 07015G25KT P6SM VCSH SCT025 FM132100 06016G24KT P6SM VCSH SCT025 SCT045=", RT_TAF, "TJSJ", [false; false; false; false; false; false; false; false; false; false; false; false], 0%N);
  ("METAR KORF 131551Z 05016G30KT 10SM OVC006 27/25 A3007 RMK AO2 PK WND 06030/1547 SLP181 T02670250=", RT_METAR, "KORF", [false; false; false; false; false; true; false; false; false; false; false; false], 0%N);
  ("KORF 131517Z 1315/1412 05017G26KT P6SM VCSH OVC005 FM131700 06018G28KT P6SM OVC015 FM132000 07020G30KT 4SM SHRA OVC025 FM140000 08022G33KT 4SM SHRA OVC015=", RT_TAF, "KORF", [false; false; false; false; false; false; false; false; false; false; false; false], 0%N);
  ("METAR KMFV 131555Z AUTO 06013G20KT 10SM OVC006 26/25 A3013 RMK AO2 T02620245=", RT_METAR, "KMFV", [false; false; true; false; false; true; false; false; false; false; false; false], 0%N);
  ("METAR KOXB 131553Z AUTO 06011G19KT 10SM OVC004 24/23 A3018 RMK AO2 SLP220 T02440228 $=", RT_METAR, "KOXB", [false; false; true; false; false; true; false; false; false; false; false; true], 0%N);
  ("METAR KHSE 131551Z AUTO 06016G36KT 5SM -RA BR FEW050 BKN110 27/24 A2981 RMK AO2 PK WND 06036/1545 SLP093 P0004 T02670244=", RT_METAR, "KHSE", [false; false; true; false; false; true; false; false; false; false; false; false], 0%N);
  ("SPECI KEWN 131600Z AUTO 03017G27KT 1/2SM +RA FG BKN014 OVC022 23/23 A2986 RMK AO2 PK WND 02027/1558 P0013 T02330233=", RT_METAR, "KEWN", [true; false; true; false; false; true; false; false; false; false; false; false], 0%N);
  ("TAF KEWN 131126Z 1312/1412 36015G25KT 5SM -SHRA OVC025 FM131500 03035G45KT 3SM +SHRA OVC025 FM132000 04045G60KT 3SM +SHRA OVC025 FM140300 07055G75KT 3SM +SHRA OVC025 FM141100 11053G70KT 3SM +SHRA OVC015=", RT_TAF, "KEWN", [false; false; false; false; false; false; false; false; false; false; false; false], 0%N);
  ("METAR KNKT 131554Z 02024G36KT 10SM FEW050 SCT065 BKN080 26/24 A2981 RMK AO2 PK WND 03049/1503 SLP092 P0010 T02610239=", RT_METAR, "KNKT", [false; false; false; false; false; true; false; false; false; false; false; false], 0%N);
  ("TAF AMD KNKT 1315/1415 02028G48KT 2400 +RA BR SCT022 BKN028 OVC250 QNH2957INS BECMG 1316/1318 05035G60KT 1600 +TSRA BR BKN008CB OVC020 QNH2975INS T24/1321Z T28/1407Z AMD 1515=", RT_TAF, "KNKT", [false; false; false; false; false; false; false; false; false; true; false; false], 0%N);
  ("METAR KNCA 131556Z AUTO 03020G38KT 10SM SCT026 BKN036 BKN050 29/24 A2983 RMK AO2 PK WND 02038/1554 SLP105 T02890239=", RT_METAR, "KNCA", [false; false; true; false; false; true; false; false; false; false; false; false], 0%N);
  ("METAR KMRH 131558Z AUTO 03025G41KT 6SM -RA SCT029 BKN043 OVC070 27/24 A2971 RMK AO2 PK WND 04044/1546 SLP062 P0011 T02670239 $=", RT_METAR, "KMRH", [false; false; true; false; false; true; false; false; false; false; false; true], 0%N);
  ("METAR TRPG 131600Z 11022G40KT 9999 BKN016 28/25 Q1010=", RT_METAR, "TRPG", [false; false; false; false; false; false; false; false; false; false; false; false], 0%N);
  ("TAF TRPG 131140Z 1312/1412 06020KT 9999 SCT018 SCT038 PROB40 TEMPO 1316/1412 SHRA TEMPO 1318/1322 10020G32KT 4800 TSRA FEW011CB BKN012 BKN035 BECMG 1400/1412 13016KT=", RT_TAF, "TRPG", [false; false; false; false; false; false; false; false; false; false; false; false], 0%N);
  ("SPECI KMRH 131705Z AUTO 03027G48KT 3SM RA BR SCT026 BKN034 OVC060 26/24 A2966 RMK AO2 PK WND 03047/1700 P0003 T02610244=", RT_METAR, "KMRH", [true; false; true; false; false; true; false; false; false; false; false; false], 0%N);
  ("SPECI KHSE 131719Z AUTO 07026G42KT 2 1/2SM +RA BR FEW060 SCT080 BKN110 26/24 A2978 RMK AO2 PK WND 08043/1706 P0005 T02610239=", RT_METAR, "KHSE", [true; false; true; false; false; true; false; false; false; false; false; false], 0%N);
  ("METAR KNKT 131654Z 03026G39KT 10SM FEW027 SCT036 BKN095 28/26 A2977 RMK AO2 PK WND 03043/1639 SLP077 T02780256=", RT_METAR, "KNKT", [false; false; false; false; false; true; false; false; false; false; false; false], 0%N);
  ("TAF AMD KNKT 1315/1415 02028G48KT 2400 +RA BR SCT022 BKN028 OVC250 QNH2957INS BECMG 1316/1318 05035G60KT 1600 +TSRA BR BKN008CB OVC020 QNH2975INS T24/1321Z T28/1407Z AMD 1515=", RT_TAF, "KNKT", [false; false; false; false; false; false; false; false; false; true; false; false], 0%N);
  ("METAR K7W6 131825Z AUTO 04025G38KT 4SM -RA SCT018 BKN025 OVC080 26/25 A2983 RMK AO2 P0001 T02550245=", RT_METAR, "K7W6", [false; false; true; false; false; true; false; false; false; false; false; false], 0%N);
  ("METAR KILM 131653Z AUTO 36014G39KT 10SM -RA FEW030 SCT046 BKN095 24/21 A2981 RMK AO2 PK WND 36043/1640 RAB37 SLP093 P0000 T02440211=", RT_METAR, "KILM", [false; false; true; false; false; true; false; false; false; false; false; false], 0%N);
  ("TAF KILM 131120Z 1312/1412 36017G26KT P6SM VCSH SCT015 BKN100 TEMPO 1312/1316 BKN015 FM131700 36034G46KT 6SM -SHRA SCT012 OVC050 FM140000 35047G60KT 3SM SHRA SCT010 OVC025 FM140400 36060G70KT 2SM +SHRA SCT008 OVC018=", RT_TAF, "KILM", [false; false; false; false; false; false; false; false; false; false; false; false], 0%N);
  ("SPECI KMRH 131829Z AUTO 02035G52KT 3/4SM +RA FEW015 OVC024 25/ A2957 RMK AO2 PK WND 01053/1817 P0041 T0250=", RT_METAR, "KMRH", [true; false; true; false; false; true; false; false; false; false; false; false], 0%N);
  ("METAR KILM 131753Z AUTO 35018G26KT 10SM CLR 28/23 A2975 RMK AO2 PK WND 34026/1739 RAE02 SLP075 P0000 60000 T02780233 10289 20244 58032=", RT_METAR, "KILM", [false; false; true; false; false; true; false; false; false; false; false; false], 0%N);
  ("TAF KILM 131720Z 1318/1418 36026G36KT 6SM -SHRA SCT012 OVC050 TEMPO 1319/1323 36035G46KT 1SM SHRA BKN020 FM132300 35040G55KT 3SM SHRA SCT010 OVC025 FM140200 36055G65KT 2SM +SHRA SCT008 OVC018 FM140700 36065G80KT 2SM +SHRA BKN010=", RT_TAF, "KILM", [false; false; false; false; false; false; false; false; false; false; false; false], 0%N);
  ("METAR KNKT 131754Z 03031G48KT 4SM BR FEW025 BKN055 OVC085 27/26 A2973 RMK AO2 PK WND 03050/1743 SLP062 6//// T02670256 10289 20250 58031 $=", RT_METAR, "KNKT", [false; false; false; false; false; true; false; false; false; false; false; true], 0%N);
  ("TAF AMD KNKT 1315/1415 02028G48KT 2400 +RA BR SCT022 BKN028 OVC250 QNH2957INS BECMG 1316/1318 05035G60KT 1600 +TSRA BR BKN008CB OVC020 QNH2975INS T24/1321Z T28/1407Z AMD 1515=", RT_TAF, "KNKT", [false; false; false; false; false; false; false; false; false; true; false; false], 0%N);
  ("SPECI KNKT 131858Z 02033G43KT 1 3/4SM BR FEW024 BKN029 OVC037 26/25 A2965 RMK AO2 PK WND 03043/1858 VIS 1 1/2V4 P0002 T02560250 $=", RT_METAR, "KNKT", [true; false; false; false; false; true; false; false; false; false; false; true], 0%N);
  ("TAF AMD KNKT 1315/1415 02028G48KT 2400 +RA BR SCT022 BKN028 OVC250 QNH2957INS BECMG 1316/1318 05035G60KT 1600 +TSRA BR BKN008CB OVC020 QNH2975INS T24/1321Z T28/1407Z AMD 1515=", RT_TAF, "KNKT", [false; false; false; false; false; false; false; false; false; true; false; false], 0%N);
  ("SPECI KMRH 131829Z AUTO 02035G52KT 3/4SM +RA FEW015 OVC024 25/ A2957 RMK AO2 PK WND 01053/1817 P0041 T0250=", RT_METAR, "KMRH", [true; false; true; false; false; true; false; false; false; false; false; false], 0%N);
  ("METAR KHSE 131851Z AUTO 08022G43KT 2SM RA BR FEW034 BKN050 OVC070 26/24 A2975 RMK AO2 PK WND 08047/1826 SLP073 P0011 T02560239=", RT_METAR, "KHSE", [false; false; true; false; false; true; false; false; false; false; false; false], 0%N);
  ("METAR KEWN 131854Z AUTO 03020G42KT 3SM RA BR FEW028 BKN070 OVC095 26/24 A2974 RMK AO2 PK WND 03042/1849 PRESFR SLP069 P0002 T02560239=", RT_METAR, "KEWN", [false; false; true; false; false; true; false; false; false; false; false; false], 0%N);
  ("TAF KEWN 131724Z 1318/1418 03037G51KT 3SM +SHRA OVC020 FM140000 05050G68KT 3SM +SHRA OVC020 FM141300 11053G70KT 2SM +SHRA OVC010=", RT_TAF, "KEWN", [false; false; false; false; false; false; false; false; false; false; false; false], 0%N);
  ("METAR KNCA 131856Z AUTO 01024G40KT 6SM -RA BR FEW028 SCT060 OVC100 26/24 A2970 RMK AO2 PK WND 02045/1827 RAB06 SLP058 P0006 T02610239=", RT_METAR, "KNCA", [false; false; true; false; false; true; false; false; false; false; false; false], 0%N);
  ("METAR KOAJ 131856Z AUTO 01018G25KT 10SM -RA SCT028 BKN034 27/24 A2975 RMK AO2 PK WND 04032/1834 RAB16 SLPNO P0006 T02720239=", RT_METAR, "KOAJ", [false; false; true; false; false; true; false; false; false; false; false; false], 0%N);
  ("TAF KOAJ 131724Z 1318/1418 01032G45KT 3SM +SHRA OVC025 FM140200 03048G63KT 3SM +SHRA OVC020 FM140900 06053G67KT 3SM +SHRA OVC020 FM141500 10053G66KT 2SM +SHRA OVC010 AMD LTD TO CLD VIS AND WIND=", RT_TAF, "KOAJ", [false; false; false; false; false; false; false; false; false; false; false; false], 0%N);
  ("METAR KILM 131853Z AUTO 35019G30KT 5SM R35/6000VP6000FT -RA SCT031 BKN042 OVC065 27/23 A2971 RMK AO2 PK WND 34033/1755 RAB50 SLP060 P0000 T02720233=", RT_METAR, "KILM", [false; false; true; false; false; true; false; false; false; false; false; false], 0%N);
  ("TAF KILM 131720Z 1318/1418 36026G36KT 6SM -SHRA SCT012 OVC050 TEMPO 1319/1323 36035G46KT 1SM SHRA BKN020 FM132300 35040G55KT 3SM SHRA SCT010 OVC025 FM140200 36055G65KT 2SM +SHRA SCT008 OVC018 FM140700 36065G80KT 2SM +SHRA BKN010=", RT_TAF, "KILM", [false; false; false; false; false; false; false; false; false; false; false; false], 0%N);
  ("METAR RJBB 131930Z AUTO 04014KT 9999 R06R///// R24R/P2000N FEW007 BKN090 22/21 Q1016 NOSIG=", RT_METAR, "RJBB", [false; false; true; false; false; false; false; false; false; false; false; false], 0%N);
  ("TAF RJBB 131709Z 1318/1500 06009KT 9999 FEW010 SCT025 BKN035 BECMG 1412/1415 22009KT=", RT_TAF, "RJBB", [false; false; false; false; false; false; false; false; false; false; false; false], 0%N);
  ("SPECI RJFK 132146Z VRB01KT 9999 VCVA BCFG FEW005 BKN150 22/22 Q1016 RMK 1ST005 7AC150 A3001 4000N-NE ASH FALL VOLCANIC ASH CLOUD S-SW FG N-NE=", RT_METAR, "RJFK", [true; false; false; false; false; false; false; false; false; false; false; false], 0%N);
  ("TAF RJFK 131711Z 1318/1500 12006KT 9999 FEW010 SCT025 BECMG 1412/1415 04003KT=", RT_TAF, "RJFK", [false; false; false; false; false; false; false; false; false; false; false; false], 0%N);
  ("METAR RJFK 132200Z VRB02KT 9999 VCVA BCFG FEW005 SCT030 BKN150 22/22 Q1016=", RT_METAR, "RJFK", [false; false; false; false; false; false; false; false; false; false; false; false], 0%N);
  ("TAF AMD RJFK 132203Z 1322/1500 14007KT 9999 VA FEW010 SCT025 BECMG 1412/1415 0500S4KT=", RT_TAF, "RJFK", [false; false; false; false; false; false; false; false; false; true; false; false], 0%N);
  ("SPECI KNKT 132203Z AUTO 05039G55KT 2 1/2SM -RA SCT012 BKN019 OVC043 26/ A2956 RMK AO2 PK WND 04055/2200 P0001 T0261 $=", RT_METAR, "KNKT", [true; false; true; false; false; true; false; false; false; false; false; true], 0%N);
  ("TAF AMD KNKT 1315/1415 02028G48KT 2400 +RA BR SCT022 BKN028 OVC250 QNH2957INS BECMG 1316/1318 05035G60KT 1600 +TSRA BR BKN008CB OVC020 QNH2975INS T24/1321Z T28/1407Z AMD 1515=", RT_TAF, "KNKT", [false; false; false; false; false; false; false; false; false; true; false; false], 0%N);
  ("METAR KNKT 132354Z 03054G70KT +RA 25/25 A2946 RMK AO2 PK WND 04070/2347 RAE2214B2248B2253B47 SLP974 P0042 6//// T02500250 10267 20250 $=", RT_METAR, "KNKT", [false; false; false; false; false; true; false; false; false; false; false; true], 0%N);
  ("TAF AMD KNKT 1315/1415 02028G48KT 2400 +RA BR SCT022 BKN028 OVC250 QNH2957INS BECMG 1316/1318 05035G60KT 1600 +TSRA BR BKN008CB OVC020 QNH2975INS T24/1321Z T28/1407Z AMD 1515=", RT_TAF, "KNKT", [false; false; false; false; false; false; false; false; false; true; false; false], 0%N);
  ("METAR KNKT 140454Z 07037G58KT 3SM RA BR BKN015 BKN021 OVC026 26/26 A2939 RMK AO2 PK WND 05062/0357 SLP950 P0011 T02560256 402890244=", RT_METAR, "KNKT", [false; false; false; false; false; true; false; false; false; false; false; false], 0%N);
  ("TAF AMD KNKT 1315/1415 02028G48KT 2400 +RA BR SCT022 BKN028 OVC250 QNH2957INS BECMG 1316/1318 05035G60KT 1600 +TSRA BR BKN008CB OVC020 QNH2975INS T24/1321Z T28/1407Z AMD 1515=", RT_TAF, "KNKT", [false; false; false; false; false; false; false; false; false; true; false; false], 0%N);
  ("METAR KHSE 140451Z AUTO 12034G48KT 5SM -RA BR FEW120 27/25 A2976 RMK AO2 PK WND 12051/0440 SLP076 P0006 T02670250 402890239=", RT_METAR, "KHSE", [false; false; true; false; false; true; false; false; false; false; false; false], 0%N);
  ("SPECI KILM 140509Z AUTO 33029G44KT 2SM +RA BR OVC014 24/22 A2924 RMK AO2 PK WND 33044/0506 P0010 T02390222=", RT_METAR, "KILM", [true; false; true; false; false; true; false; false; false; false; false; false], 0%N);
  ("TAF KILM 132320Z 1400/1424 35034G50KT 3SM SHRA SCT010 OVC025 FM140400 36040G50KT 2SM +SHRA SCT008 OVC018 FM141000 36050G65KT 1SM +SHRA BKN010 FM141600 03054G65KT 1SM +SHRA OVC015=", RT_TAF, "KILM", [false; false; false; false; false; false; false; false; false; false; false; false], 0%N);
  ("SPECI K2DP 140516Z AUTO 10024G32KT 6SM -RA BKN014 OVC070 25/25 A2980 RMK AO2 CIG 014V070 SLPNO $=", RT_METAR, "K2DP", [true; false; true; false; false; true; false; false; false; false; false; true], 0%N);
  ("SPECI KNCA 140514Z AUTO 03039G64KT RA FEW013 BKN024 OVC033 25/23 A2921 RMK AO2 PK WND 04064/0509 PRESFR P0007 T02500233 $=", RT_METAR, "KNCA", [true; false; true; false; false; true; false; false; false; false; false; true], 0%N);
  ("SPECI KOAJ 140513Z AUTO 02028G40KT 6SM RA BR OVC013 24/23 A2938 RMK AO2 PK WND 02045/0457 PRESFR P0002=", RT_METAR, "KOAJ", [true; false; true; false; false; true; false; false; false; false; false; false], 0%N);
  ("KOAJ 140335Z 1404/1424 02035G50KT 3SM +SHRA BR OVC014 FM140900 04050G70KT 3SM +SHRA BR OVC003 FM141700 09045G60KT 2SM +SHRA BR OVC007 AMD LTD TO CLD VIS AND WIND=", RT_TAF, "KOAJ", [false; false; false; false; false; false; false; false; false; false; false; false], 0%N);
  ("METAR KISO 140525Z AUTO 02030G49KT 4SM +RA SCT016 BKN024 OVC034 24/24 A2960 RMK AO2 P0016 T02350235=", RT_METAR, "KISO", [false; false; true; false; false; true; false; false; false; false; false; false], 0%N);
  ("KISO 140336Z 1404/1424 03025G45KT P6SM SCT015 BKN030 OVC080 FM140700 05045G60KT 3SM +SHRA BR OVC007 FM141400 10042G55KT 2SM +SHRA BR OVC003 FM142200 10030G45KT 2SM +SHRA BR OVC007 AMD NOT SKED=", RT_TAF, "KISO", [false; false; false; false; false; false; false; false; false; false; false; false], 0%N);
  ("METAR KMRH 140958Z AUTO RMK AO2 SLPNO PWINO $=", RT_METAR, "KMRH", [false; false; true; false; false; true; false; false; false; false; false; true], 0%N);
  ("SPECI UKOO 141235Z 02002MPS 340V080 4200 -1004SE R34/////N -SHRA SCT012 SCT018CB 20/16 Q1013 R34/290052 NOSIG=", RT_METAR, "UKOO", [true; false; false; false; false; false; false; false; false; false; false; false], 0%N);
  ("TAF UKOO 141105Z 1412/1512 01005G11MPS 6000 BKN007 SCT020CB TX25/1412Z TN17/1503Z PROB40 TEMPO 1412/1418 VRB08G16MPS 1000 TSRAGR SQ BKN003 BKN015CB BECMG 1418/1419 2100 BR=", RT_TAF, "UKOO", [false; false; false; false; false; false; false; false; false; false; false; false], 0%N);
  ("METAR KNKT 142158Z 13030G40KT +RA 2 1/2SM FEW003 OVC005 24/24 A2967 RMK SLP048 P////=", RT_METAR, "KNKT", [false; false; false; false; false; false; false; false; false; false; false; false], 0%N);
  ("TAF AMD KNKT 1416/1515 09040G55KT 2000 +RA BR BKN006 OVC015 570001 590109 552009 552909 543802 QNH2957INS TEMPO 1415/1422 10050G70KT 1600 +RA BR BKN004 OVC010 FM142200 12060G75KT 2000 +RA BR FEW004 BKN009 OVC015 570001 590109 552009 552909 543802 QNH 2962INS FM150000 12045G58KT 2400 +RA BR BKN005 OVC009 570001 590109 552009 552909 543802 QNH2966INS BECMG 1507/1509 14038G55KT 3200 +RA BR FEW004 BKN006 OVC015 570001 590109 552009 552909 543802QNH2974INS T26/1415Z T24/1515Z LAST NO AMDS 1715 AMD 1544=", RT_TAF, "KNKT", [false; false; false; false; false; false; false; false; false; true; false; false], 0%N);
  ("SPECI KFAY 142223Z AUTO 03032G48KT 1 3/4SM RA BR OVC014 23/22 A2953 RMK AO2 PK WND 03057/2212 P0008 T02330217=", RT_METAR, "KFAY", [true; false; true; false; false; true; false; false; false; false; false; false], 0%N);
  ("KFAY 141906Z 1419/1518 03033G45KT 2SM SHRA OVC015 WS020/05065KT FM142100 05032G44KT 2SM SHRA OVC015 WS020/05065KT TEMPO 1421/1424 1SM +SHRA OVC007 FM150200 07031G42KT 1SM +SHRA OVC015 FM151200 10029G40KT 1SM SHRA OVC015 WS020/08055KT=", RT_TAF, "KFAY", [false; false; false; false; false; false; false; false; false; false; false; false], 0%N);
  ("SPECI KLBT 142117Z AUTO 02030G52KT 2SM RA BR OVC013 24/23 A2934 RMK AO2 PK WND 02052/2112 RAB2055 P0005 T02390228 $=", RT_METAR, "KLBT", [true; false; true; false; false; true; false; false; false; false; false; true], 0%N)].
Example real_data_2_passes : real_failures real_data_2 = []. Proof. vm_compute. reflexivity. Qed.
Definition real_data_3 : list real_row :=
 [("KLBT 141947Z 1420/1518 36033G46KT 2SM +RA BR BKN012 FM150600 07030G45KT 3SM SHRA BKN010 OVC020 FM150900 08025G40KT 6SM -SHRA OVC020=", RT_TAF, "KLBT", [false; false; false; false; false; false; false; false; false; false; false; false], 0%N);
  ("SPECI KMRH 142126Z AUTO VCTS RMK AO2 PWINO $=", RT_METAR, "KMRH", [true; false; true; false; false; true; false; false; false; false; false; true], 0%N);
  ("METAR KILM 142053Z AUTO A2929 RMK AO2 SLP920 6//// PWINO RVRNO PNO $=", RT_METAR, "KILM", [false; false; true; false; false; true; false; false; false; false; false; true], 0%N);
  ("TAF KILM 141720Z 1418/1518 10030G45KT 3SM RA BR OVC008 FM142100 14030G40KT 3SM SHRA OVC015=", RT_TAF, "KILM", [false; false; false; false; false; false; false; false; false; false; false; false], 0%N);
  ("SPECI KPOB 142229Z AUTO 07031G46KT 8SM -RA FEW020 BKN028 BKN038 OVC050 24/21 M RMK AO2 RAE08RAB28 CIG 025 RWY05 SLPNO $=", RT_METAR, "KPOB", [true; false; true; false; false; true; false; false; false; false; false; true], 0%N);
  ("TAF KPOB 141700Z 1417/1523 03030G40KT 4800 RA OVC020 530002 580204 QNH2954INS TEMPO 1417/1423 05040G55KT 1600 +RA OVC015 BECMG 1504/1505 05025G35KT 4800 RA OVC015 530002 550204 QNH2960INS=", RT_TAF, "KPOB", [false; false; false; false; false; false; false; false; false; false; false; false], 0%N);
  ("SPECI KMYR 142236Z AUTO 26031G43KT 2 1/2SM RA BR BKN010 OVC015 24/23 A2912 RMK AO2 PK WND 27048/2159 VIS 2V3 CIG 006V012 P0056=", RT_METAR, "KMYR", [true; false; true; false; false; true; false; false; false; false; false; false], 0%N);
  ("KMYR 141720Z 1418/1518 29023G38KT 2SM RA BR OVC013 FM142100 31030G45KT 1SM +SHRA OVC010 FM150600 17025G40KT 3SM SHRA OVC015=", RT_TAF, "KMYR", [false; false; false; false; false; false; false; false; false; false; false; false], 0%N);
  ("SPECI KCRE 142234Z AUTO 24025G34KT 2SM +RA BR BKN008 OVC013 24/24 A2890 RMK AO1 PK WND 24038/2214 P0026 T02440239=", RT_METAR, "KCRE", [true; false; true; true; false; false; false; false; false; false; false; false], 0%N);
  ("KCRE 141720Z 1418/1518 28023G44KT 1 1/2SM +RA BR BKN013 OVC020 FM142100 31030G45KT 1SM +SHRA OVC010 FM150600 17025G40KT 3SM SHRA OVC015=", RT_TAF, "KCRE", [false; false; false; false; false; false; false; false; false; false; false; false], 0%N);
  ("METAR KEDE 142225Z AUTO 10012G19KT 7SM DZ OVC021 28/26 A2992 RMK AO2 P0001 T02750257=", RT_METAR, "KEDE", [false; false; true; false; false; true; false; false; false; false; false; false], 0%N);
  ("SPECI KHSE 142223Z AUTO 13020G29KT 4SM -RA BR SCT024 BKN050 OVC120 28/26 A2990 RMK AO2 PK WND 13031/2157 P0004 T02780256=", RT_METAR, "KHSE", [true; false; true; false; false; true; false; false; false; false; false; false], 0%N);
  ("METAR KASJ 142230Z AUTO 05007KT 10SM RA SCT015 SCT060 BKN110 25/25 A2991 RMK AO2 P0002 T02450245=", RT_METAR, "KASJ", [false; false; true; false; false; true; false; false; false; false; false; false], 0%N);
  ("METAR KHYW 142215Z AUTO 29013G31KT 230V330 2SM +RA OVC011 23/23 A2914 RMK AO2 P0003=", RT_METAR, "KHYW", [false; false; true; false; false; true; false; false; false; false; false; false], 0%N);
  ("METAR KJZI 142235Z AUTO 26017G28KT 8SM +RA SCT047 SCT055 BKN100 29/22 A2963 RMK AO2=", RT_METAR, "KJZI", [false; false; true; false; false; true; false; false; false; false; false; false], 0%N);
  ("METAR KLRO 142215Z AUTO 28018G29KT 10SM OVC038 29/22 A2958 RMK AO2=", RT_METAR, "KLRO", [false; false; true; false; false; true; false; false; false; false; false; false], 0%N);
  ("METAR KCHS 142156Z AUTO 29017G27KT 10SM CLR 29/22 A2961 RMK AO2 PK WND 29031/2124 SLP026 T02890217=", RT_METAR, "KCHS", [false; false; true; false; false; true; false; false; false; false; false; false], 0%N);
  ("TAF KCHS 141723Z 1418/1518 30023G33KT P6SM VCSH OVC040 FM150100 29024G36KT 6SM SHRA SCT015 BKN025 FM150600 28026G38KT 4SM RA OVC015 FM151200 29025G35KT 2SM RA BR SCT010 OVC015=", RT_TAF, "KCHS", [false; false; false; false; false; false; false; false; false; false; false; false], 0%N);
  ("MRPV 142225Z VRB02KT 8000 2500SW PRFG BKN010 SCT025 20/18 A2997 NOSIG=", RT_METAR, "MRPV", [false; false; false; false; false; false; false; false; false; false; false; false], 0%N);
  ("MRPV 141700Z 1418/1518 11006KT CAVOK TX28/1418Z TN17/1510Z BECMG 1418/1421 29006KT TEMPO 1420/1424 5000 SHRA SCT010TCU PROB40 3000 TSRA FEW015CB FM150900 11005KT=", RT_TAF, "MRPV", [false; false; false; false; false; false; false; false; false; false; false; false], 0%N);
  ("SPECI COR RCFN 142242Z 35013G28KT 270V040 1000 R04/P2000 +SHRA FEW006 FEW012CB BKN015 OVC030 25/24 Q1005 NOSIG RMK CB E-SE A2970=", RT_METAR, "RCFN", [true; false; false; false; false; false; false; false; false; false; true; false], 0%N);
  ("TAF RCFN 141700Z 1418/1518 01012G22KT 9999 FEW015 BKN032 TEMPO 1422/1504 04025KT 4000 SHRA FEW012 BKN020 BECMG 1504/1506 03024KT TEMPO 1506/1512 06028G38KT 3000 SHRA FEW008 BKN015 TEMPO 1512/1518 09012KT 4000 SHRA FEW012 BKN020=", RT_TAF, "RCFN", [false; false; false; false; false; false; false; false; false; false; false; false], 0%N);
  ("METAR OAKN 142155Z 00000KT 6000 DU CLR 23/M08 A2980 RMK AO2A SLP032 Q1009 PA3416 DA5145=", RT_METAR, "OAKN", [false; false; false; false; false; false; true; false; false; false; false; false], 0%N);
  ("TAF AMD OAKN 142200Z 1422/1604 VRB03KT 5000 DU SKC QNH2979INS BECMG 1422/1423 VRB03KT 4400 DU SKC QNH2978INS BECMG 1423/1424 21005KT 4000 DU SKC QNH2983INS BECMG 1503/1504 19012KT 3200 DU SKC QNH2981INS BECMG 1508/1509 22005KT 5000 DU SKC QNH2979INS BECMG 1511/1512 VRB03KT 8000 DU SKC QNH2975INS BECMG 1519/1520 00000KT 9999 NSW SKC QNH2975INS TX34/1509Z TN18/1501Z=", RT_TAF, "OAKN", [false; false; false; false; false; false; false; false; false; true; false; false], 0%N);
  ("METAR LPMR 142200Z 29003KT 5000 BR OVC003 17/16 Q1018=", RT_METAR, "LPMR", [false; false; false; false; false; false; false; false; false; false; false; false], 0%N);
  ("TAF LPMR 141703Z 1418/1518 33005KT 8000 BKN006 PROB40 1418/1423 VRB02KT 4000 BR BKN004 PROB40 1423/1512 0200 FG BKN002 BECMG 1510/1512 27005KT FEW008 PROB30 1510/1518 BKN008=", RT_TAF, "LPMR", [false; false; false; false; false; false; false; false; false; false; false; false], 0%N);
  ("METAR ENSL 142250Z AUTO 29020KT 9999NDV -SHRA BKN043/// 11/08 Q1010 W10/S4=", RT_METAR, "ENSL", [false; false; true; false; false; false; false; false; false; false; false; false], 0%N);
  ("TAF ENSL 142000Z NIL=", RT_TAF, "ENSL", [false; false; false; false; false; false; false; true; false; false; false; false], 0%N);
  ("METAR ESSD 142250Z AUTO 20010KT 9999 DZ SCT017/// BKN024/// 12/11 Q1006=", RT_METAR, "ESSD", [false; false; true; false; false; false; false; false; false; false; false; false], 0%N);
  ("TAF ESSD 142000Z NIL=", RT_TAF, "ESSD", [false; false; false; false; false; false; false; true; false; false; false; false], 0%N);
  ("ESNU 142250Z 32002KT 0800 R14/P1500N R32/P1500N BCFG NSC 02/02 Q1005=", RT_METAR, "ESNU", [false; false; false; false; false; false; false; false; false; false; false; false], 0%N);
  ("TAF AMD ESNU 142149Z 1421/1506 VRB02KT CAVOK PROB40 1421/1505 0200 FG VV002 PROB40 1505/1506 RA=", RT_TAF, "ESNU", [false; false; false; false; false; false; false; false; false; true; false; false], 0%N);
  ("METAR ESNS 142250Z AUTO 25003KT 0700 R10/P1500N R28/P1500N FG NCD 03/03 Q1005=", RT_METAR, "ESNS", [false; false; true; false; false; false; false; false; false; false; false; false], 0%N);
  ("TAF ESNS 142000Z NIL=", RT_TAF, "ESNS", [false; false; false; false; false; false; false; true; false; false; false; false], 0%N);
  ("METAR EFRO 142250Z AUTO 17005KT 1700 BCFG FEW001 SCT003 06/06 Q1004=", RT_METAR, "EFRO", [false; false; true; false; false; false; false; false; false; false; false; false], 0%N);
  ("TAF AMD EFRO 142223Z 1422/1521 19005KT 0350 FG VV001 TEMPO 1422/1503 0100 SCT001 TEMPO 1503/1507 0100 VV002 BECMG 1507/1509 9999 NSW BKN005 BECMG 1509/1511 BKN015 BECMG 1513/1515 RA BECMG 1515/1517 15010KT 5000 BKN004 SCT020CB BECMG 1519/1521 21017KT NSW BKN002=", RT_TAF, "EFRO", [false; false; false; false; false; false; false; false; false; true; false; false], 0%N);
  ("METAR ENRA 142120Z VRB01KT 9999 VCFG FEW005 SCT028 BKN045 06/06 Q1001=", RT_METAR, "ENRA", [false; false; false; false; false; false; false; false; false; false; false; false], 0%N);
  ("TAF ENRA 142000Z NIL=", RT_TAF, "ENRA", [false; false; false; false; false; false; false; true; false; false; false; false], 0%N);
  ("METAR EKYT 142250Z AUTO 22010KT 9999NDV -SHRA FEW013/// BKN065/// BKN100/// 13/12 Q1011 RESHRA=", RT_METAR, "EKYT", [false; false; true; false; false; false; false; false; false; false; false; false], 0%N);
  ("TAF EKYT 142021Z 1421/1518 23010KT 9999 SCT025 SCT070 BECMG 1421/1423 20012G22KT 4000 RA BKN010 SCT020CB BECMG 1423/1502 25012KT 9999 NSW SCT020 TEMPO 1502/1512 6000 SHRA SCT020CB=", RT_TAF, "EKYT", [false; false; false; false; false; false; false; false; false; false; false; false], 0%N);
  ("METAR UKLL 142230Z VRB01MPS 2500 1100SE R31/1900 BR BKN010 17/16 Q1018 R31/290055 NOSIG=", RT_METAR, "UKLL", [false; false; false; false; false; false; false; false; false; false; false; false], 0%N);
  ("TAF UKLL 141702Z 1418/1518 VRB01MPS 2100 BR BKN007 SCT025CB TEMPO 1418/1421 1100 -TSRAGR BR BKN003 BKN020CB TEMPO 1421/1506 0400 -SHRA FG BKN002 BKN020CB BECMG 1506/1508 27004MPS 9999 NSW SCT030 TEMPO 1509/1518 2100 -TSRAGR BKN007 BKN030CB=", RT_TAF, "UKLL", [false; false; false; false; false; false; false; false; false; false; false; false], 0%N);
  ("METAR PACD 142253Z 14026G36KT 4SM -RA BR OVC003 14/13 A2987 RMK AO2 PK WND 14039/2212 RAB06 SLP115 P0000 T01390133=", RT_METAR, "PACD", [false; false; false; false; false; true; false; false; false; false; false; false], 0%N);
  ("PACD 142101Z 1421/1518 14020G34KT 1SM BR VV002 TEMPO 1421/1501 4SM -SHRA BR SCT004 BKN007 FM150200 16018G28KT P6SM VCSH SCT007 OVC015 FM150600 17018KT P6SM VCSH BKN025 FM151200 21014KT 4SM -RA BR OVC015 FM151600 27012KT 5SM BR OVC025=", RT_TAF, "PACD", [false; false; false; false; false; false; false; false; false; false; false; false], 0%N);
  ("METAR KMYR 150856Z AUTO 16023G30KT 5SM -RA BR OVC008 24/23 A2933 RMK AO2 PK WND 17031/0841 CIG 006V012 SLP931 P0001 60004 T02390233 51026=", RT_METAR, "KMYR", [false; false; true; false; false; true; false; false; false; false; false; false], 0%N);
  ("KMYR 150607Z 1506/1606 17022G38KT 6SM -SHRA BKN008 OVC018 FM151400 16020G35KT 2SM +SHRA BKN008 OVC018 FM160400 16016G29KT 6SM -SHRA BKN020 OVC070=", RT_TAF, "KMYR", [false; false; false; false; false; false; false; false; false; false; false; false], 0%N);
  ("SPECI KDAN 150901Z AUTO 05015G20KT 4SM +RA BR BKN009 BKN015 OVC020 22/22 A2995 RMK AO2 RAB0854 CIG 006V011 P0004 T02220217=", RT_METAR, "KDAN", [true; false; true; false; false; true; false; false; false; false; false; false], 0%N);
  ("TAF KDAN 150535Z 1506/1606 05014G24KT P6SM VCSH OVC013 TEMPO 1508/1510 2SM SHRA OVC004 FM151000 05014G30KT 3SM -SHRA BR OVC008 TEMPO 1510/1513 1SM SHRA BR SCT008 OVC012 FM151800 06013G22KT 2SM SHRA BR OVC015 FM160000 06012G30KT 2SM -SHRA BR SCT009 OVC015=", RT_TAF, "KDAN", [false; false; false; false; false; false; false; false; false; false; false; false], 0%N);
  ("SPECI KCRW 150921Z 01003KT 1/2SM FG VV001 21/21 A3007 RMK AO2 T02060206 RVRNO $=", RT_METAR, "KCRW", [true; false; false; false; false; true; false; false; false; false; false; true], 0%N);
  ("KCRW 150914Z 1509/1606 00000KT 1SM BR VV001 FM151000 00000KT 1/2SM FG OVC002 FM151330 VRB03KT P6SM BKN015 FM151800 08008KT P6SM VCTS SCT035CB OVC050 FM152300 07006KT P6SM BKN080=", RT_TAF, "KCRW", [false; false; false; false; false; false; false; false; false; false; false; false], 0%N);
  ("SPECI KMKG 150941Z 00000KT 1/2SM R32/4500VP6000FT FG FEW003 14/13 A3017 RMK AO2 T01390128 $=", RT_METAR, "KMKG", [true; false; false; false; false; true; false; false; false; false; false; true], 0%N);
  ("TAF KMKG 150540Z 1506/1606 00000KT P6SM SKC TEMPO 1506/1509 3SM BR FM150900 00000KT 3SM BR SKC TEMPO 1509/1512 1SM BR FM151300 33006KT P6SM SCT035 FM160000 VRB03KT 6SM HZ BR SKC FM160500 07004KT 4SM BR SKC=", RT_TAF, "KMKG", [false; false; false; false; false; false; false; false; false; false; false; false], 0%N);
  ("METAR CYQT 150900Z 35008G15KT 320V060 5SM -RA BKN013 OVC027 16/15 A3019 RMK SC6SC2 PRESFR SLP226 DENSITY ALT 700FT=", RT_METAR, "CYQT", [false; false; false; false; false; false; false; false; false; false; false; false], 0%N);
  ("TAF AMD CYQT 150759Z 1508/1520 08005KT 6SM -SHRA BR BKN025 OVC040 TEMPO 1508/1510 1SM +TSRA BR BKN008 OVC025CB FM151000 08008KT 6SM -SHRA BR OVC025 TEMPO 1510/1512 2SM SHRA BR BKN006 OVC025 PROB30 1510/1512 1SM +TSRA BR BKN004 OVC025CB FM151200 05010KT 2SM -RA -DZ BR OVC004 TEMPO 1512/1514 6SM -RA BR OVC010 BECMG 1512/1514 05010G20KT FM151600 05010G20KT 4SM -RA -DZ BR BKN008 OVC015 TEMPO 1516/1520 6SM BR SCT008 BKN015 RMK NXT FCST BY 151400Z=", RT_TAF, "CYQT", [false; false; false; false; false; false; false; false; false; true; false; false], 0%N);
  ("METAR DAUT 152100Z 06028KT 1000 BLSA FEW040TCU SCT046 33/11 Q1014 RETS=", RT_METAR, "DAUT", [false; false; false; false; false; false; false; false; false; false; false; false], 0%N);
  ("TAF DAUT 152000Z 1521/1606 32012KT 6000 SCT046 TEMPO 1521/1523 3000 HZ FEW040CB=", RT_TAF, "DAUT", [false; false; false; false; false; false; false; false; false; false; false; false], 0%N);
  ("METAR UKLL 152130Z 29002MPS 7000 OVC015 14/13 Q1022 R31/CLRD// NOSIG=", RT_METAR, "UKLL", [false; false; false; false; false; false; false; false; false; false; false; false], 0%N);
  ("TAF UKLL 151720Z 1518/1618 30003MPS 3000 BR BKN007 TEMPO 1518/1606 0400 -SHRA FG BKN002 BKN020CB BECMG 1606/1607 9999 NSW BKN015=", RT_TAF, "UKLL", [false; false; false; false; false; false; false; false; false; false; false; false], 0%N);
  ("METAR VNKT 152150Z 12003KT 6000 FEW010 FEW025CB SCT030 BKN100 20/19 Q1014 NOSIG CB TO SE S AND SW=", RT_METAR, "VNKT", [false; false; false; false; false; false; false; false; false; false; false; false], 0%N);
  ("TAF VNKT 151700Z 1518/1618 VRB03KT 6000 FEW008 SCT030 BKN100 PROB40 1518/1523 VRB10KT 3000 -TSRA/RA FEW025CB BECMG 1600/1602 VRB02KT 5000 BR FEW008 SCT030 BECMG 1604/1605 12003KT 7000 FEW010 SCT025 BKN100 BECMG 1608/1609 21010KT 8000 FEW015 SCT030 BKN100 PROB30 1608/1612 VRB08KT 6000 -RA FEW025CB BECMG 1614/1615 VRB03KT 6000 FEW010 SCT100=", RT_TAF, "VNKT", [false; false; false; false; false; false; false; false; false; false; false; false], 0%N);
  ("METAR ZGOW 152200Z 07012G18MPS 4000 -SHRA SCT017 FEW030CB BKN040 27/25 Q0999 BECMG 2100 SHRA=", RT_METAR, "ZGOW", [false; false; false; false; false; false; false; false; false; false; false; false], 0%N);
  ("TAF ZGOW 151502Z 1518/1618 08010G17MPS 6000 BKN050 TX30/1606Z TN24/1522Z BECMG 1603/1604 14008G15MPS TEMPO 1518/1522 2100 SHRA SCT015 SCT026CB BKN033 TEMPO 1523/1603 12015G20MPS 1200 +SHRA SCT012 SCT026CB BKN030=", RT_TAF, "ZGOW", [false; false; false; false; false; false; false; false; false; false; false; false], 0%N);
  ("METAR VTSG 152100Z 27007KT 7000 VCSH SCT018 SCT020 BKN100 25/23 Q1006 TEMPO FM2200 TL2215 3000 +RA=", RT_METAR, "VTSG", [false; false; false; false; false; false; false; false; false; false; false; false], 0%N);
  ("TAF VTSG 151700Z 1518/1618 28010KT 8000 SCT020 BKN100 TEMPO 1518/1524 30015G35KT 5000 RA FEW018TCU SCT020 BKN100=", RT_TAF, "VTSG", [false; false; false; false; false; false; false; false; false; false; false; false], 0%N);
  ("METAR WAOO 152200Z AUTO 30001KT 1200 R10/P2000N R28/P2000N BR ////// 22/21 Q1008=", RT_METAR, "WAOO", [false; false; true; false; false; false; false; false; false; false; false; false], 0%N);
  ("TAF WAOO 151700Z 1518/1618 00000KT 8000 FEW020 TEMPO 1520/1524 1000 FU BECMG 1600/1602 15007KT 9999 SCT018=", RT_TAF, "WAOO", [false; false; false; false; false; false; false; false; false; false; false; false], 0%N);
  ("METAR RJFK 152200Z 31002KT 9999 VCFG FEW020 23/23 Q1016=", RT_METAR, "RJFK", [false; false; false; false; false; false; false; false; false; false; false; false], 0%N);
  ("TAF RJFK 151706Z 1518/1700 29007KT 9999 FEW025=", RT_TAF, "RJFK", [false; false; false; false; false; false; false; false; false; false; false; false], 0%N);
  ("METAR RJOB 152200Z 24004KT 8000 PRFG FEW000 BKN050 22/22 Q1014=", RT_METAR, "RJOB", [false; false; false; false; false; false; false; false; false; false; false; false], 0%N);
  ("TAF RJOB 151705Z 1518/1700 23005KT 9999 FEW015 SCT025=", RT_TAF, "RJOB", [false; false; false; false; false; false; false; false; false; false; false; false], 0%N);
  ("METAR RJOA 152200Z VRB01KT 2000 R10/P1800N BCFG BR FEW000 SCT002 BKN008 22/21 Q1016=", RT_METAR, "RJOA", [false; false; false; false; false; false; false; false; false; false; false; false], 0%N);
  ("TAF AMD RJOA 152208Z 1522/1700 24005KT 9999 FEW015 SCT025 TEMPO 1522/1600 3000 BR BCFG FEW000 SCT003 BKN008=", RT_TAF, "RJOA", [false; false; false; false; false; false; false; false; false; true; false; false], 0%N);
  ("METAR RJCK 152200Z 01002KT 0300 R17/0250V0450N +DZ VV001 16/16 Q1014=", RT_METAR, "RJCK", [false; false; false; false; false; false; false; false; false; false; false; false], 0%N);
  ("TAF RJCK 151712Z 1518/1700 36004KT 7000 FEW003 BKN015 TEMPO 1518/1600 0700 FG VV001 BECMG 1522/1600 19009KT TEMPO 1600/1604 1500 BR FEW001 BKN003 TEMPO 1604/1615 0500 FG VV001=", RT_TAF, "RJCK", [false; false; false; false; false; false; false; false; false; false; false; false], 0%N);
  ("METAR GOOG 152200Z 00000KT DU NSC 30/24 Q////=", RT_METAR, "GOOG", [false; false; false; false; false; false; false; false; false; false; false; false], 0%N);
  ("METAR UKKK 152200Z 33004MPS 310V010 9999 SCT013 19/17 Q1015 R26/CLRD70 TEMPO 31010G17MPS 2100 -TSRA SQ BKN007 BKN015CB=", RT_METAR, "UKKK", [false; false; false; false; false; false; false; false; false; false; false; false], 0%N);
  ("METAR LPPR 152200Z 33003KT 0550 0500S R17/0500 FG VV001 15/15 Q1020=", RT_METAR, "LPPR", [false; false; false; false; false; false; false; false; false; false; false; false], 0%N);
  ("TAF LPPR 151700Z 1518/1618 30005KT 5000 BR SCT002 BKN005 TEMPO 1518/1610 0200 FG VV001 BECMG 1518/1520 VRB03KT=", RT_TAF, "LPPR", [false; false; false; false; false; false; false; false; false; false; false; false], 0%N);
  ("METAR SAWH 150200Z 23033G49KT 9999 RA SCT015 BKN025 02/01 Q0984=", RT_METAR, "SAWH", [false; false; false; false; false; false; false; false; false; false; false; false], 0%N);
  ("TAF SAWH 142300Z 1500/1524 25020G30KT 5000 SNRA BKN015 BKN020 TX04/1519Z TN00/1510Z TEMPO 1501/1506 24025G35KT 1000 +SNSH OVC010 BECMG 1512/1514 26025KT BKN023 SCT040 BECMG 1517/1519 27012KT BKN025=", RT_TAF, "SAWH", [false; false; false; false; false; false; false; false; false; false; false; false], 0%N);
  ("METAR LRSM 152200Z AUTO 35007KT 9999 +RA SCT080/// BKN100/// 18/14 Q1020=", RT_METAR, "LRSM", [false; false; true; false; false; false; false; false; false; false; false; false], 0%N);
  ("TAF LRSM 151400Z 1515/1524 23008KT 9999 SCT040 TEMPO 1515/1517 VRB15G25KT 3000 TSRA SCT010 SCT040CB=", RT_TAF, "LRSM", [false; false; false; false; false; false; false; false; false; false; false; false], 0%N);
  ("METAR CYAB 152200Z 25008KT 10SM -SHSN VCFG FEW005 SCT016 OVC023 M02/M04 A2994 RMK ST2SC2SC4 -0.3/-1.5/0.1/LAST STFD OBS/NEXT 171100Z VIS E SE 5 BR CIG ESTD SLP141=", RT_METAR, "CYAB", [false; false; false; false; false; false; false; false; false; false; false; false], 0%N);
  ("TAF CYAB 151838Z 1519/1522 23012KT P6SM SCT015 SCT025 OVC040 TEMPO 1519/1522 P6SM -SN BKN015 OVC040 RMK NXT FCST WILL BE ISSUED AT 171245Z=", RT_TAF, "CYAB", [false; false; false; false; false; false; false; false; false; false; false; false], 0%N);
  ("METAR EPKT 152230Z VRB01KT 8000 MIFG NSC 08/07 Q1024=", RT_METAR, "EPKT", [false; false; false; false; false; false; false; false; false; false; false; false], 0%N);
  ("TAF EPKT 151730Z 1518/1618 27006KT CAVOK TEMPO 1600/1606 3000 BR PROB30 TEMPO 1600/1606 0500 FG OVC002=", RT_TAF, "EPKT", [false; false; false; false; false; false; false; false; false; false; false; false], 0%N);
  ("METAR EDDT 152220Z 26002KT 9999 BCFG MIFG NSC 11/10 Q1024=", RT_METAR, "EDDT", [false; false; false; false; false; false; false; false; false; false; false; false], 0%N);
  ("TAF EDDT 151700Z 1518/1618 28008KT CAVOK BECMG 1518/1520 VRB02KT BECMG 1608/1610 23007KT=", RT_TAF, "EDDT", [false; false; false; false; false; false; false; false; false; false; false; false], 0%N);
  ("METAR URWW 152230Z 13005MPS CAVOK 20/03 Q1013 R06/010070 TEMPO -TSRAGR SCT040CB=", RT_METAR, "URWW", [false; false; false; false; false; false; false; false; false; false; false; false], 0%N);
  ("TAF URWW 151957Z 1521/1606 13007G13MPS 9999 BKN040CB BKN100 TEMPO 1521/1606 VRB09G16MPS 3100 -TSRAGR=", RT_TAF, "URWW", [false; false; false; false; false; false; false; false; false; false; false; false], 0%N);
  ("SPECI CYZY 152231Z AUTO 07014G25KT 010V110 9SM -RA -UP SCT033 OVC050 04/M04 A3002 RMK SLP193=", RT_METAR, "CYZY", [true; false; true; false; false; false; false; false; false; false; false; false], 0%N);
  ("TAF CYZY 151838Z 1519/1607 07015G25KT P6SM SCT060 TEMPO 1519/1520 BKN060 FM152000 07015G25KT P6SM OVC050 TEMPO 1520/1604 VRB15G30KT P6SM -SHRA FM160400 03010G20KT P6SM OVC050 TEMPO 1604/1607 VRB15G25KT 3SM -SHSNRA BR RMK FCST BASED ON AUTO OBS. NXT FCST BY 160100Z=", RT_TAF, "CYZY", [false; false; false; false; false; false; false; false; false; false; false; false], 0%N);
  ("METAR ENKB 152150Z AUTO 23014KT 9999 BKN025/// OVC035/// 10/07 Q1010 RESHUP RERA RMK WIND 745FT 25029G41KT=", RT_METAR, "ENKB", [false; false; true; false; false; false; false; false; false; false; false; false], 0%N);
  ("TAF ENKB 152000Z NIL=", RT_TAF, "ENKB", [false; false; false; false; false; false; false; true; false; false; false; false], 0%N);
  ("METAR MGGT 152300Z 18004KT 9999 TS FEW020TCU FEW025CB BKN090 24/17 Q1021 A3015 FEW200 CB/TS/PCPN SE/SSE/S CB WSW/W TCU N/NNW=", RT_METAR, "MGGT", [false; false; false; false; false; false; false; false; false; false; false; false], 0%N);
  ("MGGT 152300Z 1600/1624 36008KT 9999 SCT016 TX26/1620Z TN14/1612Z TEMPO 1600/1606 7000 TSRA FEW025CB PROB30 1606/1612 5000 BR BKN010 BECMG 1615/1617 SCT018 TEMPO 1621/1624 18008KT 7000 TSRA SCT20TCU FEW025CB=", RT_TAF, "MGGT", [false; false; false; false; false; false; false; false; false; false; false; false], 0%N);
  ("SPECI CYHM 160907Z 08003KT 1SM R12/P6000FT/U BR SKC 18/18 A3020 RMK FG3 VIS NE 7 SLP226 DENSITY ALT 1100FT=", RT_METAR, "CYHM", [true; false; false; false; false; false; false; false; false; false; false; false], 0%N);
  ("TAF CYHM 160538Z 1606/1706 VRB03KT P6SM FEW250 PROB30 1608/1612 1/2SM FG VV002 FM161500 07005KT P6SM FEW030 BECMG 1704/1706 18005KT RMK NXT FCST BY 161200Z=", RT_TAF, "CYHM", [false; false; false; false; false; false; false; false; false; false; false; false], 0%N);
  ("METAR RJAH 162100Z 04002KT 2400 BR MIFG FEW005 SCT250 20/20 Q1010=", RT_METAR, "RJAH", [false; false; false; false; false; false; false; false; false; false; false; false], 0%N);
  ("TAF RJAH 161708Z 1618/1800 20005KT 8000 FEW010 BKN020 TEMPO 1618/1623 4000 BR FEW005 BKN008 BECMG 1619/1621 01006KT BECMG 1703/1705 07010KT BECMG 1709/1712 13004KT=", RT_TAF, "RJAH", [false; false; false; false; false; false; false; false; false; false; false; false], 0%N);
  ("METAR RJFK 162100Z 31006KT 9999 VCFG FEW010 21/21 Q1017 RMK 1CU010 A3003 FG N-E VOLCANIC ASH CLOUD S=", RT_METAR, "RJFK", [false; false; false; false; false; false; false; false; false; false; false; false], 0%N);
  ("TAF RJFK 161706Z 1618/1800 34005KT 9999 FEW030=", RT_TAF, "RJFK", [false; false; false; false; false; false; false; false; false; false; false; false], 0%N);
  ("METAR RJCC 162130Z VRB01KT 0500 R19R/0800VP2000U R19L/P2000N FG VV001 19/18 Q1008=", RT_METAR, "RJCC", [false; false; false; false; false; false; false; false; false; false; false; false], 0%N);
  ("TAF AMD RJCC 162147Z 1621/1800 19003KT 0700 FG VV001 BECMG 1622/1700 35008KT 9999 NSW FEW015 SCT025 TEMPO 1704/1706 FEW008 BKN025 FEW025CB BECMG 1709/1712 24005KT=", RT_TAF, "RJCC", [false; false; false; false; false; false; false; false; false; true; false; false], 0%N);
  ("SPECI CYUS 162147Z AUTO VRB13G28KT ////SM //// FEW009 BKN015 OVC065 M01/M02 A2987=", RT_METAR, "CYUS", [true; false; true; false; false; false; false; false; false; false; false; false], 0%N);
  ("SPECI CYHK 162130Z 27011KT 4SM -SHSN FEW012 BKN020 OVC030 OVC035 M01/M02 A2990 RMK SN1SC1SC4SC2SC1 SC TR SLP131=", RT_METAR, "CYHK", [true; false; false; false; false; false; false; false; false; false; false; false], 0%N);
  ("TAF CYHK 161738Z 1618/1706 28018G28KT P6SM -SN SCT012 BKN050 TEMPO 1618/1621 1SM -SN BR OVC008 FM162100 28015G25KT P6SM SCT012 OVC030 TEMPO 1621/1703 3SM -SN OVC012 BECMG 1701/1703 24015G25KT FM170300 24015G25KT 1SM -SN BR VV004 TEMPO 1703/1706 6SM -SN SCT004 OVC012 RMK NXT FCST BY 170000Z=", RT_TAF, "CYHK", [false; false; false; false; false; false; false; false; false; false; false; false], 0%N);
  ("METAR EFMI 162150Z AUTO 27001KT 0500 BCFG SCT032 04/04 Q1011=", RT_METAR, "EFMI", [false; false; true; false; false; false; false; false; false; false; false; false], 0%N);
  ("TAF EFMI 162000Z NIL=", RT_TAF, "EFMI", [false; false; false; false; false; false; false; true; false; false; false; false], 0%N);
  ("METAR EHDV 162155Z AUTO 26011KT 160V330 9999 DZ FEW023/// BKN027/// BKN033/// 17/15 Q1015 W///H///=", RT_METAR, "EHDV", [false; false; true; false; false; false; false; false; false; false; false; false], 0%N);
  ("METAR CYSY NIL=", RT_METAR, "CYSY", [false; false; false; false; false; false; false; true; false; false; false; false], 0%N);
  ("METAR KMNI 171315Z AUTO 18005KT 3/4SM BR OVC008 23/22 A2997 RMK AO2 VIS 1/2V1 3/4=", RT_METAR, "KMNI", [false; false; true; false; false; true; false; false; false; false; false; false], 0%N);
  ("METAR KMWN 171249Z 28023KT 1/16SM FG VV001 12/12 RMK=", RT_METAR, "KMWN", [false; false; false; false; false; false; false; false; false; false; false; false], 0%N);
  ("METAR KDSM 171254Z 19004KT 10SM FEW070 BKN085 22/19 A2996 RMK AO2 SLP136 MDT CU W-NW T02220189=", RT_METAR, "KDSM", [false; false; false; false; false; true; false; false; false; false; false; false], 0%N);
  ("TAF KDSM 171120Z 1712/1812 20005KT P6SM BKN080 FM171500 23008KT P6SM FEW050 SCT150 FM180000 17005KT P6SM SCT100 BKN250=", RT_TAF, "KDSM", [false; false; false; false; false; false; false; false; false; false; false; false], 0%N);
  ("SPECI MMMM 171315Z 00000KT 5SM VCFG SCT008 BKN080 BKN230 15/15 A3023 RMK 8/578 HZY=", RT_METAR, "MMMM", [true; false; false; false; false; false; false; false; false; false; false; false], 0%N);
  ("TAF AMD MMMM 171214Z 1712/1818 00000KT 5SM BR BKN025 TEMPO 1713/1715 1/2SM FG VV003 FM171600 00000KT P6SM BKN020 FM172200 20010KT 5SM VC TSRA BKN020CB TEMPO 1723/1801 2SM TSRA OVC015CB FM180300 00000KT P6SM SCT020 BKN080 TEMPO 1812/1816 2SM BR BKN010=", RT_TAF, "MMMM", [false; false; false; false; false; false; false; false; false; true; false; false], 0%N);
  ("METAR MMLM 171307Z RTD 20008KT 5SM -RA BKN020 OVC070 23/20 A2984 RMK 60479 8/52/ OCNL LTGICC RTS=", RT_METAR, "MMLM", [false; false; false; false; false; false; false; false; false; false; false; false], 0%N);
  ("TAF AMD MMLM 170825Z 1708/1806 24008KT P6SM SCT020CB BKN080 TEMPO 1708/1711 5SM TSRA BKN015CB FM171100 24005KT P6SM SCT020 BKN250 FM171800 26015KT P6SM SCT030 FM180200 24005KT P6SM SCT100=", RT_TAF, "MMLM", [false; false; false; false; false; false; false; false; false; true; false; false], 0%N);
  ("METAR CYLT 171300Z 33003KT 15SM FEW012 M16/M17 A3002 RMK ST1 FROIN FZFG OVR WTR SLP171=", RT_METAR, "CYLT", [false; false; false; false; false; false; false; false; false; false; false; false], 0%N);
  ("TAF CYLT 171130Z 1712/1724 28005KT P6SM FEW100 FM171500 31008KT P6SM FEW002 SCT012 TEMPO 1717/1724 5SM -SN BR SCT002 BKN012 PROB40 1717/1724 1/2SM FZFG VV002 RMK NXT FCST BY 171800Z=", RT_TAF, "CYLT", [false; false; false; false; false; false; false; false; false; false; false; false], 0%N);
  ("SPECI CYQK 171310Z 36005KT 2SM -DZ BR OVC002 05/05 A3005 RMK ST8 CIG RAG PRESRR SLP183=", RT_METAR, "CYQK", [true; false; false; false; false; false; false; false; false; false; false; false], 0%N);
  ("TAF CYQK 170738Z 1708/1720 32010G20KT 2SM -DZ BR OVC004 TEMPO 1708/1715 6SM BR SCT004 OVC012 PROB40 1708/1714 OVC003 FM171500 34008KT P6SM BKN008 OVC015 FM171800 04010KT P6SM BKN015 RMK NXT FCST BY 171400Z=", RT_TAF, "CYQK", [false; false; false; false; false; false; false; false; false; false; false; false], 0%N);
  ("METAR KMBG 171252Z AUTO 00000KT 10SM OVC009 11/09 A2999 RMK AO2 PK WND 05031/1202 WSHFT 1144 LTG DSNT S RAE07 TSE08 SLP150 P0019 T01060094 $=", RT_METAR, "KMBG", [false; false; true; false; false; true; false; false; false; false; false; true], 0%N);
  ("KMBG 171159Z 1712/1812 08017G26KT 3SM +TSRA VCTS SCT009 BKN029CB TEMPO 1712/1713 BKN012CB FM171300 06010KT P6SM VCSH OVC020 FM171600 07010KT P6SM BKN070=", RT_TAF, "KMBG", [false; false; false; false; false; false; false; false; false; false; false; false], 0%N);
  ("METAR ENSL 171450Z 17023KT CAVOK 13/12 Q1007 W11/S3=", RT_METAR, "ENSL", [false; false; false; false; false; false; false; false; false; false; false; false], 0%N);
  ("TAF ENSL 171400Z NIL=", RT_TAF, "ENSL", [false; false; false; false; false; false; false; true; false; false; false; false], 0%N);
  ("METAR CYSY 171900Z 34029G36KT 10SM DRSN BKN004 M09/M11 A3012 RMK ST7 SLP210=", RT_METAR, "CYSY", [false; false; false; false; false; false; false; false; false; false; false; false], 0%N);
  ("TAF CYSY 171838Z 1719/1723 34028KT P6SM OVC008 TEMPO 1719/1722 3SM -SN -FZDZ BR BKN005 OVC020 FM172200 36025G35KT P6SM FEW005 OVC010 TEMPO 1722/1723 2SM -SN BR BKN008 RMK NXT FCST WILL BE ISSUED AT 181445Z=", RT_TAF, "CYSY", [false; false; false; false; false; false; false; false; false; false; false; false], 0%N);
  ("SPECI CYPC 171912Z 32018KT 10SM -FZRA SCT005 BKN011 M05/M07 A3017 RMK ST4SC3 SLP220=", RT_METAR, "CYPC", [true; false; false; false; false; false; false; false; false; false; false; false], 0%N);
  ("TAF CYPC 171838Z 1719/1723 33015KT P6SM SCT006 BKN015 TEMPO 1719/1723 3SM -SN BR BKN008 OVC012 PROB30 1719/1723 2SM -FZDZ BR OVC006 RMK NXT FCST WILL BE ISSUED AT 181445Z=", RT_TAF, "CYPC", [false; false; false; false; false; false; false; false; false; false; false; false], 0%N);
  ("METAR CYHI 171900Z CCA 34019KT 10SM -SN DRSN VCSH VCFG FEW011 BKN030 BKN040 BKN060 BKN150 M05/M09 A2994 RMK SC1ST4SC1SC1AC1 SC TR AC TR CIG RAG VIS SW 15 SLP144=", RT_METAR, "CYHI", [false; false; false; false; false; false; false; false; false; false; true; false], 1%N);
  ("TAF CYHI 171838Z 1719/1724 34022G32KT P6SM -SN FEW012 BKN030 TEMPO 1719/1724 2SM -SN BLSN BR OVC012 RMK NXT FCST WILL BE ISSUED AT 181545Z=", RT_TAF, "CYHI", [false; false; false; false; false; false; false; false; false; false; false; false], 0%N);
  ("METAR PABA 171852Z AUTO 09019KT 6SM BR OVC007 M02/M03 A3027 RMK AO2 PK WND 09028/1827 SNB26E37 SLP236 P0000 T10171028 FZRANO TSNO=", RT_METAR, "PABA", [false; false; true; false; false; true; false; false; false; false; false; false], 0%N);
  ("SPECI CYBB 171940Z 22016KT 5/8SM SN OVC007 00/M01 A2977 RMK SN6ST2 SLP084=", RT_METAR, "CYBB", [true; false; false; false; false; false; false; false; false; false; false; false], 0%N);
  ("TAF CYBB 171842Z 1719/1723 22015G25KT 1SM -SN OVC008=", RT_TAF, "CYBB", [false; false; false; false; false; false; false; false; false; false; false; false], 0%N);
  ("SPECI CYHK 171935Z 23019G25KT 5SM -SN DRSN SCT007 SCT012 OVC029 00/M00 A2961 RMK ST3SC1SC4 WET SN /S01/ SUN DIMLY VISIBLE OCNL DRSN SLP032=", RT_METAR, "CYHK", [true; false; false; false; false; false; false; false; false; false; false; false], 0%N);
  ("TAF CYHK 171738Z 1718/1806 23020G30KT 1SM -SN BKN005 OVC012 TEMPO 1718/1724 3SM -SN OVC012 BECMG 1722/1724 22015G25KT FM180000 34015G25KT 1SM -SN BLSN BKN005 OVC015 RMK NXT FCST BY 180000Z=", RT_TAF, "CYHK", [false; false; false; false; false; false; false; false; false; false; false; false], 0%N);
  ("METAR MMPQ 171948Z 00000KT 10SM FEW040TCU 34/23 A2972 RMK 8/200=", RT_METAR, "MMPQ", [false; false; false; false; false; false; false; false; false; false; false; false], 0%N);
  ("TAF MMPQ 171625Z 1718/1818 09020KT P6SM SCT020 SCT080 FM172100 12015KT P6SM SCT020CB BKN220 BECMG 1801/1802 12006KT FM181000 00000KT 5SM HZ BKN015 BKN220 TEMPO 1811/1815 3SM BR HZ FM181600 00000KT 6SM HZ SCT020 BKN220=", RT_TAF, "MMPQ", [false; false; false; false; false; false; false; false; false; false; false; false], 0%N);
  ("KMMH 171935Z AUTO 10010G14KT 3/4SM HZ VV005 23/M11 A3015 RMK AO2 VIS M1/4V5 AWOS NOTAMED OSM P0006 T02281112=", RT_METAR, "KMMH", [false; false; true; false; false; true; false; false; false; false; false; false], 0%N);
  ("TAF KMMH 171720Z 1718/1818 13009KT P6SM SKC FM172300 28010G18KT P6SM SKC FM180300 VRB03KT P6SM SKC=", RT_TAF, "KMMH", [false; false; false; false; false; false; false; false; false; false; false; false], 0%N);
  ("METAR PAEC 171856Z 00000KT 1/2SM -DZ FG VV002 09/08 A3003 RMK NOSPECI=", RT_METAR, "PAEC", [false; true; false; false; false; false; false; false; false; false; false; false], 0%N);
  ("METAR OAKB 171950Z 00000KT 5000 HZ NSC 15/M00 Q1017 NOSIG RMK A3006 WHT WHT=", RT_METAR, "OAKB", [false; false; false; false; false; false; false; false; false; false; false; false], 0%N);
  ("TAF OAKB 171705Z 1718/1818 VRB02KT CAVOK TEMPO 1718/1804 5000 HZ BECMG 1809/1811 02010KT BECMG 1816/1818 VRB02KT=", RT_TAF, "OAKB", [false; false; false; false; false; false; false; false; false; false; false; false], 0%N);
  ("METAR EGYP 171850Z 30020KT 9999 SCT014 SCT022 10/07 Q0988 GRN BECMG FEW014 SCT022 WHT=", RT_METAR, "EGYP", [false; false; false; false; false; false; false; false; false; false; false; false], 0%N);
  ("TAF EGYP 171640Z 1718/1812 31020G35KT 9999 FEW006 BKN030 PROB30 TEMPO 1718/1723 BKN008 TEMPO 1723/1806 4000 -RADZ BKN006 BECMG 1800/1803 21015G25KT BECMG 1806/1809 17014KT TEMPO 1806/1809 -RA SCT008 TEMPO 1809/1812 SCT018=", RT_TAF, "EGYP", [false; false; false; false; false; false; false; false; false; false; false; false], 0%N);
  ("METAR EGDR 171850Z 17015G29KT 8000 HZ FEW005 SCT007 BKN014 17/16 Q1005 GRN TEMPO 5000 -RA SCT005 YLO1=", RT_METAR, "EGDR", [false; false; false; false; false; false; false; false; false; false; false; false], 0%N);
  ("METAR CYRB 181400Z 09024KT 1/2SM R35/5500FT/D -SN BLSN OVC012 M02/M03 A2973 RMK BLSN7SC1 SLP077=", RT_METAR, "CYRB", [false; false; false; false; false; false; false; false; false; false; false; false], 0%N);
  ("TAF AMD CYRB 181243Z 1812/1912 07022G32KT 3/4SM -SN BLSN VV005 TEMPO 1812/1818 3SM -SN BLSN SCT010 OVC030 FM181800 09032G42KT 1/2SM -SN BLSN VV006 TEMPO 1818/1902 2SM -SN BLSN SCT008 OVC020 FM190200 09028G38KT 11/2SM -SN BLSN BKN008 OVC040 TEMPO 1902/1908 5SM -SN BLSN SCT008 OVC060 FM190800 08025G35KT 11/2SM -SN BLSN SCT008 BKN020 OVC120=", RT_TAF, "CYRB", [false; false; false; false; false; false; false; false; false; true; false; false], 0%N)].
Example real_data_3_passes : real_failures real_data_3 = []. Proof. vm_compute. reflexivity. Qed.
Definition real_data_4 : list real_row :=
 [("METAR VTSG 180000Z VRB02KT 9000 4000W RA SCT018 BKN020 BKN100 23/23 Q1010 TEMPO TL0030 3000 +RA=", RT_METAR, "VTSG", [false; false; false; false; false; false; false; false; false; false; false; false], 0%N);
  ("TAF VTSG 172300Z 1800/1824 26008KT 8000 SCT020 BKN100 TEMPO 1800/1804 26015G35KT 5000 RA FEW018TCU SCT020 BKN100 TEMPO 1806/1812 26015G35KT 3000 RA FEW018TCU SCT020 BKN100=", RT_TAF, "VTSG", [false; false; false; false; false; false; false; false; false; false; false; false], 0%N);
  ("METAR KIWA 182248Z VRB05KT 45SM PO FEW150 38/13 A2975=", RT_METAR, "KIWA", [false; false; false; false; false; false; false; false; false; false; false; false], 0%N);
  ("TAF KIWA 181720Z 1818/1918 27006KT P6SM FEW110 FM190600 12005KT P6SM SCT120 BKN250 FM191700 19006KT P6SM VCSH SCT080 BKN120=", RT_TAF, "KIWA", [false; false; false; false; false; false; false; false; false; false; false; false], 0%N);
  ("SPECI RJBD 200732Z 12005KT 4500 -SHRA BR FEW006 SCT015 FEW025CB BKN060 22/22 Q1009 RMK 1ST006 3CU015 1CB025 6SC060 A2981 CB 25KM E MOV NE=", RT_METAR, "RJBD", [true; false; false; false; false; false; false; false; false; false; false; false], 0%N);
  ("METAR ENSE 201620Z AUTO 24040KT 9999NDV FEW010/// SCT020/// BKN027/// 12/10 Q0988 W///S7=", RT_METAR, "ENSE", [false; false; true; false; false; false; false; false; false; false; false; false], 0%N);
  ("SPECI UKLL 202304Z 00000MPS 4800 1100SE R31/1900 BR NSC 11/10 Q1020 R31/CLRD// TEMPO 0400 FG VV002=", RT_METAR, "UKLL", [true; false; false; false; false; false; false; false; false; false; false; false], 0%N);
  ("METAR ENSE 202320Z AUTO 24014KT 9999NDV SCT044/// BKN051/// 11/07 Q0995 W///S6=", RT_METAR, "ENSE", [false; false; true; false; false; false; false; false; false; false; false; false], 0%N);
  ("SPECI EGVO 210017Z 22026G40KT 1000 +RA SCT010 BKN020 OVC028 17/16 Q0997 AMB TEMPO 5000 -RA GRN=", RT_METAR, "EGVO", [true; false; false; false; false; false; false; false; false; false; false; false], 0%N);
  ("TAF AMD EGVO 210021Z 2100/2112 21025G35KT 9999 BKN018 TEMPO 2100/2101 6000 RA SCT012 PROB30 TEMPO 2100/2101 22030G45KT 1000 +RA BKN006CB BECMG 2101/2103 26020G32KT FEW020 TEMPO 2103/2110 SCT022 PROB30 TEMPO 2110/2112 7000 SHRA SCT024TCU=", RT_TAF, "EGVO", [false; false; false; false; false; false; false; false; false; true; false; false], 0%N);
  ("METAR ENSL 211150Z 35054KT 2000 RA BR BKN040 09/06 Q0978 W09/S5=", RT_METAR, "ENSL", [false; false; false; false; false; false; false; false; false; false; false; false], 0%N);
  ("TAF ENSL 211100Z 2112/2117 34058G72KT 8000 -RA SCT012 BKN020 TEMPO 2112/2115 2000 RA BR BKN008 PROB30  TEMPO 2115/2117 4000 SHRA BKN012=", RT_TAF, "ENSL", [false; false; false; false; false; false; false; false; false; false; false; false], 0%N);
  ("METAR ENLE 211120Z 26060KT 4000 -SHRA BKN015 09/07 Q0982 W14/S7=", RT_METAR, "ENLE", [false; false; false; false; false; false; false; false; false; false; false; false], 0%N);
  ("TAF ENLE 211100Z 2112/2121 27060G72KT 8000 -SHRA SCT012 BKN025 TEMPO 2112/2115 2000 RA BR BKN009=", RT_TAF, "ENLE", [false; false; false; false; false; false; false; false; false; false; false; false], 0%N);
  ("METAR EGUL 211156Z 25014G22KT 9999 FEW046 SCT055 14/04 A2971 RMK AO2A PK WND 24029/06 SLP064 70021 T01370043 10145 20103 52016 $=", RT_METAR, "EGUL", [false; false; false; false; false; false; true; false; false; false; false; true], 0%N);
  ("TAF EGUL 211211Z 2112/2218 25015G25KT 9999 SCT030 QNH2969INS TEMPO 2113/2114 27025G35KT 510005 BECMG 2113/2114 27025G35KT 9999 SCT030 QNH2972INS BECMG 2118/2119 27012G20KT 9999 BKN030 QNH2980INS BECMG 2123/2200 27012KT 9999 SCT030 QNH3000INS BECMG 2210/2211 24012KT 9999 SCT020 QNH3006INS BECMG 2217/2218 21009KT 8000 -SHRA BKN010 QNH3006INS TX18/2212Z TN08/2204Z=", RT_TAF, "EGUL", [false; false; false; false; false; false; false; false; false; false; false; false], 0%N);
  ("METAR EGDY 211150Z 25022G33KT 9999 SCT025CB SCT050 16/06 Q1011 BLU TEMPO 6000 SHRA SCT024CB WHT=", RT_METAR, "EGDY", [false; false; false; false; false; false; false; false; false; false; false; false], 0%N);
  ("TAF EGDY 211034Z 2112/2121 27015G35KT 9999 FEW020CB SCT050 PROB30 TEMPO 2112/2118 6000 SHRA FEW012 SCT020CB BECMG 2118/2120 27010KT FEW035=", RT_TAF, "EGDY", [false; false; false; false; false; false; false; false; false; false; false; false], 0%N);
  ("METAR ENSE 211150Z AUTO 36028KT 9999NDV FEW030/// BKN130/// 09/04 Q0984 W///S4=", RT_METAR, "ENSE", [false; false; true; false; false; false; false; false; false; false; false; false], 0%N);
  ("METAR KRSP 211554Z AUTO 19010G14KT M1/4SM FG VV001 17/17 A3020 RMK AO2 SLP225 T01720172 $=", RT_METAR, "KRSP", [false; false; true; false; false; true; false; false; false; false; false; true], 0%N);
  ("METAR WADL 212200Z 00000KT 5000 BR BKN016 22/20 Q1015 TEMPO TL2330 BR=", RT_METAR, "WADL", [false; false; false; false; false; false; false; false; false; false; false; false], 0%N);
  ("TAF WADL 211700Z 2118/2218 00000KT 7000 SCT016 BECMG 2123/2201 16010KT=", RT_TAF, "WADL", [false; false; false; false; false; false; false; false; false; false; false; false], 0%N);
  ("METAR KADM 212155Z 31008KT 1 1/4SM +VCTSRA BKN007 OVC017 22/22 A2996 RMK LTG DSNT SE AND S=", RT_METAR, "KADM", [false; false; false; false; false; false; false; false; false; false; false; false], 0%N);
  ("METAR UUYY 212200Z 21002MPS 2900 0600SW FG SCT002 09/09 Q1012 R18/CLRD61 TEMPO 0300 FG RMK QBB060 QFE751/1001=", RT_METAR, "UUYY", [false; false; false; false; false; false; false; false; false; false; false; false], 0%N);
  ("METAR SLLP 212200Z 05014KT 9999 FEW023 FEW025CB SCT200 12/M01 Q1024=", RT_METAR, "SLLP", [false; false; false; false; false; false; false; false; false; false; false; false], 0%N);
  ("TAF SLLP 211600Z 2118/2218 15013KT 9999 FEW020 FEW023CB TX18/2120Z TN01/2210Z BECMG 2201/2204 05003KT NSC TEMPO 2205/2208 3000E VCFG FEW002 BECMG 2212/2214 23005KT=", RT_TAF, "SLLP", [false; false; false; false; false; false; false; false; false; false; false; false], 0%N);
  ("METAR MHLC 212200Z 09012KT 9999 1000E TSRA SCT022CB BKN090 25/23 Q1009 A2980 NOSIG=", RT_METAR, "MHLC", [false; false; false; false; false; false; false; false; false; false; false; false], 0%N);
  ("TAF MHLC 211625Z 2118/2218 02014KT 9999 SCT026TCU SCT090 TX32/2120Z TN23/2212Z TEMPO 2122/2204 5000 TSRA SCT024CB BKN080 BECMG 2204/2206 16003KT 9999 NSW SCT022 SCT070 BECMG 2210/2212 00000KT SCT020TCU BKN080 PROB30 2214/2216 35006KT 7000 TSVCSH SCT024CB BKN070=", RT_TAF, "MHLC", [false; false; false; false; false; false; false; false; false; false; false; false], 0%N);
  ("UUDD 212230Z 18002MPS 160V230 7000 0800NE PRFG NSC 11/09 Q1019 R14R/010095 TEMPO 1000 BR=", RT_METAR, "UUDD", [false; false; false; false; false; false; false; false; false; false; false; false], 0%N);
  ("TAF UUDD 211956Z 2121/2303 19002MPS 3000 BR SCT030 TX25/2212Z TN11/2202Z TEMPO 2121/2202 0300 FG FEW003 BECMG 2204/2206 19007G13MPS 9999 NSW PROB40 TEMPO 2215/2221 -TSRA SCT030CB=", RT_TAF, "UUDD", [false; false; false; false; false; false; false; false; false; false; false; false], 0%N);
  ("SPECI CYND 212053Z 21018G27KT 180V240 12SM TS FEW043 SCT110 BKN210 27/21 A2949 RMK SC1AC2CI2 CVCTV CLDS EMBD VIS HIER E SLP987 DENSITY ALT 2200FT=", RT_METAR, "CYND", [true; false; false; false; false; false; false; false; false; false; false; false], 0%N);
  ("TAF AMD CYND 212034Z 2120/2201 19020G30KT P6SM BKN030 FM212100 21020G35KT 6SM -SHRA SCT010 BKN040 TEMPO 2121/2123 VRB25G40KT 1SM +TSRA BR BKN010 OVC040CB PROB30 2121/2122 VRB40G55KT 1/2SM FC TSGR BKN008 OVC040CB FM220000 25020G35KT P6SM FEW020 SCT040 RMK NXT FCST WILL BE ISSUED AT 221245Z=", RT_TAF, "CYND", [false; false; false; false; false; false; false; false; false; true; false; false], 0%N);
  ("METAR CWGZ 222000Z 00000KT 10SM -SG VCFG FEW013 SCT023 OVC055 M03/M06 A2991 RMK SF1SC3SC4 FREEZING FOG IN VICINITY -3.1/-5.5/TR/TRACE SNW CVR/ LAST STFD OB/NEXT 251200Z SLP135=", RT_METAR, "CWGZ", [false; false; false; false; false; false; false; false; false; false; false; false], 0%N);
  ("METAR ENQC 220150Z AUTO 26036KT 9999NDV BKN023/// BKN099/// 10/05 Q0990 W///S/=", RT_METAR, "ENQC", [false; false; true; false; false; false; false; false; false; false; false; false], 0%N);
  ("METAR ENSE 221020Z AUTO 28030KT 9999NDV FEW017/// SCT021/// BKN034/// 10/07 Q0993 W///S5=", RT_METAR, "ENSE", [false; false; true; false; false; false; false; false; false; false; false; false], 0%N);
  ("METAR K5H4 221055Z AUTO 23005KT 10SM CLR 06/05 A3006 RMK AO2=", RT_METAR, "K5H4", [false; false; true; false; false; true; false; false; false; false; false; false], 0%N);
  ("METAR ZSOF 221900Z 08002MPS 3500 BR NSC 19/19 Q1016 BECMG AT2000 2800 BR=", RT_METAR, "ZSOF", [false; false; false; false; false; false; false; false; false; false; false; false], 0%N);
  ("TAF ZSOF 221900Z 2300/2324 09003MPS 4000 BR NSC TX29/2307Z TN19/2321Z=", RT_TAF, "ZSOF", [false; false; false; false; false; false; false; false; false; false; false; false], 0%N);
  ("SPECI RJFY 240332Z 05003KT 010V080 9999 -RA FEW005 SCT025 OVC035 22/20 Q1015 RMK 1ST005 3CU025 8NS035 A2999=", RT_METAR, "RJFY", [true; false; false; false; false; false; false; false; false; false; false; false], 0%N);
  ("METAR EHJR 241925Z AUTO 33015KT //// // ///////// 13/06 Q1036 RE// W17/H23=", RT_METAR, "EHJR", [false; false; true; false; false; false; false; false; false; false; false; false], 0%N);
  ("METAR EHJA 241955Z AUTO 31017KT 270V340 9999 FEW029/// 12/05 Q1036 W///H///=", RT_METAR, "EHJA", [false; false; true; false; false; false; false; false; false; false; false; false], 0%N);
  ("ENTC 241950Z 25018KT 9999 -SHRA FEW015 BKN032 02/M00 Q1003 TEMPO 27020G35KTKT SHRAGS BKN014CB RMK WIND 2600FT 29014KT=", RT_METAR, "ENTC", [false; false; false; false; false; false; false; false; false; false; false; false], 0%N);
  ("TAF ENTC 2418/2518 29015KT 9999 -SHRA FEW010 BKN030 TEMPO 2418/2424 26020G35KT SHRA BKN014CB BECMG 2500/2502 23008KT TEMPO 2506/2518 20020KT SHRA BKN014CB=", RT_TAF, "ENTC", [false; false; false; false; false; false; false; false; false; false; false; false], 0%N);
  ("SPECI RJNG 250349Z 33006KT 9999 FEW010 SCT070 OVC100 21/18 Q1014 RMK 1CU010 3AC070 8AS100 A2994=", RT_METAR, "RJNG", [true; false; false; false; false; false; false; false; false; false; false; false], 0%N);
  ("METAR EHSA 252355Z AUTO 19012KT 9999 ///////// 15/07 Q1034 W16/H7=", RT_METAR, "EHSA", [false; false; true; false; false; false; false; false; false; false; false; false], 0%N);
  ("METAR YSTW 250530Z AUTO 02007KT 8000 // OVC063 12/10 Q1023 RF00.2/011.2=", RT_METAR, "YSTW", [false; false; true; false; false; false; false; false; false; false; false; false], 0%N);
  ("TAF YSTW 250507Z 2506/2524 10008KT 9999 -SHRA SCT050 FM251800 15008KT 9999 -SHRA SCT020 BKN035 INTER 2506/2509 4000 SHRA BKN010  INTER 2518/2524 5000 SHRA BKN010 PROB30 INTER 2506/2508 3000 TSRA BKN010 SCT040CB=", RT_TAF, "YSTW", [false; false; false; false; false; false; false; false; false; false; false; false], 0%N);
  ("METAR CYBG 260900Z 08011KT 1/2SM R11/P6000FT -RA FG VV002 11/11 A2981 RMK FG8 VIS VRB 1/8-1 SLP099=", RT_METAR, "CYBG", [false; false; false; false; false; false; false; false; false; false; false; false], 0%N);
  ("TAF CYBG 260530Z 2606/2706 09015KT P6SM OVC030 TEMPO 2606/2617 5SM -SHRA BR BECMG 2612/2614 10010KT FM261700 23015G25KT P6SM BKN040 FM262000 24015G25KT P6SM -SHRA BKN030 OVC080 PROB40 2620/2623 VRB25G40KT 2SM TSRA BR BKN020 OVC050CB FM262300 28020G35KT P6SM -SHRA SCT010 OVC030 FM270300 29015G25KT P6SM BKN030 BECMG 2703/2705 29010KT RMK NXT FCST BY 261200Z=", RT_TAF, "CYBG", [false; false; false; false; false; false; false; false; false; false; false; false], 0%N);
  ("SPECI RJAA 261945Z 36020KT 4000 -SHRA BR FEW003 SCT004 BKN006 FEW020TCU 15/15 Q1014 RMK 1ST003 3ST004 5ST006 1TCU020 A2995 TCU 10KM N-NE MOV NE=", RT_METAR, "RJAA", [true; false; false; false; false; false; false; false; false; false; false; false], 0%N);
  ("TAF RJAA 261706Z 2618/2800 01015KT 8000 -SHRA FEW008 BKN012 TEMPO 2618/2623 3000 SHRA BR FEW002 BKN004 BECMG 2715/2718 34005KT=", RT_TAF, "RJAA", [false; false; false; false; false; false; false; false; false; false; false; false], 0%N);
  ("METAR EGDM 270050Z AUTO 17003KT 0050 FG NCD 08/07 Q1030=", RT_METAR, "EGDM", [false; false; true; false; false; false; false; false; false; false; false; false], 0%N);
  ("TAF EGDM 261557Z 2615/2618 CNL=", RT_TAF, "EGDM", [false; false; false; false; false; false; false; false; true; false; false; false], 0%N);
  ("METAR ESNQ 262050Z 35010KT 5000 -RASN VV016 01/01 Q0980=", RT_METAR, "ESNQ", [false; false; false; false; false; false; false; false; false; false; false; false], 0%N);
  ("TAF ESNQ 262030Z 2621/2623 34011KT 9999 -RASN BKN020 BECMG 2621/2623 35015G30KT 2000 SN VV009=", RT_TAF, "ESNQ", [false; false; false; false; false; false; false; false; false; false; false; false], 0%N);
  ("SPECI CYHA 262015Z 01012KT 15SM -SN OVC010 01/M00 A2944 RMK ST8 SLP974=", RT_METAR, "CYHA", [true; false; false; false; false; false; false; false; false; false; false; false], 0%N);
  ("TAF AMD CYHA 261717Z 2617/2621 04012KT 2SM -DZSG BR OVC004 TEMPO 2617/2621 P6SM -DZ OVC012 RMK NXT FCST WILL BE ISSUED AT 271345Z=", RT_TAF, "CYHA", [false; false; false; false; false; false; false; false; false; true; false; false], 0%N);
  ("SPECI RJTT 301545Z 19038G56KT 3000 R34L/M0050VP2000U R22/0400VP2000U R16L/0450VP2000U R23/0400V1000D SHRA BR FEW005 SCT015 BKN020 25/24 Q0982 RMK 1ST005 3CU015 6CU020 A2900=", RT_METAR, "RJTT", [true; false; false; false; false; false; false; false; false; false; false; false], 0%N);
  ("TAF RJTT 301105Z 3012/0118 17026G36KT 6000 -SHRA FEW008 BKN015 BECMG 3012/3014 19042G58KT TEMPO 3012/3014 4000 -SHRA BR FEW005 BKN008 TEMPO 3014/3018 19060G75KT 2000 +SHRA BR FEW005 BKN008 BECMG 3018/3020 21024G34KT BECMG 0109/0112 21010KT=", RT_TAF, "RJTT", [false; false; false; false; false; false; false; false; false; false; false; false], 0%N);
  ("SPECI KPAM 101721Z AUTO 08063G112KT M1/8SM R14/0600V1200FT +RA FG SQ M 25/25 A2724 RMK AO2 RAB1658 SLP227 CHINO RWY32 $=", RT_METAR, "KPAM", [true; false; true; false; false; true; false; false; false; false; false; true], 0%N);
  ("TAF AMD KPAM 091408Z 0914/1016 07015G20KT 9999 BKN015 OVC170 QNH2989INS BECMG 0914/0915 08015G30KT 9999 BKN020 OVC200 QNH2976INS BECMG 1002/1003 07015G30KT 8000 -SHRA BKN020 OVC100 QNH2963INS BECMG 1005/1006 06025G35KT 4800 TSRA BKN010CB OVC100 QNH2957INS BECMG 1012/1013 05030G50KT 3200 +TSRA OVC008CB QNH2945INS BECMG 1015/1016 05035G64KT 3200 +TSRA OVC008CB QNH2945INS TX30/0920Z TN22/1011Z LAST NO AMDS AFT 0917=", RT_TAF, "KPAM", [false; false; false; false; false; false; false; false; false; true; false; false], 0%N);
  ("METAR UKHH 090030Z 35001MPS 0050 0000E R25/0100N FZFG VV001 M02/M02 Q1024 R25/0///72 NOSIG=", RT_METAR, "UKHH", [false; false; false; false; false; false; false; false; false; false; false; false], 0%N);
  ("TAF UKHH 082310Z 0900/0909 33002MPS 0200 FZFG OVC001 TX03/0909Z TNM03/0905Z PROB40 TEMPO 0900/0907 -FZDZ TEMPO 0907/0909 1200 BR SCT004=", RT_TAF, "UKHH", [false; false; false; false; false; false; false; false; false; false; false; false], 0%N);
  ("METAR PASV 010955Z AUTO 04019G23KT 10SM -SHRA OVC028 02/M05 A2877 RMK AO2 PK WND 09031/0935 WSHFT 0934 RAB0925E0930SHRASNB0944E0953SHSNB0953E0955 SLP759 P0000 T00151050 400351005=", RT_METAR, "PASV", [false; false; true; false; false; true; false; false; false; false; false; false], 0%N);
  ("METAR PABE 020053Z 31014KT 1 3/4SM -SN BR FEW006 BKN020 OVC029 M02/M03 A2866 RMK SLP708 P0001 T10221028 $ VIA AUTODIAL=", RT_METAR, "PABE", [false; false; false; false; false; false; false; false; false; false; false; true], 0%N);
  ("PABE 011957Z 0120/0218 36022KT 6SM -SHSN SCT015 OVC030 TEMPO 0120/0122 1 1/2SM -SHSN BLSN BKN015 FM012200 34020G28KT 1 1/2SM -SN BLSN OVC015 FM020600 28018G26KT 2SM -SN BLSN OVC015 FM021500 26012G20KT 5SM -SN OVC020=", RT_TAF, "PABE", [false; false; false; false; false; false; false; false; false; false; false; false], 0%N);
  ("METAR CYVP 021900Z 23011G18KT 8SM IC DRSN SCT023 M25/M29 A2990 RMK IC2SC1 SLP132=", RT_METAR, "CYVP", [false; false; false; false; false; false; false; false; false; false; false; false], 0%N);
  ("TAF CYVP 021738Z 0218/0306 22010KT 6SM IC FEW030 BKN080 TEMPO 0218/0306 P6SM NSW RMK NXT FCST BY 030000Z=", RT_TAF, "CYVP", [false; false; false; false; false; false; false; false; false; false; false; false], 0%N);
  ("METAR CYHD 032000Z AUTO 24008KT 9SM BKN009 OVC100 00/M01 A2941 RMK RVR MISG SLP988=", RT_METAR, "CYHD", [false; false; true; false; false; false; false; false; false; false; false; false], 0%N);
  ("TAF CYHD 031938Z 0320/0408 24012KT P6SM BKN012 BKN120 TEMPO 0320/0323 4SM BR OVC007 PROB30 0320/0323 2SM -FZDZ BR OVC006 FM032300 24010KT 3SM BR OVC007 TEMPO 0323/0408 P6SM NSW OVC012 PROB30 0402/0408 1SM -FZDZ BR OVC004 RMK FCST BASED ON AUTO OBS. NXT FCST BY 040200Z=", RT_TAF, "CYHD", [false; false; false; false; false; false; false; false; false; false; false; false], 0%N);
  ("METAR PASY 032359Z 19019G25KT 7SM SCT027 SCT035 BKN055 01/M03 A2943 RMK SLP970 6//// 4//// 5//// $=", RT_METAR, "PASY", [false; false; false; false; false; false; false; false; false; false; false; true], 0%N);
  (" TAF PASY 032200Z 0322/0504 22015KT 9999 SCT030 SCT045 QNH2925INS TEMPO 0322/0403 20020G30KT 3200 -SHSN BKN030 610302 520003 TEMPO 0406/0410 17025G35KT 520003 BECMG 0410/0411 17020G30KT 3200 -SN BKN015 620152 520003 QNH2905INS BECMG 0417/0418 12010G20KT 1600 -SN OVC010 620109 QNH2885INS BECMG 0500/0501 27025G35KT 9999 NSW BKN035 620359 520003 QNH2880INS TEMPO 0501/0504 27035G45KT 530003 TX00/0322Z TNM04/0418Z=", RT_TAF, "PASY", [false; false; false; false; false; false; false; false; false; false; false; false], 0%N);
  ("METAR PABE 042053Z 18006KT 1/4SM R19R/1600V2000FT FZFG VV003 M07/M07 A2977 RMK AO2 SLP082 I1005 I3011 T10671072 51018 $=", RT_METAR, "PABE", [false; false; false; false; false; true; false; false; false; false; false; true], 0%N);
  ("PABE 042001Z 0420/0518 19006KT 3SM BR OVC006 TEMPO 0420/0422 1/2SM FZFG VV002 FM050300 15006KT P6SM OVC010=", RT_TAF, "PABE", [false; false; false; false; false; false; false; false; false; false; false; false], 0%N);
  ("METAR PABE 052353Z 03007KT 10SM SCT004 BKN110 M13/M15 A2992 RMK AO2 SLP136 I6011 T11331150 11072 21133 55003 $=", RT_METAR, "PABE", [false; false; false; false; false; true; false; false; false; false; false; true], 0%N);
  ("TAF PABE 052342Z 0600/0624 04007KT 3SM BR OVC002 TEMPO 0600/0604 SCT002 BKN050 FM060400 06012KT P6SM VCFG OVC050 FM061500 06013KT 5SM -SN BKN020 OVC035 FM061800 05012KT 3SM -SN BR SCT007 OVC015=", RT_TAF, "PABE", [false; false; false; false; false; false; false; false; false; false; false; false], 0%N);
  ("SPECI PAAK 060053Z AUTO 26010G21KT 1/4SM -SN FZFG FEW003 SCT011 BKN019 M01/M03 A2955 RMK AO2 VIS M1/4V1 3/4 RAE14B40E42SNB14 CIG 014V025 P0000 FZRANO=", RT_METAR, "PAAK", [true; false; true; false; false; true; false; false; false; false; false; false], 0%N);
  ("METAR KATL 070152Z 33003KT 10SM FEW001 FEW150 SCT200 SCT250 13/04 A3020 RMK AO2 SLP228 FU FEW001 T01280039=", RT_METAR, "KATL", [false; false; false; false; false; true; false; false; false; false; false; false], 0%N);
  ("KATL 072142Z 0722/0824 17008KT P6SM SCT200 BKN250 FM080600 20003KT P6SM BKN150 FM081100 22004KT P6SM BKN040 FM081400 24006KT P6SM SCT008 OVC015 FM081700 27009KT P6SM BKN025=", RT_TAF, "KATL", [false; false; false; false; false; false; false; false; false; false; false; false], 0%N);
  ("METAR CYUX 072200Z 31020KT 5/8SM IC BLSN SCT002 BKN060 M29/M32 A2988 RMK BLSA3SF1SC3 SLP122==", RT_METAR, "CYUX", [false; false; false; false; false; false; false; false; false; false; false; false], 0%N);
  ("TAF CYUX 071838Z 0719/0807 31020KT 1/2SM IC BLSN VV005 TEMPO 0719/0724 1SM IC BLSN SKC FM080000 31018KT 3/4SM IC BLSN FEW040 TEMPO 0800/0805 3SM IC BLSN SKC FM080500 31015KT 11/2SM IC BLSN SKC TEMPO 0805/0807 P6SM NSW RMK NXT FCST BY 080100Z=", RT_TAF, "CYUX", [false; false; false; false; false; false; false; false; false; false; false; false], 0%N);
  ("METAR KBKL 081353Z 22014G19KT 1SM TSRA FEW014 BKN035 OVC060 12/08 A2978 RMK AO2 LTG DSNT E-SW RAB36 TSB44 PRESRR SLP086 TS SW MOV NE P0007 T01170083=", RT_METAR, "KBKL", [false; false; false; false; false; true; false; false; false; false; false; false], 0%N);
  ("METAR CYCQ 090000Z CCB 00000KT 35SM FEW090 BKN170 OVC190 M14/M16 A3011 RMK AC2AS3CS3 CLIMAT -10.0/-31.0/-14.0/22 LAST STFD OBS/NEXT 091400Z SLP265=", RT_METAR, "CYCQ", [false; false; false; false; false; false; false; false; false; false; true; false], 2%N);
  ("METAR CYEG 100900Z 00000KT 15SM MIFG SCT025 BKN220 M19/M20 A2988 RMK SC3CI3 MIFG SE SLP181=", RT_METAR, "CYEG", [false; false; false; false; false; false; false; false; false; false; false; false], 0%N);
  ("TAF CYEG 100839Z 1009/1106 09005KT P6SM FEW025 SCT080 BKN250 FM101000 VRB03KT P6SM FEW005 SCT030 TEMPO 1010/1021 2SM BR FEW003 BKN012 PROB30 1011/1021 1/2SM FZFG BKN003 FM102100 33005KT P6SM SCT008 BKN060 TEMPO 1021/1023 BKN008 FM110300 24008KT P6SM FEW006 SCT060 RMK NXT FCST BY 101200Z=", RT_TAF, "CYEG", [false; false; false; false; false; false; false; false; false; false; false; false], 0%N);
  ("METAR CYCB 101800Z CCC 03006KT 10SM IC FEW030 M40/M44 A3068 RMK SC2 FG E DSIPTG SLP397=", RT_METAR, "CYCB", [false; false; false; false; false; false; false; false; false; false; true; false], 3%N);
  ("TAF CYCB 101838Z 1019/1107 03005KT P6SM IC FEW030 BECMG 1022/1024 06010KT RMK NXT FCST BY 110100Z=", RT_TAF, "CYCB", [false; false; false; false; false; false; false; false; false; false; false; false], 0%N);
  ("METAR CYBD 102100Z VRB06KT 15SM FEW003 FEW020 FEW110 BKN160 02/00 A2983 RMK SF1SC1ACC2AS5 SF TR SC TR SLP104==", RT_METAR, "CYBD", [false; false; false; false; false; false; false; false; false; false; false; false], 0%N);
  ("METAR KFAT 111553Z 10005KT 1/8SM R29R/1200FT FG VV002 08/07 A3005 RMK AO2 SFC VIS M1/4 SLP174 T00780072=", RT_METAR, "KFAT", [false; false; false; false; false; true; false; false; false; false; false; false], 0%N);
  ("KFAT 111418Z 1114/1212 15006KT 1/4SM FG VV002 TEMPO 1114/1116 1SM BR OVC005 FM111800 13008KT 1SM BR BKN005 FM112000 13006KT 4SM BR SCT020 BKN200 FM120300 14004KT 3SM BR BKN060=", RT_TAF, "KFAT", [false; false; false; false; false; false; false; false; false; false; false; false], 0%N);
  ("METAR CYCA 112000Z AUTO /////KT RMK WND MISG CLD MISG WX MISG VIS MISG PCPN MISG PRES MISG T MISG TD MISG ICG MISG DENSITY ALT MISG=", RT_METAR, "CYCA", [false; false; true; false; false; false; false; false; false; false; false; false], 0%N);
  ("TAF CYCA 111938Z 1120/1208 FCST NOT AVBL DUE NO OBS RMK FCST BASED ON AUTO OBS. NXT FCST BY 120200Z=", RT_TAF, "CYCA", [false; false; false; false; false; false; false; false; false; false; false; false], 0%N);
  ("METAR CWSA 111000Z AUTO 25020KT 8SM BKN080 02/M02 A2953 RMK TS/LTNG TEMPO UNAVBL SLP003=", RT_METAR, "CWSA", [false; false; true; false; false; false; false; false; false; false; false; false], 0%N);
  ("TAF CWSA 110838Z 1109/1121 26015G25KT P6SM BKN030 TEMPO 1109/1114 11/2SM -SHRASN BR OVC020 FM111400 25020G30KT P6SM -SHRASN BKN030 TEMPO 1114/1121 4SM BR PROB30 1114/1121 11/2SM BR RMK FCST BASED ON AUTO OBS. NXT FCST BY 111400Z=", RT_TAF, "CWSA", [false; false; false; false; false; false; false; false; false; false; false; false], 0%N);
  ("METAR K2DP 270456Z AUTO 00000KT 2 1/2SM BR CLR M01/M01 A3020 RMK AO2 VIS 1 1/8V2 1/2 SLPNO T10121015 401061043=", RT_METAR, "K2DP", [false; false; true; false; false; true; false; false; false; false; false; false], 0%N);
  ("METAR PABT 121453Z 01003KT 10SM CLR M35/ A3008 RMK AO2 SLP219 I1000 I3000 T1350 53004 PNO=", RT_METAR, "PABT", [false; false; false; false; false; true; false; false; false; false; false; false], 0%N);
  ("TAF PABT 121125Z 1212/1312 VRB04KT P6SM FEW250=", RT_TAF, "PABT", [false; false; false; false; false; false; false; false; false; false; false; false], 0%N);
  ("METAR PAYA 131653Z AUTO 00000KT 10SM M03/M04 A2992 RMK AO2 SLP133 I1/// T10331044 TSNO $=", RT_METAR, "PAYA", [false; false; true; false; false; true; false; false; false; false; false; true], 0%N);
  ("PAYA 131205Z 1312/1412 10005KT P6SM VCFG BKN050 BKN070 TEMPO 1312/1316 3SM BR SCT005 FM131800 06004KT P6SM SCT025 BKN100=", RT_TAF, "PAYA", [false; false; false; false; false; false; false; false; false; false; false; false], 0%N);
  ("METAR KONT 132253Z VRB05KT 10SM SCT060 SCT100 BKN180 BKN250 17/04 A3001 RMK AO2 SLP163 ACC S-SW T01670039=", RT_METAR, "KONT", [false; false; false; false; false; true; false; false; false; false; false; false], 0%N);
  ("TAF KONT 131720Z 1318/1424 VRB05KT P6SM SCT250 FM141000 05008KT P6SM BKN200 FM141700 05010G18KT P6SM BKN035 OVC150 FM142300 05012G22KT P6SM VCSH OVC035=", RT_TAF, "KONT", [false; false; false; false; false; false; false; false; false; false; false; false], 0%N);
  ("METAR KMWN 141155Z 32017KT 120SM FEW180 M08/M26 RMK PTCHY VLY FG NW 4/014 11085 21124=", RT_METAR, "KMWN", [false; false; false; false; false; false; false; false; false; false; false; false], 0%N);
  ("METAR PAYA 141753Z AUTO 05003KT 6SM -FZRA BR FEW026 OVC034 01/01 A3002 RMK AO2 FZRAB31 SLP166 P0001 60004 I1001 I6/// T00060006 10006 21044 TSNO $=", RT_METAR, "PAYA", [false; false; true; false; false; true; false; false; false; false; false; true], 0%N);
  ("TAF PAYA 141739Z 1418/1518 08003KT 6SM BR SCT025 OVC040 TEMPO 1418/1422 2SM -FZRA BR BKN025 OVC035 FM150300 08003KT P6SM VCSH SCT010 BKN035 BKN060 FM150600 VRB03KT 6SM BR SCT001 SCT015 OVC035 FM151000 08006KT 4SM -RA BR BKN025 OVC040=", RT_TAF, "PAYA", [false; false; false; false; false; false; false; false; false; false; false; false], 0%N);
  ("METAR CYRT 150500Z 33020G25KT 1/2SM BLSN SCT250 M38/M43 A3009 RMK BLDU3CI1 SLP196=", RT_METAR, "CYRT", [false; false; false; false; false; false; false; false; false; false; false; false], 0%N);
  ("METAR PATO 160753Z AUTO 09008KT 10SM UP FEW019 BKN029 OVC037 00/M01 A2969 RMK AO2 FZRAB01E04SNB04E16 SLP055 P0001 I1000 T00001011 TSNO=", RT_METAR, "PATO", [false; false; true; false; false; true; false; false; false; false; false; false], 0%N);
  ("METAR CYZG 162200Z 25006KT 200V270 5SM IC HZ SCT017 M31/M34 A2963 RMK HZ2SC2 SNW CVR/TRACELOOSE/LAST STFD OBS/NEXT171300 UTC SLP073=", RT_METAR, "CYZG", [false; false; false; false; false; false; false; false; false; false; false; false], 0%N);
  ("TAF AMD CYZG 162011Z 1620/1622 22012G22KT P6SM IC FEW060 TEMPO 1620/1622 5SM IC BR RMK NXT FCST WILL BE ISSUED AT 171445Z", RT_TAF, "CYZG", [false; false; false; false; false; false; false; false; false; true; false; false], 0%N);
  ("METAR CWSW 172000Z 11008KT 2SM -SN OVC015 M06/M11 A2988 RMK SN5NS3 SLP179=", RT_METAR, "CWSW", [false; false; false; false; false; false; false; false; false; false; false; false], 0%N);
  ("METAR UAAA 181730Z 17002MPS 150V210 0700 R05L/1800 R05R/P2000 FZFG FU SCT200 M05/M07 Q1013 R05L/91//60 R05R/CLRD65 NOSIG=", RT_METAR, "UAAA", [false; false; false; false; false; false; false; false; false; false; false; false], 0%N);
  ("TAF UAAA 181700Z 1818/1918 16004MPS 0800 FZFG SCT011 BKN100 TX07/1908Z TNM06/1901Z TEMPO 1818/1906 0200 VV001 BECMG 1907/1908 04005MPS 3100 BR TEMPO 1907/1912 27007MPS FM191200 18004MPS 0600=", RT_TAF, "UAAA", [false; false; false; false; false; false; false; false; false; false; false; false], 0%N);
  ("METAR KELP 181951Z 28023G36KT 8SM SCT050 SCT080 BKN250 17/02 A2995 RMK AO2 PK WND 25045/1856 SLP099 BLDU NE AND NW-N OCNL BLDU ALQDS T01720022=", RT_METAR, "KELP", [false; false; false; false; false; true; false; false; false; false; false; false], 0%N);
  ("TAF KELP 181720Z 1818/1918 25015G25KT P6SM FEW060 SCT150 FM182100 28029G43KT P6SM FEW060 BKN200 FM190200 31015G25KT P6SM FEW250 FM190800 36009KT P6SM FEW250=", RT_TAF, "KELP", [false; false; false; false; false; false; false; false; false; false; false; false], 0%N);
  ("METAR CWLY 182200Z AUTO /////KT 07/03 A2998 RMK WND MISG CLD MISG WX MISG VIS MISG PCPN MISG ICG MISG SLP160=", RT_METAR, "CWLY", [false; false; true; false; false; false; false; false; false; false; false; false], 0%N);
  ("METAR PAAQ 192253Z 18003KT 3/4SM BR OVC002 M13/M15 A2958 RMK AO2 SLP023 I1001 T11281150=", RT_METAR, "PAAQ", [false; false; false; false; false; true; false; false; false; false; false; false], 0%N);
  ("PAAQ 192100Z 1921/2018 VRB04KT 1/4SM FZFG BKN002 TEMPO 1922/1924 2SM BR BKN003 FM200000 VRB05KT P6SM VCFG SCT002 BKN010 FM200200 05007KT P6SM VCFG FEW002 SCT010=", RT_TAF, "PAAQ", [false; false; false; false; false; false; false; false; false; false; false; false], 0%N);
  ("METAR PAWG 182256Z 00000KT 7SM -RAPL FEW012 BKN033 OVC046 00/M02 A2958 RMK AO2 RAB24GSB44E45PLB47 SLP018 T00001017 PNO $=", RT_METAR, "PAWG", [false; false; false; false; false; true; false; false; false; false; false; true], 0%N);
  ("TAF PAWG 181741Z 1818/1918 31005KT P6SM -SN OVC060 FM190100 08007KT 5SM -SN BKN025 OVC040 FM190800 08007KT P6SM VCSH SCT030 OVC060=", RT_TAF, "PAWG", [false; false; false; false; false; false; false; false; false; false; false; false], 0%N);
  ("METAR KBKF 191658Z 17006KT 10SM FEW090 FEW130 01/M09 A3019 RMK AO2A ACSL NW APRNT ROTOR CLD SW-NW SLP246 T00091086=", RT_METAR, "KBKF", [false; false; false; false; false; false; true; false; false; false; false; false], 0%N);
  ("TAF KBKF 191704Z 1917/2023 22009KT 9999 FEW050 QNH3008INS BECMG 2003/2004 VRB06KT 9999 FEW080 FEW200 QNH3015INS BECMG 2017/2018 23009KT 9999 SKC QNH2993INS TX04/1922Z TNM02/2012Z=", RT_TAF, "KBKF", [false; false; false; false; false; false; false; false; false; false; false; false], 0%N);
  ("METAR CYSN 192300Z 07015G22KT 1SM -SN DRSN OVC009 M10/M11 A3003 RMK SN5FU3 SLP178=", RT_METAR, "CYSN", [false; false; false; false; false; false; false; false; false; false; false; false], 0%N);
  ("TAF CYSN 191938Z 1920/2002 07012G22KT 3/4SM -SN BLSN VV005 TEMPO 1920/1923 11/2SM -SN OVC010 BECMG 1920/1922 06018G28KT FM192300 06020G30KT 1/2SM -SN BLSN VV006 TEMPO 1923/2002 1SM -SN VV010 RMK NXT FCST WILL BE ISSUED AT 201345Z=", RT_TAF, "CYSN", [false; false; false; false; false; false; false; false; false; false; false; false], 0%N);
  ("METAR KVBG 200055Z 02008KT 10SM SCT200 BKN300 17/12 A3017 RMK AO2A HZ NW SLP219 T01680120=", RT_METAR, "KVBG", [false; false; false; false; false; false; true; false; false; false; false; false], 0%N);
  ("TAF AMD KVBG 210055Z 2100/2205 VRB06KT 2000 -DZ BR OVC003 QNH3007INS TEMPO 2100/2103 0800 FG BECMG 2102/2103 29015G25KT 9999 VCSH BKN007 OVC015 QNH3009INS BECMG 2104/2105 20012G18KT 8000 -SHRA BR OVC005 QNH3013INS BECMG 2110/2111 33020G30KT 9999 NSW BKN010 520009 QNH3015INS BECMG 2118/2119 35015G25KT 9999 BKN015 QNH3007INS BECMG 2201/2202 34012G18KT 9999 SCT015 SCT040 QNH3008INS TX13/2100Z TN09/2113Z=", RT_TAF, "KVBG", [false; false; false; false; false; false; false; false; false; true; false; false], 0%N);
  ("METAR PABR 200653Z 30012KT 3SM BR FEW013 OVC060 M19/M21 A2995 RMK SNEMM SLP144 P0000 T11891211 CHINO NE $ VIA AUTODIAL=", RT_METAR, "PABR", [false; false; false; false; false; false; false; false; false; false; false; true], 0%N);
  ("TAF PABR 200520Z 2006/2106 31010KT 3SM -SN BR OVC050 FM201600 32008KT 5SM -SN BR SCT012 BKN035 OVC050 FM210100 09007KT 6SM BR BKN100 FM210300 12007KT P6SM BKN250=", RT_TAF, "PABR", [false; false; false; false; false; false; false; false; false; false; false; false], 0%N);
  ("METAR CYQI 201400Z CCA 11021G33KT 1 1/4SM -PL DRSN OVC011 M02/M03 A2981 RMK PL6SC2 /S01/ PRESFR SLP098=", RT_METAR, "CYQI", [false; false; false; false; false; false; false; false; false; false; true; false], 1%N);
  ("TAF AMD CYQI 201421Z 2014/2024 11020G30KT 3SM -RASN SCT003 OVC009 TEMPO 2014/2016 1SM -FZRA -PL BR BKN003 OVC006 FM201600 12025G35KT 3SM -RA BR BKN003 OVC006 TEMPO 2016/2019 6SM -RA BR OVC006 FM201900 16025G40KT 3SM RA BR BKN003 OVC005 RMK NXT FCST BY 201800Z=", RT_TAF, "CYQI", [false; false; false; false; false; false; false; false; false; true; false; false], 0%N);
  ("METAR KPVD 211651Z 32014G24KT 7SM BCFG SCT031 BKN035 BKN050 M16/M21 A2985 RMK AO2 PK WND 29026/1632 SLP109 BCFG SW T11561206 $=", RT_METAR, "KPVD", [false; false; false; false; false; true; false; false; false; false; false; true], 0%N);
  ("KPVD 211559Z 2116/2212 28017G25KT P6SM SCT007 BKN060 FM211700 30014G33KT P6SM BKN050 FM220100 31015G28KT P6SM SCT060 FM220700 31013G22KT P6SM SKC=", RT_TAF, "KPVD", [false; false; false; false; false; false; false; false; false; false; false; false], 0%N);
  ("METAR KABQ 220152Z 29021G31KT 10SM FEW100 FEW190 SCT230 10/M05 A2968 RMK AO2 PK WND 30031/0150 SLP028 ACSL NE-SE T01001050 $=", RT_METAR, "KABQ", [false; false; false; false; false; true; false; false; false; false; false; true], 0%N);
  ("KABQ 212337Z 2200/2224 26018G28KT P6SM SCT060 SCT250 TEMPO 2200/2202 26025G38KT FM220500 29013G20KT P6SM BKN060 FM220900 30012KT P6SM VCSH BKN050 FM221200 30010KT P6SM SCT030 BKN070 FM221800 33012KT P6SM BKN050=", RT_TAF, "KABQ", [false; false; false; false; false; false; false; false; false; false; false; false], 0%N);
  ("METAR KSLC 222154Z 33007KT 10SM FEW035 FEW060 BKN210 M01/M09 A3040 RMK AO2 SLP323 SCSL DSNT SE T10111089=", RT_METAR, "KSLC", [false; false; false; false; false; true; false; false; false; false; false; false], 0%N);
  ("KSLC 221456Z 2215/2318 19005KT P6SM FEW080 FM221800 32008KT P6SM SCT200 FM230300 16008KT P6SM BKN200=", RT_TAF, "KSLC", [false; false; false; false; false; false; false; false; false; false; false; false], 0%N);
  ("METAR PAAK 231156Z AUTO 28007KT 10SM FEW027 SCT032 SCT045 00/M02 A2886 RMK AO2 SLP773 6//// 7//// T00001017 10017 21006 53015=", RT_METAR, "PAAK", [false; false; true; false; false; true; false; false; false; false; false; false], 0%N);
  ("METAR PAJN 231753Z 07005KT 7SM OVC037 M02/M02 A3028 RMK AO2 SLP254 4/010 933021 I6002 T10171022 11017 21033 51015=", RT_METAR, "PAJN", [false; false; false; false; false; true; false; false; false; false; false; false], 0%N);
  ("TAF PAJN 231740Z 2318/2418 00000KT P6SM VCFG OVC040 FM232100 09007KT 3SM -SNRA BR SCT010 OVC025 FM240300 09012KT P6SM -RA SCT025 OVC035=", RT_TAF, "PAJN", [false; false; false; false; false; false; false; false; false; false; false; false], 0%N);
  ("METAR KBIL 232253Z 00000KT 1/2SM R10L/2600V5000FT SN FZFG FEW004 OVC008 M02/M02 A2998 RMK AO2 SLP188 SNINCR 1/9 P0005 T10171022=", RT_METAR, "KBIL", [false; false; false; false; false; true; false; false; false; false; false; false], 0%N);
  ("KBIL 231832Z 2319/2418 23011KT 3/4SM -SN BR SCT012 BKN035 OVC090 TEMPO 2319/2322 2SM -SN BR BKN030 FM232200 32014KT 2SM -SN BR SCT007 BKN020 TEMPO 2322/2401 1/2SM SN FG SCT004 BKN007 FM240100 02015G25KT 1 1/2SM -SN BR BKN007 OVC010 FM240600 VRB06KT 5SM -SN BR SCT007 BKN015 OVC025=", RT_TAF, "KBIL", [false; false; false; false; false; false; false; false; false; false; false; false], 0%N);
  ("SPECI KFTK 232135Z 26011G19KT 4SM RA BR BKN005 OVC060 10/10 A2973 RMK AO2A WSHFT 30 FROPA PRESRR SLP071 CHINO RWY36 $=", RT_METAR, "KFTK", [true; false; false; false; false; false; true; false; false; false; false; true], 0%N);
  ("TAF AMD KFTK 232121Z 2321/2423 17011KT 6000 -RA BR BKN008 OVC060 QNH2969INS TEMPO 2400/2404 4800 -FZRA 690002 620409 BECMG 2404/2405 31012G18KT 9000 -SN OVC015 620153 QNH2980INS BECMG 2411/2412 30010G15KT 9999 NSW OVC015 QNH2990INS BECMG 2414/2415 30009KT 9999 SCT015 QNH2995INS BECMG 2420/2421 27012G18KT 9999 BKN025 620252 QNH3003INS TX11/2321Z TNM02/2411Z=", RT_TAF, "KFTK", [false; false; false; false; false; false; false; false; false; true; false; false], 0%N);
  ("METAR KSDF 232256Z 31010KT 10SM FEW008 BKN012 OVC023 06/04 A2975 RMK AO2 PK WND 29026/2204 WSHFT 2144 RAE28 SLP077 APRNT FROPA P0001 T00610039 $=", RT_METAR, "KSDF", [false; false; false; false; false; true; false; false; false; false; false; true], 0%N);
  ("TAF KSDF 231739Z 2318/2424 21011G17KT 4SM SHRA BR BKN012 FM232100 27013G19KT 3SM SHRA BR OVC012 FM240300 30014KT 4SM -RASN BR OVC012 FM240700 30013KT P6SM OVC015 FM241300 29010KT P6SM BKN022=", RT_TAF, "KSDF", [false; false; false; false; false; false; false; false; false; false; false; false], 0%N);
  ("METAR KSLC 232154Z 14005KT 10SM BKN060 BKN080 M01/M07 A3022 RMK AO2 SNE2059 SLP260 VIRGA P0000 T10111072=", RT_METAR, "KSLC", [false; false; false; false; false; true; false; false; false; false; false; false], 0%N);
  ("KSLC 232050Z 2321/2424 16010KT P6SM VCSH SCT020 BKN060 FM240100 18007KT 5SM -SN BR SCT020 BKN040 FM240600 16007KT P6SM VCSH SCT030 BKN060 FM241500 33006KT P6SM SCT070=", RT_TAF, "KSLC", [false; false; false; false; false; false; false; false; false; false; false; false], 0%N);
  ("METAR LGRP 232250Z 13011G25KT 040V210 9999 FEW010 FEW018TCU BKN020 15/12 Q1003 WS ALL RWY NOSIG=", RT_METAR, "LGRP", [false; false; false; false; false; false; false; false; false; false; false; false], 0%N);
  ("TAF LGRP 232300Z 2400/2424 13020G30KT 9999 FEW016 BKN020 PROB40 TEMPO 2400/2415 5000 RA FEW010 BKN020 PROB40 TEMPO 2400/2415 3000 TSRA SCT012 FEW018CB BKN020 BECMG 2407/2409 21015G25KT=", RT_TAF, "LGRP", [false; false; false; false; false; false; false; false; false; false; false; false], 0%N);
  ("METAR SKBG 232200Z 31006KT 9999 FEW015 26/19 A2989 WS R35=", RT_METAR, "SKBG", [false; false; false; false; false; false; false; false; false; false; false; false], 0%N);
  ("TAF SKBG 232300Z 2400/2424 32006KT 9999 SCT015 TEMPO 2410/2415 16005KT TX29/2419Z TN19/2411Z=", RT_TAF, "SKBG", [false; false; false; false; false; false; false; false; false; false; false; false], 0%N);
  ("METAR PASC 232253Z 06013KT 10SM BKN005 M21/M23 A2978 RMK AO2 SLP084 I1000 T12061233=", RT_METAR, "PASC", [false; false; false; false; false; true; false; false; false; false; false; false], 0%N)].
Example real_data_4_passes : real_failures real_data_4 = []. Proof. vm_compute. reflexivity. Qed.
Definition real_data_5 : list real_row :=
 [("TAF PASC 232321Z 2400/2424 06013KT P6SM SCT005 TEMPO 2400/2404 4SM BLSN BKN005 FM241100 05009KT P6SM BKN150=", RT_TAF, "PASC", [false; false; false; false; false; false; false; false; false; false; false; false], 0%N);
  ("METAR YPKG 232300Z AUTO 26013KT 9999 // NCD 17/10 Q1010 RF00.0////./=", RT_METAR, "YPKG", [false; false; true; false; false; false; false; false; false; false; false; false], 0%N);
  ("TAF YPKG 232302Z 2400/2424 24012KT CAVOK FM241000 18010KT CAVOK=", RT_TAF, "YPKG", [false; false; false; false; false; false; false; false; false; false; false; false], 0%N);
  ("METAR ULLI 232330Z 25005MPS 1200 1100SE R28R/P2000U SHSN SCT008 BKN016CB OVC033 M05/M06 Q1009 RESHSN R28R/492034 NOSIG=", RT_METAR, "ULLI", [false; false; false; false; false; false; false; false; false; false; false; false], 0%N);
  ("TAF ULLI 232255Z 2400/2424 25003G08MPS 1500 SN BKN011 OVC015 TEMPO 2400/2403 0700 +SHSN BKN005 BKN015CB BECMG 2403/2404 36003MPS 3500 -SN TEMPO 2404/2407 1400 SHSN BKN006 BKN015CB BECMG 2415/2417 28003MPS 3100 BR TEMPO 2418/2424 0500 IC FZFG VV003=", RT_TAF, "ULLI", [false; false; false; false; false; false; false; false; false; false; false; false], 0%N);
  ("METAR CYVV 240000Z 22013G23KT 2SM -DZ OVC005 04/04 A2947 RMK DZ3SF5 SLP988=", RT_METAR, "CYVV", [false; false; false; false; false; false; false; false; false; false; false; false], 0%N);
  ("TAF CYVV 231938Z 2320/2324 13006KT P6SM -RA OVC012 TEMPO 2320/2322 3SM -RA BR OVC006 BECMG 2320/2322 22012G22KT FM232200 22012G22KT 2SM -RA BR OVC006 TEMPO 2322/2324 6SM -RA BR OVC012 RMK NXT FCST WILL BE ISSUED AT 241145Z=", RT_TAF, "CYVV", [false; false; false; false; false; false; false; false; false; false; false; false], 0%N);
  ("METAR UAAA 240000Z VRB01MPS 3400 BR FU OVC006 M05/M06 Q1026 R23R/1///60 R23L/3///50 NOSIG RMK QBB190=", RT_METAR, "UAAA", [false; false; false; false; false; false; false; false; false; false; false; false], 0%N);
  ("TAF UAAA 232300Z 2400/2424 04004MPS 3100 BR BKN011 OVC100 TXM01/2407Z TNM06/2401Z TEMPO 2400/2405 0400 FZFG VV002 TEMPO 2405/2408 1500 BKN006 BECMG 2412/2413 16003MPS 1200 BR FU TEMPO 2412/2424 0300 -SN=", RT_TAF, "UAAA", [false; false; false; false; false; false; false; false; false; false; false; false], 0%N);
  ("METAR KCOS 240054Z 05010KT 10SM FEW090 FEW200 M02/M09 A2989 RMK AO2 SLP169 CCSL W T10171094=", RT_METAR, "KCOS", [false; false; false; false; false; true; false; false; false; false; false; false], 0%N);
  ("TAF KCOS 232340Z 2400/2424 14008KT P6SM FEW080 BKN110 FM240200 01008KT P6SM SCT050 BKN080 FM241400 36015G25KT P6SM VCSH OVC050 FM241600 36015G25KT P6SM VCSH FEW020 BKN050 FM242100 16006KT P6SM FEW040 FEW200=", RT_TAF, "KCOS", [false; false; false; false; false; false; false; false; false; false; false; false], 0%N);
  ("METAR CYOW 240700Z 21006KT 1 1/2SM -RA BR OVC006 03/03 A2955 RMK RA1SC7 SLP014=", RT_METAR, "CYOW", [false; false; false; false; false; false; false; false; false; false; false; false], 0%N);
  ("TAF AMD CYOW 240656Z 2406/2506 20007KT 11/2SM BR OVC006 TEMPO 2406/2408 6SM -RA BR OVC010 FM240800 21010G20KT 2SM -RA BR BKN005 OVC012 TEMPO 2408/2415 6SM -RA BR SCT005 OVC012 BECMG 2413/2414 31012KT FM241600 31012KT 3SM -RASN BR BKN006 OVC015 FM241800 30012KT 11/2SM -SN OVC006 FM242100 29012KT 6SM -SHSN BKN015 OVC030 FM242300 28010KT P6SM SCT015 BKN030 RMK NXT FCST BY 240900Z=", RT_TAF, "CYOW", [false; false; false; false; false; false; false; false; false; true; false; false], 0%N);
  ("METAR KMEI 252058Z 30007G18KT 10SM CLR 13/M01 A3028 RMK AO2 SLP252 I1000 I3/// T01281006 56022 $=", RT_METAR, "KMEI", [false; false; false; false; false; true; false; false; false; false; false; true], 0%N);
  ("TAF KMEI 251723Z 2518/2618 VRB04KT P6SM BKN250 FM261600 19004KT P6SM BKN040=", RT_TAF, "KMEI", [false; false; false; false; false; false; false; false; false; false; false; false], 0%N);
  ("METAR PASY 260558Z 27009KT 7SM SCT011 BKN018 00/M01 A2886 RMK SHSNB0436E58 SLPNO 60001 T00021007 1//// 2//// 51007 $=", RT_METAR, "PASY", [false; false; false; false; false; false; false; false; false; false; false; true], 0%N);
  ("TAF AMD PASY 260425Z 2604/2704 30012KT 9999 BKN010 BKN020 BKN040 620109 QNH2880INS BECMG 2614/2615 06010G15KT 6000 -RASN FEW020 BKN040 620406 QNH2870INS BECMG 2621/2622 01020G25KT 9999 VCSH FEW020 BKN040 620406 QNH2868INS TX03/2614Z TNM02/2622Z=", RT_TAF, "PASY", [false; false; false; false; false; false; false; false; false; true; false; false], 0%N);
  ("METAR PAFA 260353Z VRB03KT 1 1/4SM -SN BR OVC016 00/M02 A2963 RMK AO2 TWR VIS 1 1/2 SLP043 T00001022 PNO=", RT_METAR, "PAFA", [false; false; false; false; false; true; false; false; false; false; false; false], 0%N);
  ("PAFA 190240Z 1903/2006 VRB02KT 1 1/2SM -SN BR OVC028 FM190900 00000KT 2SM BR OVC025 FM191100 00000KT 4SM BR OVC025 FM191500 00000KT 6SM BR OVC050 FM192200 VRB03KT P6SM SCT025 BKN050=", RT_TAF, "PAFA", [false; false; false; false; false; false; false; false; false; false; false; false], 0%N);
  ("METAR PABT 261153Z 00000KT 4SM -SN BR OVC025 M05/M07 A2964 RMK AO2 SLP054 60008 70014 931011 4/030 T10501067 11050 21061 53018 PNO=", RT_METAR, "PABT", [false; false; false; false; false; true; false; false; false; false; false; false], 0%N);
  ("TAF PABT 261133Z 2612/2712 16003KT 2SM -SN BR FEW005 OVC016 FM262200 17003KT 2SM -SN BR FEW010 OVC025 FM270200 03004KT 6SM -SN BR FEW005 OVC025 FM271000 01003KT 3SM -SN BR BKN015 OVC030=", RT_TAF, "PABT", [false; false; false; false; false; false; false; false; false; false; false; false], 0%N);
  ("METAR KHOU 262053Z 10009KT 10SM FEW035 BKN075 BKN100 BKN250 17/11 A3013 RMK AO2 SLP209 VCSH SW T01720106 56026=", RT_METAR, "KHOU", [false; false; false; false; false; true; false; false; false; false; false; false], 0%N);
  ("TAF KHOU 261740Z 2618/2718 11005KT P6SM SCT090 BKN250 FM262000 12007KT P6SM VCSH BKN050 FM270200 10003KT P6SM VCSH OVC050 FM271000 31003KT 5SM BR BKN060 FM271500 34005KT P6SM FEW025=", RT_TAF, "KHOU", [false; false; false; false; false; false; false; false; false; false; false; false], 0%N);
  ("METAR PGUA 271256Z 03016G25KT 4SM -SHRA SCT001 OVC007 23/22 A2993 RMK AO2A PK WND 05033/41 CIG 001V007 CIG 003 RWY24L SLP126 P//// T02300220 PWINO TSNO $=", RT_METAR, "PGUA", [false; false; false; false; false; false; true; false; false; false; false; true], 0%N);
  ("TAF AMD PGUA 271220Z 2712/2816 02015G20KT 8000 -SHRA SCT001 BKN008 QNH2985INS TEMPO 2712/2716 03020G25KT 3200 -SHRA BKN001 OVC007 BECMG 2721/2722 05020G25KT 9999 NSW BKN017 QNH2983INS TX29/2802Z TN23/2718Z=", RT_TAF, "PGUA", [false; false; false; false; false; false; false; false; false; true; false; false], 0%N);
  ("METAR PATA 271752Z VRB05KT 10SM OVC140 M03/M05 A3021 RMK AO2 SLP236 4/015 933032 T10331050 11006 21039 51009 PNO=", RT_METAR, "PATA", [false; false; false; false; false; true; false; false; false; false; false; false], 0%N);
  ("TAF PATA 271750Z 2718/2818 10010KT P6SM VCSH BKN050 OVC100 FM280600 09008KT P6SM -FZRASN SCT025 OVC050 FM280900 09010KT 5SM -SN BKN025=", RT_TAF, "PATA", [false; false; false; false; false; false; false; false; false; false; false; false], 0%N);
  ("METAR CWSW 271800Z 33006KT 300V020 20SM VCSH FEW010 SCT045TCU BKN080 03/M01 A3004 RMK ST1TCU3AC3 ST TR SH N SLP207=", RT_METAR, "CWSW", [false; false; false; false; false; false; false; false; false; false; false; false], 0%N);
  ("METAR CWSW 272300Z 27008KT 220V330 20SM VCSH SCT072CB BKN082 06/M08 A3010 RMK CB4AC3 VIRGA E-W SLP219=", RT_METAR, "CWSW", [false; false; false; false; false; false; false; false; false; false; false; false], 0%N);
  ("METAR EHSA 272355Z AUTO 29044KT 5000 -RADZ ///////// 05/03 Q0988 W05/H59=", RT_METAR, "EHSA", [false; false; true; false; false; false; false; false; false; false; false; false], 0%N);
  ("METAR PAMY 280156Z AUTO 17014KT 5SM -SN BR FEW010 OVC024 01/M01 A2980 RMK AO2 RAB01E20B49E51UPB10E13B47E49SNB20E47B51 SLP093 P0000 T00061006 FZRANO $=", RT_METAR, "PAMY", [false; false; true; false; false; true; false; false; false; false; false; true], 0%N);
  ("METAR PAAK 292256Z AUTO 14012KT 3SM -RA BR SCT013 BKN017 OVC031 04/03 A2924 RMK AO2 RAB31 SLP903 T00440028 PNO $=", RT_METAR, "PAAK", [false; false; true; false; false; true; false; false; false; false; false; true], 0%N);
  (" METAR PAAK 300056Z AUTO 13013KT 3SM -RA BR OVC013 04/03 A2923 RMK AO2 RAE28B50 SLP899 T00440028 PNO $=", RT_METAR, "PAAK", [false; false; true; false; false; true; false; false; false; false; false; true], 0%N);
  ("METAR ENNE 160150Z AUTO 26067G81KT 3600NDV BR BKN024/// 06/01 Q0987 W///S7=", RT_METAR, "ENNE", [false; false; true; false; false; false; false; false; false; false; false; false], 0%N);
  ("TAF ENNE 161400Z 1615/1618 31038KT 9999 -SHRA FEW020TCU BKN035 BECMG 1616/1618 31028KT=", RT_TAF, "ENNE", [false; false; false; false; false; false; false; false; false; false; false; false], 0%N);
  ("METAR ENHE 270750Z 28050G60KT 7000 BKN020 07/03 Q1001 W///S8=", RT_METAR, "ENHE", [false; false; false; false; false; false; false; false; false; false; false; false], 0%N);
  ("TAF ENHE 270800Z 2709/2718 27048G58KT 9000 BKN025 TEMPO 2709/2718 4000 SHRA BKN014TCU BECMG 2709/2711 26040KT BECMG 2713/2715 33032KT=", RT_TAF, "ENHE", [false; false; false; false; false; false; false; false; false; false; false; false], 0%N);
  ("METAR K1GM 101558Z AUTO 36012KT 1 5/8SM -SN OVC003 M01/M01 A2997 RMK AO2 OVC V BKN SLP184 P0006 T10081008 $=", RT_METAR, "K1GM", [false; false; true; false; false; true; false; false; false; false; false; true], 0%N);
  ("METAR LRTR 101600Z 11017KT 9999 TS VCSH FEW020 SCT045CB 18/09 Q1004 WS RWY11 TEMPO 5000 TSRA=", RT_METAR, "LRTR", [false; false; false; false; false; false; false; false; false; false; false; false], 0%N);
  ("TAF AMD LRTR 101404Z 1014/1112 14006KT CAVOK TEMPO 1014/1017 VRB15G25KT 5000 TSRA BKN015 SCT035C BECMG 1108/1110 5000 -RA BR BKN015 OVC040=", RT_TAF, "LRTR", [false; false; false; false; false; false; false; false; false; true; false; false], 0%N);
  ("METAR PHHI 262356Z 29009KT 4SM -SHRA BR VCTS FEW005 BKN016 OVC020CB 25/24 A2989 RMK AO2A DZE2259RAB2259E16DZB16E22RAB37 TS 7E MOV NE CIG 016V020 SLP111 P0007 60007 T02470238 10295 20243 57016 $=", RT_METAR, "PHHI", [false; false; false; false; false; false; true; false; false; false; false; true], 0%N);
  ("TAF PHHI 232300Z 2323/2505 24009KT 1600 RA BR BKN004 BKN015 BKN025 OVC035 QNH2990INS TEMPO 2323/2405 24008KT 9999 SCT005 OVC015 BECMG 2405/2406 VRB06KT 9999 NSW FEW015 SCT025 BKN040 QNH2993INS BECMG 2422/2423 08009KT 9999 SCT015 BKN030 QNH2993INS TX27/2401Z TN23/2416Z=", RT_TAF, "PHHI", [false; false; false; false; false; false; false; false; false; false; false; false], 0%N);
  ("SPECI RJFF 021531Z AUTO 16025G35KT 9999 FEW027 SCT034 BKN040 //////TCU 27/22 Q1005 RMK A2969 TCU 35KM SW MOV NE=", RT_METAR, "RJFF", [true; false; true; false; false; false; false; false; false; false; false; false], 0%N);
  ("TAF AMD RJFF 021412Z 0214/0318 16025G35KT 9999 FEW005 SCT010 BKN020 BECMG 0219/0221 18015KT TEMPO 0221/0303 18018G28KT TEMPO 0303/0306 25015G25KT BECMG 0306/0309 26012KT=", RT_TAF, "RJFF", [false; false; false; false; false; false; false; false; false; true; false; false], 0%N);
  ("SPECI RJFF 021640Z AUTO 16024G34KT 9999 -RA FEW025 SCT027 BKN041 //////TCU 26/23 Q1005 RMK A2968 TCU 5KM S-SW MOV NE=", RT_METAR, "RJFF", [true; false; true; false; false; false; false; false; false; false; false; false], 0%N);
  ("TAF AMD RJFF 021412Z 0214/0318 16025G35KT 9999 FEW005 SCT010 BKN020 BECMG 0219/0221 18015KT TEMPO 0221/0303 18018G28KT TEMPO 0303/0306 25015G25KT BECMG 0306/0309 26012KT=", RT_TAF, "RJFF", [false; false; false; false; false; false; false; false; false; true; false; false], 0%N);
  ("SPECI RJKI 152225Z AUTO 07018KT 9999 SCT011 SCT021 BKN024 //////CB 25/23 Q1017 RMK A3003 CB 40KM E MOV UNKNOWN TCU 40KM W MOV UNKNOWN=", RT_METAR, "RJKI", [true; false; true; false; false; false; false; false; false; false; false; false], 0%N);
  ("METAR KIDA 221553Z 21013KT 10SM BKN085 OVC110 06/00 A3026 RMK AO2 SLP250 VIRGA DSNT NW-N T00560000=", RT_METAR, "KIDA", [false; false; false; false; false; true; false; false; false; false; false; false], 0%N);
  ("TAF KIDA 221345Z 2214/2312 21011KT P6SM VCSH BKN080 OVC100 FM221600 22014G24KT P6SM SCT080 BKN100 FM222100 25018G28KT P6SM SCT020 BKN040 FM230300 21011KT P6SM OVC006=", RT_TAF, "KIDA", [false; false; false; false; false; false; false; false; false; false; false; false], 0%N);
  ("SPECI MSLP 221550Z VRB02KT 9999 FEW020 SCT027 FEW037CB 30/23 Q1012 A2991 NOSIG RMK CB W=", RT_METAR, "MSLP", [true; false; false; false; false; false; false; false; false; false; false; false], 0%N);
  ("TAF MSLP 221525Z 2218/2318 21012KT 9999 BKN023 FEW033CB TX32/2218Z TN25/2312Z TEMPO 2219/2222 5000 TSRA FM230000 VRB03KT 9999 FEW023 FEW037CB BKN070 TEMPO 2302/2305 06010KT 5000 TSRA BKN023 SCT033CB=", RT_TAF, "MSLP", [false; false; false; false; false; false; false; false; false; false; false; false], 0%N);
  ("METAR MMPS 221543Z 10005KT 15SM SKC 29/23 A2993 RMK TCU S=", RT_METAR, "MMPS", [false; false; false; false; false; false; false; false; false; false; false; false], 0%N);
  ("TAF MMPS 220508Z 2206/2306 02005KT 6SM HZ SKC FM221800 22010KT P6SM SCT020 SCT200 TEMPO 2222/2302 6SM -TSRA BKN015CB=", RT_TAF, "MMPS", [false; false; false; false; false; false; false; false; false; false; false; false], 0%N);
  ("METAR KBTV 221554Z 18014G19KT 10SM FEW040 SCT120 BKN180 17/06 A2999 RMK AO2 SLP157 VIRGA N ACSL ALQDS T01670061=", RT_METAR, "KBTV", [false; false; false; false; false; true; false; false; false; false; false; false], 0%N);
  ("TAF KBTV 221122Z 2212/2312 17005KT P6SM OVC150 WS020/15035KT FM221500 18013KT P6SM OVC180 FM222300 17010KT P6SM VCSH OVC045 WS020/15045KT FM230100 17008KT 5SM -RA BR OVC035 WS020/15045KT FM230600 00000KT 5SM -RA BR OVC016 WS020/15040KT FM231100 00000KT P6SM VCSH OVC016=", RT_TAF, "KBTV", [false; false; false; false; false; false; false; false; false; false; false; false], 0%N);
  ("METAR KSLC 221554Z 16008KT 10SM SCT060 BKN085 11/01 A3036 RMK AO2 SLP265 SCSL DSNT NW T01060006=", RT_METAR, "KSLC", [false; false; false; false; false; true; false; false; false; false; false; false], 0%N);
  ("KSLC 221452Z 2215/2318 16007KT P6SM SCT060 BKN090 FM222000 30009KT P6SM FEW070 OVC100 FM230400 35007KT P6SM BKN070 BKN200=", RT_TAF, "KSLC", [false; false; false; false; false; false; false; false; false; false; false; false], 0%N);
  ("METAR LIMJ 070850Z 02005KT 360V060 9999 VCFC BKN022 14/11 Q1006 RETS=", RT_METAR, "LIMJ", [false; false; false; false; false; false; false; false; false; false; false; false], 0%N);
  ("TAF LIMJ 070500Z 0706/0806 03006KT 9999 BKN040 TEMPO 0706/0806 4000 SHRA BKN012 BKN030 BECMG 0708/0710 14010KT BECMG 0720/0722 36010KT=", RT_TAF, "LIMJ", [false; false; false; false; false; false; false; false; false; false; false; false], 0%N);
  ("METAR SPGM 021300Z 10002KT 1000 RA BR OVC005 21/21 Q1018 RMK TN20.5 PP540=", RT_METAR, "SPGM", [false; false; false; false; false; false; false; false; false; false; false; false], 0%N);
  ("TAF SPGM 021100Z NIL=", RT_TAF, "SPGM", [false; false; false; false; false; false; false; true; false; false; false; false], 0%N);
  ("METAR SECU 111800Z 01004KT 4000 VA FEW030 OVC070 23/11 Q1023=", RT_METAR, "SECU", [false; false; false; false; false; false; false; false; false; false; false; false], 0%N);
  ("BGJN 022250Z AUTO 07002KT 8000NDV -SG SCT055/// BKN070/// M16/M19 Q1003=", RT_METAR, "BGJN", [false; false; true; false; false; false; false; false; false; false; false; false], 0%N);
  ("METAR YBBN 041130Z 15010KT 9999 SCT013 BKN028 BKN045 22/19 Q1018 FM1130 16011KT 9999 -DZ FEW010 BKN015 INTER 1130/1300 16020G30KT 3000 SHRA BKN010 TEMPO 1300/1430 2000 DZ BKN010 FM1130 MOD TURB BLW 5000FT TL1200=", RT_METAR, "YBBN", [false; false; false; false; false; false; false; false; false; false; false; false], 0%N);
  ("TAF YBBN 041135Z NIL=", RT_TAF, "YBBN", [false; false; false; false; false; false; false; true; false; false; false; false], 0%N);
  ("METAR YBBN 132300Z 22007KT 9999 FEW020 26/21 Q1006 FM0200 12008KT 9999 SCT030=", RT_METAR, "YBBN", [false; false; false; false; false; false; false; false; false; false; false; false], 0%N);
  ("TAF YBBN 132307Z 1400/1506 19008KT 9999 SCT025 FM140200 12008KT 9999 SCT030 FM140600 07010KT 9999 SCT025 FM141600 23006KT 9999 FEW020 FM150000 03010KT 9999 SCT030=", RT_TAF, "YBBN", [false; false; false; false; false; false; false; false; false; false; false; false], 0%N);
  ("METAR YBBN 240900Z 17005KT 9999 VCSH FEW014 SCT028 BKN039 23/22 Q1016 INTER 1000/1200 3000 SHRA BKN012=", RT_METAR, "YBBN", [false; false; false; false; false; false; false; false; false; false; false; false], 0%N);
  ("TAF YBBN 240505Z 2406/2512 16008KT 9999 -SHRA SCT015 BKN035 FM241200 19008KT 9999 -SHRA SCT010 BKN025 FM242100 14012KT 9999 -SHRA SCT020 BKN035 INTER 2406/2415 3000 SHRA BKN012 INTER 2421/2506 3000 SHRA BKN012=", RT_TAF, "YBBN", [false; false; false; false; false; false; false; false; false; false; false; false], 0%N);
  ("UKLL 042000Z 14003MPS CAVOK 13/11 Q1001 R13/D NOSIG=", RT_METAR, "UKLL", [false; false; false; false; false; false; false; false; false; false; false; false], 0%N);
  ("TAF UKLL 041706Z 0418/0518 17005G10MPS 9999 BKN020 TEMPO 0418/0509 2100 -SHRA BKN007 BKN017CB TEMPO 0509/0518 19009G14MPS 5000 -SHRA BKN010 BKN025CB=", RT_TAF, "UKLL", [false; false; false; false; false; false; false; false; false; false; false; false], 0%N);
  ("UKKK 052300Z 15002MPS 110V210 CAVOK 18/14 Q1008 R26/70D NOSIG=", RT_METAR, "UKKK", [false; false; false; false; false; false; false; false; false; false; false; false], 0%N);
  ("TAF UKKK 052303Z 0600/0624 17003G08MPS 9999 BKN020 TEMPO 0600/0606 2000 BR BKN007 BECMG 0606/0608 20005G10MPS TEMPO 0608/0618 21007G13MPS 2100 -SHRA BKN007 SCT015CB TEMPO 0618/0624 2000 BR BKN006=", RT_TAF, "UKKK", [false; false; false; false; false; false; false; false; false; false; false; false], 0%N);
  ("METAR ETAR 011256Z 00000KT 9999 SCT100 29/16 A2998 RMK AO2A RAE04RAB12E13DZB13E16RAB16E17DZB17E18RAB18E29DZB29E30 SLP146 P0000 T02880157 FZRANO $==", RT_METAR, "ETAR", [false; false; false; false; false; false; true; false; false; false; false; true], 0%N);
  ("TAF ETAR 011358Z 0113/0216 25009KT 9999 SCT060 BKN100 QNH2994INS BECMG 0119/0120 30009KT 8000 -SHRA SCT020 BKN030 QNH2995INS TEMPO 0200/0206 27015G25KT 6000 -TSRA BKN020CB BECMG 0206/0207 29012KT 9999 NSW SCT020 BKN030 QNH2993INS BECMG 0210/0211 28012G20KT 9999 SCT050 QNH2994INS TX30/0118Z TN14/0204Z=", RT_TAF, "ETAR", [false; false; false; false; false; false; false; false; false; false; false; false], 0%N);
  ("METAR SCCH 060900Z AUTO 21008KT //// R/////// NCD 02/02 Q1025=", RT_METAR, "SCCH", [false; false; true; false; false; false; false; false; false; false; false; false], 0%N);
  ("METAR SCCH 060900Z AUTO 21008KT //// R/////// NCD 02/02 Q1025=", RT_METAR, "SCCH", [false; false; true; false; false; false; false; false; false; false; false; false], 0%N);
  ("METAR EGYP 060450Z 35008KT 7000 -RADZ FEW006 BKN007 04/03 Q0995=", RT_METAR, "EGYP", [false; false; false; false; false; false; false; false; false; false; false; false], 0%N);
  ("TAF EGYP 060435Z 0606/0624 35015G25KT 9999 BKN010 520003 PROB40 TEMPO 0606/0608 VRB08KT 560003 PROB40 TEMPO 0606/0618 3000 RADZ BKN006 PROB30 TEMPO 0606/0615 2000 RASN SCT003 BECMG 0607/0609 30010KT 50//// BECMG 0614/0618 23022G32KT SCT035 BECMG 0618/0621 25015KT BECMG 0621/0624 28010KT=", RT_TAF, "EGYP", [false; false; false; false; false; false; false; false; false; false; false; false], 0%N);
  ("METAR KRWI 061853Z AUTO VRB05KT 10SM CLR 32/23 A3003 RMK AO2 LTG DSNT W SLP166 T03220228=", RT_METAR, "KRWI", [false; false; true; false; false; true; false; false; false; false; false; false], 0%N);
  ("KRWI 061851Z 0619/0718 VRB03KT P6SM VCTS SCT035CB FM070300 00000KT P6SM BKN250 TEMPO 0709/0713 4SM BR BKN007 FM071300 20004KT P6SM BKN015 FM071600 21006KT P6SM BKN050=", RT_TAF, "KRWI", [false; false; false; false; false; false; false; false; false; false; false; false], 0%N);
  ("METAR ETHC 201820Z 21002KT 9999 FEW060 03/02 Q1033 BLU+=", RT_METAR, "ETHC", [false; false; false; false; false; false; false; false; false; false; false; false], 0%N);
  ("METAR ETHC 251620Z 18006KT 9999 BKN260 05/02 Q1017 BLU+BLU+=", RT_METAR, "ETHC", [false; false; false; false; false; false; false; false; false; false; false; false], 0%N);
  ("TAF ETHC 251113Z 2512/2521 15005KT 9999 NSW FEW015 BKN250=", RT_TAF, "ETHC", [false; false; false; false; false; false; false; false; false; false; false; false], 0%N)].
Example real_data_5_passes : real_failures real_data_5 = []. Proof. vm_compute. reflexivity. Qed.
