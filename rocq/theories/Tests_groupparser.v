(** Generated by tools/gen_tests.py from /repo/test/test_groupparser.cpp: the project's own unit tests, run
    against the model. These are tests of the model's fidelity, not properties. *)

From Verif Require Import Prim Regex Float Values Weather Groups1 Groups2 Groups3 Groups4 Parser TestLib.
Local Open Scope string_scope.
Local Open Scope bool_scope.

Definition t_GroupParser_parse : option N :=
    step 17 ((GroupParser_parse "RMK" RP_METAR md_default)) (fun v1 => 
    chk 19 (Ok (has_value (as_Keyword v1))) (
    step 21 ((GroupParser_parse "UKLL" RP_HEADER md_default)) (fun v2 => 
    chk 23 (Ok (has_value (as_Location v2))) (
    step 25 ((GroupParser_parse "041758Z" RP_HEADER md_default)) (fun v3 => 
    chk 27 (Ok (has_value (as_ReportTime v3))) (
    step 29 ((GroupParser_parse "NOSIG" RP_METAR md_default)) (fun v4 => 
    chk 31 (Ok (has_value (as_Trend v4))) (
    step 33 ((GroupParser_parse "27018G22KT" RP_METAR md_default)) (fun v5 => 
    chk 35 (Ok (has_value (as_Wind v5))) (
    step 37 ((GroupParser_parse "9999" RP_METAR md_default)) (fun v6 => 
    chk 39 (Ok (has_value (as_Visibility v6))) (
    step 41 ((GroupParser_parse "BKN017" RP_METAR md_default)) (fun v7 => 
    chk 43 (Ok (has_value (as_Cloud v7))) (
    step 45 ((GroupParser_parse "BLSN" RP_METAR md_default)) (fun v8 => 
    chk 47 (Ok (has_value (as_Weather v8))) (
    step 49 ((GroupParser_parse "01/M02" RP_METAR md_default)) (fun v9 => 
    chk 51 (Ok (has_value (as_Temperature v9))) (
    step 53 ((GroupParser_parse "Q0998" RP_METAR md_default)) (fun v10 => 
    chk 55 (Ok (has_value (as_Pressure v10))) (
    step 57 ((GroupParser_parse "R19/190064" RP_METAR md_default)) (fun v11 => 
    chk 59 (Ok (has_value (as_RunwayState v11))) (
    step 61 ((GroupParser_parse "W06/S8" RP_METAR md_default)) (fun v12 => 
    chk 63 (Ok (has_value (as_SeaSurface v12))) (
    step 65 ((GroupParser_parse "TX03/1200Z" RP_TAF md_default)) (fun v13 => 
    chk 67 (Ok (has_value (as_MinMaxTemperature v13))) (
    step 69 ((GroupParser_parse "933021" RP_RMK md_default)) (fun v14 => 
    chk 71 (Ok (has_value (as_Precipitation v14))) (
    step 73 ((GroupParser_parse "620304" RP_TAF md_default)) (fun v15 => 
    chk 75 (Ok (has_value (as_LayerForecast v15))) (
    step 77 ((GroupParser_parse "56005" RP_RMK md_default)) (fun v16 => 
    chk 79 (Ok (has_value (as_PressureTendency v16))) (
    step 81 ((GroupParser_parse "SC1SC1AC1CI1" RP_RMK md_default)) (fun v17 => 
    chk 83 (Ok (has_value (as_CloudTypes v17))) (
    step 85 ((GroupParser_parse "8/52/" RP_RMK md_default)) (fun v18 => 
    chk 87 (Ok (has_value (as_LowMidHighCloud v18))) (
    step 89 ((GroupParser_parse "CONS" RP_RMK md_default)) (fun v19 => 
    chk 91 (Ok (has_value (as_Lightning v19))) (
    step 93 ((GroupParser_parse "CBMAM" RP_RMK md_default)) (fun v20 => 
    chk 95 (Ok (has_value (as_Vicinity v20))) (
    step 97 ((GroupParser_parse "YLO2" RP_METAR md_default)) (fun v21 => 
    chk 99 (Ok (has_value (as_Misc v21))) (
    None)))))))))))))))))))))))))))))))))))))))))).

Definition t_GroupParser_parseUnrecognised : option N :=
    step 109 ((GroupParser_parse "AAAAAAAAAA" RP_METAR md_default)) (fun v1 => 
    chk 111 (Ok (has_value (as_Unknown v1))) (
    None)).

Definition t_GroupParser_reparseOtherGroup : option N :=
    step 125 ((GroupParser_parse "FU" RP_RMK md_default)) (fun v1 => 
    chk 127 (Ok (negb (has_value (as_Unknown v1)))) (
    step 129 ((GroupParser_reparse "FU" RP_RMK md_default v1)) (fun v2 => 
    chk 131 (Ok (negb (has_value (as_Unknown v2)))) (
    chk 133 (Ok (negb (N.eqb ((fun g => N.of_nat (Group_index g)) v1) ((fun g => N.of_nat (Group_index g)) v2)))) (
    None))))).

Definition t_GroupParser_reparseToUnknownGroup : option N :=
    step 139 ((GroupParser_parse "METAR" RP_HEADER md_default)) (fun v1 => 
    chk 141 (Ok (negb (has_value (as_Unknown v1)))) (
    step 143 ((GroupParser_reparse "METAR" RP_HEADER md_default v1)) (fun v2 => 
    chk 145 (Ok (has_value (as_Unknown v2))) (
    None)))).

Definition t_GroupParser_reparseUnknownGroup : option N :=
    step 152 ((GroupParser_parse "AAAA" RP_RMK md_default)) (fun v1 => 
    chk 154 (Ok (has_value (as_Unknown v1))) (
    step 156 ((GroupParser_reparse "AAAA" RP_RMK md_default v1)) (fun v2 => 
    chk 158 (Ok (has_value (as_Unknown v2))) (
    None)))).

Example tests_groupparser_pass : failures
  [("GroupParser_parse", t_GroupParser_parse);
   ("GroupParser_parseUnrecognised", t_GroupParser_parseUnrecognised);
   ("GroupParser_reparseOtherGroup", t_GroupParser_reparseOtherGroup);
   ("GroupParser_reparseToUnknownGroup", t_GroupParser_reparseToUnknownGroup);
   ("GroupParser_reparseUnknownGroup", t_GroupParser_reparseUnknownGroup)] = [].
Proof. vm_compute. reflexivity. Qed.
