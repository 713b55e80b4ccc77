(** Generated by tools/gen_tests.py from /repo/test/test_layerforecastgroup.cpp: the project's own unit tests, run
    against the model. These are tests of the model's fidelity, not properties. *)

From Verif Require Import Prim Regex Float Values Weather Groups1 Groups2 Groups3 Groups4 Parser TestLib.
Local Open Scope string_scope.
Local Open Scope bool_scope.

Definition t_LayerForecastGroup_baseTopHeights : option N :=
    step 20 ((LayerForecastGroup_parse "620304" RP_TAF md_default)) (fun v1 => 
    chk 21 (Ok (has_value v1)) (
    chk 23 (let! v2 := deref v1 in Ok (Distance_isReported (lf_base v2))) (
    chk 24 (let! v3 := deref v1 in Ok (DistModifier_beq (distModifier (lf_base v3)) DM_NONE)) (
    chk 25 (let! v4 := deref v1 in Ok (has_value (Distance_distance (lf_base v4)))) (
    chk 26 (let! v5 := deref v1 in let! v6 := deref (Distance_distance (lf_base v5)) in Ok (near v6 (dlit (3000) 1) (dlit (1) 2))) (
    chk 27 (let! v7 := deref v1 in Ok (DistUnit_beq (distUnit (lf_base v7)) FEET)) (
    chk 29 (let! v8 := deref v1 in Ok (Distance_isReported (lf_top v8))) (
    chk 30 (let! v9 := deref v1 in Ok (DistModifier_beq (distModifier (lf_base v9)) DM_NONE)) (
    chk 31 (let! v10 := deref v1 in Ok (has_value (Distance_distance (lf_top v10)))) (
    chk 32 (let! v11 := deref v1 in let! v12 := deref (Distance_distance (lf_top v11)) in Ok (near v12 (dlit (7000) 1) (dlit (1) 2))) (
    chk 33 (let! v13 := deref v1 in Ok (DistUnit_beq (distUnit (lf_base v13)) FEET)) (
    step 35 ((LayerForecastGroup_parse "520004" RP_TAF md_default)) (fun v14 => 
    chk 36 (Ok (has_value v14)) (
    chk 38 (let! v15 := deref v14 in Ok (Distance_isReported (lf_base v15))) (
    chk 39 (let! v16 := deref v14 in Ok (DistModifier_beq (distModifier (lf_base v16)) DM_NONE)) (
    chk 40 (let! v17 := deref v14 in Ok (has_value (Distance_distance (lf_base v17)))) (
    chk 41 (let! v18 := deref v14 in let! v19 := deref (Distance_distance (lf_base v18)) in Ok (near v19 (dlit (0) 1) (dlit (1) 2))) (
    chk 42 (let! v20 := deref v14 in Ok (DistUnit_beq (distUnit (lf_base v20)) FEET)) (
    chk 44 (let! v21 := deref v14 in Ok (Distance_isReported (lf_top v21))) (
    chk 45 (let! v22 := deref v14 in Ok (DistModifier_beq (distModifier (lf_base v22)) DM_NONE)) (
    chk 46 (let! v23 := deref v14 in Ok (has_value (Distance_distance (lf_top v23)))) (
    chk 47 (let! v24 := deref v14 in let! v25 := deref (Distance_distance (lf_top v24)) in Ok (near v25 (dlit (4000) 1) (dlit (1) 2))) (
    chk 48 (let! v26 := deref v14 in Ok (DistUnit_beq (distUnit (lf_base v26)) FEET)) (
    None)))))))))))))))))))))))).

Definition t_LayerForecastGroup_baseTopHeightsNotReported : option N :=
    step 52 ((LayerForecastGroup_parse "62////" RP_TAF md_default)) (fun v1 => 
    chk 53 (Ok (has_value v1)) (
    chk 55 (let! v2 := deref v1 in Ok (negb (Distance_isReported (lf_base v2)))) (
    chk 56 (let! v3 := deref v1 in Ok (negb (Distance_isReported (lf_top v3)))) (
    step 58 ((LayerForecastGroup_parse "52////" RP_TAF md_default)) (fun v4 => 
    chk 59 (Ok (has_value v4)) (
    chk 61 (let! v5 := deref v4 in Ok (negb (Distance_isReported (lf_base v5)))) (
    chk 62 (let! v6 := deref v4 in Ok (negb (Distance_isReported (lf_top v6)))) (
    None)))))))).

Definition t_LayerForecastGroup_icingTrace : option N :=
    step 71 ((LayerForecastGroup_parse "600304" RP_TAF md_default)) (fun v1 => 
    chk 72 (Ok (has_value v1)) (
    chk 73 (let! v2 := deref v1 in Ok (LfType_beq (lf_type v2) Lf_ICING_TRACE_OR_NONE)) (
    None))).

Definition t_LayerForecastGroup_icingLightMixed : option N :=
    step 77 ((LayerForecastGroup_parse "610304" RP_TAF md_default)) (fun v1 => 
    chk 78 (Ok (has_value v1)) (
    chk 79 (let! v2 := deref v1 in Ok (LfType_beq (lf_type v2) Lf_ICING_LIGHT_MIXED)) (
    None))).

Definition t_LayerForecastGroup_icingLightRimeInCloud : option N :=
    step 83 ((LayerForecastGroup_parse "620304" RP_TAF md_default)) (fun v1 => 
    chk 84 (Ok (has_value v1)) (
    chk 85 (let! v2 := deref v1 in Ok (LfType_beq (lf_type v2) Lf_ICING_LIGHT_RIME_IN_CLOUD)) (
    None))).

Definition t_LayerForecastGroup_icingLightClearInPrecipitation : option N :=
    step 89 ((LayerForecastGroup_parse "630304" RP_TAF md_default)) (fun v1 => 
    chk 90 (Ok (has_value v1)) (
    chk 91 (let! v2 := deref v1 in Ok (LfType_beq (lf_type v2) Lf_ICING_LIGHT_CLEAR_IN_PRECIPITATION)) (
    None))).

Definition t_LayerForecastGroup_icingModerateMixed : option N :=
    step 95 ((LayerForecastGroup_parse "640304" RP_TAF md_default)) (fun v1 => 
    chk 96 (Ok (has_value v1)) (
    chk 97 (let! v2 := deref v1 in Ok (LfType_beq (lf_type v2) Lf_ICING_MODERATE_MIXED)) (
    None))).

Definition t_LayerForecastGroup_icingModerateRimeInCloud : option N :=
    step 101 ((LayerForecastGroup_parse "650304" RP_TAF md_default)) (fun v1 => 
    chk 102 (Ok (has_value v1)) (
    chk 103 (let! v2 := deref v1 in Ok (LfType_beq (lf_type v2) Lf_ICING_MODERATE_RIME_IN_CLOUD)) (
    None))).

Definition t_LayerForecastGroup_icingModerateClearInPrecipitation : option N :=
    step 107 ((LayerForecastGroup_parse "660304" RP_TAF md_default)) (fun v1 => 
    chk 108 (Ok (has_value v1)) (
    chk 109 (let! v2 := deref v1 in Ok (LfType_beq (lf_type v2) Lf_ICING_MODERATE_CLEAR_IN_PRECIPITATION)) (
    None))).

Definition t_LayerForecastGroup_icingSevereMixed : option N :=
    step 113 ((LayerForecastGroup_parse "670304" RP_TAF md_default)) (fun v1 => 
    chk 114 (Ok (has_value v1)) (
    chk 115 (let! v2 := deref v1 in Ok (LfType_beq (lf_type v2) Lf_ICING_SEVERE_MIXED)) (
    None))).

Definition t_LayerForecastGroup_icingSevereRimeInCloud : option N :=
    step 119 ((LayerForecastGroup_parse "680304" RP_TAF md_default)) (fun v1 => 
    chk 120 (Ok (has_value v1)) (
    chk 121 (let! v2 := deref v1 in Ok (LfType_beq (lf_type v2) Lf_ICING_SEVERE_RIME_IN_CLOUD)) (
    None))).

Definition t_LayerForecastGroup_icingSevereClearInPrecipitation : option N :=
    step 125 ((LayerForecastGroup_parse "690304" RP_TAF md_default)) (fun v1 => 
    chk 126 (Ok (has_value v1)) (
    chk 127 (let! v2 := deref v1 in Ok (LfType_beq (lf_type v2) Lf_ICING_SEVERE_CLEAR_IN_PRECIPITATION)) (
    None))).

Definition t_LayerForecastGroup_turbulenceNone : option N :=
    step 136 ((LayerForecastGroup_parse "500004" RP_TAF md_default)) (fun v1 => 
    chk 137 (Ok (has_value v1)) (
    chk 138 (let! v2 := deref v1 in Ok (LfType_beq (lf_type v2) Lf_TURBULENCE_NONE)) (
    None))).

Definition t_LayerForecastGroup_turbulenceLight : option N :=
    step 142 ((LayerForecastGroup_parse "510004" RP_TAF md_default)) (fun v1 => 
    chk 143 (Ok (has_value v1)) (
    chk 144 (let! v2 := deref v1 in Ok (LfType_beq (lf_type v2) Lf_TURBULENCE_LIGHT)) (
    None))).

Definition t_LayerForecastGroup_turbulenceModerateInClearAirOccasional : option N :=
    step 148 ((LayerForecastGroup_parse "520004" RP_TAF md_default)) (fun v1 => 
    chk 149 (Ok (has_value v1)) (
    chk 150 (let! v2 := deref v1 in Ok (LfType_beq (lf_type v2) Lf_TURBULENCE_MODERATE_IN_CLEAR_AIR_OCCASIONAL)) (
    None))).

Definition t_LayerForecastGroup_turbulenceModerateInClearAirFrequent : option N :=
    step 154 ((LayerForecastGroup_parse "530004" RP_TAF md_default)) (fun v1 => 
    chk 155 (Ok (has_value v1)) (
    chk 156 (let! v2 := deref v1 in Ok (LfType_beq (lf_type v2) Lf_TURBULENCE_MODERATE_IN_CLEAR_AIR_FREQUENT)) (
    None))).

Definition t_LayerForecastGroup_turbulenceModerateInCloudOccasional : option N :=
    step 160 ((LayerForecastGroup_parse "540004" RP_TAF md_default)) (fun v1 => 
    chk 161 (Ok (has_value v1)) (
    chk 162 (let! v2 := deref v1 in Ok (LfType_beq (lf_type v2) Lf_TURBULENCE_MODERATE_IN_CLOUD_OCCASIONAL)) (
    None))).

Definition t_LayerForecastGroup_turbulenceModerateInCloudFrequent : option N :=
    step 166 ((LayerForecastGroup_parse "550004" RP_TAF md_default)) (fun v1 => 
    chk 167 (Ok (has_value v1)) (
    chk 168 (let! v2 := deref v1 in Ok (LfType_beq (lf_type v2) Lf_TURBULENCE_MODERATE_IN_CLOUD_FREQUENT)) (
    None))).

Definition t_LayerForecastGroup_turbulenceSevereInClearAirOccasional : option N :=
    step 172 ((LayerForecastGroup_parse "560004" RP_TAF md_default)) (fun v1 => 
    chk 173 (Ok (has_value v1)) (
    chk 174 (let! v2 := deref v1 in Ok (LfType_beq (lf_type v2) Lf_TURBULENCE_SEVERE_IN_CLEAR_AIR_OCCASIONAL)) (
    None))).

Definition t_LayerForecastGroup_turbulenceSevereInClearAirFrequent : option N :=
    step 178 ((LayerForecastGroup_parse "570004" RP_TAF md_default)) (fun v1 => 
    chk 179 (Ok (has_value v1)) (
    chk 180 (let! v2 := deref v1 in Ok (LfType_beq (lf_type v2) Lf_TURBULENCE_SEVERE_IN_CLEAR_AIR_FREQUENT)) (
    None))).

Definition t_LayerForecastGroup_turbulenceSevereInCloudOccasional : option N :=
    step 184 ((LayerForecastGroup_parse "580004" RP_TAF md_default)) (fun v1 => 
    chk 185 (Ok (has_value v1)) (
    chk 186 (let! v2 := deref v1 in Ok (LfType_beq (lf_type v2) Lf_TURBULENCE_SEVERE_IN_CLOUD_OCCASIONAL)) (
    None))).

Definition t_LayerForecastGroup_turbulenceSevereInCloudFrequent : option N :=
    step 190 ((LayerForecastGroup_parse "590004" RP_TAF md_default)) (fun v1 => 
    chk 191 (Ok (has_value v1)) (
    chk 192 (let! v2 := deref v1 in Ok (LfType_beq (lf_type v2) Lf_TURBULENCE_SEVERE_IN_CLOUD_FREQUENT)) (
    None))).

Definition t_LayerForecastGroup_turbulenceExtreme : option N :=
    step 196 ((LayerForecastGroup_parse "5X0004" RP_TAF md_default)) (fun v1 => 
    chk 197 (Ok (has_value v1)) (
    chk 198 (let! v2 := deref v1 in Ok (LfType_beq (lf_type v2) Lf_TURBULENCE_EXTREME)) (
    None))).

Definition t_LayerForecastGroup_wrongReportPart : option N :=
    chk 207 (let! v1 := (LayerForecastGroup_parse "620324" RP_UNKNOWN md_default) in Ok (negb (has_value v1))) (
    chk 208 (let! v2 := (LayerForecastGroup_parse "620324" RP_HEADER md_default) in Ok (negb (has_value v2))) (
    chk 209 (let! v3 := (LayerForecastGroup_parse "620324" RP_METAR md_default) in Ok (negb (has_value v3))) (
    chk 210 (let! v4 := (LayerForecastGroup_parse "620324" RP_RMK md_default) in Ok (negb (has_value v4))) (
    None)))).

Definition t_LayerForecastGroup_wrongFormat : option N :=
    chk 214 (let! v1 := (LayerForecastGroup_parse "62" RP_TAF md_default) in Ok (negb (has_value v1))) (
    chk 215 (let! v2 := (LayerForecastGroup_parse "6" RP_TAF md_default) in Ok (negb (has_value v2))) (
    chk 216 (let! v3 := (LayerForecastGroup_parse "6X0324" RP_TAF md_default) in Ok (negb (has_value v3))) (
    chk 217 (let! v4 := (LayerForecastGroup_parse "6/////" RP_TAF md_default) in Ok (negb (has_value v4))) (
    chk 218 (let! v5 := (LayerForecastGroup_parse "5/////" RP_TAF md_default) in Ok (negb (has_value v5))) (
    chk 219 (let! v6 := (LayerForecastGroup_parse "62//12" RP_TAF md_default) in Ok (negb (has_value v6))) (
    chk 220 (let! v7 := (LayerForecastGroup_parse "52//12" RP_TAF md_default) in Ok (negb (has_value v7))) (
    chk 221 (let! v8 := (LayerForecastGroup_parse "6212//" RP_TAF md_default) in Ok (negb (has_value v8))) (
    chk 222 (let! v9 := (LayerForecastGroup_parse "5212//" RP_TAF md_default) in Ok (negb (has_value v9))) (
    chk 223 (let! v10 := (LayerForecastGroup_parse "62///3" RP_TAF md_default) in Ok (negb (has_value v10))) (
    chk 224 (let! v11 := (LayerForecastGroup_parse "62065/" RP_TAF md_default) in Ok (negb (has_value v11))) (
    chk 225 (let! v12 := (LayerForecastGroup_parse "6200324" RP_TAF md_default) in Ok (negb (has_value v12))) (
    chk 226 (let! v13 := (LayerForecastGroup_parse "62324" RP_TAF md_default) in Ok (negb (has_value v13))) (
    chk 227 (let! v14 := (LayerForecastGroup_parse "62032A" RP_TAF md_default) in Ok (negb (has_value v14))) (
    chk 228 (let! v15 := (LayerForecastGroup_parse "6203A4" RP_TAF md_default) in Ok (negb (has_value v15))) (
    chk 229 (let! v16 := (LayerForecastGroup_parse "620A24" RP_TAF md_default) in Ok (negb (has_value v16))) (
    chk 230 (let! v17 := (LayerForecastGroup_parse "62A324" RP_TAF md_default) in Ok (negb (has_value v17))) (
    None))))))))))))))))).

Definition t_LayerForecastGroup_append : option N :=
    step 240 ((LayerForecastGroup_parse "590004" RP_TAF md_default)) (fun v1 => 
    chk 241 (Ok (has_value v1)) (
    step 243 ((LayerForecastGroup_parse "620304" RP_TAF md_default)) (fun v2 => 
    chk 244 (Ok (has_value v2)) (
    step 246 (let! v3 := deref v1 in LayerForecastGroup_append v3 "590004" RP_TAF md_default) (fun p => let v4 := Some (fst p) in let v5 := snd p in 
    chk 246 (Ok (AppendResult_beq v5 NOT_APPENDED)) (
    step 248 (let! v6 := deref v4 in LayerForecastGroup_append v6 "620304" RP_TAF md_default) (fun p => let v7 := Some (fst p) in let v8 := snd p in 
    chk 248 (Ok (AppendResult_beq v8 NOT_APPENDED)) (
    step 250 (let! v9 := deref v7 in LayerForecastGroup_append v9 "RMK" RP_TAF md_default) (fun p => let v10 := Some (fst p) in let v11 := snd p in 
    chk 250 (Ok (AppendResult_beq v11 NOT_APPENDED)) (
    step 252 (let! v12 := deref v10 in LayerForecastGroup_append v12 "TEST" RP_TAF md_default) (fun p => let v13 := Some (fst p) in let v14 := snd p in 
    chk 252 (Ok (AppendResult_beq v14 NOT_APPENDED)) (
    step 255 (let! v15 := deref v2 in LayerForecastGroup_append v15 "590004" RP_TAF md_default) (fun p => let v16 := Some (fst p) in let v17 := snd p in 
    chk 255 (Ok (AppendResult_beq v17 NOT_APPENDED)) (
    step 257 (let! v18 := deref v16 in LayerForecastGroup_append v18 "620304" RP_TAF md_default) (fun p => let v19 := Some (fst p) in let v20 := snd p in 
    chk 257 (Ok (AppendResult_beq v20 NOT_APPENDED)) (
    step 259 (let! v21 := deref v19 in LayerForecastGroup_append v21 "RMK" RP_TAF md_default) (fun p => let v22 := Some (fst p) in let v23 := snd p in 
    chk 259 (Ok (AppendResult_beq v23 NOT_APPENDED)) (
    step 261 (let! v24 := deref v22 in LayerForecastGroup_append v24 "TEST" RP_TAF md_default) (fun p => let v25 := Some (fst p) in let v26 := snd p in 
    chk 261 (Ok (AppendResult_beq v26 NOT_APPENDED)) (
    None)))))))))))))))))))).

Definition t_LayerForecastGroup_isValid : option N :=
    step 271 ((LayerForecastGroup_parse "590004" RP_TAF md_default)) (fun v1 => 
    chk 272 (Ok (has_value v1)) (
    chk 273 (let! v2 := deref v1 in Ok (LayerForecastGroup_isValid v2)) (
    step 275 ((LayerForecastGroup_parse "620304" RP_TAF md_default)) (fun v3 => 
    chk 276 (Ok (has_value v3)) (
    chk 277 (let! v4 := deref v3 in Ok (LayerForecastGroup_isValid v4)) (
    None)))))).

Example tests_layerforecastgroup_pass : failures
  [("LayerForecastGroup_baseTopHeights", t_LayerForecastGroup_baseTopHeights);
   ("LayerForecastGroup_baseTopHeightsNotReported", t_LayerForecastGroup_baseTopHeightsNotReported);
   ("LayerForecastGroup_icingTrace", t_LayerForecastGroup_icingTrace);
   ("LayerForecastGroup_icingLightMixed", t_LayerForecastGroup_icingLightMixed);
   ("LayerForecastGroup_icingLightRimeInCloud", t_LayerForecastGroup_icingLightRimeInCloud);
   ("LayerForecastGroup_icingLightClearInPrecipitation", t_LayerForecastGroup_icingLightClearInPrecipitation);
   ("LayerForecastGroup_icingModerateMixed", t_LayerForecastGroup_icingModerateMixed);
   ("LayerForecastGroup_icingModerateRimeInCloud", t_LayerForecastGroup_icingModerateRimeInCloud);
   ("LayerForecastGroup_icingModerateClearInPrecipitation", t_LayerForecastGroup_icingModerateClearInPrecipitation);
   ("LayerForecastGroup_icingSevereMixed", t_LayerForecastGroup_icingSevereMixed);
   ("LayerForecastGroup_icingSevereRimeInCloud", t_LayerForecastGroup_icingSevereRimeInCloud);
   ("LayerForecastGroup_icingSevereClearInPrecipitation", t_LayerForecastGroup_icingSevereClearInPrecipitation);
   ("LayerForecastGroup_turbulenceNone", t_LayerForecastGroup_turbulenceNone);
   ("LayerForecastGroup_turbulenceLight", t_LayerForecastGroup_turbulenceLight);
   ("LayerForecastGroup_turbulenceModerateInClearAirOccasional", t_LayerForecastGroup_turbulenceModerateInClearAirOccasional);
   ("LayerForecastGroup_turbulenceModerateInClearAirFrequent", t_LayerForecastGroup_turbulenceModerateInClearAirFrequent);
   ("LayerForecastGroup_turbulenceModerateInCloudOccasional", t_LayerForecastGroup_turbulenceModerateInCloudOccasional);
   ("LayerForecastGroup_turbulenceModerateInCloudFrequent", t_LayerForecastGroup_turbulenceModerateInCloudFrequent);
   ("LayerForecastGroup_turbulenceSevereInClearAirOccasional", t_LayerForecastGroup_turbulenceSevereInClearAirOccasional);
   ("LayerForecastGroup_turbulenceSevereInClearAirFrequent", t_LayerForecastGroup_turbulenceSevereInClearAirFrequent);
   ("LayerForecastGroup_turbulenceSevereInCloudOccasional", t_LayerForecastGroup_turbulenceSevereInCloudOccasional);
   ("LayerForecastGroup_turbulenceSevereInCloudFrequent", t_LayerForecastGroup_turbulenceSevereInCloudFrequent);
   ("LayerForecastGroup_turbulenceExtreme", t_LayerForecastGroup_turbulenceExtreme);
   ("LayerForecastGroup_wrongReportPart", t_LayerForecastGroup_wrongReportPart);
   ("LayerForecastGroup_wrongFormat", t_LayerForecastGroup_wrongFormat);
   ("LayerForecastGroup_append", t_LayerForecastGroup_append);
   ("LayerForecastGroup_isValid", t_LayerForecastGroup_isValid)] = [].
Proof. vm_compute. reflexivity. Qed.
