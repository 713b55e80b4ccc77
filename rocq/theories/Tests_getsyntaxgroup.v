(** Generated by tools/gen_tests.py from /repo/test/test_getsyntaxgroup.cpp: the project's own unit tests, run
    against the model. These are tests of the model's fidelity, not properties. *)

From Verif Require Import Prim Regex Float Values Weather Groups1 Groups2 Groups3 Groups4 Parser TestLib.
Local Open Scope string_scope.
Local Open Scope bool_scope.

Definition t_getSyntaxGroup_METAR : option N :=
    step 18 ((KeywordGroup_parse "METAR" RP_HEADER md_default)) (fun v1 => 
    chk 19 (Ok (has_value v1)) (
    chk 20 (let! v2 := deref v1 in Ok (SyntaxGroup_beq (getSyntaxGroup (GKeyword v2)) SG_METAR)) (
    None))).

Definition t_getSyntaxGroup_SPECI : option N :=
    step 24 ((KeywordGroup_parse "SPECI" RP_HEADER md_default)) (fun v1 => 
    chk 25 (Ok (has_value v1)) (
    chk 26 (let! v2 := deref v1 in Ok (SyntaxGroup_beq (getSyntaxGroup (GKeyword v2)) SG_SPECI)) (
    None))).

Definition t_getSyntaxGroup_TAF : option N :=
    step 30 ((KeywordGroup_parse "TAF" RP_HEADER md_default)) (fun v1 => 
    chk 31 (Ok (has_value v1)) (
    chk 32 (let! v2 := deref v1 in Ok (SyntaxGroup_beq (getSyntaxGroup (GKeyword v2)) SG_TAF)) (
    None))).

Definition t_getSyntaxGroup_COR : option N :=
    step 36 ((KeywordGroup_parse "COR" RP_HEADER md_default)) (fun v1 => 
    chk 37 (Ok (has_value v1)) (
    chk 38 (let! v2 := deref v1 in Ok (SyntaxGroup_beq (getSyntaxGroup (GKeyword v2)) SG_COR)) (
    None))).

Definition t_getSyntaxGroup_AMD : option N :=
    step 42 ((KeywordGroup_parse "AMD" RP_HEADER md_default)) (fun v1 => 
    chk 43 (Ok (has_value v1)) (
    chk 44 (let! v2 := deref v1 in Ok (SyntaxGroup_beq (getSyntaxGroup (GKeyword v2)) SG_AMD)) (
    None))).

Definition t_getSyntaxGroup_NIL : option N :=
    step 48 ((KeywordGroup_parse "NIL" RP_HEADER md_default)) (fun v1 => 
    chk 49 (Ok (has_value v1)) (
    chk 50 (let! v2 := deref v1 in Ok (SyntaxGroup_beq (getSyntaxGroup (GKeyword v2)) SG_NIL)) (
    None))).

Definition t_getSyntaxGroup_CNL : option N :=
    step 54 ((KeywordGroup_parse "CNL" RP_HEADER md_default)) (fun v1 => 
    chk 55 (Ok (has_value v1)) (
    chk 56 (let! v2 := deref v1 in Ok (SyntaxGroup_beq (getSyntaxGroup (GKeyword v2)) SG_CNL)) (
    None))).

Definition t_getSyntaxGroup_RMK : option N :=
    step 60 ((KeywordGroup_parse "RMK" RP_METAR md_default)) (fun v1 => 
    chk 61 (Ok (has_value v1)) (
    chk 62 (let! v2 := deref v1 in Ok (SyntaxGroup_beq (getSyntaxGroup (GKeyword v2)) SG_RMK)) (
    None))).

Definition t_getSyntaxGroup_maintenanceIndicator : option N :=
    step 66 ((KeywordGroup_parse "$" RP_METAR md_default)) (fun v1 => 
    chk 67 (Ok (has_value v1)) (
    chk 68 (let! v2 := deref v1 in Ok (SyntaxGroup_beq (getSyntaxGroup (GKeyword v2)) SG_MAINTENANCE_INDICATOR)) (
    None))).

Definition t_getSyntaxGroup_OTHER_AUTO : option N :=
    step 78 ((KeywordGroup_parse "AUTO" RP_METAR md_default)) (fun v1 => 
    chk 79 (Ok (has_value v1)) (
    chk 80 (let! v2 := deref v1 in Ok (SyntaxGroup_beq (getSyntaxGroup (GKeyword v2)) SG_OTHER)) (
    None))).

Definition t_getSyntaxGroup_OTHER_CAVOK : option N :=
    step 84 ((KeywordGroup_parse "CAVOK" RP_METAR md_default)) (fun v1 => 
    chk 85 (Ok (has_value v1)) (
    chk 86 (let! v2 := deref v1 in Ok (SyntaxGroup_beq (getSyntaxGroup (GKeyword v2)) SG_OTHER)) (
    None))).

Definition t_getSyntaxGroup_OTHER_AO1 : option N :=
    step 90 ((KeywordGroup_parse "AO1" RP_RMK md_default)) (fun v1 => 
    chk 91 (Ok (has_value v1)) (
    chk 92 (let! v2 := deref v1 in Ok (SyntaxGroup_beq (getSyntaxGroup (GKeyword v2)) SG_OTHER)) (
    None))).

Definition t_getSyntaxGroup_OTHER_AO2 : option N :=
    step 96 ((KeywordGroup_parse "AO2" RP_RMK md_default)) (fun v1 => 
    chk 97 (Ok (has_value v1)) (
    chk 98 (let! v2 := deref v1 in Ok (SyntaxGroup_beq (getSyntaxGroup (GKeyword v2)) SG_OTHER)) (
    None))).

Definition t_getSyntaxGroup_OTHER_AO1A : option N :=
    step 102 ((KeywordGroup_parse "AO1A" RP_RMK md_default)) (fun v1 => 
    chk 103 (Ok (has_value v1)) (
    chk 104 (let! v2 := deref v1 in Ok (SyntaxGroup_beq (getSyntaxGroup (GKeyword v2)) SG_OTHER)) (
    None))).

Definition t_getSyntaxGroup_OTHER_AO2A : option N :=
    step 108 ((KeywordGroup_parse "AO2A" RP_RMK md_default)) (fun v1 => 
    chk 109 (Ok (has_value v1)) (
    chk 110 (let! v2 := deref v1 in Ok (SyntaxGroup_beq (getSyntaxGroup (GKeyword v2)) SG_OTHER)) (
    None))).

Definition t_getSyntaxGroup_OTHER_NOSPECI : option N :=
    step 114 ((KeywordGroup_parse "NOSPECI" RP_RMK md_default)) (fun v1 => 
    chk 115 (Ok (has_value v1)) (
    chk 116 (let! v2 := deref v1 in Ok (SyntaxGroup_beq (getSyntaxGroup (GKeyword v2)) SG_OTHER)) (
    None))).

Definition t_getSyntaxGroup_LOCATION : option N :=
    step 127 ((LocationGroup_parse "UKLL" RP_HEADER md_default)) (fun v1 => 
    chk 128 (Ok (has_value v1)) (
    chk 129 (let! v2 := deref v1 in Ok (SyntaxGroup_beq (getSyntaxGroup (GLocation v2)) SG_LOCATION)) (
    None))).

Definition t_getSyntaxGroup_REPORT_TIME : option N :=
    step 133 ((ReportTimeGroup_parse "081230Z" RP_HEADER md_default)) (fun v1 => 
    chk 134 (Ok (has_value v1)) (
    chk 135 (let! v2 := deref v1 in Ok (SyntaxGroup_beq (getSyntaxGroup (GReportTime v2)) SG_REPORT_TIME)) (
    None))).

Definition t_getSyntaxGroup_TREND_TIME_SPAN : option N :=
    step 139 ((TrendGroup_parse "0812/0824" RP_HEADER md_default)) (fun v1 => 
    chk 140 (Ok (has_value v1)) (
    chk 141 (let! v2 := deref v1 in Ok (SyntaxGroup_beq (getSyntaxGroup (GTrend v2)) SG_TIME_SPAN)) (
    None))).

Definition t_getSyntaxGroup_OTHER_NOSIG : option N :=
    step 151 ((TrendGroup_parse "NOSIG" RP_METAR md_default)) (fun v1 => 
    chk 152 (Ok (has_value v1)) (
    chk 153 (let! v2 := deref v1 in Ok (SyntaxGroup_beq (getSyntaxGroup (GTrend v2)) SG_OTHER)) (
    None))).

Definition t_getSyntaxGroup_OTHER_TEMPO : option N :=
    step 157 ((TrendGroup_parse "TEMPO" RP_METAR md_default)) (fun v1 => 
    chk 158 (Ok (has_value v1)) (
    chk 159 (let! v2 := deref v1 in Ok (SyntaxGroup_beq (getSyntaxGroup (GTrend v2)) SG_OTHER)) (
    None))).

Definition t_getSyntaxGroup_OTHER_BECMG : option N :=
    step 163 ((TrendGroup_parse "BECMG" RP_METAR md_default)) (fun v1 => 
    chk 164 (Ok (has_value v1)) (
    chk 165 (let! v2 := deref v1 in Ok (SyntaxGroup_beq (getSyntaxGroup (GTrend v2)) SG_OTHER)) (
    None))).

Definition t_getSyntaxGroup_OTHER_INTER : option N :=
    step 169 ((TrendGroup_parse "INTER" RP_METAR md_default)) (fun v1 => 
    chk 170 (Ok (has_value v1)) (
    chk 171 (let! v2 := deref v1 in Ok (SyntaxGroup_beq (getSyntaxGroup (GTrend v2)) SG_OTHER)) (
    None))).

Definition t_getSyntaxGroup_OTHER_TrendFrom : option N :=
    step 175 ((TrendGroup_parse "FM191445" RP_TAF md_default)) (fun v1 => 
    chk 176 (Ok (has_value v1)) (
    chk 177 (let! v2 := deref v1 in Ok (SyntaxGroup_beq (getSyntaxGroup (GTrend v2)) SG_OTHER)) (
    step 179 ((TrendGroup_parse "FM1445" RP_METAR md_default)) (fun v3 => 
    chk 180 (Ok (has_value v3)) (
    chk 181 (let! v4 := deref v3 in Ok (SyntaxGroup_beq (getSyntaxGroup (GTrend v4)) SG_OTHER)) (
    None)))))).

Definition t_getSyntaxGroup_OTHER_TrendUntil : option N :=
    step 185 ((TrendGroup_parse "TL1445" RP_METAR md_default)) (fun v1 => 
    chk 186 (Ok (has_value v1)) (
    chk 187 (let! v2 := deref v1 in Ok (SyntaxGroup_beq (getSyntaxGroup (GTrend v2)) SG_OTHER)) (
    None))).

Definition t_getSyntaxGroup_OTHER_TrendAt : option N :=
    step 191 ((TrendGroup_parse "AT1445" RP_METAR md_default)) (fun v1 => 
    chk 192 (Ok (has_value v1)) (
    chk 193 (let! v2 := deref v1 in Ok (SyntaxGroup_beq (getSyntaxGroup (GTrend v2)) SG_OTHER)) (
    None))).

Definition t_getSyntaxGroup_OTHER_TrendFromUntil : option N :=
    step 197 ((TrendGroup_parse "FM1230" RP_METAR md_default)) (fun v1 => 
    chk 198 (Ok (has_value v1)) (
    step 199 (let! v2 := deref v1 in TrendGroup_append v2 "TL1415" RP_METAR md_default) (fun p => let v3 := Some (fst p) in let v4 := snd p in 
    chk 199 (Ok (AppendResult_beq v4 APPENDED)) (
    chk 201 (let! v5 := deref v3 in Ok (SyntaxGroup_beq (getSyntaxGroup (GTrend v5)) SG_OTHER)) (
    None))))).

Definition t_getSyntaxGroup_OTHER_Probability : option N :=
    step 205 ((TrendGroup_parse "PROB40" RP_TAF md_default)) (fun v1 => 
    chk 206 (Ok (has_value v1)) (
    chk 207 (let! v2 := deref v1 in Ok (SyntaxGroup_beq (getSyntaxGroup (GTrend v2)) SG_OTHER)) (
    None))).

Definition t_getSyntaxGroup_OTHER_MetarTimeSpan_HHMM_HHMM : option N :=
    step 211 ((TrendGroup_parse "0812/0824" RP_METAR md_default)) (fun v1 => 
    chk 212 (Ok (has_value v1)) (
    chk 213 (let! v2 := deref v1 in Ok (SyntaxGroup_beq (getSyntaxGroup (GTrend v2)) SG_TIME_SPAN)) (
    None))).

Definition t_getSyntaxGroup_OTHER_WindGroup : option N :=
    step 223 ((WindGroup_parse "27005KT" RP_METAR md_default)) (fun v1 => 
    chk 224 (Ok (has_value v1)) (
    chk 225 (let! v2 := deref v1 in Ok (SyntaxGroup_beq (getSyntaxGroup (GWind v2)) SG_OTHER)) (
    None))).

Definition t_getSyntaxGroup_OTHER_VisibilityGroup : option N :=
    step 229 ((VisibilityGroup_parse "9999NDV" RP_METAR md_default)) (fun v1 => 
    chk 230 (Ok (has_value v1)) (
    chk 231 (let! v2 := deref v1 in Ok (SyntaxGroup_beq (getSyntaxGroup (GVisibility v2)) SG_OTHER)) (
    None))).

Definition t_getSyntaxGroup_OTHER_CloudGroup : option N :=
    step 235 ((CloudGroup_parse "BKN024" RP_METAR md_default)) (fun v1 => 
    chk 236 (Ok (has_value v1)) (
    chk 237 (let! v2 := deref v1 in Ok (SyntaxGroup_beq (getSyntaxGroup (GCloud v2)) SG_OTHER)) (
    None))).

Definition t_getSyntaxGroup_OTHER_CloudClr : option N :=
    step 241 ((CloudGroup_parse "CLR" RP_METAR md_default)) (fun v1 => 
    chk 242 (Ok (has_value v1)) (
    chk 243 (let! v2 := deref v1 in Ok (SyntaxGroup_beq (getSyntaxGroup (GCloud v2)) SG_OTHER)) (
    None))).

Definition t_getSyntaxGroup_OTHER_CloudSkc : option N :=
    step 247 ((CloudGroup_parse "SKC" RP_METAR md_default)) (fun v1 => 
    chk 248 (Ok (has_value v1)) (
    chk 249 (let! v2 := deref v1 in Ok (SyntaxGroup_beq (getSyntaxGroup (GCloud v2)) SG_OTHER)) (
    None))).

Definition t_getSyntaxGroup_OTHER_CloudNsc : option N :=
    step 253 ((CloudGroup_parse "NSC" RP_METAR md_default)) (fun v1 => 
    chk 254 (Ok (has_value v1)) (
    chk 255 (let! v2 := deref v1 in Ok (SyntaxGroup_beq (getSyntaxGroup (GCloud v2)) SG_OTHER)) (
    None))).

Definition t_getSyntaxGroup_OTHER_CloudNcd : option N :=
    step 259 ((CloudGroup_parse "NCD" RP_METAR md_default)) (fun v1 => 
    chk 260 (Ok (has_value v1)) (
    chk 261 (let! v2 := deref v1 in Ok (SyntaxGroup_beq (getSyntaxGroup (GCloud v2)) SG_OTHER)) (
    None))).

Definition t_getSyntaxGroup_OTHER_CloudVerticalVisibility : option N :=
    step 265 ((CloudGroup_parse "VV015" RP_METAR md_default)) (fun v1 => 
    chk 266 (Ok (has_value v1)) (
    chk 267 (let! v2 := deref v1 in Ok (SyntaxGroup_beq (getSyntaxGroup (GCloud v2)) SG_OTHER)) (
    None))).

Definition t_getSyntaxGroup_OTHER_WeatherGroup : option N :=
    step 271 ((WeatherGroup_parse "+SHSN" RP_METAR md_default)) (fun v1 => 
    chk 272 (Ok (has_value v1)) (
    chk 273 (let! v2 := deref v1 in Ok (SyntaxGroup_beq (getSyntaxGroup (GWeather v2)) SG_OTHER)) (
    None))).

Definition t_getSyntaxGroup_OTHER_TemperatureGroup : option N :=
    step 277 ((TemperatureGroup_parse "07/02" RP_METAR md_default)) (fun v1 => 
    chk 278 (Ok (has_value v1)) (
    chk 279 (let! v2 := deref v1 in Ok (SyntaxGroup_beq (getSyntaxGroup (GTemperature v2)) SG_OTHER)) (
    None))).

Definition t_getSyntaxGroup_OTHER_PressureGroup : option N :=
    step 283 ((PressureGroup_parse "Q1033" RP_METAR md_default)) (fun v1 => 
    chk 284 (Ok (has_value v1)) (
    chk 285 (let! v2 := deref v1 in Ok (SyntaxGroup_beq (getSyntaxGroup (GPressure v2)) SG_OTHER)) (
    None))).

Definition t_getSyntaxGroup_OTHER_RunwayStateGroup : option N :=
    step 289 ((RunwayStateGroup_parse "R16/750155" RP_METAR md_default)) (fun v1 => 
    chk 290 (Ok (has_value v1)) (
    chk 291 (let! v2 := deref v1 in Ok (SyntaxGroup_beq (getSyntaxGroup (GRunwayState v2)) SG_OTHER)) (
    None))).

Definition t_getSyntaxGroup_OTHER_SeaSurfaceGroup : option N :=
    step 295 ((SeaSurfaceGroup_parse "W15/S4" RP_METAR md_default)) (fun v1 => 
    chk 296 (Ok (has_value v1)) (
    chk 297 (let! v2 := deref v1 in Ok (SyntaxGroup_beq (getSyntaxGroup (GSeaSurface v2)) SG_OTHER)) (
    None))).

Definition t_getSyntaxGroup_OTHER_MinMaxTemperatureGroup : option N :=
    step 301 ((MinMaxTemperatureGroup_parse "401120084" RP_RMK md_default)) (fun v1 => 
    chk 302 (Ok (has_value v1)) (
    chk 303 (let! v2 := deref v1 in Ok (SyntaxGroup_beq (getSyntaxGroup (GMinMaxTemperature v2)) SG_OTHER)) (
    None))).

Definition t_getSyntaxGroup_OTHER_PrecipitationGroup : option N :=
    step 307 ((PrecipitationGroup_parse "P2168" RP_RMK md_default)) (fun v1 => 
    chk 308 (Ok (has_value v1)) (
    chk 309 (let! v2 := deref v1 in Ok (SyntaxGroup_beq (getSyntaxGroup (GPrecipitation v2)) SG_OTHER)) (
    None))).

Definition t_getSyntaxGroup_OTHER_LayerForecastGroup : option N :=
    step 313 ((LayerForecastGroup_parse "620304" RP_TAF md_default)) (fun v1 => 
    chk 314 (Ok (has_value v1)) (
    chk 315 (let! v2 := deref v1 in Ok (SyntaxGroup_beq (getSyntaxGroup (GLayerForecast v2)) SG_OTHER)) (
    None))).

Definition t_getSyntaxGroup_OTHER_PressureTendencyGroup : option N :=
    step 319 ((PressureTendencyGroup_parse "52032" RP_RMK md_default)) (fun v1 => 
    chk 320 (Ok (has_value v1)) (
    chk 321 (let! v2 := deref v1 in Ok (SyntaxGroup_beq (getSyntaxGroup (GPressureTendency v2)) SG_OTHER)) (
    None))).

Definition t_getSyntaxGroup_OTHER_CloudTypesGroup : option N :=
    step 325 ((CloudTypesGroup_parse "CF1CU3SC1CS1CI2" RP_RMK md_default)) (fun v1 => 
    chk 326 (Ok (has_value v1)) (
    chk 327 (let! v2 := deref v1 in Ok (SyntaxGroup_beq (getSyntaxGroup (GCloudTypes v2)) SG_OTHER)) (
    None))).

Definition t_getSyntaxGroup_OTHER_LowMidHighCloudGroup : option N :=
    step 331 ((LowMidHighCloudGroup_parse "8/578" RP_RMK md_default)) (fun v1 => 
    chk 332 (Ok (has_value v1)) (
    chk 333 (let! v2 := deref v1 in Ok (SyntaxGroup_beq (getSyntaxGroup (GLowMidHighCloud v2)) SG_OTHER)) (
    None))).

Definition t_getSyntaxGroup_OTHER_LightningGroup : option N :=
    step 337 ((LightningGroup_parse "LTG" RP_RMK md_default)) (fun v1 => 
    chk 338 (Ok (has_value v1)) (
    chk 339 (let! v2 := deref v1 in Ok (SyntaxGroup_beq (getSyntaxGroup (GLightning v2)) SG_OTHER)) (
    None))).

Definition t_getSyntaxGroup_OTHER_VicinityGroup : option N :=
    step 343 ((VicinityGroup_parse "CB" RP_RMK md_default)) (fun v1 => 
    chk 344 (Ok (has_value v1)) (
    step 345 (let! v2 := deref v1 in VicinityGroup_append v2 "N" RP_RMK md_default) (fun p => let v3 := Some (fst p) in let v4 := snd p in 
    chk 345 (Ok (AppendResult_beq v4 APPENDED)) (
    chk 346 (let! v5 := deref v3 in Ok (SyntaxGroup_beq (getSyntaxGroup (GVicinity v5)) SG_OTHER)) (
    None))))).

Definition t_getSyntaxGroup_OTHER_MiscGroup : option N :=
    step 350 ((MiscGroup_parse "98062" RP_RMK md_default)) (fun v1 => 
    chk 351 (Ok (has_value v1)) (
    chk 352 (let! v2 := deref v1 in Ok (SyntaxGroup_beq (getSyntaxGroup (GMisc v2)) SG_OTHER)) (
    step 354 ((MiscGroup_parse "CCA" RP_METAR md_default)) (fun v3 => 
    chk 355 (Ok (has_value v3)) (
    chk 356 (let! v4 := deref v3 in Ok (SyntaxGroup_beq (getSyntaxGroup (GMisc v4)) SG_OTHER)) (
    step 358 ((MiscGroup_parse "GR" RP_RMK md_default)) (fun v5 => 
    chk 359 (Ok (has_value v5)) (
    step 360 (let! v6 := deref v5 in MiscGroup_append v6 "1" RP_RMK md_default) (fun p => let v7 := Some (fst p) in let v8 := snd p in 
    chk 360 (Ok (AppendResult_beq v8 APPENDED)) (
    step 361 (let! v9 := deref v7 in MiscGroup_append v9 "3/4" RP_RMK md_default) (fun p => let v10 := Some (fst p) in let v11 := snd p in 
    chk 361 (Ok (AppendResult_beq v11 APPENDED)) (
    chk 362 (let! v12 := deref v10 in Ok (SyntaxGroup_beq (getSyntaxGroup (GMisc v12)) SG_OTHER)) (
    step 364 ((MiscGroup_parse "DENSITY" RP_RMK md_default)) (fun v13 => 
    chk 365 (Ok (has_value v13)) (
    step 366 (let! v14 := deref v13 in MiscGroup_append v14 "ALT" RP_RMK md_default) (fun p => let v15 := Some (fst p) in let v16 := snd p in 
    chk 366 (Ok (AppendResult_beq v16 APPENDED)) (
    step 367 (let! v17 := deref v15 in MiscGroup_append v17 "100FT" RP_RMK md_default) (fun p => let v18 := Some (fst p) in let v19 := snd p in 
    chk 367 (Ok (AppendResult_beq v19 APPENDED)) (
    chk 368 (let! v20 := deref v18 in Ok (SyntaxGroup_beq (getSyntaxGroup (GMisc v20)) SG_OTHER)) (
    step 370 ((MiscGroup_parse "BLU" RP_METAR md_default)) (fun v21 => 
    chk 371 (Ok (has_value v21)) (
    chk 372 (let! v22 := deref v21 in Ok (SyntaxGroup_beq (getSyntaxGroup (GMisc v22)) SG_OTHER)) (
    step 374 ((MiscGroup_parse "BLACKAMB" RP_METAR md_default)) (fun v23 => 
    chk 375 (Ok (has_value v23)) (
    chk 376 (let! v24 := deref v23 in Ok (SyntaxGroup_beq (getSyntaxGroup (GMisc v24)) SG_OTHER)) (
    None)))))))))))))))))))))))))).

Definition t_getSyntaxGroup_OTHER_UnknownGroup : option N :=
    step 380 ((UnknownGroup_parse "A1B2C3D4" RP_METAR md_default)) (fun v1 => 
    chk 381 (Ok (has_value v1)) (
    chk 382 (let! v2 := deref v1 in Ok (SyntaxGroup_beq (getSyntaxGroup (GUnknown v2)) SG_OTHER)) (
    None))).

Example tests_getsyntaxgroup_pass : failures
  [("getSyntaxGroup_METAR", t_getSyntaxGroup_METAR);
   ("getSyntaxGroup_SPECI", t_getSyntaxGroup_SPECI);
   ("getSyntaxGroup_TAF", t_getSyntaxGroup_TAF);
   ("getSyntaxGroup_COR", t_getSyntaxGroup_COR);
   ("getSyntaxGroup_AMD", t_getSyntaxGroup_AMD);
   ("getSyntaxGroup_NIL", t_getSyntaxGroup_NIL);
   ("getSyntaxGroup_CNL", t_getSyntaxGroup_CNL);
   ("getSyntaxGroup_RMK", t_getSyntaxGroup_RMK);
   ("getSyntaxGroup_maintenanceIndicator", t_getSyntaxGroup_maintenanceIndicator);
   ("getSyntaxGroup_OTHER_AUTO", t_getSyntaxGroup_OTHER_AUTO);
   ("getSyntaxGroup_OTHER_CAVOK", t_getSyntaxGroup_OTHER_CAVOK);
   ("getSyntaxGroup_OTHER_AO1", t_getSyntaxGroup_OTHER_AO1);
   ("getSyntaxGroup_OTHER_AO2", t_getSyntaxGroup_OTHER_AO2);
   ("getSyntaxGroup_OTHER_AO1A", t_getSyntaxGroup_OTHER_AO1A);
   ("getSyntaxGroup_OTHER_AO2A", t_getSyntaxGroup_OTHER_AO2A);
   ("getSyntaxGroup_OTHER_NOSPECI", t_getSyntaxGroup_OTHER_NOSPECI);
   ("getSyntaxGroup_LOCATION", t_getSyntaxGroup_LOCATION);
   ("getSyntaxGroup_REPORT_TIME", t_getSyntaxGroup_REPORT_TIME);
   ("getSyntaxGroup_TREND_TIME_SPAN", t_getSyntaxGroup_TREND_TIME_SPAN);
   ("getSyntaxGroup_OTHER_NOSIG", t_getSyntaxGroup_OTHER_NOSIG);
   ("getSyntaxGroup_OTHER_TEMPO", t_getSyntaxGroup_OTHER_TEMPO);
   ("getSyntaxGroup_OTHER_BECMG", t_getSyntaxGroup_OTHER_BECMG);
   ("getSyntaxGroup_OTHER_INTER", t_getSyntaxGroup_OTHER_INTER);
   ("getSyntaxGroup_OTHER_TrendFrom", t_getSyntaxGroup_OTHER_TrendFrom);
   ("getSyntaxGroup_OTHER_TrendUntil", t_getSyntaxGroup_OTHER_TrendUntil);
   ("getSyntaxGroup_OTHER_TrendAt", t_getSyntaxGroup_OTHER_TrendAt);
   ("getSyntaxGroup_OTHER_TrendFromUntil", t_getSyntaxGroup_OTHER_TrendFromUntil);
   ("getSyntaxGroup_OTHER_Probability", t_getSyntaxGroup_OTHER_Probability);
   ("getSyntaxGroup_OTHER_MetarTimeSpan_HHMM_HHMM", t_getSyntaxGroup_OTHER_MetarTimeSpan_HHMM_HHMM);
   ("getSyntaxGroup_OTHER_WindGroup", t_getSyntaxGroup_OTHER_WindGroup);
   ("getSyntaxGroup_OTHER_VisibilityGroup", t_getSyntaxGroup_OTHER_VisibilityGroup);
   ("getSyntaxGroup_OTHER_CloudGroup", t_getSyntaxGroup_OTHER_CloudGroup);
   ("getSyntaxGroup_OTHER_CloudClr", t_getSyntaxGroup_OTHER_CloudClr);
   ("getSyntaxGroup_OTHER_CloudSkc", t_getSyntaxGroup_OTHER_CloudSkc);
   ("getSyntaxGroup_OTHER_CloudNsc", t_getSyntaxGroup_OTHER_CloudNsc);
   ("getSyntaxGroup_OTHER_CloudNcd", t_getSyntaxGroup_OTHER_CloudNcd);
   ("getSyntaxGroup_OTHER_CloudVerticalVisibility", t_getSyntaxGroup_OTHER_CloudVerticalVisibility);
   ("getSyntaxGroup_OTHER_WeatherGroup", t_getSyntaxGroup_OTHER_WeatherGroup);
   ("getSyntaxGroup_OTHER_TemperatureGroup", t_getSyntaxGroup_OTHER_TemperatureGroup);
   ("getSyntaxGroup_OTHER_PressureGroup", t_getSyntaxGroup_OTHER_PressureGroup);
   ("getSyntaxGroup_OTHER_RunwayStateGroup", t_getSyntaxGroup_OTHER_RunwayStateGroup);
   ("getSyntaxGroup_OTHER_SeaSurfaceGroup", t_getSyntaxGroup_OTHER_SeaSurfaceGroup);
   ("getSyntaxGroup_OTHER_MinMaxTemperatureGroup", t_getSyntaxGroup_OTHER_MinMaxTemperatureGroup);
   ("getSyntaxGroup_OTHER_PrecipitationGroup", t_getSyntaxGroup_OTHER_PrecipitationGroup);
   ("getSyntaxGroup_OTHER_LayerForecastGroup", t_getSyntaxGroup_OTHER_LayerForecastGroup);
   ("getSyntaxGroup_OTHER_PressureTendencyGroup", t_getSyntaxGroup_OTHER_PressureTendencyGroup);
   ("getSyntaxGroup_OTHER_CloudTypesGroup", t_getSyntaxGroup_OTHER_CloudTypesGroup);
   ("getSyntaxGroup_OTHER_LowMidHighCloudGroup", t_getSyntaxGroup_OTHER_LowMidHighCloudGroup);
   ("getSyntaxGroup_OTHER_LightningGroup", t_getSyntaxGroup_OTHER_LightningGroup);
   ("getSyntaxGroup_OTHER_VicinityGroup", t_getSyntaxGroup_OTHER_VicinityGroup);
   ("getSyntaxGroup_OTHER_MiscGroup", t_getSyntaxGroup_OTHER_MiscGroup);
   ("getSyntaxGroup_OTHER_UnknownGroup", t_getSyntaxGroup_OTHER_UnknownGroup)] = [].
Proof. vm_compute. reflexivity. Qed.
