(** Generated by tools/gen_tests.py from /repo/test/test_weathergroup.cpp: the project's own unit tests, run
    against the model. These are tests of the model's fidelity, not properties. *)

From Verif Require Import Prim Regex Float Values Weather Groups1 Groups2 Groups3 Groups4 Parser TestLib.
Local Open Scope string_scope.
Local Open Scope bool_scope.

Definition t_WeatherGroup_parseWeatherMetar : option N :=
    step 19 ((WeatherGroup_parse "TSRA" RP_METAR md_default)) (fun v1 => 
    chk 20 (Ok (has_value v1)) (
    chk 22 (let! v2 := deref v1 in let! v3 := (WeatherGroup_isValid v2) in Ok v3) (
    chk 24 (let! v4 := deref v1 in Ok (WxType_beq (wx_t v4) Wx_CURRENT)) (
    chk 25 (let! v5 := deref v1 in Ok (N.eqb (N.of_nat (List.length (WeatherGroup_weatherPhenomena v5))) 1%N)) (
    step 27 (deref v1) (fun v6 => 
    step 27 (deref (List.nth_error (WeatherGroup_weatherPhenomena v6) 0%nat)) (fun v7 => 
    chk 28 (Ok (WpQualifier_beq (Wp_qualifier v7) Q_MODERATE)) (
    chk 29 (Ok (WpDescriptor_beq (Wp_descriptor v7) D_THUNDERSTORM)) (
    chk 30 (Ok (N.eqb (N.of_nat (List.length (Wp_weather v7))) 1%N)) (
    chk 31 (let! v8 := deref (List.nth_error (Wp_weather v7) 0%nat) in Ok (WpWeather_beq v8 W_RAIN)) (
    chk 32 (Ok (WpEvent_beq (Wp_event v7) Ev_NONE)) (
    chk 33 (Ok (negb (has_value (wpTm v7)))) (
    None))))))))))))).

Definition t_WeatherGroup_parseWeatherTaf : option N :=
    step 37 ((WeatherGroup_parse "TSRA" RP_TAF md_default)) (fun v1 => 
    chk 38 (Ok (has_value v1)) (
    chk 40 (let! v2 := deref v1 in let! v3 := (WeatherGroup_isValid v2) in Ok v3) (
    chk 42 (let! v4 := deref v1 in Ok (WxType_beq (wx_t v4) Wx_CURRENT)) (
    chk 43 (let! v5 := deref v1 in Ok (N.eqb (N.of_nat (List.length (WeatherGroup_weatherPhenomena v5))) 1%N)) (
    step 45 (deref v1) (fun v6 => 
    step 45 (deref (List.nth_error (WeatherGroup_weatherPhenomena v6) 0%nat)) (fun v7 => 
    chk 46 (Ok (WpQualifier_beq (Wp_qualifier v7) Q_MODERATE)) (
    chk 47 (Ok (WpDescriptor_beq (Wp_descriptor v7) D_THUNDERSTORM)) (
    chk 48 (Ok (N.eqb (N.of_nat (List.length (Wp_weather v7))) 1%N)) (
    chk 49 (let! v8 := deref (List.nth_error (Wp_weather v7) 0%nat) in Ok (WpWeather_beq v8 W_RAIN)) (
    chk 50 (Ok (WpEvent_beq (Wp_event v7) Ev_NONE)) (
    chk 51 (Ok (negb (has_value (wpTm v7)))) (
    None))))))))))))).

Definition t_WeatherGroup_parseRecentWeatherMetar : option N :=
    step 55 ((WeatherGroup_parse "RESHRA" RP_METAR md_default)) (fun v1 => 
    chk 56 (Ok (has_value v1)) (
    chk 58 (let! v2 := deref v1 in let! v3 := (WeatherGroup_isValid v2) in Ok v3) (
    chk 60 (let! v4 := deref v1 in Ok (WxType_beq (wx_t v4) Wx_RECENT)) (
    chk 61 (let! v5 := deref v1 in Ok (N.eqb (N.of_nat (List.length (WeatherGroup_weatherPhenomena v5))) 1%N)) (
    step 63 (deref v1) (fun v6 => 
    step 63 (deref (List.nth_error (WeatherGroup_weatherPhenomena v6) 0%nat)) (fun v7 => 
    chk 64 (Ok (WpQualifier_beq (Wp_qualifier v7) Q_RECENT)) (
    chk 65 (Ok (WpDescriptor_beq (Wp_descriptor v7) D_SHOWERS)) (
    chk 66 (Ok (N.eqb (N.of_nat (List.length (Wp_weather v7))) 1%N)) (
    chk 67 (let! v8 := deref (List.nth_error (Wp_weather v7) 0%nat) in Ok (WpWeather_beq v8 W_RAIN)) (
    chk 68 (Ok (WpEvent_beq (Wp_event v7) Ev_NONE)) (
    chk 69 (Ok (negb (has_value (wpTm v7)))) (
    None))))))))))))).

Definition t_WeatherGroup_parseRecentWeatherTaf : option N :=
    chk 73 (let! v1 := (WeatherGroup_parse "RESHRA" RP_TAF md_default) in Ok (negb (has_value v1))) (
    chk 74 (let! v2 := (WeatherGroup_parse "RERA" RP_TAF md_default) in Ok (negb (has_value v2))) (
    None)).

Definition t_WeatherGroup_parseVicinityMetar : option N :=
    step 78 ((WeatherGroup_parse "VCSH" RP_METAR md_default)) (fun v1 => 
    chk 79 (Ok (has_value v1)) (
    chk 81 (let! v2 := deref v1 in let! v3 := (WeatherGroup_isValid v2) in Ok v3) (
    chk 83 (let! v4 := deref v1 in Ok (WxType_beq (wx_t v4) Wx_CURRENT)) (
    chk 84 (let! v5 := deref v1 in Ok (N.eqb (N.of_nat (List.length (WeatherGroup_weatherPhenomena v5))) 1%N)) (
    step 86 (deref v1) (fun v6 => 
    step 86 (deref (List.nth_error (WeatherGroup_weatherPhenomena v6) 0%nat)) (fun v7 => 
    chk 87 (Ok (WpQualifier_beq (Wp_qualifier v7) Q_VICINITY)) (
    chk 88 (Ok (WpDescriptor_beq (Wp_descriptor v7) D_SHOWERS)) (
    chk 89 (Ok (N.eqb (N.of_nat (List.length (Wp_weather v7))) 0%N)) (
    chk 90 (Ok (WpEvent_beq (Wp_event v7) Ev_NONE)) (
    chk 91 (Ok (negb (has_value (wpTm v7)))) (
    None)))))))))))).

Definition t_WeatherGroup_parseVicinityTaf : option N :=
    step 95 ((WeatherGroup_parse "VCSH" RP_TAF md_default)) (fun v1 => 
    chk 96 (Ok (has_value v1)) (
    chk 98 (let! v2 := deref v1 in let! v3 := (WeatherGroup_isValid v2) in Ok v3) (
    chk 100 (let! v4 := deref v1 in Ok (WxType_beq (wx_t v4) Wx_CURRENT)) (
    chk 101 (let! v5 := deref v1 in Ok (N.eqb (N.of_nat (List.length (WeatherGroup_weatherPhenomena v5))) 1%N)) (
    step 103 (deref v1) (fun v6 => 
    step 103 (deref (List.nth_error (WeatherGroup_weatherPhenomena v6) 0%nat)) (fun v7 => 
    chk 104 (Ok (WpQualifier_beq (Wp_qualifier v7) Q_VICINITY)) (
    chk 105 (Ok (WpDescriptor_beq (Wp_descriptor v7) D_SHOWERS)) (
    chk 106 (Ok (N.eqb (N.of_nat (List.length (Wp_weather v7))) 0%N)) (
    chk 107 (Ok (WpEvent_beq (Wp_event v7) Ev_NONE)) (
    chk 108 (Ok (negb (has_value (wpTm v7)))) (
    None)))))))))))).

Definition t_WeatherGroup_parseNonReportedMetar : option N :=
    step 112 ((WeatherGroup_parse "//" RP_METAR md_default)) (fun v1 => 
    chk 113 (Ok (has_value v1)) (
    chk 115 (let! v2 := deref v1 in let! v3 := (WeatherGroup_isValid v2) in Ok v3) (
    chk 117 (let! v4 := deref v1 in Ok (WxType_beq (wx_t v4) Wx_CURRENT)) (
    chk 118 (let! v5 := deref v1 in Ok (N.eqb (N.of_nat (List.length (WeatherGroup_weatherPhenomena v5))) 1%N)) (
    step 120 (deref v1) (fun v6 => 
    step 120 (deref (List.nth_error (WeatherGroup_weatherPhenomena v6) 0%nat)) (fun v7 => 
    chk 121 (Ok (WpQualifier_beq (Wp_qualifier v7) Q_NONE)) (
    chk 122 (Ok (WpDescriptor_beq (Wp_descriptor v7) D_NONE)) (
    chk 123 (Ok (N.eqb (N.of_nat (List.length (Wp_weather v7))) 1%N)) (
    chk 124 (let! v8 := deref (List.nth_error (Wp_weather v7) 0%nat) in Ok (WpWeather_beq v8 W_NOT_REPORTED)) (
    chk 125 (Ok (WpEvent_beq (Wp_event v7) Ev_NONE)) (
    chk 126 (Ok (negb (has_value (wpTm v7)))) (
    None))))))))))))).

Definition t_WeatherGroup_parseNonReportedTaf : option N :=
    chk 130 (let! v1 := (WeatherGroup_parse "//" RP_TAF md_default) in Ok (negb (has_value v1))) (
    None).

Definition t_WeatherGroup_parseNonReportedRecentMetar : option N :=
    step 134 ((WeatherGroup_parse "RE//" RP_METAR md_default)) (fun v1 => 
    chk 135 (Ok (has_value v1)) (
    chk 137 (let! v2 := deref v1 in let! v3 := (WeatherGroup_isValid v2) in Ok v3) (
    chk 139 (let! v4 := deref v1 in Ok (WxType_beq (wx_t v4) Wx_RECENT)) (
    chk 140 (let! v5 := deref v1 in Ok (N.eqb (N.of_nat (List.length (WeatherGroup_weatherPhenomena v5))) 1%N)) (
    step 142 (deref v1) (fun v6 => 
    step 142 (deref (List.nth_error (WeatherGroup_weatherPhenomena v6) 0%nat)) (fun v7 => 
    chk 143 (Ok (WpQualifier_beq (Wp_qualifier v7) Q_RECENT)) (
    chk 144 (Ok (WpDescriptor_beq (Wp_descriptor v7) D_NONE)) (
    chk 145 (Ok (N.eqb (N.of_nat (List.length (Wp_weather v7))) 1%N)) (
    chk 146 (let! v8 := deref (List.nth_error (Wp_weather v7) 0%nat) in Ok (WpWeather_beq v8 W_NOT_REPORTED)) (
    chk 147 (Ok (WpEvent_beq (Wp_event v7) Ev_NONE)) (
    chk 148 (Ok (negb (has_value (wpTm v7)))) (
    None))))))))))))).

Definition t_WeatherGroup_parseNonReportedRecentTaf : option N :=
    chk 152 (let! v1 := (WeatherGroup_parse "RE//" RP_TAF md_default) in Ok (negb (has_value v1))) (
    None).

Definition t_WeatherGroup_parseRecentWeatherEventSingle : option N :=
    step 163 ((MetafTime_fromStringDDHHMM "281232")) (fun v1 => 
    chk 164 (Ok (has_value v1)) (
    step 167 (deref v1) (fun v2 => 
    step 169 ((WeatherGroup_parse "RAB1200" RP_RMK (md_set_reportTime md_default v2))) (fun v3 => 
    chk 170 (Ok (has_value v3)) (
    chk 171 (let! v4 := deref v3 in let! v5 := (WeatherGroup_isValid v4) in Ok v5) (
    chk 172 (let! v6 := deref v3 in Ok (WxType_beq (wx_t v6) Wx_EVENT)) (
    chk 173 (let! v7 := deref v3 in Ok (N.eqb (N.of_nat (List.length (WeatherGroup_weatherPhenomena v7))) 1%N)) (
    step 175 (deref v3) (fun v8 => 
    step 175 (deref (List.nth_error (WeatherGroup_weatherPhenomena v8) 0%nat)) (fun v9 => 
    chk 176 (Ok (WpQualifier_beq (Wp_qualifier v9) Q_NONE)) (
    chk 177 (Ok (WpDescriptor_beq (Wp_descriptor v9) D_NONE)) (
    chk 178 (Ok (N.eqb (N.of_nat (List.length (Wp_weather v9))) 1%N)) (
    chk 179 (let! v10 := deref (List.nth_error (Wp_weather v9) 0%nat) in Ok (WpWeather_beq v10 W_RAIN)) (
    chk 180 (Ok (WpEvent_beq (Wp_event v9) Ev_BEGINNING)) (
    chk 181 (Ok (has_value (wpTm v9))) (
    chk 182 (let! v11 := deref (wpTm v9) in Ok (negb (has_value (dayValue v11)))) (
    chk 183 (let! v12 := deref (wpTm v9) in Ok (N.eqb (hourValue v12) 12%N)) (
    chk 184 (let! v13 := deref (wpTm v9) in Ok (N.eqb (minuteValue v13) 0%N)) (
    step 186 ((WeatherGroup_parse "SNE00" RP_RMK (md_set_reportTime md_default v2))) (fun v14 => 
    chk 187 (Ok (has_value v14)) (
    chk 188 (let! v15 := deref v14 in let! v16 := (WeatherGroup_isValid v15) in Ok v16) (
    chk 189 (let! v17 := deref v14 in Ok (WxType_beq (wx_t v17) Wx_EVENT)) (
    chk 190 (let! v18 := deref v14 in Ok (N.eqb (N.of_nat (List.length (WeatherGroup_weatherPhenomena v18))) 1%N)) (
    step 192 (deref v14) (fun v19 => 
    step 192 (deref (List.nth_error (WeatherGroup_weatherPhenomena v19) 0%nat)) (fun v20 => 
    chk 193 (Ok (WpQualifier_beq (Wp_qualifier v20) Q_NONE)) (
    chk 194 (Ok (WpDescriptor_beq (Wp_descriptor v20) D_NONE)) (
    chk 195 (Ok (N.eqb (N.of_nat (List.length (Wp_weather v20))) 1%N)) (
    chk 196 (let! v21 := deref (List.nth_error (Wp_weather v20) 0%nat) in Ok (WpWeather_beq v21 W_SNOW)) (
    chk 197 (Ok (WpEvent_beq (Wp_event v20) Ev_ENDING)) (
    chk 198 (Ok (has_value (wpTm v20))) (
    chk 199 (let! v22 := deref (wpTm v20) in Ok (negb (has_value (dayValue v22)))) (
    chk 200 (let! v23 := deref (wpTm v20) in let! v24 := deref v1 in Ok (N.eqb (hourValue v23) (hourValue v24))) (
    chk 201 (let! v25 := deref (wpTm v20) in Ok (N.eqb (minuteValue v25) 0%N)) (
    None))))))))))))))))))))))))))))))))))).

Definition t_WeatherGroup_parseRecentWeatherEventMultiple : option N :=
    step 205 ((MetafTime_fromStringDDHHMM "281123")) (fun v1 => 
    chk 206 (Ok (has_value v1)) (
    step 209 (deref v1) (fun v2 => 
    step 211 ((WeatherGroup_parse "RAE1031SNB1053SHPLB08E15" RP_RMK (md_set_reportTime md_default v2))) (fun v3 => 
    chk 212 (Ok (has_value v3)) (
    chk 213 (let! v4 := deref v3 in let! v5 := (WeatherGroup_isValid v4) in Ok v5) (
    chk 214 (let! v6 := deref v3 in Ok (WxType_beq (wx_t v6) Wx_EVENT)) (
    chk 215 (let! v7 := deref v3 in Ok (N.eqb (N.of_nat (List.length (WeatherGroup_weatherPhenomena v7))) 4%N)) (
    step 217 (deref v3) (fun v8 => 
    step 217 (deref (List.nth_error (WeatherGroup_weatherPhenomena v8) 0%nat)) (fun v9 => 
    chk 218 (Ok (WpQualifier_beq (Wp_qualifier v9) Q_NONE)) (
    chk 219 (Ok (WpDescriptor_beq (Wp_descriptor v9) D_NONE)) (
    chk 220 (Ok (N.eqb (N.of_nat (List.length (Wp_weather v9))) 1%N)) (
    chk 221 (let! v10 := deref (List.nth_error (Wp_weather v9) 0%nat) in Ok (WpWeather_beq v10 W_RAIN)) (
    chk 222 (Ok (WpEvent_beq (Wp_event v9) Ev_ENDING)) (
    chk 223 (Ok (has_value (wpTm v9))) (
    chk 224 (let! v11 := deref (wpTm v9) in Ok (negb (has_value (dayValue v11)))) (
    chk 225 (let! v12 := deref (wpTm v9) in Ok (N.eqb (hourValue v12) 10%N)) (
    chk 226 (let! v13 := deref (wpTm v9) in Ok (N.eqb (minuteValue v13) 31%N)) (
    step 228 (deref v3) (fun v14 => 
    step 228 (deref (List.nth_error (WeatherGroup_weatherPhenomena v14) 1%nat)) (fun v15 => 
    chk 229 (Ok (WpQualifier_beq (Wp_qualifier v15) Q_NONE)) (
    chk 230 (Ok (WpDescriptor_beq (Wp_descriptor v15) D_NONE)) (
    chk 231 (Ok (N.eqb (N.of_nat (List.length (Wp_weather v15))) 1%N)) (
    chk 232 (let! v16 := deref (List.nth_error (Wp_weather v15) 0%nat) in Ok (WpWeather_beq v16 W_SNOW)) (
    chk 233 (Ok (WpEvent_beq (Wp_event v15) Ev_BEGINNING)) (
    chk 234 (Ok (has_value (wpTm v15))) (
    chk 235 (let! v17 := deref (wpTm v15) in Ok (negb (has_value (dayValue v17)))) (
    chk 236 (let! v18 := deref (wpTm v15) in Ok (N.eqb (hourValue v18) 10%N)) (
    chk 237 (let! v19 := deref (wpTm v15) in Ok (N.eqb (minuteValue v19) 53%N)) (
    step 239 (deref v3) (fun v20 => 
    step 239 (deref (List.nth_error (WeatherGroup_weatherPhenomena v20) 2%nat)) (fun v21 => 
    chk 240 (Ok (WpQualifier_beq (Wp_qualifier v21) Q_NONE)) (
    chk 241 (Ok (WpDescriptor_beq (Wp_descriptor v21) D_SHOWERS)) (
    chk 242 (Ok (N.eqb (N.of_nat (List.length (Wp_weather v21))) 1%N)) (
    chk 243 (let! v22 := deref (List.nth_error (Wp_weather v21) 0%nat) in Ok (WpWeather_beq v22 W_ICE_PELLETS)) (
    chk 244 (Ok (WpEvent_beq (Wp_event v21) Ev_BEGINNING)) (
    chk 245 (Ok (has_value (wpTm v21))) (
    chk 246 (let! v23 := deref (wpTm v21) in Ok (negb (has_value (dayValue v23)))) (
    chk 247 (let! v24 := deref (wpTm v21) in Ok (N.eqb (hourValue v24) 11%N)) (
    chk 248 (let! v25 := deref (wpTm v21) in Ok (N.eqb (minuteValue v25) 8%N)) (
    step 250 (deref v3) (fun v26 => 
    step 250 (deref (List.nth_error (WeatherGroup_weatherPhenomena v26) 3%nat)) (fun v27 => 
    chk 251 (Ok (WpQualifier_beq (Wp_qualifier v27) Q_NONE)) (
    chk 252 (Ok (WpDescriptor_beq (Wp_descriptor v27) D_SHOWERS)) (
    chk 253 (Ok (N.eqb (N.of_nat (List.length (Wp_weather v27))) 1%N)) (
    chk 254 (let! v28 := deref (List.nth_error (Wp_weather v27) 0%nat) in Ok (WpWeather_beq v28 W_ICE_PELLETS)) (
    chk 255 (Ok (WpEvent_beq (Wp_event v27) Ev_ENDING)) (
    chk 256 (Ok (has_value (wpTm v27))) (
    chk 257 (let! v29 := deref (wpTm v27) in Ok (negb (has_value (dayValue v29)))) (
    chk 258 (let! v30 := deref (wpTm v27) in Ok (N.eqb (hourValue v30) 11%N)) (
    chk 259 (let! v31 := deref (wpTm v27) in Ok (N.eqb (minuteValue v31) 15%N)) (
    None)))))))))))))))))))))))))))))))))))))))))))))))))))).

Definition t_WeatherGroup_parseRecentWeatherEventMultipleShortGroupInTheMiddle : option N :=
    step 264 ((MetafTime_fromStringDDHHMM "262356")) (fun v1 => 
    chk 265 (Ok (has_value v1)) (
    step 268 (deref v1) (fun v2 => 
    step 270 ((WeatherGroup_parse "DZB16E22RAB37" RP_RMK (md_set_reportTime md_default v2))) (fun v3 => 
    chk 271 (Ok (has_value v3)) (
    chk 272 (let! v4 := deref v3 in let! v5 := (WeatherGroup_isValid v4) in Ok v5) (
    chk 273 (let! v6 := deref v3 in Ok (WxType_beq (wx_t v6) Wx_EVENT)) (
    chk 274 (let! v7 := deref v3 in Ok (N.eqb (N.of_nat (List.length (WeatherGroup_weatherPhenomena v7))) 3%N)) (
    step 276 (deref v3) (fun v8 => 
    step 276 (deref (List.nth_error (WeatherGroup_weatherPhenomena v8) 0%nat)) (fun v9 => 
    chk 277 (Ok (WpQualifier_beq (Wp_qualifier v9) Q_NONE)) (
    chk 278 (Ok (WpDescriptor_beq (Wp_descriptor v9) D_NONE)) (
    chk 279 (Ok (N.eqb (N.of_nat (List.length (Wp_weather v9))) 1%N)) (
    chk 280 (let! v10 := deref (List.nth_error (Wp_weather v9) 0%nat) in Ok (WpWeather_beq v10 W_DRIZZLE)) (
    chk 281 (Ok (WpEvent_beq (Wp_event v9) Ev_BEGINNING)) (
    chk 282 (Ok (has_value (wpTm v9))) (
    chk 283 (let! v11 := deref (wpTm v9) in Ok (negb (has_value (dayValue v11)))) (
    chk 284 (let! v12 := deref (wpTm v9) in Ok (N.eqb (hourValue v12) 23%N)) (
    chk 285 (let! v13 := deref (wpTm v9) in Ok (N.eqb (minuteValue v13) 16%N)) (
    step 287 (deref v3) (fun v14 => 
    step 287 (deref (List.nth_error (WeatherGroup_weatherPhenomena v14) 1%nat)) (fun v15 => 
    chk 288 (Ok (WpQualifier_beq (Wp_qualifier v15) Q_NONE)) (
    chk 289 (Ok (WpDescriptor_beq (Wp_descriptor v15) D_NONE)) (
    chk 290 (Ok (N.eqb (N.of_nat (List.length (Wp_weather v15))) 1%N)) (
    chk 291 (let! v16 := deref (List.nth_error (Wp_weather v15) 0%nat) in Ok (WpWeather_beq v16 W_DRIZZLE)) (
    chk 292 (Ok (WpEvent_beq (Wp_event v15) Ev_ENDING)) (
    chk 293 (Ok (has_value (wpTm v15))) (
    chk 294 (let! v17 := deref (wpTm v15) in Ok (negb (has_value (dayValue v17)))) (
    chk 295 (let! v18 := deref (wpTm v15) in Ok (N.eqb (hourValue v18) 23%N)) (
    chk 296 (let! v19 := deref (wpTm v15) in Ok (N.eqb (minuteValue v19) 22%N)) (
    step 298 (deref v3) (fun v20 => 
    step 298 (deref (List.nth_error (WeatherGroup_weatherPhenomena v20) 2%nat)) (fun v21 => 
    chk 299 (Ok (WpQualifier_beq (Wp_qualifier v21) Q_NONE)) (
    chk 300 (Ok (WpDescriptor_beq (Wp_descriptor v21) D_NONE)) (
    chk 301 (Ok (N.eqb (N.of_nat (List.length (Wp_weather v21))) 1%N)) (
    chk 302 (let! v22 := deref (List.nth_error (Wp_weather v21) 0%nat) in Ok (WpWeather_beq v22 W_RAIN)) (
    chk 303 (Ok (WpEvent_beq (Wp_event v21) Ev_BEGINNING)) (
    chk 304 (Ok (has_value (wpTm v21))) (
    chk 305 (let! v23 := deref (wpTm v21) in Ok (negb (has_value (dayValue v23)))) (
    chk 306 (let! v24 := deref (wpTm v21) in Ok (N.eqb (hourValue v24) 23%N)) (
    chk 307 (let! v25 := deref (wpTm v21) in Ok (N.eqb (minuteValue v25) 37%N)) (
    None))))))))))))))))))))))))))))))))))))))))).

Definition t_WeatherGroup_parseWrongReportPart : option N :=
    chk 311 (let! v1 := (WeatherGroup_parse "RA" RP_UNKNOWN md_default) in Ok (negb (has_value v1))) (
    chk 312 (let! v2 := (WeatherGroup_parse "RA" RP_HEADER md_default) in Ok (negb (has_value v2))) (
    chk 313 (let! v3 := (WeatherGroup_parse "RA" RP_RMK md_default) in Ok (negb (has_value v3))) (
    chk 315 (let! v4 := (WeatherGroup_parse "VCSH" RP_UNKNOWN md_default) in Ok (negb (has_value v4))) (
    chk 316 (let! v5 := (WeatherGroup_parse "VCSH" RP_HEADER md_default) in Ok (negb (has_value v5))) (
    chk 317 (let! v6 := (WeatherGroup_parse "VCSH" RP_RMK md_default) in Ok (negb (has_value v6))) (
    chk 319 (let! v7 := (WeatherGroup_parse "RAB1200" RP_UNKNOWN md_default) in Ok (negb (has_value v7))) (
    chk 320 (let! v8 := (WeatherGroup_parse "RAB1200" RP_HEADER md_default) in Ok (negb (has_value v8))) (
    chk 321 (let! v9 := (WeatherGroup_parse "RAB1200" RP_METAR md_default) in Ok (negb (has_value v9))) (
    chk 322 (let! v10 := (WeatherGroup_parse "RAB1200" RP_TAF md_default) in Ok (negb (has_value v10))) (
    None)))))))))).

Definition t_WeatherGroup_parseWrongFormat : option N :=
    chk 326 (let! v1 := (WeatherGroup_parse "" RP_METAR md_default) in Ok (negb (has_value v1))) (
    chk 327 (let! v2 := (WeatherGroup_parse "/" RP_METAR md_default) in Ok (negb (has_value v2))) (
    chk 328 (let! v3 := (WeatherGroup_parse "///" RP_METAR md_default) in Ok (negb (has_value v3))) (
    chk 329 (let! v4 := (WeatherGroup_parse "BA" RP_METAR md_default) in Ok (negb (has_value v4))) (
    chk 330 (let! v5 := (WeatherGroup_parse "RZ" RP_METAR md_default) in Ok (negb (has_value v5))) (
    chk 331 (let! v6 := (WeatherGroup_parse "RAS" RP_METAR md_default) in Ok (negb (has_value v6))) (
    chk 332 (let! v7 := (WeatherGroup_parse "RES" RP_METAR md_default) in Ok (negb (has_value v7))) (
    chk 333 (let! v8 := (WeatherGroup_parse "RERAS" RP_METAR md_default) in Ok (negb (has_value v8))) (
    chk 334 (let! v9 := (WeatherGroup_parse "R0" RP_METAR md_default) in Ok (negb (has_value v9))) (
    chk 335 (let! v10 := (WeatherGroup_parse "0R" RP_METAR md_default) in Ok (negb (has_value v10))) (
    chk 336 (let! v11 := (WeatherGroup_parse "TSRAR" RP_METAR md_default) in Ok (negb (has_value v11))) (
    chk 337 (let! v12 := (WeatherGroup_parse "+TSRAR" RP_METAR md_default) in Ok (negb (has_value v12))) (
    chk 338 (let! v13 := (WeatherGroup_parse "VCTSRAR" RP_METAR md_default) in Ok (negb (has_value v13))) (
    chk 339 (let! v14 := (WeatherGroup_parse "TSRZ" RP_METAR md_default) in Ok (negb (has_value v14))) (
    chk 340 (let! v15 := (WeatherGroup_parse "+TSRZ" RP_METAR md_default) in Ok (negb (has_value v15))) (
    chk 341 (let! v16 := (WeatherGroup_parse "VCTSRZ" RP_METAR md_default) in Ok (negb (has_value v16))) (
    chk 342 (let! v17 := (WeatherGroup_parse "TSRARZ" RP_METAR md_default) in Ok (negb (has_value v17))) (
    chk 343 (let! v18 := (WeatherGroup_parse "+TSRARZ" RP_METAR md_default) in Ok (negb (has_value v18))) (
    step 345 ((MetafTime_fromStringDDHHMM "120830")) (fun v19 => 
    chk 346 (Ok (has_value v19)) (
    step 349 (deref v19) (fun v20 => 
    chk 351 (let! v21 := (WeatherGroup_parse "+RAB1200" RP_METAR (md_set_reportTime md_default v20)) in Ok (negb (has_value v21))) (
    chk 352 (let! v22 := (WeatherGroup_parse "VCSHB1200" RP_METAR (md_set_reportTime md_default v20)) in Ok (negb (has_value v22))) (
    chk 353 (let! v23 := (WeatherGroup_parse "//B1200" RP_METAR (md_set_reportTime md_default v20)) in Ok (negb (has_value v23))) (
    chk 354 (let! v24 := (WeatherGroup_parse "RAZ1200" RP_METAR (md_set_reportTime md_default v20)) in Ok (negb (has_value v24))) (
    chk 355 (let! v25 := (WeatherGroup_parse "RABA100" RP_METAR (md_set_reportTime md_default v20)) in Ok (negb (has_value v25))) (
    chk 356 (let! v26 := (WeatherGroup_parse "RAB120A" RP_METAR (md_set_reportTime md_default v20)) in Ok (negb (has_value v26))) (
    chk 357 (let! v27 := (WeatherGroup_parse "RAB////" RP_METAR (md_set_reportTime md_default v20)) in Ok (negb (has_value v27))) (
    chk 358 (let! v28 := (WeatherGroup_parse "RA/1200" RP_METAR (md_set_reportTime md_default v20)) in Ok (negb (has_value v28))) (
    chk 359 (let! v29 := (WeatherGroup_parse "RAB120" RP_METAR (md_set_reportTime md_default v20)) in Ok (negb (has_value v29))) (
    chk 360 (let! v30 := (WeatherGroup_parse "RAB01200" RP_METAR (md_set_reportTime md_default v20)) in Ok (negb (has_value v30))) (
    chk 362 (let! v31 := (WeatherGroup_parse "+RAB00" RP_METAR (md_set_reportTime md_default v20)) in Ok (negb (has_value v31))) (
    chk 363 (let! v32 := (WeatherGroup_parse "VCSHB00" RP_METAR (md_set_reportTime md_default v20)) in Ok (negb (has_value v32))) (
    chk 364 (let! v33 := (WeatherGroup_parse "//B00" RP_METAR (md_set_reportTime md_default v20)) in Ok (negb (has_value v33))) (
    chk 365 (let! v34 := (WeatherGroup_parse "RAZ00" RP_METAR (md_set_reportTime md_default v20)) in Ok (negb (has_value v34))) (
    chk 366 (let! v35 := (WeatherGroup_parse "RABA0" RP_METAR (md_set_reportTime md_default v20)) in Ok (negb (has_value v35))) (
    chk 367 (let! v36 := (WeatherGroup_parse "RAB0A" RP_METAR (md_set_reportTime md_default v20)) in Ok (negb (has_value v36))) (
    chk 368 (let! v37 := (WeatherGroup_parse "RAB//" RP_METAR (md_set_reportTime md_default v20)) in Ok (negb (has_value v37))) (
    chk 369 (let! v38 := (WeatherGroup_parse "RA/00" RP_METAR (md_set_reportTime md_default v20)) in Ok (negb (has_value v38))) (
    chk 370 (let! v39 := (WeatherGroup_parse "RAB0" RP_METAR (md_set_reportTime md_default v20)) in Ok (negb (has_value v39))) (
    chk 371 (let! v40 := (WeatherGroup_parse "RAB000" RP_METAR (md_set_reportTime md_default v20)) in Ok (negb (has_value v40))) (
    None))))))))))))))))))))))))))))))))))))))))).

Definition t_WeatherGroup_appendCurrentWeather : option N :=
    step 386 ((WeatherGroup_parse "VCTS" RP_METAR md_default)) (fun v1 => 
    chk 387 (Ok (has_value v1)) (
    chk 388 (let! v2 := deref v1 in Ok (WxType_beq (wx_t v2) Wx_CURRENT)) (
    step 390 (let! v3 := deref v1 in WeatherGroup_append v3 "SQ" RP_METAR md_default) (fun p => let v4 := Some (fst p) in let v5 := snd p in 
    chk 390 (Ok (AppendResult_beq v5 APPENDED)) (
    step 391 (let! v6 := deref v4 in WeatherGroup_append v6 "-SHRAGS" RP_METAR md_default) (fun p => let v7 := Some (fst p) in let v8 := snd p in 
    chk 391 (Ok (AppendResult_beq v8 APPENDED)) (
    chk 393 (let! v9 := deref v7 in Ok (WxType_beq (wx_t v9) Wx_CURRENT)) (
    chk 394 (let! v10 := deref v7 in Ok (N.eqb (N.of_nat (List.length (WeatherGroup_weatherPhenomena v10))) 3%N)) (
    step 396 (deref v7) (fun v11 => 
    step 396 (deref (List.nth_error (WeatherGroup_weatherPhenomena v11) 0%nat)) (fun v12 => 
    chk 397 (Ok (WpQualifier_beq (Wp_qualifier v12) Q_VICINITY)) (
    chk 398 (Ok (WpDescriptor_beq (Wp_descriptor v12) D_THUNDERSTORM)) (
    chk 399 (Ok (N.eqb (N.of_nat (List.length (Wp_weather v12))) 0%N)) (
    chk 400 (Ok (WpEvent_beq (Wp_event v12) Ev_NONE)) (
    chk 401 (Ok (negb (has_value (wpTm v12)))) (
    step 403 (deref v7) (fun v13 => 
    step 403 (deref (List.nth_error (WeatherGroup_weatherPhenomena v13) 1%nat)) (fun v14 => 
    chk 404 (Ok (WpQualifier_beq (Wp_qualifier v14) Q_NONE)) (
    chk 405 (Ok (WpDescriptor_beq (Wp_descriptor v14) D_NONE)) (
    chk 406 (Ok (N.eqb (N.of_nat (List.length (Wp_weather v14))) 1%N)) (
    chk 407 (let! v15 := deref (List.nth_error (Wp_weather v14) 0%nat) in Ok (WpWeather_beq v15 W_SQUALLS)) (
    chk 408 (Ok (WpEvent_beq (Wp_event v14) Ev_NONE)) (
    chk 409 (Ok (negb (has_value (wpTm v14)))) (
    step 411 (deref v7) (fun v16 => 
    step 411 (deref (List.nth_error (WeatherGroup_weatherPhenomena v16) 2%nat)) (fun v17 => 
    chk 412 (Ok (WpQualifier_beq (Wp_qualifier v17) Q_LIGHT)) (
    chk 413 (Ok (WpDescriptor_beq (Wp_descriptor v17) D_SHOWERS)) (
    chk 414 (Ok (N.eqb (N.of_nat (List.length (Wp_weather v17))) 2%N)) (
    chk 415 (let! v18 := deref (List.nth_error (Wp_weather v17) 0%nat) in Ok (WpWeather_beq v18 W_RAIN)) (
    chk 416 (let! v19 := deref (List.nth_error (Wp_weather v17) 1%nat) in Ok (WpWeather_beq v19 W_SMALL_HAIL)) (
    chk 417 (Ok (WpEvent_beq (Wp_event v17) Ev_NONE)) (
    chk 418 (Ok (negb (has_value (wpTm v17)))) (
    None))))))))))))))))))))))))))))))))).

Definition t_WeatherGroup_appendCurrentWeatherTooManyGroups : option N :=
    step 423 ((WeatherGroup_parse "RA" RP_METAR md_default)) (fun v1 => 
    chk 424 (Ok (has_value v1)) (
    step 426 (let! v2 := deref v1 in WeatherGroup_append v2 "RA" RP_METAR md_default) (fun p => let v3 := Some (fst p) in let v4 := snd p in 
    chk 426 (Ok (AppendResult_beq v4 APPENDED)) (
    step 427 (let! v5 := deref v3 in WeatherGroup_append v5 "RA" RP_METAR md_default) (fun p => let v6 := Some (fst p) in let v7 := snd p in 
    chk 427 (Ok (AppendResult_beq v7 APPENDED)) (
    step 428 (let! v8 := deref v6 in WeatherGroup_append v8 "RA" RP_METAR md_default) (fun p => let v9 := Some (fst p) in let v10 := snd p in 
    chk 428 (Ok (AppendResult_beq v10 APPENDED)) (
    step 429 (let! v11 := deref v9 in WeatherGroup_append v11 "RA" RP_METAR md_default) (fun p => let v12 := Some (fst p) in let v13 := snd p in 
    chk 429 (Ok (AppendResult_beq v13 APPENDED)) (
    step 430 (let! v14 := deref v12 in WeatherGroup_append v14 "RA" RP_METAR md_default) (fun p => let v15 := Some (fst p) in let v16 := snd p in 
    chk 430 (Ok (AppendResult_beq v16 APPENDED)) (
    step 431 (let! v17 := deref v15 in WeatherGroup_append v17 "RA" RP_METAR md_default) (fun p => let v18 := Some (fst p) in let v19 := snd p in 
    chk 431 (Ok (AppendResult_beq v19 APPENDED)) (
    step 432 (let! v20 := deref v18 in WeatherGroup_append v20 "RA" RP_METAR md_default) (fun p => let v21 := Some (fst p) in let v22 := snd p in 
    chk 432 (Ok (AppendResult_beq v22 APPENDED)) (
    step 433 (let! v23 := deref v21 in WeatherGroup_append v23 "RA" RP_METAR md_default) (fun p => let v24 := Some (fst p) in let v25 := snd p in 
    chk 433 (Ok (AppendResult_beq v25 APPENDED)) (
    step 434 (let! v26 := deref v24 in WeatherGroup_append v26 "RA" RP_METAR md_default) (fun p => let v27 := Some (fst p) in let v28 := snd p in 
    chk 434 (Ok (AppendResult_beq v28 APPENDED)) (
    step 435 (let! v29 := deref v27 in WeatherGroup_append v29 "RA" RP_METAR md_default) (fun p => let v30 := Some (fst p) in let v31 := snd p in 
    chk 435 (Ok (AppendResult_beq v31 APPENDED)) (
    step 436 (let! v32 := deref v30 in WeatherGroup_append v32 "RA" RP_METAR md_default) (fun p => let v33 := Some (fst p) in let v34 := snd p in 
    chk 436 (Ok (AppendResult_beq v34 APPENDED)) (
    step 437 (let! v35 := deref v33 in WeatherGroup_append v35 "RA" RP_METAR md_default) (fun p => let v36 := Some (fst p) in let v37 := snd p in 
    chk 437 (Ok (AppendResult_beq v37 APPENDED)) (
    step 438 (let! v38 := deref v36 in WeatherGroup_append v38 "RA" RP_METAR md_default) (fun p => let v39 := Some (fst p) in let v40 := snd p in 
    chk 438 (Ok (AppendResult_beq v40 APPENDED)) (
    step 439 (let! v41 := deref v39 in WeatherGroup_append v41 "RA" RP_METAR md_default) (fun p => let v42 := Some (fst p) in let v43 := snd p in 
    chk 439 (Ok (AppendResult_beq v43 APPENDED)) (
    step 440 (let! v44 := deref v42 in WeatherGroup_append v44 "RA" RP_METAR md_default) (fun p => let v45 := Some (fst p) in let v46 := snd p in 
    chk 440 (Ok (AppendResult_beq v46 APPENDED)) (
    step 441 (let! v47 := deref v45 in WeatherGroup_append v47 "RA" RP_METAR md_default) (fun p => let v48 := Some (fst p) in let v49 := snd p in 
    chk 441 (Ok (AppendResult_beq v49 APPENDED)) (
    step 442 (let! v50 := deref v48 in WeatherGroup_append v50 "RA" RP_METAR md_default) (fun p => let v51 := Some (fst p) in let v52 := snd p in 
    chk 442 (Ok (AppendResult_beq v52 APPENDED)) (
    step 443 (let! v53 := deref v51 in WeatherGroup_append v53 "RA" RP_METAR md_default) (fun p => let v54 := Some (fst p) in let v55 := snd p in 
    chk 443 (Ok (AppendResult_beq v55 APPENDED)) (
    step 444 (let! v56 := deref v54 in WeatherGroup_append v56 "RA" RP_METAR md_default) (fun p => let v57 := Some (fst p) in let v58 := snd p in 
    chk 444 (Ok (AppendResult_beq v58 APPENDED)) (
    step 446 (let! v59 := deref v57 in WeatherGroup_append v59 "RA" RP_METAR md_default) (fun p => let v60 := Some (fst p) in let v61 := snd p in 
    chk 446 (Ok (AppendResult_beq v61 NOT_APPENDED)) (
    None)))))))))))))))))))))))))))))))))))))))))).

Definition t_WeatherGroup_appendRecentWeather : option N :=
    step 454 ((WeatherGroup_parse "REDZ" RP_METAR md_default)) (fun v1 => 
    chk 455 (Ok (has_value v1)) (
    chk 456 (let! v2 := deref v1 in Ok (WxType_beq (wx_t v2) Wx_RECENT)) (
    step 458 (let! v3 := deref v1 in WeatherGroup_append v3 "RETS" RP_METAR md_default) (fun p => let v4 := Some (fst p) in let v5 := snd p in 
    chk 458 (Ok (AppendResult_beq v5 APPENDED)) (
    step 459 (let! v6 := deref v4 in WeatherGroup_append v6 "RESHRAPLGS" RP_METAR md_default) (fun p => let v7 := Some (fst p) in let v8 := snd p in 
    chk 459 (Ok (AppendResult_beq v8 APPENDED)) (
    chk 461 (let! v9 := deref v7 in Ok (WxType_beq (wx_t v9) Wx_RECENT)) (
    chk 462 (let! v10 := deref v7 in Ok (N.eqb (N.of_nat (List.length (WeatherGroup_weatherPhenomena v10))) 3%N)) (
    step 464 (deref v7) (fun v11 => 
    step 464 (deref (List.nth_error (WeatherGroup_weatherPhenomena v11) 0%nat)) (fun v12 => 
    chk 465 (Ok (WpQualifier_beq (Wp_qualifier v12) Q_RECENT)) (
    chk 466 (Ok (WpDescriptor_beq (Wp_descriptor v12) D_NONE)) (
    chk 467 (Ok (N.eqb (N.of_nat (List.length (Wp_weather v12))) 1%N)) (
    chk 468 (let! v13 := deref (List.nth_error (Wp_weather v12) 0%nat) in Ok (WpWeather_beq v13 W_DRIZZLE)) (
    chk 469 (Ok (WpEvent_beq (Wp_event v12) Ev_NONE)) (
    chk 470 (Ok (negb (has_value (wpTm v12)))) (
    step 472 (deref v7) (fun v14 => 
    step 472 (deref (List.nth_error (WeatherGroup_weatherPhenomena v14) 1%nat)) (fun v15 => 
    chk 473 (Ok (WpQualifier_beq (Wp_qualifier v15) Q_RECENT)) (
    chk 474 (Ok (WpDescriptor_beq (Wp_descriptor v15) D_THUNDERSTORM)) (
    chk 475 (Ok (N.eqb (N.of_nat (List.length (Wp_weather v15))) 0%N)) (
    chk 476 (Ok (WpEvent_beq (Wp_event v15) Ev_NONE)) (
    chk 477 (Ok (negb (has_value (wpTm v15)))) (
    step 479 (deref v7) (fun v16 => 
    step 479 (deref (List.nth_error (WeatherGroup_weatherPhenomena v16) 2%nat)) (fun v17 => 
    chk 480 (Ok (WpQualifier_beq (Wp_qualifier v17) Q_RECENT)) (
    chk 481 (Ok (WpDescriptor_beq (Wp_descriptor v17) D_SHOWERS)) (
    chk 482 (Ok (N.eqb (N.of_nat (List.length (Wp_weather v17))) 3%N)) (
    chk 483 (let! v18 := deref (List.nth_error (Wp_weather v17) 0%nat) in Ok (WpWeather_beq v18 W_RAIN)) (
    chk 484 (let! v19 := deref (List.nth_error (Wp_weather v17) 1%nat) in Ok (WpWeather_beq v19 W_ICE_PELLETS)) (
    chk 485 (let! v20 := deref (List.nth_error (Wp_weather v17) 2%nat) in Ok (WpWeather_beq v20 W_SMALL_HAIL)) (
    chk 486 (Ok (WpEvent_beq (Wp_event v17) Ev_NONE)) (
    chk 487 (Ok (negb (has_value (wpTm v17)))) (
    None)))))))))))))))))))))))))))))))))).

Definition t_WeatherGroup_appendRecentWeatherTooManyGroups : option N :=
    step 492 ((WeatherGroup_parse "RERA" RP_METAR md_default)) (fun v1 => 
    chk 493 (Ok (has_value v1)) (
    step 495 (let! v2 := deref v1 in WeatherGroup_append v2 "RERA" RP_METAR md_default) (fun p => let v3 := Some (fst p) in let v4 := snd p in 
    chk 495 (Ok (AppendResult_beq v4 APPENDED)) (
    step 496 (let! v5 := deref v3 in WeatherGroup_append v5 "RERA" RP_METAR md_default) (fun p => let v6 := Some (fst p) in let v7 := snd p in 
    chk 496 (Ok (AppendResult_beq v7 APPENDED)) (
    step 497 (let! v8 := deref v6 in WeatherGroup_append v8 "RERA" RP_METAR md_default) (fun p => let v9 := Some (fst p) in let v10 := snd p in 
    chk 497 (Ok (AppendResult_beq v10 APPENDED)) (
    step 498 (let! v11 := deref v9 in WeatherGroup_append v11 "RERA" RP_METAR md_default) (fun p => let v12 := Some (fst p) in let v13 := snd p in 
    chk 498 (Ok (AppendResult_beq v13 APPENDED)) (
    step 499 (let! v14 := deref v12 in WeatherGroup_append v14 "RERA" RP_METAR md_default) (fun p => let v15 := Some (fst p) in let v16 := snd p in 
    chk 499 (Ok (AppendResult_beq v16 APPENDED)) (
    step 500 (let! v17 := deref v15 in WeatherGroup_append v17 "RERA" RP_METAR md_default) (fun p => let v18 := Some (fst p) in let v19 := snd p in 
    chk 500 (Ok (AppendResult_beq v19 APPENDED)) (
    step 501 (let! v20 := deref v18 in WeatherGroup_append v20 "RERA" RP_METAR md_default) (fun p => let v21 := Some (fst p) in let v22 := snd p in 
    chk 501 (Ok (AppendResult_beq v22 APPENDED)) (
    step 502 (let! v23 := deref v21 in WeatherGroup_append v23 "RERA" RP_METAR md_default) (fun p => let v24 := Some (fst p) in let v25 := snd p in 
    chk 502 (Ok (AppendResult_beq v25 APPENDED)) (
    step 503 (let! v26 := deref v24 in WeatherGroup_append v26 "RERA" RP_METAR md_default) (fun p => let v27 := Some (fst p) in let v28 := snd p in 
    chk 503 (Ok (AppendResult_beq v28 APPENDED)) (
    step 504 (let! v29 := deref v27 in WeatherGroup_append v29 "RERA" RP_METAR md_default) (fun p => let v30 := Some (fst p) in let v31 := snd p in 
    chk 504 (Ok (AppendResult_beq v31 APPENDED)) (
    step 505 (let! v32 := deref v30 in WeatherGroup_append v32 "RERA" RP_METAR md_default) (fun p => let v33 := Some (fst p) in let v34 := snd p in 
    chk 505 (Ok (AppendResult_beq v34 APPENDED)) (
    step 506 (let! v35 := deref v33 in WeatherGroup_append v35 "RERA" RP_METAR md_default) (fun p => let v36 := Some (fst p) in let v37 := snd p in 
    chk 506 (Ok (AppendResult_beq v37 APPENDED)) (
    step 507 (let! v38 := deref v36 in WeatherGroup_append v38 "RERA" RP_METAR md_default) (fun p => let v39 := Some (fst p) in let v40 := snd p in 
    chk 507 (Ok (AppendResult_beq v40 APPENDED)) (
    step 508 (let! v41 := deref v39 in WeatherGroup_append v41 "RERA" RP_METAR md_default) (fun p => let v42 := Some (fst p) in let v43 := snd p in 
    chk 508 (Ok (AppendResult_beq v43 APPENDED)) (
    step 509 (let! v44 := deref v42 in WeatherGroup_append v44 "RERA" RP_METAR md_default) (fun p => let v45 := Some (fst p) in let v46 := snd p in 
    chk 509 (Ok (AppendResult_beq v46 APPENDED)) (
    step 510 (let! v47 := deref v45 in WeatherGroup_append v47 "RERA" RP_METAR md_default) (fun p => let v48 := Some (fst p) in let v49 := snd p in 
    chk 510 (Ok (AppendResult_beq v49 APPENDED)) (
    step 511 (let! v50 := deref v48 in WeatherGroup_append v50 "RERA" RP_METAR md_default) (fun p => let v51 := Some (fst p) in let v52 := snd p in 
    chk 511 (Ok (AppendResult_beq v52 APPENDED)) (
    step 512 (let! v53 := deref v51 in WeatherGroup_append v53 "RERA" RP_METAR md_default) (fun p => let v54 := Some (fst p) in let v55 := snd p in 
    chk 512 (Ok (AppendResult_beq v55 APPENDED)) (
    step 513 (let! v56 := deref v54 in WeatherGroup_append v56 "RERA" RP_METAR md_default) (fun p => let v57 := Some (fst p) in let v58 := snd p in 
    chk 513 (Ok (AppendResult_beq v58 APPENDED)) (
    step 515 (let! v59 := deref v57 in WeatherGroup_append v59 "RERA" RP_METAR md_default) (fun p => let v60 := Some (fst p) in let v61 := snd p in 
    chk 515 (Ok (AppendResult_beq v61 NOT_APPENDED)) (
    None)))))))))))))))))))))))))))))))))))))))))).

Definition t_WeatherGroup_appendCurrentRecentWeather : option N :=
    step 519 ((WeatherGroup_parse "SN" RP_METAR md_default)) (fun v1 => 
    chk 520 (Ok (has_value v1)) (
    chk 521 (let! v2 := deref v1 in Ok (WxType_beq (wx_t v2) Wx_CURRENT)) (
    step 523 (let! v3 := deref v1 in WeatherGroup_append v3 "RERA" RP_METAR md_default) (fun p => let v4 := Some (fst p) in let v5 := snd p in 
    chk 523 (Ok (AppendResult_beq v5 NOT_APPENDED)) (
    step 525 ((WeatherGroup_parse "RESN" RP_METAR md_default)) (fun v6 => 
    chk 526 (Ok (has_value v6)) (
    chk 527 (let! v7 := deref v6 in Ok (WxType_beq (wx_t v7) Wx_RECENT)) (
    step 529 (let! v8 := deref v6 in WeatherGroup_append v8 "RA" RP_METAR md_default) (fun p => let v9 := Some (fst p) in let v10 := snd p in 
    chk 529 (Ok (AppendResult_beq v10 NOT_APPENDED)) (
    None)))))))))).

Definition t_WeatherGroup_appendWeatherEvent : option N :=
    step 533 ((MetafTime_fromStringDDHHMM "281232")) (fun v1 => 
    chk 534 (Ok (has_value v1)) (
    step 537 (deref v1) (fun v2 => 
    step 539 ((WeatherGroup_parse "TSRA" RP_METAR (md_set_reportTime md_default v2))) (fun v3 => 
    chk 540 (Ok (has_value v3)) (
    step 542 (let! v4 := deref v3 in WeatherGroup_append v4 "SNB1211" RP_METAR (md_set_reportTime md_default v2)) (fun p => let v5 := Some (fst p) in let v6 := snd p in 
    chk 542 (Ok (AppendResult_beq v6 NOT_APPENDED)) (
    step 543 (let! v7 := deref v5 in WeatherGroup_append v7 "RAE1212" RP_METAR (md_set_reportTime md_default v2)) (fun p => let v8 := Some (fst p) in let v9 := snd p in 
    chk 543 (Ok (AppendResult_beq v9 NOT_APPENDED)) (
    step 544 (let! v10 := deref v8 in WeatherGroup_append v10 "E1213" RP_METAR (md_set_reportTime md_default v2)) (fun p => let v11 := Some (fst p) in let v12 := snd p in 
    chk 544 (Ok (AppendResult_beq v12 NOT_APPENDED)) (
    step 545 (let! v13 := deref v11 in WeatherGroup_append v13 "E14" RP_METAR (md_set_reportTime md_default v2)) (fun p => let v14 := Some (fst p) in let v15 := snd p in 
    chk 545 (Ok (AppendResult_beq v15 NOT_APPENDED)) (
    chk 547 (let! v16 := deref v14 in Ok (WxType_beq (wx_t v16) Wx_CURRENT)) (
    chk 548 (let! v17 := deref v14 in Ok (N.eqb (N.of_nat (List.length (WeatherGroup_weatherPhenomena v17))) 1%N)) (
    step 550 (deref v14) (fun v18 => 
    step 550 (deref (List.nth_error (WeatherGroup_weatherPhenomena v18) 0%nat)) (fun v19 => 
    chk 551 (Ok (WpQualifier_beq (Wp_qualifier v19) Q_MODERATE)) (
    chk 552 (Ok (WpDescriptor_beq (Wp_descriptor v19) D_THUNDERSTORM)) (
    chk 553 (Ok (N.eqb (N.of_nat (List.length (Wp_weather v19))) 1%N)) (
    chk 554 (let! v20 := deref (List.nth_error (Wp_weather v19) 0%nat) in Ok (WpWeather_beq v20 W_RAIN)) (
    chk 555 (Ok (WpEvent_beq (Wp_event v19) Ev_NONE)) (
    chk 556 (Ok (negb (has_value (wpTm v19)))) (
    None))))))))))))))))))))))).

Definition t_WeatherGroup_appendToWeatherEvent : option N :=
    step 560 ((MetafTime_fromStringDDHHMM "281232")) (fun v1 => 
    chk 561 (Ok (has_value v1)) (
    step 564 (deref v1) (fun v2 => 
    step 566 ((WeatherGroup_parse "RAB1200" RP_RMK (md_set_reportTime md_default v2))) (fun v3 => 
    chk 567 (Ok (has_value v3)) (
    step 569 (let! v4 := deref v3 in WeatherGroup_append v4 "SNB1211" RP_RMK md_default) (fun p => let v5 := Some (fst p) in let v6 := snd p in 
    chk 569 (Ok (AppendResult_beq v6 NOT_APPENDED)) (
    step 570 (let! v7 := deref v5 in WeatherGroup_append v7 "RAE1212" RP_RMK md_default) (fun p => let v8 := Some (fst p) in let v9 := snd p in 
    chk 570 (Ok (AppendResult_beq v9 NOT_APPENDED)) (
    step 571 (let! v10 := deref v8 in WeatherGroup_append v10 "E1213" RP_RMK md_default) (fun p => let v11 := Some (fst p) in let v12 := snd p in 
    chk 571 (Ok (AppendResult_beq v12 NOT_APPENDED)) (
    step 572 (let! v13 := deref v11 in WeatherGroup_append v13 "E14" RP_RMK md_default) (fun p => let v14 := Some (fst p) in let v15 := snd p in 
    chk 572 (Ok (AppendResult_beq v15 NOT_APPENDED)) (
    step 573 (let! v16 := deref v14 in WeatherGroup_append v16 "FG" RP_RMK md_default) (fun p => let v17 := Some (fst p) in let v18 := snd p in 
    chk 573 (Ok (AppendResult_beq v18 NOT_APPENDED)) (
    step 574 (let! v19 := deref v17 in WeatherGroup_append v19 "RA" RP_RMK md_default) (fun p => let v20 := Some (fst p) in let v21 := snd p in 
    chk 574 (Ok (AppendResult_beq v21 NOT_APPENDED)) (
    step 575 (let! v22 := deref v20 in WeatherGroup_append v22 "RERA" RP_RMK md_default) (fun p => let v23 := Some (fst p) in let v24 := snd p in 
    chk 575 (Ok (AppendResult_beq v24 NOT_APPENDED)) (
    step 576 (let! v25 := deref v23 in WeatherGroup_append v25 "VCSH" RP_RMK md_default) (fun p => let v26 := Some (fst p) in let v27 := snd p in 
    chk 576 (Ok (AppendResult_beq v27 NOT_APPENDED)) (
    chk 578 (let! v28 := deref v26 in Ok (WxType_beq (wx_t v28) Wx_EVENT)) (
    chk 579 (let! v29 := deref v26 in Ok (N.eqb (N.of_nat (List.length (WeatherGroup_weatherPhenomena v29))) 1%N)) (
    step 580 (deref v26) (fun v30 => 
    step 580 (deref (List.nth_error (WeatherGroup_weatherPhenomena v30) 0%nat)) (fun v31 => 
    chk 581 (Ok (WpQualifier_beq (Wp_qualifier v31) Q_NONE)) (
    chk 582 (Ok (WpDescriptor_beq (Wp_descriptor v31) D_NONE)) (
    chk 583 (Ok (N.eqb (N.of_nat (List.length (Wp_weather v31))) 1%N)) (
    chk 584 (let! v32 := deref (List.nth_error (Wp_weather v31) 0%nat) in Ok (WpWeather_beq v32 W_RAIN)) (
    chk 585 (Ok (WpEvent_beq (Wp_event v31) Ev_BEGINNING)) (
    chk 586 (Ok (has_value (wpTm v31))) (
    chk 587 (let! v33 := deref (wpTm v31) in Ok (negb (has_value (dayValue v33)))) (
    chk 588 (let! v34 := deref (wpTm v31) in Ok (N.eqb (hourValue v34) 12%N)) (
    chk 589 (let! v35 := deref (wpTm v31) in Ok (N.eqb (minuteValue v35) 0%N)) (
    None)))))))))))))))))))))))))))))))))).

Definition t_WeatherGroup_appendOther : option N :=
    step 593 ((MetafTime_fromStringDDHHMM "281232")) (fun v1 => 
    chk 594 (Ok (has_value v1)) (
    step 597 (deref v1) (fun v2 => 
    step 599 ((WeatherGroup_parse "SN" RP_METAR md_default)) (fun v3 => 
    chk 600 (Ok (has_value v3)) (
    step 602 (let! v4 := deref v3 in WeatherGroup_append v4 "RMK" RP_METAR md_default) (fun p => let v5 := Some (fst p) in let v6 := snd p in 
    chk 602 (Ok (AppendResult_beq v6 NOT_APPENDED)) (
    step 603 (let! v7 := deref v5 in WeatherGroup_append v7 "12/12" RP_METAR md_default) (fun p => let v8 := Some (fst p) in let v9 := snd p in 
    chk 603 (Ok (AppendResult_beq v9 NOT_APPENDED)) (
    step 604 (let! v10 := deref v8 in WeatherGroup_append v10 "NOSIG" RP_METAR md_default) (fun p => let v11 := Some (fst p) in let v12 := snd p in 
    chk 604 (Ok (AppendResult_beq v12 NOT_APPENDED)) (
    step 605 (let! v13 := deref v11 in WeatherGroup_append v13 "TEMPO" RP_METAR md_default) (fun p => let v14 := Some (fst p) in let v15 := snd p in 
    chk 605 (Ok (AppendResult_beq v15 NOT_APPENDED)) (
    step 606 (let! v16 := deref v14 in WeatherGroup_append v16 "BECMG" RP_METAR md_default) (fun p => let v17 := Some (fst p) in let v18 := snd p in 
    chk 606 (Ok (AppendResult_beq v18 NOT_APPENDED)) (
    step 607 (let! v19 := deref v17 in WeatherGroup_append v19 "/////" RP_METAR md_default) (fun p => let v20 := Some (fst p) in let v21 := snd p in 
    chk 607 (Ok (AppendResult_beq v21 NOT_APPENDED)) (
    step 609 ((WeatherGroup_parse "RESN" RP_METAR md_default)) (fun v22 => 
    chk 610 (Ok (has_value v22)) (
    step 612 (let! v23 := deref v22 in WeatherGroup_append v23 "RMK" RP_METAR md_default) (fun p => let v24 := Some (fst p) in let v25 := snd p in 
    chk 612 (Ok (AppendResult_beq v25 NOT_APPENDED)) (
    step 613 (let! v26 := deref v24 in WeatherGroup_append v26 "12/12" RP_METAR md_default) (fun p => let v27 := Some (fst p) in let v28 := snd p in 
    chk 613 (Ok (AppendResult_beq v28 NOT_APPENDED)) (
    step 614 (let! v29 := deref v27 in WeatherGroup_append v29 "NOSIG" RP_METAR md_default) (fun p => let v30 := Some (fst p) in let v31 := snd p in 
    chk 614 (Ok (AppendResult_beq v31 NOT_APPENDED)) (
    step 615 (let! v32 := deref v30 in WeatherGroup_append v32 "TEMPO" RP_METAR md_default) (fun p => let v33 := Some (fst p) in let v34 := snd p in 
    chk 615 (Ok (AppendResult_beq v34 NOT_APPENDED)) (
    step 616 (let! v35 := deref v33 in WeatherGroup_append v35 "BECMG" RP_METAR md_default) (fun p => let v36 := Some (fst p) in let v37 := snd p in 
    chk 616 (Ok (AppendResult_beq v37 NOT_APPENDED)) (
    step 617 (let! v38 := deref v36 in WeatherGroup_append v38 "/////" RP_METAR md_default) (fun p => let v39 := Some (fst p) in let v40 := snd p in 
    chk 617 (Ok (AppendResult_beq v40 NOT_APPENDED)) (
    step 619 ((WeatherGroup_parse "RAB1200" RP_RMK (md_set_reportTime md_default v2))) (fun v41 => 
    chk 620 (Ok (has_value v41)) (
    step 622 (let! v42 := deref v41 in WeatherGroup_append v42 "RMK" RP_METAR md_default) (fun p => let v43 := Some (fst p) in let v44 := snd p in 
    chk 622 (Ok (AppendResult_beq v44 NOT_APPENDED)) (
    step 623 (let! v45 := deref v43 in WeatherGroup_append v45 "12/12" RP_METAR md_default) (fun p => let v46 := Some (fst p) in let v47 := snd p in 
    chk 623 (Ok (AppendResult_beq v47 NOT_APPENDED)) (
    step 624 (let! v48 := deref v46 in WeatherGroup_append v48 "NOSIG" RP_METAR md_default) (fun p => let v49 := Some (fst p) in let v50 := snd p in 
    chk 624 (Ok (AppendResult_beq v50 NOT_APPENDED)) (
    step 625 (let! v51 := deref v49 in WeatherGroup_append v51 "TEMPO" RP_METAR md_default) (fun p => let v52 := Some (fst p) in let v53 := snd p in 
    chk 625 (Ok (AppendResult_beq v53 NOT_APPENDED)) (
    step 626 (let! v54 := deref v52 in WeatherGroup_append v54 "BECMG" RP_METAR md_default) (fun p => let v55 := Some (fst p) in let v56 := snd p in 
    chk 626 (Ok (AppendResult_beq v56 NOT_APPENDED)) (
    step 627 (let! v57 := deref v55 in WeatherGroup_append v57 "/////" RP_METAR md_default) (fun p => let v58 := Some (fst p) in let v59 := snd p in 
    chk 627 (Ok (AppendResult_beq v59 NOT_APPENDED)) (
    None))))))))))))))))))))))))))))))))))))))))))))).

Definition t_WeatherGroup_parseNsw : option N :=
    step 637 ((WeatherGroup_parse "NSW" RP_METAR md_default)) (fun v1 => 
    chk 638 (Ok (has_value v1)) (
    chk 639 (let! v2 := deref v1 in Ok (WxType_beq (wx_t v2) Wx_NSW)) (
    chk 640 (let! v3 := deref v1 in Ok (N.eqb (N.of_nat (List.length (WeatherGroup_weatherPhenomena v3))) 0%N)) (
    chk 641 (let! v4 := deref v1 in let! v5 := (WeatherGroup_isValid v4) in Ok v5) (
    step 643 ((WeatherGroup_parse "NSW" RP_TAF md_default)) (fun v6 => 
    chk 644 (Ok (has_value v6)) (
    chk 645 (let! v7 := deref v6 in Ok (WxType_beq (wx_t v7) Wx_NSW)) (
    chk 646 (let! v8 := deref v6 in Ok (N.eqb (N.of_nat (List.length (WeatherGroup_weatherPhenomena v8))) 0%N)) (
    chk 647 (let! v9 := deref v6 in let! v10 := (WeatherGroup_isValid v9) in Ok v10) (
    None)))))))))).

Definition t_WeatherGroup_parseNswWrongReportPart : option N :=
    chk 651 (let! v1 := (WeatherGroup_parse "NSW" RP_UNKNOWN md_default) in Ok (negb (has_value v1))) (
    chk 652 (let! v2 := (WeatherGroup_parse "NSW" RP_HEADER md_default) in Ok (negb (has_value v2))) (
    chk 653 (let! v3 := (WeatherGroup_parse "NSW" RP_RMK md_default) in Ok (negb (has_value v3))) (
    None))).

Definition t_WeatherGroup_appendToNsw : option N :=
    step 657 ((MetafTime_fromStringDDHHMM "281232")) (fun v1 => 
    chk 658 (Ok (has_value v1)) (
    step 661 (deref v1) (fun v2 => 
    step 663 ((WeatherGroup_parse "NSW" RP_METAR (md_set_reportTime md_default v2))) (fun v3 => 
    chk 664 (Ok (has_value v3)) (
    step 666 (let! v4 := deref v3 in WeatherGroup_append v4 "RMK" RP_METAR md_default) (fun p => let v5 := Some (fst p) in let v6 := snd p in 
    chk 666 (Ok (AppendResult_beq v6 NOT_APPENDED)) (
    step 667 (let! v7 := deref v5 in WeatherGroup_append v7 "12/12" RP_METAR md_default) (fun p => let v8 := Some (fst p) in let v9 := snd p in 
    chk 667 (Ok (AppendResult_beq v9 NOT_APPENDED)) (
    step 668 (let! v10 := deref v8 in WeatherGroup_append v10 "NOSIG" RP_METAR md_default) (fun p => let v11 := Some (fst p) in let v12 := snd p in 
    chk 668 (Ok (AppendResult_beq v12 NOT_APPENDED)) (
    step 669 (let! v13 := deref v11 in WeatherGroup_append v13 "TEMPO" RP_METAR md_default) (fun p => let v14 := Some (fst p) in let v15 := snd p in 
    chk 669 (Ok (AppendResult_beq v15 NOT_APPENDED)) (
    step 670 (let! v16 := deref v14 in WeatherGroup_append v16 "BECMG" RP_METAR md_default) (fun p => let v17 := Some (fst p) in let v18 := snd p in 
    chk 670 (Ok (AppendResult_beq v18 NOT_APPENDED)) (
    step 671 (let! v19 := deref v17 in WeatherGroup_append v19 "/////" RP_METAR md_default) (fun p => let v20 := Some (fst p) in let v21 := snd p in 
    chk 671 (Ok (AppendResult_beq v21 NOT_APPENDED)) (
    step 672 (let! v22 := deref v20 in WeatherGroup_append v22 "RAB1211" RP_METAR md_default) (fun p => let v23 := Some (fst p) in let v24 := snd p in 
    chk 672 (Ok (AppendResult_beq v24 NOT_APPENDED)) (
    step 673 (let! v25 := deref v23 in WeatherGroup_append v25 "B1211" RP_METAR md_default) (fun p => let v26 := Some (fst p) in let v27 := snd p in 
    chk 673 (Ok (AppendResult_beq v27 NOT_APPENDED)) (
    step 674 (let! v28 := deref v26 in WeatherGroup_append v28 "B11" RP_METAR md_default) (fun p => let v29 := Some (fst p) in let v30 := snd p in 
    chk 674 (Ok (AppendResult_beq v30 NOT_APPENDED)) (
    step 675 (let! v31 := deref v29 in WeatherGroup_append v31 "RA" RP_METAR md_default) (fun p => let v32 := Some (fst p) in let v33 := snd p in 
    chk 675 (Ok (AppendResult_beq v33 NOT_APPENDED)) (
    step 676 (let! v34 := deref v32 in WeatherGroup_append v34 "RERA" RP_METAR md_default) (fun p => let v35 := Some (fst p) in let v36 := snd p in 
    chk 676 (Ok (AppendResult_beq v36 NOT_APPENDED)) (
    step 677 (let! v37 := deref v35 in WeatherGroup_append v37 "VCSH" RP_METAR md_default) (fun p => let v38 := Some (fst p) in let v39 := snd p in 
    chk 677 (Ok (AppendResult_beq v39 NOT_APPENDED)) (
    None))))))))))))))))))))))))))))).

Definition t_WeatherGroup_parsePwino : option N :=
    step 681 ((WeatherGroup_parse "PWINO" RP_RMK md_default)) (fun v1 => 
    chk 682 (Ok (has_value v1)) (
    chk 683 (let! v2 := deref v1 in Ok (WxType_beq (wx_t v2) Wx_PWINO)) (
    chk 684 (let! v3 := deref v1 in Ok (N.eqb (N.of_nat (List.length (WeatherGroup_weatherPhenomena v3))) 0%N)) (
    chk 685 (let! v4 := deref v1 in let! v5 := (WeatherGroup_isValid v4) in Ok v5) (
    None))))).

Definition t_WeatherGroup_parsePwinoWrongReportPart : option N :=
    chk 689 (let! v1 := (WeatherGroup_parse "PWINO" RP_UNKNOWN md_default) in Ok (negb (has_value v1))) (
    chk 690 (let! v2 := (WeatherGroup_parse "PWINO" RP_HEADER md_default) in Ok (negb (has_value v2))) (
    chk 691 (let! v3 := (WeatherGroup_parse "PWINO" RP_METAR md_default) in Ok (negb (has_value v3))) (
    chk 692 (let! v4 := (WeatherGroup_parse "PWINO" RP_TAF md_default) in Ok (negb (has_value v4))) (
    None)))).

Definition t_WeatherGroup_appendToPwino : option N :=
    step 696 ((MetafTime_fromStringDDHHMM "281232")) (fun v1 => 
    chk 697 (Ok (has_value v1)) (
    step 700 (deref v1) (fun v2 => 
    step 702 ((WeatherGroup_parse "PWINO" RP_RMK (md_set_reportTime md_default v2))) (fun v3 => 
    chk 703 (Ok (has_value v3)) (
    step 705 (let! v4 := deref v3 in WeatherGroup_append v4 "RMK" RP_RMK md_default) (fun p => let v5 := Some (fst p) in let v6 := snd p in 
    chk 705 (Ok (AppendResult_beq v6 NOT_APPENDED)) (
    step 706 (let! v7 := deref v5 in WeatherGroup_append v7 "12/12" RP_RMK md_default) (fun p => let v8 := Some (fst p) in let v9 := snd p in 
    chk 706 (Ok (AppendResult_beq v9 NOT_APPENDED)) (
    step 707 (let! v10 := deref v8 in WeatherGroup_append v10 "NOSIG" RP_RMK md_default) (fun p => let v11 := Some (fst p) in let v12 := snd p in 
    chk 707 (Ok (AppendResult_beq v12 NOT_APPENDED)) (
    step 708 (let! v13 := deref v11 in WeatherGroup_append v13 "TEMPO" RP_RMK md_default) (fun p => let v14 := Some (fst p) in let v15 := snd p in 
    chk 708 (Ok (AppendResult_beq v15 NOT_APPENDED)) (
    step 709 (let! v16 := deref v14 in WeatherGroup_append v16 "BECMG" RP_RMK md_default) (fun p => let v17 := Some (fst p) in let v18 := snd p in 
    chk 709 (Ok (AppendResult_beq v18 NOT_APPENDED)) (
    step 710 (let! v19 := deref v17 in WeatherGroup_append v19 "/////" RP_RMK md_default) (fun p => let v20 := Some (fst p) in let v21 := snd p in 
    chk 710 (Ok (AppendResult_beq v21 NOT_APPENDED)) (
    step 711 (let! v22 := deref v20 in WeatherGroup_append v22 "RAB1211" RP_RMK md_default) (fun p => let v23 := Some (fst p) in let v24 := snd p in 
    chk 711 (Ok (AppendResult_beq v24 NOT_APPENDED)) (
    step 712 (let! v25 := deref v23 in WeatherGroup_append v25 "B1211" RP_RMK md_default) (fun p => let v26 := Some (fst p) in let v27 := snd p in 
    chk 712 (Ok (AppendResult_beq v27 NOT_APPENDED)) (
    step 713 (let! v28 := deref v26 in WeatherGroup_append v28 "B11" RP_RMK md_default) (fun p => let v29 := Some (fst p) in let v30 := snd p in 
    chk 713 (Ok (AppendResult_beq v30 NOT_APPENDED)) (
    step 714 (let! v31 := deref v29 in WeatherGroup_append v31 "RA" RP_RMK md_default) (fun p => let v32 := Some (fst p) in let v33 := snd p in 
    chk 714 (Ok (AppendResult_beq v33 NOT_APPENDED)) (
    step 715 (let! v34 := deref v32 in WeatherGroup_append v34 "RERA" RP_RMK md_default) (fun p => let v35 := Some (fst p) in let v36 := snd p in 
    chk 715 (Ok (AppendResult_beq v36 NOT_APPENDED)) (
    step 716 (let! v37 := deref v35 in WeatherGroup_append v37 "VCSH" RP_RMK md_default) (fun p => let v38 := Some (fst p) in let v39 := snd p in 
    chk 716 (Ok (AppendResult_beq v39 NOT_APPENDED)) (
    None))))))))))))))))))))))))))))).

Definition t_WeatherGroup_parseTsno : option N :=
    step 720 ((WeatherGroup_parse "TSNO" RP_RMK md_default)) (fun v1 => 
    chk 721 (Ok (has_value v1)) (
    chk 722 (let! v2 := deref v1 in Ok (WxType_beq (wx_t v2) Wx_TSNO)) (
    chk 723 (let! v3 := deref v1 in Ok (N.eqb (N.of_nat (List.length (WeatherGroup_weatherPhenomena v3))) 0%N)) (
    chk 724 (let! v4 := deref v1 in let! v5 := (WeatherGroup_isValid v4) in Ok v5) (
    None))))).

Definition t_WeatherGroup_parseTsnoWrongReportPart : option N :=
    chk 728 (let! v1 := (WeatherGroup_parse "TSNO" RP_UNKNOWN md_default) in Ok (negb (has_value v1))) (
    chk 729 (let! v2 := (WeatherGroup_parse "TSNO" RP_HEADER md_default) in Ok (negb (has_value v2))) (
    chk 730 (let! v3 := (WeatherGroup_parse "TSNO" RP_METAR md_default) in Ok (negb (has_value v3))) (
    chk 731 (let! v4 := (WeatherGroup_parse "TSNO" RP_TAF md_default) in Ok (negb (has_value v4))) (
    None)))).

Definition t_WeatherGroup_appendToTsno : option N :=
    step 735 ((MetafTime_fromStringDDHHMM "281232")) (fun v1 => 
    chk 736 (Ok (has_value v1)) (
    step 739 (deref v1) (fun v2 => 
    step 741 ((WeatherGroup_parse "TSNO" RP_RMK (md_set_reportTime md_default v2))) (fun v3 => 
    chk 742 (Ok (has_value v3)) (
    step 744 (let! v4 := deref v3 in WeatherGroup_append v4 "RMK" RP_RMK md_default) (fun p => let v5 := Some (fst p) in let v6 := snd p in 
    chk 744 (Ok (AppendResult_beq v6 NOT_APPENDED)) (
    step 745 (let! v7 := deref v5 in WeatherGroup_append v7 "12/12" RP_RMK md_default) (fun p => let v8 := Some (fst p) in let v9 := snd p in 
    chk 745 (Ok (AppendResult_beq v9 NOT_APPENDED)) (
    step 746 (let! v10 := deref v8 in WeatherGroup_append v10 "NOSIG" RP_RMK md_default) (fun p => let v11 := Some (fst p) in let v12 := snd p in 
    chk 746 (Ok (AppendResult_beq v12 NOT_APPENDED)) (
    step 747 (let! v13 := deref v11 in WeatherGroup_append v13 "TEMPO" RP_RMK md_default) (fun p => let v14 := Some (fst p) in let v15 := snd p in 
    chk 747 (Ok (AppendResult_beq v15 NOT_APPENDED)) (
    step 748 (let! v16 := deref v14 in WeatherGroup_append v16 "BECMG" RP_RMK md_default) (fun p => let v17 := Some (fst p) in let v18 := snd p in 
    chk 748 (Ok (AppendResult_beq v18 NOT_APPENDED)) (
    step 749 (let! v19 := deref v17 in WeatherGroup_append v19 "/////" RP_RMK md_default) (fun p => let v20 := Some (fst p) in let v21 := snd p in 
    chk 749 (Ok (AppendResult_beq v21 NOT_APPENDED)) (
    step 750 (let! v22 := deref v20 in WeatherGroup_append v22 "RAB1211" RP_RMK md_default) (fun p => let v23 := Some (fst p) in let v24 := snd p in 
    chk 750 (Ok (AppendResult_beq v24 NOT_APPENDED)) (
    step 751 (let! v25 := deref v23 in WeatherGroup_append v25 "B1211" RP_RMK md_default) (fun p => let v26 := Some (fst p) in let v27 := snd p in 
    chk 751 (Ok (AppendResult_beq v27 NOT_APPENDED)) (
    step 752 (let! v28 := deref v26 in WeatherGroup_append v28 "B11" RP_RMK md_default) (fun p => let v29 := Some (fst p) in let v30 := snd p in 
    chk 752 (Ok (AppendResult_beq v30 NOT_APPENDED)) (
    step 753 (let! v31 := deref v29 in WeatherGroup_append v31 "RA" RP_RMK md_default) (fun p => let v32 := Some (fst p) in let v33 := snd p in 
    chk 753 (Ok (AppendResult_beq v33 NOT_APPENDED)) (
    step 754 (let! v34 := deref v32 in WeatherGroup_append v34 "RERA" RP_RMK md_default) (fun p => let v35 := Some (fst p) in let v36 := snd p in 
    chk 754 (Ok (AppendResult_beq v36 NOT_APPENDED)) (
    step 755 (let! v37 := deref v35 in WeatherGroup_append v37 "VCSH" RP_RMK md_default) (fun p => let v38 := Some (fst p) in let v39 := snd p in 
    chk 755 (Ok (AppendResult_beq v39 NOT_APPENDED)) (
    None))))))))))))))))))))))))))))).

Definition t_WeatherGroup_parseWxMisg : option N :=
    step 765 ((WeatherGroup_parse "WX" RP_RMK md_default)) (fun v1 => 
    chk 766 (Ok (has_value v1)) (
    chk 767 (let! v2 := deref v1 in let! v3 := (WeatherGroup_isValid v2) in Ok (negb v3)) (
    step 768 (let! v4 := deref v1 in WeatherGroup_append v4 "MISG" RP_RMK md_default) (fun p => let v5 := Some (fst p) in let v6 := snd p in 
    chk 768 (Ok (AppendResult_beq v6 APPENDED)) (
    chk 769 (let! v7 := deref v5 in let! v8 := (WeatherGroup_isValid v7) in Ok v8) (
    step 770 (let! v9 := deref v5 in WeatherGroup_append v9 "" RP_RMK md_default) (fun p => let v10 := Some (fst p) in let v11 := snd p in 
    chk 770 (Ok (AppendResult_beq v11 NOT_APPENDED)) (
    chk 771 (let! v12 := deref v10 in Ok (WxType_beq (wx_t v12) Wx_WX_MISG)) (
    chk 772 (let! v13 := deref v10 in Ok (N.eqb (N.of_nat (List.length (WeatherGroup_weatherPhenomena v13))) 0%N)) (
    None)))))))))).

Definition t_WeatherGroup_parseWxWrongReportPart : option N :=
    chk 776 (let! v1 := (WeatherGroup_parse "WX" RP_UNKNOWN md_default) in Ok (negb (has_value v1))) (
    chk 777 (let! v2 := (WeatherGroup_parse "WX" RP_HEADER md_default) in Ok (negb (has_value v2))) (
    chk 778 (let! v3 := (WeatherGroup_parse "WX" RP_METAR md_default) in Ok (negb (has_value v3))) (
    chk 779 (let! v4 := (WeatherGroup_parse "WX" RP_TAF md_default) in Ok (negb (has_value v4))) (
    None)))).

Definition t_WeatherGroup_appendToWxMisg : option N :=
    step 783 ((MetafTime_fromStringDDHHMM "281232")) (fun v1 => 
    chk 784 (Ok (has_value v1)) (
    step 787 (deref v1) (fun v2 => 
    step 789 ((WeatherGroup_parse "WX" RP_RMK (md_set_reportTime md_default v2))) (fun v3 => 
    chk 790 (Ok (has_value v3)) (
    step 792 (let! v4 := deref v3 in WeatherGroup_append v4 "MISG" RP_RMK md_default) (fun p => let v5 := Some (fst p) in let v6 := snd p in 
    chk 792 (Ok (AppendResult_beq v6 APPENDED)) (
    step 794 (let! v7 := deref v5 in WeatherGroup_append v7 "RMK" RP_RMK md_default) (fun p => let v8 := Some (fst p) in let v9 := snd p in 
    chk 794 (Ok (AppendResult_beq v9 NOT_APPENDED)) (
    step 795 (let! v10 := deref v8 in WeatherGroup_append v10 "12/12" RP_RMK md_default) (fun p => let v11 := Some (fst p) in let v12 := snd p in 
    chk 795 (Ok (AppendResult_beq v12 NOT_APPENDED)) (
    step 796 (let! v13 := deref v11 in WeatherGroup_append v13 "NOSIG" RP_RMK md_default) (fun p => let v14 := Some (fst p) in let v15 := snd p in 
    chk 796 (Ok (AppendResult_beq v15 NOT_APPENDED)) (
    step 797 (let! v16 := deref v14 in WeatherGroup_append v16 "TEMPO" RP_RMK md_default) (fun p => let v17 := Some (fst p) in let v18 := snd p in 
    chk 797 (Ok (AppendResult_beq v18 NOT_APPENDED)) (
    step 798 (let! v19 := deref v17 in WeatherGroup_append v19 "BECMG" RP_RMK md_default) (fun p => let v20 := Some (fst p) in let v21 := snd p in 
    chk 798 (Ok (AppendResult_beq v21 NOT_APPENDED)) (
    step 799 (let! v22 := deref v20 in WeatherGroup_append v22 "/////" RP_RMK md_default) (fun p => let v23 := Some (fst p) in let v24 := snd p in 
    chk 799 (Ok (AppendResult_beq v24 NOT_APPENDED)) (
    step 800 (let! v25 := deref v23 in WeatherGroup_append v25 "RAB1211" RP_RMK md_default) (fun p => let v26 := Some (fst p) in let v27 := snd p in 
    chk 800 (Ok (AppendResult_beq v27 NOT_APPENDED)) (
    step 801 (let! v28 := deref v26 in WeatherGroup_append v28 "B1211" RP_RMK md_default) (fun p => let v29 := Some (fst p) in let v30 := snd p in 
    chk 801 (Ok (AppendResult_beq v30 NOT_APPENDED)) (
    step 802 (let! v31 := deref v29 in WeatherGroup_append v31 "B11" RP_RMK md_default) (fun p => let v32 := Some (fst p) in let v33 := snd p in 
    chk 802 (Ok (AppendResult_beq v33 NOT_APPENDED)) (
    step 803 (let! v34 := deref v32 in WeatherGroup_append v34 "RA" RP_RMK md_default) (fun p => let v35 := Some (fst p) in let v36 := snd p in 
    chk 803 (Ok (AppendResult_beq v36 NOT_APPENDED)) (
    step 804 (let! v37 := deref v35 in WeatherGroup_append v37 "RERA" RP_RMK md_default) (fun p => let v38 := Some (fst p) in let v39 := snd p in 
    chk 804 (Ok (AppendResult_beq v39 NOT_APPENDED)) (
    step 805 (let! v40 := deref v38 in WeatherGroup_append v40 "VCSH" RP_RMK md_default) (fun p => let v41 := Some (fst p) in let v42 := snd p in 
    chk 805 (Ok (AppendResult_beq v42 NOT_APPENDED)) (
    step 806 (let! v43 := deref v41 in WeatherGroup_append v43 "MISG" RP_RMK md_default) (fun p => let v44 := Some (fst p) in let v45 := snd p in 
    chk 806 (Ok (AppendResult_beq v45 NOT_APPENDED)) (
    None))))))))))))))))))))))))))))))))).

Definition t_WeatherGroup_appendOtherToWx : option N :=
    step 810 ((WeatherGroup_parse "WX" RP_RMK md_default)) (fun v1 => 
    chk 811 (Ok (has_value v1)) (
    step 812 (let! v2 := deref v1 in WeatherGroup_append v2 "" RP_RMK md_default) (fun p => let v3 := Some (fst p) in let v4 := snd p in 
    chk 812 (Ok (AppendResult_beq v4 GROUP_INVALIDATED)) (
    step 814 ((WeatherGroup_parse "WX" RP_RMK md_default)) (fun v5 => 
    chk 815 (Ok (has_value v5)) (
    step 816 (let! v6 := deref v5 in WeatherGroup_append v6 "WX" RP_RMK md_default) (fun p => let v7 := Some (fst p) in let v8 := snd p in 
    chk 816 (Ok (AppendResult_beq v8 GROUP_INVALIDATED)) (
    step 818 ((WeatherGroup_parse "WX" RP_RMK md_default)) (fun v9 => 
    chk 819 (Ok (has_value v9)) (
    step 820 (let! v10 := deref v9 in WeatherGroup_append v10 "TSNO" RP_RMK md_default) (fun p => let v11 := Some (fst p) in let v12 := snd p in 
    chk 820 (Ok (AppendResult_beq v12 GROUP_INVALIDATED)) (
    step 822 ((WeatherGroup_parse "WX" RP_RMK md_default)) (fun v13 => 
    chk 823 (Ok (has_value v13)) (
    step 824 (let! v14 := deref v13 in WeatherGroup_append v14 "RA" RP_RMK md_default) (fun p => let v15 := Some (fst p) in let v16 := snd p in 
    chk 824 (Ok (AppendResult_beq v16 GROUP_INVALIDATED)) (
    step 826 ((WeatherGroup_parse "WX" RP_RMK md_default)) (fun v17 => 
    chk 827 (Ok (has_value v17)) (
    step 828 (let! v18 := deref v17 in WeatherGroup_append v18 "RAB1031" RP_RMK md_default) (fun p => let v19 := Some (fst p) in let v20 := snd p in 
    chk 828 (Ok (AppendResult_beq v20 GROUP_INVALIDATED)) (
    step 830 ((WeatherGroup_parse "WX" RP_RMK md_default)) (fun v21 => 
    chk 831 (Ok (has_value v21)) (
    step 832 (let! v22 := deref v21 in WeatherGroup_append v22 "TEMPO" RP_RMK md_default) (fun p => let v23 := Some (fst p) in let v24 := snd p in 
    chk 832 (Ok (AppendResult_beq v24 GROUP_INVALIDATED)) (
    step 834 ((WeatherGroup_parse "WX" RP_RMK md_default)) (fun v25 => 
    chk 835 (Ok (has_value v25)) (
    step 836 (let! v26 := deref v25 in WeatherGroup_append v26 "UNAVBL" RP_RMK md_default) (fun p => let v27 := Some (fst p) in let v28 := snd p in 
    chk 836 (Ok (AppendResult_beq v28 GROUP_INVALIDATED)) (
    None)))))))))))))))))))))))))))).

Definition t_WeatherGroup_parseMisg : option N :=
    chk 840 (let! v1 := (WeatherGroup_parse "MISG" RP_UNKNOWN md_default) in Ok (negb (has_value v1))) (
    chk 841 (let! v2 := (WeatherGroup_parse "MISG" RP_HEADER md_default) in Ok (negb (has_value v2))) (
    chk 842 (let! v3 := (WeatherGroup_parse "MISG" RP_METAR md_default) in Ok (negb (has_value v3))) (
    chk 843 (let! v4 := (WeatherGroup_parse "MISG" RP_TAF md_default) in Ok (negb (has_value v4))) (
    chk 844 (let! v5 := (WeatherGroup_parse "MISG" RP_RMK md_default) in Ok (negb (has_value v5))) (
    None))))).

Definition t_WeatherGroup_parseTsLtngTempoUnavbl : option N :=
    step 848 ((WeatherGroup_parse "TS/LTNG" RP_RMK md_default)) (fun v1 => 
    chk 849 (Ok (has_value v1)) (
    chk 850 (let! v2 := deref v1 in let! v3 := (WeatherGroup_isValid v2) in Ok (negb v3)) (
    step 851 (let! v4 := deref v1 in WeatherGroup_append v4 "TEMPO" RP_RMK md_default) (fun p => let v5 := Some (fst p) in let v6 := snd p in 
    chk 851 (Ok (AppendResult_beq v6 APPENDED)) (
    chk 852 (let! v7 := deref v5 in let! v8 := (WeatherGroup_isValid v7) in Ok (negb v8)) (
    step 853 (let! v9 := deref v5 in WeatherGroup_append v9 "UNAVBL" RP_RMK md_default) (fun p => let v10 := Some (fst p) in let v11 := snd p in 
    chk 853 (Ok (AppendResult_beq v11 APPENDED)) (
    chk 854 (let! v12 := deref v10 in let! v13 := (WeatherGroup_isValid v12) in Ok v13) (
    step 855 (let! v14 := deref v10 in WeatherGroup_append v14 "" RP_RMK md_default) (fun p => let v15 := Some (fst p) in let v16 := snd p in 
    chk 855 (Ok (AppendResult_beq v16 NOT_APPENDED)) (
    chk 856 (let! v17 := deref v15 in Ok (WxType_beq (wx_t v17) Wx_TS_LTNG_TEMPO_UNAVBL)) (
    chk 857 (let! v18 := deref v15 in Ok (N.eqb (N.of_nat (List.length (WeatherGroup_weatherPhenomena v18))) 0%N)) (
    None))))))))))))).

Definition t_WeatherGroup_parseTsLtngWrongReportPart : option N :=
    chk 861 (let! v1 := (WeatherGroup_parse "TS/LTNG" RP_UNKNOWN md_default) in Ok (negb (has_value v1))) (
    chk 862 (let! v2 := (WeatherGroup_parse "TS/LTNG" RP_HEADER md_default) in Ok (negb (has_value v2))) (
    chk 863 (let! v3 := (WeatherGroup_parse "TS/LTNG" RP_METAR md_default) in Ok (negb (has_value v3))) (
    chk 864 (let! v4 := (WeatherGroup_parse "TS/LTNG" RP_TAF md_default) in Ok (negb (has_value v4))) (
    None)))).

Definition t_WeatherGroup_appendOtherToTsLtng : option N :=
    step 868 ((WeatherGroup_parse "TS/LTNG" RP_RMK md_default)) (fun v1 => 
    chk 869 (Ok (has_value v1)) (
    step 870 (let! v2 := deref v1 in WeatherGroup_append v2 "" RP_RMK md_default) (fun p => let v3 := Some (fst p) in let v4 := snd p in 
    chk 870 (Ok (AppendResult_beq v4 GROUP_INVALIDATED)) (
    step 872 ((WeatherGroup_parse "TS/LTNG" RP_RMK md_default)) (fun v5 => 
    chk 873 (Ok (has_value v5)) (
    step 874 (let! v6 := deref v5 in WeatherGroup_append v6 "WX" RP_RMK md_default) (fun p => let v7 := Some (fst p) in let v8 := snd p in 
    chk 874 (Ok (AppendResult_beq v8 GROUP_INVALIDATED)) (
    step 876 ((WeatherGroup_parse "TS/LTNG" RP_RMK md_default)) (fun v9 => 
    chk 877 (Ok (has_value v9)) (
    step 878 (let! v10 := deref v9 in WeatherGroup_append v10 "TSNO" RP_RMK md_default) (fun p => let v11 := Some (fst p) in let v12 := snd p in 
    chk 878 (Ok (AppendResult_beq v12 GROUP_INVALIDATED)) (
    step 880 ((WeatherGroup_parse "TS/LTNG" RP_RMK md_default)) (fun v13 => 
    chk 881 (Ok (has_value v13)) (
    step 882 (let! v14 := deref v13 in WeatherGroup_append v14 "RA" RP_RMK md_default) (fun p => let v15 := Some (fst p) in let v16 := snd p in 
    chk 882 (Ok (AppendResult_beq v16 GROUP_INVALIDATED)) (
    step 884 ((WeatherGroup_parse "TS/LTNG" RP_RMK md_default)) (fun v17 => 
    chk 885 (Ok (has_value v17)) (
    step 886 (let! v18 := deref v17 in WeatherGroup_append v18 "RAB1031" RP_RMK md_default) (fun p => let v19 := Some (fst p) in let v20 := snd p in 
    chk 886 (Ok (AppendResult_beq v20 GROUP_INVALIDATED)) (
    step 888 ((WeatherGroup_parse "TS/LTNG" RP_RMK md_default)) (fun v21 => 
    chk 889 (Ok (has_value v21)) (
    step 890 (let! v22 := deref v21 in WeatherGroup_append v22 "TS/LTNG" RP_RMK md_default) (fun p => let v23 := Some (fst p) in let v24 := snd p in 
    chk 890 (Ok (AppendResult_beq v24 GROUP_INVALIDATED)) (
    step 892 ((WeatherGroup_parse "TS/LTNG" RP_RMK md_default)) (fun v25 => 
    chk 893 (Ok (has_value v25)) (
    step 894 (let! v26 := deref v25 in WeatherGroup_append v26 "UNAVBL" RP_RMK md_default) (fun p => let v27 := Some (fst p) in let v28 := snd p in 
    chk 894 (Ok (AppendResult_beq v28 GROUP_INVALIDATED)) (
    step 896 ((WeatherGroup_parse "TS/LTNG" RP_RMK md_default)) (fun v29 => 
    chk 897 (Ok (has_value v29)) (
    step 898 (let! v30 := deref v29 in WeatherGroup_append v30 "MISG" RP_RMK md_default) (fun p => let v31 := Some (fst p) in let v32 := snd p in 
    chk 898 (Ok (AppendResult_beq v32 GROUP_INVALIDATED)) (
    None)))))))))))))))))))))))))))))))).

Definition t_WeatherGroup_appendOtherToTsLtngTempo : option N :=
    step 902 ((WeatherGroup_parse "TS/LTNG" RP_RMK md_default)) (fun v1 => 
    chk 903 (Ok (has_value v1)) (
    step 904 (let! v2 := deref v1 in WeatherGroup_append v2 "TEMPO" RP_RMK md_default) (fun p => let v3 := Some (fst p) in let v4 := snd p in 
    chk 904 (Ok (AppendResult_beq v4 APPENDED)) (
    step 905 (let! v5 := deref v3 in WeatherGroup_append v5 "" RP_RMK md_default) (fun p => let v6 := Some (fst p) in let v7 := snd p in 
    chk 905 (Ok (AppendResult_beq v7 GROUP_INVALIDATED)) (
    step 907 ((WeatherGroup_parse "TS/LTNG" RP_RMK md_default)) (fun v8 => 
    chk 908 (Ok (has_value v8)) (
    step 909 (let! v9 := deref v8 in WeatherGroup_append v9 "TEMPO" RP_RMK md_default) (fun p => let v10 := Some (fst p) in let v11 := snd p in 
    chk 909 (Ok (AppendResult_beq v11 APPENDED)) (
    step 910 (let! v12 := deref v10 in WeatherGroup_append v12 "WX" RP_RMK md_default) (fun p => let v13 := Some (fst p) in let v14 := snd p in 
    chk 910 (Ok (AppendResult_beq v14 GROUP_INVALIDATED)) (
    step 912 ((WeatherGroup_parse "TS/LTNG" RP_RMK md_default)) (fun v15 => 
    chk 913 (Ok (has_value v15)) (
    step 914 (let! v16 := deref v15 in WeatherGroup_append v16 "TEMPO" RP_RMK md_default) (fun p => let v17 := Some (fst p) in let v18 := snd p in 
    chk 914 (Ok (AppendResult_beq v18 APPENDED)) (
    step 915 (let! v19 := deref v17 in WeatherGroup_append v19 "TSNO" RP_RMK md_default) (fun p => let v20 := Some (fst p) in let v21 := snd p in 
    chk 915 (Ok (AppendResult_beq v21 GROUP_INVALIDATED)) (
    step 917 ((WeatherGroup_parse "TS/LTNG" RP_RMK md_default)) (fun v22 => 
    chk 918 (Ok (has_value v22)) (
    step 919 (let! v23 := deref v22 in WeatherGroup_append v23 "TEMPO" RP_RMK md_default) (fun p => let v24 := Some (fst p) in let v25 := snd p in 
    chk 919 (Ok (AppendResult_beq v25 APPENDED)) (
    step 920 (let! v26 := deref v24 in WeatherGroup_append v26 "RA" RP_RMK md_default) (fun p => let v27 := Some (fst p) in let v28 := snd p in 
    chk 920 (Ok (AppendResult_beq v28 GROUP_INVALIDATED)) (
    step 922 ((WeatherGroup_parse "TS/LTNG" RP_RMK md_default)) (fun v29 => 
    chk 923 (Ok (has_value v29)) (
    step 924 (let! v30 := deref v29 in WeatherGroup_append v30 "TEMPO" RP_RMK md_default) (fun p => let v31 := Some (fst p) in let v32 := snd p in 
    chk 924 (Ok (AppendResult_beq v32 APPENDED)) (
    step 925 (let! v33 := deref v31 in WeatherGroup_append v33 "RAB1031" RP_RMK md_default) (fun p => let v34 := Some (fst p) in let v35 := snd p in 
    chk 925 (Ok (AppendResult_beq v35 GROUP_INVALIDATED)) (
    step 927 ((WeatherGroup_parse "TS/LTNG" RP_RMK md_default)) (fun v36 => 
    chk 928 (Ok (has_value v36)) (
    step 929 (let! v37 := deref v36 in WeatherGroup_append v37 "TEMPO" RP_RMK md_default) (fun p => let v38 := Some (fst p) in let v39 := snd p in 
    chk 929 (Ok (AppendResult_beq v39 APPENDED)) (
    step 930 (let! v40 := deref v38 in WeatherGroup_append v40 "TS/LTNG" RP_RMK md_default) (fun p => let v41 := Some (fst p) in let v42 := snd p in 
    chk 930 (Ok (AppendResult_beq v42 GROUP_INVALIDATED)) (
    step 932 ((WeatherGroup_parse "TS/LTNG" RP_RMK md_default)) (fun v43 => 
    chk 933 (Ok (has_value v43)) (
    step 934 (let! v44 := deref v43 in WeatherGroup_append v44 "TEMPO" RP_RMK md_default) (fun p => let v45 := Some (fst p) in let v46 := snd p in 
    chk 934 (Ok (AppendResult_beq v46 APPENDED)) (
    step 935 (let! v47 := deref v45 in WeatherGroup_append v47 "TEMPO" RP_RMK md_default) (fun p => let v48 := Some (fst p) in let v49 := snd p in 
    chk 935 (Ok (AppendResult_beq v49 GROUP_INVALIDATED)) (
    step 937 ((WeatherGroup_parse "TS/LTNG" RP_RMK md_default)) (fun v50 => 
    chk 938 (Ok (has_value v50)) (
    step 939 (let! v51 := deref v50 in WeatherGroup_append v51 "TEMPO" RP_RMK md_default) (fun p => let v52 := Some (fst p) in let v53 := snd p in 
    chk 939 (Ok (AppendResult_beq v53 APPENDED)) (
    step 940 (let! v54 := deref v52 in WeatherGroup_append v54 "MISG" RP_RMK md_default) (fun p => let v55 := Some (fst p) in let v56 := snd p in 
    chk 940 (Ok (AppendResult_beq v56 GROUP_INVALIDATED)) (
    None)))))))))))))))))))))))))))))))))))))))))))))))).

Definition t_WeatherGroup_appendToTsLtngTempoUnavbl : option N :=
    step 944 ((WeatherGroup_parse "TS/LTNG" RP_RMK md_default)) (fun v1 => 
    chk 945 (Ok (has_value v1)) (
    step 946 (let! v2 := deref v1 in WeatherGroup_append v2 "TEMPO" RP_RMK md_default) (fun p => let v3 := Some (fst p) in let v4 := snd p in 
    chk 946 (Ok (AppendResult_beq v4 APPENDED)) (
    step 947 (let! v5 := deref v3 in WeatherGroup_append v5 "UNAVBL" RP_RMK md_default) (fun p => let v6 := Some (fst p) in let v7 := snd p in 
    chk 947 (Ok (AppendResult_beq v7 APPENDED)) (
    step 948 (let! v8 := deref v6 in WeatherGroup_append v8 "" RP_RMK md_default) (fun p => let v9 := Some (fst p) in let v10 := snd p in 
    chk 948 (Ok (AppendResult_beq v10 NOT_APPENDED)) (
    step 950 ((WeatherGroup_parse "TS/LTNG" RP_RMK md_default)) (fun v11 => 
    chk 951 (Ok (has_value v11)) (
    step 952 (let! v12 := deref v11 in WeatherGroup_append v12 "TEMPO" RP_RMK md_default) (fun p => let v13 := Some (fst p) in let v14 := snd p in 
    chk 952 (Ok (AppendResult_beq v14 APPENDED)) (
    step 953 (let! v15 := deref v13 in WeatherGroup_append v15 "UNAVBL" RP_RMK md_default) (fun p => let v16 := Some (fst p) in let v17 := snd p in 
    chk 953 (Ok (AppendResult_beq v17 APPENDED)) (
    step 954 (let! v18 := deref v16 in WeatherGroup_append v18 "WX" RP_RMK md_default) (fun p => let v19 := Some (fst p) in let v20 := snd p in 
    chk 954 (Ok (AppendResult_beq v20 NOT_APPENDED)) (
    step 956 ((WeatherGroup_parse "TS/LTNG" RP_RMK md_default)) (fun v21 => 
    chk 957 (Ok (has_value v21)) (
    step 958 (let! v22 := deref v21 in WeatherGroup_append v22 "TEMPO" RP_RMK md_default) (fun p => let v23 := Some (fst p) in let v24 := snd p in 
    chk 958 (Ok (AppendResult_beq v24 APPENDED)) (
    step 959 (let! v25 := deref v23 in WeatherGroup_append v25 "UNAVBL" RP_RMK md_default) (fun p => let v26 := Some (fst p) in let v27 := snd p in 
    chk 959 (Ok (AppendResult_beq v27 APPENDED)) (
    step 960 (let! v28 := deref v26 in WeatherGroup_append v28 "TSNO" RP_RMK md_default) (fun p => let v29 := Some (fst p) in let v30 := snd p in 
    chk 960 (Ok (AppendResult_beq v30 NOT_APPENDED)) (
    step 962 ((WeatherGroup_parse "TS/LTNG" RP_RMK md_default)) (fun v31 => 
    chk 963 (Ok (has_value v31)) (
    step 964 (let! v32 := deref v31 in WeatherGroup_append v32 "TEMPO" RP_RMK md_default) (fun p => let v33 := Some (fst p) in let v34 := snd p in 
    chk 964 (Ok (AppendResult_beq v34 APPENDED)) (
    step 965 (let! v35 := deref v33 in WeatherGroup_append v35 "UNAVBL" RP_RMK md_default) (fun p => let v36 := Some (fst p) in let v37 := snd p in 
    chk 965 (Ok (AppendResult_beq v37 APPENDED)) (
    step 966 (let! v38 := deref v36 in WeatherGroup_append v38 "RA" RP_RMK md_default) (fun p => let v39 := Some (fst p) in let v40 := snd p in 
    chk 966 (Ok (AppendResult_beq v40 NOT_APPENDED)) (
    step 968 ((WeatherGroup_parse "TS/LTNG" RP_RMK md_default)) (fun v41 => 
    chk 969 (Ok (has_value v41)) (
    step 970 (let! v42 := deref v41 in WeatherGroup_append v42 "TEMPO" RP_RMK md_default) (fun p => let v43 := Some (fst p) in let v44 := snd p in 
    chk 970 (Ok (AppendResult_beq v44 APPENDED)) (
    step 971 (let! v45 := deref v43 in WeatherGroup_append v45 "UNAVBL" RP_RMK md_default) (fun p => let v46 := Some (fst p) in let v47 := snd p in 
    chk 971 (Ok (AppendResult_beq v47 APPENDED)) (
    step 972 (let! v48 := deref v46 in WeatherGroup_append v48 "RAB1031" RP_RMK md_default) (fun p => let v49 := Some (fst p) in let v50 := snd p in 
    chk 972 (Ok (AppendResult_beq v50 NOT_APPENDED)) (
    step 974 ((WeatherGroup_parse "TS/LTNG" RP_RMK md_default)) (fun v51 => 
    chk 975 (Ok (has_value v51)) (
    step 976 (let! v52 := deref v51 in WeatherGroup_append v52 "TEMPO" RP_RMK md_default) (fun p => let v53 := Some (fst p) in let v54 := snd p in 
    chk 976 (Ok (AppendResult_beq v54 APPENDED)) (
    step 977 (let! v55 := deref v53 in WeatherGroup_append v55 "UNAVBL" RP_RMK md_default) (fun p => let v56 := Some (fst p) in let v57 := snd p in 
    chk 977 (Ok (AppendResult_beq v57 APPENDED)) (
    step 978 (let! v58 := deref v56 in WeatherGroup_append v58 "TS/LTNG" RP_RMK md_default) (fun p => let v59 := Some (fst p) in let v60 := snd p in 
    chk 978 (Ok (AppendResult_beq v60 NOT_APPENDED)) (
    step 980 ((WeatherGroup_parse "TS/LTNG" RP_RMK md_default)) (fun v61 => 
    chk 981 (Ok (has_value v61)) (
    step 982 (let! v62 := deref v61 in WeatherGroup_append v62 "TEMPO" RP_RMK md_default) (fun p => let v63 := Some (fst p) in let v64 := snd p in 
    chk 982 (Ok (AppendResult_beq v64 APPENDED)) (
    step 983 (let! v65 := deref v63 in WeatherGroup_append v65 "UNAVBL" RP_RMK md_default) (fun p => let v66 := Some (fst p) in let v67 := snd p in 
    chk 983 (Ok (AppendResult_beq v67 APPENDED)) (
    step 984 (let! v68 := deref v66 in WeatherGroup_append v68 "TEMPO" RP_RMK md_default) (fun p => let v69 := Some (fst p) in let v70 := snd p in 
    chk 984 (Ok (AppendResult_beq v70 NOT_APPENDED)) (
    step 986 ((WeatherGroup_parse "TS/LTNG" RP_RMK md_default)) (fun v71 => 
    chk 987 (Ok (has_value v71)) (
    step 988 (let! v72 := deref v71 in WeatherGroup_append v72 "TEMPO" RP_RMK md_default) (fun p => let v73 := Some (fst p) in let v74 := snd p in 
    chk 988 (Ok (AppendResult_beq v74 APPENDED)) (
    step 989 (let! v75 := deref v73 in WeatherGroup_append v75 "UNAVBL" RP_RMK md_default) (fun p => let v76 := Some (fst p) in let v77 := snd p in 
    chk 989 (Ok (AppendResult_beq v77 APPENDED)) (
    step 990 (let! v78 := deref v76 in WeatherGroup_append v78 "UNAVBL" RP_RMK md_default) (fun p => let v79 := Some (fst p) in let v80 := snd p in 
    chk 990 (Ok (AppendResult_beq v80 NOT_APPENDED)) (
    step 992 ((WeatherGroup_parse "TS/LTNG" RP_RMK md_default)) (fun v81 => 
    chk 993 (Ok (has_value v81)) (
    step 994 (let! v82 := deref v81 in WeatherGroup_append v82 "TEMPO" RP_RMK md_default) (fun p => let v83 := Some (fst p) in let v84 := snd p in 
    chk 994 (Ok (AppendResult_beq v84 APPENDED)) (
    step 995 (let! v85 := deref v83 in WeatherGroup_append v85 "UNAVBL" RP_RMK md_default) (fun p => let v86 := Some (fst p) in let v87 := snd p in 
    chk 995 (Ok (AppendResult_beq v87 APPENDED)) (
    step 996 (let! v88 := deref v86 in WeatherGroup_append v88 "MISG" RP_RMK md_default) (fun p => let v89 := Some (fst p) in let v90 := snd p in 
    chk 996 (Ok (AppendResult_beq v90 NOT_APPENDED)) (
    None)))))))))))))))))))))))))))))))))))))))))))))))))))))))))))))))))))))))).

Definition t_WeatherGroup_parseTempo : option N :=
    chk 1000 (let! v1 := (WeatherGroup_parse "TEMPO" RP_UNKNOWN md_default) in Ok (negb (has_value v1))) (
    chk 1001 (let! v2 := (WeatherGroup_parse "TEMPO" RP_HEADER md_default) in Ok (negb (has_value v2))) (
    chk 1002 (let! v3 := (WeatherGroup_parse "TEMPO" RP_METAR md_default) in Ok (negb (has_value v3))) (
    chk 1003 (let! v4 := (WeatherGroup_parse "TEMPO" RP_TAF md_default) in Ok (negb (has_value v4))) (
    chk 1004 (let! v5 := (WeatherGroup_parse "TEMPO" RP_RMK md_default) in Ok (negb (has_value v5))) (
    None))))).

Definition t_WeatherGroup_parseUnavbl : option N :=
    chk 1008 (let! v1 := (WeatherGroup_parse "UNAVBL" RP_UNKNOWN md_default) in Ok (negb (has_value v1))) (
    chk 1009 (let! v2 := (WeatherGroup_parse "UNAVBL" RP_HEADER md_default) in Ok (negb (has_value v2))) (
    chk 1010 (let! v3 := (WeatherGroup_parse "UNAVBL" RP_METAR md_default) in Ok (negb (has_value v3))) (
    chk 1011 (let! v4 := (WeatherGroup_parse "UNAVBL" RP_TAF md_default) in Ok (negb (has_value v4))) (
    chk 1012 (let! v5 := (WeatherGroup_parse "UNAVBL" RP_RMK md_default) in Ok (negb (has_value v5))) (
    None))))).

Example tests_weathergroup_pass : failures
  [("WeatherGroup_parseWeatherMetar", t_WeatherGroup_parseWeatherMetar);
   ("WeatherGroup_parseWeatherTaf", t_WeatherGroup_parseWeatherTaf);
   ("WeatherGroup_parseRecentWeatherMetar", t_WeatherGroup_parseRecentWeatherMetar);
   ("WeatherGroup_parseRecentWeatherTaf", t_WeatherGroup_parseRecentWeatherTaf);
   ("WeatherGroup_parseVicinityMetar", t_WeatherGroup_parseVicinityMetar);
   ("WeatherGroup_parseVicinityTaf", t_WeatherGroup_parseVicinityTaf);
   ("WeatherGroup_parseNonReportedMetar", t_WeatherGroup_parseNonReportedMetar);
   ("WeatherGroup_parseNonReportedTaf", t_WeatherGroup_parseNonReportedTaf);
   ("WeatherGroup_parseNonReportedRecentMetar", t_WeatherGroup_parseNonReportedRecentMetar);
   ("WeatherGroup_parseNonReportedRecentTaf", t_WeatherGroup_parseNonReportedRecentTaf);
   ("WeatherGroup_parseRecentWeatherEventSingle", t_WeatherGroup_parseRecentWeatherEventSingle);
   ("WeatherGroup_parseRecentWeatherEventMultiple", t_WeatherGroup_parseRecentWeatherEventMultiple);
   ("WeatherGroup_parseRecentWeatherEventMultipleShortGroupInTheMiddle", t_WeatherGroup_parseRecentWeatherEventMultipleShortGroupInTheMiddle);
   ("WeatherGroup_parseWrongReportPart", t_WeatherGroup_parseWrongReportPart);
   ("WeatherGroup_parseWrongFormat", t_WeatherGroup_parseWrongFormat);
   ("WeatherGroup_appendCurrentWeather", t_WeatherGroup_appendCurrentWeather);
   ("WeatherGroup_appendCurrentWeatherTooManyGroups", t_WeatherGroup_appendCurrentWeatherTooManyGroups);
   ("WeatherGroup_appendRecentWeather", t_WeatherGroup_appendRecentWeather);
   ("WeatherGroup_appendRecentWeatherTooManyGroups", t_WeatherGroup_appendRecentWeatherTooManyGroups);
   ("WeatherGroup_appendCurrentRecentWeather", t_WeatherGroup_appendCurrentRecentWeather);
   ("WeatherGroup_appendWeatherEvent", t_WeatherGroup_appendWeatherEvent);
   ("WeatherGroup_appendToWeatherEvent", t_WeatherGroup_appendToWeatherEvent);
   ("WeatherGroup_appendOther", t_WeatherGroup_appendOther);
   ("WeatherGroup_parseNsw", t_WeatherGroup_parseNsw);
   ("WeatherGroup_parseNswWrongReportPart", t_WeatherGroup_parseNswWrongReportPart);
   ("WeatherGroup_appendToNsw", t_WeatherGroup_appendToNsw);
   ("WeatherGroup_parsePwino", t_WeatherGroup_parsePwino);
   ("WeatherGroup_parsePwinoWrongReportPart", t_WeatherGroup_parsePwinoWrongReportPart);
   ("WeatherGroup_appendToPwino", t_WeatherGroup_appendToPwino);
   ("WeatherGroup_parseTsno", t_WeatherGroup_parseTsno);
   ("WeatherGroup_parseTsnoWrongReportPart", t_WeatherGroup_parseTsnoWrongReportPart);
   ("WeatherGroup_appendToTsno", t_WeatherGroup_appendToTsno);
   ("WeatherGroup_parseWxMisg", t_WeatherGroup_parseWxMisg);
   ("WeatherGroup_parseWxWrongReportPart", t_WeatherGroup_parseWxWrongReportPart);
   ("WeatherGroup_appendToWxMisg", t_WeatherGroup_appendToWxMisg);
   ("WeatherGroup_appendOtherToWx", t_WeatherGroup_appendOtherToWx);
   ("WeatherGroup_parseMisg", t_WeatherGroup_parseMisg);
   ("WeatherGroup_parseTsLtngTempoUnavbl", t_WeatherGroup_parseTsLtngTempoUnavbl);
   ("WeatherGroup_parseTsLtngWrongReportPart", t_WeatherGroup_parseTsLtngWrongReportPart);
   ("WeatherGroup_appendOtherToTsLtng", t_WeatherGroup_appendOtherToTsLtng);
   ("WeatherGroup_appendOtherToTsLtngTempo", t_WeatherGroup_appendOtherToTsLtngTempo);
   ("WeatherGroup_appendToTsLtngTempoUnavbl", t_WeatherGroup_appendToTsLtngTempoUnavbl);
   ("WeatherGroup_parseTempo", t_WeatherGroup_parseTempo);
   ("WeatherGroup_parseUnavbl", t_WeatherGroup_parseUnavbl)] = [].
Proof. vm_compute. reflexivity. Qed.
