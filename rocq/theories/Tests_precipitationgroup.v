(** Generated by tools/gen_tests.py from /repo/test/test_precipitationgroup.cpp: the project's own unit tests, run
    against the model. These are tests of the model's fidelity, not properties. *)

From Verif Require Import Prim Regex Float Values Weather Groups1 Groups2 Groups3 Groups4 Parser TestLib.
Local Open Scope string_scope.
Local Open Scope bool_scope.

Definition t_PrecipitationGroup_parse4digitGroup : option N :=
    step 20 ((PrecipitationGroup_parse "P2168" RP_RMK md_default)) (fun v1 => 
    chk 21 (Ok (has_value v1)) (
    chk 22 (let! v2 := deref v1 in Ok (PcType_beq (pc_type v2) Pc_TOTAL_PRECIPITATION_HOURLY)) (
    chk 23 (let! v3 := deref v1 in Ok (PrecipUnit_beq (precipUnit (pc_amount v3)) INCHES)) (
    chk 24 (let! v4 := deref v1 in Ok (has_value (precipValue (pc_amount v4)))) (
    chk 25 (let! v5 := deref v1 in let! v6 := deref (precipValue (pc_amount v5)) in Ok (near v6 (dlit (542) 25) (dlit (1) 200))) (
    chk 26 (let! v7 := deref v1 in Ok (negb (Precipitation_isReported (pc_change v7)))) (
    step 28 ((PrecipitationGroup_parse "60217" RP_RMK md_default)) (fun v8 => 
    chk 29 (Ok (has_value v8)) (
    chk 30 (let! v9 := deref v8 in Ok (PcType_beq (pc_type v9) Pc_FROZEN_PRECIP_3_OR_6_HOURLY)) (
    chk 31 (let! v10 := deref v8 in Ok (PrecipUnit_beq (precipUnit (pc_amount v10)) INCHES)) (
    chk 32 (let! v11 := deref v8 in Ok (has_value (precipValue (pc_amount v11)))) (
    chk 33 (let! v12 := deref v8 in let! v13 := deref (precipValue (pc_amount v12)) in Ok (near v13 (dlit (217) 100) (dlit (1) 200))) (
    chk 34 (let! v14 := deref v8 in Ok (negb (Precipitation_isReported (pc_change v14)))) (
    step 36 ((PrecipitationGroup_parse "70125" RP_RMK md_default)) (fun v15 => 
    chk 37 (Ok (has_value v15)) (
    chk 38 (let! v16 := deref v15 in Ok (PcType_beq (pc_type v16) Pc_FROZEN_PRECIP_24_HOURLY)) (
    chk 39 (let! v17 := deref v15 in Ok (PrecipUnit_beq (precipUnit (pc_amount v17)) INCHES)) (
    chk 40 (let! v18 := deref v15 in Ok (has_value (precipValue (pc_amount v18)))) (
    chk 41 (let! v19 := deref v15 in let! v20 := deref (precipValue (pc_amount v19)) in Ok (near v20 (dlit (5) 4) (dlit (1) 200))) (
    chk 42 (let! v21 := deref v15 in Ok (negb (Precipitation_isReported (pc_change v21)))) (
    None))))))))))))))))))))).

Definition t_PrecipitationGroup_parse4digitGroupNotReported : option N :=
    step 46 ((PrecipitationGroup_parse "P////" RP_RMK md_default)) (fun v1 => 
    chk 47 (Ok (has_value v1)) (
    chk 48 (let! v2 := deref v1 in Ok (PcType_beq (pc_type v2) Pc_TOTAL_PRECIPITATION_HOURLY)) (
    chk 49 (let! v3 := deref v1 in Ok (negb (Precipitation_isReported (pc_amount v3)))) (
    chk 50 (let! v4 := deref v1 in Ok (negb (Precipitation_isReported (pc_change v4)))) (
    step 52 ((PrecipitationGroup_parse "6////" RP_RMK md_default)) (fun v5 => 
    chk 53 (Ok (has_value v5)) (
    chk 54 (let! v6 := deref v5 in Ok (PcType_beq (pc_type v6) Pc_FROZEN_PRECIP_3_OR_6_HOURLY)) (
    chk 55 (let! v7 := deref v5 in Ok (negb (Precipitation_isReported (pc_amount v7)))) (
    chk 56 (let! v8 := deref v5 in Ok (negb (Precipitation_isReported (pc_change v8)))) (
    step 58 ((PrecipitationGroup_parse "7////" RP_RMK md_default)) (fun v9 => 
    chk 59 (Ok (has_value v9)) (
    chk 60 (let! v10 := deref v9 in Ok (PcType_beq (pc_type v10) Pc_FROZEN_PRECIP_24_HOURLY)) (
    chk 61 (let! v11 := deref v9 in Ok (negb (Precipitation_isReported (pc_amount v11)))) (
    chk 62 (let! v12 := deref v9 in Ok (negb (Precipitation_isReported (pc_change v12)))) (
    None))))))))))))))).

Definition t_PrecipitationGroup_parse3digitGroup : option N :=
    step 66 ((PrecipitationGroup_parse "4/021" RP_RMK md_default)) (fun v1 => 
    chk 67 (Ok (has_value v1)) (
    chk 68 (let! v2 := deref v1 in Ok (PcType_beq (pc_type v2) Pc_SNOW_DEPTH_ON_GROUND)) (
    chk 69 (let! v3 := deref v1 in Ok (PrecipUnit_beq (precipUnit (pc_amount v3)) INCHES)) (
    chk 70 (let! v4 := deref v1 in Ok (has_value (precipValue (pc_amount v4)))) (
    chk 71 (let! v5 := deref v1 in let! v6 := deref (precipValue (pc_amount v5)) in Ok (near v6 (dlit (21) 1) (dlit (1) 200))) (
    chk 72 (let! v7 := deref v1 in Ok (negb (Precipitation_isReported (pc_change v7)))) (
    step 74 ((PrecipitationGroup_parse "931011" RP_RMK md_default)) (fun v8 => 
    chk 75 (Ok (has_value v8)) (
    chk 76 (let! v9 := deref v8 in Ok (PcType_beq (pc_type v9) Pc_SNOW_6_HOURLY)) (
    chk 77 (let! v10 := deref v8 in Ok (PrecipUnit_beq (precipUnit (pc_amount v10)) INCHES)) (
    chk 78 (let! v11 := deref v8 in Ok (has_value (precipValue (pc_amount v11)))) (
    chk 79 (let! v12 := deref v8 in let! v13 := deref (precipValue (pc_amount v12)) in Ok (near v13 (dlit (11) 10) (dlit (1) 200))) (
    chk 80 (let! v14 := deref v8 in Ok (negb (Precipitation_isReported (pc_change v14)))) (
    step 82 ((PrecipitationGroup_parse "933125" RP_RMK md_default)) (fun v15 => 
    chk 83 (Ok (has_value v15)) (
    chk 84 (let! v16 := deref v15 in Ok (PcType_beq (pc_type v16) Pc_WATER_EQUIV_OF_SNOW_ON_GROUND)) (
    chk 85 (let! v17 := deref v15 in Ok (PrecipUnit_beq (precipUnit (pc_amount v17)) INCHES)) (
    chk 86 (let! v18 := deref v15 in Ok (has_value (precipValue (pc_amount v18)))) (
    chk 87 (let! v19 := deref v15 in let! v20 := deref (precipValue (pc_amount v19)) in Ok (near v20 (dlit (25) 2) (dlit (1) 200))) (
    chk 88 (let! v21 := deref v15 in Ok (negb (Precipitation_isReported (pc_change v21)))) (
    step 90 ((PrecipitationGroup_parse "I1010" RP_RMK md_default)) (fun v22 => 
    chk 91 (Ok (has_value v22)) (
    chk 92 (let! v23 := deref v22 in Ok (PcType_beq (pc_type v23) Pc_ICE_ACCRETION_FOR_LAST_HOUR)) (
    chk 93 (let! v24 := deref v22 in Ok (PrecipUnit_beq (precipUnit (pc_amount v24)) INCHES)) (
    chk 94 (let! v25 := deref v22 in Ok (has_value (precipValue (pc_amount v25)))) (
    chk 95 (let! v26 := deref v22 in let! v27 := deref (precipValue (pc_amount v26)) in Ok (near v27 (dlit (1) 10) (dlit (1) 200))) (
    chk 96 (let! v28 := deref v22 in Ok (negb (Precipitation_isReported (pc_change v28)))) (
    step 98 ((PrecipitationGroup_parse "I3015" RP_RMK md_default)) (fun v29 => 
    chk 99 (Ok (has_value v29)) (
    chk 100 (let! v30 := deref v29 in Ok (PcType_beq (pc_type v30) Pc_ICE_ACCRETION_FOR_LAST_3_HOURS)) (
    chk 101 (let! v31 := deref v29 in Ok (PrecipUnit_beq (precipUnit (pc_amount v31)) INCHES)) (
    chk 102 (let! v32 := deref v29 in Ok (has_value (precipValue (pc_amount v32)))) (
    chk 103 (let! v33 := deref v29 in let! v34 := deref (precipValue (pc_amount v33)) in Ok (near v34 (dlit (3) 20) (dlit (1) 200))) (
    chk 104 (let! v35 := deref v29 in Ok (negb (Precipitation_isReported (pc_change v35)))) (
    step 106 ((PrecipitationGroup_parse "I6022" RP_RMK md_default)) (fun v36 => 
    chk 107 (Ok (has_value v36)) (
    chk 108 (let! v37 := deref v36 in Ok (PcType_beq (pc_type v37) Pc_ICE_ACCRETION_FOR_LAST_6_HOURS)) (
    chk 109 (let! v38 := deref v36 in Ok (PrecipUnit_beq (precipUnit (pc_amount v38)) INCHES)) (
    chk 110 (let! v39 := deref v36 in Ok (has_value (precipValue (pc_amount v39)))) (
    chk 111 (let! v40 := deref v36 in let! v41 := deref (precipValue (pc_amount v40)) in Ok (near v41 (dlit (11) 50) (dlit (1) 200))) (
    chk 112 (let! v42 := deref v36 in Ok (negb (Precipitation_isReported (pc_change v42)))) (
    step 114 ((PrecipitationGroup_parse "PP134" RP_RMK md_default)) (fun v43 => 
    chk 115 (Ok (has_value v43)) (
    chk 116 (let! v44 := deref v43 in Ok (PcType_beq (pc_type v44) Pc_PRECIPITATION_ACCUMULATION_SINCE_LAST_REPORT)) (
    chk 117 (let! v45 := deref v43 in Ok (PrecipUnit_beq (precipUnit (pc_amount v45)) MM)) (
    chk 118 (let! v46 := deref v43 in Ok (has_value (precipValue (pc_amount v46)))) (
    chk 119 (let! v47 := deref v43 in let! v48 := deref (precipValue (pc_amount v47)) in Ok (near v48 (dlit (67) 5) (dlit (1) 200))) (
    chk 120 (let! v49 := deref v43 in Ok (negb (Precipitation_isReported (pc_change v49)))) (
    None))))))))))))))))))))))))))))))))))))))))))))))))).

Definition t_PrecipitationGroup_parse3digitGroupNotReported : option N :=
    step 124 ((PrecipitationGroup_parse "4////" RP_RMK md_default)) (fun v1 => 
    chk 125 (Ok (has_value v1)) (
    chk 126 (let! v2 := deref v1 in Ok (PcType_beq (pc_type v2) Pc_SNOW_DEPTH_ON_GROUND)) (
    chk 127 (let! v3 := deref v1 in Ok (negb (Precipitation_isReported (pc_amount v3)))) (
    chk 128 (let! v4 := deref v1 in Ok (negb (Precipitation_isReported (pc_change v4)))) (
    step 130 ((PrecipitationGroup_parse "931///" RP_RMK md_default)) (fun v5 => 
    chk 131 (Ok (has_value v5)) (
    chk 132 (let! v6 := deref v5 in Ok (PcType_beq (pc_type v6) Pc_SNOW_6_HOURLY)) (
    chk 133 (let! v7 := deref v5 in Ok (negb (Precipitation_isReported (pc_amount v7)))) (
    chk 134 (let! v8 := deref v5 in Ok (negb (Precipitation_isReported (pc_change v8)))) (
    step 136 ((PrecipitationGroup_parse "933///" RP_RMK md_default)) (fun v9 => 
    chk 137 (Ok (has_value v9)) (
    chk 138 (let! v10 := deref v9 in Ok (PcType_beq (pc_type v10) Pc_WATER_EQUIV_OF_SNOW_ON_GROUND)) (
    chk 139 (let! v11 := deref v9 in Ok (negb (Precipitation_isReported (pc_amount v11)))) (
    chk 140 (let! v12 := deref v9 in Ok (negb (Precipitation_isReported (pc_change v12)))) (
    step 142 ((PrecipitationGroup_parse "I1///" RP_RMK md_default)) (fun v13 => 
    chk 143 (Ok (has_value v13)) (
    chk 144 (let! v14 := deref v13 in Ok (PcType_beq (pc_type v14) Pc_ICE_ACCRETION_FOR_LAST_HOUR)) (
    chk 145 (let! v15 := deref v13 in Ok (negb (Precipitation_isReported (pc_amount v15)))) (
    chk 146 (let! v16 := deref v13 in Ok (negb (Precipitation_isReported (pc_change v16)))) (
    step 148 ((PrecipitationGroup_parse "I3///" RP_RMK md_default)) (fun v17 => 
    chk 149 (Ok (has_value v17)) (
    chk 150 (let! v18 := deref v17 in Ok (PcType_beq (pc_type v18) Pc_ICE_ACCRETION_FOR_LAST_3_HOURS)) (
    chk 151 (let! v19 := deref v17 in Ok (negb (Precipitation_isReported (pc_amount v19)))) (
    chk 152 (let! v20 := deref v17 in Ok (negb (Precipitation_isReported (pc_change v20)))) (
    step 154 ((PrecipitationGroup_parse "I6///" RP_RMK md_default)) (fun v21 => 
    chk 155 (Ok (has_value v21)) (
    chk 156 (let! v22 := deref v21 in Ok (PcType_beq (pc_type v22) Pc_ICE_ACCRETION_FOR_LAST_6_HOURS)) (
    chk 157 (let! v23 := deref v21 in Ok (negb (Precipitation_isReported (pc_amount v23)))) (
    chk 158 (let! v24 := deref v21 in Ok (negb (Precipitation_isReported (pc_change v24)))) (
    step 160 ((PrecipitationGroup_parse "PP///" RP_RMK md_default)) (fun v25 => 
    chk 161 (Ok (has_value v25)) (
    chk 162 (let! v26 := deref v25 in Ok (PcType_beq (pc_type v26) Pc_PRECIPITATION_ACCUMULATION_SINCE_LAST_REPORT)) (
    chk 163 (let! v27 := deref v25 in Ok (negb (Precipitation_isReported (pc_amount v27)))) (
    chk 164 (let! v28 := deref v25 in Ok (negb (Precipitation_isReported (pc_change v28)))) (
    None))))))))))))))))))))))))))))))))))).

Definition t_PrecipitationGroup_parseRainfall : option N :=
    step 174 ((PrecipitationGroup_parse "RF02.7/010.5" RP_METAR md_default)) (fun v1 => 
    chk 176 (Ok (has_value v1)) (
    chk 178 (let! v2 := deref v1 in Ok (PcType_beq (pc_type v2) Pc_RAINFALL_9AM_10MIN)) (
    chk 180 (let! v3 := deref v1 in Ok (PrecipUnit_beq (precipUnit (pc_amount v3)) MM)) (
    chk 181 (let! v4 := deref v1 in Ok (has_value (precipValue (pc_amount v4)))) (
    chk 182 (let! v5 := deref v1 in let! v6 := deref (precipValue (pc_amount v5)) in Ok (near v6 (dlit (21) 2) (dlit (1) 200))) (
    chk 184 (let! v7 := deref v1 in Ok (PrecipUnit_beq (precipUnit (pc_change v7)) MM)) (
    chk 185 (let! v8 := deref v1 in Ok (has_value (precipValue (pc_change v8)))) (
    chk 186 (let! v9 := deref v1 in let! v10 := deref (precipValue (pc_change v9)) in Ok (near v10 (dlit (27) 10) (dlit (1) 200))) (
    None))))))))).

Definition t_PrecipitationGroup_parseRainfallNotReported : option N :=
    step 190 ((PrecipitationGroup_parse "RF//.//010.5" RP_METAR md_default)) (fun v1 => 
    chk 191 (Ok (has_value v1)) (
    chk 192 (let! v2 := deref v1 in Ok (PcType_beq (pc_type v2) Pc_RAINFALL_9AM_10MIN)) (
    chk 193 (let! v3 := deref v1 in Ok (PrecipUnit_beq (precipUnit (pc_amount v3)) MM)) (
    chk 194 (let! v4 := deref v1 in Ok (has_value (precipValue (pc_amount v4)))) (
    chk 195 (let! v5 := deref v1 in let! v6 := deref (precipValue (pc_amount v5)) in Ok (near v6 (dlit (21) 2) (dlit (1) 200))) (
    chk 196 (let! v7 := deref v1 in Ok (negb (Precipitation_isReported (pc_change v7)))) (
    step 198 ((PrecipitationGroup_parse "RF02.7////./" RP_METAR md_default)) (fun v8 => 
    chk 199 (Ok (has_value v8)) (
    chk 200 (let! v9 := deref v8 in Ok (PcType_beq (pc_type v9) Pc_RAINFALL_9AM_10MIN)) (
    chk 201 (let! v10 := deref v8 in Ok (negb (Precipitation_isReported (pc_amount v10)))) (
    chk 202 (let! v11 := deref v8 in Ok (PrecipUnit_beq (precipUnit (pc_change v11)) MM)) (
    chk 203 (let! v12 := deref v8 in Ok (has_value (precipValue (pc_change v12)))) (
    chk 204 (let! v13 := deref v8 in let! v14 := deref (precipValue (pc_change v13)) in Ok (near v14 (dlit (27) 10) (dlit (1) 200))) (
    step 206 ((PrecipitationGroup_parse "RF//./////./" RP_METAR md_default)) (fun v15 => 
    chk 207 (Ok (has_value v15)) (
    chk 208 (let! v16 := deref v15 in Ok (PcType_beq (pc_type v16) Pc_RAINFALL_9AM_10MIN)) (
    chk 209 (let! v17 := deref v15 in Ok (negb (Precipitation_isReported (pc_amount v17)))) (
    chk 210 (let! v18 := deref v15 in Ok (negb (Precipitation_isReported (pc_change v18)))) (
    None))))))))))))))))))).

Definition t_PrecipitationGroup_rainfallWrongReportPart : option N :=
    chk 214 (let! v1 := (PrecipitationGroup_parse "RF02.7/010.5" RP_UNKNOWN md_default) in Ok (negb (has_value v1))) (
    chk 215 (let! v2 := (PrecipitationGroup_parse "RF02.7/010.5" RP_TAF md_default) in Ok (negb (has_value v2))) (
    chk 216 (let! v3 := (PrecipitationGroup_parse "RF02.7/010.5" RP_HEADER md_default) in Ok (negb (has_value v3))) (
    chk 217 (let! v4 := (PrecipitationGroup_parse "RF02.7/010.5" RP_RMK md_default) in Ok (negb (has_value v4))) (
    None)))).

Definition t_PrecipitationGroup_rainfallWrongFormat : option N :=
    chk 223 (let! v1 := (PrecipitationGroup_parse "RF21.5/112.4/031.8" RP_METAR md_default) in Ok (negb (has_value v1))) (
    chk 224 (let! v2 := (PrecipitationGroup_parse "RF//.//112.4/031.8" RP_METAR md_default) in Ok (negb (has_value v2))) (
    chk 225 (let! v3 := (PrecipitationGroup_parse "RF21.5////.//031.8" RP_METAR md_default) in Ok (negb (has_value v3))) (
    chk 226 (let! v4 := (PrecipitationGroup_parse "RF21.5////.//031.8" RP_METAR md_default) in Ok (negb (has_value v4))) (
    chk 227 (let! v5 := (PrecipitationGroup_parse "RF21.5////./////./" RP_METAR md_default) in Ok (negb (has_value v5))) (
    chk 229 (let! v6 := (PrecipitationGroup_parse "0F02.7/010.5" RP_METAR md_default) in Ok (negb (has_value v6))) (
    chk 230 (let! v7 := (PrecipitationGroup_parse "RA02.7/010.5" RP_METAR md_default) in Ok (negb (has_value v7))) (
    chk 231 (let! v8 := (PrecipitationGroup_parse "RF02.7/010.5/" RP_METAR md_default) in Ok (negb (has_value v8))) (
    chk 232 (let! v9 := (PrecipitationGroup_parse "RF/02.7/010.5" RP_METAR md_default) in Ok (negb (has_value v9))) (
    chk 233 (let! v10 := (PrecipitationGroup_parse "RF02.7-010.5" RP_METAR md_default) in Ok (negb (has_value v10))) (
    chk 235 (let! v11 := (PrecipitationGroup_parse "RF02.7" RP_METAR md_default) in Ok (negb (has_value v11))) (
    chk 236 (let! v12 := (PrecipitationGroup_parse "RF010.5" RP_METAR md_default) in Ok (negb (has_value v12))) (
    chk 238 (let! v13 := (PrecipitationGroup_parse "RF002.7/010.5" RP_METAR md_default) in Ok (negb (has_value v13))) (
    chk 239 (let! v14 := (PrecipitationGroup_parse "RF02.70/010.5" RP_METAR md_default) in Ok (negb (has_value v14))) (
    chk 240 (let! v15 := (PrecipitationGroup_parse "RF02.7/0010.5" RP_METAR md_default) in Ok (negb (has_value v15))) (
    chk 241 (let! v16 := (PrecipitationGroup_parse "RF2.70/010.50" RP_METAR md_default) in Ok (negb (has_value v16))) (
    chk 243 (let! v17 := (PrecipitationGroup_parse "RF2.7/010.5" RP_METAR md_default) in Ok (negb (has_value v17))) (
    chk 244 (let! v18 := (PrecipitationGroup_parse "RF.7/010.5" RP_METAR md_default) in Ok (negb (has_value v18))) (
    chk 245 (let! v19 := (PrecipitationGroup_parse "RF02./010.5" RP_METAR md_default) in Ok (negb (has_value v19))) (
    chk 246 (let! v20 := (PrecipitationGroup_parse "RF02/010.5" RP_METAR md_default) in Ok (negb (has_value v20))) (
    chk 248 (let! v21 := (PrecipitationGroup_parse "RF02.7/10.5" RP_METAR md_default) in Ok (negb (has_value v21))) (
    chk 249 (let! v22 := (PrecipitationGroup_parse "RF02.7/.5" RP_METAR md_default) in Ok (negb (has_value v22))) (
    chk 250 (let! v23 := (PrecipitationGroup_parse "RF02.7/010." RP_METAR md_default) in Ok (negb (has_value v23))) (
    chk 251 (let! v24 := (PrecipitationGroup_parse "RF02.7/010" RP_METAR md_default) in Ok (negb (has_value v24))) (
    chk 253 (let! v25 := (PrecipitationGroup_parse "RF02-7/010.5" RP_METAR md_default) in Ok (negb (has_value v25))) (
    chk 254 (let! v26 := (PrecipitationGroup_parse "RF02.7/010-5" RP_METAR md_default) in Ok (negb (has_value v26))) (
    chk 255 (let! v27 := (PrecipitationGroup_parse "RF02-7/010-5" RP_METAR md_default) in Ok (negb (has_value v27))) (
    chk 257 (let! v28 := (PrecipitationGroup_parse "RF0207/010.5" RP_METAR md_default) in Ok (negb (has_value v28))) (
    chk 258 (let! v29 := (PrecipitationGroup_parse "RF02.7/01005" RP_METAR md_default) in Ok (negb (has_value v29))) (
    chk 259 (let! v30 := (PrecipitationGroup_parse "RF0207/01005" RP_METAR md_default) in Ok (negb (has_value v30))) (
    chk 261 (let! v31 := (PrecipitationGroup_parse "RF0A.7/010.5" RP_METAR md_default) in Ok (negb (has_value v31))) (
    chk 262 (let! v32 := (PrecipitationGroup_parse "RF02.A/010.5" RP_METAR md_default) in Ok (negb (has_value v32))) (
    chk 263 (let! v33 := (PrecipitationGroup_parse "RF02.7/01A.5" RP_METAR md_default) in Ok (negb (has_value v33))) (
    chk 264 (let! v34 := (PrecipitationGroup_parse "RF02.7/010.A" RP_METAR md_default) in Ok (negb (has_value v34))) (
    chk 266 (let! v35 := (PrecipitationGroup_parse "RF/.//010.5" RP_METAR md_default) in Ok (negb (has_value v35))) (
    chk 267 (let! v36 := (PrecipitationGroup_parse "RF//./010.5" RP_METAR md_default) in Ok (negb (has_value v36))) (
    chk 268 (let! v37 := (PrecipitationGroup_parse "RF///.//010.5" RP_METAR md_default) in Ok (negb (has_value v37))) (
    chk 269 (let! v38 := (PrecipitationGroup_parse "RF//.///010.5" RP_METAR md_default) in Ok (negb (has_value v38))) (
    chk 270 (let! v39 := (PrecipitationGroup_parse "RF02.7///./" RP_METAR md_default) in Ok (negb (has_value v39))) (
    chk 271 (let! v40 := (PrecipitationGroup_parse "RF02.7////." RP_METAR md_default) in Ok (negb (has_value v40))) (
    chk 272 (let! v41 := (PrecipitationGroup_parse "RF02.7/////./" RP_METAR md_default) in Ok (negb (has_value v41))) (
    chk 273 (let! v42 := (PrecipitationGroup_parse "RF02.7////.//" RP_METAR md_default) in Ok (negb (has_value v42))) (
    chk 275 (let! v43 := (PrecipitationGroup_parse "RF//-/////./" RP_METAR md_default) in Ok (negb (has_value v43))) (
    chk 276 (let! v44 := (PrecipitationGroup_parse "RF//./////-/" RP_METAR md_default) in Ok (negb (has_value v44))) (
    None)))))))))))))))))))))))))))))))))))))))))))).

Definition t_PrecipitationGroup_parseSnincrGroup : option N :=
    step 287 ((PrecipitationGroup_parse "SNINCR" RP_RMK md_default)) (fun v1 => 
    chk 288 (Ok (has_value v1)) (
    chk 289 (let! v2 := deref v1 in Ok (PcType_beq (pc_type v2) Pc_SNOW_INCREASING_RAPIDLY)) (
    chk 290 (let! v3 := deref v1 in Ok (negb (Precipitation_isReported (pc_amount v3)))) (
    chk 291 (let! v4 := deref v1 in Ok (negb (Precipitation_isReported (pc_change v4)))) (
    None))))).

Definition t_PrecipitationGroup_appendFractionToSnincr : option N :=
    step 298 ((PrecipitationGroup_parse "SNINCR" RP_RMK md_default)) (fun v1 => 
    chk 299 (Ok (has_value v1)) (
    step 301 (let! v2 := deref v1 in PrecipitationGroup_append v2 "4/12" RP_RMK md_default) (fun p => let v3 := Some (fst p) in let v4 := snd p in 
    chk 301 (Ok (AppendResult_beq v4 APPENDED)) (
    chk 304 (let! v5 := deref v3 in Ok (PcType_beq (pc_type v5) Pc_SNOW_INCREASING_RAPIDLY)) (
    chk 306 (let! v6 := deref v3 in Ok (PrecipUnit_beq (precipUnit (pc_amount v6)) INCHES)) (
    chk 307 (let! v7 := deref v3 in Ok (has_value (precipValue (pc_amount v7)))) (
    chk 308 (let! v8 := deref v3 in let! v9 := deref (precipValue (pc_amount v8)) in Ok (near v9 (dlit (12) 1) (dlit (1) 200))) (
    chk 310 (let! v10 := deref v3 in Ok (PrecipUnit_beq (precipUnit (pc_change v10)) INCHES)) (
    chk 311 (let! v11 := deref v3 in Ok (has_value (precipValue (pc_change v11)))) (
    chk 312 (let! v12 := deref v3 in let! v13 := deref (precipValue (pc_change v12)) in Ok (near v13 (dlit (4) 1) (dlit (1) 200))) (
    None))))))))))).

Definition t_PrecipitationGroup_appendOtherToSnincr : option N :=
    step 316 ((PrecipitationGroup_parse "SNINCR" RP_RMK md_default)) (fun v1 => 
    chk 317 (Ok (has_value v1)) (
    step 319 (let! v2 := deref v1 in PrecipitationGroup_append v2 "SNINCR" RP_RMK md_default) (fun p => let v3 := Some (fst p) in let v4 := snd p in 
    chk 319 (Ok (AppendResult_beq v4 NOT_APPENDED)) (
    step 321 (let! v5 := deref v3 in PrecipitationGroup_append v5 "A/3" RP_RMK md_default) (fun p => let v6 := Some (fst p) in let v7 := snd p in 
    chk 321 (Ok (AppendResult_beq v7 NOT_APPENDED)) (
    step 323 (let! v8 := deref v6 in PrecipitationGroup_append v8 "1/A" RP_RMK md_default) (fun p => let v9 := Some (fst p) in let v10 := snd p in 
    chk 323 (Ok (AppendResult_beq v10 NOT_APPENDED)) (
    step 325 (let! v11 := deref v9 in PrecipitationGroup_append v11 "1/2SM" RP_RMK md_default) (fun p => let v12 := Some (fst p) in let v13 := snd p in 
    chk 325 (Ok (AppendResult_beq v13 NOT_APPENDED)) (
    step 327 (let! v14 := deref v12 in PrecipitationGroup_append v14 "4" RP_RMK md_default) (fun p => let v15 := Some (fst p) in let v16 := snd p in 
    chk 327 (Ok (AppendResult_beq v16 NOT_APPENDED)) (
    step 329 (let! v17 := deref v15 in PrecipitationGroup_append v17 "ABCD" RP_RMK md_default) (fun p => let v18 := Some (fst p) in let v19 := snd p in 
    chk 329 (Ok (AppendResult_beq v19 NOT_APPENDED)) (
    chk 332 (let! v20 := deref v18 in Ok (PcType_beq (pc_type v20) Pc_SNOW_INCREASING_RAPIDLY)) (
    chk 333 (let! v21 := deref v18 in Ok (negb (Precipitation_isReported (pc_amount v21)))) (
    chk 334 (let! v22 := deref v18 in Ok (negb (Precipitation_isReported (pc_change v22)))) (
    None))))))))))))))))).

Definition t_PrecipitationGroup_parseWrongReportPart : option N :=
    chk 344 (let! v1 := (PrecipitationGroup_parse "P2168" RP_UNKNOWN md_default) in Ok (negb (has_value v1))) (
    chk 346 (let! v2 := (PrecipitationGroup_parse "P2168" RP_HEADER md_default) in Ok (negb (has_value v2))) (
    chk 348 (let! v3 := (PrecipitationGroup_parse "P2168" RP_METAR md_default) in Ok (negb (has_value v3))) (
    chk 350 (let! v4 := (PrecipitationGroup_parse "P2168" RP_TAF md_default) in Ok (negb (has_value v4))) (
    chk 353 (let! v5 := (PrecipitationGroup_parse "60217" RP_UNKNOWN md_default) in Ok (negb (has_value v5))) (
    chk 355 (let! v6 := (PrecipitationGroup_parse "60217" RP_HEADER md_default) in Ok (negb (has_value v6))) (
    chk 357 (let! v7 := (PrecipitationGroup_parse "60217" RP_METAR md_default) in Ok (negb (has_value v7))) (
    chk 359 (let! v8 := (PrecipitationGroup_parse "60217" RP_TAF md_default) in Ok (negb (has_value v8))) (
    chk 362 (let! v9 := (PrecipitationGroup_parse "70125" RP_UNKNOWN md_default) in Ok (negb (has_value v9))) (
    chk 364 (let! v10 := (PrecipitationGroup_parse "70125" RP_HEADER md_default) in Ok (negb (has_value v10))) (
    chk 366 (let! v11 := (PrecipitationGroup_parse "70125" RP_METAR md_default) in Ok (negb (has_value v11))) (
    chk 368 (let! v12 := (PrecipitationGroup_parse "70125" RP_TAF md_default) in Ok (negb (has_value v12))) (
    chk 371 (let! v13 := (PrecipitationGroup_parse "4/021" RP_UNKNOWN md_default) in Ok (negb (has_value v13))) (
    chk 373 (let! v14 := (PrecipitationGroup_parse "4/021" RP_HEADER md_default) in Ok (negb (has_value v14))) (
    chk 375 (let! v15 := (PrecipitationGroup_parse "4/021" RP_METAR md_default) in Ok (negb (has_value v15))) (
    chk 377 (let! v16 := (PrecipitationGroup_parse "4/021" RP_TAF md_default) in Ok (negb (has_value v16))) (
    chk 380 (let! v17 := (PrecipitationGroup_parse "931011" RP_UNKNOWN md_default) in Ok (negb (has_value v17))) (
    chk 382 (let! v18 := (PrecipitationGroup_parse "931011" RP_HEADER md_default) in Ok (negb (has_value v18))) (
    chk 384 (let! v19 := (PrecipitationGroup_parse "931011" RP_METAR md_default) in Ok (negb (has_value v19))) (
    chk 386 (let! v20 := (PrecipitationGroup_parse "931011" RP_TAF md_default) in Ok (negb (has_value v20))) (
    chk 389 (let! v21 := (PrecipitationGroup_parse "933125" RP_UNKNOWN md_default) in Ok (negb (has_value v21))) (
    chk 391 (let! v22 := (PrecipitationGroup_parse "933125" RP_HEADER md_default) in Ok (negb (has_value v22))) (
    chk 393 (let! v23 := (PrecipitationGroup_parse "933125" RP_METAR md_default) in Ok (negb (has_value v23))) (
    chk 395 (let! v24 := (PrecipitationGroup_parse "933125" RP_TAF md_default) in Ok (negb (has_value v24))) (
    chk 398 (let! v25 := (PrecipitationGroup_parse "SNINCR" RP_UNKNOWN md_default) in Ok (negb (has_value v25))) (
    chk 400 (let! v26 := (PrecipitationGroup_parse "SNINCR" RP_HEADER md_default) in Ok (negb (has_value v26))) (
    chk 402 (let! v27 := (PrecipitationGroup_parse "SNINCR" RP_METAR md_default) in Ok (negb (has_value v27))) (
    chk 404 (let! v28 := (PrecipitationGroup_parse "SNINCR" RP_TAF md_default) in Ok (negb (has_value v28))) (
    chk 407 (let! v29 := (PrecipitationGroup_parse "PP000" RP_UNKNOWN md_default) in Ok (negb (has_value v29))) (
    chk 409 (let! v30 := (PrecipitationGroup_parse "PP000" RP_HEADER md_default) in Ok (negb (has_value v30))) (
    chk 411 (let! v31 := (PrecipitationGroup_parse "PP000" RP_METAR md_default) in Ok (negb (has_value v31))) (
    chk 413 (let! v32 := (PrecipitationGroup_parse "PP000" RP_TAF md_default) in Ok (negb (has_value v32))) (
    None)))))))))))))))))))))))))))))))).

Definition t_PrecipitationGroup_parseWrongFormat4digitGroup : option N :=
    chk 418 (let! v1 := (PrecipitationGroup_parse "X2168" RP_RMK md_default) in Ok (negb (has_value v1))) (
    chk 420 (let! v2 := (PrecipitationGroup_parse "52168" RP_RMK md_default) in Ok (negb (has_value v2))) (
    chk 422 (let! v3 := (PrecipitationGroup_parse "02168" RP_RMK md_default) in Ok (negb (has_value v3))) (
    chk 424 (let! v4 := (PrecipitationGroup_parse "12168" RP_RMK md_default) in Ok (negb (has_value v4))) (
    chk 426 (let! v5 := (PrecipitationGroup_parse "22168" RP_RMK md_default) in Ok (negb (has_value v5))) (
    chk 428 (let! v6 := (PrecipitationGroup_parse "32168" RP_RMK md_default) in Ok (negb (has_value v6))) (
    chk 430 (let! v7 := (PrecipitationGroup_parse "42168" RP_RMK md_default) in Ok (negb (has_value v7))) (
    chk 432 (let! v8 := (PrecipitationGroup_parse "52168" RP_RMK md_default) in Ok (negb (has_value v8))) (
    chk 434 (let! v9 := (PrecipitationGroup_parse "82168" RP_RMK md_default) in Ok (negb (has_value v9))) (
    chk 436 (let! v10 := (PrecipitationGroup_parse "92168" RP_RMK md_default) in Ok (negb (has_value v10))) (
    chk 439 (let! v11 := (PrecipitationGroup_parse "P02168" RP_RMK md_default) in Ok (negb (has_value v11))) (
    chk 441 (let! v12 := (PrecipitationGroup_parse "P168" RP_RMK md_default) in Ok (negb (has_value v12))) (
    chk 443 (let! v13 := (PrecipitationGroup_parse "PA168" RP_RMK md_default) in Ok (negb (has_value v13))) (
    chk 445 (let! v14 := (PrecipitationGroup_parse "P216A" RP_RMK md_default) in Ok (negb (has_value v14))) (
    chk 447 (let! v15 := (PrecipitationGroup_parse "P///" RP_RMK md_default) in Ok (negb (has_value v15))) (
    chk 449 (let! v16 := (PrecipitationGroup_parse "P/////" RP_RMK md_default) in Ok (negb (has_value v16))) (
    chk 452 (let! v17 := (PrecipitationGroup_parse "602168" RP_RMK md_default) in Ok (negb (has_value v17))) (
    chk 454 (let! v18 := (PrecipitationGroup_parse "6168" RP_RMK md_default) in Ok (negb (has_value v18))) (
    chk 456 (let! v19 := (PrecipitationGroup_parse "6A168" RP_RMK md_default) in Ok (negb (has_value v19))) (
    chk 458 (let! v20 := (PrecipitationGroup_parse "6216A" RP_RMK md_default) in Ok (negb (has_value v20))) (
    chk 460 (let! v21 := (PrecipitationGroup_parse "6///" RP_RMK md_default) in Ok (negb (has_value v21))) (
    chk 462 (let! v22 := (PrecipitationGroup_parse "6/////" RP_RMK md_default) in Ok (negb (has_value v22))) (
    chk 465 (let! v23 := (PrecipitationGroup_parse "702168" RP_RMK md_default) in Ok (negb (has_value v23))) (
    chk 467 (let! v24 := (PrecipitationGroup_parse "7168" RP_RMK md_default) in Ok (negb (has_value v24))) (
    chk 469 (let! v25 := (PrecipitationGroup_parse "7A168" RP_RMK md_default) in Ok (negb (has_value v25))) (
    chk 471 (let! v26 := (PrecipitationGroup_parse "7216A" RP_RMK md_default) in Ok (negb (has_value v26))) (
    chk 473 (let! v27 := (PrecipitationGroup_parse "7///" RP_RMK md_default) in Ok (negb (has_value v27))) (
    chk 475 (let! v28 := (PrecipitationGroup_parse "7/////" RP_RMK md_default) in Ok (negb (has_value v28))) (
    None)))))))))))))))))))))))))))).

Definition t_PrecipitationGroup_parseWrongFormatSnowDepthGroup : option N :=
    chk 480 (let! v1 := (PrecipitationGroup_parse "P/021" RP_RMK md_default) in Ok (negb (has_value v1))) (
    chk 482 (let! v2 := (PrecipitationGroup_parse "0/021" RP_RMK md_default) in Ok (negb (has_value v2))) (
    chk 484 (let! v3 := (PrecipitationGroup_parse "1/021" RP_RMK md_default) in Ok (negb (has_value v3))) (
    chk 486 (let! v4 := (PrecipitationGroup_parse "2/021" RP_RMK md_default) in Ok (negb (has_value v4))) (
    chk 488 (let! v5 := (PrecipitationGroup_parse "3/021" RP_RMK md_default) in Ok (negb (has_value v5))) (
    chk 490 (let! v6 := (PrecipitationGroup_parse "5/021" RP_RMK md_default) in Ok (negb (has_value v6))) (
    chk 492 (let! v7 := (PrecipitationGroup_parse "6/021" RP_RMK md_default) in Ok (negb (has_value v7))) (
    chk 494 (let! v8 := (PrecipitationGroup_parse "7/021" RP_RMK md_default) in Ok (negb (has_value v8))) (
    chk 496 (let! v9 := (PrecipitationGroup_parse "8/021" RP_RMK md_default) in Ok (negb (has_value v9))) (
    chk 498 (let! v10 := (PrecipitationGroup_parse "9/021" RP_RMK md_default) in Ok (negb (has_value v10))) (
    chk 501 (let! v11 := (PrecipitationGroup_parse "4/0021" RP_RMK md_default) in Ok (negb (has_value v11))) (
    chk 503 (let! v12 := (PrecipitationGroup_parse "4/21" RP_RMK md_default) in Ok (negb (has_value v12))) (
    chk 505 (let! v13 := (PrecipitationGroup_parse "4/A21" RP_RMK md_default) in Ok (negb (has_value v13))) (
    chk 507 (let! v14 := (PrecipitationGroup_parse "4/21A" RP_RMK md_default) in Ok (negb (has_value v14))) (
    chk 509 (let! v15 := (PrecipitationGroup_parse "4///" RP_RMK md_default) in Ok (negb (has_value v15))) (
    chk 511 (let! v16 := (PrecipitationGroup_parse "4/////" RP_RMK md_default) in Ok (negb (has_value v16))) (
    None)))))))))))))))).

Definition t_PrecipitationGroup_parseWrongFormat93Group : option N :=
    chk 516 (let! v1 := (PrecipitationGroup_parse "93A125" RP_RMK md_default) in Ok (negb (has_value v1))) (
    chk 518 (let! v2 := (PrecipitationGroup_parse "930/021" RP_RMK md_default) in Ok (negb (has_value v2))) (
    chk 520 (let! v3 := (PrecipitationGroup_parse "932/021" RP_RMK md_default) in Ok (negb (has_value v3))) (
    chk 522 (let! v4 := (PrecipitationGroup_parse "933/021" RP_RMK md_default) in Ok (negb (has_value v4))) (
    chk 524 (let! v5 := (PrecipitationGroup_parse "935/021" RP_RMK md_default) in Ok (negb (has_value v5))) (
    chk 526 (let! v6 := (PrecipitationGroup_parse "936/021" RP_RMK md_default) in Ok (negb (has_value v6))) (
    chk 528 (let! v7 := (PrecipitationGroup_parse "937/021" RP_RMK md_default) in Ok (negb (has_value v7))) (
    chk 530 (let! v8 := (PrecipitationGroup_parse "938/021" RP_RMK md_default) in Ok (negb (has_value v8))) (
    chk 532 (let! v9 := (PrecipitationGroup_parse "939/021" RP_RMK md_default) in Ok (negb (has_value v9))) (
    chk 535 (let! v10 := (PrecipitationGroup_parse "931/0021" RP_RMK md_default) in Ok (negb (has_value v10))) (
    chk 537 (let! v11 := (PrecipitationGroup_parse "931/21" RP_RMK md_default) in Ok (negb (has_value v11))) (
    chk 539 (let! v12 := (PrecipitationGroup_parse "931/A21" RP_RMK md_default) in Ok (negb (has_value v12))) (
    chk 541 (let! v13 := (PrecipitationGroup_parse "931/21A" RP_RMK md_default) in Ok (negb (has_value v13))) (
    chk 543 (let! v14 := (PrecipitationGroup_parse "931//" RP_RMK md_default) in Ok (negb (has_value v14))) (
    chk 545 (let! v15 := (PrecipitationGroup_parse "931////" RP_RMK md_default) in Ok (negb (has_value v15))) (
    chk 548 (let! v16 := (PrecipitationGroup_parse "933/0021" RP_RMK md_default) in Ok (negb (has_value v16))) (
    chk 550 (let! v17 := (PrecipitationGroup_parse "933/21" RP_RMK md_default) in Ok (negb (has_value v17))) (
    chk 552 (let! v18 := (PrecipitationGroup_parse "933/A21" RP_RMK md_default) in Ok (negb (has_value v18))) (
    chk 554 (let! v19 := (PrecipitationGroup_parse "933/21A" RP_RMK md_default) in Ok (negb (has_value v19))) (
    chk 556 (let! v20 := (PrecipitationGroup_parse "933//" RP_RMK md_default) in Ok (negb (has_value v20))) (
    chk 558 (let! v21 := (PrecipitationGroup_parse "933////" RP_RMK md_default) in Ok (negb (has_value v21))) (
    None))))))))))))))))))))).

Definition t_PrecipitationGroup_parseWrongFormatPPGroup : option N :=
    chk 563 (let! v1 := (PrecipitationGroup_parse "PA000" RP_RMK md_default) in Ok (negb (has_value v1))) (
    chk 565 (let! v2 := (PrecipitationGroup_parse "ZZ000" RP_RMK md_default) in Ok (negb (has_value v2))) (
    chk 567 (let! v3 := (PrecipitationGroup_parse "PPA00" RP_RMK md_default) in Ok (negb (has_value v3))) (
    chk 569 (let! v4 := (PrecipitationGroup_parse "PP0A0" RP_RMK md_default) in Ok (negb (has_value v4))) (
    chk 571 (let! v5 := (PrecipitationGroup_parse "PP00A" RP_RMK md_default) in Ok (negb (has_value v5))) (
    chk 573 (let! v6 := (PrecipitationGroup_parse "PP00" RP_RMK md_default) in Ok (negb (has_value v6))) (
    chk 575 (let! v7 := (PrecipitationGroup_parse "PP0000" RP_RMK md_default) in Ok (negb (has_value v7))) (
    chk 577 (let! v8 := (PrecipitationGroup_parse "PP//" RP_RMK md_default) in Ok (negb (has_value v8))) (
    chk 579 (let! v9 := (PrecipitationGroup_parse "PP////" RP_RMK md_default) in Ok (negb (has_value v9))) (
    None))))))))).

Definition t_PrecipitationGroup_parse3hourly : option N :=
    step 590 ((MetafTime_fromStringDDHHMM "310300")) (fun v1 => 
    chk 591 (Ok (has_value v1)) (
    chk 592 (let! v2 := deref v1 in Ok (MetafTime_is3hourlyReportTime v2)) (
    step 595 (deref v1) (fun v3 => 
    step 597 ((PrecipitationGroup_parse "60217" RP_RMK (md_set_reportTime md_default v3))) (fun v4 => 
    chk 600 (Ok (has_value v4)) (
    chk 601 (let! v5 := deref v4 in Ok (PcType_beq (pc_type v5) Pc_FROZEN_PRECIP_3_HOURLY)) (
    chk 602 (let! v6 := deref v4 in Ok (PrecipUnit_beq (precipUnit (pc_amount v6)) INCHES)) (
    chk 603 (let! v7 := deref v4 in Ok (has_value (precipValue (pc_amount v7)))) (
    chk 604 (let! v8 := deref v4 in let! v9 := deref (precipValue (pc_amount v8)) in Ok (near v9 (dlit (217) 100) (dlit (1) 200))) (
    None)))))))))).

Definition t_PrecipitationGroup_parse6hourly : option N :=
    step 608 ((MetafTime_fromStringDDHHMM "310600")) (fun v1 => 
    chk 609 (Ok (has_value v1)) (
    chk 610 (let! v2 := deref v1 in Ok (MetafTime_is6hourlyReportTime v2)) (
    step 613 (deref v1) (fun v3 => 
    step 615 ((PrecipitationGroup_parse "60217" RP_RMK (md_set_reportTime md_default v3))) (fun v4 => 
    chk 618 (Ok (has_value v4)) (
    chk 619 (let! v5 := deref v4 in Ok (PcType_beq (pc_type v5) Pc_FROZEN_PRECIP_6_HOURLY)) (
    chk 620 (let! v6 := deref v4 in Ok (PrecipUnit_beq (precipUnit (pc_amount v6)) INCHES)) (
    chk 621 (let! v7 := deref v4 in Ok (has_value (precipValue (pc_amount v7)))) (
    chk 622 (let! v8 := deref v4 in let! v9 := deref (precipValue (pc_amount v8)) in Ok (near v9 (dlit (217) 100) (dlit (1) 200))) (
    None)))))))))).

Definition t_PrecipitationGroup_parsePno : option N :=
    step 632 ((PrecipitationGroup_parse "PNO" RP_RMK md_default)) (fun v1 => 
    chk 633 (Ok (has_value v1)) (
    chk 634 (let! v2 := deref v1 in Ok (PcType_beq (pc_type v2) Pc_PNO)) (
    chk 635 (let! v3 := deref v1 in Ok (negb (Precipitation_isReported (pc_amount v3)))) (
    chk 636 (let! v4 := deref v1 in Ok (negb (Precipitation_isReported (pc_change v4)))) (
    None))))).

Definition t_PrecipitationGroup_parsePnoWrongReportPart : option N :=
    chk 640 (let! v1 := (PrecipitationGroup_parse "PNO" RP_UNKNOWN md_default) in Ok (negb (has_value v1))) (
    chk 642 (let! v2 := (PrecipitationGroup_parse "PNO" RP_HEADER md_default) in Ok (negb (has_value v2))) (
    chk 644 (let! v3 := (PrecipitationGroup_parse "PNO" RP_METAR md_default) in Ok (negb (has_value v3))) (
    chk 646 (let! v4 := (PrecipitationGroup_parse "PNO" RP_TAF md_default) in Ok (negb (has_value v4))) (
    None)))).

Definition t_PrecipitationGroup_parseFzrano : option N :=
    step 651 ((PrecipitationGroup_parse "FZRANO" RP_RMK md_default)) (fun v1 => 
    chk 652 (Ok (has_value v1)) (
    chk 653 (let! v2 := deref v1 in Ok (PcType_beq (pc_type v2) Pc_FZRANO)) (
    chk 654 (let! v3 := deref v1 in Ok (negb (Precipitation_isReported (pc_amount v3)))) (
    chk 655 (let! v4 := deref v1 in Ok (negb (Precipitation_isReported (pc_change v4)))) (
    None))))).

Definition t_PrecipitationGroup_parseFzranoWrongReportPart : option N :=
    chk 659 (let! v1 := (PrecipitationGroup_parse "FZRANO" RP_UNKNOWN md_default) in Ok (negb (has_value v1))) (
    chk 661 (let! v2 := (PrecipitationGroup_parse "FZRANO" RP_HEADER md_default) in Ok (negb (has_value v2))) (
    chk 663 (let! v3 := (PrecipitationGroup_parse "FZRANO" RP_METAR md_default) in Ok (negb (has_value v3))) (
    chk 665 (let! v4 := (PrecipitationGroup_parse "FZRANO" RP_TAF md_default) in Ok (negb (has_value v4))) (
    None)))).

Definition t_PrecipitationGroup_parseIcgMisg : option N :=
    step 670 ((PrecipitationGroup_parse "ICG" RP_RMK md_default)) (fun v1 => 
    chk 671 (Ok (has_value v1)) (
    step 672 (let! v2 := deref v1 in PrecipitationGroup_append v2 "MISG" RP_RMK md_default) (fun p => let v3 := Some (fst p) in let v4 := snd p in 
    chk 672 (Ok (AppendResult_beq v4 APPENDED)) (
    chk 674 (let! v5 := deref v3 in Ok (PcType_beq (pc_type v5) Pc_ICG_MISG)) (
    chk 675 (let! v6 := deref v3 in Ok (negb (Precipitation_isReported (pc_amount v6)))) (
    chk 676 (let! v7 := deref v3 in Ok (negb (Precipitation_isReported (pc_change v7)))) (
    None))))))).

Definition t_PrecipitationGroup_parseIcgWrongReportPart : option N :=
    chk 680 (let! v1 := (PrecipitationGroup_parse "ICG" RP_UNKNOWN md_default) in Ok (negb (has_value v1))) (
    chk 682 (let! v2 := (PrecipitationGroup_parse "ICG" RP_HEADER md_default) in Ok (negb (has_value v2))) (
    chk 684 (let! v3 := (PrecipitationGroup_parse "ICG" RP_METAR md_default) in Ok (negb (has_value v3))) (
    chk 686 (let! v4 := (PrecipitationGroup_parse "ICG" RP_TAF md_default) in Ok (negb (has_value v4))) (
    None)))).

Definition t_PrecipitationGroup_parsePcpnMisg : option N :=
    step 691 ((PrecipitationGroup_parse "PCPN" RP_RMK md_default)) (fun v1 => 
    chk 692 (Ok (has_value v1)) (
    step 693 (let! v2 := deref v1 in PrecipitationGroup_append v2 "MISG" RP_RMK md_default) (fun p => let v3 := Some (fst p) in let v4 := snd p in 
    chk 693 (Ok (AppendResult_beq v4 APPENDED)) (
    chk 695 (let! v5 := deref v3 in Ok (PcType_beq (pc_type v5) Pc_PCPN_MISG)) (
    chk 696 (let! v6 := deref v3 in Ok (negb (Precipitation_isReported (pc_amount v6)))) (
    chk 697 (let! v7 := deref v3 in Ok (negb (Precipitation_isReported (pc_change v7)))) (
    None))))))).

Definition t_PrecipitationGroup_parsePcpnWrongReportPart : option N :=
    chk 701 (let! v1 := (PrecipitationGroup_parse "PCPN" RP_UNKNOWN md_default) in Ok (negb (has_value v1))) (
    chk 703 (let! v2 := (PrecipitationGroup_parse "PCPN" RP_HEADER md_default) in Ok (negb (has_value v2))) (
    chk 705 (let! v3 := (PrecipitationGroup_parse "PCPN" RP_METAR md_default) in Ok (negb (has_value v3))) (
    chk 707 (let! v4 := (PrecipitationGroup_parse "PCPN" RP_TAF md_default) in Ok (negb (has_value v4))) (
    None)))).

Definition t_PrecipitationGroup_parseIcgAppendOther : option N :=
    step 712 ((PrecipitationGroup_parse "ICG" RP_RMK md_default)) (fun v1 => 
    chk 713 (Ok (has_value v1)) (
    step 714 (let! v2 := deref v1 in PrecipitationGroup_append v2 "ICG" RP_RMK md_default) (fun p => let v3 := Some (fst p) in let v4 := snd p in 
    chk 714 (Ok (AppendResult_beq v4 GROUP_INVALIDATED)) (
    step 717 ((PrecipitationGroup_parse "ICG" RP_RMK md_default)) (fun v5 => 
    chk 718 (Ok (has_value v5)) (
    step 719 (let! v6 := deref v5 in PrecipitationGroup_append v6 "MSG" RP_RMK md_default) (fun p => let v7 := Some (fst p) in let v8 := snd p in 
    chk 719 (Ok (AppendResult_beq v8 GROUP_INVALIDATED)) (
    step 722 ((PrecipitationGroup_parse "ICG" RP_RMK md_default)) (fun v9 => 
    chk 723 (Ok (has_value v9)) (
    step 724 (let! v10 := deref v9 in PrecipitationGroup_append v10 "TEST" RP_RMK md_default) (fun p => let v11 := Some (fst p) in let v12 := snd p in 
    chk 724 (Ok (AppendResult_beq v12 GROUP_INVALIDATED)) (
    step 727 ((PrecipitationGroup_parse "ICG" RP_RMK md_default)) (fun v13 => 
    chk 728 (Ok (has_value v13)) (
    step 729 (let! v14 := deref v13 in PrecipitationGroup_append v14 "PNO" RP_RMK md_default) (fun p => let v15 := Some (fst p) in let v16 := snd p in 
    chk 729 (Ok (AppendResult_beq v16 GROUP_INVALIDATED)) (
    step 732 ((PrecipitationGroup_parse "ICG" RP_RMK md_default)) (fun v17 => 
    chk 733 (Ok (has_value v17)) (
    step 734 (let! v18 := deref v17 in PrecipitationGroup_append v18 "P////" RP_RMK md_default) (fun p => let v19 := Some (fst p) in let v20 := snd p in 
    chk 734 (Ok (AppendResult_beq v20 GROUP_INVALIDATED)) (
    None)))))))))))))))))))).

Definition t_PrecipitationGroup_parseIcgMisgAppendOther : option N :=
    step 739 ((PrecipitationGroup_parse "ICG" RP_RMK md_default)) (fun v1 => 
    chk 740 (Ok (has_value v1)) (
    step 741 (let! v2 := deref v1 in PrecipitationGroup_append v2 "MISG" RP_RMK md_default) (fun p => let v3 := Some (fst p) in let v4 := snd p in 
    chk 741 (Ok (AppendResult_beq v4 APPENDED)) (
    step 744 (let! v5 := deref v3 in PrecipitationGroup_append v5 "ICG" RP_RMK md_default) (fun p => let v6 := Some (fst p) in let v7 := snd p in 
    chk 744 (Ok (AppendResult_beq v7 NOT_APPENDED)) (
    step 746 (let! v8 := deref v6 in PrecipitationGroup_append v8 "MISG" RP_RMK md_default) (fun p => let v9 := Some (fst p) in let v10 := snd p in 
    chk 746 (Ok (AppendResult_beq v10 NOT_APPENDED)) (
    step 748 (let! v11 := deref v9 in PrecipitationGroup_append v11 "TEST" RP_RMK md_default) (fun p => let v12 := Some (fst p) in let v13 := snd p in 
    chk 748 (Ok (AppendResult_beq v13 NOT_APPENDED)) (
    step 750 (let! v14 := deref v12 in PrecipitationGroup_append v14 "PNO" RP_RMK md_default) (fun p => let v15 := Some (fst p) in let v16 := snd p in 
    chk 750 (Ok (AppendResult_beq v16 NOT_APPENDED)) (
    step 752 (let! v17 := deref v15 in PrecipitationGroup_append v17 "P////" RP_RMK md_default) (fun p => let v18 := Some (fst p) in let v19 := snd p in 
    chk 752 (Ok (AppendResult_beq v19 NOT_APPENDED)) (
    chk 755 (let! v20 := deref v18 in Ok (PcType_beq (pc_type v20) Pc_ICG_MISG)) (
    chk 756 (let! v21 := deref v18 in Ok (negb (Precipitation_isReported (pc_amount v21)))) (
    chk 757 (let! v22 := deref v18 in Ok (negb (Precipitation_isReported (pc_change v22)))) (
    None))))))))))))))))).

Definition t_PrecipitationGroup_parsePcpnAppendOther : option N :=
    step 761 ((PrecipitationGroup_parse "PCPN" RP_RMK md_default)) (fun v1 => 
    chk 762 (Ok (has_value v1)) (
    step 763 (let! v2 := deref v1 in PrecipitationGroup_append v2 "ICG" RP_RMK md_default) (fun p => let v3 := Some (fst p) in let v4 := snd p in 
    chk 763 (Ok (AppendResult_beq v4 GROUP_INVALIDATED)) (
    step 766 ((PrecipitationGroup_parse "PCPN" RP_RMK md_default)) (fun v5 => 
    chk 767 (Ok (has_value v5)) (
    step 768 (let! v6 := deref v5 in PrecipitationGroup_append v6 "MSG" RP_RMK md_default) (fun p => let v7 := Some (fst p) in let v8 := snd p in 
    chk 768 (Ok (AppendResult_beq v8 GROUP_INVALIDATED)) (
    step 771 ((PrecipitationGroup_parse "PCPN" RP_RMK md_default)) (fun v9 => 
    chk 772 (Ok (has_value v9)) (
    step 773 (let! v10 := deref v9 in PrecipitationGroup_append v10 "TEST" RP_RMK md_default) (fun p => let v11 := Some (fst p) in let v12 := snd p in 
    chk 773 (Ok (AppendResult_beq v12 GROUP_INVALIDATED)) (
    step 776 ((PrecipitationGroup_parse "PCPN" RP_RMK md_default)) (fun v13 => 
    chk 777 (Ok (has_value v13)) (
    step 778 (let! v14 := deref v13 in PrecipitationGroup_append v14 "PNO" RP_RMK md_default) (fun p => let v15 := Some (fst p) in let v16 := snd p in 
    chk 778 (Ok (AppendResult_beq v16 GROUP_INVALIDATED)) (
    step 781 ((PrecipitationGroup_parse "PCPN" RP_RMK md_default)) (fun v17 => 
    chk 782 (Ok (has_value v17)) (
    step 783 (let! v18 := deref v17 in PrecipitationGroup_append v18 "P////" RP_RMK md_default) (fun p => let v19 := Some (fst p) in let v20 := snd p in 
    chk 783 (Ok (AppendResult_beq v20 GROUP_INVALIDATED)) (
    None)))))))))))))))))))).

Definition t_PrecipitationGroup_parsePcpnMisgAppendOther : option N :=
    step 788 ((PrecipitationGroup_parse "PCPN" RP_RMK md_default)) (fun v1 => 
    chk 789 (Ok (has_value v1)) (
    step 790 (let! v2 := deref v1 in PrecipitationGroup_append v2 "MISG" RP_RMK md_default) (fun p => let v3 := Some (fst p) in let v4 := snd p in 
    chk 790 (Ok (AppendResult_beq v4 APPENDED)) (
    step 793 (let! v5 := deref v3 in PrecipitationGroup_append v5 "ICG" RP_RMK md_default) (fun p => let v6 := Some (fst p) in let v7 := snd p in 
    chk 793 (Ok (AppendResult_beq v7 NOT_APPENDED)) (
    step 795 (let! v8 := deref v6 in PrecipitationGroup_append v8 "MISG" RP_RMK md_default) (fun p => let v9 := Some (fst p) in let v10 := snd p in 
    chk 795 (Ok (AppendResult_beq v10 NOT_APPENDED)) (
    step 797 (let! v11 := deref v9 in PrecipitationGroup_append v11 "TEST" RP_RMK md_default) (fun p => let v12 := Some (fst p) in let v13 := snd p in 
    chk 797 (Ok (AppendResult_beq v13 NOT_APPENDED)) (
    step 799 (let! v14 := deref v12 in PrecipitationGroup_append v14 "PNO" RP_RMK md_default) (fun p => let v15 := Some (fst p) in let v16 := snd p in 
    chk 799 (Ok (AppendResult_beq v16 NOT_APPENDED)) (
    step 801 (let! v17 := deref v15 in PrecipitationGroup_append v17 "P////" RP_RMK md_default) (fun p => let v18 := Some (fst p) in let v19 := snd p in 
    chk 801 (Ok (AppendResult_beq v19 NOT_APPENDED)) (
    chk 804 (let! v20 := deref v18 in Ok (PcType_beq (pc_type v20) Pc_PCPN_MISG)) (
    chk 805 (let! v21 := deref v18 in Ok (negb (Precipitation_isReported (pc_amount v21)))) (
    chk 806 (let! v22 := deref v18 in Ok (negb (Precipitation_isReported (pc_change v22)))) (
    None))))))))))))))))).

Definition t_PrecipitationGroup_parseMisg : option N :=
    chk 810 (let! v1 := (PrecipitationGroup_parse "MISG" RP_UNKNOWN md_default) in Ok (negb (has_value v1))) (
    chk 811 (let! v2 := (PrecipitationGroup_parse "MISG" RP_HEADER md_default) in Ok (negb (has_value v2))) (
    chk 812 (let! v3 := (PrecipitationGroup_parse "MISG" RP_METAR md_default) in Ok (negb (has_value v3))) (
    chk 813 (let! v4 := (PrecipitationGroup_parse "MISG" RP_TAF md_default) in Ok (negb (has_value v4))) (
    chk 814 (let! v5 := (PrecipitationGroup_parse "MISG" RP_RMK md_default) in Ok (negb (has_value v5))) (
    None))))).

Definition t_PrecipitationGroup_isValid4digit : option N :=
    step 823 ((PrecipitationGroup_parse "P2168" RP_RMK md_default)) (fun v1 => 
    chk 824 (Ok (has_value v1)) (
    chk 825 (let! v2 := deref v1 in Ok (PrecipitationGroup_isValid v2)) (
    step 827 ((PrecipitationGroup_parse "P////" RP_RMK md_default)) (fun v3 => 
    chk 828 (Ok (has_value v3)) (
    chk 829 (let! v4 := deref v3 in Ok (PrecipitationGroup_isValid v4)) (
    step 831 ((PrecipitationGroup_parse "60217" RP_RMK md_default)) (fun v5 => 
    chk 832 (Ok (has_value v5)) (
    chk 833 (let! v6 := deref v5 in Ok (PrecipitationGroup_isValid v6)) (
    step 835 ((PrecipitationGroup_parse "6////" RP_RMK md_default)) (fun v7 => 
    chk 836 (Ok (has_value v7)) (
    chk 837 (let! v8 := deref v7 in Ok (PrecipitationGroup_isValid v8)) (
    step 839 ((PrecipitationGroup_parse "70125" RP_RMK md_default)) (fun v9 => 
    chk 840 (Ok (has_value v9)) (
    chk 841 (let! v10 := deref v9 in Ok (PrecipitationGroup_isValid v10)) (
    step 843 ((PrecipitationGroup_parse "7////" RP_RMK md_default)) (fun v11 => 
    chk 844 (Ok (has_value v11)) (
    chk 845 (let! v12 := deref v11 in Ok (PrecipitationGroup_isValid v12)) (
    None)))))))))))))))))).

Definition t_PrecipitationGroup_isValid3digit : option N :=
    step 849 ((PrecipitationGroup_parse "4/021" RP_RMK md_default)) (fun v1 => 
    chk 850 (Ok (has_value v1)) (
    chk 851 (let! v2 := deref v1 in Ok (PrecipitationGroup_isValid v2)) (
    step 853 ((PrecipitationGroup_parse "4////" RP_RMK md_default)) (fun v3 => 
    chk 854 (Ok (has_value v3)) (
    chk 855 (let! v4 := deref v3 in Ok (PrecipitationGroup_isValid v4)) (
    step 857 ((PrecipitationGroup_parse "I1010" RP_RMK md_default)) (fun v5 => 
    chk 858 (Ok (has_value v5)) (
    chk 859 (let! v6 := deref v5 in Ok (PrecipitationGroup_isValid v6)) (
    step 861 ((PrecipitationGroup_parse "I1///" RP_RMK md_default)) (fun v7 => 
    chk 862 (Ok (has_value v7)) (
    chk 863 (let! v8 := deref v7 in Ok (PrecipitationGroup_isValid v8)) (
    step 865 ((PrecipitationGroup_parse "I3015" RP_RMK md_default)) (fun v9 => 
    chk 866 (Ok (has_value v9)) (
    chk 867 (let! v10 := deref v9 in Ok (PrecipitationGroup_isValid v10)) (
    step 869 ((PrecipitationGroup_parse "I3///" RP_RMK md_default)) (fun v11 => 
    chk 870 (Ok (has_value v11)) (
    chk 871 (let! v12 := deref v11 in Ok (PrecipitationGroup_isValid v12)) (
    step 873 ((PrecipitationGroup_parse "I6022" RP_RMK md_default)) (fun v13 => 
    chk 874 (Ok (has_value v13)) (
    chk 875 (let! v14 := deref v13 in Ok (PrecipitationGroup_isValid v14)) (
    step 877 ((PrecipitationGroup_parse "I6///" RP_RMK md_default)) (fun v15 => 
    chk 878 (Ok (has_value v15)) (
    chk 879 (let! v16 := deref v15 in Ok (PrecipitationGroup_isValid v16)) (
    step 881 ((PrecipitationGroup_parse "931011" RP_RMK md_default)) (fun v17 => 
    chk 882 (Ok (has_value v17)) (
    chk 883 (let! v18 := deref v17 in Ok (PrecipitationGroup_isValid v18)) (
    step 885 ((PrecipitationGroup_parse "931///" RP_RMK md_default)) (fun v19 => 
    chk 886 (Ok (has_value v19)) (
    chk 887 (let! v20 := deref v19 in Ok (PrecipitationGroup_isValid v20)) (
    step 889 ((PrecipitationGroup_parse "933125" RP_RMK md_default)) (fun v21 => 
    chk 890 (Ok (has_value v21)) (
    chk 891 (let! v22 := deref v21 in Ok (PrecipitationGroup_isValid v22)) (
    step 893 ((PrecipitationGroup_parse "933///" RP_RMK md_default)) (fun v23 => 
    chk 894 (Ok (has_value v23)) (
    chk 895 (let! v24 := deref v23 in Ok (PrecipitationGroup_isValid v24)) (
    step 897 ((PrecipitationGroup_parse "PP012" RP_RMK md_default)) (fun v25 => 
    chk 898 (Ok (has_value v25)) (
    chk 899 (let! v26 := deref v25 in Ok (PrecipitationGroup_isValid v26)) (
    step 901 ((PrecipitationGroup_parse "PP///" RP_RMK md_default)) (fun v27 => 
    chk 902 (Ok (has_value v27)) (
    chk 903 (let! v28 := deref v27 in Ok (PrecipitationGroup_isValid v28)) (
    None)))))))))))))))))))))))))))))))))))))))))).

Definition t_PrecipitationGroup_isValidSnincr : option N :=
    step 907 ((PrecipitationGroup_parse "SNINCR" RP_RMK md_default)) (fun v1 => 
    chk 908 (Ok (has_value v1)) (
    chk 909 (let! v2 := deref v1 in Ok (PrecipitationGroup_isValid v2)) (
    step 910 (let! v3 := deref v1 in PrecipitationGroup_append v3 "4/12" RP_RMK md_default) (fun p => let v4 := Some (fst p) in let v5 := snd p in 
    chk 910 (Ok (AppendResult_beq v5 APPENDED)) (
    chk 912 (let! v6 := deref v4 in Ok (PrecipitationGroup_isValid v6)) (
    None)))))).

Definition t_PrecipitationGroup_isValidRainfall : option N :=
    step 916 ((PrecipitationGroup_parse "RF02.7/010.5" RP_METAR md_default)) (fun v1 => 
    chk 918 (Ok (has_value v1)) (
    chk 919 (let! v2 := deref v1 in Ok (PrecipitationGroup_isValid v2)) (
    step 921 ((PrecipitationGroup_parse "RF02.7////./" RP_METAR md_default)) (fun v3 => 
    chk 923 (Ok (has_value v3)) (
    chk 924 (let! v4 := deref v3 in Ok (PrecipitationGroup_isValid v4)) (
    step 926 ((PrecipitationGroup_parse "RF//.//010.5" RP_METAR md_default)) (fun v5 => 
    chk 928 (Ok (has_value v5)) (
    chk 929 (let! v6 := deref v5 in Ok (PrecipitationGroup_isValid v6)) (
    step 931 ((PrecipitationGroup_parse "RF//./////./" RP_METAR md_default)) (fun v7 => 
    chk 933 (Ok (has_value v7)) (
    chk 934 (let! v8 := deref v7 in Ok (PrecipitationGroup_isValid v8)) (
    None)))))))))))).

Definition t_PrecipitationGroup_isValidPnoFzrano : option N :=
    step 938 ((PrecipitationGroup_parse "PNO" RP_RMK md_default)) (fun v1 => 
    chk 939 (Ok (has_value v1)) (
    chk 940 (let! v2 := deref v1 in Ok (PrecipitationGroup_isValid v2)) (
    step 942 ((PrecipitationGroup_parse "FZRANO" RP_RMK md_default)) (fun v3 => 
    chk 943 (Ok (has_value v3)) (
    chk 944 (let! v4 := deref v3 in Ok (PrecipitationGroup_isValid v4)) (
    None)))))).

Definition t_PrecipitationGroup_isValidIcgPcpn : option N :=
    step 948 ((PrecipitationGroup_parse "ICG" RP_RMK md_default)) (fun v1 => 
    chk 949 (Ok (has_value v1)) (
    chk 950 (let! v2 := deref v1 in Ok (negb (PrecipitationGroup_isValid v2))) (
    step 951 (let! v3 := deref v1 in PrecipitationGroup_append v3 "MISG" RP_RMK md_default) (fun p => let v4 := Some (fst p) in let v5 := snd p in 
    chk 951 (Ok (AppendResult_beq v5 APPENDED)) (
    chk 953 (let! v6 := deref v4 in Ok (PrecipitationGroup_isValid v6)) (
    step 955 ((PrecipitationGroup_parse "PCPN" RP_RMK md_default)) (fun v7 => 
    chk 956 (Ok (has_value v7)) (
    chk 957 (let! v8 := deref v7 in Ok (negb (PrecipitationGroup_isValid v8))) (
    step 958 (let! v9 := deref v7 in PrecipitationGroup_append v9 "MISG" RP_RMK md_default) (fun p => let v10 := Some (fst p) in let v11 := snd p in 
    chk 958 (Ok (AppendResult_beq v11 APPENDED)) (
    chk 960 (let! v12 := deref v10 in Ok (PrecipitationGroup_isValid v12)) (
    None)))))))))))).

Example tests_precipitationgroup_pass : failures
  [("PrecipitationGroup_parse4digitGroup", t_PrecipitationGroup_parse4digitGroup);
   ("PrecipitationGroup_parse4digitGroupNotReported", t_PrecipitationGroup_parse4digitGroupNotReported);
   ("PrecipitationGroup_parse3digitGroup", t_PrecipitationGroup_parse3digitGroup);
   ("PrecipitationGroup_parse3digitGroupNotReported", t_PrecipitationGroup_parse3digitGroupNotReported);
   ("PrecipitationGroup_parseRainfall", t_PrecipitationGroup_parseRainfall);
   ("PrecipitationGroup_parseRainfallNotReported", t_PrecipitationGroup_parseRainfallNotReported);
   ("PrecipitationGroup_rainfallWrongReportPart", t_PrecipitationGroup_rainfallWrongReportPart);
   ("PrecipitationGroup_rainfallWrongFormat", t_PrecipitationGroup_rainfallWrongFormat);
   ("PrecipitationGroup_parseSnincrGroup", t_PrecipitationGroup_parseSnincrGroup);
   ("PrecipitationGroup_appendFractionToSnincr", t_PrecipitationGroup_appendFractionToSnincr);
   ("PrecipitationGroup_appendOtherToSnincr", t_PrecipitationGroup_appendOtherToSnincr);
   ("PrecipitationGroup_parseWrongReportPart", t_PrecipitationGroup_parseWrongReportPart);
   ("PrecipitationGroup_parseWrongFormat4digitGroup", t_PrecipitationGroup_parseWrongFormat4digitGroup);
   ("PrecipitationGroup_parseWrongFormatSnowDepthGroup", t_PrecipitationGroup_parseWrongFormatSnowDepthGroup);
   ("PrecipitationGroup_parseWrongFormat93Group", t_PrecipitationGroup_parseWrongFormat93Group);
   ("PrecipitationGroup_parseWrongFormatPPGroup", t_PrecipitationGroup_parseWrongFormatPPGroup);
   ("PrecipitationGroup_parse3hourly", t_PrecipitationGroup_parse3hourly);
   ("PrecipitationGroup_parse6hourly", t_PrecipitationGroup_parse6hourly);
   ("PrecipitationGroup_parsePno", t_PrecipitationGroup_parsePno);
   ("PrecipitationGroup_parsePnoWrongReportPart", t_PrecipitationGroup_parsePnoWrongReportPart);
   ("PrecipitationGroup_parseFzrano", t_PrecipitationGroup_parseFzrano);
   ("PrecipitationGroup_parseFzranoWrongReportPart", t_PrecipitationGroup_parseFzranoWrongReportPart);
   ("PrecipitationGroup_parseIcgMisg", t_PrecipitationGroup_parseIcgMisg);
   ("PrecipitationGroup_parseIcgWrongReportPart", t_PrecipitationGroup_parseIcgWrongReportPart);
   ("PrecipitationGroup_parsePcpnMisg", t_PrecipitationGroup_parsePcpnMisg);
   ("PrecipitationGroup_parsePcpnWrongReportPart", t_PrecipitationGroup_parsePcpnWrongReportPart);
   ("PrecipitationGroup_parseIcgAppendOther", t_PrecipitationGroup_parseIcgAppendOther);
   ("PrecipitationGroup_parseIcgMisgAppendOther", t_PrecipitationGroup_parseIcgMisgAppendOther);
   ("PrecipitationGroup_parsePcpnAppendOther", t_PrecipitationGroup_parsePcpnAppendOther);
   ("PrecipitationGroup_parsePcpnMisgAppendOther", t_PrecipitationGroup_parsePcpnMisgAppendOther);
   ("PrecipitationGroup_parseMisg", t_PrecipitationGroup_parseMisg);
   ("PrecipitationGroup_isValid4digit", t_PrecipitationGroup_isValid4digit);
   ("PrecipitationGroup_isValid3digit", t_PrecipitationGroup_isValid3digit);
   ("PrecipitationGroup_isValidSnincr", t_PrecipitationGroup_isValidSnincr);
   ("PrecipitationGroup_isValidRainfall", t_PrecipitationGroup_isValidRainfall);
   ("PrecipitationGroup_isValidPnoFzrano", t_PrecipitationGroup_isValidPnoFzrano);
   ("PrecipitationGroup_isValidIcgPcpn", t_PrecipitationGroup_isValidIcgPcpn)] = [].
Proof. vm_compute. reflexivity. Qed.
