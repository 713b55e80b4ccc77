(** Generated by tools/gen_tests.py from /repo/test/test_temperaturegroup.cpp: the project's own unit tests, run
    against the model. These are tests of the model's fidelity, not properties. *)

From Verif Require Import Prim Regex Float Values Weather Groups1 Groups2 Groups3 Groups4 Parser TestLib.
Local Open Scope string_scope.
Local Open Scope bool_scope.

Definition t_TemperatureGroup_parseTemperatureAndDewPoint : option N :=
    step 22 ((TemperatureGroup_parse "25/18" RP_METAR md_default)) (fun v1 => 
    chk 23 (Ok (has_value v1)) (
    chk 24 (let! v2 := deref v1 in Ok (TgType_beq (tg_tp v2) Tg_TEMPERATURE_AND_DEW_POINT)) (
    chk 25 (let! v3 := deref v1 in Ok (TempUnit_beq Temp_C Temp_C)) (
    chk 26 (let! v4 := deref v1 in Ok (Temperature_isReported (tg_t v4))) (
    chk 27 (let! v5 := deref v1 in let! v6 := deref (Temperature_temperature (tg_t v5)) in Ok (near v6 (dlit (25) 1) (dlit (1) 20))) (
    chk 28 (let! v7 := deref v1 in Ok (negb (precise (tg_t v7)))) (
    chk 29 (let! v8 := deref v1 in Ok (has_value (Temperature_temperature (tg_dp v8)))) (
    chk 30 (let! v9 := deref v1 in let! v10 := deref (Temperature_temperature (tg_dp v9)) in Ok (near v10 (dlit (18) 1) (dlit (1) 20))) (
    chk 31 (let! v11 := deref v1 in Ok (negb (precise (tg_dp v11)))) (
    None)))))))))).

Definition t_TemperatureGroup_parseTemperatureAndDewPointNegativeValues : option N :=
    step 35 ((TemperatureGroup_parse "05/M02" RP_METAR md_default)) (fun v1 => 
    chk 36 (Ok (has_value v1)) (
    chk 37 (let! v2 := deref v1 in Ok (TgType_beq (tg_tp v2) Tg_TEMPERATURE_AND_DEW_POINT)) (
    chk 38 (let! v3 := deref v1 in Ok (TempUnit_beq Temp_C Temp_C)) (
    chk 39 (let! v4 := deref v1 in Ok (Temperature_isReported (tg_t v4))) (
    chk 40 (let! v5 := deref v1 in let! v6 := deref (Temperature_temperature (tg_t v5)) in Ok (near v6 (dlit (5) 1) (dlit (1) 20))) (
    chk 41 (let! v7 := deref v1 in Ok (negb (precise (tg_t v7)))) (
    chk 42 (let! v8 := deref v1 in Ok (has_value (Temperature_temperature (tg_dp v8)))) (
    chk 43 (let! v9 := deref v1 in let! v10 := deref (Temperature_temperature (tg_dp v9)) in Ok (near v10 (dlit (-2) 1) (dlit (1) 20))) (
    chk 44 (let! v11 := deref v1 in Ok (negb (precise (tg_dp v11)))) (
    step 46 ((TemperatureGroup_parse "M02/M04" RP_METAR md_default)) (fun v12 => 
    chk 47 (Ok (has_value v12)) (
    chk 48 (let! v13 := deref v12 in Ok (TgType_beq (tg_tp v13) Tg_TEMPERATURE_AND_DEW_POINT)) (
    chk 49 (let! v14 := deref v12 in Ok (TempUnit_beq Temp_C Temp_C)) (
    chk 50 (let! v15 := deref v12 in Ok (Temperature_isReported (tg_t v15))) (
    chk 51 (let! v16 := deref v12 in let! v17 := deref (Temperature_temperature (tg_t v16)) in Ok (near v17 (dlit (-2) 1) (dlit (1) 20))) (
    chk 52 (let! v18 := deref v12 in Ok (negb (precise (tg_t v18)))) (
    chk 53 (let! v19 := deref v12 in Ok (has_value (Temperature_temperature (tg_dp v19)))) (
    chk 54 (let! v20 := deref v12 in let! v21 := deref (Temperature_temperature (tg_dp v20)) in Ok (near v21 (dlit (-4) 1) (dlit (1) 20))) (
    chk 55 (let! v22 := deref v12 in Ok (negb (precise (tg_dp v22)))) (
    None)))))))))))))))))))).

Definition t_TemperatureGroup_parseTemperatureAndDewPointZero : option N :=
    step 59 ((TemperatureGroup_parse "00/M02" RP_METAR md_default)) (fun v1 => 
    chk 60 (Ok (has_value v1)) (
    chk 61 (let! v2 := deref v1 in Ok (TgType_beq (tg_tp v2) Tg_TEMPERATURE_AND_DEW_POINT)) (
    chk 62 (let! v3 := deref v1 in Ok (TempUnit_beq Temp_C Temp_C)) (
    chk 63 (let! v4 := deref v1 in Ok (Temperature_isReported (tg_t v4))) (
    chk 64 (let! v5 := deref v1 in let! v6 := deref (Temperature_temperature (tg_t v5)) in Ok (near v6 (dlit (0) 1) (dlit (1) 20))) (
    chk 65 (let! v7 := deref v1 in Ok (negb (freezing (tg_t v7)))) (
    chk 66 (let! v8 := deref v1 in Ok (negb (precise (tg_t v8)))) (
    chk 67 (let! v9 := deref v1 in Ok (has_value (Temperature_temperature (tg_dp v9)))) (
    chk 68 (let! v10 := deref v1 in let! v11 := deref (Temperature_temperature (tg_dp v10)) in Ok (near v11 (dlit (-2) 1) (dlit (1) 20))) (
    chk 69 (let! v12 := deref v1 in Ok (freezing (tg_dp v12))) (
    chk 70 (let! v13 := deref v1 in Ok (negb (precise (tg_dp v13)))) (
    step 72 ((TemperatureGroup_parse "M00/M02" RP_METAR md_default)) (fun v14 => 
    chk 73 (Ok (has_value v14)) (
    chk 74 (let! v15 := deref v14 in Ok (TgType_beq (tg_tp v15) Tg_TEMPERATURE_AND_DEW_POINT)) (
    chk 75 (let! v16 := deref v14 in Ok (TempUnit_beq Temp_C Temp_C)) (
    chk 76 (let! v17 := deref v14 in Ok (Temperature_isReported (tg_t v17))) (
    chk 77 (let! v18 := deref v14 in let! v19 := deref (Temperature_temperature (tg_t v18)) in Ok (near v19 (dlit (0) 1) (dlit (1) 20))) (
    chk 78 (let! v20 := deref v14 in Ok (freezing (tg_t v20))) (
    chk 79 (let! v21 := deref v14 in Ok (negb (precise (tg_t v21)))) (
    chk 80 (let! v22 := deref v14 in Ok (has_value (Temperature_temperature (tg_dp v22)))) (
    chk 81 (let! v23 := deref v14 in let! v24 := deref (Temperature_temperature (tg_dp v23)) in Ok (near v24 (dlit (-2) 1) (dlit (1) 20))) (
    chk 82 (let! v25 := deref v14 in Ok (freezing (tg_dp v25))) (
    chk 83 (let! v26 := deref v14 in Ok (negb (precise (tg_dp v26)))) (
    step 85 ((TemperatureGroup_parse "02/M00" RP_METAR md_default)) (fun v27 => 
    chk 86 (Ok (has_value v27)) (
    chk 87 (let! v28 := deref v27 in Ok (TgType_beq (tg_tp v28) Tg_TEMPERATURE_AND_DEW_POINT)) (
    chk 88 (let! v29 := deref v27 in Ok (TempUnit_beq Temp_C Temp_C)) (
    chk 89 (let! v30 := deref v27 in Ok (Temperature_isReported (tg_t v30))) (
    chk 90 (let! v31 := deref v27 in let! v32 := deref (Temperature_temperature (tg_t v31)) in Ok (near v32 (dlit (2) 1) (dlit (1) 20))) (
    chk 91 (let! v33 := deref v27 in Ok (negb (freezing (tg_t v33)))) (
    chk 92 (let! v34 := deref v27 in Ok (negb (precise (tg_t v34)))) (
    chk 93 (let! v35 := deref v27 in Ok (has_value (Temperature_temperature (tg_dp v35)))) (
    chk 94 (let! v36 := deref v27 in let! v37 := deref (Temperature_temperature (tg_dp v36)) in Ok (near v37 (dlit (0) 1) (dlit (1) 20))) (
    chk 95 (let! v38 := deref v27 in Ok (freezing (tg_dp v38))) (
    chk 96 (let! v39 := deref v27 in Ok (negb (precise (tg_dp v39)))) (
    step 98 ((TemperatureGroup_parse "02/00" RP_METAR md_default)) (fun v40 => 
    chk 99 (Ok (has_value v40)) (
    chk 100 (let! v41 := deref v40 in Ok (TgType_beq (tg_tp v41) Tg_TEMPERATURE_AND_DEW_POINT)) (
    chk 101 (let! v42 := deref v40 in Ok (TempUnit_beq Temp_C Temp_C)) (
    chk 102 (let! v43 := deref v40 in Ok (Temperature_isReported (tg_t v43))) (
    chk 103 (let! v44 := deref v40 in let! v45 := deref (Temperature_temperature (tg_t v44)) in Ok (near v45 (dlit (2) 1) (dlit (1) 20))) (
    chk 104 (let! v46 := deref v40 in Ok (negb (freezing (tg_t v46)))) (
    chk 105 (let! v47 := deref v40 in Ok (negb (precise (tg_t v47)))) (
    chk 106 (let! v48 := deref v40 in Ok (has_value (Temperature_temperature (tg_dp v48)))) (
    chk 107 (let! v49 := deref v40 in let! v50 := deref (Temperature_temperature (tg_dp v49)) in Ok (near v50 (dlit (0) 1) (dlit (1) 20))) (
    chk 108 (let! v51 := deref v40 in Ok (negb (freezing (tg_dp v51)))) (
    chk 109 (let! v52 := deref v40 in Ok (negb (precise (tg_dp v52)))) (
    None)))))))))))))))))))))))))))))))))))))))))))))))).

Definition t_TemperatureGroup_parseTemperatureOnly : option N :=
    step 113 ((TemperatureGroup_parse "M70/" RP_METAR md_default)) (fun v1 => 
    chk 114 (Ok (has_value v1)) (
    chk 115 (let! v2 := deref v1 in Ok (TgType_beq (tg_tp v2) Tg_TEMPERATURE_AND_DEW_POINT)) (
    chk 116 (let! v3 := deref v1 in Ok (TempUnit_beq Temp_C Temp_C)) (
    chk 117 (let! v4 := deref v1 in Ok (Temperature_isReported (tg_t v4))) (
    chk 118 (let! v5 := deref v1 in let! v6 := deref (Temperature_temperature (tg_t v5)) in Ok (near v6 (dlit (-70) 1) (dlit (1) 20))) (
    chk 119 (let! v7 := deref v1 in Ok (negb (precise (tg_t v7)))) (
    chk 120 (let! v8 := deref v1 in Ok (negb (has_value (Temperature_temperature (tg_dp v8))))) (
    None)))))))).

Definition t_TemperatureGroup_parseDewPointNotReported : option N :=
    step 124 ((TemperatureGroup_parse "25///" RP_METAR md_default)) (fun v1 => 
    chk 125 (Ok (has_value v1)) (
    chk 126 (let! v2 := deref v1 in Ok (TgType_beq (tg_tp v2) Tg_TEMPERATURE_AND_DEW_POINT)) (
    chk 127 (let! v3 := deref v1 in Ok (TempUnit_beq Temp_C Temp_C)) (
    chk 128 (let! v4 := deref v1 in Ok (Temperature_isReported (tg_t v4))) (
    chk 129 (let! v5 := deref v1 in let! v6 := deref (Temperature_temperature (tg_t v5)) in Ok (near v6 (dlit (25) 1) (dlit (1) 20))) (
    chk 130 (let! v7 := deref v1 in Ok (negb (precise (tg_t v7)))) (
    chk 131 (let! v8 := deref v1 in Ok (negb (has_value (Temperature_temperature (tg_dp v8))))) (
    None)))))))).

Definition t_TemperatureGroup_parseNotReported : option N :=
    step 135 ((TemperatureGroup_parse "/////" RP_METAR md_default)) (fun v1 => 
    chk 136 (Ok (has_value v1)) (
    chk 137 (let! v2 := deref v1 in Ok (TgType_beq (tg_tp v2) Tg_TEMPERATURE_AND_DEW_POINT)) (
    chk 138 (let! v3 := deref v1 in Ok (TempUnit_beq Temp_C Temp_C)) (
    chk 139 (let! v4 := deref v1 in Ok (negb (Temperature_isReported (tg_t v4)))) (
    chk 140 (let! v5 := deref v1 in Ok (negb (has_value (Temperature_temperature (tg_dp v5))))) (
    None)))))).

Definition t_TemperatureGroup_parseWrongReportPart : option N :=
    chk 144 (let! v1 := (TemperatureGroup_parse "25/18" RP_UNKNOWN md_default) in Ok (negb (has_value v1))) (
    chk 145 (let! v2 := (TemperatureGroup_parse "25/18" RP_HEADER md_default) in Ok (negb (has_value v2))) (
    chk 146 (let! v3 := (TemperatureGroup_parse "25/18" RP_TAF md_default) in Ok (negb (has_value v3))) (
    chk 147 (let! v4 := (TemperatureGroup_parse "25/18" RP_RMK md_default) in Ok (negb (has_value v4))) (
    None)))).

Definition t_TemperatureGroup_parseWrongFormat : option N :=
    chk 151 (let! v1 := (TemperatureGroup_parse "12:08" RP_METAR md_default) in Ok (negb (has_value v1))) (
    chk 152 (let! v2 := (TemperatureGroup_parse "2518" RP_METAR md_default) in Ok (negb (has_value v2))) (
    chk 153 (let! v3 := (TemperatureGroup_parse "025/18" RP_METAR md_default) in Ok (negb (has_value v3))) (
    chk 154 (let! v4 := (TemperatureGroup_parse "25/018" RP_METAR md_default) in Ok (negb (has_value v4))) (
    chk 155 (let! v5 := (TemperatureGroup_parse "025/018" RP_METAR md_default) in Ok (negb (has_value v5))) (
    chk 156 (let! v6 := (TemperatureGroup_parse "2A/18" RP_METAR md_default) in Ok (negb (has_value v6))) (
    chk 157 (let! v7 := (TemperatureGroup_parse "25/1A" RP_METAR md_default) in Ok (negb (has_value v7))) (
    chk 158 (let! v8 := (TemperatureGroup_parse "25////" RP_METAR md_default) in Ok (negb (has_value v8))) (
    chk 159 (let! v9 := (TemperatureGroup_parse "25//" RP_METAR md_default) in Ok (negb (has_value v9))) (
    chk 160 (let! v10 := (TemperatureGroup_parse "////" RP_METAR md_default) in Ok (negb (has_value v10))) (
    chk 161 (let! v11 := (TemperatureGroup_parse "//////" RP_METAR md_default) in Ok (negb (has_value v11))) (
    chk 162 (let! v12 := (TemperatureGroup_parse "25/M//" RP_METAR md_default) in Ok (negb (has_value v12))) (
    chk 163 (let! v13 := (TemperatureGroup_parse "M/////" RP_METAR md_default) in Ok (negb (has_value v13))) (
    chk 164 (let! v14 := (TemperatureGroup_parse "///M//" RP_METAR md_default) in Ok (negb (has_value v14))) (
    None)))))))))))))).

Definition t_TemperatureGroup_parseRemark : option N :=
    step 175 ((TemperatureGroup_parse "T00560028" RP_RMK md_default)) (fun v1 => 
    chk 176 (Ok (has_value v1)) (
    chk 177 (let! v2 := deref v1 in Ok (TgType_beq (tg_tp v2) Tg_TEMPERATURE_AND_DEW_POINT)) (
    chk 178 (let! v3 := deref v1 in Ok (TempUnit_beq Temp_C Temp_C)) (
    chk 179 (let! v4 := deref v1 in Ok (Temperature_isReported (tg_t v4))) (
    chk 180 (let! v5 := deref v1 in let! v6 := deref (Temperature_temperature (tg_t v5)) in Ok (near v6 (dlit (28) 5) (dlit (1) 20))) (
    chk 181 (let! v7 := deref v1 in Ok (precise (tg_t v7))) (
    chk 182 (let! v8 := deref v1 in Ok (has_value (Temperature_temperature (tg_dp v8)))) (
    chk 183 (let! v9 := deref v1 in let! v10 := deref (Temperature_temperature (tg_dp v9)) in Ok (near v10 (dlit (14) 5) (dlit (1) 20))) (
    chk 184 (let! v11 := deref v1 in Ok (precise (tg_dp v11))) (
    step 186 ((TemperatureGroup_parse "T10171028" RP_RMK md_default)) (fun v12 => 
    chk 187 (Ok (has_value v12)) (
    chk 188 (let! v13 := deref v12 in Ok (TgType_beq (tg_tp v13) Tg_TEMPERATURE_AND_DEW_POINT)) (
    chk 189 (let! v14 := deref v12 in Ok (TempUnit_beq Temp_C Temp_C)) (
    chk 190 (let! v15 := deref v12 in Ok (Temperature_isReported (tg_t v15))) (
    chk 191 (let! v16 := deref v12 in let! v17 := deref (Temperature_temperature (tg_t v16)) in Ok (near v17 (dlit (-17) 10) (dlit (1) 20))) (
    chk 192 (let! v18 := deref v12 in Ok (has_value (Temperature_temperature (tg_dp v18)))) (
    chk 193 (let! v19 := deref v12 in let! v20 := deref (Temperature_temperature (tg_dp v19)) in Ok (near v20 (dlit (-14) 5) (dlit (1) 20))) (
    chk 194 (let! v21 := deref v12 in Ok (precise (tg_dp v21))) (
    None))))))))))))))))))).

Definition t_TemperatureGroup_parseRemarkTemperatureOnly : option N :=
    step 198 ((TemperatureGroup_parse "T0261" RP_RMK md_default)) (fun v1 => 
    chk 199 (Ok (has_value v1)) (
    chk 200 (let! v2 := deref v1 in Ok (TgType_beq (tg_tp v2) Tg_TEMPERATURE_AND_DEW_POINT)) (
    chk 201 (let! v3 := deref v1 in Ok (TempUnit_beq Temp_C Temp_C)) (
    chk 202 (let! v4 := deref v1 in Ok (Temperature_isReported (tg_t v4))) (
    chk 203 (let! v5 := deref v1 in let! v6 := deref (Temperature_temperature (tg_t v5)) in Ok (near v6 (dlit (261) 10) (dlit (1) 20))) (
    chk 204 (let! v7 := deref v1 in Ok (precise (tg_t v7))) (
    chk 205 (let! v8 := deref v1 in Ok (negb (has_value (Temperature_temperature (tg_dp v8))))) (
    None)))))))).

Definition t_TemperatureGroup_parseRemarkWrongReportPart : option N :=
    chk 209 (let! v1 := (TemperatureGroup_parse "T00560028" RP_UNKNOWN md_default) in Ok (negb (has_value v1))) (
    chk 210 (let! v2 := (TemperatureGroup_parse "T00560028" RP_HEADER md_default) in Ok (negb (has_value v2))) (
    chk 211 (let! v3 := (TemperatureGroup_parse "T00560028" RP_METAR md_default) in Ok (negb (has_value v3))) (
    chk 212 (let! v4 := (TemperatureGroup_parse "T00560028" RP_TAF md_default) in Ok (negb (has_value v4))) (
    None)))).

Definition t_TemperatureGroup_parseRemarkWrongFormat : option N :=
    chk 216 (let! v1 := (TemperatureGroup_parse "T20560028" RP_RMK md_default) in Ok (negb (has_value v1))) (
    chk 217 (let! v2 := (TemperatureGroup_parse "T30560028" RP_RMK md_default) in Ok (negb (has_value v2))) (
    chk 218 (let! v3 := (TemperatureGroup_parse "T40560028" RP_RMK md_default) in Ok (negb (has_value v3))) (
    chk 219 (let! v4 := (TemperatureGroup_parse "T50560028" RP_RMK md_default) in Ok (negb (has_value v4))) (
    chk 220 (let! v5 := (TemperatureGroup_parse "T60560028" RP_RMK md_default) in Ok (negb (has_value v5))) (
    chk 221 (let! v6 := (TemperatureGroup_parse "T70560028" RP_RMK md_default) in Ok (negb (has_value v6))) (
    chk 222 (let! v7 := (TemperatureGroup_parse "T80560028" RP_RMK md_default) in Ok (negb (has_value v7))) (
    chk 223 (let! v8 := (TemperatureGroup_parse "T90560028" RP_RMK md_default) in Ok (negb (has_value v8))) (
    chk 224 (let! v9 := (TemperatureGroup_parse "TA0560028" RP_RMK md_default) in Ok (negb (has_value v9))) (
    chk 226 (let! v10 := (TemperatureGroup_parse "T00562028" RP_RMK md_default) in Ok (negb (has_value v10))) (
    chk 227 (let! v11 := (TemperatureGroup_parse "T00563028" RP_RMK md_default) in Ok (negb (has_value v11))) (
    chk 228 (let! v12 := (TemperatureGroup_parse "T00564028" RP_RMK md_default) in Ok (negb (has_value v12))) (
    chk 229 (let! v13 := (TemperatureGroup_parse "T00565028" RP_RMK md_default) in Ok (negb (has_value v13))) (
    chk 230 (let! v14 := (TemperatureGroup_parse "T00566028" RP_RMK md_default) in Ok (negb (has_value v14))) (
    chk 231 (let! v15 := (TemperatureGroup_parse "T00567028" RP_RMK md_default) in Ok (negb (has_value v15))) (
    chk 232 (let! v16 := (TemperatureGroup_parse "T00568028" RP_RMK md_default) in Ok (negb (has_value v16))) (
    chk 233 (let! v17 := (TemperatureGroup_parse "T00569028" RP_RMK md_default) in Ok (negb (has_value v17))) (
    chk 234 (let! v18 := (TemperatureGroup_parse "T0056A028" RP_RMK md_default) in Ok (negb (has_value v18))) (
    chk 236 (let! v19 := (TemperatureGroup_parse "A00560028" RP_RMK md_default) in Ok (negb (has_value v19))) (
    chk 237 (let! v20 := (TemperatureGroup_parse "T////0028" RP_RMK md_default) in Ok (negb (has_value v20))) (
    chk 238 (let! v21 := (TemperatureGroup_parse "T0056////" RP_RMK md_default) in Ok (negb (has_value v21))) (
    chk 239 (let! v22 := (TemperatureGroup_parse "T////////" RP_RMK md_default) in Ok (negb (has_value v22))) (
    chk 241 (let! v23 := (TemperatureGroup_parse "TM0560028" RP_RMK md_default) in Ok (negb (has_value v23))) (
    chk 242 (let! v24 := (TemperatureGroup_parse "T0056M028" RP_RMK md_default) in Ok (negb (has_value v24))) (
    chk 244 (let! v25 := (TemperatureGroup_parse "T000560028" RP_RMK md_default) in Ok (negb (has_value v25))) (
    chk 245 (let! v26 := (TemperatureGroup_parse "T005600028" RP_RMK md_default) in Ok (negb (has_value v26))) (
    None)))))))))))))))))))))))))).

Definition t_TemperatureGroup_tMisg : option N :=
    step 255 ((TemperatureGroup_parse "T" RP_RMK md_default)) (fun v1 => 
    chk 256 (Ok (has_value v1)) (
    step 257 (let! v2 := deref v1 in TemperatureGroup_append v2 "MISG" RP_RMK md_default) (fun p => let v3 := Some (fst p) in let v4 := snd p in 
    chk 257 (Ok (AppendResult_beq v4 APPENDED)) (
    step 258 (let! v5 := deref v3 in TemperatureGroup_append v5 "" RP_RMK md_default) (fun p => let v6 := Some (fst p) in let v7 := snd p in 
    chk 258 (Ok (AppendResult_beq v7 NOT_APPENDED)) (
    chk 259 (let! v8 := deref v6 in Ok (TgType_beq (tg_tp v8) Tg_T_MISG)) (
    chk 260 (let! v9 := deref v6 in Ok (negb (Temperature_isReported (tg_t v9)))) (
    chk 261 (let! v10 := deref v6 in Ok (negb (Temperature_isReported (tg_dp v10)))) (
    None))))))))).

Definition t_TemperatureGroup_appendOtherToT : option N :=
    step 265 ((TemperatureGroup_parse "T" RP_RMK md_default)) (fun v1 => 
    chk 266 (Ok (has_value v1)) (
    step 267 (let! v2 := deref v1 in TemperatureGroup_append v2 "005600028" RP_RMK md_default) (fun p => let v3 := Some (fst p) in let v4 := snd p in 
    chk 267 (Ok (AppendResult_beq v4 GROUP_INVALIDATED)) (
    step 269 ((TemperatureGroup_parse "T" RP_RMK md_default)) (fun v5 => 
    chk 270 (Ok (has_value v5)) (
    step 271 (let! v6 := deref v5 in TemperatureGroup_append v6 "" RP_RMK md_default) (fun p => let v7 := Some (fst p) in let v8 := snd p in 
    chk 271 (Ok (AppendResult_beq v8 GROUP_INVALIDATED)) (
    step 273 ((TemperatureGroup_parse "T" RP_RMK md_default)) (fun v9 => 
    chk 274 (Ok (has_value v9)) (
    step 275 (let! v10 := deref v9 in TemperatureGroup_append v10 "11/07" RP_RMK md_default) (fun p => let v11 := Some (fst p) in let v12 := snd p in 
    chk 275 (Ok (AppendResult_beq v12 GROUP_INVALIDATED)) (
    step 277 ((TemperatureGroup_parse "T" RP_RMK md_default)) (fun v13 => 
    chk 278 (Ok (has_value v13)) (
    step 279 (let! v14 := deref v13 in TemperatureGroup_append v14 "/////" RP_RMK md_default) (fun p => let v15 := Some (fst p) in let v16 := snd p in 
    chk 279 (Ok (AppendResult_beq v16 GROUP_INVALIDATED)) (
    None)))))))))))))))).

Definition t_TemperatureGroup_tdMisg : option N :=
    step 283 ((TemperatureGroup_parse "TD" RP_RMK md_default)) (fun v1 => 
    chk 284 (Ok (has_value v1)) (
    step 285 (let! v2 := deref v1 in TemperatureGroup_append v2 "MISG" RP_RMK md_default) (fun p => let v3 := Some (fst p) in let v4 := snd p in 
    chk 285 (Ok (AppendResult_beq v4 APPENDED)) (
    step 286 (let! v5 := deref v3 in TemperatureGroup_append v5 "" RP_RMK md_default) (fun p => let v6 := Some (fst p) in let v7 := snd p in 
    chk 286 (Ok (AppendResult_beq v7 NOT_APPENDED)) (
    chk 287 (let! v8 := deref v6 in Ok (TgType_beq (tg_tp v8) Tg_TD_MISG)) (
    chk 288 (let! v9 := deref v6 in Ok (negb (Temperature_isReported (tg_t v9)))) (
    chk 289 (let! v10 := deref v6 in Ok (negb (Temperature_isReported (tg_dp v10)))) (
    None))))))))).

Definition t_TemperatureGroup_appendOtherToTd : option N :=
    step 293 ((TemperatureGroup_parse "TD" RP_RMK md_default)) (fun v1 => 
    chk 294 (Ok (has_value v1)) (
    step 295 (let! v2 := deref v1 in TemperatureGroup_append v2 "005600028" RP_RMK md_default) (fun p => let v3 := Some (fst p) in let v4 := snd p in 
    chk 295 (Ok (AppendResult_beq v4 GROUP_INVALIDATED)) (
    step 297 ((TemperatureGroup_parse "TD" RP_RMK md_default)) (fun v5 => 
    chk 298 (Ok (has_value v5)) (
    step 299 (let! v6 := deref v5 in TemperatureGroup_append v6 "" RP_RMK md_default) (fun p => let v7 := Some (fst p) in let v8 := snd p in 
    chk 299 (Ok (AppendResult_beq v8 GROUP_INVALIDATED)) (
    step 301 ((TemperatureGroup_parse "TD" RP_RMK md_default)) (fun v9 => 
    chk 302 (Ok (has_value v9)) (
    step 303 (let! v10 := deref v9 in TemperatureGroup_append v10 "11/07" RP_RMK md_default) (fun p => let v11 := Some (fst p) in let v12 := snd p in 
    chk 303 (Ok (AppendResult_beq v12 GROUP_INVALIDATED)) (
    step 305 ((TemperatureGroup_parse "TD" RP_RMK md_default)) (fun v13 => 
    chk 306 (Ok (has_value v13)) (
    step 307 (let! v14 := deref v13 in TemperatureGroup_append v14 "/////" RP_RMK md_default) (fun p => let v15 := Some (fst p) in let v16 := snd p in 
    chk 307 (Ok (AppendResult_beq v16 GROUP_INVALIDATED)) (
    None)))))))))))))))).

Definition t_TemperatureGroup_parseMisg : option N :=
    chk 311 (let! v1 := (TemperatureGroup_parse "MISG" RP_UNKNOWN md_default) in Ok (negb (has_value v1))) (
    chk 312 (let! v2 := (TemperatureGroup_parse "MISG" RP_HEADER md_default) in Ok (negb (has_value v2))) (
    chk 313 (let! v3 := (TemperatureGroup_parse "MISG" RP_METAR md_default) in Ok (negb (has_value v3))) (
    chk 314 (let! v4 := (TemperatureGroup_parse "MISG" RP_TAF md_default) in Ok (negb (has_value v4))) (
    chk 315 (let! v5 := (TemperatureGroup_parse "MISG" RP_RMK md_default) in Ok (negb (has_value v5))) (
    None))))).

Definition t_TemperatureGroup_isValidNotReported : option N :=
    step 324 ((TemperatureGroup_parse "M70/" RP_METAR md_default)) (fun v1 => 
    chk 325 (Ok (has_value v1)) (
    chk 326 (let! v2 := deref v1 in Ok (TemperatureGroup_isValid v2)) (
    step 328 ((TemperatureGroup_parse "25///" RP_METAR md_default)) (fun v3 => 
    chk 329 (Ok (has_value v3)) (
    chk 330 (let! v4 := deref v3 in Ok (TemperatureGroup_isValid v4)) (
    step 332 ((TemperatureGroup_parse "/////" RP_METAR md_default)) (fun v5 => 
    chk 333 (Ok (has_value v5)) (
    chk 334 (let! v6 := deref v5 in Ok (TemperatureGroup_isValid v6)) (
    None))))))))).

Definition t_TemperatureGroup_isValidTrue : option N :=
    step 338 ((TemperatureGroup_parse "25/24" RP_METAR md_default)) (fun v1 => 
    chk 339 (Ok (has_value v1)) (
    chk 340 (let! v2 := deref v1 in Ok (TemperatureGroup_isValid v2)) (
    step 342 ((TemperatureGroup_parse "25/25" RP_METAR md_default)) (fun v3 => 
    chk 343 (Ok (has_value v3)) (
    chk 344 (let! v4 := deref v3 in Ok (TemperatureGroup_isValid v4)) (
    None)))))).

Definition t_TemperatureGroup_isValidTrueZero : option N :=
    step 348 ((TemperatureGroup_parse "00/00" RP_METAR md_default)) (fun v1 => 
    chk 349 (Ok (has_value v1)) (
    chk 350 (let! v2 := deref v1 in Ok (TemperatureGroup_isValid v2)) (
    step 352 ((TemperatureGroup_parse "M00/M00" RP_METAR md_default)) (fun v3 => 
    chk 353 (Ok (has_value v3)) (
    chk 354 (let! v4 := deref v3 in Ok (TemperatureGroup_isValid v4)) (
    step 356 ((TemperatureGroup_parse "00/M00" RP_METAR md_default)) (fun v5 => 
    chk 357 (Ok (has_value v5)) (
    chk 358 (let! v6 := deref v5 in Ok (TemperatureGroup_isValid v6)) (
    None))))))))).

Definition t_TemperatureGroup_isValidTrueTMisgTdMisg : option N :=
    step 362 ((TemperatureGroup_parse "T" RP_RMK md_default)) (fun v1 => 
    chk 363 (Ok (has_value v1)) (
    step 364 (let! v2 := deref v1 in TemperatureGroup_append v2 "MISG" RP_RMK md_default) (fun p => let v3 := Some (fst p) in let v4 := snd p in 
    chk 364 (Ok (AppendResult_beq v4 APPENDED)) (
    chk 365 (let! v5 := deref v3 in Ok (TemperatureGroup_isValid v5)) (
    step 367 ((TemperatureGroup_parse "TD" RP_RMK md_default)) (fun v6 => 
    chk 368 (Ok (has_value v6)) (
    step 369 (let! v7 := deref v6 in TemperatureGroup_append v7 "MISG" RP_RMK md_default) (fun p => let v8 := Some (fst p) in let v9 := snd p in 
    chk 369 (Ok (AppendResult_beq v9 APPENDED)) (
    chk 370 (let! v10 := deref v8 in Ok (TemperatureGroup_isValid v10)) (
    None)))))))))).

Definition t_TemperatureGroup_isValidFalse : option N :=
    step 374 ((TemperatureGroup_parse "25/26" RP_METAR md_default)) (fun v1 => 
    chk 375 (Ok (has_value v1)) (
    chk 376 (let! v2 := deref v1 in Ok (negb (TemperatureGroup_isValid v2))) (
    step 378 ((TemperatureGroup_parse "M00/00" RP_METAR md_default)) (fun v3 => 
    chk 379 (Ok (has_value v3)) (
    chk 380 (let! v4 := deref v3 in Ok (negb (TemperatureGroup_isValid v4))) (
    None)))))).

Definition t_TemperatureGroup_isValidFalseTTd : option N :=
    step 384 ((TemperatureGroup_parse "T" RP_RMK md_default)) (fun v1 => 
    chk 385 (Ok (has_value v1)) (
    chk 386 (let! v2 := deref v1 in Ok (negb (TemperatureGroup_isValid v2))) (
    step 388 ((TemperatureGroup_parse "TD" RP_RMK md_default)) (fun v3 => 
    chk 389 (Ok (has_value v3)) (
    chk 390 (let! v4 := deref v3 in Ok (negb (TemperatureGroup_isValid v4))) (
    None)))))).

Definition t_TemperatureGroup_relativeHumidity : option N :=
    step 400 ((TemperatureGroup_parse "35/05" RP_METAR md_default)) (fun v1 => 
    chk 401 (Ok (has_value v1)) (
    None)).

Definition t_TemperatureGroup_append : option N :=
    step 429 ((TemperatureGroup_parse "07/03" RP_METAR md_default)) (fun v1 => 
    chk 430 (Ok (has_value v1)) (
    step 432 ((TemperatureGroup_parse "02/M00" RP_METAR md_default)) (fun v2 => 
    chk 433 (Ok (has_value v2)) (
    step 435 ((TemperatureGroup_parse "M03/M07" RP_METAR md_default)) (fun v3 => 
    chk 436 (Ok (has_value v3)) (
    step 438 ((TemperatureGroup_parse "///12" RP_METAR md_default)) (fun v4 => 
    chk 439 (Ok (has_value v4)) (
    step 441 ((TemperatureGroup_parse "00///" RP_METAR md_default)) (fun v5 => 
    chk 442 (Ok (has_value v5)) (
    step 444 ((TemperatureGroup_parse "/////" RP_METAR md_default)) (fun v6 => 
    chk 445 (Ok (has_value v6)) (
    step 447 ((TemperatureGroup_parse "T" RP_RMK md_default)) (fun v7 => 
    chk 448 (Ok (has_value v7)) (
    step 449 (let! v8 := deref v7 in TemperatureGroup_append v8 "MISG" RP_RMK md_default) (fun p => let v9 := Some (fst p) in let v10 := snd p in 
    chk 449 (Ok (AppendResult_beq v10 APPENDED)) (
    step 451 ((TemperatureGroup_parse "TD" RP_RMK md_default)) (fun v11 => 
    chk 452 (Ok (has_value v11)) (
    step 453 (let! v12 := deref v11 in TemperatureGroup_append v12 "MISG" RP_RMK md_default) (fun p => let v13 := Some (fst p) in let v14 := snd p in 
    chk 453 (Ok (AppendResult_beq v14 APPENDED)) (
    step 455 (let! v15 := deref v1 in TemperatureGroup_append v15 "07/03" RP_METAR md_default) (fun p => let v16 := Some (fst p) in let v17 := snd p in 
    chk 455 (Ok (AppendResult_beq v17 NOT_APPENDED)) (
    step 457 (let! v18 := deref v16 in TemperatureGroup_append v18 "02/M00" RP_METAR md_default) (fun p => let v19 := Some (fst p) in let v20 := snd p in 
    chk 457 (Ok (AppendResult_beq v20 NOT_APPENDED)) (
    step 459 (let! v21 := deref v19 in TemperatureGroup_append v21 "M03/M07" RP_METAR md_default) (fun p => let v22 := Some (fst p) in let v23 := snd p in 
    chk 459 (Ok (AppendResult_beq v23 NOT_APPENDED)) (
    step 461 (let! v24 := deref v22 in TemperatureGroup_append v24 "///12" RP_METAR md_default) (fun p => let v25 := Some (fst p) in let v26 := snd p in 
    chk 461 (Ok (AppendResult_beq v26 NOT_APPENDED)) (
    step 463 (let! v27 := deref v25 in TemperatureGroup_append v27 "00///" RP_METAR md_default) (fun p => let v28 := Some (fst p) in let v29 := snd p in 
    chk 463 (Ok (AppendResult_beq v29 NOT_APPENDED)) (
    step 465 (let! v30 := deref v28 in TemperatureGroup_append v30 "/////" RP_METAR md_default) (fun p => let v31 := Some (fst p) in let v32 := snd p in 
    chk 465 (Ok (AppendResult_beq v32 NOT_APPENDED)) (
    step 467 (let! v33 := deref v31 in TemperatureGroup_append v33 "T" RP_METAR md_default) (fun p => let v34 := Some (fst p) in let v35 := snd p in 
    chk 467 (Ok (AppendResult_beq v35 NOT_APPENDED)) (
    step 469 (let! v36 := deref v34 in TemperatureGroup_append v36 "TD" RP_METAR md_default) (fun p => let v37 := Some (fst p) in let v38 := snd p in 
    chk 469 (Ok (AppendResult_beq v38 NOT_APPENDED)) (
    step 471 (let! v39 := deref v37 in TemperatureGroup_append v39 "MISG" RP_METAR md_default) (fun p => let v40 := Some (fst p) in let v41 := snd p in 
    chk 471 (Ok (AppendResult_beq v41 NOT_APPENDED)) (
    step 473 (let! v42 := deref v40 in TemperatureGroup_append v42 "RMK" RP_METAR md_default) (fun p => let v43 := Some (fst p) in let v44 := snd p in 
    chk 473 (Ok (AppendResult_beq v44 NOT_APPENDED)) (
    step 475 (let! v45 := deref v43 in TemperatureGroup_append v45 "TEST" RP_METAR md_default) (fun p => let v46 := Some (fst p) in let v47 := snd p in 
    chk 475 (Ok (AppendResult_beq v47 NOT_APPENDED)) (
    step 478 (let! v48 := deref v2 in TemperatureGroup_append v48 "07/03" RP_METAR md_default) (fun p => let v49 := Some (fst p) in let v50 := snd p in 
    chk 478 (Ok (AppendResult_beq v50 NOT_APPENDED)) (
    step 480 (let! v51 := deref v49 in TemperatureGroup_append v51 "02/M00" RP_METAR md_default) (fun p => let v52 := Some (fst p) in let v53 := snd p in 
    chk 480 (Ok (AppendResult_beq v53 NOT_APPENDED)) (
    step 482 (let! v54 := deref v52 in TemperatureGroup_append v54 "M03/M07" RP_METAR md_default) (fun p => let v55 := Some (fst p) in let v56 := snd p in 
    chk 482 (Ok (AppendResult_beq v56 NOT_APPENDED)) (
    step 484 (let! v57 := deref v55 in TemperatureGroup_append v57 "///12" RP_METAR md_default) (fun p => let v58 := Some (fst p) in let v59 := snd p in 
    chk 484 (Ok (AppendResult_beq v59 NOT_APPENDED)) (
    step 486 (let! v60 := deref v58 in TemperatureGroup_append v60 "00///" RP_METAR md_default) (fun p => let v61 := Some (fst p) in let v62 := snd p in 
    chk 486 (Ok (AppendResult_beq v62 NOT_APPENDED)) (
    step 488 (let! v63 := deref v61 in TemperatureGroup_append v63 "/////" RP_METAR md_default) (fun p => let v64 := Some (fst p) in let v65 := snd p in 
    chk 488 (Ok (AppendResult_beq v65 NOT_APPENDED)) (
    step 490 (let! v66 := deref v64 in TemperatureGroup_append v66 "T" RP_METAR md_default) (fun p => let v67 := Some (fst p) in let v68 := snd p in 
    chk 490 (Ok (AppendResult_beq v68 NOT_APPENDED)) (
    step 492 (let! v69 := deref v67 in TemperatureGroup_append v69 "TD" RP_METAR md_default) (fun p => let v70 := Some (fst p) in let v71 := snd p in 
    chk 492 (Ok (AppendResult_beq v71 NOT_APPENDED)) (
    step 494 (let! v72 := deref v70 in TemperatureGroup_append v72 "MISG" RP_METAR md_default) (fun p => let v73 := Some (fst p) in let v74 := snd p in 
    chk 494 (Ok (AppendResult_beq v74 NOT_APPENDED)) (
    step 496 (let! v75 := deref v73 in TemperatureGroup_append v75 "RMK" RP_METAR md_default) (fun p => let v76 := Some (fst p) in let v77 := snd p in 
    chk 496 (Ok (AppendResult_beq v77 NOT_APPENDED)) (
    step 498 (let! v78 := deref v76 in TemperatureGroup_append v78 "TEST" RP_METAR md_default) (fun p => let v79 := Some (fst p) in let v80 := snd p in 
    chk 498 (Ok (AppendResult_beq v80 NOT_APPENDED)) (
    step 501 (let! v81 := deref v3 in TemperatureGroup_append v81 "07/03" RP_METAR md_default) (fun p => let v82 := Some (fst p) in let v83 := snd p in 
    chk 501 (Ok (AppendResult_beq v83 NOT_APPENDED)) (
    step 503 (let! v84 := deref v82 in TemperatureGroup_append v84 "02/M00" RP_METAR md_default) (fun p => let v85 := Some (fst p) in let v86 := snd p in 
    chk 503 (Ok (AppendResult_beq v86 NOT_APPENDED)) (
    step 505 (let! v87 := deref v85 in TemperatureGroup_append v87 "M03/M07" RP_METAR md_default) (fun p => let v88 := Some (fst p) in let v89 := snd p in 
    chk 505 (Ok (AppendResult_beq v89 NOT_APPENDED)) (
    step 507 (let! v90 := deref v88 in TemperatureGroup_append v90 "///12" RP_METAR md_default) (fun p => let v91 := Some (fst p) in let v92 := snd p in 
    chk 507 (Ok (AppendResult_beq v92 NOT_APPENDED)) (
    step 509 (let! v93 := deref v91 in TemperatureGroup_append v93 "00///" RP_METAR md_default) (fun p => let v94 := Some (fst p) in let v95 := snd p in 
    chk 509 (Ok (AppendResult_beq v95 NOT_APPENDED)) (
    step 511 (let! v96 := deref v94 in TemperatureGroup_append v96 "/////" RP_METAR md_default) (fun p => let v97 := Some (fst p) in let v98 := snd p in 
    chk 511 (Ok (AppendResult_beq v98 NOT_APPENDED)) (
    step 513 (let! v99 := deref v97 in TemperatureGroup_append v99 "T" RP_METAR md_default) (fun p => let v100 := Some (fst p) in let v101 := snd p in 
    chk 513 (Ok (AppendResult_beq v101 NOT_APPENDED)) (
    step 515 (let! v102 := deref v100 in TemperatureGroup_append v102 "TD" RP_METAR md_default) (fun p => let v103 := Some (fst p) in let v104 := snd p in 
    chk 515 (Ok (AppendResult_beq v104 NOT_APPENDED)) (
    step 517 (let! v105 := deref v103 in TemperatureGroup_append v105 "MISG" RP_METAR md_default) (fun p => let v106 := Some (fst p) in let v107 := snd p in 
    chk 517 (Ok (AppendResult_beq v107 NOT_APPENDED)) (
    step 519 (let! v108 := deref v106 in TemperatureGroup_append v108 "RMK" RP_METAR md_default) (fun p => let v109 := Some (fst p) in let v110 := snd p in 
    chk 519 (Ok (AppendResult_beq v110 NOT_APPENDED)) (
    step 521 (let! v111 := deref v109 in TemperatureGroup_append v111 "TEST" RP_METAR md_default) (fun p => let v112 := Some (fst p) in let v113 := snd p in 
    chk 521 (Ok (AppendResult_beq v113 NOT_APPENDED)) (
    step 524 (let! v114 := deref v4 in TemperatureGroup_append v114 "07/03" RP_METAR md_default) (fun p => let v115 := Some (fst p) in let v116 := snd p in 
    chk 524 (Ok (AppendResult_beq v116 NOT_APPENDED)) (
    step 526 (let! v117 := deref v115 in TemperatureGroup_append v117 "02/M00" RP_METAR md_default) (fun p => let v118 := Some (fst p) in let v119 := snd p in 
    chk 526 (Ok (AppendResult_beq v119 NOT_APPENDED)) (
    step 528 (let! v120 := deref v118 in TemperatureGroup_append v120 "M03/M07" RP_METAR md_default) (fun p => let v121 := Some (fst p) in let v122 := snd p in 
    chk 528 (Ok (AppendResult_beq v122 NOT_APPENDED)) (
    step 530 (let! v123 := deref v121 in TemperatureGroup_append v123 "///12" RP_METAR md_default) (fun p => let v124 := Some (fst p) in let v125 := snd p in 
    chk 530 (Ok (AppendResult_beq v125 NOT_APPENDED)) (
    step 532 (let! v126 := deref v124 in TemperatureGroup_append v126 "00///" RP_METAR md_default) (fun p => let v127 := Some (fst p) in let v128 := snd p in 
    chk 532 (Ok (AppendResult_beq v128 NOT_APPENDED)) (
    step 534 (let! v129 := deref v127 in TemperatureGroup_append v129 "/////" RP_METAR md_default) (fun p => let v130 := Some (fst p) in let v131 := snd p in 
    chk 534 (Ok (AppendResult_beq v131 NOT_APPENDED)) (
    step 536 (let! v132 := deref v130 in TemperatureGroup_append v132 "T" RP_METAR md_default) (fun p => let v133 := Some (fst p) in let v134 := snd p in 
    chk 536 (Ok (AppendResult_beq v134 NOT_APPENDED)) (
    step 538 (let! v135 := deref v133 in TemperatureGroup_append v135 "TD" RP_METAR md_default) (fun p => let v136 := Some (fst p) in let v137 := snd p in 
    chk 538 (Ok (AppendResult_beq v137 NOT_APPENDED)) (
    step 540 (let! v138 := deref v136 in TemperatureGroup_append v138 "MISG" RP_METAR md_default) (fun p => let v139 := Some (fst p) in let v140 := snd p in 
    chk 540 (Ok (AppendResult_beq v140 NOT_APPENDED)) (
    step 542 (let! v141 := deref v139 in TemperatureGroup_append v141 "RMK" RP_METAR md_default) (fun p => let v142 := Some (fst p) in let v143 := snd p in 
    chk 542 (Ok (AppendResult_beq v143 NOT_APPENDED)) (
    step 544 (let! v144 := deref v142 in TemperatureGroup_append v144 "TEST" RP_METAR md_default) (fun p => let v145 := Some (fst p) in let v146 := snd p in 
    chk 544 (Ok (AppendResult_beq v146 NOT_APPENDED)) (
    step 547 (let! v147 := deref v5 in TemperatureGroup_append v147 "07/03" RP_METAR md_default) (fun p => let v148 := Some (fst p) in let v149 := snd p in 
    chk 547 (Ok (AppendResult_beq v149 NOT_APPENDED)) (
    step 549 (let! v150 := deref v148 in TemperatureGroup_append v150 "02/M00" RP_METAR md_default) (fun p => let v151 := Some (fst p) in let v152 := snd p in 
    chk 549 (Ok (AppendResult_beq v152 NOT_APPENDED)) (
    step 551 (let! v153 := deref v151 in TemperatureGroup_append v153 "M03/M07" RP_METAR md_default) (fun p => let v154 := Some (fst p) in let v155 := snd p in 
    chk 551 (Ok (AppendResult_beq v155 NOT_APPENDED)) (
    step 553 (let! v156 := deref v154 in TemperatureGroup_append v156 "///12" RP_METAR md_default) (fun p => let v157 := Some (fst p) in let v158 := snd p in 
    chk 553 (Ok (AppendResult_beq v158 NOT_APPENDED)) (
    step 555 (let! v159 := deref v157 in TemperatureGroup_append v159 "00///" RP_METAR md_default) (fun p => let v160 := Some (fst p) in let v161 := snd p in 
    chk 555 (Ok (AppendResult_beq v161 NOT_APPENDED)) (
    step 557 (let! v162 := deref v160 in TemperatureGroup_append v162 "/////" RP_METAR md_default) (fun p => let v163 := Some (fst p) in let v164 := snd p in 
    chk 557 (Ok (AppendResult_beq v164 NOT_APPENDED)) (
    step 559 (let! v165 := deref v163 in TemperatureGroup_append v165 "T" RP_METAR md_default) (fun p => let v166 := Some (fst p) in let v167 := snd p in 
    chk 559 (Ok (AppendResult_beq v167 NOT_APPENDED)) (
    step 561 (let! v168 := deref v166 in TemperatureGroup_append v168 "TD" RP_METAR md_default) (fun p => let v169 := Some (fst p) in let v170 := snd p in 
    chk 561 (Ok (AppendResult_beq v170 NOT_APPENDED)) (
    step 563 (let! v171 := deref v169 in TemperatureGroup_append v171 "MISG" RP_METAR md_default) (fun p => let v172 := Some (fst p) in let v173 := snd p in 
    chk 563 (Ok (AppendResult_beq v173 NOT_APPENDED)) (
    step 565 (let! v174 := deref v172 in TemperatureGroup_append v174 "RMK" RP_METAR md_default) (fun p => let v175 := Some (fst p) in let v176 := snd p in 
    chk 565 (Ok (AppendResult_beq v176 NOT_APPENDED)) (
    step 567 (let! v177 := deref v175 in TemperatureGroup_append v177 "TEST" RP_METAR md_default) (fun p => let v178 := Some (fst p) in let v179 := snd p in 
    chk 567 (Ok (AppendResult_beq v179 NOT_APPENDED)) (
    step 570 (let! v180 := deref v6 in TemperatureGroup_append v180 "07/03" RP_METAR md_default) (fun p => let v181 := Some (fst p) in let v182 := snd p in 
    chk 570 (Ok (AppendResult_beq v182 NOT_APPENDED)) (
    step 572 (let! v183 := deref v181 in TemperatureGroup_append v183 "02/M00" RP_METAR md_default) (fun p => let v184 := Some (fst p) in let v185 := snd p in 
    chk 572 (Ok (AppendResult_beq v185 NOT_APPENDED)) (
    step 574 (let! v186 := deref v184 in TemperatureGroup_append v186 "M03/M07" RP_METAR md_default) (fun p => let v187 := Some (fst p) in let v188 := snd p in 
    chk 574 (Ok (AppendResult_beq v188 NOT_APPENDED)) (
    step 576 (let! v189 := deref v187 in TemperatureGroup_append v189 "///12" RP_METAR md_default) (fun p => let v190 := Some (fst p) in let v191 := snd p in 
    chk 576 (Ok (AppendResult_beq v191 NOT_APPENDED)) (
    step 578 (let! v192 := deref v190 in TemperatureGroup_append v192 "00///" RP_METAR md_default) (fun p => let v193 := Some (fst p) in let v194 := snd p in 
    chk 578 (Ok (AppendResult_beq v194 NOT_APPENDED)) (
    step 580 (let! v195 := deref v193 in TemperatureGroup_append v195 "/////" RP_METAR md_default) (fun p => let v196 := Some (fst p) in let v197 := snd p in 
    chk 580 (Ok (AppendResult_beq v197 NOT_APPENDED)) (
    step 582 (let! v198 := deref v196 in TemperatureGroup_append v198 "T" RP_METAR md_default) (fun p => let v199 := Some (fst p) in let v200 := snd p in 
    chk 582 (Ok (AppendResult_beq v200 NOT_APPENDED)) (
    step 584 (let! v201 := deref v199 in TemperatureGroup_append v201 "TD" RP_METAR md_default) (fun p => let v202 := Some (fst p) in let v203 := snd p in 
    chk 584 (Ok (AppendResult_beq v203 NOT_APPENDED)) (
    step 586 (let! v204 := deref v202 in TemperatureGroup_append v204 "MISG" RP_METAR md_default) (fun p => let v205 := Some (fst p) in let v206 := snd p in 
    chk 586 (Ok (AppendResult_beq v206 NOT_APPENDED)) (
    step 588 (let! v207 := deref v205 in TemperatureGroup_append v207 "RMK" RP_METAR md_default) (fun p => let v208 := Some (fst p) in let v209 := snd p in 
    chk 588 (Ok (AppendResult_beq v209 NOT_APPENDED)) (
    step 590 (let! v210 := deref v208 in TemperatureGroup_append v210 "TEST" RP_METAR md_default) (fun p => let v211 := Some (fst p) in let v212 := snd p in 
    chk 590 (Ok (AppendResult_beq v212 NOT_APPENDED)) (
    step 593 (let! v213 := deref v9 in TemperatureGroup_append v213 "07/03" RP_RMK md_default) (fun p => let v214 := Some (fst p) in let v215 := snd p in 
    chk 593 (Ok (AppendResult_beq v215 NOT_APPENDED)) (
    step 595 (let! v216 := deref v214 in TemperatureGroup_append v216 "02/M00" RP_RMK md_default) (fun p => let v217 := Some (fst p) in let v218 := snd p in 
    chk 595 (Ok (AppendResult_beq v218 NOT_APPENDED)) (
    step 597 (let! v219 := deref v217 in TemperatureGroup_append v219 "M03/M07" RP_RMK md_default) (fun p => let v220 := Some (fst p) in let v221 := snd p in 
    chk 597 (Ok (AppendResult_beq v221 NOT_APPENDED)) (
    step 599 (let! v222 := deref v220 in TemperatureGroup_append v222 "///12" RP_RMK md_default) (fun p => let v223 := Some (fst p) in let v224 := snd p in 
    chk 599 (Ok (AppendResult_beq v224 NOT_APPENDED)) (
    step 601 (let! v225 := deref v223 in TemperatureGroup_append v225 "00///" RP_RMK md_default) (fun p => let v226 := Some (fst p) in let v227 := snd p in 
    chk 601 (Ok (AppendResult_beq v227 NOT_APPENDED)) (
    step 603 (let! v228 := deref v226 in TemperatureGroup_append v228 "/////" RP_RMK md_default) (fun p => let v229 := Some (fst p) in let v230 := snd p in 
    chk 603 (Ok (AppendResult_beq v230 NOT_APPENDED)) (
    step 605 (let! v231 := deref v229 in TemperatureGroup_append v231 "T" RP_RMK md_default) (fun p => let v232 := Some (fst p) in let v233 := snd p in 
    chk 605 (Ok (AppendResult_beq v233 NOT_APPENDED)) (
    step 607 (let! v234 := deref v232 in TemperatureGroup_append v234 "TD" RP_RMK md_default) (fun p => let v235 := Some (fst p) in let v236 := snd p in 
    chk 607 (Ok (AppendResult_beq v236 NOT_APPENDED)) (
    step 609 (let! v237 := deref v235 in TemperatureGroup_append v237 "MISG" RP_RMK md_default) (fun p => let v238 := Some (fst p) in let v239 := snd p in 
    chk 609 (Ok (AppendResult_beq v239 NOT_APPENDED)) (
    step 611 (let! v240 := deref v238 in TemperatureGroup_append v240 "RMK" RP_RMK md_default) (fun p => let v241 := Some (fst p) in let v242 := snd p in 
    chk 611 (Ok (AppendResult_beq v242 NOT_APPENDED)) (
    step 613 (let! v243 := deref v241 in TemperatureGroup_append v243 "TEST" RP_RMK md_default) (fun p => let v244 := Some (fst p) in let v245 := snd p in 
    chk 613 (Ok (AppendResult_beq v245 NOT_APPENDED)) (
    step 616 (let! v246 := deref v13 in TemperatureGroup_append v246 "07/03" RP_RMK md_default) (fun p => let v247 := Some (fst p) in let v248 := snd p in 
    chk 616 (Ok (AppendResult_beq v248 NOT_APPENDED)) (
    step 618 (let! v249 := deref v247 in TemperatureGroup_append v249 "02/M00" RP_RMK md_default) (fun p => let v250 := Some (fst p) in let v251 := snd p in 
    chk 618 (Ok (AppendResult_beq v251 NOT_APPENDED)) (
    step 620 (let! v252 := deref v250 in TemperatureGroup_append v252 "M03/M07" RP_RMK md_default) (fun p => let v253 := Some (fst p) in let v254 := snd p in 
    chk 620 (Ok (AppendResult_beq v254 NOT_APPENDED)) (
    step 622 (let! v255 := deref v253 in TemperatureGroup_append v255 "///12" RP_RMK md_default) (fun p => let v256 := Some (fst p) in let v257 := snd p in 
    chk 622 (Ok (AppendResult_beq v257 NOT_APPENDED)) (
    step 624 (let! v258 := deref v256 in TemperatureGroup_append v258 "00///" RP_RMK md_default) (fun p => let v259 := Some (fst p) in let v260 := snd p in 
    chk 624 (Ok (AppendResult_beq v260 NOT_APPENDED)) (
    step 626 (let! v261 := deref v259 in TemperatureGroup_append v261 "/////" RP_RMK md_default) (fun p => let v262 := Some (fst p) in let v263 := snd p in 
    chk 626 (Ok (AppendResult_beq v263 NOT_APPENDED)) (
    step 628 (let! v264 := deref v262 in TemperatureGroup_append v264 "T" RP_RMK md_default) (fun p => let v265 := Some (fst p) in let v266 := snd p in 
    chk 628 (Ok (AppendResult_beq v266 NOT_APPENDED)) (
    step 630 (let! v267 := deref v265 in TemperatureGroup_append v267 "TD" RP_RMK md_default) (fun p => let v268 := Some (fst p) in let v269 := snd p in 
    chk 630 (Ok (AppendResult_beq v269 NOT_APPENDED)) (
    step 632 (let! v270 := deref v268 in TemperatureGroup_append v270 "MISG" RP_RMK md_default) (fun p => let v271 := Some (fst p) in let v272 := snd p in 
    chk 632 (Ok (AppendResult_beq v272 NOT_APPENDED)) (
    step 634 (let! v273 := deref v271 in TemperatureGroup_append v273 "RMK" RP_RMK md_default) (fun p => let v274 := Some (fst p) in let v275 := snd p in 
    chk 634 (Ok (AppendResult_beq v275 NOT_APPENDED)) (
    step 636 (let! v276 := deref v274 in TemperatureGroup_append v276 "TEST" RP_RMK md_default) (fun p => let v277 := Some (fst p) in let v278 := snd p in 
    chk 636 (Ok (AppendResult_beq v278 NOT_APPENDED)) (
    None)))))))))))))))))))))))))))))))))))))))))))))))))))))))))))))))))))))))))))))))))))))))))))))))))))))))))))))))))))))))))))))))))))))))))))))))))))))))))))))))))))))))))))))))))))))))))))))))))))).

Example tests_temperaturegroup_pass : failures
  [("TemperatureGroup_parseTemperatureAndDewPoint", t_TemperatureGroup_parseTemperatureAndDewPoint);
   ("TemperatureGroup_parseTemperatureAndDewPointNegativeValues", t_TemperatureGroup_parseTemperatureAndDewPointNegativeValues);
   ("TemperatureGroup_parseTemperatureAndDewPointZero", t_TemperatureGroup_parseTemperatureAndDewPointZero);
   ("TemperatureGroup_parseTemperatureOnly", t_TemperatureGroup_parseTemperatureOnly);
   ("TemperatureGroup_parseDewPointNotReported", t_TemperatureGroup_parseDewPointNotReported);
   ("TemperatureGroup_parseNotReported", t_TemperatureGroup_parseNotReported);
   ("TemperatureGroup_parseWrongReportPart", t_TemperatureGroup_parseWrongReportPart);
   ("TemperatureGroup_parseWrongFormat", t_TemperatureGroup_parseWrongFormat);
   ("TemperatureGroup_parseRemark", t_TemperatureGroup_parseRemark);
   ("TemperatureGroup_parseRemarkTemperatureOnly", t_TemperatureGroup_parseRemarkTemperatureOnly);
   ("TemperatureGroup_parseRemarkWrongReportPart", t_TemperatureGroup_parseRemarkWrongReportPart);
   ("TemperatureGroup_parseRemarkWrongFormat", t_TemperatureGroup_parseRemarkWrongFormat);
   ("TemperatureGroup_tMisg", t_TemperatureGroup_tMisg);
   ("TemperatureGroup_appendOtherToT", t_TemperatureGroup_appendOtherToT);
   ("TemperatureGroup_tdMisg", t_TemperatureGroup_tdMisg);
   ("TemperatureGroup_appendOtherToTd", t_TemperatureGroup_appendOtherToTd);
   ("TemperatureGroup_parseMisg", t_TemperatureGroup_parseMisg);
   ("TemperatureGroup_isValidNotReported", t_TemperatureGroup_isValidNotReported);
   ("TemperatureGroup_isValidTrue", t_TemperatureGroup_isValidTrue);
   ("TemperatureGroup_isValidTrueZero", t_TemperatureGroup_isValidTrueZero);
   ("TemperatureGroup_isValidTrueTMisgTdMisg", t_TemperatureGroup_isValidTrueTMisgTdMisg);
   ("TemperatureGroup_isValidFalse", t_TemperatureGroup_isValidFalse);
   ("TemperatureGroup_isValidFalseTTd", t_TemperatureGroup_isValidFalseTTd);
   ("TemperatureGroup_relativeHumidity", t_TemperatureGroup_relativeHumidity);
   ("TemperatureGroup_append", t_TemperatureGroup_append)] = [].
Proof. vm_compute. reflexivity. Qed.
