(** Generated by tools/gen_tests.py from /repo/test/test_pressuregroup.cpp: the project's own unit tests, run
    against the model. These are tests of the model's fidelity, not properties. *)

From Verif Require Import Prim Regex Float Values Weather Groups1 Groups2 Groups3 Groups4 Parser TestLib.
Local Open Scope string_scope.
Local Open Scope bool_scope.

Definition t_PressureGroup_parseObservedInHg : option N :=
    step 20 ((PressureGroup_parse "A2724" RP_METAR md_default)) (fun v1 => 
    chk 21 (Ok (has_value v1)) (
    chk 22 (let! v2 := deref v1 in Ok (has_value (pressureValue (pg_p v2)))) (
    chk 23 (let! v3 := deref v1 in Ok (PressureUnit_beq (pressureUnit (pg_p v3)) INCHES_HG)) (
    chk 24 (let! v4 := deref v1 in let! v5 := deref (pressureValue (pg_p v4)) in Ok (near v5 (dlit (681) 25) (dlit (1) 200))) (
    chk 25 (let! v6 := deref v1 in Ok (PgType_beq (pg_t v6) Pg_OBSERVED_QNH)) (
    step 27 ((PressureGroup_parse "A2724" RP_RMK md_default)) (fun v7 => 
    chk 28 (Ok (has_value v7)) (
    chk 29 (let! v8 := deref v7 in Ok (has_value (pressureValue (pg_p v8)))) (
    chk 30 (let! v9 := deref v7 in Ok (PressureUnit_beq (pressureUnit (pg_p v9)) INCHES_HG)) (
    chk 31 (let! v10 := deref v7 in let! v11 := deref (pressureValue (pg_p v10)) in Ok (near v11 (dlit (681) 25) (dlit (1) 200))) (
    chk 32 (let! v12 := deref v7 in Ok (PgType_beq (pg_t v12) Pg_OBSERVED_QNH)) (
    None)))))))))))).

Definition t_PressureGroup_parseObservedInHgNotReported : option N :=
    step 36 ((PressureGroup_parse "A////" RP_METAR md_default)) (fun v1 => 
    chk 37 (Ok (has_value v1)) (
    chk 38 (let! v2 := deref v1 in Ok (negb (has_value (pressureValue (pg_p v2))))) (
    chk 39 (let! v3 := deref v1 in Ok (PressureUnit_beq (pressureUnit (pg_p v3)) INCHES_HG)) (
    chk 40 (let! v4 := deref v1 in Ok (PgType_beq (pg_t v4) Pg_OBSERVED_QNH)) (
    step 42 ((PressureGroup_parse "A////" RP_RMK md_default)) (fun v5 => 
    chk 43 (Ok (has_value v5)) (
    chk 44 (let! v6 := deref v5 in Ok (negb (has_value (pressureValue (pg_p v6))))) (
    chk 45 (let! v7 := deref v5 in Ok (PressureUnit_beq (pressureUnit (pg_p v7)) INCHES_HG)) (
    chk 46 (let! v8 := deref v5 in Ok (PgType_beq (pg_t v8) Pg_OBSERVED_QNH)) (
    None)))))))))).

Definition t_PressureGroup_parseObservedHectopascal : option N :=
    step 50 ((PressureGroup_parse "Q1033" RP_METAR md_default)) (fun v1 => 
    chk 51 (Ok (has_value v1)) (
    chk 52 (let! v2 := deref v1 in Ok (has_value (pressureValue (pg_p v2)))) (
    chk 53 (let! v3 := deref v1 in Ok (PressureUnit_beq (pressureUnit (pg_p v3)) HECTOPASCAL)) (
    chk 54 (let! v4 := deref v1 in let! v5 := deref (pressureValue (pg_p v4)) in Ok (near v5 (dlit (1033) 1) (dlit (1) 200))) (
    chk 55 (let! v6 := deref v1 in Ok (PgType_beq (pg_t v6) Pg_OBSERVED_QNH)) (
    step 57 ((PressureGroup_parse "Q1033" RP_RMK md_default)) (fun v7 => 
    chk 58 (Ok (has_value v7)) (
    chk 59 (let! v8 := deref v7 in Ok (has_value (pressureValue (pg_p v8)))) (
    chk 60 (let! v9 := deref v7 in Ok (PressureUnit_beq (pressureUnit (pg_p v9)) HECTOPASCAL)) (
    chk 61 (let! v10 := deref v7 in let! v11 := deref (pressureValue (pg_p v10)) in Ok (near v11 (dlit (1033) 1) (dlit (1) 200))) (
    chk 62 (let! v12 := deref v7 in Ok (PgType_beq (pg_t v12) Pg_OBSERVED_QNH)) (
    None)))))))))))).

Definition t_PressureGroup_parseObservedHectopascalNotReported : option N :=
    step 66 ((PressureGroup_parse "Q////" RP_METAR md_default)) (fun v1 => 
    chk 67 (Ok (has_value v1)) (
    chk 68 (let! v2 := deref v1 in Ok (negb (has_value (pressureValue (pg_p v2))))) (
    chk 69 (let! v3 := deref v1 in Ok (PressureUnit_beq (pressureUnit (pg_p v3)) HECTOPASCAL)) (
    chk 70 (let! v4 := deref v1 in Ok (PgType_beq (pg_t v4) Pg_OBSERVED_QNH)) (
    step 72 ((PressureGroup_parse "Q////" RP_METAR md_default)) (fun v5 => 
    chk 73 (Ok (has_value v5)) (
    chk 74 (let! v6 := deref v5 in Ok (negb (has_value (pressureValue (pg_p v6))))) (
    chk 75 (let! v7 := deref v5 in Ok (PressureUnit_beq (pressureUnit (pg_p v7)) HECTOPASCAL)) (
    chk 76 (let! v8 := deref v5 in Ok (PgType_beq (pg_t v8) Pg_OBSERVED_QNH)) (
    None)))))))))).

Definition t_PressureGroup_parseObservedWrongReportPart : option N :=
    chk 80 (let! v1 := (PressureGroup_parse "Q1033" RP_UNKNOWN md_default) in Ok (negb (has_value v1))) (
    chk 81 (let! v2 := (PressureGroup_parse "Q1033" RP_HEADER md_default) in Ok (negb (has_value v2))) (
    chk 82 (let! v3 := (PressureGroup_parse "Q1033" RP_TAF md_default) in Ok (negb (has_value v3))) (
    None))).

Definition t_PressureGroup_parseObservedWrongFormat : option N :=
    chk 86 (let! v1 := (PressureGroup_parse "Q01033" RP_METAR md_default) in Ok (negb (has_value v1))) (
    chk 87 (let! v2 := (PressureGroup_parse "Q999" RP_METAR md_default) in Ok (negb (has_value v2))) (
    chk 88 (let! v3 := (PressureGroup_parse "A02724" RP_METAR md_default) in Ok (negb (has_value v3))) (
    chk 89 (let! v4 := (PressureGroup_parse "A272" RP_METAR md_default) in Ok (negb (has_value v4))) (
    chk 90 (let! v5 := (PressureGroup_parse "Z2724" RP_METAR md_default) in Ok (negb (has_value v5))) (
    chk 91 (let! v6 := (PressureGroup_parse "A272A" RP_METAR md_default) in Ok (negb (has_value v6))) (
    chk 92 (let! v7 := (PressureGroup_parse "Q101A" RP_METAR md_default) in Ok (negb (has_value v7))) (
    chk 93 (let! v8 := (PressureGroup_parse "1000" RP_METAR md_default) in Ok (negb (has_value v8))) (
    chk 94 (let! v9 := (PressureGroup_parse "////" RP_METAR md_default) in Ok (negb (has_value v9))) (
    chk 95 (let! v10 := (PressureGroup_parse "A///" RP_METAR md_default) in Ok (negb (has_value v10))) (
    chk 96 (let! v11 := (PressureGroup_parse "A/////" RP_METAR md_default) in Ok (negb (has_value v11))) (
    chk 97 (let! v12 := (PressureGroup_parse "Q///" RP_METAR md_default) in Ok (negb (has_value v12))) (
    chk 98 (let! v13 := (PressureGroup_parse "Q/////" RP_METAR md_default) in Ok (negb (has_value v13))) (
    None))))))))))))).

Definition t_PressureGroup_parseForecast : option N :=
    step 108 ((PressureGroup_parse "QNH2957INS" RP_TAF md_default)) (fun v1 => 
    chk 109 (Ok (has_value v1)) (
    chk 110 (let! v2 := deref v1 in Ok (has_value (pressureValue (pg_p v2)))) (
    chk 111 (let! v3 := deref v1 in Ok (PressureUnit_beq (pressureUnit (pg_p v3)) INCHES_HG)) (
    chk 112 (let! v4 := deref v1 in let! v5 := deref (pressureValue (pg_p v4)) in Ok (near v5 (dlit (2957) 100) (dlit (1) 200))) (
    chk 113 (let! v6 := deref v1 in Ok (PgType_beq (pg_t v6) Pg_FORECAST_LOWEST_QNH)) (
    None)))))).

Definition t_PressureGroup_parseForecastWrongReportPart : option N :=
    chk 117 (let! v1 := (PressureGroup_parse "QNH2957INS" RP_UNKNOWN md_default) in Ok (negb (has_value v1))) (
    chk 118 (let! v2 := (PressureGroup_parse "QNH2957INS" RP_HEADER md_default) in Ok (negb (has_value v2))) (
    chk 119 (let! v3 := (PressureGroup_parse "QNH2957INS" RP_METAR md_default) in Ok (negb (has_value v3))) (
    chk 120 (let! v4 := (PressureGroup_parse "QNH2957INS" RP_RMK md_default) in Ok (negb (has_value v4))) (
    None)))).

Definition t_PressureGroup_parseForecastWrongFormat : option N :=
    chk 124 (let! v1 := (PressureGroup_parse "XNH2979INS" RP_TAF md_default) in Ok (negb (has_value v1))) (
    chk 125 (let! v2 := (PressureGroup_parse "QNH2979ANS" RP_TAF md_default) in Ok (negb (has_value v2))) (
    chk 126 (let! v3 := (PressureGroup_parse "QNH297INS" RP_TAF md_default) in Ok (negb (has_value v3))) (
    chk 127 (let! v4 := (PressureGroup_parse "QNH02979INS" RP_TAF md_default) in Ok (negb (has_value v4))) (
    chk 128 (let! v5 := (PressureGroup_parse "QNH////INS" RP_TAF md_default) in Ok (negb (has_value v5))) (
    None))))).

Definition t_PressureGroup_parseSlpRemark : option N :=
    step 138 ((PressureGroup_parse "SLP982" RP_RMK md_default)) (fun v1 => 
    chk 139 (Ok (has_value v1)) (
    chk 140 (let! v2 := deref v1 in let! v3 := deref (pressureValue (pg_p v2)) in Ok (near v3 (dlit (4991) 5) (dlit (1) 200))) (
    chk 141 (let! v4 := deref v1 in Ok (PressureUnit_beq (pressureUnit (pg_p v4)) HECTOPASCAL)) (
    chk 142 (let! v5 := deref v1 in Ok (PgType_beq (pg_t v5) Pg_OBSERVED_SLP)) (
    None))))).

Definition t_PressureGroup_parseSlpRemarkWrongReportPart : option N :=
    chk 146 (let! v1 := (PressureGroup_parse "SLP982" RP_UNKNOWN md_default) in Ok (negb (has_value v1))) (
    chk 147 (let! v2 := (PressureGroup_parse "SLP982" RP_HEADER md_default) in Ok (negb (has_value v2))) (
    chk 148 (let! v3 := (PressureGroup_parse "SLP982" RP_METAR md_default) in Ok (negb (has_value v3))) (
    chk 149 (let! v4 := (PressureGroup_parse "SLP982" RP_TAF md_default) in Ok (negb (has_value v4))) (
    None)))).

Definition t_PressureGroup_parseSlpRemarkWrongFormat : option N :=
    chk 153 (let! v1 := (PressureGroup_parse "SL0015" RP_RMK md_default) in Ok (negb (has_value v1))) (
    chk 154 (let! v2 := (PressureGroup_parse "SLP" RP_RMK md_default) in Ok (negb (has_value v2))) (
    chk 155 (let! v3 := (PressureGroup_parse "XLP215" RP_RMK md_default) in Ok (negb (has_value v3))) (
    chk 156 (let! v4 := (PressureGroup_parse "SLPA15" RP_RMK md_default) in Ok (negb (has_value v4))) (
    chk 157 (let! v5 := (PressureGroup_parse "SLP01A" RP_RMK md_default) in Ok (negb (has_value v5))) (
    chk 158 (let! v6 := (PressureGroup_parse "SLP///" RP_RMK md_default) in Ok (negb (has_value v6))) (
    chk 159 (let! v7 := (PressureGroup_parse "SLP215A" RP_RMK md_default) in Ok (negb (has_value v7))) (
    chk 160 (let! v8 := (PressureGroup_parse "SLP2" RP_RMK md_default) in Ok (negb (has_value v8))) (
    chk 161 (let! v9 := (PressureGroup_parse "SLP21" RP_RMK md_default) in Ok (negb (has_value v9))) (
    chk 162 (let! v10 := (PressureGroup_parse "SLP0215" RP_RMK md_default) in Ok (negb (has_value v10))) (
    None)))))))))).

Definition t_PressureGroup_parseQfeRemark : option N :=
    step 173 ((PressureGroup_parse "QFE750" RP_RMK md_default)) (fun v1 => 
    chk 174 (Ok (has_value v1)) (
    chk 175 (let! v2 := deref v1 in let! v3 := deref (pressureValue (pg_p v2)) in Ok (near v3 (dlit (750) 1) (dlit (1) 200))) (
    chk 176 (let! v4 := deref v1 in Ok (PressureUnit_beq (pressureUnit (pg_p v4)) MM_HG)) (
    chk 177 (let! v5 := deref v1 in Ok (PgType_beq (pg_t v5) Pg_OBSERVED_QFE)) (
    step 179 ((PressureGroup_parse "QFE761/1015" RP_RMK md_default)) (fun v6 => 
    chk 180 (Ok (has_value v6)) (
    chk 181 (let! v7 := deref v6 in let! v8 := deref (pressureValue (pg_p v7)) in Ok (near v8 (dlit (761) 1) (dlit (1) 200))) (
    chk 182 (let! v9 := deref v6 in Ok (PressureUnit_beq (pressureUnit (pg_p v9)) MM_HG)) (
    chk 183 (let! v10 := deref v6 in Ok (PgType_beq (pg_t v10) Pg_OBSERVED_QFE)) (
    None)))))))))).

Definition t_PressureGroup_parseQfeRemarkWrongReportPart : option N :=
    chk 187 (let! v1 := (PressureGroup_parse "QFE750" RP_UNKNOWN md_default) in Ok (negb (has_value v1))) (
    chk 188 (let! v2 := (PressureGroup_parse "QFE750" RP_HEADER md_default) in Ok (negb (has_value v2))) (
    chk 189 (let! v3 := (PressureGroup_parse "QFE750" RP_METAR md_default) in Ok (negb (has_value v3))) (
    chk 190 (let! v4 := (PressureGroup_parse "QFE750" RP_TAF md_default) in Ok (negb (has_value v4))) (
    None)))).

Definition t_PressureGroup_parseQfeRemarkWrongFormat : option N :=
    chk 194 (let! v1 := (PressureGroup_parse "" RP_RMK md_default) in Ok (negb (has_value v1))) (
    chk 195 (let! v2 := (PressureGroup_parse "QF0755" RP_RMK md_default) in Ok (negb (has_value v2))) (
    chk 196 (let! v3 := (PressureGroup_parse "QFE" RP_RMK md_default) in Ok (negb (has_value v3))) (
    chk 197 (let! v4 := (PressureGroup_parse "XFE755" RP_RMK md_default) in Ok (negb (has_value v4))) (
    chk 198 (let! v5 := (PressureGroup_parse "QFEA55" RP_RMK md_default) in Ok (negb (has_value v5))) (
    chk 199 (let! v6 := (PressureGroup_parse "QFE75A" RP_RMK md_default) in Ok (negb (has_value v6))) (
    chk 200 (let! v7 := (PressureGroup_parse "QFE///" RP_RMK md_default) in Ok (negb (has_value v7))) (
    chk 201 (let! v8 := (PressureGroup_parse "QFE75A" RP_RMK md_default) in Ok (negb (has_value v8))) (
    chk 202 (let! v9 := (PressureGroup_parse "QFE7" RP_RMK md_default) in Ok (negb (has_value v9))) (
    chk 203 (let! v10 := (PressureGroup_parse "QFE75" RP_RMK md_default) in Ok (negb (has_value v10))) (
    chk 204 (let! v11 := (PressureGroup_parse "QFE0755" RP_RMK md_default) in Ok (negb (has_value v11))) (
    chk 205 (let! v12 := (PressureGroup_parse "QFE0755/" RP_RMK md_default) in Ok (negb (has_value v12))) (
    chk 206 (let! v13 := (PressureGroup_parse "QFE0755/999" RP_RMK md_default) in Ok (negb (has_value v13))) (
    chk 207 (let! v14 := (PressureGroup_parse "QFE0755/01000" RP_RMK md_default) in Ok (negb (has_value v14))) (
    chk 208 (let! v15 := (PressureGroup_parse "QFE0755.1015" RP_RMK md_default) in Ok (negb (has_value v15))) (
    chk 209 (let! v16 := (PressureGroup_parse "QFE0755:1015" RP_RMK md_default) in Ok (negb (has_value v16))) (
    chk 210 (let! v17 := (PressureGroup_parse "QFE////1015" RP_RMK md_default) in Ok (negb (has_value v17))) (
    chk 211 (let! v18 := (PressureGroup_parse "QFE755/////" RP_RMK md_default) in Ok (negb (has_value v18))) (
    chk 212 (let! v19 := (PressureGroup_parse "QFE////////" RP_RMK md_default) in Ok (negb (has_value v19))) (
    chk 213 (let! v20 := (PressureGroup_parse "QFE76A/1015" RP_RMK md_default) in Ok (negb (has_value v20))) (
    chk 214 (let! v21 := (PressureGroup_parse "QFEA61/1015" RP_RMK md_default) in Ok (negb (has_value v21))) (
    chk 215 (let! v22 := (PressureGroup_parse "QFE761/A015" RP_RMK md_default) in Ok (negb (has_value v22))) (
    chk 216 (let! v23 := (PressureGroup_parse "QFE761/101A" RP_RMK md_default) in Ok (negb (has_value v23))) (
    chk 217 (let! v24 := (PressureGroup_parse "QFE761Q/1015" RP_RMK md_default) in Ok (negb (has_value v24))) (
    chk 218 (let! v25 := (PressureGroup_parse "QFE761/1015Q" RP_RMK md_default) in Ok (negb (has_value v25))) (
    None))))))))))))))))))))))))).

Definition t_PressureGroup_parseSlpno : option N :=
    step 227 ((PressureGroup_parse "SLPNO" RP_RMK md_default)) (fun v1 => 
    chk 228 (Ok (has_value v1)) (
    chk 229 (let! v2 := deref v1 in Ok (negb (Pressure_isReported (pg_p v2)))) (
    chk 230 (let! v3 := deref v1 in Ok (PgType_beq (pg_t v3) Pg_SLPNO)) (
    None)))).

Definition t_PressureGroup_parseSlpnoWrongReportPart : option N :=
    chk 234 (let! v1 := (PressureGroup_parse "SLPNO" RP_UNKNOWN md_default) in Ok (negb (has_value v1))) (
    chk 235 (let! v2 := (PressureGroup_parse "SLPNO" RP_HEADER md_default) in Ok (negb (has_value v2))) (
    chk 236 (let! v3 := (PressureGroup_parse "SLPNO" RP_METAR md_default) in Ok (negb (has_value v3))) (
    chk 237 (let! v4 := (PressureGroup_parse "SLPNO" RP_TAF md_default) in Ok (negb (has_value v4))) (
    None)))).

Definition t_PressureGroup_parsePresMisg : option N :=
    step 246 ((PressureGroup_parse "PRES" RP_RMK md_default)) (fun v1 => 
    chk 247 (Ok (has_value v1)) (
    step 248 (let! v2 := deref v1 in PressureGroup_append v2 "MISG" RP_RMK md_default) (fun p => let v3 := Some (fst p) in let v4 := snd p in 
    chk 248 (Ok (AppendResult_beq v4 APPENDED)) (
    step 249 (let! v5 := deref v3 in PressureGroup_append v5 "" RP_RMK md_default) (fun p => let v6 := Some (fst p) in let v7 := snd p in 
    chk 249 (Ok (AppendResult_beq v7 NOT_APPENDED)) (
    chk 251 (let! v8 := deref v6 in Ok (PgType_beq (pg_t v8) Pg_PRES_MISG)) (
    chk 252 (let! v9 := deref v6 in Ok (negb (Pressure_isReported (pg_p v9)))) (
    None)))))))).

Definition t_PressureGroup_parsePresWrongReportPart : option N :=
    chk 256 (let! v1 := (PressureGroup_parse "PRES" RP_UNKNOWN md_default) in Ok (negb (has_value v1))) (
    chk 257 (let! v2 := (PressureGroup_parse "PRES" RP_HEADER md_default) in Ok (negb (has_value v2))) (
    chk 258 (let! v3 := (PressureGroup_parse "PRES" RP_METAR md_default) in Ok (negb (has_value v3))) (
    chk 259 (let! v4 := (PressureGroup_parse "PRES" RP_TAF md_default) in Ok (negb (has_value v4))) (
    None)))).

Definition t_PressureGroup_parseMisg : option N :=
    chk 263 (let! v1 := (PressureGroup_parse "MISG" RP_UNKNOWN md_default) in Ok (negb (has_value v1))) (
    chk 264 (let! v2 := (PressureGroup_parse "MISG" RP_HEADER md_default) in Ok (negb (has_value v2))) (
    chk 265 (let! v3 := (PressureGroup_parse "MISG" RP_METAR md_default) in Ok (negb (has_value v3))) (
    chk 266 (let! v4 := (PressureGroup_parse "MISG" RP_TAF md_default) in Ok (negb (has_value v4))) (
    chk 267 (let! v5 := (PressureGroup_parse "MISG" RP_RMK md_default) in Ok (negb (has_value v5))) (
    None))))).

Definition t_PressureGroup_appendOtherToPres : option N :=
    step 271 ((PressureGroup_parse "PRES" RP_RMK md_default)) (fun v1 => 
    chk 272 (Ok (has_value v1)) (
    step 273 (let! v2 := deref v1 in PressureGroup_append v2 "" RP_RMK md_default) (fun p => let v3 := Some (fst p) in let v4 := snd p in 
    chk 273 (Ok (AppendResult_beq v4 GROUP_INVALIDATED)) (
    step 275 ((PressureGroup_parse "PRES" RP_RMK md_default)) (fun v5 => 
    chk 276 (Ok (has_value v5)) (
    step 277 (let! v6 := deref v5 in PressureGroup_append v6 "A2974" RP_RMK md_default) (fun p => let v7 := Some (fst p) in let v8 := snd p in 
    chk 277 (Ok (AppendResult_beq v8 GROUP_INVALIDATED)) (
    step 279 ((PressureGroup_parse "PRES" RP_RMK md_default)) (fun v9 => 
    chk 280 (Ok (has_value v9)) (
    step 281 (let! v10 := deref v9 in PressureGroup_append v10 "Q0991" RP_RMK md_default) (fun p => let v11 := Some (fst p) in let v12 := snd p in 
    chk 281 (Ok (AppendResult_beq v12 GROUP_INVALIDATED)) (
    step 283 ((PressureGroup_parse "PRES" RP_RMK md_default)) (fun v13 => 
    chk 284 (Ok (has_value v13)) (
    step 285 (let! v14 := deref v13 in PressureGroup_append v14 "QFE750" RP_RMK md_default) (fun p => let v15 := Some (fst p) in let v16 := snd p in 
    chk 285 (Ok (AppendResult_beq v16 GROUP_INVALIDATED)) (
    step 287 ((PressureGroup_parse "PRES" RP_RMK md_default)) (fun v17 => 
    chk 288 (Ok (has_value v17)) (
    step 289 (let! v18 := deref v17 in PressureGroup_append v18 "PRES" RP_RMK md_default) (fun p => let v19 := Some (fst p) in let v20 := snd p in 
    chk 289 (Ok (AppendResult_beq v20 GROUP_INVALIDATED)) (
    None)))))))))))))))))))).

Definition t_PressureGroup_append : option N :=
    step 311 ((PressureGroup_parse "A2724" RP_METAR md_default)) (fun v1 => 
    chk 312 (Ok (has_value v1)) (
    step 314 ((PressureGroup_parse "Q1033" RP_METAR md_default)) (fun v2 => 
    chk 315 (Ok (has_value v2)) (
    step 317 ((PressureGroup_parse "A////" RP_METAR md_default)) (fun v3 => 
    chk 318 (Ok (has_value v3)) (
    step 320 ((PressureGroup_parse "Q////" RP_METAR md_default)) (fun v4 => 
    chk 321 (Ok (has_value v4)) (
    step 323 ((PressureGroup_parse "QNH2957INS" RP_TAF md_default)) (fun v5 => 
    chk 324 (Ok (has_value v5)) (
    step 326 ((PressureGroup_parse "QFE750" RP_RMK md_default)) (fun v6 => 
    chk 327 (Ok (has_value v6)) (
    step 329 ((PressureGroup_parse "QFE761/1015" RP_RMK md_default)) (fun v7 => 
    chk 330 (Ok (has_value v7)) (
    step 332 ((PressureGroup_parse "SLPNO" RP_RMK md_default)) (fun v8 => 
    chk 333 (Ok (has_value v8)) (
    step 335 ((PressureGroup_parse "PRES" RP_RMK md_default)) (fun v9 => 
    chk 336 (Ok (has_value v9)) (
    step 337 (let! v10 := deref v9 in PressureGroup_append v10 "MISG" RP_RMK md_default) (fun p => let v11 := Some (fst p) in let v12 := snd p in 
    chk 337 (Ok (AppendResult_beq v12 APPENDED)) (
    step 339 (let! v13 := deref v1 in PressureGroup_append v13 "A2724" RP_METAR md_default) (fun p => let v14 := Some (fst p) in let v15 := snd p in 
    chk 339 (Ok (AppendResult_beq v15 NOT_APPENDED)) (
    step 340 (let! v16 := deref v14 in PressureGroup_append v16 "Q1033" RP_METAR md_default) (fun p => let v17 := Some (fst p) in let v18 := snd p in 
    chk 340 (Ok (AppendResult_beq v18 NOT_APPENDED)) (
    step 341 (let! v19 := deref v17 in PressureGroup_append v19 "A////" RP_METAR md_default) (fun p => let v20 := Some (fst p) in let v21 := snd p in 
    chk 341 (Ok (AppendResult_beq v21 NOT_APPENDED)) (
    step 342 (let! v22 := deref v20 in PressureGroup_append v22 "Q////" RP_METAR md_default) (fun p => let v23 := Some (fst p) in let v24 := snd p in 
    chk 342 (Ok (AppendResult_beq v24 NOT_APPENDED)) (
    step 343 (let! v25 := deref v23 in PressureGroup_append v25 "QNH2957INS" RP_METAR md_default) (fun p => let v26 := Some (fst p) in let v27 := snd p in 
    chk 343 (Ok (AppendResult_beq v27 NOT_APPENDED)) (
    step 344 (let! v28 := deref v26 in PressureGroup_append v28 "QFE750" RP_METAR md_default) (fun p => let v29 := Some (fst p) in let v30 := snd p in 
    chk 344 (Ok (AppendResult_beq v30 NOT_APPENDED)) (
    step 345 (let! v31 := deref v29 in PressureGroup_append v31 "QFE761/1015" RP_METAR md_default) (fun p => let v32 := Some (fst p) in let v33 := snd p in 
    chk 345 (Ok (AppendResult_beq v33 NOT_APPENDED)) (
    step 346 (let! v34 := deref v32 in PressureGroup_append v34 "SLPNO" RP_METAR md_default) (fun p => let v35 := Some (fst p) in let v36 := snd p in 
    chk 346 (Ok (AppendResult_beq v36 NOT_APPENDED)) (
    step 347 (let! v37 := deref v35 in PressureGroup_append v37 "PRES" RP_METAR md_default) (fun p => let v38 := Some (fst p) in let v39 := snd p in 
    chk 347 (Ok (AppendResult_beq v39 NOT_APPENDED)) (
    step 348 (let! v40 := deref v38 in PressureGroup_append v40 "MISG" RP_METAR md_default) (fun p => let v41 := Some (fst p) in let v42 := snd p in 
    chk 348 (Ok (AppendResult_beq v42 NOT_APPENDED)) (
    step 349 (let! v43 := deref v41 in PressureGroup_append v43 "RMK" RP_METAR md_default) (fun p => let v44 := Some (fst p) in let v45 := snd p in 
    chk 349 (Ok (AppendResult_beq v45 NOT_APPENDED)) (
    step 350 (let! v46 := deref v44 in PressureGroup_append v46 "TEST" RP_METAR md_default) (fun p => let v47 := Some (fst p) in let v48 := snd p in 
    chk 350 (Ok (AppendResult_beq v48 NOT_APPENDED)) (
    step 352 (let! v49 := deref v2 in PressureGroup_append v49 "A2724" RP_METAR md_default) (fun p => let v50 := Some (fst p) in let v51 := snd p in 
    chk 352 (Ok (AppendResult_beq v51 NOT_APPENDED)) (
    step 353 (let! v52 := deref v50 in PressureGroup_append v52 "Q1033" RP_METAR md_default) (fun p => let v53 := Some (fst p) in let v54 := snd p in 
    chk 353 (Ok (AppendResult_beq v54 NOT_APPENDED)) (
    step 354 (let! v55 := deref v53 in PressureGroup_append v55 "A////" RP_METAR md_default) (fun p => let v56 := Some (fst p) in let v57 := snd p in 
    chk 354 (Ok (AppendResult_beq v57 NOT_APPENDED)) (
    step 355 (let! v58 := deref v56 in PressureGroup_append v58 "Q////" RP_METAR md_default) (fun p => let v59 := Some (fst p) in let v60 := snd p in 
    chk 355 (Ok (AppendResult_beq v60 NOT_APPENDED)) (
    step 356 (let! v61 := deref v59 in PressureGroup_append v61 "QNH2957INS" RP_METAR md_default) (fun p => let v62 := Some (fst p) in let v63 := snd p in 
    chk 356 (Ok (AppendResult_beq v63 NOT_APPENDED)) (
    step 357 (let! v64 := deref v62 in PressureGroup_append v64 "QFE750" RP_METAR md_default) (fun p => let v65 := Some (fst p) in let v66 := snd p in 
    chk 357 (Ok (AppendResult_beq v66 NOT_APPENDED)) (
    step 358 (let! v67 := deref v65 in PressureGroup_append v67 "QFE761/1015" RP_METAR md_default) (fun p => let v68 := Some (fst p) in let v69 := snd p in 
    chk 358 (Ok (AppendResult_beq v69 NOT_APPENDED)) (
    step 359 (let! v70 := deref v68 in PressureGroup_append v70 "SLPNO" RP_METAR md_default) (fun p => let v71 := Some (fst p) in let v72 := snd p in 
    chk 359 (Ok (AppendResult_beq v72 NOT_APPENDED)) (
    step 360 (let! v73 := deref v71 in PressureGroup_append v73 "PRES" RP_METAR md_default) (fun p => let v74 := Some (fst p) in let v75 := snd p in 
    chk 360 (Ok (AppendResult_beq v75 NOT_APPENDED)) (
    step 361 (let! v76 := deref v74 in PressureGroup_append v76 "MISG" RP_METAR md_default) (fun p => let v77 := Some (fst p) in let v78 := snd p in 
    chk 361 (Ok (AppendResult_beq v78 NOT_APPENDED)) (
    step 362 (let! v79 := deref v77 in PressureGroup_append v79 "RMK" RP_METAR md_default) (fun p => let v80 := Some (fst p) in let v81 := snd p in 
    chk 362 (Ok (AppendResult_beq v81 NOT_APPENDED)) (
    step 363 (let! v82 := deref v80 in PressureGroup_append v82 "TEST" RP_METAR md_default) (fun p => let v83 := Some (fst p) in let v84 := snd p in 
    chk 363 (Ok (AppendResult_beq v84 NOT_APPENDED)) (
    step 365 (let! v85 := deref v3 in PressureGroup_append v85 "A2724" RP_TAF md_default) (fun p => let v86 := Some (fst p) in let v87 := snd p in 
    chk 365 (Ok (AppendResult_beq v87 NOT_APPENDED)) (
    step 366 (let! v88 := deref v86 in PressureGroup_append v88 "Q1033" RP_TAF md_default) (fun p => let v89 := Some (fst p) in let v90 := snd p in 
    chk 366 (Ok (AppendResult_beq v90 NOT_APPENDED)) (
    step 367 (let! v91 := deref v89 in PressureGroup_append v91 "A////" RP_TAF md_default) (fun p => let v92 := Some (fst p) in let v93 := snd p in 
    chk 367 (Ok (AppendResult_beq v93 NOT_APPENDED)) (
    step 368 (let! v94 := deref v92 in PressureGroup_append v94 "Q////" RP_TAF md_default) (fun p => let v95 := Some (fst p) in let v96 := snd p in 
    chk 368 (Ok (AppendResult_beq v96 NOT_APPENDED)) (
    step 369 (let! v97 := deref v95 in PressureGroup_append v97 "QNH2957INS" RP_TAF md_default) (fun p => let v98 := Some (fst p) in let v99 := snd p in 
    chk 369 (Ok (AppendResult_beq v99 NOT_APPENDED)) (
    step 370 (let! v100 := deref v98 in PressureGroup_append v100 "QFE750" RP_TAF md_default) (fun p => let v101 := Some (fst p) in let v102 := snd p in 
    chk 370 (Ok (AppendResult_beq v102 NOT_APPENDED)) (
    step 371 (let! v103 := deref v101 in PressureGroup_append v103 "QFE761/1015" RP_TAF md_default) (fun p => let v104 := Some (fst p) in let v105 := snd p in 
    chk 371 (Ok (AppendResult_beq v105 NOT_APPENDED)) (
    step 372 (let! v106 := deref v104 in PressureGroup_append v106 "SLPNO" RP_TAF md_default) (fun p => let v107 := Some (fst p) in let v108 := snd p in 
    chk 372 (Ok (AppendResult_beq v108 NOT_APPENDED)) (
    step 373 (let! v109 := deref v107 in PressureGroup_append v109 "PRES" RP_TAF md_default) (fun p => let v110 := Some (fst p) in let v111 := snd p in 
    chk 373 (Ok (AppendResult_beq v111 NOT_APPENDED)) (
    step 374 (let! v112 := deref v110 in PressureGroup_append v112 "MISG" RP_TAF md_default) (fun p => let v113 := Some (fst p) in let v114 := snd p in 
    chk 374 (Ok (AppendResult_beq v114 NOT_APPENDED)) (
    step 375 (let! v115 := deref v113 in PressureGroup_append v115 "RMK" RP_TAF md_default) (fun p => let v116 := Some (fst p) in let v117 := snd p in 
    chk 375 (Ok (AppendResult_beq v117 NOT_APPENDED)) (
    step 376 (let! v118 := deref v116 in PressureGroup_append v118 "TEST" RP_TAF md_default) (fun p => let v119 := Some (fst p) in let v120 := snd p in 
    chk 376 (Ok (AppendResult_beq v120 NOT_APPENDED)) (
    step 378 (let! v121 := deref v4 in PressureGroup_append v121 "A2724" RP_RMK md_default) (fun p => let v122 := Some (fst p) in let v123 := snd p in 
    chk 378 (Ok (AppendResult_beq v123 NOT_APPENDED)) (
    step 379 (let! v124 := deref v122 in PressureGroup_append v124 "Q1033" RP_RMK md_default) (fun p => let v125 := Some (fst p) in let v126 := snd p in 
    chk 379 (Ok (AppendResult_beq v126 NOT_APPENDED)) (
    step 380 (let! v127 := deref v125 in PressureGroup_append v127 "A////" RP_RMK md_default) (fun p => let v128 := Some (fst p) in let v129 := snd p in 
    chk 380 (Ok (AppendResult_beq v129 NOT_APPENDED)) (
    step 381 (let! v130 := deref v128 in PressureGroup_append v130 "Q////" RP_RMK md_default) (fun p => let v131 := Some (fst p) in let v132 := snd p in 
    chk 381 (Ok (AppendResult_beq v132 NOT_APPENDED)) (
    step 382 (let! v133 := deref v131 in PressureGroup_append v133 "QNH2957INS" RP_RMK md_default) (fun p => let v134 := Some (fst p) in let v135 := snd p in 
    chk 382 (Ok (AppendResult_beq v135 NOT_APPENDED)) (
    step 383 (let! v136 := deref v134 in PressureGroup_append v136 "QFE750" RP_RMK md_default) (fun p => let v137 := Some (fst p) in let v138 := snd p in 
    chk 383 (Ok (AppendResult_beq v138 NOT_APPENDED)) (
    step 384 (let! v139 := deref v137 in PressureGroup_append v139 "QFE761/1015" RP_RMK md_default) (fun p => let v140 := Some (fst p) in let v141 := snd p in 
    chk 384 (Ok (AppendResult_beq v141 NOT_APPENDED)) (
    step 385 (let! v142 := deref v140 in PressureGroup_append v142 "SLPNO" RP_RMK md_default) (fun p => let v143 := Some (fst p) in let v144 := snd p in 
    chk 385 (Ok (AppendResult_beq v144 NOT_APPENDED)) (
    step 386 (let! v145 := deref v143 in PressureGroup_append v145 "PRES" RP_RMK md_default) (fun p => let v146 := Some (fst p) in let v147 := snd p in 
    chk 386 (Ok (AppendResult_beq v147 NOT_APPENDED)) (
    step 387 (let! v148 := deref v146 in PressureGroup_append v148 "MISG" RP_RMK md_default) (fun p => let v149 := Some (fst p) in let v150 := snd p in 
    chk 387 (Ok (AppendResult_beq v150 NOT_APPENDED)) (
    step 388 (let! v151 := deref v149 in PressureGroup_append v151 "RMK" RP_RMK md_default) (fun p => let v152 := Some (fst p) in let v153 := snd p in 
    chk 388 (Ok (AppendResult_beq v153 NOT_APPENDED)) (
    step 389 (let! v154 := deref v152 in PressureGroup_append v154 "TEST" RP_RMK md_default) (fun p => let v155 := Some (fst p) in let v156 := snd p in 
    chk 389 (Ok (AppendResult_beq v156 NOT_APPENDED)) (
    step 391 (let! v157 := deref v5 in PressureGroup_append v157 "A2724" RP_RMK md_default) (fun p => let v158 := Some (fst p) in let v159 := snd p in 
    chk 391 (Ok (AppendResult_beq v159 NOT_APPENDED)) (
    step 392 (let! v160 := deref v158 in PressureGroup_append v160 "Q1033" RP_RMK md_default) (fun p => let v161 := Some (fst p) in let v162 := snd p in 
    chk 392 (Ok (AppendResult_beq v162 NOT_APPENDED)) (
    step 393 (let! v163 := deref v161 in PressureGroup_append v163 "A////" RP_RMK md_default) (fun p => let v164 := Some (fst p) in let v165 := snd p in 
    chk 393 (Ok (AppendResult_beq v165 NOT_APPENDED)) (
    step 394 (let! v166 := deref v164 in PressureGroup_append v166 "Q////" RP_RMK md_default) (fun p => let v167 := Some (fst p) in let v168 := snd p in 
    chk 394 (Ok (AppendResult_beq v168 NOT_APPENDED)) (
    step 395 (let! v169 := deref v167 in PressureGroup_append v169 "QNH2957INS" RP_RMK md_default) (fun p => let v170 := Some (fst p) in let v171 := snd p in 
    chk 395 (Ok (AppendResult_beq v171 NOT_APPENDED)) (
    step 396 (let! v172 := deref v170 in PressureGroup_append v172 "QFE750" RP_RMK md_default) (fun p => let v173 := Some (fst p) in let v174 := snd p in 
    chk 396 (Ok (AppendResult_beq v174 NOT_APPENDED)) (
    step 397 (let! v175 := deref v173 in PressureGroup_append v175 "QFE761/1015" RP_RMK md_default) (fun p => let v176 := Some (fst p) in let v177 := snd p in 
    chk 397 (Ok (AppendResult_beq v177 NOT_APPENDED)) (
    step 398 (let! v178 := deref v176 in PressureGroup_append v178 "SLPNO" RP_RMK md_default) (fun p => let v179 := Some (fst p) in let v180 := snd p in 
    chk 398 (Ok (AppendResult_beq v180 NOT_APPENDED)) (
    step 399 (let! v181 := deref v179 in PressureGroup_append v181 "PRES" RP_RMK md_default) (fun p => let v182 := Some (fst p) in let v183 := snd p in 
    chk 399 (Ok (AppendResult_beq v183 NOT_APPENDED)) (
    step 400 (let! v184 := deref v182 in PressureGroup_append v184 "MISG" RP_RMK md_default) (fun p => let v185 := Some (fst p) in let v186 := snd p in 
    chk 400 (Ok (AppendResult_beq v186 NOT_APPENDED)) (
    step 401 (let! v187 := deref v185 in PressureGroup_append v187 "RMK" RP_RMK md_default) (fun p => let v188 := Some (fst p) in let v189 := snd p in 
    chk 401 (Ok (AppendResult_beq v189 NOT_APPENDED)) (
    step 402 (let! v190 := deref v188 in PressureGroup_append v190 "TEST" RP_RMK md_default) (fun p => let v191 := Some (fst p) in let v192 := snd p in 
    chk 402 (Ok (AppendResult_beq v192 NOT_APPENDED)) (
    step 404 (let! v193 := deref v6 in PressureGroup_append v193 "A2724" RP_RMK md_default) (fun p => let v194 := Some (fst p) in let v195 := snd p in 
    chk 404 (Ok (AppendResult_beq v195 NOT_APPENDED)) (
    step 405 (let! v196 := deref v194 in PressureGroup_append v196 "Q1033" RP_RMK md_default) (fun p => let v197 := Some (fst p) in let v198 := snd p in 
    chk 405 (Ok (AppendResult_beq v198 NOT_APPENDED)) (
    step 406 (let! v199 := deref v197 in PressureGroup_append v199 "A////" RP_RMK md_default) (fun p => let v200 := Some (fst p) in let v201 := snd p in 
    chk 406 (Ok (AppendResult_beq v201 NOT_APPENDED)) (
    step 407 (let! v202 := deref v200 in PressureGroup_append v202 "Q////" RP_RMK md_default) (fun p => let v203 := Some (fst p) in let v204 := snd p in 
    chk 407 (Ok (AppendResult_beq v204 NOT_APPENDED)) (
    step 408 (let! v205 := deref v203 in PressureGroup_append v205 "QNH2957INS" RP_RMK md_default) (fun p => let v206 := Some (fst p) in let v207 := snd p in 
    chk 408 (Ok (AppendResult_beq v207 NOT_APPENDED)) (
    step 409 (let! v208 := deref v206 in PressureGroup_append v208 "QFE750" RP_RMK md_default) (fun p => let v209 := Some (fst p) in let v210 := snd p in 
    chk 409 (Ok (AppendResult_beq v210 NOT_APPENDED)) (
    step 410 (let! v211 := deref v209 in PressureGroup_append v211 "QFE761/1015" RP_RMK md_default) (fun p => let v212 := Some (fst p) in let v213 := snd p in 
    chk 410 (Ok (AppendResult_beq v213 NOT_APPENDED)) (
    step 411 (let! v214 := deref v212 in PressureGroup_append v214 "SLPNO" RP_RMK md_default) (fun p => let v215 := Some (fst p) in let v216 := snd p in 
    chk 411 (Ok (AppendResult_beq v216 NOT_APPENDED)) (
    step 412 (let! v217 := deref v215 in PressureGroup_append v217 "PRES" RP_RMK md_default) (fun p => let v218 := Some (fst p) in let v219 := snd p in 
    chk 412 (Ok (AppendResult_beq v219 NOT_APPENDED)) (
    step 413 (let! v220 := deref v218 in PressureGroup_append v220 "MISG" RP_RMK md_default) (fun p => let v221 := Some (fst p) in let v222 := snd p in 
    chk 413 (Ok (AppendResult_beq v222 NOT_APPENDED)) (
    step 414 (let! v223 := deref v221 in PressureGroup_append v223 "RMK" RP_RMK md_default) (fun p => let v224 := Some (fst p) in let v225 := snd p in 
    chk 414 (Ok (AppendResult_beq v225 NOT_APPENDED)) (
    step 415 (let! v226 := deref v224 in PressureGroup_append v226 "TEST" RP_RMK md_default) (fun p => let v227 := Some (fst p) in let v228 := snd p in 
    chk 415 (Ok (AppendResult_beq v228 NOT_APPENDED)) (
    step 417 (let! v229 := deref v7 in PressureGroup_append v229 "A2724" RP_RMK md_default) (fun p => let v230 := Some (fst p) in let v231 := snd p in 
    chk 417 (Ok (AppendResult_beq v231 NOT_APPENDED)) (
    step 418 (let! v232 := deref v230 in PressureGroup_append v232 "Q1033" RP_RMK md_default) (fun p => let v233 := Some (fst p) in let v234 := snd p in 
    chk 418 (Ok (AppendResult_beq v234 NOT_APPENDED)) (
    step 419 (let! v235 := deref v233 in PressureGroup_append v235 "A////" RP_RMK md_default) (fun p => let v236 := Some (fst p) in let v237 := snd p in 
    chk 419 (Ok (AppendResult_beq v237 NOT_APPENDED)) (
    step 420 (let! v238 := deref v236 in PressureGroup_append v238 "Q////" RP_RMK md_default) (fun p => let v239 := Some (fst p) in let v240 := snd p in 
    chk 420 (Ok (AppendResult_beq v240 NOT_APPENDED)) (
    step 421 (let! v241 := deref v239 in PressureGroup_append v241 "QNH2957INS" RP_RMK md_default) (fun p => let v242 := Some (fst p) in let v243 := snd p in 
    chk 421 (Ok (AppendResult_beq v243 NOT_APPENDED)) (
    step 422 (let! v244 := deref v242 in PressureGroup_append v244 "QFE750" RP_RMK md_default) (fun p => let v245 := Some (fst p) in let v246 := snd p in 
    chk 422 (Ok (AppendResult_beq v246 NOT_APPENDED)) (
    step 423 (let! v247 := deref v245 in PressureGroup_append v247 "QFE761/1015" RP_RMK md_default) (fun p => let v248 := Some (fst p) in let v249 := snd p in 
    chk 423 (Ok (AppendResult_beq v249 NOT_APPENDED)) (
    step 424 (let! v250 := deref v248 in PressureGroup_append v250 "SLPNO" RP_METAR md_default) (fun p => let v251 := Some (fst p) in let v252 := snd p in 
    chk 424 (Ok (AppendResult_beq v252 NOT_APPENDED)) (
    step 425 (let! v253 := deref v251 in PressureGroup_append v253 "PRES" RP_METAR md_default) (fun p => let v254 := Some (fst p) in let v255 := snd p in 
    chk 425 (Ok (AppendResult_beq v255 NOT_APPENDED)) (
    step 426 (let! v256 := deref v254 in PressureGroup_append v256 "MISG" RP_METAR md_default) (fun p => let v257 := Some (fst p) in let v258 := snd p in 
    chk 426 (Ok (AppendResult_beq v258 NOT_APPENDED)) (
    step 427 (let! v259 := deref v257 in PressureGroup_append v259 "RMK" RP_RMK md_default) (fun p => let v260 := Some (fst p) in let v261 := snd p in 
    chk 427 (Ok (AppendResult_beq v261 NOT_APPENDED)) (
    step 428 (let! v262 := deref v260 in PressureGroup_append v262 "TEST" RP_RMK md_default) (fun p => let v263 := Some (fst p) in let v264 := snd p in 
    chk 428 (Ok (AppendResult_beq v264 NOT_APPENDED)) (
    step 430 (let! v265 := deref v8 in PressureGroup_append v265 "A2724" RP_RMK md_default) (fun p => let v266 := Some (fst p) in let v267 := snd p in 
    chk 430 (Ok (AppendResult_beq v267 NOT_APPENDED)) (
    step 431 (let! v268 := deref v266 in PressureGroup_append v268 "Q1033" RP_RMK md_default) (fun p => let v269 := Some (fst p) in let v270 := snd p in 
    chk 431 (Ok (AppendResult_beq v270 NOT_APPENDED)) (
    step 432 (let! v271 := deref v269 in PressureGroup_append v271 "A////" RP_RMK md_default) (fun p => let v272 := Some (fst p) in let v273 := snd p in 
    chk 432 (Ok (AppendResult_beq v273 NOT_APPENDED)) (
    step 433 (let! v274 := deref v272 in PressureGroup_append v274 "Q////" RP_RMK md_default) (fun p => let v275 := Some (fst p) in let v276 := snd p in 
    chk 433 (Ok (AppendResult_beq v276 NOT_APPENDED)) (
    step 434 (let! v277 := deref v275 in PressureGroup_append v277 "QNH2957INS" RP_RMK md_default) (fun p => let v278 := Some (fst p) in let v279 := snd p in 
    chk 434 (Ok (AppendResult_beq v279 NOT_APPENDED)) (
    step 435 (let! v280 := deref v278 in PressureGroup_append v280 "QFE750" RP_RMK md_default) (fun p => let v281 := Some (fst p) in let v282 := snd p in 
    chk 435 (Ok (AppendResult_beq v282 NOT_APPENDED)) (
    step 436 (let! v283 := deref v281 in PressureGroup_append v283 "QFE761/1015" RP_RMK md_default) (fun p => let v284 := Some (fst p) in let v285 := snd p in 
    chk 436 (Ok (AppendResult_beq v285 NOT_APPENDED)) (
    step 437 (let! v286 := deref v284 in PressureGroup_append v286 "SLPNO" RP_RMK md_default) (fun p => let v287 := Some (fst p) in let v288 := snd p in 
    chk 437 (Ok (AppendResult_beq v288 NOT_APPENDED)) (
    step 438 (let! v289 := deref v287 in PressureGroup_append v289 "PRES" RP_RMK md_default) (fun p => let v290 := Some (fst p) in let v291 := snd p in 
    chk 438 (Ok (AppendResult_beq v291 NOT_APPENDED)) (
    step 439 (let! v292 := deref v290 in PressureGroup_append v292 "MISG" RP_RMK md_default) (fun p => let v293 := Some (fst p) in let v294 := snd p in 
    chk 439 (Ok (AppendResult_beq v294 NOT_APPENDED)) (
    step 440 (let! v295 := deref v293 in PressureGroup_append v295 "RMK" RP_RMK md_default) (fun p => let v296 := Some (fst p) in let v297 := snd p in 
    chk 440 (Ok (AppendResult_beq v297 NOT_APPENDED)) (
    step 441 (let! v298 := deref v296 in PressureGroup_append v298 "TEST" RP_RMK md_default) (fun p => let v299 := Some (fst p) in let v300 := snd p in 
    chk 441 (Ok (AppendResult_beq v300 NOT_APPENDED)) (
    step 443 (let! v301 := deref v11 in PressureGroup_append v301 "A2724" RP_RMK md_default) (fun p => let v302 := Some (fst p) in let v303 := snd p in 
    chk 443 (Ok (AppendResult_beq v303 NOT_APPENDED)) (
    step 444 (let! v304 := deref v302 in PressureGroup_append v304 "Q1033" RP_RMK md_default) (fun p => let v305 := Some (fst p) in let v306 := snd p in 
    chk 444 (Ok (AppendResult_beq v306 NOT_APPENDED)) (
    step 445 (let! v307 := deref v305 in PressureGroup_append v307 "A////" RP_RMK md_default) (fun p => let v308 := Some (fst p) in let v309 := snd p in 
    chk 445 (Ok (AppendResult_beq v309 NOT_APPENDED)) (
    step 446 (let! v310 := deref v308 in PressureGroup_append v310 "Q////" RP_RMK md_default) (fun p => let v311 := Some (fst p) in let v312 := snd p in 
    chk 446 (Ok (AppendResult_beq v312 NOT_APPENDED)) (
    step 447 (let! v313 := deref v311 in PressureGroup_append v313 "QNH2957INS" RP_RMK md_default) (fun p => let v314 := Some (fst p) in let v315 := snd p in 
    chk 447 (Ok (AppendResult_beq v315 NOT_APPENDED)) (
    step 448 (let! v316 := deref v314 in PressureGroup_append v316 "QFE750" RP_RMK md_default) (fun p => let v317 := Some (fst p) in let v318 := snd p in 
    chk 448 (Ok (AppendResult_beq v318 NOT_APPENDED)) (
    step 449 (let! v319 := deref v317 in PressureGroup_append v319 "QFE761/1015" RP_RMK md_default) (fun p => let v320 := Some (fst p) in let v321 := snd p in 
    chk 449 (Ok (AppendResult_beq v321 NOT_APPENDED)) (
    step 450 (let! v322 := deref v320 in PressureGroup_append v322 "SLPNO" RP_RMK md_default) (fun p => let v323 := Some (fst p) in let v324 := snd p in 
    chk 450 (Ok (AppendResult_beq v324 NOT_APPENDED)) (
    step 451 (let! v325 := deref v323 in PressureGroup_append v325 "PRES" RP_RMK md_default) (fun p => let v326 := Some (fst p) in let v327 := snd p in 
    chk 451 (Ok (AppendResult_beq v327 NOT_APPENDED)) (
    step 452 (let! v328 := deref v326 in PressureGroup_append v328 "MISG" RP_RMK md_default) (fun p => let v329 := Some (fst p) in let v330 := snd p in 
    chk 452 (Ok (AppendResult_beq v330 NOT_APPENDED)) (
    step 453 (let! v331 := deref v329 in PressureGroup_append v331 "RMK" RP_RMK md_default) (fun p => let v332 := Some (fst p) in let v333 := snd p in 
    chk 453 (Ok (AppendResult_beq v333 NOT_APPENDED)) (
    step 454 (let! v334 := deref v332 in PressureGroup_append v334 "TEST" RP_RMK md_default) (fun p => let v335 := Some (fst p) in let v336 := snd p in 
    chk 454 (Ok (AppendResult_beq v336 NOT_APPENDED)) (
    None)))))))))))))))))))))))))))))))))))))))))))))))))))))))))))))))))))))))))))))))))))))))))))))))))))))))))))))))))))))))))))))))))))))))))))))))))))))))))))))))))))))))))))))))))))))))))))))))))))))))))))))))))))))))))))))))))))))))))))).

Definition t_PressureGroup_isValidTrue : option N :=
    step 463 ((PressureGroup_parse "A2724" RP_METAR md_default)) (fun v1 => 
    chk 464 (Ok (has_value v1)) (
    chk 465 (let! v2 := deref v1 in Ok (PressureGroup_isValid v2)) (
    step 467 ((PressureGroup_parse "A////" RP_METAR md_default)) (fun v3 => 
    chk 468 (Ok (has_value v3)) (
    chk 469 (let! v4 := deref v3 in Ok (PressureGroup_isValid v4)) (
    step 471 ((PressureGroup_parse "Q1033" RP_METAR md_default)) (fun v5 => 
    chk 472 (Ok (has_value v5)) (
    chk 473 (let! v6 := deref v5 in Ok (PressureGroup_isValid v6)) (
    step 475 ((PressureGroup_parse "Q////" RP_METAR md_default)) (fun v7 => 
    chk 476 (Ok (has_value v7)) (
    chk 477 (let! v8 := deref v7 in Ok (PressureGroup_isValid v8)) (
    step 479 ((PressureGroup_parse "QNH2957INS" RP_TAF md_default)) (fun v9 => 
    chk 480 (Ok (has_value v9)) (
    chk 481 (let! v10 := deref v9 in Ok (PressureGroup_isValid v10)) (
    step 483 ((PressureGroup_parse "QFE750" RP_RMK md_default)) (fun v11 => 
    chk 484 (Ok (has_value v11)) (
    chk 485 (let! v12 := deref v11 in Ok (PressureGroup_isValid v12)) (
    step 487 ((PressureGroup_parse "QFE761/1015" RP_RMK md_default)) (fun v13 => 
    chk 488 (Ok (has_value v13)) (
    chk 489 (let! v14 := deref v13 in Ok (PressureGroup_isValid v14)) (
    step 491 ((PressureGroup_parse "SLP982" RP_RMK md_default)) (fun v15 => 
    chk 492 (Ok (has_value v15)) (
    chk 493 (let! v16 := deref v15 in Ok (PressureGroup_isValid v16)) (
    step 495 ((PressureGroup_parse "SLPNO" RP_RMK md_default)) (fun v17 => 
    chk 496 (Ok (has_value v17)) (
    chk 497 (let! v18 := deref v17 in Ok (PressureGroup_isValid v18)) (
    step 499 ((PressureGroup_parse "PRES" RP_RMK md_default)) (fun v19 => 
    chk 500 (Ok (has_value v19)) (
    step 501 (let! v20 := deref v19 in PressureGroup_append v20 "MISG" RP_RMK md_default) (fun p => let v21 := Some (fst p) in let v22 := snd p in 
    chk 501 (Ok (AppendResult_beq v22 APPENDED)) (
    chk 502 (let! v23 := deref v21 in Ok (PressureGroup_isValid v23)) (
    None)))))))))))))))))))))))))))))))).

Definition t_PressureGroup_isValidFalsePres : option N :=
    step 506 ((PressureGroup_parse "PRES" RP_RMK md_default)) (fun v1 => 
    chk 507 (Ok (has_value v1)) (
    chk 508 (let! v2 := deref v1 in Ok (negb (PressureGroup_isValid v2))) (
    None))).

Example tests_pressuregroup_pass : failures
  [("PressureGroup_parseObservedInHg", t_PressureGroup_parseObservedInHg);
   ("PressureGroup_parseObservedInHgNotReported", t_PressureGroup_parseObservedInHgNotReported);
   ("PressureGroup_parseObservedHectopascal", t_PressureGroup_parseObservedHectopascal);
   ("PressureGroup_parseObservedHectopascalNotReported", t_PressureGroup_parseObservedHectopascalNotReported);
   ("PressureGroup_parseObservedWrongReportPart", t_PressureGroup_parseObservedWrongReportPart);
   ("PressureGroup_parseObservedWrongFormat", t_PressureGroup_parseObservedWrongFormat);
   ("PressureGroup_parseForecast", t_PressureGroup_parseForecast);
   ("PressureGroup_parseForecastWrongReportPart", t_PressureGroup_parseForecastWrongReportPart);
   ("PressureGroup_parseForecastWrongFormat", t_PressureGroup_parseForecastWrongFormat);
   ("PressureGroup_parseSlpRemark", t_PressureGroup_parseSlpRemark);
   ("PressureGroup_parseSlpRemarkWrongReportPart", t_PressureGroup_parseSlpRemarkWrongReportPart);
   ("PressureGroup_parseSlpRemarkWrongFormat", t_PressureGroup_parseSlpRemarkWrongFormat);
   ("PressureGroup_parseQfeRemark", t_PressureGroup_parseQfeRemark);
   ("PressureGroup_parseQfeRemarkWrongReportPart", t_PressureGroup_parseQfeRemarkWrongReportPart);
   ("PressureGroup_parseQfeRemarkWrongFormat", t_PressureGroup_parseQfeRemarkWrongFormat);
   ("PressureGroup_parseSlpno", t_PressureGroup_parseSlpno);
   ("PressureGroup_parseSlpnoWrongReportPart", t_PressureGroup_parseSlpnoWrongReportPart);
   ("PressureGroup_parsePresMisg", t_PressureGroup_parsePresMisg);
   ("PressureGroup_parsePresWrongReportPart", t_PressureGroup_parsePresWrongReportPart);
   ("PressureGroup_parseMisg", t_PressureGroup_parseMisg);
   ("PressureGroup_appendOtherToPres", t_PressureGroup_appendOtherToPres);
   ("PressureGroup_append", t_PressureGroup_append);
   ("PressureGroup_isValidTrue", t_PressureGroup_isValidTrue);
   ("PressureGroup_isValidFalsePres", t_PressureGroup_isValidFalsePres)] = [].
Proof. vm_compute. reflexivity. Qed.
