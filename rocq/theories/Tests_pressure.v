(** Generated by tools/gen_tests.py from /repo/test/test_pressure.cpp: the project's own unit tests, run
    against the model. These are tests of the model's fidelity, not properties. *)

From Verif Require Import Prim Regex Float Values Weather Groups1 Groups2 Groups3 Groups4 Parser TestLib.
Local Open Scope string_scope.
Local Open Scope bool_scope.

Definition t_Pressure_fromStringHectopascal : option N :=
    step 21 ((Pressure_fromString "Q0994")) (fun v1 => 
    chk 22 (Ok (has_value v1)) (
    chk 23 (let! v2 := deref v1 in Ok (PressureUnit_beq (pressureUnit v2) HECTOPASCAL)) (
    chk 24 (let! v3 := deref v1 in Ok (has_value (pressureValue v3))) (
    chk 25 (let! v4 := deref v1 in let! v5 := deref (pressureValue v4) in Ok (near v5 (dlit (994) 1) (dlit (1) 200))) (
    None))))).

Definition t_Pressure_fromStringHectopascalNotReported : option N :=
    step 29 ((Pressure_fromString "Q////")) (fun v1 => 
    chk 30 (Ok (has_value v1)) (
    chk 31 (let! v2 := deref v1 in Ok (PressureUnit_beq (pressureUnit v2) HECTOPASCAL)) (
    chk 32 (let! v3 := deref v1 in Ok (negb (has_value (pressureValue v3)))) (
    None)))).

Definition t_Pressure_fromStringInHg : option N :=
    step 36 ((Pressure_fromString "A2934")) (fun v1 => 
    chk 37 (Ok (has_value v1)) (
    chk 38 (let! v2 := deref v1 in Ok (PressureUnit_beq (pressureUnit v2) INCHES_HG)) (
    chk 39 (let! v3 := deref v1 in Ok (has_value (pressureValue v3))) (
    chk 40 (let! v4 := deref v1 in let! v5 := deref (pressureValue v4) in Ok (near v5 (dlit (1467) 50) (dlit (1) 200))) (
    None))))).

Definition t_Pressure_fromStringInHgNotReported : option N :=
    step 44 ((Pressure_fromString "A////")) (fun v1 => 
    chk 45 (Ok (has_value v1)) (
    chk 46 (let! v2 := deref v1 in Ok (PressureUnit_beq (pressureUnit v2) INCHES_HG)) (
    chk 47 (let! v3 := deref v1 in Ok (negb (has_value (pressureValue v3)))) (
    None)))).

Definition t_Pressure_fromStringWrongFormat : option N :=
    chk 51 (let! v1 := (Pressure_fromString "") in Ok (negb (has_value v1))) (
    chk 52 (let! v2 := (Pressure_fromString "A296") in Ok (negb (has_value v2))) (
    chk 53 (let! v3 := (Pressure_fromString "A29600") in Ok (negb (has_value v3))) (
    chk 54 (let! v4 := (Pressure_fromString "Q999") in Ok (negb (has_value v4))) (
    chk 55 (let! v5 := (Pressure_fromString "Q01000") in Ok (negb (has_value v5))) (
    chk 56 (let! v6 := (Pressure_fromString "R1000") in Ok (negb (has_value v6))) (
    chk 57 (let! v7 := (Pressure_fromString "A290A") in Ok (negb (has_value v7))) (
    chk 58 (let! v8 := (Pressure_fromString "Q999A") in Ok (negb (has_value v8))) (
    chk 59 (let! v9 := (Pressure_fromString "Q///") in Ok (negb (has_value v9))) (
    chk 60 (let! v10 := (Pressure_fromString "Q/////") in Ok (negb (has_value v10))) (
    chk 61 (let! v11 := (Pressure_fromString "A///") in Ok (negb (has_value v11))) (
    chk 62 (let! v12 := (Pressure_fromString "A/////") in Ok (negb (has_value v12))) (
    None)))))))))))).

Definition t_Pressure_fromForecastString : option N :=
    step 72 ((Pressure_fromForecastString "QNH2979INS")) (fun v1 => 
    chk 73 (Ok (has_value v1)) (
    chk 74 (let! v2 := deref v1 in Ok (PressureUnit_beq (pressureUnit v2) INCHES_HG)) (
    chk 75 (let! v3 := deref v1 in Ok (has_value (pressureValue v3))) (
    chk 76 (let! v4 := deref v1 in let! v5 := deref (pressureValue v4) in Ok (near v5 (dlit (2979) 100) (dlit (1) 200))) (
    None))))).

Definition t_Pressure_fromForecastStringWrongFormat : option N :=
    chk 80 (let! v1 := (Pressure_fromForecastString "") in Ok (negb (has_value v1))) (
    chk 81 (let! v2 := (Pressure_fromForecastString "XNH2979INS") in Ok (negb (has_value v2))) (
    chk 82 (let! v3 := (Pressure_fromForecastString "QNH2979ANS") in Ok (negb (has_value v3))) (
    chk 83 (let! v4 := (Pressure_fromForecastString "QNH297INS") in Ok (negb (has_value v4))) (
    chk 84 (let! v5 := (Pressure_fromForecastString "QNH02979INS") in Ok (negb (has_value v5))) (
    chk 85 (let! v6 := (Pressure_fromForecastString "QNH////INS") in Ok (negb (has_value v6))) (
    None)))))).

Definition t_Pressure_fromSlpString : option N :=
    step 89 ((Pressure_fromSlpString "SLP982")) (fun v1 => 
    chk 90 (Ok (has_value v1)) (
    chk 91 (let! v2 := deref v1 in Ok (PressureUnit_beq (pressureUnit v2) HECTOPASCAL)) (
    chk 92 (let! v3 := deref v1 in Ok (has_value (pressureValue v3))) (
    chk 93 (let! v4 := deref v1 in let! v5 := deref (pressureValue v4) in Ok (near v5 (dlit (4991) 5) (dlit (1) 20))) (
    step 95 ((Pressure_fromSlpString "SLP015")) (fun v6 => 
    chk 96 (Ok (has_value v6)) (
    chk 97 (let! v7 := deref v6 in Ok (PressureUnit_beq (pressureUnit v7) HECTOPASCAL)) (
    chk 98 (let! v8 := deref v6 in Ok (has_value (pressureValue v8))) (
    chk 99 (let! v9 := deref v6 in let! v10 := deref (pressureValue v9) in Ok (near v10 (dlit (2003) 2) (dlit (1) 20))) (
    step 101 ((Pressure_fromSlpString "SLP221")) (fun v11 => 
    chk 102 (Ok (has_value v11)) (
    chk 103 (let! v12 := deref v11 in Ok (PressureUnit_beq (pressureUnit v12) HECTOPASCAL)) (
    chk 104 (let! v13 := deref v11 in Ok (has_value (pressureValue v13))) (
    chk 105 (let! v14 := deref v11 in let! v15 := deref (pressureValue v14) in Ok (near v15 (dlit (10221) 10) (dlit (1) 20))) (
    step 107 ((Pressure_fromSlpString "SLP499")) (fun v16 => 
    chk 108 (Ok (has_value v16)) (
    chk 109 (let! v17 := deref v16 in Ok (PressureUnit_beq (pressureUnit v17) HECTOPASCAL)) (
    chk 110 (let! v18 := deref v16 in Ok (has_value (pressureValue v18))) (
    chk 111 (let! v19 := deref v16 in let! v20 := deref (pressureValue v19) in Ok (near v20 (dlit (10499) 10) (dlit (1) 20))) (
    step 113 ((Pressure_fromSlpString "SLP500")) (fun v21 => 
    chk 114 (Ok (has_value v21)) (
    chk 115 (let! v22 := deref v21 in Ok (PressureUnit_beq (pressureUnit v22) HECTOPASCAL)) (
    chk 116 (let! v23 := deref v21 in Ok (has_value (pressureValue v23))) (
    chk 117 (let! v24 := deref v21 in let! v25 := deref (pressureValue v24) in Ok (near v25 (dlit (950) 1) (dlit (1) 20))) (
    None))))))))))))))))))))))))).

Definition t_Pressure_fromSlpStringWrongFormat : option N :=
    chk 121 (let! v1 := (Pressure_fromSlpString "") in Ok (negb (has_value v1))) (
    chk 122 (let! v2 := (Pressure_fromSlpString "SL0015") in Ok (negb (has_value v2))) (
    chk 123 (let! v3 := (Pressure_fromSlpString "SLP") in Ok (negb (has_value v3))) (
    chk 124 (let! v4 := (Pressure_fromSlpString "XLP215") in Ok (negb (has_value v4))) (
    chk 125 (let! v5 := (Pressure_fromSlpString "SLPA15") in Ok (negb (has_value v5))) (
    chk 126 (let! v6 := (Pressure_fromSlpString "SLP01A") in Ok (negb (has_value v6))) (
    chk 127 (let! v7 := (Pressure_fromSlpString "SLP///") in Ok (negb (has_value v7))) (
    chk 128 (let! v8 := (Pressure_fromSlpString "SLP215A") in Ok (negb (has_value v8))) (
    chk 129 (let! v9 := (Pressure_fromSlpString "SLP2") in Ok (negb (has_value v9))) (
    chk 130 (let! v10 := (Pressure_fromSlpString "SLP21") in Ok (negb (has_value v10))) (
    chk 131 (let! v11 := (Pressure_fromSlpString "SLP0215") in Ok (negb (has_value v11))) (
    None))))))))))).

Definition t_Pressure_fromQfeString : option N :=
    step 142 ((Pressure_fromQfeString "QFE750")) (fun v1 => 
    chk 143 (Ok (has_value v1)) (
    chk 144 (let! v2 := deref v1 in Ok (PressureUnit_beq (pressureUnit v2) MM_HG)) (
    chk 145 (let! v3 := deref v1 in Ok (has_value (pressureValue v3))) (
    chk 146 (let! v4 := deref v1 in let! v5 := deref (pressureValue v4) in Ok (near v5 (dlit (750) 1) (dlit (1) 200))) (
    step 148 ((Pressure_fromQfeString "QFE761/1015")) (fun v6 => 
    chk 149 (Ok (has_value v6)) (
    chk 150 (let! v7 := deref v6 in Ok (PressureUnit_beq (pressureUnit v7) MM_HG)) (
    chk 151 (let! v8 := deref v6 in Ok (has_value (pressureValue v8))) (
    chk 152 (let! v9 := deref v6 in let! v10 := deref (pressureValue v9) in Ok (near v10 (dlit (761) 1) (dlit (1) 200))) (
    None)))))))))).

Definition t_Pressure_fromQfeStringWrongFormat : option N :=
    chk 156 (let! v1 := (Pressure_fromQfeString "") in Ok (negb (has_value v1))) (
    chk 157 (let! v2 := (Pressure_fromQfeString "QF0755") in Ok (negb (has_value v2))) (
    chk 158 (let! v3 := (Pressure_fromQfeString "QFE") in Ok (negb (has_value v3))) (
    chk 159 (let! v4 := (Pressure_fromQfeString "XFE755") in Ok (negb (has_value v4))) (
    chk 160 (let! v5 := (Pressure_fromQfeString "QFEA55") in Ok (negb (has_value v5))) (
    chk 161 (let! v6 := (Pressure_fromQfeString "QFE75A") in Ok (negb (has_value v6))) (
    chk 162 (let! v7 := (Pressure_fromQfeString "QFE///") in Ok (negb (has_value v7))) (
    chk 163 (let! v8 := (Pressure_fromQfeString "QFE75A") in Ok (negb (has_value v8))) (
    chk 164 (let! v9 := (Pressure_fromQfeString "QFE7") in Ok (negb (has_value v9))) (
    chk 165 (let! v10 := (Pressure_fromQfeString "QFE75") in Ok (negb (has_value v10))) (
    chk 166 (let! v11 := (Pressure_fromQfeString "QFE0755") in Ok (negb (has_value v11))) (
    chk 167 (let! v12 := (Pressure_fromQfeString "QFE0755/") in Ok (negb (has_value v12))) (
    chk 168 (let! v13 := (Pressure_fromQfeString "QFE0755/999") in Ok (negb (has_value v13))) (
    chk 169 (let! v14 := (Pressure_fromQfeString "QFE0755/01000") in Ok (negb (has_value v14))) (
    chk 170 (let! v15 := (Pressure_fromQfeString "QFE0755.1015") in Ok (negb (has_value v15))) (
    chk 171 (let! v16 := (Pressure_fromQfeString "QFE0755:1015") in Ok (negb (has_value v16))) (
    chk 172 (let! v17 := (Pressure_fromQfeString "QFE////1015") in Ok (negb (has_value v17))) (
    chk 173 (let! v18 := (Pressure_fromQfeString "QFE755/////") in Ok (negb (has_value v18))) (
    chk 174 (let! v19 := (Pressure_fromQfeString "QFE////////") in Ok (negb (has_value v19))) (
    chk 175 (let! v20 := (Pressure_fromQfeString "QFE76A/1015") in Ok (negb (has_value v20))) (
    chk 176 (let! v21 := (Pressure_fromQfeString "QFEA61/1015") in Ok (negb (has_value v21))) (
    chk 177 (let! v22 := (Pressure_fromQfeString "QFE761/A015") in Ok (negb (has_value v22))) (
    chk 178 (let! v23 := (Pressure_fromQfeString "QFE761/101A") in Ok (negb (has_value v23))) (
    chk 179 (let! v24 := (Pressure_fromQfeString "QFE761Q/1015") in Ok (negb (has_value v24))) (
    chk 180 (let! v25 := (Pressure_fromQfeString "QFE761/1015Q") in Ok (negb (has_value v25))) (
    None))))))))))))))))))))))))).

Definition t_Pressure_fromTendencyString : option N :=
    step 190 ((Pressure_fromTendencyString "032")) (fun v1 => 
    chk 191 (Ok (has_value v1)) (
    chk 192 (let! v2 := deref v1 in Ok (PressureUnit_beq (pressureUnit v2) HECTOPASCAL)) (
    chk 193 (let! v3 := deref v1 in Ok (has_value (pressureValue v3))) (
    chk 194 (let! v4 := deref v1 in let! v5 := deref (pressureValue v4) in Ok (near v5 (dlit (16) 5) (dlit (1) 200))) (
    None))))).

Definition t_Pressure_fromTendencyStringNotReported : option N :=
    step 198 ((Pressure_fromTendencyString "///")) (fun v1 => 
    chk 199 (Ok (has_value v1)) (
    chk 200 (let! v2 := deref v1 in Ok (negb (has_value (pressureValue v2)))) (
    None))).

Definition t_Pressure_fromTendencyStringWrongFormat : option N :=
    chk 204 (let! v1 := (Pressure_fromTendencyString "") in Ok (negb (has_value v1))) (
    chk 205 (let! v2 := (Pressure_fromTendencyString "//") in Ok (negb (has_value v2))) (
    chk 206 (let! v3 := (Pressure_fromTendencyString "////") in Ok (negb (has_value v3))) (
    chk 207 (let! v4 := (Pressure_fromTendencyString "0032") in Ok (negb (has_value v4))) (
    chk 208 (let! v5 := (Pressure_fromTendencyString "32") in Ok (negb (has_value v5))) (
    chk 209 (let! v6 := (Pressure_fromTendencyString "A32") in Ok (negb (has_value v6))) (
    chk 210 (let! v7 := (Pressure_fromTendencyString "03A") in Ok (negb (has_value v7))) (
    chk 211 (let! v8 := (Pressure_fromTendencyString "03.2") in Ok (negb (has_value v8))) (
    chk 212 (let! v9 := (Pressure_fromTendencyString "3.2") in Ok (negb (has_value v9))) (
    None))))))))).

Definition t_Pressure_toUnitSameUnit : option N :=
    step 222 ((Pressure_fromString "A2934")) (fun v1 => 
    chk 223 (Ok (has_value v1)) (
    chk 224 (let! v2 := deref v1 in Ok (has_value (pressureValue v2))) (
    chk 225 (let! v3 := deref v1 in Ok (PressureUnit_beq (pressureUnit v3) INCHES_HG)) (
    chk 226 (let! v4 := deref v1 in let! v5 := deref v1 in Ok (has_value (Pressure_toUnit v4 (pressureUnit v5)))) (
    chk 227 (let! v6 := deref v1 in let! v7 := deref (pressureValue v6) in let! v8 := deref v1 in let! v9 := deref v1 in let! v10 := deref (Pressure_toUnit v8 (pressureUnit v9)) in Ok (flt_eqb v7 v10)) (
    step 229 ((Pressure_fromString "Q0994")) (fun v11 => 
    chk 230 (Ok (has_value v11)) (
    chk 231 (let! v12 := deref v11 in Ok (has_value (pressureValue v12))) (
    chk 232 (let! v13 := deref v11 in Ok (PressureUnit_beq (pressureUnit v13) HECTOPASCAL)) (
    chk 233 (let! v14 := deref v11 in let! v15 := deref v11 in Ok (has_value (Pressure_toUnit v14 (pressureUnit v15)))) (
    chk 234 (let! v16 := deref v11 in let! v17 := deref (pressureValue v16) in let! v18 := deref v11 in let! v19 := deref v11 in let! v20 := deref (Pressure_toUnit v18 (pressureUnit v19)) in Ok (flt_eqb v17 v20)) (
    step 236 ((Pressure_fromQfeString "QFE750")) (fun v21 => 
    chk 237 (Ok (has_value v21)) (
    chk 238 (let! v22 := deref v21 in Ok (has_value (pressureValue v22))) (
    chk 239 (let! v23 := deref v21 in Ok (PressureUnit_beq (pressureUnit v23) MM_HG)) (
    chk 240 (let! v24 := deref v21 in let! v25 := deref v21 in Ok (has_value (Pressure_toUnit v24 (pressureUnit v25)))) (
    chk 241 (let! v26 := deref v21 in let! v27 := deref (pressureValue v26) in let! v28 := deref v21 in let! v29 := deref v21 in let! v30 := deref (Pressure_toUnit v28 (pressureUnit v29)) in Ok (flt_eqb v27 v30)) (
    None)))))))))))))))))).

Definition t_Pressure_toUnitNotReported : option N :=
    step 245 ((Pressure_fromString "A////")) (fun v1 => 
    chk 246 (Ok (has_value v1)) (
    chk 247 (let! v2 := deref v1 in Ok (negb (has_value (pressureValue v2)))) (
    chk 248 (let! v3 := deref v1 in Ok (negb (has_value (Pressure_toUnit v3 INCHES_HG)))) (
    chk 249 (let! v4 := deref v1 in Ok (negb (has_value (Pressure_toUnit v4 HECTOPASCAL)))) (
    step 251 ((Pressure_fromString "Q////")) (fun v5 => 
    chk 252 (Ok (has_value v5)) (
    chk 253 (let! v6 := deref v5 in Ok (negb (has_value (pressureValue v6)))) (
    chk 254 (let! v7 := deref v5 in Ok (negb (has_value (Pressure_toUnit v7 INCHES_HG)))) (
    chk 255 (let! v8 := deref v5 in Ok (negb (has_value (Pressure_toUnit v8 HECTOPASCAL)))) (
    None)))))))))).

Definition t_Pressure_toUnitHectopascalToInHg : option N :=
    step 259 ((Pressure_fromString "Q1000")) (fun v1 => 
    chk 260 (Ok (has_value v1)) (
    chk 261 (let! v2 := deref v1 in Ok (has_value (Pressure_toUnit v2 INCHES_HG))) (
    chk 262 (let! v3 := deref v1 in let! v4 := deref (Pressure_toUnit v3 INCHES_HG) in Ok (near v4 (dlit (2953) 100) (dlit (1) 200))) (
    None)))).

Definition t_Pressure_toUnitHectopascalToMmHg : option N :=
    step 266 ((Pressure_fromString "Q1000")) (fun v1 => 
    chk 267 (Ok (has_value v1)) (
    chk 268 (let! v2 := deref v1 in Ok (has_value (Pressure_toUnit v2 MM_HG))) (
    chk 269 (let! v3 := deref v1 in let! v4 := deref (Pressure_toUnit v3 MM_HG) in Ok (near v4 (dlit (30003) 40) (dlit (1) 200))) (
    None)))).

Definition t_Pressure_toUnitInHgToHectopascal : option N :=
    step 273 ((Pressure_fromString "A2953")) (fun v1 => 
    chk 274 (Ok (has_value v1)) (
    chk 275 (let! v2 := deref v1 in Ok (has_value (Pressure_toUnit v2 HECTOPASCAL))) (
    chk 276 (let! v3 := deref v1 in let! v4 := deref (Pressure_toUnit v3 HECTOPASCAL) in Ok (near v4 (dlit (1000) 1) (dlit (1) 200))) (
    None)))).

Definition t_Pressure_toUnitInHgToMmHg : option N :=
    step 280 ((Pressure_fromString "A2953")) (fun v1 => 
    chk 281 (Ok (has_value v1)) (
    chk 282 (let! v2 := deref v1 in Ok (has_value (Pressure_toUnit v2 MM_HG))) (
    chk 283 (let! v3 := deref v1 in let! v4 := deref (Pressure_toUnit v3 MM_HG) in Ok (near v4 (dlit (37503) 50) (dlit (1) 200))) (
    None)))).

Definition t_Pressure_toUnitMmHgToHectopascal : option N :=
    step 287 ((Pressure_fromQfeString "QFE765")) (fun v1 => 
    chk 288 (Ok (has_value v1)) (
    chk 289 (let! v2 := deref v1 in Ok (has_value (Pressure_toUnit v2 HECTOPASCAL))) (
    chk 290 (let! v3 := deref v1 in let! v4 := deref (Pressure_toUnit v3 HECTOPASCAL) in Ok (near v4 (dlit (10199) 10) (dlit (1) 200))) (
    None)))).

Definition t_Pressure_toUnitMmHgToInHg : option N :=
    step 294 ((Pressure_fromQfeString "QFE765")) (fun v1 => 
    chk 295 (Ok (has_value v1)) (
    chk 296 (let! v2 := deref v1 in Ok (has_value (Pressure_toUnit v2 INCHES_HG))) (
    chk 297 (let! v3 := deref v1 in let! v4 := deref (Pressure_toUnit v3 INCHES_HG) in Ok (near v4 (dlit (753) 25) (dlit (1) 200))) (
    None)))).

Definition t_Pressure_isReported : option N :=
    step 307 ((Pressure_fromString "Q0994")) (fun v1 => 
    chk 308 (Ok (has_value v1)) (
    chk 309 (let! v2 := deref v1 in Ok (Pressure_isReported v2)) (
    step 311 ((Pressure_fromSlpString "SLP982")) (fun v3 => 
    chk 312 (Ok (has_value v3)) (
    chk 313 (let! v4 := deref v3 in Ok (Pressure_isReported v4)) (
    step 315 ((Pressure_fromQfeString "QFE750")) (fun v5 => 
    chk 316 (Ok (has_value v5)) (
    chk 317 (let! v6 := deref v5 in Ok (Pressure_isReported v6)) (
    step 319 ((Pressure_fromTendencyString "032")) (fun v7 => 
    chk 320 (Ok (has_value v7)) (
    chk 321 (let! v8 := deref v7 in Ok (Pressure_isReported v8)) (
    step 323 ((Pressure_fromTendencyString "///")) (fun v9 => 
    chk 324 (Ok (has_value v9)) (
    chk 325 (let! v10 := deref v9 in Ok (negb (Pressure_isReported v10))) (
    step 327 ((Pressure_fromString "Q////")) (fun v11 => 
    chk 328 (Ok (has_value v11)) (
    chk 329 (let! v12 := deref v11 in Ok (negb (Pressure_isReported v12))) (
    None)))))))))))))))))).

Example tests_pressure_pass : failures
  [("Pressure_fromStringHectopascal", t_Pressure_fromStringHectopascal);
   ("Pressure_fromStringHectopascalNotReported", t_Pressure_fromStringHectopascalNotReported);
   ("Pressure_fromStringInHg", t_Pressure_fromStringInHg);
   ("Pressure_fromStringInHgNotReported", t_Pressure_fromStringInHgNotReported);
   ("Pressure_fromStringWrongFormat", t_Pressure_fromStringWrongFormat);
   ("Pressure_fromForecastString", t_Pressure_fromForecastString);
   ("Pressure_fromForecastStringWrongFormat", t_Pressure_fromForecastStringWrongFormat);
   ("Pressure_fromSlpString", t_Pressure_fromSlpString);
   ("Pressure_fromSlpStringWrongFormat", t_Pressure_fromSlpStringWrongFormat);
   ("Pressure_fromQfeString", t_Pressure_fromQfeString);
   ("Pressure_fromQfeStringWrongFormat", t_Pressure_fromQfeStringWrongFormat);
   ("Pressure_fromTendencyString", t_Pressure_fromTendencyString);
   ("Pressure_fromTendencyStringNotReported", t_Pressure_fromTendencyStringNotReported);
   ("Pressure_fromTendencyStringWrongFormat", t_Pressure_fromTendencyStringWrongFormat);
   ("Pressure_toUnitSameUnit", t_Pressure_toUnitSameUnit);
   ("Pressure_toUnitNotReported", t_Pressure_toUnitNotReported);
   ("Pressure_toUnitHectopascalToInHg", t_Pressure_toUnitHectopascalToInHg);
   ("Pressure_toUnitHectopascalToMmHg", t_Pressure_toUnitHectopascalToMmHg);
   ("Pressure_toUnitInHgToHectopascal", t_Pressure_toUnitInHgToHectopascal);
   ("Pressure_toUnitInHgToMmHg", t_Pressure_toUnitInHgToMmHg);
   ("Pressure_toUnitMmHgToHectopascal", t_Pressure_toUnitMmHgToHectopascal);
   ("Pressure_toUnitMmHgToInHg", t_Pressure_toUnitMmHgToInHg);
   ("Pressure_isReported", t_Pressure_isReported)] = [].
Proof. vm_compute. reflexivity. Qed.
