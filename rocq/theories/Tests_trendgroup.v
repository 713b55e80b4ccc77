(** Generated by tools/gen_tests.py from /repo/test/test_trendgroup.cpp: the project's own unit tests, run
    against the model. These are tests of the model's fidelity, not properties. *)

From Verif Require Import Prim Regex Float Values Weather Groups1 Groups2 Groups3 Groups4 Parser TestLib.
Local Open Scope string_scope.
Local Open Scope bool_scope.

Definition t_TrendGroup_parseProb30 : option N :=
    step 19 ((TrendGroup_parse "PROB30" RP_TAF md_default)) (fun v1 => 
    chk 20 (Ok (has_value v1)) (
    chk 21 (let! v2 := deref v1 in Ok (TrType_beq (tr_t v2) Tr_PROB)) (
    chk 22 (let! v3 := deref v1 in Ok (TrProb_beq (tr_prob v3) Pr_30)) (
    chk 23 (let! v4 := deref v1 in Ok (negb (has_value (tr_from v4)))) (
    chk 24 (let! v5 := deref v1 in Ok (negb (has_value (tr_till v5)))) (
    chk 25 (let! v6 := deref v1 in Ok (negb (has_value (tr_at v6)))) (
    None))))))).

Definition t_TrendGroup_parseProb40 : option N :=
    step 29 ((TrendGroup_parse "PROB40" RP_TAF md_default)) (fun v1 => 
    chk 30 (Ok (has_value v1)) (
    chk 31 (let! v2 := deref v1 in Ok (TrType_beq (tr_t v2) Tr_PROB)) (
    chk 32 (let! v3 := deref v1 in Ok (TrProb_beq (tr_prob v3) Pr_40)) (
    chk 33 (let! v4 := deref v1 in Ok (negb (has_value (tr_from v4)))) (
    chk 34 (let! v5 := deref v1 in Ok (negb (has_value (tr_till v5)))) (
    chk 35 (let! v6 := deref v1 in Ok (negb (has_value (tr_at v6)))) (
    None))))))).

Definition t_TrendGroup_parseProbWrongReportPart : option N :=
    chk 40 (let! v1 := (TrendGroup_parse "PROB40" RP_TAF md_default) in Ok (has_value v1)) (
    chk 41 (let! v2 := (TrendGroup_parse "PROB40" RP_UNKNOWN md_default) in Ok (negb (has_value v2))) (
    chk 42 (let! v3 := (TrendGroup_parse "PROB40" RP_HEADER md_default) in Ok (negb (has_value v3))) (
    chk 43 (let! v4 := (TrendGroup_parse "PROB40" RP_METAR md_default) in Ok (negb (has_value v4))) (
    chk 44 (let! v5 := (TrendGroup_parse "PROB40" RP_RMK md_default) in Ok (negb (has_value v5))) (
    None))))).

Definition t_TrendGroup_parseProbWrongFormat : option N :=
    chk 48 (let! v1 := (TrendGroup_parse "PROB" RP_TAF md_default) in Ok (negb (has_value v1))) (
    chk 49 (let! v2 := (TrendGroup_parse "PROB//" RP_TAF md_default) in Ok (negb (has_value v2))) (
    chk 50 (let! v3 := (TrendGroup_parse "PROB50" RP_TAF md_default) in Ok (negb (has_value v3))) (
    chk 51 (let! v4 := (TrendGroup_parse "PROB20" RP_TAF md_default) in Ok (negb (has_value v4))) (
    chk 52 (let! v5 := (TrendGroup_parse "PROB35" RP_TAF md_default) in Ok (negb (has_value v5))) (
    chk 53 (let! v6 := (TrendGroup_parse "PROB100" RP_TAF md_default) in Ok (negb (has_value v6))) (
    chk 54 (let! v7 := (TrendGroup_parse "PROB5" RP_TAF md_default) in Ok (negb (has_value v7))) (
    None))))))).

Definition t_TrendGroup_parseNosig : option N :=
    step 64 ((TrendGroup_parse "NOSIG" RP_METAR md_default)) (fun v1 => 
    chk 65 (Ok (has_value v1)) (
    chk 66 (let! v2 := deref v1 in Ok (TrType_beq (tr_t v2) Tr_NOSIG)) (
    chk 67 (let! v3 := deref v1 in Ok (TrProb_beq (tr_prob v3) Pr_NONE)) (
    chk 68 (let! v4 := deref v1 in Ok (negb (has_value (tr_from v4)))) (
    chk 69 (let! v5 := deref v1 in Ok (negb (has_value (tr_till v5)))) (
    chk 70 (let! v6 := deref v1 in Ok (negb (has_value (tr_at v6)))) (
    None))))))).

Definition t_TrendGroup_parseNosigWrongReportPart : option N :=
    chk 75 (let! v1 := (TrendGroup_parse "NOSIG" RP_METAR md_default) in Ok (has_value v1)) (
    chk 76 (let! v2 := (TrendGroup_parse "NOSIG" RP_UNKNOWN md_default) in Ok (negb (has_value v2))) (
    chk 77 (let! v3 := (TrendGroup_parse "NOSIG" RP_HEADER md_default) in Ok (negb (has_value v3))) (
    chk 78 (let! v4 := (TrendGroup_parse "NOSIG" RP_TAF md_default) in Ok (negb (has_value v4))) (
    chk 79 (let! v5 := (TrendGroup_parse "NOSIG" RP_RMK md_default) in Ok (negb (has_value v5))) (
    None))))).

Definition t_TrendGroup_parseBecmg : option N :=
    step 85 ((TrendGroup_parse "BECMG" RP_METAR md_default)) (fun v1 => 
    chk 86 (Ok (has_value v1)) (
    chk 87 (let! v2 := deref v1 in Ok (TrType_beq (tr_t v2) Tr_BECMG)) (
    chk 88 (let! v3 := deref v1 in Ok (TrProb_beq (tr_prob v3) Pr_NONE)) (
    chk 89 (let! v4 := deref v1 in Ok (negb (has_value (tr_from v4)))) (
    chk 90 (let! v5 := deref v1 in Ok (negb (has_value (tr_till v5)))) (
    chk 91 (let! v6 := deref v1 in Ok (negb (has_value (tr_at v6)))) (
    step 93 ((TrendGroup_parse "BECMG" RP_TAF md_default)) (fun v7 => 
    chk 94 (Ok (has_value v7)) (
    chk 95 (let! v8 := deref v7 in Ok (TrType_beq (tr_t v8) Tr_BECMG)) (
    chk 96 (let! v9 := deref v7 in Ok (TrProb_beq (tr_prob v9) Pr_NONE)) (
    chk 97 (let! v10 := deref v7 in Ok (negb (has_value (tr_from v10)))) (
    chk 98 (let! v11 := deref v7 in Ok (negb (has_value (tr_till v11)))) (
    chk 99 (let! v12 := deref v7 in Ok (negb (has_value (tr_at v12)))) (
    None)))))))))))))).

Definition t_TrendGroup_parseBecmgWrongReportPart : option N :=
    chk 104 (let! v1 := (TrendGroup_parse "BECMG" RP_METAR md_default) in Ok (has_value v1)) (
    chk 105 (let! v2 := (TrendGroup_parse "BECMG" RP_TAF md_default) in Ok (has_value v2)) (
    chk 106 (let! v3 := (TrendGroup_parse "BECMG" RP_UNKNOWN md_default) in Ok (negb (has_value v3))) (
    chk 107 (let! v4 := (TrendGroup_parse "BECMG" RP_HEADER md_default) in Ok (negb (has_value v4))) (
    chk 108 (let! v5 := (TrendGroup_parse "BECMG" RP_RMK md_default) in Ok (negb (has_value v5))) (
    None))))).

Definition t_TrendGroup_parseTempo : option N :=
    step 114 ((TrendGroup_parse "TEMPO" RP_METAR md_default)) (fun v1 => 
    chk 115 (Ok (has_value v1)) (
    chk 116 (let! v2 := deref v1 in Ok (TrType_beq (tr_t v2) Tr_TEMPO)) (
    chk 117 (let! v3 := deref v1 in Ok (TrProb_beq (tr_prob v3) Pr_NONE)) (
    chk 118 (let! v4 := deref v1 in Ok (negb (has_value (tr_from v4)))) (
    chk 119 (let! v5 := deref v1 in Ok (negb (has_value (tr_till v5)))) (
    chk 120 (let! v6 := deref v1 in Ok (negb (has_value (tr_at v6)))) (
    step 122 ((TrendGroup_parse "TEMPO" RP_TAF md_default)) (fun v7 => 
    chk 123 (Ok (has_value v7)) (
    chk 124 (let! v8 := deref v7 in Ok (TrType_beq (tr_t v8) Tr_TEMPO)) (
    chk 125 (let! v9 := deref v7 in Ok (TrProb_beq (tr_prob v9) Pr_NONE)) (
    chk 126 (let! v10 := deref v7 in Ok (negb (has_value (tr_from v10)))) (
    chk 127 (let! v11 := deref v7 in Ok (negb (has_value (tr_till v11)))) (
    chk 128 (let! v12 := deref v7 in Ok (negb (has_value (tr_at v12)))) (
    None)))))))))))))).

Definition t_TrendGroup_parseTempoWrongReportPart : option N :=
    chk 133 (let! v1 := (TrendGroup_parse "TEMPO" RP_METAR md_default) in Ok (has_value v1)) (
    chk 134 (let! v2 := (TrendGroup_parse "TEMPO" RP_TAF md_default) in Ok (has_value v2)) (
    chk 135 (let! v3 := (TrendGroup_parse "TEMPO" RP_UNKNOWN md_default) in Ok (negb (has_value v3))) (
    chk 136 (let! v4 := (TrendGroup_parse "TEMPO" RP_HEADER md_default) in Ok (negb (has_value v4))) (
    chk 137 (let! v5 := (TrendGroup_parse "TEMPO" RP_RMK md_default) in Ok (negb (has_value v5))) (
    None))))).

Definition t_TrendGroup_parseInter : option N :=
    step 143 ((TrendGroup_parse "INTER" RP_METAR md_default)) (fun v1 => 
    chk 144 (Ok (has_value v1)) (
    chk 145 (let! v2 := deref v1 in Ok (TrType_beq (tr_t v2) Tr_INTER)) (
    chk 146 (let! v3 := deref v1 in Ok (TrProb_beq (tr_prob v3) Pr_NONE)) (
    chk 147 (let! v4 := deref v1 in Ok (negb (has_value (tr_from v4)))) (
    chk 148 (let! v5 := deref v1 in Ok (negb (has_value (tr_till v5)))) (
    chk 149 (let! v6 := deref v1 in Ok (negb (has_value (tr_at v6)))) (
    step 151 ((TrendGroup_parse "INTER" RP_TAF md_default)) (fun v7 => 
    chk 152 (Ok (has_value v7)) (
    chk 153 (let! v8 := deref v7 in Ok (TrType_beq (tr_t v8) Tr_INTER)) (
    chk 154 (let! v9 := deref v7 in Ok (TrProb_beq (tr_prob v9) Pr_NONE)) (
    chk 155 (let! v10 := deref v7 in Ok (negb (has_value (tr_from v10)))) (
    chk 156 (let! v11 := deref v7 in Ok (negb (has_value (tr_till v11)))) (
    chk 157 (let! v12 := deref v7 in Ok (negb (has_value (tr_at v12)))) (
    None)))))))))))))).

Definition t_TrendGroup_parseInterWrongReportPart : option N :=
    chk 162 (let! v1 := (TrendGroup_parse "INTER" RP_METAR md_default) in Ok (has_value v1)) (
    chk 163 (let! v2 := (TrendGroup_parse "INTER" RP_TAF md_default) in Ok (has_value v2)) (
    chk 164 (let! v3 := (TrendGroup_parse "INTER" RP_UNKNOWN md_default) in Ok (negb (has_value v3))) (
    chk 165 (let! v4 := (TrendGroup_parse "INTER" RP_HEADER md_default) in Ok (negb (has_value v4))) (
    chk 166 (let! v5 := (TrendGroup_parse "INTER" RP_RMK md_default) in Ok (negb (has_value v5))) (
    None))))).

Definition t_TrendGroup_parseFm : option N :=
    step 178 ((TrendGroup_parse "FM191445" RP_TAF md_default)) (fun v1 => 
    chk 179 (Ok (has_value v1)) (
    chk 180 (let! v2 := deref v1 in Ok (TrType_beq (tr_t v2) Tr_FROM)) (
    chk 181 (let! v3 := deref v1 in Ok (TrProb_beq (tr_prob v3) Pr_NONE)) (
    chk 182 (let! v4 := deref v1 in Ok (has_value (tr_from v4))) (
    chk 183 (let! v5 := deref v1 in let! v6 := deref (tr_from v5) in Ok (has_value (dayValue v6))) (
    chk 184 (let! v7 := deref v1 in let! v8 := deref (tr_from v7) in let! v9 := deref (dayValue v8) in Ok (N.eqb v9 19%N)) (
    chk 185 (let! v10 := deref v1 in let! v11 := deref (tr_from v10) in Ok (N.eqb (hourValue v11) 14%N)) (
    chk 186 (let! v12 := deref v1 in let! v13 := deref (tr_from v12) in Ok (N.eqb (minuteValue v13) 45%N)) (
    chk 187 (let! v14 := deref v1 in Ok (negb (has_value (tr_till v14)))) (
    chk 188 (let! v15 := deref v1 in Ok (negb (has_value (tr_at v15)))) (
    None))))))))))).

Definition t_TrendGroup_parseFmWrongReportPart : option N :=
    chk 193 (let! v1 := (TrendGroup_parse "FM191445" RP_TAF md_default) in Ok (has_value v1)) (
    chk 194 (let! v2 := (TrendGroup_parse "FM191445" RP_UNKNOWN md_default) in Ok (negb (has_value v2))) (
    chk 195 (let! v3 := (TrendGroup_parse "FM191445" RP_METAR md_default) in Ok (negb (has_value v3))) (
    chk 196 (let! v4 := (TrendGroup_parse "FM191445" RP_HEADER md_default) in Ok (negb (has_value v4))) (
    chk 197 (let! v5 := (TrendGroup_parse "FM191445" RP_RMK md_default) in Ok (negb (has_value v5))) (
    None))))).

Definition t_TrendGroup_parseFmWrongFormat : option N :=
    chk 201 (let! v1 := (TrendGroup_parse "FM" RP_METAR md_default) in Ok (negb (has_value v1))) (
    chk 202 (let! v2 := (TrendGroup_parse "FM91445" RP_METAR md_default) in Ok (negb (has_value v2))) (
    chk 203 (let! v3 := (TrendGroup_parse "FM0191445" RP_METAR md_default) in Ok (negb (has_value v3))) (
    chk 204 (let! v4 := (TrendGroup_parse "FM//////" RP_METAR md_default) in Ok (negb (has_value v4))) (
    chk 205 (let! v5 := (TrendGroup_parse "FM19144A" RP_METAR md_default) in Ok (negb (has_value v5))) (
    None))))).

Definition t_TrendGroup_parseTafTimeSpan : option N :=
    step 217 ((TrendGroup_parse "1221/1303" RP_HEADER md_default)) (fun v1 => 
    chk 218 (Ok (has_value v1)) (
    chk 219 (let! v2 := deref v1 in Ok (TrType_beq (tr_t v2) Tr_TIME_SPAN)) (
    chk 220 (let! v3 := deref v1 in Ok (TrProb_beq (tr_prob v3) Pr_NONE)) (
    chk 221 (let! v4 := deref v1 in Ok (has_value (tr_from v4))) (
    chk 222 (let! v5 := deref v1 in let! v6 := deref (tr_from v5) in Ok (has_value (dayValue v6))) (
    chk 223 (let! v7 := deref v1 in let! v8 := deref (tr_from v7) in let! v9 := deref (dayValue v8) in Ok (N.eqb v9 12%N)) (
    chk 224 (let! v10 := deref v1 in let! v11 := deref (tr_from v10) in Ok (N.eqb (hourValue v11) 21%N)) (
    chk 225 (let! v12 := deref v1 in let! v13 := deref (tr_from v12) in Ok (N.eqb (minuteValue v13) 0%N)) (
    chk 226 (let! v14 := deref v1 in Ok (has_value (tr_till v14))) (
    chk 227 (let! v15 := deref v1 in let! v16 := deref (tr_till v15) in Ok (has_value (dayValue v16))) (
    chk 228 (let! v17 := deref v1 in let! v18 := deref (tr_till v17) in let! v19 := deref (dayValue v18) in Ok (N.eqb v19 13%N)) (
    chk 229 (let! v20 := deref v1 in let! v21 := deref (tr_till v20) in Ok (N.eqb (hourValue v21) 3%N)) (
    chk 230 (let! v22 := deref v1 in let! v23 := deref (tr_till v22) in Ok (N.eqb (minuteValue v23) 0%N)) (
    chk 231 (let! v24 := deref v1 in Ok (negb (has_value (tr_at v24)))) (
    step 233 ((TrendGroup_parse "1221/1303" RP_TAF md_default)) (fun v25 => 
    chk 234 (Ok (has_value v25)) (
    chk 235 (let! v26 := deref v25 in Ok (TrType_beq (tr_t v26) Tr_TIME_SPAN)) (
    chk 236 (let! v27 := deref v25 in Ok (TrProb_beq (tr_prob v27) Pr_NONE)) (
    chk 237 (let! v28 := deref v25 in Ok (has_value (tr_from v28))) (
    chk 238 (let! v29 := deref v25 in let! v30 := deref (tr_from v29) in Ok (has_value (dayValue v30))) (
    chk 239 (let! v31 := deref v25 in let! v32 := deref (tr_from v31) in let! v33 := deref (dayValue v32) in Ok (N.eqb v33 12%N)) (
    chk 240 (let! v34 := deref v25 in let! v35 := deref (tr_from v34) in Ok (N.eqb (hourValue v35) 21%N)) (
    chk 241 (let! v36 := deref v25 in let! v37 := deref (tr_from v36) in Ok (N.eqb (minuteValue v37) 0%N)) (
    chk 242 (let! v38 := deref v25 in Ok (has_value (tr_till v38))) (
    chk 243 (let! v39 := deref v25 in let! v40 := deref (tr_till v39) in Ok (has_value (dayValue v40))) (
    chk 244 (let! v41 := deref v25 in let! v42 := deref (tr_till v41) in let! v43 := deref (dayValue v42) in Ok (N.eqb v43 13%N)) (
    chk 245 (let! v44 := deref v25 in let! v45 := deref (tr_till v44) in Ok (N.eqb (hourValue v45) 3%N)) (
    chk 246 (let! v46 := deref v25 in let! v47 := deref (tr_till v46) in Ok (N.eqb (minuteValue v47) 0%N)) (
    chk 247 (let! v48 := deref v25 in Ok (negb (has_value (tr_at v48)))) (
    None)))))))))))))))))))))))))))))).

Definition t_TrendGroup_parseMetarTimeSpan : option N :=
    step 251 ((TrendGroup_parse "1221/1303" RP_METAR md_default)) (fun v1 => 
    chk 252 (Ok (has_value v1)) (
    chk 253 (let! v2 := deref v1 in Ok (TrType_beq (tr_t v2) Tr_TIME_SPAN)) (
    chk 254 (let! v3 := deref v1 in Ok (TrProb_beq (tr_prob v3) Pr_NONE)) (
    chk 255 (let! v4 := deref v1 in Ok (has_value (tr_from v4))) (
    chk 256 (let! v5 := deref v1 in let! v6 := deref (tr_from v5) in Ok (negb (has_value (dayValue v6)))) (
    chk 257 (let! v7 := deref v1 in let! v8 := deref (tr_from v7) in Ok (N.eqb (hourValue v8) 12%N)) (
    chk 258 (let! v9 := deref v1 in let! v10 := deref (tr_from v9) in Ok (N.eqb (minuteValue v10) 21%N)) (
    chk 259 (let! v11 := deref v1 in Ok (has_value (tr_till v11))) (
    chk 260 (let! v12 := deref v1 in let! v13 := deref (tr_till v12) in Ok (negb (has_value (dayValue v13)))) (
    chk 261 (let! v14 := deref v1 in let! v15 := deref (tr_till v14) in Ok (N.eqb (hourValue v15) 13%N)) (
    chk 262 (let! v16 := deref v1 in let! v17 := deref (tr_till v16) in Ok (N.eqb (minuteValue v17) 3%N)) (
    chk 263 (let! v18 := deref v1 in Ok (negb (has_value (tr_at v18)))) (
    None))))))))))))).

Definition t_TrendGroup_parseTimeSpanWrongReportPart : option N :=
    chk 268 (let! v1 := (TrendGroup_parse "1221/1303" RP_TAF md_default) in Ok (has_value v1)) (
    chk 269 (let! v2 := (TrendGroup_parse "1221/1303" RP_HEADER md_default) in Ok (has_value v2)) (
    chk 270 (let! v3 := (TrendGroup_parse "1221/1303" RP_METAR md_default) in Ok (has_value v3)) (
    chk 271 (let! v4 := (TrendGroup_parse "1221/1303" RP_UNKNOWN md_default) in Ok (negb (has_value v4))) (
    chk 272 (let! v5 := (TrendGroup_parse "1221/1303" RP_RMK md_default) in Ok (negb (has_value v5))) (
    None))))).

Definition t_TrendGroup_parseTimeSpanWrongFormat : option N :=
    chk 276 (let! v1 := (TrendGroup_parse "12211303" RP_METAR md_default) in Ok (negb (has_value v1))) (
    chk 277 (let! v2 := (TrendGroup_parse "12:21/13:03" RP_METAR md_default) in Ok (negb (has_value v2))) (
    chk 278 (let! v3 := (TrendGroup_parse "//21/1303" RP_METAR md_default) in Ok (negb (has_value v3))) (
    chk 279 (let! v4 := (TrendGroup_parse "1221///03" RP_METAR md_default) in Ok (negb (has_value v4))) (
    chk 280 (let! v5 := (TrendGroup_parse "01221/1303" RP_METAR md_default) in Ok (negb (has_value v5))) (
    chk 281 (let! v6 := (TrendGroup_parse "221/1303" RP_METAR md_default) in Ok (negb (has_value v6))) (
    chk 282 (let! v7 := (TrendGroup_parse "1221/01303" RP_METAR md_default) in Ok (negb (has_value v7))) (
    chk 283 (let! v8 := (TrendGroup_parse "1221/303" RP_METAR md_default) in Ok (negb (has_value v8))) (
    chk 284 (let! v9 := (TrendGroup_parse "122A/1303" RP_METAR md_default) in Ok (negb (has_value v9))) (
    chk 285 (let! v10 := (TrendGroup_parse "1221/130A" RP_METAR md_default) in Ok (negb (has_value v10))) (
    None)))))))))).

Definition t_TrendGroup_parseTrendTimeFm : option N :=
    step 296 ((TrendGroup_parse "FM1445" RP_METAR md_default)) (fun v1 => 
    chk 297 (Ok (has_value v1)) (
    chk 298 (let! v2 := deref v1 in Ok (TrType_beq (tr_t v2) Tr_FROM)) (
    chk 299 (let! v3 := deref v1 in Ok (TrProb_beq (tr_prob v3) Pr_NONE)) (
    chk 300 (let! v4 := deref v1 in Ok (has_value (tr_from v4))) (
    chk 301 (let! v5 := deref v1 in let! v6 := deref (tr_from v5) in Ok (negb (has_value (dayValue v6)))) (
    chk 302 (let! v7 := deref v1 in let! v8 := deref (tr_from v7) in Ok (N.eqb (hourValue v8) 14%N)) (
    chk 303 (let! v9 := deref v1 in let! v10 := deref (tr_from v9) in Ok (N.eqb (minuteValue v10) 45%N)) (
    chk 304 (let! v11 := deref v1 in Ok (negb (has_value (tr_till v11)))) (
    chk 305 (let! v12 := deref v1 in Ok (negb (has_value (tr_at v12)))) (
    None)))))))))).

Definition t_TrendGroup_parseTrendTimeFmWrongReportPart : option N :=
    chk 310 (let! v1 := (TrendGroup_parse "FM1445" RP_METAR md_default) in Ok (has_value v1)) (
    chk 311 (let! v2 := (TrendGroup_parse "FM1445" RP_UNKNOWN md_default) in Ok (negb (has_value v2))) (
    chk 312 (let! v3 := (TrendGroup_parse "FM1445" RP_HEADER md_default) in Ok (negb (has_value v3))) (
    chk 313 (let! v4 := (TrendGroup_parse "FM1445" RP_TAF md_default) in Ok (negb (has_value v4))) (
    chk 314 (let! v5 := (TrendGroup_parse "FM1445" RP_RMK md_default) in Ok (negb (has_value v5))) (
    None))))).

Definition t_TrendGroup_parseTrendTimeTl : option N :=
    step 319 ((TrendGroup_parse "TL0300" RP_METAR md_default)) (fun v1 => 
    chk 320 (Ok (has_value v1)) (
    chk 321 (let! v2 := deref v1 in Ok (TrType_beq (tr_t v2) Tr_UNTIL)) (
    chk 322 (let! v3 := deref v1 in Ok (TrProb_beq (tr_prob v3) Pr_NONE)) (
    chk 323 (let! v4 := deref v1 in Ok (negb (has_value (tr_from v4)))) (
    chk 324 (let! v5 := deref v1 in Ok (has_value (tr_till v5))) (
    chk 325 (let! v6 := deref v1 in let! v7 := deref (tr_till v6) in Ok (negb (has_value (dayValue v7)))) (
    chk 326 (let! v8 := deref v1 in let! v9 := deref (tr_till v8) in Ok (N.eqb (hourValue v9) 3%N)) (
    chk 327 (let! v10 := deref v1 in let! v11 := deref (tr_till v10) in Ok (N.eqb (minuteValue v11) 0%N)) (
    chk 328 (let! v12 := deref v1 in Ok (negb (has_value (tr_at v12)))) (
    None)))))))))).

Definition t_TrendGroup_parseTrendTimeTlWrongReportPart : option N :=
    chk 333 (let! v1 := (TrendGroup_parse "TL0300" RP_METAR md_default) in Ok (has_value v1)) (
    chk 334 (let! v2 := (TrendGroup_parse "TL0300" RP_UNKNOWN md_default) in Ok (negb (has_value v2))) (
    chk 335 (let! v3 := (TrendGroup_parse "TL0300" RP_HEADER md_default) in Ok (negb (has_value v3))) (
    chk 336 (let! v4 := (TrendGroup_parse "TL0300" RP_TAF md_default) in Ok (negb (has_value v4))) (
    chk 337 (let! v5 := (TrendGroup_parse "TL0300" RP_RMK md_default) in Ok (negb (has_value v5))) (
    None))))).

Definition t_TrendGroup_parseTrendTimeAt : option N :=
    step 342 ((TrendGroup_parse "AT1530" RP_METAR md_default)) (fun v1 => 
    chk 343 (Ok (has_value v1)) (
    chk 344 (let! v2 := deref v1 in Ok (TrType_beq (tr_t v2) Tr_AT)) (
    chk 345 (let! v3 := deref v1 in Ok (TrProb_beq (tr_prob v3) Pr_NONE)) (
    chk 346 (let! v4 := deref v1 in Ok (negb (has_value (tr_from v4)))) (
    chk 347 (let! v5 := deref v1 in Ok (negb (has_value (tr_till v5)))) (
    chk 348 (let! v6 := deref v1 in Ok (has_value (tr_at v6))) (
    chk 349 (let! v7 := deref v1 in let! v8 := deref (tr_at v7) in Ok (negb (has_value (dayValue v8)))) (
    chk 350 (let! v9 := deref v1 in let! v10 := deref (tr_at v9) in Ok (N.eqb (hourValue v10) 15%N)) (
    chk 351 (let! v11 := deref v1 in let! v12 := deref (tr_at v11) in Ok (N.eqb (minuteValue v12) 30%N)) (
    None)))))))))).

Definition t_TrendGroup_parseTrendTimeAtWrongReportPart : option N :=
    chk 356 (let! v1 := (TrendGroup_parse "AT1530" RP_METAR md_default) in Ok (has_value v1)) (
    chk 357 (let! v2 := (TrendGroup_parse "AT1530" RP_UNKNOWN md_default) in Ok (negb (has_value v2))) (
    chk 358 (let! v3 := (TrendGroup_parse "AT1530" RP_HEADER md_default) in Ok (negb (has_value v3))) (
    chk 359 (let! v4 := (TrendGroup_parse "AT1530" RP_TAF md_default) in Ok (negb (has_value v4))) (
    chk 360 (let! v5 := (TrendGroup_parse "AT1530" RP_RMK md_default) in Ok (negb (has_value v5))) (
    None))))).

Definition t_TrendGroup_parseTrendTimeWrongFormat : option N :=
    chk 364 (let! v1 := (TrendGroup_parse "XT1530" RP_METAR md_default) in Ok (negb (has_value v1))) (
    chk 365 (let! v2 := (TrendGroup_parse "AM1530" RP_METAR md_default) in Ok (negb (has_value v2))) (
    chk 366 (let! v3 := (TrendGroup_parse "AT01530" RP_METAR md_default) in Ok (negb (has_value v3))) (
    chk 367 (let! v4 := (TrendGroup_parse "AT530" RP_METAR md_default) in Ok (negb (has_value v4))) (
    chk 368 (let! v5 := (TrendGroup_parse "AT/15:30" RP_METAR md_default) in Ok (negb (has_value v5))) (
    chk 369 (let! v6 := (TrendGroup_parse "AT15:30" RP_METAR md_default) in Ok (negb (has_value v6))) (
    chk 370 (let! v7 := (TrendGroup_parse "AT////" RP_METAR md_default) in Ok (negb (has_value v7))) (
    chk 371 (let! v8 := (TrendGroup_parse "AT153A" RP_METAR md_default) in Ok (negb (has_value v8))) (
    None)))))))).

Definition t_TrendGroup_parseEmptyString : option N :=
    chk 380 (let! v1 := (TrendGroup_parse "" RP_METAR md_default) in Ok (negb (has_value v1))) (
    None).

Definition t_TrendGroup_appendProbabilityFollowedByTempo : option N :=
    step 390 ((TrendGroup_parse "PROB30" RP_TAF md_default)) (fun v1 => 
    chk 391 (Ok (has_value v1)) (
    step 393 (let! v2 := deref v1 in TrendGroup_append v2 "TEMPO" RP_TAF md_default) (fun p => let v3 := Some (fst p) in let v4 := snd p in 
    chk 393 (Ok (AppendResult_beq v4 APPENDED)) (
    chk 396 (let! v5 := deref v3 in Ok (TrType_beq (tr_t v5) Tr_TEMPO)) (
    chk 397 (let! v6 := deref v3 in Ok (TrProb_beq (tr_prob v6) Pr_30)) (
    chk 398 (let! v7 := deref v3 in Ok (negb (has_value (tr_from v7)))) (
    chk 399 (let! v8 := deref v3 in Ok (negb (has_value (tr_till v8)))) (
    chk 400 (let! v9 := deref v3 in Ok (negb (has_value (tr_at v9)))) (
    None))))))))).

Definition t_TrendGroup_appendProbabilityFollowedByInter : option N :=
    step 404 ((TrendGroup_parse "PROB30" RP_TAF md_default)) (fun v1 => 
    chk 405 (Ok (has_value v1)) (
    step 407 (let! v2 := deref v1 in TrendGroup_append v2 "INTER" RP_TAF md_default) (fun p => let v3 := Some (fst p) in let v4 := snd p in 
    chk 407 (Ok (AppendResult_beq v4 APPENDED)) (
    chk 410 (let! v5 := deref v3 in Ok (TrType_beq (tr_t v5) Tr_INTER)) (
    chk 411 (let! v6 := deref v3 in Ok (TrProb_beq (tr_prob v6) Pr_30)) (
    chk 412 (let! v7 := deref v3 in Ok (negb (has_value (tr_from v7)))) (
    chk 413 (let! v8 := deref v3 in Ok (negb (has_value (tr_till v8)))) (
    chk 414 (let! v9 := deref v3 in Ok (negb (has_value (tr_at v9)))) (
    None))))))))).

Definition t_TrendGroup_appendProbabilityFollowedByTimeSpan : option N :=
    step 418 ((TrendGroup_parse "PROB30" RP_TAF md_default)) (fun v1 => 
    chk 419 (Ok (has_value v1)) (
    step 421 (let! v2 := deref v1 in TrendGroup_append v2 "2523/2601" RP_TAF md_default) (fun p => let v3 := Some (fst p) in let v4 := snd p in 
    chk 421 (Ok (AppendResult_beq v4 APPENDED)) (
    chk 424 (let! v5 := deref v3 in Ok (TrType_beq (tr_t v5) Tr_TIME_SPAN)) (
    chk 425 (let! v6 := deref v3 in Ok (TrProb_beq (tr_prob v6) Pr_30)) (
    chk 426 (let! v7 := deref v3 in Ok (has_value (tr_from v7))) (
    chk 427 (let! v8 := deref v3 in let! v9 := deref (tr_from v8) in Ok (has_value (dayValue v9))) (
    chk 428 (let! v10 := deref v3 in let! v11 := deref (tr_from v10) in let! v12 := deref (dayValue v11) in Ok (N.eqb v12 25%N)) (
    chk 429 (let! v13 := deref v3 in let! v14 := deref (tr_from v13) in Ok (N.eqb (hourValue v14) 23%N)) (
    chk 430 (let! v15 := deref v3 in let! v16 := deref (tr_from v15) in Ok (N.eqb (minuteValue v16) 0%N)) (
    chk 431 (let! v17 := deref v3 in Ok (has_value (tr_till v17))) (
    chk 432 (let! v18 := deref v3 in let! v19 := deref (tr_till v18) in Ok (has_value (dayValue v19))) (
    chk 433 (let! v20 := deref v3 in let! v21 := deref (tr_till v20) in let! v22 := deref (dayValue v21) in Ok (N.eqb v22 26%N)) (
    chk 434 (let! v23 := deref v3 in let! v24 := deref (tr_till v23) in Ok (N.eqb (hourValue v24) 1%N)) (
    chk 435 (let! v25 := deref v3 in let! v26 := deref (tr_till v25) in Ok (N.eqb (minuteValue v26) 0%N)) (
    chk 436 (let! v27 := deref v3 in Ok (negb (has_value (tr_at v27)))) (
    None))))))))))))))))).

Definition t_TrendGroup_appendProbabilityFollowedByOther : option N :=
    step 440 ((TrendGroup_parse "PROB30" RP_TAF md_default)) (fun v1 => 
    chk 441 (Ok (has_value v1)) (
    step 443 (let! v2 := deref v1 in TrendGroup_append v2 "FM191445" RP_TAF md_default) (fun p => let v3 := Some (fst p) in let v4 := snd p in 
    chk 443 (Ok (AppendResult_beq v4 NOT_APPENDED)) (
    step 445 (let! v5 := deref v3 in TrendGroup_append v5 "FM1445" RP_TAF md_default) (fun p => let v6 := Some (fst p) in let v7 := snd p in 
    chk 445 (Ok (AppendResult_beq v7 NOT_APPENDED)) (
    step 447 (let! v8 := deref v6 in TrendGroup_append v8 "NOSIG" RP_TAF md_default) (fun p => let v9 := Some (fst p) in let v10 := snd p in 
    chk 447 (Ok (AppendResult_beq v10 NOT_APPENDED)) (
    step 449 (let! v11 := deref v9 in TrendGroup_append v11 "BECMG" RP_TAF md_default) (fun p => let v12 := Some (fst p) in let v13 := snd p in 
    chk 449 (Ok (AppendResult_beq v13 NOT_APPENDED)) (
    step 451 (let! v14 := deref v12 in TrendGroup_append v14 "PROB40" RP_TAF md_default) (fun p => let v15 := Some (fst p) in let v16 := snd p in 
    chk 451 (Ok (AppendResult_beq v16 NOT_APPENDED)) (
    step 453 (let! v17 := deref v15 in TrendGroup_append v17 "FM191445" RP_TAF md_default) (fun p => let v18 := Some (fst p) in let v19 := snd p in 
    chk 453 (Ok (AppendResult_beq v19 NOT_APPENDED)) (
    chk 456 (let! v20 := deref v18 in Ok (TrType_beq (tr_t v20) Tr_PROB)) (
    chk 457 (let! v21 := deref v18 in Ok (TrProb_beq (tr_prob v21) Pr_30)) (
    chk 458 (let! v22 := deref v18 in Ok (negb (has_value (tr_from v22)))) (
    chk 459 (let! v23 := deref v18 in Ok (negb (has_value (tr_till v23)))) (
    chk 460 (let! v24 := deref v18 in Ok (negb (has_value (tr_at v24)))) (
    None))))))))))))))))))).

Definition t_TrendGroup_appendProbabilityFollowedByKeywordGroup : option N :=
    step 464 ((TrendGroup_parse "PROB30" RP_TAF md_default)) (fun v1 => 
    chk 465 (Ok (has_value v1)) (
    step 466 (let! v2 := deref v1 in TrendGroup_append v2 "NSW" RP_TAF md_default) (fun p => let v3 := Some (fst p) in let v4 := snd p in 
    chk 466 (Ok (AppendResult_beq v4 NOT_APPENDED)) (
    chk 469 (let! v5 := deref v3 in Ok (TrType_beq (tr_t v5) Tr_PROB)) (
    chk 470 (let! v6 := deref v3 in Ok (TrProb_beq (tr_prob v6) Pr_30)) (
    chk 471 (let! v7 := deref v3 in Ok (negb (has_value (tr_from v7)))) (
    chk 472 (let! v8 := deref v3 in Ok (negb (has_value (tr_till v8)))) (
    chk 473 (let! v9 := deref v3 in Ok (negb (has_value (tr_at v9)))) (
    None))))))))).

Definition t_TrendGroup_appendTrendFollowedByTimeSpan : option N :=
    step 483 ((TrendGroup_parse "BECMG" RP_TAF md_default)) (fun v1 => 
    chk 484 (Ok (has_value v1)) (
    step 485 (let! v2 := deref v1 in TrendGroup_append v2 "1221/1303" RP_TAF md_default) (fun p => let v3 := Some (fst p) in let v4 := snd p in 
    chk 485 (Ok (AppendResult_beq v4 APPENDED)) (
    chk 488 (let! v5 := deref v3 in Ok (TrType_beq (tr_t v5) Tr_BECMG)) (
    chk 489 (let! v6 := deref v3 in Ok (TrProb_beq (tr_prob v6) Pr_NONE)) (
    chk 490 (let! v7 := deref v3 in Ok (has_value (tr_from v7))) (
    chk 491 (let! v8 := deref v3 in let! v9 := deref (tr_from v8) in Ok (has_value (dayValue v9))) (
    chk 492 (let! v10 := deref v3 in let! v11 := deref (tr_from v10) in let! v12 := deref (dayValue v11) in Ok (N.eqb v12 12%N)) (
    chk 493 (let! v13 := deref v3 in let! v14 := deref (tr_from v13) in Ok (N.eqb (hourValue v14) 21%N)) (
    chk 494 (let! v15 := deref v3 in let! v16 := deref (tr_from v15) in Ok (N.eqb (minuteValue v16) 0%N)) (
    chk 495 (let! v17 := deref v3 in Ok (has_value (tr_till v17))) (
    chk 496 (let! v18 := deref v3 in let! v19 := deref (tr_till v18) in Ok (has_value (dayValue v19))) (
    chk 497 (let! v20 := deref v3 in let! v21 := deref (tr_till v20) in let! v22 := deref (dayValue v21) in Ok (N.eqb v22 13%N)) (
    chk 498 (let! v23 := deref v3 in let! v24 := deref (tr_till v23) in Ok (N.eqb (hourValue v24) 3%N)) (
    chk 499 (let! v25 := deref v3 in let! v26 := deref (tr_till v25) in Ok (N.eqb (minuteValue v26) 0%N)) (
    chk 500 (let! v27 := deref v3 in Ok (negb (has_value (tr_at v27)))) (
    None))))))))))))))))).

Definition t_TrendGroup_appendTrendFollowedByTrendTimeSingle : option N :=
    step 504 ((TrendGroup_parse "BECMG" RP_METAR md_default)) (fun v1 => 
    chk 505 (Ok (has_value v1)) (
    step 506 (let! v2 := deref v1 in TrendGroup_append v2 "TL1303" RP_METAR md_default) (fun p => let v3 := Some (fst p) in let v4 := snd p in 
    chk 506 (Ok (AppendResult_beq v4 APPENDED)) (
    chk 509 (let! v5 := deref v3 in Ok (TrType_beq (tr_t v5) Tr_BECMG)) (
    chk 510 (let! v6 := deref v3 in Ok (TrProb_beq (tr_prob v6) Pr_NONE)) (
    chk 511 (let! v7 := deref v3 in Ok (negb (has_value (tr_from v7)))) (
    chk 512 (let! v8 := deref v3 in Ok (has_value (tr_till v8))) (
    chk 513 (let! v9 := deref v3 in let! v10 := deref (tr_till v9) in Ok (negb (has_value (dayValue v10)))) (
    chk 514 (let! v11 := deref v3 in let! v12 := deref (tr_till v11) in Ok (N.eqb (hourValue v12) 13%N)) (
    chk 515 (let! v13 := deref v3 in let! v14 := deref (tr_till v13) in Ok (N.eqb (minuteValue v14) 3%N)) (
    chk 516 (let! v15 := deref v3 in Ok (negb (has_value (tr_at v15)))) (
    None)))))))))))).

Definition t_TrendGroup_appendTrendFollowedByTrendTimeCompound : option N :=
    step 520 ((TrendGroup_parse "BECMG" RP_METAR md_default)) (fun v1 => 
    chk 521 (Ok (has_value v1)) (
    step 522 (let! v2 := deref v1 in TrendGroup_append v2 "FM1221" RP_METAR md_default) (fun p => let v3 := Some (fst p) in let v4 := snd p in 
    chk 522 (Ok (AppendResult_beq v4 APPENDED)) (
    step 524 (let! v5 := deref v3 in TrendGroup_append v5 "TL1303" RP_METAR md_default) (fun p => let v6 := Some (fst p) in let v7 := snd p in 
    chk 524 (Ok (AppendResult_beq v7 APPENDED)) (
    chk 527 (let! v8 := deref v6 in Ok (TrType_beq (tr_t v8) Tr_BECMG)) (
    chk 528 (let! v9 := deref v6 in Ok (TrProb_beq (tr_prob v9) Pr_NONE)) (
    chk 529 (let! v10 := deref v6 in Ok (has_value (tr_from v10))) (
    chk 530 (let! v11 := deref v6 in let! v12 := deref (tr_from v11) in Ok (negb (has_value (dayValue v12)))) (
    chk 531 (let! v13 := deref v6 in let! v14 := deref (tr_from v13) in Ok (N.eqb (hourValue v14) 12%N)) (
    chk 532 (let! v15 := deref v6 in let! v16 := deref (tr_from v15) in Ok (N.eqb (minuteValue v16) 21%N)) (
    chk 533 (let! v17 := deref v6 in Ok (has_value (tr_till v17))) (
    chk 534 (let! v18 := deref v6 in let! v19 := deref (tr_till v18) in Ok (negb (has_value (dayValue v19)))) (
    chk 535 (let! v20 := deref v6 in let! v21 := deref (tr_till v20) in Ok (N.eqb (hourValue v21) 13%N)) (
    chk 536 (let! v22 := deref v6 in let! v23 := deref (tr_till v22) in Ok (N.eqb (minuteValue v23) 3%N)) (
    chk 537 (let! v24 := deref v6 in Ok (negb (has_value (tr_at v24)))) (
    None))))))))))))))))).

Definition t_TrendGroup_appendTrendFollowedByOther : option N :=
    step 541 ((TrendGroup_parse "BECMG" RP_METAR md_default)) (fun v1 => 
    chk 542 (Ok (has_value v1)) (
    step 544 (let! v2 := deref v1 in TrendGroup_append v2 "FM191445" RP_METAR md_default) (fun p => let v3 := Some (fst p) in let v4 := snd p in 
    chk 544 (Ok (AppendResult_beq v4 NOT_APPENDED)) (
    step 546 (let! v5 := deref v3 in TrendGroup_append v5 "NOSIG" RP_METAR md_default) (fun p => let v6 := Some (fst p) in let v7 := snd p in 
    chk 546 (Ok (AppendResult_beq v7 NOT_APPENDED)) (
    step 548 (let! v8 := deref v6 in TrendGroup_append v8 "TEMPO" RP_METAR md_default) (fun p => let v9 := Some (fst p) in let v10 := snd p in 
    chk 548 (Ok (AppendResult_beq v10 NOT_APPENDED)) (
    step 550 (let! v11 := deref v9 in TrendGroup_append v11 "PROB40" RP_METAR md_default) (fun p => let v12 := Some (fst p) in let v13 := snd p in 
    chk 550 (Ok (AppendResult_beq v13 NOT_APPENDED)) (
    chk 553 (let! v14 := deref v12 in Ok (TrType_beq (tr_t v14) Tr_BECMG)) (
    chk 554 (let! v15 := deref v12 in Ok (TrProb_beq (tr_prob v15) Pr_NONE)) (
    chk 555 (let! v16 := deref v12 in Ok (negb (has_value (tr_from v16)))) (
    chk 556 (let! v17 := deref v12 in Ok (negb (has_value (tr_till v17)))) (
    chk 557 (let! v18 := deref v12 in Ok (negb (has_value (tr_at v18)))) (
    None))))))))))))))).

Definition t_TrendGroup_appendProbTrendFollowedByTimeSpan : option N :=
    step 561 ((TrendGroup_parse "PROB40" RP_TAF md_default)) (fun v1 => 
    chk 562 (Ok (has_value v1)) (
    step 563 (let! v2 := deref v1 in TrendGroup_append v2 "TEMPO" RP_TAF md_default) (fun p => let v3 := Some (fst p) in let v4 := snd p in 
    chk 563 (Ok (AppendResult_beq v4 APPENDED)) (
    step 565 (let! v5 := deref v3 in TrendGroup_append v5 "1221/1303" RP_TAF md_default) (fun p => let v6 := Some (fst p) in let v7 := snd p in 
    chk 565 (Ok (AppendResult_beq v7 APPENDED)) (
    chk 568 (let! v8 := deref v6 in Ok (TrType_beq (tr_t v8) Tr_TEMPO)) (
    chk 569 (let! v9 := deref v6 in Ok (TrProb_beq (tr_prob v9) Pr_40)) (
    chk 570 (let! v10 := deref v6 in Ok (has_value (tr_from v10))) (
    chk 571 (let! v11 := deref v6 in let! v12 := deref (tr_from v11) in Ok (has_value (dayValue v12))) (
    chk 572 (let! v13 := deref v6 in let! v14 := deref (tr_from v13) in let! v15 := deref (dayValue v14) in Ok (N.eqb v15 12%N)) (
    chk 573 (let! v16 := deref v6 in let! v17 := deref (tr_from v16) in Ok (N.eqb (hourValue v17) 21%N)) (
    chk 574 (let! v18 := deref v6 in let! v19 := deref (tr_from v18) in Ok (N.eqb (minuteValue v19) 0%N)) (
    chk 575 (let! v20 := deref v6 in Ok (has_value (tr_till v20))) (
    chk 576 (let! v21 := deref v6 in let! v22 := deref (tr_till v21) in Ok (has_value (dayValue v22))) (
    chk 577 (let! v23 := deref v6 in let! v24 := deref (tr_till v23) in let! v25 := deref (dayValue v24) in Ok (N.eqb v25 13%N)) (
    chk 578 (let! v26 := deref v6 in let! v27 := deref (tr_till v26) in Ok (N.eqb (hourValue v27) 3%N)) (
    chk 579 (let! v28 := deref v6 in let! v29 := deref (tr_till v28) in Ok (N.eqb (minuteValue v29) 0%N)) (
    chk 580 (let! v30 := deref v6 in Ok (negb (has_value (tr_at v30)))) (
    None))))))))))))))))))).

Definition t_TrendGroup_appendFrom : option N :=
    step 590 ((TrendGroup_parse "FM191445" RP_TAF md_default)) (fun v1 => 
    chk 591 (Ok (has_value v1)) (
    step 593 (let! v2 := deref v1 in TrendGroup_append v2 "FM251959" RP_TAF md_default) (fun p => let v3 := Some (fst p) in let v4 := snd p in 
    chk 593 (Ok (AppendResult_beq v4 NOT_APPENDED)) (
    step 595 (let! v5 := deref v3 in TrendGroup_append v5 "TL1445" RP_TAF md_default) (fun p => let v6 := Some (fst p) in let v7 := snd p in 
    chk 595 (Ok (AppendResult_beq v7 NOT_APPENDED)) (
    step 597 (let! v8 := deref v6 in TrendGroup_append v8 "NOSIG" RP_TAF md_default) (fun p => let v9 := Some (fst p) in let v10 := snd p in 
    chk 597 (Ok (AppendResult_beq v10 NOT_APPENDED)) (
    step 599 (let! v11 := deref v9 in TrendGroup_append v11 "BECMG" RP_TAF md_default) (fun p => let v12 := Some (fst p) in let v13 := snd p in 
    chk 599 (Ok (AppendResult_beq v13 NOT_APPENDED)) (
    step 601 (let! v14 := deref v12 in TrendGroup_append v14 "PROB40" RP_TAF md_default) (fun p => let v15 := Some (fst p) in let v16 := snd p in 
    chk 601 (Ok (AppendResult_beq v16 NOT_APPENDED)) (
    step 603 (let! v17 := deref v15 in TrendGroup_append v17 "2520/2522" RP_TAF md_default) (fun p => let v18 := Some (fst p) in let v19 := snd p in 
    chk 603 (Ok (AppendResult_beq v19 NOT_APPENDED)) (
    chk 606 (let! v20 := deref v18 in Ok (TrType_beq (tr_t v20) Tr_FROM)) (
    chk 607 (let! v21 := deref v18 in Ok (TrProb_beq (tr_prob v21) Pr_NONE)) (
    chk 608 (let! v22 := deref v18 in Ok (has_value (tr_from v22))) (
    chk 609 (let! v23 := deref v18 in let! v24 := deref (tr_from v23) in Ok (has_value (dayValue v24))) (
    chk 610 (let! v25 := deref v18 in let! v26 := deref (tr_from v25) in let! v27 := deref (dayValue v26) in Ok (N.eqb v27 19%N)) (
    chk 611 (let! v28 := deref v18 in let! v29 := deref (tr_from v28) in Ok (N.eqb (hourValue v29) 14%N)) (
    chk 612 (let! v30 := deref v18 in let! v31 := deref (tr_from v30) in Ok (N.eqb (minuteValue v31) 45%N)) (
    chk 613 (let! v32 := deref v18 in Ok (negb (has_value (tr_till v32)))) (
    chk 614 (let! v33 := deref v18 in Ok (negb (has_value (tr_at v33)))) (
    None))))))))))))))))))))))).

Definition t_TrendGroup_appendNosig : option N :=
    step 618 ((TrendGroup_parse "NOSIG" RP_METAR md_default)) (fun v1 => 
    chk 619 (Ok (has_value v1)) (
    step 621 (let! v2 := deref v1 in TrendGroup_append v2 "FM191445" RP_METAR md_default) (fun p => let v3 := Some (fst p) in let v4 := snd p in 
    chk 621 (Ok (AppendResult_beq v4 NOT_APPENDED)) (
    step 623 (let! v5 := deref v3 in TrendGroup_append v5 "TL1445" RP_METAR md_default) (fun p => let v6 := Some (fst p) in let v7 := snd p in 
    chk 623 (Ok (AppendResult_beq v7 NOT_APPENDED)) (
    step 625 (let! v8 := deref v6 in TrendGroup_append v8 "NOSIG" RP_METAR md_default) (fun p => let v9 := Some (fst p) in let v10 := snd p in 
    chk 625 (Ok (AppendResult_beq v10 NOT_APPENDED)) (
    step 627 (let! v11 := deref v9 in TrendGroup_append v11 "BECMG" RP_METAR md_default) (fun p => let v12 := Some (fst p) in let v13 := snd p in 
    chk 627 (Ok (AppendResult_beq v13 NOT_APPENDED)) (
    step 629 (let! v14 := deref v12 in TrendGroup_append v14 "PROB40" RP_METAR md_default) (fun p => let v15 := Some (fst p) in let v16 := snd p in 
    chk 629 (Ok (AppendResult_beq v16 NOT_APPENDED)) (
    step 631 (let! v17 := deref v15 in TrendGroup_append v17 "2520/2522" RP_METAR md_default) (fun p => let v18 := Some (fst p) in let v19 := snd p in 
    chk 631 (Ok (AppendResult_beq v19 NOT_APPENDED)) (
    chk 634 (let! v20 := deref v18 in Ok (TrType_beq (tr_t v20) Tr_NOSIG)) (
    chk 635 (let! v21 := deref v18 in Ok (TrProb_beq (tr_prob v21) Pr_NONE)) (
    chk 636 (let! v22 := deref v18 in Ok (negb (has_value (tr_from v22)))) (
    chk 637 (let! v23 := deref v18 in Ok (negb (has_value (tr_till v23)))) (
    chk 638 (let! v24 := deref v18 in Ok (negb (has_value (tr_at v24)))) (
    None))))))))))))))))))).

Definition t_TrendGroup_appendTrendTimeFromUntil : option N :=
    step 649 ((TrendGroup_parse "FM1230" RP_METAR md_default)) (fun v1 => 
    chk 650 (Ok (has_value v1)) (
    step 651 (let! v2 := deref v1 in TrendGroup_append v2 "TL1445" RP_METAR md_default) (fun p => let v3 := Some (fst p) in let v4 := snd p in 
    chk 651 (Ok (AppendResult_beq v4 APPENDED)) (
    chk 654 (let! v5 := deref v3 in Ok (TrType_beq (tr_t v5) Tr_TIME_SPAN)) (
    chk 655 (let! v6 := deref v3 in Ok (has_value (tr_from v6))) (
    chk 656 (let! v7 := deref v3 in let! v8 := deref (tr_from v7) in Ok (negb (has_value (dayValue v8)))) (
    chk 657 (let! v9 := deref v3 in let! v10 := deref (tr_from v9) in Ok (N.eqb (hourValue v10) 12%N)) (
    chk 658 (let! v11 := deref v3 in let! v12 := deref (tr_from v11) in Ok (N.eqb (minuteValue v12) 30%N)) (
    chk 659 (let! v13 := deref v3 in Ok (has_value (tr_till v13))) (
    chk 660 (let! v14 := deref v3 in let! v15 := deref (tr_till v14) in Ok (negb (has_value (dayValue v15)))) (
    chk 661 (let! v16 := deref v3 in let! v17 := deref (tr_till v16) in Ok (N.eqb (hourValue v17) 14%N)) (
    chk 662 (let! v18 := deref v3 in let! v19 := deref (tr_till v18) in Ok (N.eqb (minuteValue v19) 45%N)) (
    None))))))))))))).

Definition t_TrendGroup_appendTrendTimeWrongCombinations : option N :=
    step 670 ((TrendGroup_parse "FM1230" RP_METAR md_default)) (fun v1 => 
    chk 671 (Ok (has_value v1)) (
    step 673 (let! v2 := deref v1 in TrendGroup_append v2 "AT1315" RP_METAR md_default) (fun p => let v3 := Some (fst p) in let v4 := snd p in 
    chk 673 (Ok (AppendResult_beq v4 NOT_APPENDED)) (
    step 675 (let! v5 := deref v3 in TrendGroup_append v5 "FM1230" RP_METAR md_default) (fun p => let v6 := Some (fst p) in let v7 := snd p in 
    chk 675 (Ok (AppendResult_beq v7 NOT_APPENDED)) (
    chk 678 (let! v8 := deref v6 in Ok (TrType_beq (tr_t v8) Tr_FROM)) (
    chk 679 (let! v9 := deref v6 in Ok (TrProb_beq (tr_prob v9) Pr_NONE)) (
    chk 680 (let! v10 := deref v6 in Ok (has_value (tr_from v10))) (
    chk 681 (let! v11 := deref v6 in let! v12 := deref (tr_from v11) in Ok (negb (has_value (dayValue v12)))) (
    chk 682 (let! v13 := deref v6 in let! v14 := deref (tr_from v13) in Ok (N.eqb (hourValue v14) 12%N)) (
    chk 683 (let! v15 := deref v6 in let! v16 := deref (tr_from v15) in Ok (N.eqb (minuteValue v16) 30%N)) (
    chk 684 (let! v17 := deref v6 in Ok (negb (has_value (tr_till v17)))) (
    chk 685 (let! v18 := deref v6 in Ok (negb (has_value (tr_at v18)))) (
    step 687 ((TrendGroup_parse "TL1445" RP_METAR md_default)) (fun v19 => 
    chk 688 (Ok (has_value v19)) (
    step 690 (let! v20 := deref v19 in TrendGroup_append v20 "FM1230" RP_METAR md_default) (fun p => let v21 := Some (fst p) in let v22 := snd p in 
    chk 690 (Ok (AppendResult_beq v22 NOT_APPENDED)) (
    step 692 (let! v23 := deref v21 in TrendGroup_append v23 "AT1315" RP_METAR md_default) (fun p => let v24 := Some (fst p) in let v25 := snd p in 
    chk 692 (Ok (AppendResult_beq v25 NOT_APPENDED)) (
    step 694 (let! v26 := deref v24 in TrendGroup_append v26 "TL1445" RP_METAR md_default) (fun p => let v27 := Some (fst p) in let v28 := snd p in 
    chk 694 (Ok (AppendResult_beq v28 NOT_APPENDED)) (
    chk 697 (let! v29 := deref v27 in Ok (TrType_beq (tr_t v29) Tr_UNTIL)) (
    chk 698 (let! v30 := deref v27 in Ok (TrProb_beq (tr_prob v30) Pr_NONE)) (
    chk 699 (let! v31 := deref v27 in Ok (negb (has_value (tr_from v31)))) (
    chk 700 (let! v32 := deref v27 in Ok (has_value (tr_till v32))) (
    chk 701 (let! v33 := deref v27 in let! v34 := deref (tr_till v33) in Ok (negb (has_value (dayValue v34)))) (
    chk 702 (let! v35 := deref v27 in let! v36 := deref (tr_till v35) in Ok (N.eqb (hourValue v36) 14%N)) (
    chk 703 (let! v37 := deref v27 in let! v38 := deref (tr_till v37) in Ok (N.eqb (minuteValue v38) 45%N)) (
    chk 704 (let! v39 := deref v27 in Ok (negb (has_value (tr_at v39)))) (
    step 706 ((TrendGroup_parse "AT1315" RP_METAR md_default)) (fun v40 => 
    chk 707 (Ok (has_value v40)) (
    step 709 (let! v41 := deref v40 in TrendGroup_append v41 "TL1445" RP_METAR md_default) (fun p => let v42 := Some (fst p) in let v43 := snd p in 
    chk 709 (Ok (AppendResult_beq v43 NOT_APPENDED)) (
    step 711 (let! v44 := deref v42 in TrendGroup_append v44 "AT1315" RP_METAR md_default) (fun p => let v45 := Some (fst p) in let v46 := snd p in 
    chk 711 (Ok (AppendResult_beq v46 NOT_APPENDED)) (
    step 713 (let! v47 := deref v45 in TrendGroup_append v47 "FM1230" RP_METAR md_default) (fun p => let v48 := Some (fst p) in let v49 := snd p in 
    chk 713 (Ok (AppendResult_beq v49 NOT_APPENDED)) (
    chk 716 (let! v50 := deref v48 in Ok (TrType_beq (tr_t v50) Tr_AT)) (
    chk 717 (let! v51 := deref v48 in Ok (TrProb_beq (tr_prob v51) Pr_NONE)) (
    chk 718 (let! v52 := deref v48 in Ok (negb (has_value (tr_from v52)))) (
    chk 719 (let! v53 := deref v48 in Ok (negb (has_value (tr_till v53)))) (
    chk 720 (let! v54 := deref v48 in Ok (has_value (tr_at v54))) (
    chk 721 (let! v55 := deref v48 in let! v56 := deref (tr_at v55) in Ok (negb (has_value (dayValue v56)))) (
    chk 722 (let! v57 := deref v48 in let! v58 := deref (tr_at v57) in Ok (N.eqb (hourValue v58) 13%N)) (
    chk 723 (let! v59 := deref v48 in let! v60 := deref (tr_at v59) in Ok (N.eqb (minuteValue v60) 15%N)) (
    None)))))))))))))))))))))))))))))))))))))))))))))).

Definition t_TrendGroup_isTimeSpanGroupTrue : option N :=
    step 733 ((TrendGroup_parse "1221/1303" RP_HEADER md_default)) (fun v1 => 
    chk 734 (Ok (has_value v1)) (
    chk 735 (let! v2 := deref v1 in Ok (Trend_isTimeSpanGroup v2)) (
    None))).

Definition t_TrendGroup_isTimeSpanGroupFalseCompoundTrendTime : option N :=
    step 739 ((TrendGroup_parse "FM1230" RP_METAR md_default)) (fun v1 => 
    chk 740 (Ok (has_value v1)) (
    step 742 (let! v2 := deref v1 in TrendGroup_append v2 "TL1445" RP_METAR md_default) (fun p => let v3 := Some (fst p) in let v4 := snd p in 
    chk 742 (Ok (AppendResult_beq v4 APPENDED)) (
    chk 745 (let! v5 := deref v3 in Ok (negb (Trend_isTimeSpanGroup v5))) (
    None))))).

Definition t_TrendGroup_isTimeSpanGroupFalseTrendTypeAndAppendedTimeSpan : option N :=
    step 751 ((TrendGroup_parse "2520/2522" RP_TAF md_default)) (fun v1 => 
    chk 752 (Ok (has_value v1)) (
    chk 753 (let! v2 := deref v1 in Ok (Trend_isTimeSpanGroup v2)) (
    step 755 ((TrendGroup_parse "TEMPO" RP_TAF md_default)) (fun v3 => 
    chk 756 (Ok (has_value v3)) (
    step 758 (let! v4 := deref v3 in TrendGroup_append v4 "2520/2522" RP_TAF md_default) (fun p => let v5 := Some (fst p) in let v6 := snd p in 
    chk 758 (Ok (AppendResult_beq v6 APPENDED)) (
    chk 760 (let! v7 := deref v5 in Ok (negb (Trend_isTimeSpanGroup v7))) (
    None)))))))).

Definition t_TrendGroup_isTimeSpanFalseProbabilityAndAppendedTimeSpan : option N :=
    step 766 ((TrendGroup_parse "2520/2522" RP_TAF md_default)) (fun v1 => 
    chk 767 (Ok (has_value v1)) (
    chk 768 (let! v2 := deref v1 in Ok (Trend_isTimeSpanGroup v2)) (
    step 770 ((TrendGroup_parse "PROB30" RP_TAF md_default)) (fun v3 => 
    chk 771 (Ok (has_value v3)) (
    step 773 (let! v4 := deref v3 in TrendGroup_append v4 "2520/2522" RP_TAF md_default) (fun p => let v5 := Some (fst p) in let v6 := snd p in 
    chk 773 (Ok (AppendResult_beq v6 APPENDED)) (
    chk 775 (let! v7 := deref v5 in Ok (negb (Trend_isTimeSpanGroup v7))) (
    None)))))))).

Definition t_TrendGroup_isTimeSpanFalseOther : option N :=
    step 779 ((TrendGroup_parse "FM191445" RP_TAF md_default)) (fun v1 => 
    chk 780 (Ok (has_value v1)) (
    chk 781 (let! v2 := deref v1 in Ok (negb (Trend_isTimeSpanGroup v2))) (
    step 783 ((TrendGroup_parse "BECMG" RP_TAF md_default)) (fun v3 => 
    chk 784 (Ok (has_value v3)) (
    chk 785 (let! v4 := deref v3 in Ok (negb (Trend_isTimeSpanGroup v4))) (
    step 787 ((TrendGroup_parse "TEMPO" RP_TAF md_default)) (fun v5 => 
    chk 788 (Ok (has_value v5)) (
    chk 789 (let! v6 := deref v5 in Ok (negb (Trend_isTimeSpanGroup v6))) (
    step 791 ((TrendGroup_parse "INTER" RP_TAF md_default)) (fun v7 => 
    chk 792 (Ok (has_value v7)) (
    chk 793 (let! v8 := deref v7 in Ok (negb (Trend_isTimeSpanGroup v8))) (
    step 795 ((TrendGroup_parse "NOSIG" RP_METAR md_default)) (fun v9 => 
    chk 796 (Ok (has_value v9)) (
    chk 797 (let! v10 := deref v9 in Ok (negb (Trend_isTimeSpanGroup v10))) (
    step 799 ((TrendGroup_parse "FM1445" RP_METAR md_default)) (fun v11 => 
    chk 800 (Ok (has_value v11)) (
    chk 801 (let! v12 := deref v11 in Ok (negb (Trend_isTimeSpanGroup v12))) (
    step 803 ((TrendGroup_parse "TL1530" RP_METAR md_default)) (fun v13 => 
    chk 804 (Ok (has_value v13)) (
    chk 805 (let! v14 := deref v13 in Ok (negb (Trend_isTimeSpanGroup v14))) (
    step 807 ((TrendGroup_parse "AT0019" RP_METAR md_default)) (fun v15 => 
    chk 808 (Ok (has_value v15)) (
    chk 809 (let! v16 := deref v15 in Ok (negb (Trend_isTimeSpanGroup v16))) (
    None)))))))))))))))))))))))).

Definition t_TrendGroup_isValidTrueNosigBecmgTempoInter : option N :=
    step 818 ((TrendGroup_parse "NOSIG" RP_METAR md_default)) (fun v1 => 
    chk 819 (Ok (has_value v1)) (
    chk 820 (let! v2 := deref v1 in Ok (TrendGroup_isValid v2)) (
    step 822 ((TrendGroup_parse "BECMG" RP_TAF md_default)) (fun v3 => 
    chk 823 (Ok (has_value v3)) (
    chk 824 (let! v4 := deref v3 in Ok (TrendGroup_isValid v4)) (
    step 826 ((TrendGroup_parse "TEMPO" RP_TAF md_default)) (fun v5 => 
    chk 827 (Ok (has_value v5)) (
    chk 828 (let! v6 := deref v5 in Ok (TrendGroup_isValid v6)) (
    step 830 ((TrendGroup_parse "INTER" RP_TAF md_default)) (fun v7 => 
    chk 831 (Ok (has_value v7)) (
    chk 832 (let! v8 := deref v7 in Ok (TrendGroup_isValid v8)) (
    None)))))))))))).

Definition t_TrendGroup_isValidTrueFrom : option N :=
    step 836 ((TrendGroup_parse "FM191445" RP_TAF md_default)) (fun v1 => 
    chk 837 (Ok (has_value v1)) (
    chk 838 (let! v2 := deref v1 in Ok (TrendGroup_isValid v2)) (
    None))).

Definition t_TrendGroup_isValidTrueTimeSpan : option N :=
    step 842 ((TrendGroup_parse "2520/2522" RP_TAF md_default)) (fun v1 => 
    chk 843 (Ok (has_value v1)) (
    chk 844 (let! v2 := deref v1 in Ok (TrendGroup_isValid v2)) (
    None))).

Definition t_TrendGroup_isValidTrueProbAndAppendedTrendType : option N :=
    step 848 ((TrendGroup_parse "PROB40" RP_TAF md_default)) (fun v1 => 
    chk 849 (Ok (has_value v1)) (
    step 851 (let! v2 := deref v1 in TrendGroup_append v2 "TEMPO" RP_TAF md_default) (fun p => let v3 := Some (fst p) in let v4 := snd p in 
    chk 851 (Ok (AppendResult_beq v4 APPENDED)) (
    chk 853 (let! v5 := deref v3 in Ok (TrendGroup_isValid v5)) (
    None))))).

Definition t_TrendGroup_isValidTrueProbAndAppendedTimeSpan : option N :=
    step 857 ((TrendGroup_parse "PROB40" RP_TAF md_default)) (fun v1 => 
    chk 858 (Ok (has_value v1)) (
    step 860 (let! v2 := deref v1 in TrendGroup_append v2 "2520/2522" RP_TAF md_default) (fun p => let v3 := Some (fst p) in let v4 := snd p in 
    chk 860 (Ok (AppendResult_beq v4 APPENDED)) (
    chk 862 (let! v5 := deref v3 in Ok (TrendGroup_isValid v5)) (
    None))))).

Definition t_TrendGroup_isValidTrueProbAndAppendedTrendTypeAndTimeSpan : option N :=
    step 866 ((TrendGroup_parse "PROB40" RP_TAF md_default)) (fun v1 => 
    chk 867 (Ok (has_value v1)) (
    step 869 (let! v2 := deref v1 in TrendGroup_append v2 "TEMPO" RP_TAF md_default) (fun p => let v3 := Some (fst p) in let v4 := snd p in 
    chk 869 (Ok (AppendResult_beq v4 APPENDED)) (
    step 871 (let! v5 := deref v3 in TrendGroup_append v5 "2520/2522" RP_TAF md_default) (fun p => let v6 := Some (fst p) in let v7 := snd p in 
    chk 871 (Ok (AppendResult_beq v7 APPENDED)) (
    chk 873 (let! v8 := deref v6 in Ok (TrendGroup_isValid v8)) (
    None))))))).

Definition t_TrendGroup_isValidTrueTrendTypeAndAppendedTimeSpan : option N :=
    step 877 ((TrendGroup_parse "TEMPO" RP_TAF md_default)) (fun v1 => 
    chk 878 (Ok (has_value v1)) (
    step 880 (let! v2 := deref v1 in TrendGroup_append v2 "2520/2522" RP_TAF md_default) (fun p => let v3 := Some (fst p) in let v4 := snd p in 
    chk 880 (Ok (AppendResult_beq v4 APPENDED)) (
    chk 882 (let! v5 := deref v3 in Ok (TrendGroup_isValid v5)) (
    None))))).

Definition t_TrendGroup_isValidTrueTrendTypeAndAppendedTrendTime : option N :=
    step 886 ((TrendGroup_parse "TEMPO" RP_METAR md_default)) (fun v1 => 
    chk 887 (Ok (has_value v1)) (
    step 889 (let! v2 := deref v1 in TrendGroup_append v2 "FM1445" RP_METAR md_default) (fun p => let v3 := Some (fst p) in let v4 := snd p in 
    chk 889 (Ok (AppendResult_beq v4 APPENDED)) (
    chk 891 (let! v5 := deref v3 in Ok (TrendGroup_isValid v5)) (
    step 893 ((TrendGroup_parse "TEMPO" RP_METAR md_default)) (fun v6 => 
    chk 894 (Ok (has_value v6)) (
    step 896 (let! v7 := deref v6 in TrendGroup_append v7 "TL1530" RP_METAR md_default) (fun p => let v8 := Some (fst p) in let v9 := snd p in 
    chk 896 (Ok (AppendResult_beq v9 APPENDED)) (
    chk 898 (let! v10 := deref v8 in Ok (TrendGroup_isValid v10)) (
    step 900 ((TrendGroup_parse "TEMPO" RP_METAR md_default)) (fun v11 => 
    chk 901 (Ok (has_value v11)) (
    step 903 (let! v12 := deref v11 in TrendGroup_append v12 "AT1921" RP_METAR md_default) (fun p => let v13 := Some (fst p) in let v14 := snd p in 
    chk 903 (Ok (AppendResult_beq v14 APPENDED)) (
    chk 905 (let! v15 := deref v13 in Ok (TrendGroup_isValid v15)) (
    None))))))))))))))).

Definition t_TrendGroup_isValidFalseInvalidTimeSpan : option N :=
    step 909 ((TrendGroup_parse "2520/2525" RP_TAF md_default)) (fun v1 => 
    chk 910 (Ok (has_value v1)) (
    chk 911 (let! v2 := deref v1 in Ok (has_value (tr_till v2))) (
    chk 912 (let! v3 := deref v1 in let! v4 := deref (tr_till v3) in Ok (negb (MetafTime_isValid v4))) (
    chk 913 (let! v5 := deref v1 in Ok (negb (TrendGroup_isValid v5))) (
    None))))).

Definition t_TrendGroup_isValidFalseInvalidTimeFrom : option N :=
    step 917 ((TrendGroup_parse "FM321445" RP_TAF md_default)) (fun v1 => 
    chk 918 (Ok (has_value v1)) (
    chk 919 (let! v2 := deref v1 in Ok (has_value (tr_from v2))) (
    chk 920 (let! v3 := deref v1 in let! v4 := deref (tr_from v3) in Ok (negb (MetafTime_isValid v4))) (
    chk 921 (let! v5 := deref v1 in Ok (negb (TrendGroup_isValid v5))) (
    None))))).

Definition t_TrendGroup_isValidFalseInvalidTrendTime : option N :=
    step 925 ((TrendGroup_parse "AT1465" RP_METAR md_default)) (fun v1 => 
    chk 926 (Ok (has_value v1)) (
    chk 927 (let! v2 := deref v1 in Ok (has_value (tr_at v2))) (
    chk 928 (let! v3 := deref v1 in let! v4 := deref (tr_at v3) in Ok (negb (MetafTime_isValid v4))) (
    chk 929 (let! v5 := deref v1 in Ok (negb (TrendGroup_isValid v5))) (
    None))))).

Definition t_TrendGroup_isValidTrueTrendTimeSingle : option N :=
    step 933 ((TrendGroup_parse "FM1445" RP_METAR md_default)) (fun v1 => 
    chk 934 (Ok (has_value v1)) (
    chk 935 (let! v2 := deref v1 in Ok (TrendGroup_isValid v2)) (
    step 937 ((TrendGroup_parse "TL1445" RP_METAR md_default)) (fun v3 => 
    chk 938 (Ok (has_value v3)) (
    chk 939 (let! v4 := deref v3 in Ok (TrendGroup_isValid v4)) (
    step 941 ((TrendGroup_parse "AT1445" RP_METAR md_default)) (fun v5 => 
    chk 942 (Ok (has_value v5)) (
    chk 943 (let! v6 := deref v5 in Ok (TrendGroup_isValid v6)) (
    None))))))))).

Definition t_TrendGroup_isValidTrueTrendTimeAppended : option N :=
    step 947 ((TrendGroup_parse "FM1445" RP_METAR md_default)) (fun v1 => 
    chk 948 (Ok (has_value v1)) (
    step 949 (let! v2 := deref v1 in TrendGroup_append v2 "TL1530" RP_METAR md_default) (fun p => let v3 := Some (fst p) in let v4 := snd p in 
    chk 949 (Ok (AppendResult_beq v4 APPENDED)) (
    chk 951 (let! v5 := deref v3 in Ok (TrendGroup_isValid v5)) (
    None))))).

Definition t_TrendGroup_isValidFalseProbabilityGroup : option N :=
    step 955 ((TrendGroup_parse "PROB30" RP_TAF md_default)) (fun v1 => 
    chk 956 (Ok (has_value v1)) (
    chk 957 (let! v2 := deref v1 in Ok (negb (TrendGroup_isValid v2))) (
    None))).

Example tests_trendgroup_pass : failures
  [("TrendGroup_parseProb30", t_TrendGroup_parseProb30);
   ("TrendGroup_parseProb40", t_TrendGroup_parseProb40);
   ("TrendGroup_parseProbWrongReportPart", t_TrendGroup_parseProbWrongReportPart);
   ("TrendGroup_parseProbWrongFormat", t_TrendGroup_parseProbWrongFormat);
   ("TrendGroup_parseNosig", t_TrendGroup_parseNosig);
   ("TrendGroup_parseNosigWrongReportPart", t_TrendGroup_parseNosigWrongReportPart);
   ("TrendGroup_parseBecmg", t_TrendGroup_parseBecmg);
   ("TrendGroup_parseBecmgWrongReportPart", t_TrendGroup_parseBecmgWrongReportPart);
   ("TrendGroup_parseTempo", t_TrendGroup_parseTempo);
   ("TrendGroup_parseTempoWrongReportPart", t_TrendGroup_parseTempoWrongReportPart);
   ("TrendGroup_parseInter", t_TrendGroup_parseInter);
   ("TrendGroup_parseInterWrongReportPart", t_TrendGroup_parseInterWrongReportPart);
   ("TrendGroup_parseFm", t_TrendGroup_parseFm);
   ("TrendGroup_parseFmWrongReportPart", t_TrendGroup_parseFmWrongReportPart);
   ("TrendGroup_parseFmWrongFormat", t_TrendGroup_parseFmWrongFormat);
   ("TrendGroup_parseTafTimeSpan", t_TrendGroup_parseTafTimeSpan);
   ("TrendGroup_parseMetarTimeSpan", t_TrendGroup_parseMetarTimeSpan);
   ("TrendGroup_parseTimeSpanWrongReportPart", t_TrendGroup_parseTimeSpanWrongReportPart);
   ("TrendGroup_parseTimeSpanWrongFormat", t_TrendGroup_parseTimeSpanWrongFormat);
   ("TrendGroup_parseTrendTimeFm", t_TrendGroup_parseTrendTimeFm);
   ("TrendGroup_parseTrendTimeFmWrongReportPart", t_TrendGroup_parseTrendTimeFmWrongReportPart);
   ("TrendGroup_parseTrendTimeTl", t_TrendGroup_parseTrendTimeTl);
   ("TrendGroup_parseTrendTimeTlWrongReportPart", t_TrendGroup_parseTrendTimeTlWrongReportPart);
   ("TrendGroup_parseTrendTimeAt", t_TrendGroup_parseTrendTimeAt);
   ("TrendGroup_parseTrendTimeAtWrongReportPart", t_TrendGroup_parseTrendTimeAtWrongReportPart);
   ("TrendGroup_parseTrendTimeWrongFormat", t_TrendGroup_parseTrendTimeWrongFormat);
   ("TrendGroup_parseEmptyString", t_TrendGroup_parseEmptyString);
   ("TrendGroup_appendProbabilityFollowedByTempo", t_TrendGroup_appendProbabilityFollowedByTempo);
   ("TrendGroup_appendProbabilityFollowedByInter", t_TrendGroup_appendProbabilityFollowedByInter);
   ("TrendGroup_appendProbabilityFollowedByTimeSpan", t_TrendGroup_appendProbabilityFollowedByTimeSpan);
   ("TrendGroup_appendProbabilityFollowedByOther", t_TrendGroup_appendProbabilityFollowedByOther);
   ("TrendGroup_appendProbabilityFollowedByKeywordGroup", t_TrendGroup_appendProbabilityFollowedByKeywordGroup);
   ("TrendGroup_appendTrendFollowedByTimeSpan", t_TrendGroup_appendTrendFollowedByTimeSpan);
   ("TrendGroup_appendTrendFollowedByTrendTimeSingle", t_TrendGroup_appendTrendFollowedByTrendTimeSingle);
   ("TrendGroup_appendTrendFollowedByTrendTimeCompound", t_TrendGroup_appendTrendFollowedByTrendTimeCompound);
   ("TrendGroup_appendTrendFollowedByOther", t_TrendGroup_appendTrendFollowedByOther);
   ("TrendGroup_appendProbTrendFollowedByTimeSpan", t_TrendGroup_appendProbTrendFollowedByTimeSpan);
   ("TrendGroup_appendFrom", t_TrendGroup_appendFrom);
   ("TrendGroup_appendNosig", t_TrendGroup_appendNosig);
   ("TrendGroup_appendTrendTimeFromUntil", t_TrendGroup_appendTrendTimeFromUntil);
   ("TrendGroup_appendTrendTimeWrongCombinations", t_TrendGroup_appendTrendTimeWrongCombinations);
   ("TrendGroup_isTimeSpanGroupTrue", t_TrendGroup_isTimeSpanGroupTrue);
   ("TrendGroup_isTimeSpanGroupFalseCompoundTrendTime", t_TrendGroup_isTimeSpanGroupFalseCompoundTrendTime);
   ("TrendGroup_isTimeSpanGroupFalseTrendTypeAndAppendedTimeSpan", t_TrendGroup_isTimeSpanGroupFalseTrendTypeAndAppendedTimeSpan);
   ("TrendGroup_isTimeSpanFalseProbabilityAndAppendedTimeSpan", t_TrendGroup_isTimeSpanFalseProbabilityAndAppendedTimeSpan);
   ("TrendGroup_isTimeSpanFalseOther", t_TrendGroup_isTimeSpanFalseOther);
   ("TrendGroup_isValidTrueNosigBecmgTempoInter", t_TrendGroup_isValidTrueNosigBecmgTempoInter);
   ("TrendGroup_isValidTrueFrom", t_TrendGroup_isValidTrueFrom);
   ("TrendGroup_isValidTrueTimeSpan", t_TrendGroup_isValidTrueTimeSpan);
   ("TrendGroup_isValidTrueProbAndAppendedTrendType", t_TrendGroup_isValidTrueProbAndAppendedTrendType);
   ("TrendGroup_isValidTrueProbAndAppendedTimeSpan", t_TrendGroup_isValidTrueProbAndAppendedTimeSpan);
   ("TrendGroup_isValidTrueProbAndAppendedTrendTypeAndTimeSpan", t_TrendGroup_isValidTrueProbAndAppendedTrendTypeAndTimeSpan);
   ("TrendGroup_isValidTrueTrendTypeAndAppendedTimeSpan", t_TrendGroup_isValidTrueTrendTypeAndAppendedTimeSpan);
   ("TrendGroup_isValidTrueTrendTypeAndAppendedTrendTime", t_TrendGroup_isValidTrueTrendTypeAndAppendedTrendTime);
   ("TrendGroup_isValidFalseInvalidTimeSpan", t_TrendGroup_isValidFalseInvalidTimeSpan);
   ("TrendGroup_isValidFalseInvalidTimeFrom", t_TrendGroup_isValidFalseInvalidTimeFrom);
   ("TrendGroup_isValidFalseInvalidTrendTime", t_TrendGroup_isValidFalseInvalidTrendTime);
   ("TrendGroup_isValidTrueTrendTimeSingle", t_TrendGroup_isValidTrueTrendTimeSingle);
   ("TrendGroup_isValidTrueTrendTimeAppended", t_TrendGroup_isValidTrueTrendTimeAppended);
   ("TrendGroup_isValidFalseProbabilityGroup", t_TrendGroup_isValidFalseProbabilityGroup)] = [].
Proof. vm_compute. reflexivity. Qed.
