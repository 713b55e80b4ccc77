(** Generated by tools/gen_tests.py from /repo/test/test_cloudtype.cpp: the project's own unit tests, run
    against the model. These are tests of the model's fidelity, not properties. *)

From Verif Require Import Prim Regex Float Values Weather Groups1 Groups2 Groups3 Groups4 Parser TestLib.
Local Open Scope string_scope.
Local Open Scope bool_scope.

Definition t_CloudType_constructor : option N :=
    chk 20 (Ok (CtType_beq (ctTp CloudType_default) Ct_NOT_REPORTED)) (
    chk 21 (Ok (negb (Distance_isReported (ctHt CloudType_default)))) (
    chk 22 (Ok (N.eqb (ctOkt CloudType_default) 0%N)) (
    chk 23 (Ok (negb (CloudType_isValid CloudType_default))) (
    None)))).

Definition t_CloudType_parseCumulonimbusNoHeight : option N :=
    step 33 ((CloudType_fromString "CB5")) (fun v1 => 
    chk 34 (Ok (has_value v1)) (
    chk 35 (let! v2 := deref v1 in Ok (CtType_beq (ctTp v2) Ct_CUMULONIMBUS)) (
    chk 36 (let! v3 := deref v1 in Ok (negb (Distance_isReported (ctHt v3)))) (
    chk 37 (let! v4 := deref v1 in Ok (N.eqb (ctOkt v4) 5%N)) (
    chk 38 (let! v5 := deref v1 in Ok (CloudType_isValid v5)) (
    None)))))).

Definition t_CloudType_parseToweringCumulusNoHeight : option N :=
    step 42 ((CloudType_fromString "TCU3")) (fun v1 => 
    chk 43 (Ok (has_value v1)) (
    chk 44 (let! v2 := deref v1 in Ok (CtType_beq (ctTp v2) Ct_TOWERING_CUMULUS)) (
    chk 45 (let! v3 := deref v1 in Ok (negb (Distance_isReported (ctHt v3)))) (
    chk 46 (let! v4 := deref v1 in Ok (N.eqb (ctOkt v4) 3%N)) (
    chk 47 (let! v5 := deref v1 in Ok (CloudType_isValid v5)) (
    None)))))).

Definition t_CloudType_parseCumulusNoHeight : option N :=
    step 51 ((CloudType_fromString "CU2")) (fun v1 => 
    chk 52 (Ok (has_value v1)) (
    chk 53 (let! v2 := deref v1 in Ok (CtType_beq (ctTp v2) Ct_CUMULUS)) (
    chk 54 (let! v3 := deref v1 in Ok (negb (Distance_isReported (ctHt v3)))) (
    chk 55 (let! v4 := deref v1 in Ok (N.eqb (ctOkt v4) 2%N)) (
    chk 56 (let! v5 := deref v1 in Ok (CloudType_isValid v5)) (
    None)))))).

Definition t_CloudType_parseCumulusFractusNoHeight : option N :=
    step 60 ((CloudType_fromString "CF1")) (fun v1 => 
    chk 61 (Ok (has_value v1)) (
    chk 62 (let! v2 := deref v1 in Ok (CtType_beq (ctTp v2) Ct_CUMULUS_FRACTUS)) (
    chk 63 (let! v3 := deref v1 in Ok (negb (Distance_isReported (ctHt v3)))) (
    chk 64 (let! v4 := deref v1 in Ok (N.eqb (ctOkt v4) 1%N)) (
    chk 65 (let! v5 := deref v1 in Ok (CloudType_isValid v5)) (
    None)))))).

Definition t_CloudType_parseStratocumulusNoHeight : option N :=
    step 69 ((CloudType_fromString "SC7")) (fun v1 => 
    chk 70 (Ok (has_value v1)) (
    chk 71 (let! v2 := deref v1 in Ok (CtType_beq (ctTp v2) Ct_STRATOCUMULUS)) (
    chk 72 (let! v3 := deref v1 in Ok (negb (Distance_isReported (ctHt v3)))) (
    chk 73 (let! v4 := deref v1 in Ok (N.eqb (ctOkt v4) 7%N)) (
    chk 74 (let! v5 := deref v1 in Ok (CloudType_isValid v5)) (
    None)))))).

Definition t_CloudType_parseNimbostratusNoHeight : option N :=
    step 78 ((CloudType_fromString "NS8")) (fun v1 => 
    chk 79 (Ok (has_value v1)) (
    chk 80 (let! v2 := deref v1 in Ok (CtType_beq (ctTp v2) Ct_NIMBOSTRATUS)) (
    chk 81 (let! v3 := deref v1 in Ok (negb (Distance_isReported (ctHt v3)))) (
    chk 82 (let! v4 := deref v1 in Ok (N.eqb (ctOkt v4) 8%N)) (
    chk 83 (let! v5 := deref v1 in Ok (CloudType_isValid v5)) (
    None)))))).

Definition t_CloudType_parseStratusNoHeight : option N :=
    step 87 ((CloudType_fromString "ST8")) (fun v1 => 
    chk 88 (Ok (has_value v1)) (
    chk 89 (let! v2 := deref v1 in Ok (CtType_beq (ctTp v2) Ct_STRATUS)) (
    chk 90 (let! v3 := deref v1 in Ok (negb (Distance_isReported (ctHt v3)))) (
    chk 91 (let! v4 := deref v1 in Ok (N.eqb (ctOkt v4) 8%N)) (
    chk 92 (let! v5 := deref v1 in Ok (CloudType_isValid v5)) (
    None)))))).

Definition t_CloudType_parseStratusFractusNoHeight : option N :=
    step 96 ((CloudType_fromString "SF4")) (fun v1 => 
    chk 97 (Ok (has_value v1)) (
    chk 98 (let! v2 := deref v1 in Ok (CtType_beq (ctTp v2) Ct_STRATUS_FRACTUS)) (
    chk 99 (let! v3 := deref v1 in Ok (negb (Distance_isReported (ctHt v3)))) (
    chk 100 (let! v4 := deref v1 in Ok (N.eqb (ctOkt v4) 4%N)) (
    chk 101 (let! v5 := deref v1 in Ok (CloudType_isValid v5)) (
    None)))))).

Definition t_CloudType_parseAltostratusNoHeight : option N :=
    step 105 ((CloudType_fromString "AS8")) (fun v1 => 
    chk 106 (Ok (has_value v1)) (
    chk 107 (let! v2 := deref v1 in Ok (CtType_beq (ctTp v2) Ct_ALTOSTRATUS)) (
    chk 108 (let! v3 := deref v1 in Ok (negb (Distance_isReported (ctHt v3)))) (
    chk 109 (let! v4 := deref v1 in Ok (N.eqb (ctOkt v4) 8%N)) (
    chk 110 (let! v5 := deref v1 in Ok (CloudType_isValid v5)) (
    None)))))).

Definition t_CloudType_parseAltocumulusNoHeight : option N :=
    step 114 ((CloudType_fromString "AC6")) (fun v1 => 
    chk 115 (Ok (has_value v1)) (
    chk 116 (let! v2 := deref v1 in Ok (CtType_beq (ctTp v2) Ct_ALTOCUMULUS)) (
    chk 117 (let! v3 := deref v1 in Ok (negb (Distance_isReported (ctHt v3)))) (
    chk 118 (let! v4 := deref v1 in Ok (N.eqb (ctOkt v4) 6%N)) (
    chk 119 (let! v5 := deref v1 in Ok (CloudType_isValid v5)) (
    None)))))).

Definition t_CloudType_parseAltocumulusCastellanusNoHeight : option N :=
    step 123 ((CloudType_fromString "ACC6")) (fun v1 => 
    chk 124 (Ok (has_value v1)) (
    chk 125 (let! v2 := deref v1 in Ok (CtType_beq (ctTp v2) Ct_ALTOCUMULUS_CASTELLANUS)) (
    chk 126 (let! v3 := deref v1 in Ok (negb (Distance_isReported (ctHt v3)))) (
    chk 127 (let! v4 := deref v1 in Ok (N.eqb (ctOkt v4) 6%N)) (
    chk 128 (let! v5 := deref v1 in Ok (CloudType_isValid v5)) (
    None)))))).

Definition t_CloudType_parseCirrusNoHeight : option N :=
    step 132 ((CloudType_fromString "CI3")) (fun v1 => 
    chk 133 (Ok (has_value v1)) (
    chk 134 (let! v2 := deref v1 in Ok (CtType_beq (ctTp v2) Ct_CIRRUS)) (
    chk 135 (let! v3 := deref v1 in Ok (negb (Distance_isReported (ctHt v3)))) (
    chk 136 (let! v4 := deref v1 in Ok (N.eqb (ctOkt v4) 3%N)) (
    chk 137 (let! v5 := deref v1 in Ok (CloudType_isValid v5)) (
    None)))))).

Definition t_CloudType_parseCirrostratusNoHeight : option N :=
    step 141 ((CloudType_fromString "CS8")) (fun v1 => 
    chk 142 (Ok (has_value v1)) (
    chk 143 (let! v2 := deref v1 in Ok (CtType_beq (ctTp v2) Ct_CIRROSTRATUS)) (
    chk 144 (let! v3 := deref v1 in Ok (negb (Distance_isReported (ctHt v3)))) (
    chk 145 (let! v4 := deref v1 in Ok (N.eqb (ctOkt v4) 8%N)) (
    chk 146 (let! v5 := deref v1 in Ok (CloudType_isValid v5)) (
    None)))))).

Definition t_CloudType_parseCirrocumulusNoHeight : option N :=
    step 150 ((CloudType_fromString "CC5")) (fun v1 => 
    chk 151 (Ok (has_value v1)) (
    chk 152 (let! v2 := deref v1 in Ok (CtType_beq (ctTp v2) Ct_CIRROCUMULUS)) (
    chk 153 (let! v3 := deref v1 in Ok (negb (Distance_isReported (ctHt v3)))) (
    chk 154 (let! v4 := deref v1 in Ok (N.eqb (ctOkt v4) 5%N)) (
    chk 155 (let! v5 := deref v1 in Ok (CloudType_isValid v5)) (
    None)))))).

Definition t_CloudType_parseBlowingSnowNoHeight : option N :=
    step 159 ((CloudType_fromString "BLSN4")) (fun v1 => 
    chk 160 (Ok (has_value v1)) (
    chk 161 (let! v2 := deref v1 in Ok (CtType_beq (ctTp v2) Ct_BLOWING_SNOW)) (
    chk 162 (let! v3 := deref v1 in Ok (negb (Distance_isReported (ctHt v3)))) (
    chk 163 (let! v4 := deref v1 in Ok (N.eqb (ctOkt v4) 4%N)) (
    chk 164 (let! v5 := deref v1 in Ok (CloudType_isValid v5)) (
    None)))))).

Definition t_CloudType_parseBlowingDustNoHeight : option N :=
    step 168 ((CloudType_fromString "BLDU3")) (fun v1 => 
    chk 169 (Ok (has_value v1)) (
    chk 170 (let! v2 := deref v1 in Ok (CtType_beq (ctTp v2) Ct_BLOWING_DUST)) (
    chk 171 (let! v3 := deref v1 in Ok (negb (Distance_isReported (ctHt v3)))) (
    chk 172 (let! v4 := deref v1 in Ok (N.eqb (ctOkt v4) 3%N)) (
    chk 173 (let! v5 := deref v1 in Ok (CloudType_isValid v5)) (
    None)))))).

Definition t_CloudType_parseBlowingSandNoHeight : option N :=
    step 177 ((CloudType_fromString "BLSA3")) (fun v1 => 
    chk 178 (Ok (has_value v1)) (
    chk 179 (let! v2 := deref v1 in Ok (CtType_beq (ctTp v2) Ct_BLOWING_SAND)) (
    chk 180 (let! v3 := deref v1 in Ok (negb (Distance_isReported (ctHt v3)))) (
    chk 181 (let! v4 := deref v1 in Ok (N.eqb (ctOkt v4) 3%N)) (
    chk 182 (let! v5 := deref v1 in Ok (CloudType_isValid v5)) (
    None)))))).

Definition t_CloudType_parseIceCrystalsNoHeight : option N :=
    step 186 ((CloudType_fromString "IC2")) (fun v1 => 
    chk 187 (Ok (has_value v1)) (
    chk 188 (let! v2 := deref v1 in Ok (CtType_beq (ctTp v2) Ct_ICE_CRYSTALS)) (
    chk 189 (let! v3 := deref v1 in Ok (negb (Distance_isReported (ctHt v3)))) (
    chk 190 (let! v4 := deref v1 in Ok (N.eqb (ctOkt v4) 2%N)) (
    chk 191 (let! v5 := deref v1 in Ok (CloudType_isValid v5)) (
    None)))))).

Definition t_CloudType_parseRainNoHeight : option N :=
    step 195 ((CloudType_fromString "RA3")) (fun v1 => 
    chk 196 (Ok (has_value v1)) (
    chk 197 (let! v2 := deref v1 in Ok (CtType_beq (ctTp v2) Ct_RAIN)) (
    chk 198 (let! v3 := deref v1 in Ok (negb (Distance_isReported (ctHt v3)))) (
    chk 199 (let! v4 := deref v1 in Ok (N.eqb (ctOkt v4) 3%N)) (
    chk 200 (let! v5 := deref v1 in Ok (CloudType_isValid v5)) (
    None)))))).

Definition t_CloudType_parseDrizzleNoHeight : option N :=
    step 204 ((CloudType_fromString "DZ1")) (fun v1 => 
    chk 205 (Ok (has_value v1)) (
    chk 206 (let! v2 := deref v1 in Ok (CtType_beq (ctTp v2) Ct_DRIZZLE)) (
    chk 207 (let! v3 := deref v1 in Ok (negb (Distance_isReported (ctHt v3)))) (
    chk 208 (let! v4 := deref v1 in Ok (N.eqb (ctOkt v4) 1%N)) (
    chk 209 (let! v5 := deref v1 in Ok (CloudType_isValid v5)) (
    None)))))).

Definition t_CloudType_parseSnowNoHeight : option N :=
    step 213 ((CloudType_fromString "SN6")) (fun v1 => 
    chk 214 (Ok (has_value v1)) (
    chk 215 (let! v2 := deref v1 in Ok (CtType_beq (ctTp v2) Ct_SNOW)) (
    chk 216 (let! v3 := deref v1 in Ok (negb (Distance_isReported (ctHt v3)))) (
    chk 217 (let! v4 := deref v1 in Ok (N.eqb (ctOkt v4) 6%N)) (
    chk 218 (let! v5 := deref v1 in Ok (CloudType_isValid v5)) (
    None)))))).

Definition t_CloudType_parseIcePelletsNoHeight : option N :=
    step 222 ((CloudType_fromString "PL5")) (fun v1 => 
    chk 223 (Ok (has_value v1)) (
    chk 224 (let! v2 := deref v1 in Ok (CtType_beq (ctTp v2) Ct_ICE_PELLETS)) (
    chk 225 (let! v3 := deref v1 in Ok (negb (Distance_isReported (ctHt v3)))) (
    chk 226 (let! v4 := deref v1 in Ok (N.eqb (ctOkt v4) 5%N)) (
    chk 227 (let! v5 := deref v1 in Ok (CloudType_isValid v5)) (
    None)))))).

Definition t_CloudType_parseSmokeNoHeight : option N :=
    step 231 ((CloudType_fromString "FU8")) (fun v1 => 
    chk 232 (Ok (has_value v1)) (
    chk 233 (let! v2 := deref v1 in Ok (CtType_beq (ctTp v2) Ct_SMOKE)) (
    chk 234 (let! v3 := deref v1 in Ok (negb (Distance_isReported (ctHt v3)))) (
    chk 235 (let! v4 := deref v1 in Ok (N.eqb (ctOkt v4) 8%N)) (
    chk 236 (let! v5 := deref v1 in Ok (CloudType_isValid v5)) (
    None)))))).

Definition t_CloudType_parseFogNoHeight : option N :=
    step 240 ((CloudType_fromString "FG3")) (fun v1 => 
    chk 241 (Ok (has_value v1)) (
    chk 242 (let! v2 := deref v1 in Ok (CtType_beq (ctTp v2) Ct_FOG)) (
    chk 243 (let! v3 := deref v1 in Ok (negb (Distance_isReported (ctHt v3)))) (
    chk 244 (let! v4 := deref v1 in Ok (N.eqb (ctOkt v4) 3%N)) (
    chk 245 (let! v5 := deref v1 in Ok (CloudType_isValid v5)) (
    None)))))).

Definition t_CloudType_parseMistNoHeight : option N :=
    step 249 ((CloudType_fromString "BR3")) (fun v1 => 
    chk 250 (Ok (has_value v1)) (
    chk 251 (let! v2 := deref v1 in Ok (CtType_beq (ctTp v2) Ct_MIST)) (
    chk 252 (let! v3 := deref v1 in Ok (negb (Distance_isReported (ctHt v3)))) (
    chk 253 (let! v4 := deref v1 in Ok (N.eqb (ctOkt v4) 3%N)) (
    chk 254 (let! v5 := deref v1 in Ok (CloudType_isValid v5)) (
    None)))))).

Definition t_CloudType_parseHazeNoHeight : option N :=
    step 258 ((CloudType_fromString "HZ7")) (fun v1 => 
    chk 259 (Ok (has_value v1)) (
    chk 260 (let! v2 := deref v1 in Ok (CtType_beq (ctTp v2) Ct_HAZE)) (
    chk 261 (let! v3 := deref v1 in Ok (negb (Distance_isReported (ctHt v3)))) (
    chk 262 (let! v4 := deref v1 in Ok (N.eqb (ctOkt v4) 7%N)) (
    chk 263 (let! v5 := deref v1 in Ok (CloudType_isValid v5)) (
    None)))))).

Definition t_CloudType_parseInvalidOktaNoHeight : option N :=
    step 267 ((CloudType_fromString "SC0")) (fun v1 => 
    chk 268 (Ok (has_value v1)) (
    chk 269 (let! v2 := deref v1 in Ok (CtType_beq (ctTp v2) Ct_STRATOCUMULUS)) (
    chk 270 (let! v3 := deref v1 in Ok (negb (Distance_isReported (ctHt v3)))) (
    chk 271 (let! v4 := deref v1 in Ok (N.eqb (ctOkt v4) 0%N)) (
    chk 272 (let! v5 := deref v1 in Ok (negb (CloudType_isValid v5))) (
    step 274 ((CloudType_fromString "SC9")) (fun v6 => 
    chk 275 (Ok (has_value v6)) (
    chk 276 (let! v7 := deref v6 in Ok (CtType_beq (ctTp v7) Ct_STRATOCUMULUS)) (
    chk 277 (let! v8 := deref v6 in Ok (negb (Distance_isReported (ctHt v8)))) (
    chk 278 (let! v9 := deref v6 in Ok (N.eqb (ctOkt v9) 9%N)) (
    chk 279 (let! v10 := deref v6 in Ok (negb (CloudType_isValid v10))) (
    None)))))))))))).

Definition t_CloudType_parseCumulonimbusWithHeight : option N :=
    step 290 ((CloudType_fromString "1CB025")) (fun v1 => 
    chk 291 (Ok (has_value v1)) (
    chk 292 (let! v2 := deref v1 in Ok (CtType_beq (ctTp v2) Ct_CUMULONIMBUS)) (
    chk 293 (let! v3 := deref v1 in Ok (Distance_isReported (ctHt v3))) (
    chk 294 (let! v4 := deref v1 in Ok (DistModifier_beq (distModifier (ctHt v4)) DM_NONE)) (
    chk 295 (let! v5 := deref v1 in Ok (has_value (Distance_distance (ctHt v5)))) (
    chk 296 (let! v6 := deref v1 in let! v7 := deref (Distance_distance (ctHt v6)) in Ok (near v7 (dlit (2500) 1) (dlit (1) 2))) (
    chk 297 (let! v8 := deref v1 in Ok (DistUnit_beq (distUnit (ctHt v8)) FEET)) (
    chk 298 (let! v9 := deref v1 in Ok (N.eqb (ctOkt v9) 1%N)) (
    chk 299 (let! v10 := deref v1 in Ok (CloudType_isValid v10)) (
    None)))))))))).

Definition t_CloudType_parseToweringCumulusWithHeight : option N :=
    step 303 ((CloudType_fromString "1TCU020")) (fun v1 => 
    chk 304 (Ok (has_value v1)) (
    chk 305 (let! v2 := deref v1 in Ok (CtType_beq (ctTp v2) Ct_TOWERING_CUMULUS)) (
    chk 306 (let! v3 := deref v1 in Ok (Distance_isReported (ctHt v3))) (
    chk 307 (let! v4 := deref v1 in Ok (DistModifier_beq (distModifier (ctHt v4)) DM_NONE)) (
    chk 308 (let! v5 := deref v1 in Ok (has_value (Distance_distance (ctHt v5)))) (
    chk 309 (let! v6 := deref v1 in let! v7 := deref (Distance_distance (ctHt v6)) in Ok (near v7 (dlit (2000) 1) (dlit (1) 2))) (
    chk 310 (let! v8 := deref v1 in Ok (DistUnit_beq (distUnit (ctHt v8)) FEET)) (
    chk 311 (let! v9 := deref v1 in Ok (N.eqb (ctOkt v9) 1%N)) (
    chk 312 (let! v10 := deref v1 in Ok (CloudType_isValid v10)) (
    None)))))))))).

Definition t_CloudType_parseCumulusWithHeight : option N :=
    step 316 ((CloudType_fromString "6CU020")) (fun v1 => 
    chk 317 (Ok (has_value v1)) (
    chk 318 (let! v2 := deref v1 in Ok (CtType_beq (ctTp v2) Ct_CUMULUS)) (
    chk 319 (let! v3 := deref v1 in Ok (Distance_isReported (ctHt v3))) (
    chk 320 (let! v4 := deref v1 in Ok (DistModifier_beq (distModifier (ctHt v4)) DM_NONE)) (
    chk 321 (let! v5 := deref v1 in Ok (has_value (Distance_distance (ctHt v5)))) (
    chk 322 (let! v6 := deref v1 in let! v7 := deref (Distance_distance (ctHt v6)) in Ok (near v7 (dlit (2000) 1) (dlit (1) 2))) (
    chk 323 (let! v8 := deref v1 in Ok (DistUnit_beq (distUnit (ctHt v8)) FEET)) (
    chk 324 (let! v9 := deref v1 in Ok (N.eqb (ctOkt v9) 6%N)) (
    chk 325 (let! v10 := deref v1 in Ok (CloudType_isValid v10)) (
    None)))))))))).

Definition t_CloudType_parseStratocumulusWithHeight : option N :=
    step 329 ((CloudType_fromString "6SC060")) (fun v1 => 
    chk 330 (Ok (has_value v1)) (
    chk 331 (let! v2 := deref v1 in Ok (CtType_beq (ctTp v2) Ct_STRATOCUMULUS)) (
    chk 332 (let! v3 := deref v1 in Ok (Distance_isReported (ctHt v3))) (
    chk 333 (let! v4 := deref v1 in Ok (DistModifier_beq (distModifier (ctHt v4)) DM_NONE)) (
    chk 334 (let! v5 := deref v1 in Ok (has_value (Distance_distance (ctHt v5)))) (
    chk 335 (let! v6 := deref v1 in let! v7 := deref (Distance_distance (ctHt v6)) in Ok (near v7 (dlit (6000) 1) (dlit (1) 2))) (
    chk 336 (let! v8 := deref v1 in Ok (DistUnit_beq (distUnit (ctHt v8)) FEET)) (
    chk 337 (let! v9 := deref v1 in Ok (N.eqb (ctOkt v9) 6%N)) (
    chk 338 (let! v10 := deref v1 in Ok (CloudType_isValid v10)) (
    None)))))))))).

Definition t_CloudType_parseNimbostratusWithHeight : option N :=
    step 342 ((CloudType_fromString "8NS035")) (fun v1 => 
    chk 343 (Ok (has_value v1)) (
    chk 344 (let! v2 := deref v1 in Ok (CtType_beq (ctTp v2) Ct_NIMBOSTRATUS)) (
    chk 345 (let! v3 := deref v1 in Ok (Distance_isReported (ctHt v3))) (
    chk 346 (let! v4 := deref v1 in Ok (DistModifier_beq (distModifier (ctHt v4)) DM_NONE)) (
    chk 347 (let! v5 := deref v1 in Ok (has_value (Distance_distance (ctHt v5)))) (
    chk 348 (let! v6 := deref v1 in let! v7 := deref (Distance_distance (ctHt v6)) in Ok (near v7 (dlit (3500) 1) (dlit (1) 2))) (
    chk 349 (let! v8 := deref v1 in Ok (DistUnit_beq (distUnit (ctHt v8)) FEET)) (
    chk 350 (let! v9 := deref v1 in Ok (N.eqb (ctOkt v9) 8%N)) (
    chk 351 (let! v10 := deref v1 in Ok (CloudType_isValid v10)) (
    None)))))))))).

Definition t_CloudType_parseStratusWithHeight : option N :=
    step 355 ((CloudType_fromString "1ST005")) (fun v1 => 
    chk 356 (Ok (has_value v1)) (
    chk 357 (let! v2 := deref v1 in Ok (CtType_beq (ctTp v2) Ct_STRATUS)) (
    chk 358 (let! v3 := deref v1 in Ok (Distance_isReported (ctHt v3))) (
    chk 359 (let! v4 := deref v1 in Ok (DistModifier_beq (distModifier (ctHt v4)) DM_NONE)) (
    chk 360 (let! v5 := deref v1 in Ok (has_value (Distance_distance (ctHt v5)))) (
    chk 361 (let! v6 := deref v1 in let! v7 := deref (Distance_distance (ctHt v6)) in Ok (near v7 (dlit (500) 1) (dlit (1) 2))) (
    chk 362 (let! v8 := deref v1 in Ok (DistUnit_beq (distUnit (ctHt v8)) FEET)) (
    chk 363 (let! v9 := deref v1 in Ok (N.eqb (ctOkt v9) 1%N)) (
    chk 364 (let! v10 := deref v1 in Ok (CloudType_isValid v10)) (
    None)))))))))).

Definition t_CloudType_parseAltostratusWithHeight : option N :=
    step 368 ((CloudType_fromString "8AS100")) (fun v1 => 
    chk 369 (Ok (has_value v1)) (
    chk 370 (let! v2 := deref v1 in Ok (CtType_beq (ctTp v2) Ct_ALTOSTRATUS)) (
    chk 371 (let! v3 := deref v1 in Ok (Distance_isReported (ctHt v3))) (
    chk 372 (let! v4 := deref v1 in Ok (DistModifier_beq (distModifier (ctHt v4)) DM_NONE)) (
    chk 373 (let! v5 := deref v1 in Ok (has_value (Distance_distance (ctHt v5)))) (
    chk 374 (let! v6 := deref v1 in let! v7 := deref (Distance_distance (ctHt v6)) in Ok (near v7 (dlit (10000) 1) (dlit (1) 2))) (
    chk 375 (let! v8 := deref v1 in Ok (DistUnit_beq (distUnit (ctHt v8)) FEET)) (
    chk 376 (let! v9 := deref v1 in Ok (N.eqb (ctOkt v9) 8%N)) (
    chk 377 (let! v10 := deref v1 in Ok (CloudType_isValid v10)) (
    None)))))))))).

Definition t_CloudType_parseAltocumulusWithHeight : option N :=
    step 381 ((CloudType_fromString "7AC150")) (fun v1 => 
    chk 382 (Ok (has_value v1)) (
    chk 383 (let! v2 := deref v1 in Ok (CtType_beq (ctTp v2) Ct_ALTOCUMULUS)) (
    chk 384 (let! v3 := deref v1 in Ok (Distance_isReported (ctHt v3))) (
    chk 385 (let! v4 := deref v1 in Ok (DistModifier_beq (distModifier (ctHt v4)) DM_NONE)) (
    chk 386 (let! v5 := deref v1 in Ok (has_value (Distance_distance (ctHt v5)))) (
    chk 387 (let! v6 := deref v1 in let! v7 := deref (Distance_distance (ctHt v6)) in Ok (near v7 (dlit (15000) 1) (dlit (1) 2))) (
    chk 388 (let! v8 := deref v1 in Ok (DistUnit_beq (distUnit (ctHt v8)) FEET)) (
    chk 389 (let! v9 := deref v1 in Ok (N.eqb (ctOkt v9) 7%N)) (
    chk 390 (let! v10 := deref v1 in Ok (CloudType_isValid v10)) (
    None)))))))))).

Definition t_CloudType_parseCirrusWithHeight : option N :=
    step 394 ((CloudType_fromString "5CI230")) (fun v1 => 
    chk 395 (Ok (has_value v1)) (
    chk 396 (let! v2 := deref v1 in Ok (CtType_beq (ctTp v2) Ct_CIRRUS)) (
    chk 397 (let! v3 := deref v1 in Ok (Distance_isReported (ctHt v3))) (
    chk 398 (let! v4 := deref v1 in Ok (DistModifier_beq (distModifier (ctHt v4)) DM_NONE)) (
    chk 399 (let! v5 := deref v1 in Ok (has_value (Distance_distance (ctHt v5)))) (
    chk 400 (let! v6 := deref v1 in let! v7 := deref (Distance_distance (ctHt v6)) in Ok (near v7 (dlit (23000) 1) (dlit (1) 2))) (
    chk 401 (let! v8 := deref v1 in Ok (DistUnit_beq (distUnit (ctHt v8)) FEET)) (
    chk 402 (let! v9 := deref v1 in Ok (N.eqb (ctOkt v9) 5%N)) (
    chk 403 (let! v10 := deref v1 in Ok (CloudType_isValid v10)) (
    None)))))))))).

Definition t_CloudType_parseInvalidOktaWithHeight : option N :=
    step 407 ((CloudType_fromString "0CU025")) (fun v1 => 
    chk 408 (Ok (has_value v1)) (
    chk 409 (let! v2 := deref v1 in Ok (CtType_beq (ctTp v2) Ct_CUMULUS)) (
    chk 410 (let! v3 := deref v1 in Ok (Distance_isReported (ctHt v3))) (
    chk 411 (let! v4 := deref v1 in Ok (DistModifier_beq (distModifier (ctHt v4)) DM_NONE)) (
    chk 412 (let! v5 := deref v1 in Ok (has_value (Distance_distance (ctHt v5)))) (
    chk 413 (let! v6 := deref v1 in let! v7 := deref (Distance_distance (ctHt v6)) in Ok (near v7 (dlit (2500) 1) (dlit (1) 2))) (
    chk 414 (let! v8 := deref v1 in Ok (DistUnit_beq (distUnit (ctHt v8)) FEET)) (
    chk 415 (let! v9 := deref v1 in Ok (N.eqb (ctOkt v9) 0%N)) (
    chk 416 (let! v10 := deref v1 in Ok (negb (CloudType_isValid v10))) (
    step 418 ((CloudType_fromString "9CU025")) (fun v11 => 
    chk 419 (Ok (has_value v11)) (
    chk 420 (let! v12 := deref v11 in Ok (CtType_beq (ctTp v12) Ct_CUMULUS)) (
    chk 421 (let! v13 := deref v11 in Ok (Distance_isReported (ctHt v13))) (
    chk 422 (let! v14 := deref v11 in Ok (DistModifier_beq (distModifier (ctHt v14)) DM_NONE)) (
    chk 423 (let! v15 := deref v11 in Ok (has_value (Distance_distance (ctHt v15)))) (
    chk 424 (let! v16 := deref v11 in let! v17 := deref (Distance_distance (ctHt v16)) in Ok (near v17 (dlit (2500) 1) (dlit (1) 2))) (
    chk 425 (let! v18 := deref v11 in Ok (DistUnit_beq (distUnit (ctHt v18)) FEET)) (
    chk 426 (let! v19 := deref v11 in Ok (N.eqb (ctOkt v19) 9%N)) (
    chk 427 (let! v20 := deref v11 in Ok (negb (CloudType_isValid v20))) (
    None)))))))))))))))))))).

Definition t_CloudType_parseGroundBasedWithHeight : option N :=
    step 431 ((CloudType_fromString "6CU000")) (fun v1 => 
    chk 432 (Ok (has_value v1)) (
    chk 433 (let! v2 := deref v1 in Ok (CtType_beq (ctTp v2) Ct_CUMULUS)) (
    chk 434 (let! v3 := deref v1 in Ok (Distance_isReported (ctHt v3))) (
    chk 435 (let! v4 := deref v1 in Ok (DistModifier_beq (distModifier (ctHt v4)) DM_NONE)) (
    chk 436 (let! v5 := deref v1 in Ok (has_value (Distance_distance (ctHt v5)))) (
    chk 437 (let! v6 := deref v1 in let! v7 := deref (Distance_distance (ctHt v6)) in Ok (near v7 (dlit (0) 1) (dlit (1) 2))) (
    chk 438 (let! v8 := deref v1 in Ok (DistUnit_beq (distUnit (ctHt v8)) FEET)) (
    chk 439 (let! v9 := deref v1 in Ok (N.eqb (ctOkt v9) 6%N)) (
    chk 440 (let! v10 := deref v1 in Ok (CloudType_isValid v10)) (
    None)))))))))).

Definition t_CloudType_parseObsurations : option N :=
    chk 444 (let! v1 := (CloudType_fromString "6BLSN000") in Ok (negb (has_value v1))) (
    chk 445 (let! v2 := (CloudType_fromString "6BLDU000") in Ok (negb (has_value v2))) (
    chk 446 (let! v3 := (CloudType_fromString "6BLSA000") in Ok (negb (has_value v3))) (
    chk 447 (let! v4 := (CloudType_fromString "6IC000") in Ok (negb (has_value v4))) (
    chk 448 (let! v5 := (CloudType_fromString "6RA000") in Ok (negb (has_value v5))) (
    chk 449 (let! v6 := (CloudType_fromString "6SN000") in Ok (negb (has_value v6))) (
    chk 450 (let! v7 := (CloudType_fromString "6DZ000") in Ok (negb (has_value v7))) (
    chk 451 (let! v8 := (CloudType_fromString "6FU000") in Ok (negb (has_value v8))) (
    chk 452 (let! v9 := (CloudType_fromString "6FG000") in Ok (negb (has_value v9))) (
    chk 453 (let! v10 := (CloudType_fromString "6BR000") in Ok (negb (has_value v10))) (
    chk 454 (let! v11 := (CloudType_fromString "6HZ000") in Ok (negb (has_value v11))) (
    chk 456 (let! v12 := (CloudType_fromString "6BLSN001") in Ok (negb (has_value v12))) (
    chk 457 (let! v13 := (CloudType_fromString "6BLDU001") in Ok (negb (has_value v13))) (
    chk 458 (let! v14 := (CloudType_fromString "6BLSA001") in Ok (negb (has_value v14))) (
    chk 459 (let! v15 := (CloudType_fromString "6IC001") in Ok (negb (has_value v15))) (
    chk 460 (let! v16 := (CloudType_fromString "6RA001") in Ok (negb (has_value v16))) (
    chk 461 (let! v17 := (CloudType_fromString "6SN001") in Ok (negb (has_value v17))) (
    chk 462 (let! v18 := (CloudType_fromString "6DZ001") in Ok (negb (has_value v18))) (
    chk 463 (let! v19 := (CloudType_fromString "6FU001") in Ok (negb (has_value v19))) (
    chk 464 (let! v20 := (CloudType_fromString "6FG001") in Ok (negb (has_value v20))) (
    chk 465 (let! v21 := (CloudType_fromString "6BR001") in Ok (negb (has_value v21))) (
    chk 466 (let! v22 := (CloudType_fromString "6HZ001") in Ok (negb (has_value v22))) (
    None)))))))))))))))))))))).

Definition t_CloudType_parseObscurationBlowingSnow : option N :=
    chk 477 (Ok (has_value (CloudType_fromStringObscuration "BLSN"))) (
    chk 478 (let! v1 := deref (CloudType_fromStringObscuration "BLSN") in Ok (CtType_beq (ctTp v1) Ct_BLOWING_SNOW)) (
    chk 479 (let! v2 := deref (CloudType_fromStringObscuration "BLSN") in Ok (negb (Distance_isReported (ctHt v2)))) (
    chk 480 (let! v3 := deref (CloudType_fromStringObscuration "BLSN") in Ok (N.eqb (ctOkt v3) 0%N)) (
    chk 481 (let! v4 := deref (CloudType_fromStringObscuration "BLSN") in Ok (negb (CloudType_isValid v4))) (
    None))))).

Definition t_CloudType_parseObscurationBlowingDust : option N :=
    chk 486 (Ok (has_value (CloudType_fromStringObscuration "BLDU"))) (
    chk 487 (let! v1 := deref (CloudType_fromStringObscuration "BLDU") in Ok (CtType_beq (ctTp v1) Ct_BLOWING_DUST)) (
    chk 488 (let! v2 := deref (CloudType_fromStringObscuration "BLDU") in Ok (negb (Distance_isReported (ctHt v2)))) (
    chk 489 (let! v3 := deref (CloudType_fromStringObscuration "BLDU") in Ok (N.eqb (ctOkt v3) 0%N)) (
    chk 490 (let! v4 := deref (CloudType_fromStringObscuration "BLDU") in Ok (negb (CloudType_isValid v4))) (
    None))))).

Definition t_CloudType_parseObscurationBlowingSand : option N :=
    chk 495 (Ok (has_value (CloudType_fromStringObscuration "BLSA"))) (
    chk 496 (let! v1 := deref (CloudType_fromStringObscuration "BLSA") in Ok (CtType_beq (ctTp v1) Ct_BLOWING_SAND)) (
    chk 497 (let! v2 := deref (CloudType_fromStringObscuration "BLSA") in Ok (negb (Distance_isReported (ctHt v2)))) (
    chk 498 (let! v3 := deref (CloudType_fromStringObscuration "BLSA") in Ok (N.eqb (ctOkt v3) 0%N)) (
    chk 499 (let! v4 := deref (CloudType_fromStringObscuration "BLSA") in Ok (negb (CloudType_isValid v4))) (
    None))))).

Definition t_CloudType_parseObscurationFog : option N :=
    chk 504 (Ok (has_value (CloudType_fromStringObscuration "FG"))) (
    chk 505 (let! v1 := deref (CloudType_fromStringObscuration "FG") in Ok (CtType_beq (ctTp v1) Ct_FOG)) (
    chk 506 (let! v2 := deref (CloudType_fromStringObscuration "FG") in Ok (negb (Distance_isReported (ctHt v2)))) (
    chk 507 (let! v3 := deref (CloudType_fromStringObscuration "FG") in Ok (N.eqb (ctOkt v3) 0%N)) (
    chk 508 (let! v4 := deref (CloudType_fromStringObscuration "FG") in Ok (negb (CloudType_isValid v4))) (
    None))))).

Definition t_CloudType_parseObscurationSmoke : option N :=
    chk 513 (Ok (has_value (CloudType_fromStringObscuration "FU"))) (
    chk 514 (let! v1 := deref (CloudType_fromStringObscuration "FU") in Ok (CtType_beq (ctTp v1) Ct_SMOKE)) (
    chk 515 (let! v2 := deref (CloudType_fromStringObscuration "FU") in Ok (negb (Distance_isReported (ctHt v2)))) (
    chk 516 (let! v3 := deref (CloudType_fromStringObscuration "FU") in Ok (N.eqb (ctOkt v3) 0%N)) (
    chk 517 (let! v4 := deref (CloudType_fromStringObscuration "FU") in Ok (negb (CloudType_isValid v4))) (
    None))))).

Definition t_CloudType_parseObscurationVolcanicAsh : option N :=
    chk 522 (Ok (has_value (CloudType_fromStringObscuration "VA"))) (
    chk 523 (let! v1 := deref (CloudType_fromStringObscuration "VA") in Ok (CtType_beq (ctTp v1) Ct_VOLCANIC_ASH)) (
    chk 524 (let! v2 := deref (CloudType_fromStringObscuration "VA") in Ok (negb (Distance_isReported (ctHt v2)))) (
    chk 525 (let! v3 := deref (CloudType_fromStringObscuration "VA") in Ok (N.eqb (ctOkt v3) 0%N)) (
    chk 526 (let! v4 := deref (CloudType_fromStringObscuration "VA") in Ok (negb (CloudType_isValid v4))) (
    None))))).

Definition t_CloudType_parseOther : option N :=
    chk 535 (let! v1 := (CloudType_fromString "") in Ok (negb (has_value v1))) (
    chk 536 (let! v2 := (CloudType_fromString "1") in Ok (negb (has_value v2))) (
    chk 537 (let! v3 := (CloudType_fromString "41") in Ok (negb (has_value v3))) (
    chk 538 (let! v4 := (CloudType_fromString "022") in Ok (negb (has_value v4))) (
    chk 539 (let! v5 := (CloudType_fromString "Z") in Ok (negb (has_value v5))) (
    chk 540 (let! v6 := (CloudType_fromString "CB") in Ok (negb (has_value v6))) (
    chk 541 (let! v7 := (CloudType_fromString "TCU") in Ok (negb (has_value v7))) (
    chk 542 (let! v8 := (CloudType_fromString "BLSN") in Ok (negb (has_value v8))) (
    chk 543 (let! v9 := (CloudType_fromString "ZCB") in Ok (negb (has_value v9))) (
    chk 544 (let! v10 := (CloudType_fromString "ZTCU") in Ok (negb (has_value v10))) (
    chk 545 (let! v11 := (CloudType_fromString "ZBLSN") in Ok (negb (has_value v11))) (
    chk 546 (let! v12 := (CloudType_fromString "ZB4") in Ok (negb (has_value v12))) (
    chk 547 (let! v13 := (CloudType_fromString "ZCU4") in Ok (negb (has_value v13))) (
    chk 548 (let! v14 := (CloudType_fromString "ZLSN4") in Ok (negb (has_value v14))) (
    chk 549 (let! v15 := (CloudType_fromString "/4") in Ok (negb (has_value v15))) (
    chk 550 (let! v16 := (CloudType_fromString "//4") in Ok (negb (has_value v16))) (
    chk 551 (let! v17 := (CloudType_fromString "///4") in Ok (negb (has_value v17))) (
    chk 552 (let! v18 := (CloudType_fromString "////4") in Ok (negb (has_value v18))) (
    chk 553 (let! v19 := (CloudType_fromString "CB/") in Ok (negb (has_value v19))) (
    chk 554 (let! v20 := (CloudType_fromString "TCU/") in Ok (negb (has_value v20))) (
    chk 555 (let! v21 := (CloudType_fromString "BLSN/") in Ok (negb (has_value v21))) (
    chk 556 (let! v22 := (CloudType_fromString "3CB///") in Ok (negb (has_value v22))) (
    chk 557 (let! v23 := (CloudType_fromString "/CB015") in Ok (negb (has_value v23))) (
    chk 558 (let! v24 := (CloudType_fromString "3//015") in Ok (negb (has_value v24))) (
    chk 559 (let! v25 := (CloudType_fromString "3///015") in Ok (negb (has_value v25))) (
    chk 560 (let! v26 := (CloudType_fromString "ZCB015") in Ok (negb (has_value v26))) (
    chk 561 (let! v27 := (CloudType_fromString "3CBZ15") in Ok (negb (has_value v27))) (
    chk 562 (let! v28 := (CloudType_fromString "3CB01Z") in Ok (negb (has_value v28))) (
    chk 563 (let! v29 := (CloudType_fromString "3CB15") in Ok (negb (has_value v29))) (
    chk 564 (let! v30 := (CloudType_fromString "CB015") in Ok (negb (has_value v30))) (
    chk 565 (let! v31 := (CloudType_fromString "03CB015") in Ok (negb (has_value v31))) (
    chk 566 (let! v32 := (CloudType_fromString "3CB0015") in Ok (negb (has_value v32))) (
    None)))))))))))))))))))))))))))))))).

Example tests_cloudtype_pass : failures
  [("CloudType_constructor", t_CloudType_constructor);
   ("CloudType_parseCumulonimbusNoHeight", t_CloudType_parseCumulonimbusNoHeight);
   ("CloudType_parseToweringCumulusNoHeight", t_CloudType_parseToweringCumulusNoHeight);
   ("CloudType_parseCumulusNoHeight", t_CloudType_parseCumulusNoHeight);
   ("CloudType_parseCumulusFractusNoHeight", t_CloudType_parseCumulusFractusNoHeight);
   ("CloudType_parseStratocumulusNoHeight", t_CloudType_parseStratocumulusNoHeight);
   ("CloudType_parseNimbostratusNoHeight", t_CloudType_parseNimbostratusNoHeight);
   ("CloudType_parseStratusNoHeight", t_CloudType_parseStratusNoHeight);
   ("CloudType_parseStratusFractusNoHeight", t_CloudType_parseStratusFractusNoHeight);
   ("CloudType_parseAltostratusNoHeight", t_CloudType_parseAltostratusNoHeight);
   ("CloudType_parseAltocumulusNoHeight", t_CloudType_parseAltocumulusNoHeight);
   ("CloudType_parseAltocumulusCastellanusNoHeight", t_CloudType_parseAltocumulusCastellanusNoHeight);
   ("CloudType_parseCirrusNoHeight", t_CloudType_parseCirrusNoHeight);
   ("CloudType_parseCirrostratusNoHeight", t_CloudType_parseCirrostratusNoHeight);
   ("CloudType_parseCirrocumulusNoHeight", t_CloudType_parseCirrocumulusNoHeight);
   ("CloudType_parseBlowingSnowNoHeight", t_CloudType_parseBlowingSnowNoHeight);
   ("CloudType_parseBlowingDustNoHeight", t_CloudType_parseBlowingDustNoHeight);
   ("CloudType_parseBlowingSandNoHeight", t_CloudType_parseBlowingSandNoHeight);
   ("CloudType_parseIceCrystalsNoHeight", t_CloudType_parseIceCrystalsNoHeight);
   ("CloudType_parseRainNoHeight", t_CloudType_parseRainNoHeight);
   ("CloudType_parseDrizzleNoHeight", t_CloudType_parseDrizzleNoHeight);
   ("CloudType_parseSnowNoHeight", t_CloudType_parseSnowNoHeight);
   ("CloudType_parseIcePelletsNoHeight", t_CloudType_parseIcePelletsNoHeight);
   ("CloudType_parseSmokeNoHeight", t_CloudType_parseSmokeNoHeight);
   ("CloudType_parseFogNoHeight", t_CloudType_parseFogNoHeight);
   ("CloudType_parseMistNoHeight", t_CloudType_parseMistNoHeight);
   ("CloudType_parseHazeNoHeight", t_CloudType_parseHazeNoHeight);
   ("CloudType_parseInvalidOktaNoHeight", t_CloudType_parseInvalidOktaNoHeight);
   ("CloudType_parseCumulonimbusWithHeight", t_CloudType_parseCumulonimbusWithHeight);
   ("CloudType_parseToweringCumulusWithHeight", t_CloudType_parseToweringCumulusWithHeight);
   ("CloudType_parseCumulusWithHeight", t_CloudType_parseCumulusWithHeight);
   ("CloudType_parseStratocumulusWithHeight", t_CloudType_parseStratocumulusWithHeight);
   ("CloudType_parseNimbostratusWithHeight", t_CloudType_parseNimbostratusWithHeight);
   ("CloudType_parseStratusWithHeight", t_CloudType_parseStratusWithHeight);
   ("CloudType_parseAltostratusWithHeight", t_CloudType_parseAltostratusWithHeight);
   ("CloudType_parseAltocumulusWithHeight", t_CloudType_parseAltocumulusWithHeight);
   ("CloudType_parseCirrusWithHeight", t_CloudType_parseCirrusWithHeight);
   ("CloudType_parseInvalidOktaWithHeight", t_CloudType_parseInvalidOktaWithHeight);
   ("CloudType_parseGroundBasedWithHeight", t_CloudType_parseGroundBasedWithHeight);
   ("CloudType_parseObsurations", t_CloudType_parseObsurations);
   ("CloudType_parseObscurationBlowingSnow", t_CloudType_parseObscurationBlowingSnow);
   ("CloudType_parseObscurationBlowingDust", t_CloudType_parseObscurationBlowingDust);
   ("CloudType_parseObscurationBlowingSand", t_CloudType_parseObscurationBlowingSand);
   ("CloudType_parseObscurationFog", t_CloudType_parseObscurationFog);
   ("CloudType_parseObscurationSmoke", t_CloudType_parseObscurationSmoke);
   ("CloudType_parseObscurationVolcanicAsh", t_CloudType_parseObscurationVolcanicAsh);
   ("CloudType_parseOther", t_CloudType_parseOther)] = [].
Proof. vm_compute. reflexivity. Qed.
