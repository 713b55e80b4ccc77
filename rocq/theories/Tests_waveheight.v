(** Generated by tools/gen_tests.py from /repo/test/test_waveheight.cpp: the project's own unit tests, run
    against the model. These are tests of the model's fidelity, not properties. *)

From Verif Require Import Prim Regex Float Values Weather Groups1 Groups2 Groups3 Groups4 Parser TestLib.
Local Open Scope string_scope.
Local Open Scope bool_scope.

Definition t_WaveHeight_fromStringStateOfSurfaceCalmGlassy : option N :=
    step 20 ((WaveHeight_fromString "S0")) (fun v1 => 
    chk 21 (Ok (has_value v1)) (
    chk 22 (let! v2 := deref v1 in Ok (WhType_beq (whType v2) Wh_STATE_OF_SURFACE)) (
    chk 23 (let! v3 := deref v1 in Ok (StateOfSurface_beq (WaveHeight_stateOfSurface v3) SS_CALM_GLASSY)) (
    chk 24 (let! v4 := deref v1 in Ok (WhUnit_beq Wh_METERS Wh_METERS)) (
    chk 25 (let! v5 := deref v1 in Ok (has_value (WaveHeight_waveHeight v5))) (
    chk 26 (let! v6 := deref v1 in let! v7 := deref (WaveHeight_waveHeight v6) in Ok (near v7 (dlit (0) 1) (dlit (1) 20))) (
    chk 27 (let! v8 := deref v1 in Ok (WaveHeight_isReported v8)) (
    None)))))))).

Definition t_WaveHeight_fromStringStateOfSurfaceCalmRippled : option N :=
    step 31 ((WaveHeight_fromString "S1")) (fun v1 => 
    chk 32 (Ok (has_value v1)) (
    chk 33 (let! v2 := deref v1 in Ok (WhType_beq (whType v2) Wh_STATE_OF_SURFACE)) (
    chk 34 (let! v3 := deref v1 in Ok (StateOfSurface_beq (WaveHeight_stateOfSurface v3) SS_CALM_RIPPLED)) (
    chk 35 (let! v4 := deref v1 in Ok (WhUnit_beq Wh_METERS Wh_METERS)) (
    chk 36 (let! v5 := deref v1 in Ok (has_value (WaveHeight_waveHeight v5))) (
    chk 37 (let! v6 := deref v1 in let! v7 := deref (WaveHeight_waveHeight v6) in Ok (near v7 (dlit (1) 10) (dlit (1) 20))) (
    chk 38 (let! v8 := deref v1 in Ok (WaveHeight_isReported v8)) (
    None)))))))).

Definition t_WaveHeight_fromStringStateOfSurfaceSmooth : option N :=
    step 42 ((WaveHeight_fromString "S2")) (fun v1 => 
    chk 43 (Ok (has_value v1)) (
    chk 44 (let! v2 := deref v1 in Ok (WhType_beq (whType v2) Wh_STATE_OF_SURFACE)) (
    chk 45 (let! v3 := deref v1 in Ok (StateOfSurface_beq (WaveHeight_stateOfSurface v3) SS_SMOOTH)) (
    chk 46 (let! v4 := deref v1 in Ok (WhUnit_beq Wh_METERS Wh_METERS)) (
    chk 47 (let! v5 := deref v1 in Ok (has_value (WaveHeight_waveHeight v5))) (
    chk 48 (let! v6 := deref v1 in let! v7 := deref (WaveHeight_waveHeight v6) in Ok (near v7 (dlit (1) 2) (dlit (1) 20))) (
    chk 49 (let! v8 := deref v1 in Ok (WaveHeight_isReported v8)) (
    None)))))))).

Definition t_WaveHeight_fromStringStateOfSurfaceSlight : option N :=
    step 53 ((WaveHeight_fromString "S3")) (fun v1 => 
    chk 54 (Ok (has_value v1)) (
    chk 55 (let! v2 := deref v1 in Ok (WhType_beq (whType v2) Wh_STATE_OF_SURFACE)) (
    chk 56 (let! v3 := deref v1 in Ok (StateOfSurface_beq (WaveHeight_stateOfSurface v3) SS_SLIGHT)) (
    chk 57 (let! v4 := deref v1 in Ok (WhUnit_beq Wh_METERS Wh_METERS)) (
    chk 58 (let! v5 := deref v1 in Ok (has_value (WaveHeight_waveHeight v5))) (
    chk 59 (let! v6 := deref v1 in let! v7 := deref (WaveHeight_waveHeight v6) in Ok (near v7 (dlit (6) 5) (dlit (1) 20))) (
    chk 60 (let! v8 := deref v1 in Ok (WaveHeight_isReported v8)) (
    None)))))))).

Definition t_WaveHeight_fromStringStateOfSurfaceModerate : option N :=
    step 64 ((WaveHeight_fromString "S4")) (fun v1 => 
    chk 65 (Ok (has_value v1)) (
    chk 66 (let! v2 := deref v1 in Ok (WhType_beq (whType v2) Wh_STATE_OF_SURFACE)) (
    chk 67 (let! v3 := deref v1 in Ok (StateOfSurface_beq (WaveHeight_stateOfSurface v3) SS_MODERATE)) (
    chk 68 (let! v4 := deref v1 in Ok (WhUnit_beq Wh_METERS Wh_METERS)) (
    chk 69 (let! v5 := deref v1 in Ok (has_value (WaveHeight_waveHeight v5))) (
    chk 70 (let! v6 := deref v1 in let! v7 := deref (WaveHeight_waveHeight v6) in Ok (near v7 (dlit (5) 2) (dlit (1) 20))) (
    chk 71 (let! v8 := deref v1 in Ok (WaveHeight_isReported v8)) (
    None)))))))).

Definition t_WaveHeight_fromStringStateOfSurfaceRough : option N :=
    step 75 ((WaveHeight_fromString "S5")) (fun v1 => 
    chk 76 (Ok (has_value v1)) (
    chk 77 (let! v2 := deref v1 in Ok (WhType_beq (whType v2) Wh_STATE_OF_SURFACE)) (
    chk 78 (let! v3 := deref v1 in Ok (StateOfSurface_beq (WaveHeight_stateOfSurface v3) SS_ROUGH)) (
    chk 79 (let! v4 := deref v1 in Ok (WhUnit_beq Wh_METERS Wh_METERS)) (
    chk 80 (let! v5 := deref v1 in Ok (has_value (WaveHeight_waveHeight v5))) (
    chk 81 (let! v6 := deref v1 in let! v7 := deref (WaveHeight_waveHeight v6) in Ok (near v7 (dlit (4) 1) (dlit (1) 20))) (
    chk 82 (let! v8 := deref v1 in Ok (WaveHeight_isReported v8)) (
    None)))))))).

Definition t_WaveHeight_fromStringStateOfSurfaceVeryRough : option N :=
    step 86 ((WaveHeight_fromString "S6")) (fun v1 => 
    chk 87 (Ok (has_value v1)) (
    chk 88 (let! v2 := deref v1 in Ok (WhType_beq (whType v2) Wh_STATE_OF_SURFACE)) (
    chk 89 (let! v3 := deref v1 in Ok (StateOfSurface_beq (WaveHeight_stateOfSurface v3) SS_VERY_ROUGH)) (
    chk 90 (let! v4 := deref v1 in Ok (WhUnit_beq Wh_METERS Wh_METERS)) (
    chk 91 (let! v5 := deref v1 in Ok (has_value (WaveHeight_waveHeight v5))) (
    chk 92 (let! v6 := deref v1 in let! v7 := deref (WaveHeight_waveHeight v6) in Ok (near v7 (dlit (6) 1) (dlit (1) 20))) (
    chk 93 (let! v8 := deref v1 in Ok (WaveHeight_isReported v8)) (
    None)))))))).

Definition t_WaveHeight_fromStringStateOfSurfaceHigh : option N :=
    step 97 ((WaveHeight_fromString "S7")) (fun v1 => 
    chk 98 (Ok (has_value v1)) (
    chk 99 (let! v2 := deref v1 in Ok (WhType_beq (whType v2) Wh_STATE_OF_SURFACE)) (
    chk 100 (let! v3 := deref v1 in Ok (StateOfSurface_beq (WaveHeight_stateOfSurface v3) SS_HIGH)) (
    chk 101 (let! v4 := deref v1 in Ok (WhUnit_beq Wh_METERS Wh_METERS)) (
    chk 102 (let! v5 := deref v1 in Ok (has_value (WaveHeight_waveHeight v5))) (
    chk 103 (let! v6 := deref v1 in let! v7 := deref (WaveHeight_waveHeight v6) in Ok (near v7 (dlit (9) 1) (dlit (1) 20))) (
    chk 104 (let! v8 := deref v1 in Ok (WaveHeight_isReported v8)) (
    None)))))))).

Definition t_WaveHeight_fromStringStateOfSurfaceVeryHigh : option N :=
    step 108 ((WaveHeight_fromString "S8")) (fun v1 => 
    chk 109 (Ok (has_value v1)) (
    chk 110 (let! v2 := deref v1 in Ok (WhType_beq (whType v2) Wh_STATE_OF_SURFACE)) (
    chk 111 (let! v3 := deref v1 in Ok (StateOfSurface_beq (WaveHeight_stateOfSurface v3) SS_VERY_HIGH)) (
    chk 112 (let! v4 := deref v1 in Ok (WhUnit_beq Wh_METERS Wh_METERS)) (
    chk 113 (let! v5 := deref v1 in Ok (has_value (WaveHeight_waveHeight v5))) (
    chk 114 (let! v6 := deref v1 in let! v7 := deref (WaveHeight_waveHeight v6) in Ok (near v7 (dlit (14) 1) (dlit (1) 20))) (
    chk 115 (let! v8 := deref v1 in Ok (WaveHeight_isReported v8)) (
    None)))))))).

Definition t_WaveHeight_fromStringStateOfSurfacePhenomenal : option N :=
    step 119 ((WaveHeight_fromString "S9")) (fun v1 => 
    chk 120 (Ok (has_value v1)) (
    chk 121 (let! v2 := deref v1 in Ok (WhType_beq (whType v2) Wh_STATE_OF_SURFACE)) (
    chk 122 (let! v3 := deref v1 in Ok (StateOfSurface_beq (WaveHeight_stateOfSurface v3) SS_PHENOMENAL)) (
    chk 123 (let! v4 := deref v1 in Ok (WhUnit_beq Wh_METERS Wh_METERS)) (
    chk 124 (let! v5 := deref v1 in Ok (has_value (WaveHeight_waveHeight v5))) (
    chk 125 (let! v6 := deref v1 in let! v7 := deref (WaveHeight_waveHeight v6) in Ok (near v7 (dlit (141) 10) (dlit (1) 20))) (
    chk 126 (let! v8 := deref v1 in Ok (WaveHeight_isReported v8)) (
    None)))))))).

Definition t_WaveHeight_fromStringStateOfSurfaceNotReported : option N :=
    step 130 ((WaveHeight_fromString "S/")) (fun v1 => 
    chk 131 (Ok (has_value v1)) (
    chk 132 (let! v2 := deref v1 in Ok (WhType_beq (whType v2) Wh_STATE_OF_SURFACE)) (
    chk 133 (let! v3 := deref v1 in Ok (StateOfSurface_beq (WaveHeight_stateOfSurface v3) SS_NOT_REPORTED)) (
    chk 134 (let! v4 := deref v1 in Ok (WhUnit_beq Wh_METERS Wh_METERS)) (
    chk 135 (let! v5 := deref v1 in Ok (negb (has_value (WaveHeight_waveHeight v5)))) (
    chk 136 (let! v6 := deref v1 in Ok (negb (WaveHeight_isReported v6))) (
    None))))))).

Definition t_WaveHeight_fromStringStateOfSurfaceWrongFormat : option N :=
    chk 140 (let! v1 := (WaveHeight_fromString "") in Ok (negb (has_value v1))) (
    chk 141 (let! v2 := (WaveHeight_fromString "S") in Ok (negb (has_value v2))) (
    chk 142 (let! v3 := (WaveHeight_fromString "S01") in Ok (negb (has_value v3))) (
    chk 143 (let! v4 := (WaveHeight_fromString "S.") in Ok (negb (has_value v4))) (
    chk 144 (let! v5 := (WaveHeight_fromString "S//") in Ok (negb (has_value v5))) (
    chk 145 (let! v6 := (WaveHeight_fromString "SA") in Ok (negb (has_value v6))) (
    None)))))).

Definition t_WaveHeight_fromStringWaveHeightThreeDigit : option N :=
    step 149 ((WaveHeight_fromString "H105")) (fun v1 => 
    chk 150 (Ok (has_value v1)) (
    chk 151 (let! v2 := deref v1 in Ok (WhType_beq (whType v2) Wh_WAVE_HEIGHT)) (
    chk 152 (let! v3 := deref v1 in Ok (WhUnit_beq Wh_METERS Wh_METERS)) (
    chk 153 (let! v4 := deref v1 in Ok (has_value (WaveHeight_waveHeight v4))) (
    chk 154 (let! v5 := deref v1 in let! v6 := deref (WaveHeight_waveHeight v5) in Ok (near v6 (dlit (21) 2) (dlit (1) 20))) (
    chk 155 (let! v7 := deref v1 in Ok (WaveHeight_isReported v7)) (
    step 157 ((WaveHeight_fromString "H037")) (fun v8 => 
    chk 158 (Ok (has_value v8)) (
    chk 159 (let! v9 := deref v8 in Ok (WhType_beq (whType v9) Wh_WAVE_HEIGHT)) (
    chk 160 (let! v10 := deref v8 in Ok (WhUnit_beq Wh_METERS Wh_METERS)) (
    chk 161 (let! v11 := deref v8 in Ok (has_value (WaveHeight_waveHeight v11))) (
    chk 162 (let! v12 := deref v8 in let! v13 := deref (WaveHeight_waveHeight v12) in Ok (near v13 (dlit (37) 10) (dlit (1) 20))) (
    chk 163 (let! v14 := deref v8 in Ok (WaveHeight_isReported v14)) (
    step 165 ((WaveHeight_fromString "H008")) (fun v15 => 
    chk 166 (Ok (has_value v15)) (
    chk 167 (let! v16 := deref v15 in Ok (WhType_beq (whType v16) Wh_WAVE_HEIGHT)) (
    chk 168 (let! v17 := deref v15 in Ok (WhUnit_beq Wh_METERS Wh_METERS)) (
    chk 169 (let! v18 := deref v15 in Ok (has_value (WaveHeight_waveHeight v18))) (
    chk 170 (let! v19 := deref v15 in let! v20 := deref (WaveHeight_waveHeight v19) in Ok (near v20 (dlit (4) 5) (dlit (1) 20))) (
    chk 171 (let! v21 := deref v15 in Ok (WaveHeight_isReported v21)) (
    None))))))))))))))))))))).

Definition t_WaveHeight_fromStringWaveHeightTwoDigit : option N :=
    step 175 ((WaveHeight_fromString "H14")) (fun v1 => 
    chk 176 (Ok (has_value v1)) (
    chk 177 (let! v2 := deref v1 in Ok (WhType_beq (whType v2) Wh_WAVE_HEIGHT)) (
    chk 178 (let! v3 := deref v1 in Ok (WhUnit_beq Wh_METERS Wh_METERS)) (
    chk 179 (let! v4 := deref v1 in Ok (has_value (WaveHeight_waveHeight v4))) (
    chk 180 (let! v5 := deref v1 in let! v6 := deref (WaveHeight_waveHeight v5) in Ok (near v6 (dlit (7) 5) (dlit (1) 20))) (
    chk 181 (let! v7 := deref v1 in Ok (WaveHeight_isReported v7)) (
    step 183 ((WaveHeight_fromString "H07")) (fun v8 => 
    chk 184 (Ok (has_value v8)) (
    chk 185 (let! v9 := deref v8 in Ok (WhType_beq (whType v9) Wh_WAVE_HEIGHT)) (
    chk 186 (let! v10 := deref v8 in Ok (WhUnit_beq Wh_METERS Wh_METERS)) (
    chk 187 (let! v11 := deref v8 in Ok (has_value (WaveHeight_waveHeight v11))) (
    chk 188 (let! v12 := deref v8 in let! v13 := deref (WaveHeight_waveHeight v12) in Ok (near v13 (dlit (7) 10) (dlit (1) 20))) (
    chk 189 (let! v14 := deref v8 in Ok (WaveHeight_isReported v14)) (
    None)))))))))))))).

Definition t_WaveHeight_fromStringWaveHeightOneDigit : option N :=
    step 193 ((WaveHeight_fromString "H8")) (fun v1 => 
    chk 194 (Ok (has_value v1)) (
    chk 195 (let! v2 := deref v1 in Ok (WhType_beq (whType v2) Wh_WAVE_HEIGHT)) (
    chk 196 (let! v3 := deref v1 in Ok (WhUnit_beq Wh_METERS Wh_METERS)) (
    chk 197 (let! v4 := deref v1 in Ok (has_value (WaveHeight_waveHeight v4))) (
    chk 198 (let! v5 := deref v1 in let! v6 := deref (WaveHeight_waveHeight v5) in Ok (near v6 (dlit (4) 5) (dlit (1) 20))) (
    chk 199 (let! v7 := deref v1 in Ok (WaveHeight_isReported v7)) (
    None))))))).

Definition t_WaveHeight_fromStringWaveHeightNotReported : option N :=
    step 203 ((WaveHeight_fromString "H///")) (fun v1 => 
    chk 204 (Ok (has_value v1)) (
    chk 205 (let! v2 := deref v1 in Ok (WhType_beq (whType v2) Wh_WAVE_HEIGHT)) (
    chk 206 (let! v3 := deref v1 in Ok (WhUnit_beq Wh_METERS Wh_METERS)) (
    chk 207 (let! v4 := deref v1 in Ok (negb (has_value (WaveHeight_waveHeight v4)))) (
    chk 208 (let! v5 := deref v1 in Ok (negb (WaveHeight_isReported v5))) (
    None)))))).

Definition t_WaveHeight_fromStringWaveHeightWrongFormat : option N :=
    chk 212 (let! v1 := (WaveHeight_fromString "") in Ok (negb (has_value v1))) (
    chk 213 (let! v2 := (WaveHeight_fromString "H") in Ok (negb (has_value v2))) (
    chk 214 (let! v3 := (WaveHeight_fromString "H0001") in Ok (negb (has_value v3))) (
    chk 215 (let! v4 := (WaveHeight_fromString "H0.1") in Ok (negb (has_value v4))) (
    chk 216 (let! v5 := (WaveHeight_fromString "H//") in Ok (negb (has_value v5))) (
    chk 217 (let! v6 := (WaveHeight_fromString "H////") in Ok (negb (has_value v6))) (
    chk 218 (let! v7 := (WaveHeight_fromString "H00A") in Ok (negb (has_value v7))) (
    None))))))).

Definition t_WaveHeight_stateOfSurfaceCalmGlassy : option N :=
    step 228 ((WaveHeight_fromString "H000")) (fun v1 => 
    chk 229 (Ok (has_value v1)) (
    chk 230 (let! v2 := deref v1 in Ok (StateOfSurface_beq (WaveHeight_stateOfSurface v2) SS_CALM_GLASSY)) (
    step 232 ((WaveHeight_fromString "S0")) (fun v3 => 
    chk 233 (Ok (has_value v3)) (
    chk 234 (let! v4 := deref v3 in Ok (StateOfSurface_beq (WaveHeight_stateOfSurface v4) SS_CALM_GLASSY)) (
    None)))))).

Definition t_WaveHeight_stateOfSurfaceCalmRippled : option N :=
    step 238 ((WaveHeight_fromString "H001")) (fun v1 => 
    chk 239 (Ok (has_value v1)) (
    chk 240 (let! v2 := deref v1 in Ok (StateOfSurface_beq (WaveHeight_stateOfSurface v2) SS_CALM_RIPPLED)) (
    step 242 ((WaveHeight_fromString "S1")) (fun v3 => 
    chk 243 (Ok (has_value v3)) (
    chk 244 (let! v4 := deref v3 in Ok (StateOfSurface_beq (WaveHeight_stateOfSurface v4) SS_CALM_RIPPLED)) (
    None)))))).

Definition t_WaveHeight_stateOfSurfaceSmooth : option N :=
    step 248 ((WaveHeight_fromString "H005")) (fun v1 => 
    chk 249 (Ok (has_value v1)) (
    chk 250 (let! v2 := deref v1 in Ok (StateOfSurface_beq (WaveHeight_stateOfSurface v2) SS_SMOOTH)) (
    step 252 ((WaveHeight_fromString "H002")) (fun v3 => 
    chk 253 (Ok (has_value v3)) (
    chk 254 (let! v4 := deref v3 in Ok (StateOfSurface_beq (WaveHeight_stateOfSurface v4) SS_SMOOTH)) (
    step 256 ((WaveHeight_fromString "S2")) (fun v5 => 
    chk 257 (Ok (has_value v5)) (
    chk 258 (let! v6 := deref v5 in Ok (StateOfSurface_beq (WaveHeight_stateOfSurface v6) SS_SMOOTH)) (
    None))))))))).

Definition t_WaveHeight_stateOfSurfaceSlight : option N :=
    step 262 ((WaveHeight_fromString "H012")) (fun v1 => 
    chk 263 (Ok (has_value v1)) (
    chk 264 (let! v2 := deref v1 in Ok (StateOfSurface_beq (WaveHeight_stateOfSurface v2) SS_SLIGHT)) (
    step 266 ((WaveHeight_fromString "H006")) (fun v3 => 
    chk 267 (Ok (has_value v3)) (
    chk 268 (let! v4 := deref v3 in Ok (StateOfSurface_beq (WaveHeight_stateOfSurface v4) SS_SLIGHT)) (
    step 270 ((WaveHeight_fromString "S3")) (fun v5 => 
    chk 271 (Ok (has_value v5)) (
    chk 272 (let! v6 := deref v5 in Ok (StateOfSurface_beq (WaveHeight_stateOfSurface v6) SS_SLIGHT)) (
    None))))))))).

Definition t_WaveHeight_stateOfSurfaceModerate : option N :=
    step 276 ((WaveHeight_fromString "H025")) (fun v1 => 
    chk 277 (Ok (has_value v1)) (
    chk 278 (let! v2 := deref v1 in Ok (StateOfSurface_beq (WaveHeight_stateOfSurface v2) SS_MODERATE)) (
    step 280 ((WaveHeight_fromString "H013")) (fun v3 => 
    chk 281 (Ok (has_value v3)) (
    chk 282 (let! v4 := deref v3 in Ok (StateOfSurface_beq (WaveHeight_stateOfSurface v4) SS_MODERATE)) (
    step 284 ((WaveHeight_fromString "S4")) (fun v5 => 
    chk 285 (Ok (has_value v5)) (
    chk 286 (let! v6 := deref v5 in Ok (StateOfSurface_beq (WaveHeight_stateOfSurface v6) SS_MODERATE)) (
    None))))))))).

Definition t_WaveHeight_stateOfSurfaceRough : option N :=
    step 290 ((WaveHeight_fromString "H040")) (fun v1 => 
    chk 291 (Ok (has_value v1)) (
    chk 292 (let! v2 := deref v1 in Ok (StateOfSurface_beq (WaveHeight_stateOfSurface v2) SS_ROUGH)) (
    step 294 ((WaveHeight_fromString "H026")) (fun v3 => 
    chk 295 (Ok (has_value v3)) (
    chk 296 (let! v4 := deref v3 in Ok (StateOfSurface_beq (WaveHeight_stateOfSurface v4) SS_ROUGH)) (
    step 298 ((WaveHeight_fromString "S5")) (fun v5 => 
    chk 299 (Ok (has_value v5)) (
    chk 300 (let! v6 := deref v5 in Ok (StateOfSurface_beq (WaveHeight_stateOfSurface v6) SS_ROUGH)) (
    None))))))))).

Definition t_WaveHeight_stateOfSurfaceVeryRough : option N :=
    step 304 ((WaveHeight_fromString "H060")) (fun v1 => 
    chk 305 (Ok (has_value v1)) (
    chk 306 (let! v2 := deref v1 in Ok (StateOfSurface_beq (WaveHeight_stateOfSurface v2) SS_VERY_ROUGH)) (
    step 308 ((WaveHeight_fromString "H041")) (fun v3 => 
    chk 309 (Ok (has_value v3)) (
    chk 310 (let! v4 := deref v3 in Ok (StateOfSurface_beq (WaveHeight_stateOfSurface v4) SS_VERY_ROUGH)) (
    step 312 ((WaveHeight_fromString "S6")) (fun v5 => 
    chk 313 (Ok (has_value v5)) (
    chk 314 (let! v6 := deref v5 in Ok (StateOfSurface_beq (WaveHeight_stateOfSurface v6) SS_VERY_ROUGH)) (
    None))))))))).

Definition t_WaveHeight_stateOfSurfaceHigh : option N :=
    step 318 ((WaveHeight_fromString "H090")) (fun v1 => 
    chk 319 (Ok (has_value v1)) (
    chk 320 (let! v2 := deref v1 in Ok (StateOfSurface_beq (WaveHeight_stateOfSurface v2) SS_HIGH)) (
    step 322 ((WaveHeight_fromString "H061")) (fun v3 => 
    chk 323 (Ok (has_value v3)) (
    chk 324 (let! v4 := deref v3 in Ok (StateOfSurface_beq (WaveHeight_stateOfSurface v4) SS_HIGH)) (
    step 326 ((WaveHeight_fromString "S7")) (fun v5 => 
    chk 327 (Ok (has_value v5)) (
    chk 328 (let! v6 := deref v5 in Ok (StateOfSurface_beq (WaveHeight_stateOfSurface v6) SS_HIGH)) (
    None))))))))).

Definition t_WaveHeight_stateOfSurfaceVeryHigh : option N :=
    step 332 ((WaveHeight_fromString "H140")) (fun v1 => 
    chk 333 (Ok (has_value v1)) (
    chk 334 (let! v2 := deref v1 in Ok (StateOfSurface_beq (WaveHeight_stateOfSurface v2) SS_VERY_HIGH)) (
    step 336 ((WaveHeight_fromString "H091")) (fun v3 => 
    chk 337 (Ok (has_value v3)) (
    chk 338 (let! v4 := deref v3 in Ok (StateOfSurface_beq (WaveHeight_stateOfSurface v4) SS_VERY_HIGH)) (
    step 340 ((WaveHeight_fromString "S8")) (fun v5 => 
    chk 341 (Ok (has_value v5)) (
    chk 342 (let! v6 := deref v5 in Ok (StateOfSurface_beq (WaveHeight_stateOfSurface v6) SS_VERY_HIGH)) (
    None))))))))).

Definition t_WaveHeight_stateOfSurfacePhenomenal : option N :=
    step 346 ((WaveHeight_fromString "H320")) (fun v1 => 
    chk 347 (Ok (has_value v1)) (
    chk 348 (let! v2 := deref v1 in Ok (StateOfSurface_beq (WaveHeight_stateOfSurface v2) SS_PHENOMENAL)) (
    step 350 ((WaveHeight_fromString "H141")) (fun v3 => 
    chk 351 (Ok (has_value v3)) (
    chk 352 (let! v4 := deref v3 in Ok (StateOfSurface_beq (WaveHeight_stateOfSurface v4) SS_PHENOMENAL)) (
    step 354 ((WaveHeight_fromString "S9")) (fun v5 => 
    chk 355 (Ok (has_value v5)) (
    chk 356 (let! v6 := deref v5 in Ok (StateOfSurface_beq (WaveHeight_stateOfSurface v6) SS_PHENOMENAL)) (
    None))))))))).

Definition t_WaveHeight_waveHeightToUnitMeters : option N :=
    step 360 ((WaveHeight_fromString "H10")) (fun v1 => 
    chk 361 (Ok (has_value v1)) (
    chk 362 (let! v2 := deref v1 in Ok (has_value (WaveHeight_toUnit v2 Wh_METERS))) (
    chk 363 (let! v3 := deref v1 in let! v4 := deref (WaveHeight_toUnit v3 Wh_METERS) in Ok (near v4 (dlit (1) 1) (dlit (1) 20))) (
    step 365 ((WaveHeight_fromString "H59")) (fun v5 => 
    chk 366 (Ok (has_value v5)) (
    chk 367 (let! v6 := deref v5 in Ok (has_value (WaveHeight_toUnit v6 Wh_METERS))) (
    chk 368 (let! v7 := deref v5 in let! v8 := deref (WaveHeight_toUnit v7 Wh_METERS) in Ok (near v8 (dlit (59) 10) (dlit (1) 20))) (
    None)))))))).

Definition t_WaveHeight_waveHeightToUnitFeet : option N :=
    step 372 ((WaveHeight_fromString "H10")) (fun v1 => 
    chk 373 (Ok (has_value v1)) (
    chk 374 (let! v2 := deref v1 in Ok (has_value (WaveHeight_toUnit v2 Wh_FEET))) (
    chk 375 (let! v3 := deref v1 in let! v4 := deref (WaveHeight_toUnit v3 Wh_FEET) in Ok (near v4 (dlit (82) 25) (dlit (1) 20))) (
    step 377 ((WaveHeight_fromString "H59")) (fun v5 => 
    chk 378 (Ok (has_value v5)) (
    chk 379 (let! v6 := deref v5 in Ok (has_value (WaveHeight_toUnit v6 Wh_FEET))) (
    chk 380 (let! v7 := deref v5 in let! v8 := deref (WaveHeight_toUnit v7 Wh_FEET) in Ok (near v8 (dlit (484) 25) (dlit (1) 20))) (
    None)))))))).

Definition t_WaveHeight_waveHeightToUnitNotReported : option N :=
    step 384 ((WaveHeight_fromString "H///")) (fun v1 => 
    chk 385 (Ok (has_value v1)) (
    chk 386 (let! v2 := deref v1 in Ok (negb (has_value (WaveHeight_toUnit v2 Wh_METERS)))) (
    chk 387 (let! v3 := deref v1 in Ok (negb (has_value (WaveHeight_toUnit v3 Wh_FEET)))) (
    None)))).

Definition t_WaveHeight_fromStringWrongDesignator : option N :=
    chk 391 (let! v1 := (WaveHeight_fromString "X59") in Ok (negb (has_value v1))) (
    chk 392 (let! v2 := (WaveHeight_fromString "X5") in Ok (negb (has_value v2))) (
    None)).

Example tests_waveheight_pass : failures
  [("WaveHeight_fromStringStateOfSurfaceCalmGlassy", t_WaveHeight_fromStringStateOfSurfaceCalmGlassy);
   ("WaveHeight_fromStringStateOfSurfaceCalmRippled", t_WaveHeight_fromStringStateOfSurfaceCalmRippled);
   ("WaveHeight_fromStringStateOfSurfaceSmooth", t_WaveHeight_fromStringStateOfSurfaceSmooth);
   ("WaveHeight_fromStringStateOfSurfaceSlight", t_WaveHeight_fromStringStateOfSurfaceSlight);
   ("WaveHeight_fromStringStateOfSurfaceModerate", t_WaveHeight_fromStringStateOfSurfaceModerate);
   ("WaveHeight_fromStringStateOfSurfaceRough", t_WaveHeight_fromStringStateOfSurfaceRough);
   ("WaveHeight_fromStringStateOfSurfaceVeryRough", t_WaveHeight_fromStringStateOfSurfaceVeryRough);
   ("WaveHeight_fromStringStateOfSurfaceHigh", t_WaveHeight_fromStringStateOfSurfaceHigh);
   ("WaveHeight_fromStringStateOfSurfaceVeryHigh", t_WaveHeight_fromStringStateOfSurfaceVeryHigh);
   ("WaveHeight_fromStringStateOfSurfacePhenomenal", t_WaveHeight_fromStringStateOfSurfacePhenomenal);
   ("WaveHeight_fromStringStateOfSurfaceNotReported", t_WaveHeight_fromStringStateOfSurfaceNotReported);
   ("WaveHeight_fromStringStateOfSurfaceWrongFormat", t_WaveHeight_fromStringStateOfSurfaceWrongFormat);
   ("WaveHeight_fromStringWaveHeightThreeDigit", t_WaveHeight_fromStringWaveHeightThreeDigit);
   ("WaveHeight_fromStringWaveHeightTwoDigit", t_WaveHeight_fromStringWaveHeightTwoDigit);
   ("WaveHeight_fromStringWaveHeightOneDigit", t_WaveHeight_fromStringWaveHeightOneDigit);
   ("WaveHeight_fromStringWaveHeightNotReported", t_WaveHeight_fromStringWaveHeightNotReported);
   ("WaveHeight_fromStringWaveHeightWrongFormat", t_WaveHeight_fromStringWaveHeightWrongFormat);
   ("WaveHeight_stateOfSurfaceCalmGlassy", t_WaveHeight_stateOfSurfaceCalmGlassy);
   ("WaveHeight_stateOfSurfaceCalmRippled", t_WaveHeight_stateOfSurfaceCalmRippled);
   ("WaveHeight_stateOfSurfaceSmooth", t_WaveHeight_stateOfSurfaceSmooth);
   ("WaveHeight_stateOfSurfaceSlight", t_WaveHeight_stateOfSurfaceSlight);
   ("WaveHeight_stateOfSurfaceModerate", t_WaveHeight_stateOfSurfaceModerate);
   ("WaveHeight_stateOfSurfaceRough", t_WaveHeight_stateOfSurfaceRough);
   ("WaveHeight_stateOfSurfaceVeryRough", t_WaveHeight_stateOfSurfaceVeryRough);
   ("WaveHeight_stateOfSurfaceHigh", t_WaveHeight_stateOfSurfaceHigh);
   ("WaveHeight_stateOfSurfaceVeryHigh", t_WaveHeight_stateOfSurfaceVeryHigh);
   ("WaveHeight_stateOfSurfacePhenomenal", t_WaveHeight_stateOfSurfacePhenomenal);
   ("WaveHeight_waveHeightToUnitMeters", t_WaveHeight_waveHeightToUnitMeters);
   ("WaveHeight_waveHeightToUnitFeet", t_WaveHeight_waveHeightToUnitFeet);
   ("WaveHeight_waveHeightToUnitNotReported", t_WaveHeight_waveHeightToUnitNotReported);
   ("WaveHeight_fromStringWrongDesignator", t_WaveHeight_fromStringWrongDesignator)] = [].
Proof. vm_compute. reflexivity. Qed.
