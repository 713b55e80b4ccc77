(** Generated by tools/gen_tests.py from /repo/test/test_distance.cpp: the project's own unit tests, run
    against the model. These are tests of the model's fidelity, not properties. *)

From Verif Require Import Prim Regex Float Values Weather Groups1 Groups2 Groups3 Groups4 Parser TestLib.
Local Open Scope string_scope.
Local Open Scope bool_scope.

Definition t_Distance_constructor : option N :=
    chk 20 (Ok (DistModifier_beq (distModifier (Distance_of 2%N STATUTE_MILES)) DM_NONE)) (
    chk 21 (Ok (Distance_isReported (Distance_of 2%N STATUTE_MILES))) (
    chk 22 (Ok (has_value (Distance_distance (Distance_of 2%N STATUTE_MILES)))) (
    chk 23 (let! v1 := deref (Distance_distance (Distance_of 2%N STATUTE_MILES)) in Ok (near v1 (dlit (2) 1) (dlit (1) 200))) (
    chk 24 (Ok (DistUnit_beq (distUnit (Distance_of 2%N STATUTE_MILES)) STATUTE_MILES)) (
    chk 25 (Ok (Distance_isValue (Distance_of 2%N STATUTE_MILES))) (
    None)))))).

Definition t_Distance_fromMeterString6500 : option N :=
    step 35 ((Distance_fromMeterString "6500")) (fun v1 => 
    chk 36 (Ok (has_value v1)) (
    chk 37 (let! v2 := deref v1 in Ok (DistModifier_beq (distModifier v2) DM_NONE)) (
    chk 38 (let! v3 := deref v1 in Ok (Distance_isReported v3)) (
    chk 39 (let! v4 := deref v1 in Ok (has_value (Distance_distance v4))) (
    chk 40 (let! v5 := deref v1 in let! v6 := deref (Distance_distance v5) in Ok (near v6 (dlit (6500) 1) (dlit (1) 200))) (
    chk 41 (let! v7 := deref v1 in Ok (DistUnit_beq (distUnit v7) METERS)) (
    chk 42 (let! v8 := deref v1 in Ok (Distance_isValue v8)) (
    None)))))))).

Definition t_Distance_fromMeterString1000 : option N :=
    step 46 ((Distance_fromMeterString "1000")) (fun v1 => 
    chk 47 (Ok (has_value v1)) (
    chk 48 (let! v2 := deref v1 in Ok (DistModifier_beq (distModifier v2) DM_NONE)) (
    chk 49 (let! v3 := deref v1 in Ok (Distance_isReported v3)) (
    chk 50 (let! v4 := deref v1 in Ok (has_value (Distance_distance v4))) (
    chk 51 (let! v5 := deref v1 in let! v6 := deref (Distance_distance v5) in Ok (near v6 (dlit (1000) 1) (dlit (1) 200))) (
    chk 52 (let! v7 := deref v1 in Ok (DistUnit_beq (distUnit v7) METERS)) (
    chk 53 (let! v8 := deref v1 in Ok (Distance_isValue v8)) (
    None)))))))).

Definition t_Distance_fromMeterString0400 : option N :=
    step 57 ((Distance_fromMeterString "0400")) (fun v1 => 
    chk 58 (Ok (has_value v1)) (
    chk 59 (let! v2 := deref v1 in Ok (DistModifier_beq (distModifier v2) DM_NONE)) (
    chk 60 (let! v3 := deref v1 in Ok (Distance_isReported v3)) (
    chk 61 (let! v4 := deref v1 in Ok (has_value (Distance_distance v4))) (
    chk 62 (let! v5 := deref v1 in let! v6 := deref (Distance_distance v5) in Ok (near v6 (dlit (400) 1) (dlit (1) 200))) (
    chk 63 (let! v7 := deref v1 in Ok (DistUnit_beq (distUnit v7) METERS)) (
    chk 64 (let! v8 := deref v1 in Ok (Distance_isValue v8)) (
    None)))))))).

Definition t_Distance_fromMeterString0150 : option N :=
    step 68 ((Distance_fromMeterString "0150")) (fun v1 => 
    chk 69 (Ok (has_value v1)) (
    chk 70 (let! v2 := deref v1 in Ok (DistModifier_beq (distModifier v2) DM_NONE)) (
    chk 71 (let! v3 := deref v1 in Ok (Distance_isReported v3)) (
    chk 72 (let! v4 := deref v1 in Ok (has_value (Distance_distance v4))) (
    chk 73 (let! v5 := deref v1 in let! v6 := deref (Distance_distance v5) in Ok (near v6 (dlit (150) 1) (dlit (1) 200))) (
    chk 74 (let! v7 := deref v1 in Ok (DistUnit_beq (distUnit v7) METERS)) (
    chk 75 (let! v8 := deref v1 in Ok (Distance_isValue v8)) (
    None)))))))).

Definition t_Distance_fromMeterString0050 : option N :=
    step 79 ((Distance_fromMeterString "0050")) (fun v1 => 
    chk 80 (Ok (has_value v1)) (
    chk 81 (let! v2 := deref v1 in Ok (DistModifier_beq (distModifier v2) DM_NONE)) (
    chk 82 (let! v3 := deref v1 in Ok (Distance_isReported v3)) (
    chk 83 (let! v4 := deref v1 in Ok (has_value (Distance_distance v4))) (
    chk 84 (let! v5 := deref v1 in let! v6 := deref (Distance_distance v5) in Ok (near v6 (dlit (50) 1) (dlit (1) 200))) (
    chk 85 (let! v7 := deref v1 in Ok (DistUnit_beq (distUnit v7) METERS)) (
    chk 86 (let! v8 := deref v1 in Ok (Distance_isValue v8)) (
    None)))))))).

Definition t_Distance_fromMeterString0000 : option N :=
    step 90 ((Distance_fromMeterString "0000")) (fun v1 => 
    chk 91 (Ok (has_value v1)) (
    chk 92 (let! v2 := deref v1 in Ok (DistModifier_beq (distModifier v2) DM_NONE)) (
    chk 93 (let! v3 := deref v1 in Ok (Distance_isReported v3)) (
    chk 94 (let! v4 := deref v1 in Ok (has_value (Distance_distance v4))) (
    chk 95 (let! v5 := deref v1 in let! v6 := deref (Distance_distance v5) in Ok (near v6 (dlit (0) 1) (dlit (1) 200))) (
    chk 96 (let! v7 := deref v1 in Ok (DistUnit_beq (distUnit v7) METERS)) (
    chk 97 (let! v8 := deref v1 in Ok (Distance_isValue v8)) (
    None)))))))).

Definition t_Distance_fromMeterStringNotReported : option N :=
    step 101 ((Distance_fromMeterString "////")) (fun v1 => 
    chk 102 (Ok (has_value v1)) (
    chk 103 (let! v2 := deref v1 in Ok (DistModifier_beq (distModifier v2) DM_NONE)) (
    chk 104 (let! v3 := deref v1 in Ok (negb (Distance_isReported v3))) (
    chk 105 (let! v4 := deref v1 in Ok (negb (has_value (Distance_distance v4)))) (
    chk 106 (let! v5 := deref v1 in Ok (DistUnit_beq (distUnit v5) METERS)) (
    chk 107 (let! v6 := deref v1 in Ok (negb (Distance_isValue v6))) (
    None))))))).

Definition t_Distance_fromMeterString9999 : option N :=
    step 111 ((Distance_fromMeterString "9999")) (fun v1 => 
    chk 112 (Ok (has_value v1)) (
    chk 113 (let! v2 := deref v1 in Ok (DistModifier_beq (distModifier v2) DM_MORE_THAN)) (
    chk 114 (let! v3 := deref v1 in Ok (Distance_isReported v3)) (
    chk 115 (let! v4 := deref v1 in Ok (has_value (Distance_distance v4))) (
    chk 116 (let! v5 := deref v1 in let! v6 := deref (Distance_distance v5) in Ok (near v6 (dlit (10000) 1) (dlit (1) 200))) (
    chk 117 (let! v7 := deref v1 in Ok (DistUnit_beq (distUnit v7) METERS)) (
    chk 118 (let! v8 := deref v1 in Ok (Distance_isValue v8)) (
    None)))))))).

Definition t_Distance_fromMeterStringWrongFormat : option N :=
    chk 122 (let! v1 := (Distance_fromMeterString "") in Ok (negb (has_value v1))) (
    chk 123 (let! v2 := (Distance_fromMeterString "2000N") in Ok (negb (has_value v2))) (
    chk 124 (let! v3 := (Distance_fromMeterString "////SM") in Ok (negb (has_value v3))) (
    chk 125 (let! v4 := (Distance_fromMeterString "1SM") in Ok (negb (has_value v4))) (
    chk 126 (let! v5 := (Distance_fromMeterString "1/2SM") in Ok (negb (has_value v5))) (
    chk 127 (let! v6 := (Distance_fromMeterString "120") in Ok (negb (has_value v6))) (
    chk 128 (let! v7 := (Distance_fromMeterString "12000") in Ok (negb (has_value v7))) (
    chk 129 (let! v8 := (Distance_fromMeterString "1/16") in Ok (negb (has_value v8))) (
    chk 130 (let! v9 := (Distance_fromMeterString "1") in Ok (negb (has_value v9))) (
    chk 131 (let! v10 := (Distance_fromMeterString "ZZZZ") in Ok (negb (has_value v10))) (
    chk 132 (let! v11 := (Distance_fromMeterString "015A") in Ok (negb (has_value v11))) (
    chk 133 (let! v12 := (Distance_fromMeterString "///") in Ok (negb (has_value v12))) (
    chk 134 (let! v13 := (Distance_fromMeterString "/////") in Ok (negb (has_value v13))) (
    None))))))))))))).

Definition t_Distance_fromMileString3SM : option N :=
    step 144 ((Distance_fromMileString "3SM" false)) (fun v1 => 
    chk 145 (Ok (has_value v1)) (
    chk 146 (let! v2 := deref v1 in Ok (DistModifier_beq (distModifier v2) DM_NONE)) (
    chk 147 (let! v3 := deref v1 in Ok (Distance_isReported v3)) (
    chk 148 (let! v4 := deref v1 in Ok (has_value (Distance_distance v4))) (
    chk 149 (let! v5 := deref v1 in let! v6 := deref (Distance_distance v5) in Ok (near v6 (dlit (3) 1) (dlit (1) 200))) (
    chk 150 (let! v7 := deref v1 in Ok (DistUnit_beq (distUnit v7) STATUTE_MILES)) (
    chk 151 (let! v8 := deref v1 in Ok (Distance_isValue v8)) (
    None)))))))).

Definition t_Distance_fromMileString16SM : option N :=
    step 155 ((Distance_fromMileString "15SM" false)) (fun v1 => 
    chk 156 (Ok (has_value v1)) (
    chk 157 (let! v2 := deref v1 in Ok (DistModifier_beq (distModifier v2) DM_NONE)) (
    chk 158 (let! v3 := deref v1 in Ok (Distance_isReported v3)) (
    chk 159 (let! v4 := deref v1 in Ok (has_value (Distance_distance v4))) (
    chk 160 (let! v5 := deref v1 in let! v6 := deref (Distance_distance v5) in Ok (near v6 (dlit (15) 1) (dlit (1) 200))) (
    chk 161 (let! v7 := deref v1 in Ok (DistUnit_beq (distUnit v7) STATUTE_MILES)) (
    chk 162 (let! v8 := deref v1 in Ok (Distance_isValue v8)) (
    None)))))))).

Definition t_Distance_fromMileString0SM : option N :=
    step 166 ((Distance_fromMileString "0SM" false)) (fun v1 => 
    chk 167 (Ok (has_value v1)) (
    chk 168 (let! v2 := deref v1 in Ok (DistModifier_beq (distModifier v2) DM_NONE)) (
    chk 169 (let! v3 := deref v1 in Ok (Distance_isReported v3)) (
    chk 170 (let! v4 := deref v1 in Ok (has_value (Distance_distance v4))) (
    chk 171 (let! v5 := deref v1 in let! v6 := deref (Distance_distance v5) in Ok (near v6 (dlit (0) 1) (dlit (1) 200))) (
    chk 172 (let! v7 := deref v1 in Ok (DistUnit_beq (distUnit v7) STATUTE_MILES)) (
    chk 173 (let! v8 := deref v1 in Ok (Distance_isValue v8)) (
    None)))))))).

Definition t_Distance_fromMileString1_2SM : option N :=
    step 177 ((Distance_fromMileString "1/2SM" false)) (fun v1 => 
    chk 178 (Ok (has_value v1)) (
    chk 179 (let! v2 := deref v1 in Ok (DistModifier_beq (distModifier v2) DM_NONE)) (
    chk 180 (let! v3 := deref v1 in Ok (Distance_isReported v3)) (
    chk 181 (let! v4 := deref v1 in Ok (has_value (Distance_distance v4))) (
    chk 182 (let! v5 := deref v1 in let! v6 := deref (Distance_distance v5) in Ok (near v6 (dlit (1) 2) (dlit (1) 200))) (
    chk 183 (let! v7 := deref v1 in Ok (DistUnit_beq (distUnit v7) STATUTE_MILES)) (
    chk 184 (let! v8 := deref v1 in Ok (Distance_isValue v8)) (
    None)))))))).

Definition t_Distance_fromMileString3_16SM : option N :=
    step 188 ((Distance_fromMileString "3/16SM" false)) (fun v1 => 
    chk 189 (Ok (has_value v1)) (
    chk 190 (let! v2 := deref v1 in Ok (DistModifier_beq (distModifier v2) DM_NONE)) (
    chk 191 (let! v3 := deref v1 in Ok (Distance_isReported v3)) (
    chk 192 (let! v4 := deref v1 in Ok (has_value (Distance_distance v4))) (
    chk 193 (let! v5 := deref v1 in let! v6 := deref (Distance_distance v5) in Ok (near v6 (dlit (3) 16) (dlit (1) 200))) (
    chk 194 (let! v7 := deref v1 in Ok (DistUnit_beq (distUnit v7) STATUTE_MILES)) (
    chk 195 (let! v8 := deref v1 in Ok (Distance_isValue v8)) (
    None)))))))).

Definition t_Distance_fromMileStringM1_8SM : option N :=
    step 199 ((Distance_fromMileString "M1/8SM" false)) (fun v1 => 
    chk 200 (Ok (has_value v1)) (
    chk 201 (let! v2 := deref v1 in Ok (DistModifier_beq (distModifier v2) DM_LESS_THAN)) (
    chk 202 (let! v3 := deref v1 in Ok (Distance_isReported v3)) (
    chk 203 (let! v4 := deref v1 in Ok (has_value (Distance_distance v4))) (
    chk 204 (let! v5 := deref v1 in let! v6 := deref (Distance_distance v5) in Ok (near v6 (dlit (1) 8) (dlit (1) 200))) (
    chk 205 (let! v7 := deref v1 in Ok (DistUnit_beq (distUnit v7) STATUTE_MILES)) (
    chk 206 (let! v8 := deref v1 in Ok (Distance_isValue v8)) (
    None)))))))).

Definition t_Distance_fromMileStringM1SM : option N :=
    step 210 ((Distance_fromMileString "M1SM" false)) (fun v1 => 
    chk 211 (Ok (has_value v1)) (
    chk 212 (let! v2 := deref v1 in Ok (DistModifier_beq (distModifier v2) DM_LESS_THAN)) (
    chk 213 (let! v3 := deref v1 in Ok (Distance_isReported v3)) (
    chk 214 (let! v4 := deref v1 in Ok (has_value (Distance_distance v4))) (
    chk 215 (let! v5 := deref v1 in let! v6 := deref (Distance_distance v5) in Ok (near v6 (dlit (1) 1) (dlit (1) 200))) (
    chk 216 (let! v7 := deref v1 in Ok (DistUnit_beq (distUnit v7) STATUTE_MILES)) (
    chk 217 (let! v8 := deref v1 in Ok (Distance_isValue v8)) (
    None)))))))).

Definition t_Distance_fromMileStringP6SM : option N :=
    step 221 ((Distance_fromMileString "P6SM" false)) (fun v1 => 
    chk 222 (Ok (has_value v1)) (
    chk 223 (let! v2 := deref v1 in Ok (DistModifier_beq (distModifier v2) DM_MORE_THAN)) (
    chk 224 (let! v3 := deref v1 in Ok (Distance_isReported v3)) (
    chk 225 (let! v4 := deref v1 in Ok (has_value (Distance_distance v4))) (
    chk 226 (let! v5 := deref v1 in let! v6 := deref (Distance_distance v5) in Ok (near v6 (dlit (6) 1) (dlit (1) 200))) (
    chk 227 (let! v7 := deref v1 in Ok (DistUnit_beq (distUnit v7) STATUTE_MILES)) (
    chk 228 (let! v8 := deref v1 in Ok (Distance_isValue v8)) (
    None)))))))).

Definition t_Distance_fromMileStringP15SM : option N :=
    step 232 ((Distance_fromMileString "P15SM" false)) (fun v1 => 
    chk 233 (Ok (has_value v1)) (
    chk 234 (let! v2 := deref v1 in Ok (DistUnit_beq (distUnit v2) STATUTE_MILES)) (
    chk 235 (let! v3 := deref v1 in Ok (DistModifier_beq (distModifier v3) DM_MORE_THAN)) (
    chk 236 (let! v4 := deref v1 in Ok (Distance_isReported v4)) (
    chk 237 (let! v5 := deref v1 in Ok (has_value (Distance_distance v5))) (
    chk 238 (let! v6 := deref v1 in let! v7 := deref (Distance_distance v6) in Ok (near v7 (dlit (15) 1) (dlit (1) 200))) (
    chk 239 (let! v8 := deref v1 in Ok (DistUnit_beq (distUnit v8) STATUTE_MILES)) (
    chk 240 (let! v9 := deref v1 in Ok (Distance_isValue v9)) (
    None))))))))).

Definition t_Distance_fromMileStringP3_4SM : option N :=
    step 244 ((Distance_fromMileString "P3/4SM" false)) (fun v1 => 
    chk 245 (Ok (has_value v1)) (
    chk 246 (let! v2 := deref v1 in Ok (DistModifier_beq (distModifier v2) DM_MORE_THAN)) (
    chk 247 (let! v3 := deref v1 in Ok (Distance_isReported v3)) (
    chk 248 (let! v4 := deref v1 in Ok (has_value (Distance_distance v4))) (
    chk 249 (let! v5 := deref v1 in let! v6 := deref (Distance_distance v5) in Ok (near v6 (dlit (3) 4) (dlit (1) 200))) (
    chk 250 (let! v7 := deref v1 in Ok (DistUnit_beq (distUnit v7) STATUTE_MILES)) (
    chk 251 (let! v8 := deref v1 in Ok (Distance_isValue v8)) (
    None)))))))).

Definition t_Distance_fromMileString21_4SM : option N :=
    step 255 ((Distance_fromMileString "21/4SM" false)) (fun v1 => 
    chk 256 (Ok (has_value v1)) (
    chk 257 (let! v2 := deref v1 in Ok (DistModifier_beq (distModifier v2) DM_NONE)) (
    chk 258 (let! v3 := deref v1 in Ok (Distance_isReported v3)) (
    chk 259 (let! v4 := deref v1 in Ok (has_value (Distance_distance v4))) (
    chk 260 (let! v5 := deref v1 in let! v6 := deref (Distance_distance v5) in Ok (near v6 (dlit (9) 4) (dlit (1) 200))) (
    chk 261 (let! v7 := deref v1 in Ok (DistUnit_beq (distUnit v7) STATUTE_MILES)) (
    chk 262 (let! v8 := deref v1 in Ok (Distance_isValue v8)) (
    None)))))))).

Definition t_Distance_fromMileStringM11_2SM : option N :=
    step 266 ((Distance_fromMileString "M11/2SM" false)) (fun v1 => 
    chk 267 (Ok (has_value v1)) (
    chk 268 (let! v2 := deref v1 in Ok (DistModifier_beq (distModifier v2) DM_LESS_THAN)) (
    chk 269 (let! v3 := deref v1 in Ok (Distance_isReported v3)) (
    chk 270 (let! v4 := deref v1 in Ok (has_value (Distance_distance v4))) (
    chk 271 (let! v5 := deref v1 in let! v6 := deref (Distance_distance v5) in Ok (near v6 (dlit (3) 2) (dlit (1) 200))) (
    chk 272 (let! v7 := deref v1 in Ok (DistUnit_beq (distUnit v7) STATUTE_MILES)) (
    chk 273 (let! v8 := deref v1 in Ok (Distance_isValue v8)) (
    None)))))))).

Definition t_Distance_fromMileStringNotReported : option N :=
    step 277 ((Distance_fromMileString "////SM" false)) (fun v1 => 
    chk 278 (Ok (has_value v1)) (
    chk 279 (let! v2 := deref v1 in Ok (DistModifier_beq (distModifier v2) DM_NONE)) (
    chk 280 (let! v3 := deref v1 in Ok (negb (Distance_isReported v3))) (
    chk 281 (let! v4 := deref v1 in Ok (negb (has_value (Distance_distance v4)))) (
    chk 282 (let! v5 := deref v1 in Ok (negb (Distance_isValue v5))) (
    None)))))).

Definition t_Distance_fromMileStringWrongFormat : option N :=
    chk 286 (let! v1 := (Distance_fromMileString "" false) in Ok (negb (has_value v1))) (
    chk 287 (let! v2 := (Distance_fromMileString "2000" false) in Ok (negb (has_value v2))) (
    chk 288 (let! v3 := (Distance_fromMileString "////" false) in Ok (negb (has_value v3))) (
    chk 289 (let! v4 := (Distance_fromMileString "SM" false) in Ok (negb (has_value v4))) (
    chk 290 (let! v5 := (Distance_fromMileString "015SM" false) in Ok (negb (has_value v5))) (
    chk 291 (let! v6 := (Distance_fromMileString "001/4SM" false) in Ok (negb (has_value v6))) (
    chk 292 (let! v7 := (Distance_fromMileString "1/004SM" false) in Ok (negb (has_value v7))) (
    chk 293 (let! v8 := (Distance_fromMileString "ZSM" false) in Ok (negb (has_value v8))) (
    chk 294 (let! v9 := (Distance_fromMileString "Z6SM" false) in Ok (negb (has_value v9))) (
    chk 295 (let! v10 := (Distance_fromMileString "Z/2SM" false) in Ok (negb (has_value v10))) (
    chk 296 (let! v11 := (Distance_fromMileString "1/ZSM" false) in Ok (negb (has_value v11))) (
    chk 297 (let! v12 := (Distance_fromMileString "///SM" false) in Ok (negb (has_value v12))) (
    chk 298 (let! v13 := (Distance_fromMileString "/////SM" false) in Ok (negb (has_value v13))) (
    chk 299 (let! v14 := (Distance_fromMileString "1/0SM" false) in Ok (negb (has_value v14))) (
    chk 300 (let! v15 := (Distance_fromMileString "0/2SM" false) in Ok (negb (has_value v15))) (
    chk 301 (let! v16 := (Distance_fromMileString "10/2SM" false) in Ok (negb (has_value v16))) (
    None)))))))))))))))).

Definition t_Distance_fromHeightString370 : option N :=
    step 311 ((Distance_fromHeightString "370")) (fun v1 => 
    chk 312 (Ok (has_value v1)) (
    chk 313 (let! v2 := deref v1 in Ok (DistModifier_beq (distModifier v2) DM_NONE)) (
    chk 314 (let! v3 := deref v1 in Ok (Distance_isReported v3)) (
    chk 315 (let! v4 := deref v1 in Ok (has_value (Distance_distance v4))) (
    chk 316 (let! v5 := deref v1 in let! v6 := deref (Distance_distance v5) in Ok (near v6 (dlit (37000) 1) (dlit (1) 200))) (
    chk 317 (let! v7 := deref v1 in Ok (DistUnit_beq (distUnit v7) FEET)) (
    chk 318 (let! v8 := deref v1 in Ok (Distance_isValue v8)) (
    None)))))))).

Definition t_Distance_fromHeightString145 : option N :=
    step 322 ((Distance_fromHeightString "145")) (fun v1 => 
    chk 323 (Ok (has_value v1)) (
    chk 324 (let! v2 := deref v1 in Ok (DistModifier_beq (distModifier v2) DM_NONE)) (
    chk 325 (let! v3 := deref v1 in Ok (Distance_isReported v3)) (
    chk 326 (let! v4 := deref v1 in Ok (has_value (Distance_distance v4))) (
    chk 327 (let! v5 := deref v1 in let! v6 := deref (Distance_distance v5) in Ok (near v6 (dlit (14500) 1) (dlit (1) 200))) (
    chk 328 (let! v7 := deref v1 in Ok (DistUnit_beq (distUnit v7) FEET)) (
    chk 329 (let! v8 := deref v1 in Ok (Distance_isValue v8)) (
    None)))))))).

Definition t_Distance_fromHeightString044 : option N :=
    step 333 ((Distance_fromHeightString "044")) (fun v1 => 
    chk 334 (Ok (has_value v1)) (
    chk 335 (let! v2 := deref v1 in Ok (DistModifier_beq (distModifier v2) DM_NONE)) (
    chk 336 (let! v3 := deref v1 in Ok (Distance_isReported v3)) (
    chk 337 (let! v4 := deref v1 in Ok (has_value (Distance_distance v4))) (
    chk 338 (let! v5 := deref v1 in let! v6 := deref (Distance_distance v5) in Ok (near v6 (dlit (4400) 1) (dlit (1) 200))) (
    chk 339 (let! v7 := deref v1 in Ok (DistUnit_beq (distUnit v7) FEET)) (
    chk 340 (let! v8 := deref v1 in Ok (Distance_isValue v8)) (
    None)))))))).

Definition t_Distance_fromHeightString001 : option N :=
    step 344 ((Distance_fromHeightString "001")) (fun v1 => 
    chk 345 (Ok (has_value v1)) (
    chk 346 (let! v2 := deref v1 in Ok (DistUnit_beq (distUnit v2) FEET)) (
    chk 347 (let! v3 := deref v1 in Ok (DistModifier_beq (distModifier v3) DM_NONE)) (
    chk 348 (let! v4 := deref v1 in Ok (Distance_isReported v4)) (
    chk 349 (let! v5 := deref v1 in Ok (has_value (Distance_distance v5))) (
    chk 350 (let! v6 := deref v1 in let! v7 := deref (Distance_distance v6) in Ok (near v7 (dlit (100) 1) (dlit (1) 200))) (
    chk 351 (let! v8 := deref v1 in Ok (Distance_isValue v8)) (
    None)))))))).

Definition t_Distance_fromHeightString000 : option N :=
    step 355 ((Distance_fromHeightString "000")) (fun v1 => 
    chk 356 (Ok (has_value v1)) (
    chk 357 (let! v2 := deref v1 in Ok (DistUnit_beq (distUnit v2) FEET)) (
    chk 358 (let! v3 := deref v1 in Ok (DistModifier_beq (distModifier v3) DM_NONE)) (
    chk 359 (let! v4 := deref v1 in Ok (Distance_isReported v4)) (
    chk 360 (let! v5 := deref v1 in Ok (has_value (Distance_distance v5))) (
    chk 361 (let! v6 := deref v1 in let! v7 := deref (Distance_distance v6) in Ok (near v7 (dlit (0) 1) (dlit (1) 200))) (
    chk 362 (let! v8 := deref v1 in Ok (Distance_isValue v8)) (
    None)))))))).

Definition t_Distance_fromHeightStringNotReported : option N :=
    step 366 ((Distance_fromHeightString "///")) (fun v1 => 
    chk 367 (Ok (has_value v1)) (
    chk 368 (let! v2 := deref v1 in Ok (DistUnit_beq (distUnit v2) FEET)) (
    chk 369 (let! v3 := deref v1 in Ok (DistModifier_beq (distModifier v3) DM_NONE)) (
    chk 370 (let! v4 := deref v1 in Ok (negb (Distance_isReported v4))) (
    chk 371 (let! v5 := deref v1 in Ok (negb (Distance_isValue v5))) (
    None)))))).

Definition t_Distance_fromHeightStringWrongFormat : option N :=
    chk 375 (let! v1 := (Distance_fromHeightString "") in Ok (negb (has_value v1))) (
    chk 376 (let! v2 := (Distance_fromHeightString "1000") in Ok (negb (has_value v2))) (
    chk 377 (let! v3 := (Distance_fromHeightString "10") in Ok (negb (has_value v3))) (
    chk 378 (let! v4 := (Distance_fromHeightString "1SM") in Ok (negb (has_value v4))) (
    chk 379 (let! v5 := (Distance_fromHeightString "1/2SM") in Ok (negb (has_value v5))) (
    chk 380 (let! v6 := (Distance_fromHeightString "P100") in Ok (negb (has_value v6))) (
    chk 381 (let! v7 := (Distance_fromHeightString "M001") in Ok (negb (has_value v7))) (
    chk 382 (let! v8 := (Distance_fromHeightString "00A") in Ok (negb (has_value v8))) (
    chk 383 (let! v9 := (Distance_fromHeightString "////SM") in Ok (negb (has_value v9))) (
    chk 384 (let! v10 := (Distance_fromHeightString "//") in Ok (negb (has_value v10))) (
    chk 385 (let! v11 := (Distance_fromHeightString "////") in Ok (negb (has_value v11))) (
    None))))))))))).

Definition t_Distance_fromRvrString3500 : option N :=
    step 395 ((Distance_fromRvrString "3500" false)) (fun v1 => 
    chk 396 (Ok (has_value v1)) (
    chk 397 (let! v2 := deref v1 in Ok (DistModifier_beq (distModifier v2) DM_NONE)) (
    chk 398 (let! v3 := deref v1 in Ok (Distance_isReported v3)) (
    chk 399 (let! v4 := deref v1 in Ok (has_value (Distance_distance v4))) (
    chk 400 (let! v5 := deref v1 in let! v6 := deref (Distance_distance v5) in Ok (near v6 (dlit (3500) 1) (dlit (1) 200))) (
    chk 401 (let! v7 := deref v1 in Ok (DistUnit_beq (distUnit v7) METERS)) (
    chk 402 (let! v8 := deref v1 in Ok (Distance_isValue v8)) (
    None)))))))).

Definition t_Distance_fromRvrString3500feet : option N :=
    step 406 ((Distance_fromRvrString "3500" true)) (fun v1 => 
    chk 407 (Ok (has_value v1)) (
    chk 408 (let! v2 := deref v1 in Ok (DistModifier_beq (distModifier v2) DM_NONE)) (
    chk 409 (let! v3 := deref v1 in Ok (Distance_isReported v3)) (
    chk 410 (let! v4 := deref v1 in Ok (has_value (Distance_distance v4))) (
    chk 411 (let! v5 := deref v1 in let! v6 := deref (Distance_distance v5) in Ok (near v6 (dlit (3500) 1) (dlit (1) 200))) (
    chk 412 (let! v7 := deref v1 in Ok (DistUnit_beq (distUnit v7) FEET)) (
    chk 413 (let! v8 := deref v1 in Ok (Distance_isValue v8)) (
    None)))))))).

Definition t_Distance_fromRvrString0800 : option N :=
    step 417 ((Distance_fromRvrString "0800" false)) (fun v1 => 
    chk 418 (Ok (has_value v1)) (
    chk 419 (let! v2 := deref v1 in Ok (DistModifier_beq (distModifier v2) DM_NONE)) (
    chk 420 (let! v3 := deref v1 in Ok (Distance_isReported v3)) (
    chk 421 (let! v4 := deref v1 in Ok (has_value (Distance_distance v4))) (
    chk 422 (let! v5 := deref v1 in let! v6 := deref (Distance_distance v5) in Ok (near v6 (dlit (800) 1) (dlit (1) 200))) (
    chk 423 (let! v7 := deref v1 in Ok (DistUnit_beq (distUnit v7) METERS)) (
    chk 424 (let! v8 := deref v1 in Ok (Distance_isValue v8)) (
    None)))))))).

Definition t_Distance_fromRvrString0200 : option N :=
    step 428 ((Distance_fromRvrString "0200" false)) (fun v1 => 
    chk 429 (Ok (has_value v1)) (
    chk 430 (let! v2 := deref v1 in Ok (DistModifier_beq (distModifier v2) DM_NONE)) (
    chk 431 (let! v3 := deref v1 in Ok (Distance_isReported v3)) (
    chk 432 (let! v4 := deref v1 in Ok (has_value (Distance_distance v4))) (
    chk 433 (let! v5 := deref v1 in let! v6 := deref (Distance_distance v5) in Ok (near v6 (dlit (200) 1) (dlit (1) 200))) (
    chk 434 (let! v7 := deref v1 in Ok (DistUnit_beq (distUnit v7) METERS)) (
    chk 435 (let! v8 := deref v1 in Ok (Distance_isValue v8)) (
    None)))))))).

Definition t_Distance_fromRvrStringM0200 : option N :=
    step 439 ((Distance_fromRvrString "M0200" false)) (fun v1 => 
    chk 440 (Ok (has_value v1)) (
    chk 441 (let! v2 := deref v1 in Ok (DistModifier_beq (distModifier v2) DM_LESS_THAN)) (
    chk 442 (let! v3 := deref v1 in Ok (Distance_isReported v3)) (
    chk 443 (let! v4 := deref v1 in Ok (has_value (Distance_distance v4))) (
    chk 444 (let! v5 := deref v1 in let! v6 := deref (Distance_distance v5) in Ok (near v6 (dlit (200) 1) (dlit (1) 200))) (
    chk 445 (let! v7 := deref v1 in Ok (DistUnit_beq (distUnit v7) METERS)) (
    chk 446 (let! v8 := deref v1 in Ok (Distance_isValue v8)) (
    None)))))))).

Definition t_Distance_fromRvrStringP2000 : option N :=
    step 450 ((Distance_fromRvrString "P2000" false)) (fun v1 => 
    chk 451 (Ok (has_value v1)) (
    chk 452 (let! v2 := deref v1 in Ok (DistModifier_beq (distModifier v2) DM_MORE_THAN)) (
    chk 453 (let! v3 := deref v1 in Ok (Distance_isReported v3)) (
    chk 454 (let! v4 := deref v1 in Ok (has_value (Distance_distance v4))) (
    chk 455 (let! v5 := deref v1 in let! v6 := deref (Distance_distance v5) in Ok (near v6 (dlit (2000) 1) (dlit (1) 200))) (
    chk 456 (let! v7 := deref v1 in Ok (DistUnit_beq (distUnit v7) METERS)) (
    chk 457 (let! v8 := deref v1 in Ok (Distance_isValue v8)) (
    None)))))))).

Definition t_Distance_fromRvrString9999 : option N :=
    step 461 ((Distance_fromRvrString "9999" false)) (fun v1 => 
    chk 462 (Ok (has_value v1)) (
    chk 463 (let! v2 := deref v1 in Ok (DistModifier_beq (distModifier v2) DM_NONE)) (
    chk 464 (let! v3 := deref v1 in Ok (Distance_isReported v3)) (
    chk 465 (let! v4 := deref v1 in Ok (has_value (Distance_distance v4))) (
    chk 466 (let! v5 := deref v1 in let! v6 := deref (Distance_distance v5) in Ok (near v6 (dlit (9999) 1) (dlit (1) 200))) (
    chk 467 (let! v7 := deref v1 in Ok (DistUnit_beq (distUnit v7) METERS)) (
    chk 468 (let! v8 := deref v1 in Ok (Distance_isValue v8)) (
    None)))))))).

Definition t_Distance_fromRvrString0000 : option N :=
    step 472 ((Distance_fromRvrString "0000" false)) (fun v1 => 
    chk 473 (Ok (has_value v1)) (
    chk 474 (let! v2 := deref v1 in Ok (DistUnit_beq (distUnit v2) METERS)) (
    chk 475 (let! v3 := deref v1 in Ok (DistModifier_beq (distModifier v3) DM_NONE)) (
    chk 476 (let! v4 := deref v1 in Ok (Distance_isReported v4)) (
    chk 477 (let! v5 := deref v1 in Ok (has_value (Distance_distance v5))) (
    chk 478 (let! v6 := deref v1 in let! v7 := deref (Distance_distance v6) in Ok (near v7 (dlit (0) 1) (dlit (1) 200))) (
    chk 479 (let! v8 := deref v1 in Ok (Distance_isValue v8)) (
    None)))))))).

Definition t_Distance_fromRvrStringNotReported : option N :=
    step 483 ((Distance_fromRvrString "////" false)) (fun v1 => 
    chk 484 (Ok (has_value v1)) (
    chk 485 (let! v2 := deref v1 in Ok (DistUnit_beq (distUnit v2) METERS)) (
    chk 486 (let! v3 := deref v1 in Ok (DistModifier_beq (distModifier v3) DM_NONE)) (
    chk 487 (let! v4 := deref v1 in Ok (negb (Distance_isReported v4))) (
    chk 488 (let! v5 := deref v1 in Ok (negb (Distance_isValue v5))) (
    None)))))).

Definition t_Distance_fromRvrStringWrongFormat : option N :=
    chk 492 (let! v1 := (Distance_fromRvrString "" false) in Ok (negb (has_value v1))) (
    chk 493 (let! v2 := (Distance_fromRvrString "700" false) in Ok (negb (has_value v2))) (
    chk 494 (let! v3 := (Distance_fromRvrString "10000" false) in Ok (negb (has_value v3))) (
    chk 495 (let! v4 := (Distance_fromRvrString "X2000" false) in Ok (negb (has_value v4))) (
    chk 496 (let! v5 := (Distance_fromRvrString "00A0" false) in Ok (negb (has_value v5))) (
    chk 497 (let! v6 := (Distance_fromRvrString "1/16SM" false) in Ok (negb (has_value v6))) (
    chk 498 (let! v7 := (Distance_fromRvrString "////SM" false) in Ok (negb (has_value v7))) (
    chk 499 (let! v8 := (Distance_fromRvrString "///" false) in Ok (negb (has_value v8))) (
    chk 500 (let! v9 := (Distance_fromRvrString "/////" false) in Ok (negb (has_value v9))) (
    None))))))))).

Definition t_Distance_fromLayerString : option N :=
    step 510 ((Distance_fromLayerString "0314")) (fun v1 => 
    chk 511 (Ok (has_value v1)) (
    step 513 (deref v1) (fun v2 => 
    chk 514 (Ok (DistModifier_beq (distModifier (fst v2)) DM_NONE)) (
    chk 515 (Ok (Distance_isReported (fst v2))) (
    chk 516 (Ok (has_value (Distance_distance (fst v2)))) (
    chk 517 (let! v3 := deref (Distance_distance (fst v2)) in Ok (near v3 (dlit (3100) 1) (dlit (1) 200))) (
    chk 518 (Ok (DistUnit_beq (distUnit (fst v2)) FEET)) (
    chk 519 (Ok (Distance_isValue (fst v2))) (
    step 521 (deref v1) (fun v4 => 
    chk 522 (Ok (DistModifier_beq (distModifier (snd v4)) DM_NONE)) (
    chk 523 (Ok (Distance_isReported (snd v4))) (
    chk 524 (Ok (has_value (Distance_distance (snd v4)))) (
    chk 525 (let! v5 := deref (Distance_distance (snd v4)) in Ok (near v5 (dlit (7100) 1) (dlit (1) 200))) (
    chk 526 (Ok (DistUnit_beq (distUnit (snd v4)) FEET)) (
    chk 527 (Ok (Distance_isValue (snd v4))) (
    None)))))))))))))))).

Definition t_Distance_fromLayerStringWrongFormat : option N :=
    chk 531 (let! v1 := (Distance_fromLayerString "") in Ok (negb (has_value v1))) (
    chk 532 (let! v2 := (Distance_fromLayerString "////") in Ok (negb (has_value v2))) (
    chk 533 (let! v3 := (Distance_fromLayerString "003/") in Ok (negb (has_value v3))) (
    chk 534 (let! v4 := (Distance_fromLayerString "///3") in Ok (negb (has_value v4))) (
    chk 535 (let! v5 := (Distance_fromLayerString "00304") in Ok (negb (has_value v5))) (
    chk 536 (let! v6 := (Distance_fromLayerString "304") in Ok (negb (has_value v6))) (
    chk 537 (let! v7 := (Distance_fromLayerString "030A") in Ok (negb (has_value v7))) (
    chk 538 (let! v8 := (Distance_fromLayerString "A304") in Ok (negb (has_value v8))) (
    chk 539 (let! v9 := (Distance_fromLayerString "03A4") in Ok (negb (has_value v9))) (
    None))))))))).

Definition t_Distance_fromKmString : option N :=
    step 549 ((Distance_fromKmString "4KM")) (fun v1 => 
    chk 550 (Ok (has_value v1)) (
    chk 551 (let! v2 := deref v1 in Ok (DistModifier_beq (distModifier v2) DM_NONE)) (
    chk 552 (let! v3 := deref v1 in Ok (Distance_isReported v3)) (
    chk 553 (let! v4 := deref v1 in Ok (has_value (Distance_distance v4))) (
    chk 554 (let! v5 := deref v1 in let! v6 := deref (Distance_distance v5) in Ok (near v6 (dlit (4000) 1) (dlit (1) 200))) (
    chk 555 (let! v7 := deref v1 in Ok (DistUnit_beq (distUnit v7) METERS)) (
    chk 556 (let! v8 := deref v1 in Ok (Distance_isValue v8)) (
    step 558 ((Distance_fromKmString "18KM")) (fun v9 => 
    chk 559 (Ok (has_value v9)) (
    chk 560 (let! v10 := deref v9 in Ok (DistModifier_beq (distModifier v10) DM_NONE)) (
    chk 561 (let! v11 := deref v9 in Ok (Distance_isReported v11)) (
    chk 562 (let! v12 := deref v9 in Ok (has_value (Distance_distance v12))) (
    chk 563 (let! v13 := deref v9 in let! v14 := deref (Distance_distance v13) in Ok (near v14 (dlit (18000) 1) (dlit (1) 200))) (
    chk 564 (let! v15 := deref v9 in Ok (DistUnit_beq (distUnit v15) METERS)) (
    chk 565 (let! v16 := deref v9 in Ok (Distance_isValue v16)) (
    None)))))))))))))))).

Definition t_Distance_fromKmStringWrongFormat : option N :=
    chk 569 (let! v1 := (Distance_fromKmString "") in Ok (negb (has_value v1))) (
    chk 570 (let! v2 := (Distance_fromKmString "//KM") in Ok (negb (has_value v2))) (
    chk 571 (let! v3 := (Distance_fromKmString "DSNT") in Ok (negb (has_value v3))) (
    chk 572 (let! v4 := (Distance_fromKmString "KM") in Ok (negb (has_value v4))) (
    chk 573 (let! v5 := (Distance_fromKmString "012KM") in Ok (negb (has_value v5))) (
    chk 574 (let! v6 := (Distance_fromKmString "A0KM") in Ok (negb (has_value v6))) (
    chk 575 (let! v7 := (Distance_fromKmString "0AKM") in Ok (negb (has_value v7))) (
    chk 576 (let! v8 := (Distance_fromKmString "AKM") in Ok (negb (has_value v8))) (
    None)))))))).

Definition t_Distance_fromIntegerAndFraction : option N :=
    step 587 ((Distance_fromMileString "1/4SM" false)) (fun v1 => 
    chk 588 (Ok (has_value v1)) (
    step 589 (deref v1) (fun v2 => 
    step 589 ((Distance_fromIntegerAndFraction (Distance_of 2%N STATUTE_MILES) v2)) (fun v3 => 
    chk 590 (Ok (has_value v3)) (
    chk 592 (let! v4 := deref v3 in Ok (DistModifier_beq (distModifier v4) DM_NONE)) (
    chk 593 (let! v5 := deref v3 in Ok (Distance_isReported v5)) (
    chk 594 (let! v6 := deref v3 in Ok (has_value (Distance_distance v6))) (
    chk 595 (let! v7 := deref v3 in let! v8 := deref (Distance_distance v7) in Ok (near v8 (dlit (9) 4) (dlit (1) 200))) (
    chk 596 (let! v9 := deref v3 in Ok (DistUnit_beq (distUnit v9) STATUTE_MILES)) (
    chk 597 (let! v10 := deref v3 in Ok (Distance_isValue v10)) (
    None))))))))))).

Definition t_Distance_fromIntegerWithModifierAndFraction : option N :=
    step 601 ((Distance_fromMileString "M1SM" false)) (fun v1 => 
    chk 602 (Ok (has_value v1)) (
    step 603 ((Distance_fromMileString "P1SM" false)) (fun v2 => 
    chk 604 (Ok (has_value v2)) (
    step 605 ((Distance_fromMileString "1/4SM" false)) (fun v3 => 
    chk 606 (Ok (has_value v3)) (
    step 608 (deref v1) (fun v4 => 
    step 608 (deref v3) (fun v5 => 
    step 608 ((Distance_fromIntegerAndFraction v4 v5)) (fun v6 => 
    chk 610 (let! v7 := deref v6 in Ok (DistModifier_beq (distModifier v7) DM_LESS_THAN)) (
    chk 611 (let! v8 := deref v6 in Ok (Distance_isReported v8)) (
    chk 612 (let! v9 := deref v6 in Ok (has_value (Distance_distance v9))) (
    chk 613 (let! v10 := deref v6 in let! v11 := deref (Distance_distance v10) in Ok (near v11 (dlit (5) 4) (dlit (1) 200))) (
    chk 614 (let! v12 := deref v6 in Ok (DistUnit_beq (distUnit v12) STATUTE_MILES)) (
    chk 615 (let! v13 := deref v6 in Ok (Distance_isValue v13)) (
    step 617 (deref v2) (fun v14 => 
    step 617 (deref v3) (fun v15 => 
    step 617 ((Distance_fromIntegerAndFraction v14 v15)) (fun v16 => 
    chk 619 (let! v17 := deref v16 in Ok (DistModifier_beq (distModifier v17) DM_MORE_THAN)) (
    chk 620 (let! v18 := deref v16 in Ok (Distance_isReported v18)) (
    chk 621 (let! v19 := deref v16 in Ok (has_value (Distance_distance v19))) (
    chk 622 (let! v20 := deref v16 in let! v21 := deref (Distance_distance v20) in Ok (near v21 (dlit (5) 4) (dlit (1) 200))) (
    chk 623 (let! v22 := deref v6 in Ok (DistUnit_beq (distUnit v22) STATUTE_MILES)) (
    chk 624 (let! v23 := deref v16 in Ok (Distance_isValue v23)) (
    None)))))))))))))))))))))))).

Definition t_Distance_fromIntegerAndFractionWrongCombination : option N :=
    step 630 ((Distance_fromMileString "1/4SM" false)) (fun v1 => 
    chk 631 (Ok (has_value v1)) (
    step 632 ((Distance_fromMeterString "6000")) (fun v2 => 
    chk 633 (Ok (has_value v2)) (
    step 634 ((Distance_fromMileString "////SM" false)) (fun v3 => 
    chk 635 (Ok (has_value v3)) (
    step 636 ((Distance_fromMileString "M1/4SM" false)) (fun v4 => 
    chk 637 (Ok (has_value v4)) (
    step 638 ((Distance_fromMileString "M1SM" false)) (fun v5 => 
    chk 639 (Ok (has_value v5)) (
    chk 641 (let! v6 := deref v1 in let! v7 := (Distance_fromIntegerAndFraction v6 (Distance_of 2%N STATUTE_MILES)) in Ok (negb (has_value v7))) (
    chk 643 (let! v8 := deref v2 in let! v9 := deref v1 in let! v10 := (Distance_fromIntegerAndFraction v8 v9) in Ok (negb (has_value v10))) (
    chk 645 (let! v11 := deref v3 in let! v12 := deref v1 in let! v13 := (Distance_fromIntegerAndFraction v11 v12) in Ok (negb (has_value v13))) (
    chk 647 (let! v14 := deref v3 in let! v15 := (Distance_fromIntegerAndFraction (Distance_of 2%N STATUTE_MILES) v14) in Ok (negb (has_value v15))) (
    chk 649 (let! v16 := deref v3 in let! v17 := deref v1 in let! v18 := (Distance_fromIntegerAndFraction v16 v17) in Ok (negb (has_value v18))) (
    chk 651 (let! v19 := deref v4 in let! v20 := (Distance_fromIntegerAndFraction (Distance_of 2%N STATUTE_MILES) v19) in Ok (negb (has_value v20))) (
    chk 653 (let! v21 := deref v5 in let! v22 := deref v4 in let! v23 := (Distance_fromIntegerAndFraction v21 v22) in Ok (negb (has_value v23))) (
    None))))))))))))))))).

Definition t_Distance_cavokVisibilityMeters : option N :=
    chk 665 (Ok (DistModifier_beq (distModifier (Distance_cavokVisibility false)) DM_MORE_THAN)) (
    chk 666 (Ok (Distance_isReported (Distance_cavokVisibility false))) (
    chk 667 (Ok (has_value (Distance_distance (Distance_cavokVisibility false)))) (
    chk 668 (let! v1 := deref (Distance_distance (Distance_cavokVisibility false)) in Ok (near v1 (dlit (10000) 1) (dlit (1) 200))) (
    chk 669 (Ok (DistUnit_beq (distUnit (Distance_cavokVisibility false)) METERS)) (
    chk 670 (Ok (Distance_isValue (Distance_cavokVisibility false))) (
    None)))))).

Definition t_Distance_cavokVisibilityMiles : option N :=
    chk 675 (Ok (Distance_isReported (Distance_cavokVisibility true))) (
    chk 676 (Ok (DistModifier_beq (distModifier (Distance_cavokVisibility true)) DM_MORE_THAN)) (
    chk 677 (Ok (has_value (Distance_distance (Distance_cavokVisibility true)))) (
    chk 678 (let! v1 := deref (Distance_distance (Distance_cavokVisibility true)) in Ok (near v1 (dlit (6) 1) (dlit (1) 200))) (
    chk 679 (Ok (DistUnit_beq (distUnit (Distance_cavokVisibility true)) STATUTE_MILES)) (
    chk 680 (Ok (Distance_isValue (Distance_cavokVisibility true))) (
    None)))))).

Definition t_Distance_makeDistant : option N :=
    chk 685 (Ok (DistModifier_beq (distModifier (Distance_makeDistant)) DM_DISTANT)) (
    chk 686 (Ok (negb (has_value (Distance_distance (Distance_makeDistant))))) (
    chk 687 (Ok (Distance_isReported (Distance_makeDistant))) (
    chk 688 (Ok (negb (Distance_isValue (Distance_makeDistant)))) (
    None)))).

Definition t_Distance_makeVicinity : option N :=
    chk 693 (Ok (DistModifier_beq (distModifier (Distance_makeVicinity)) DM_VICINITY)) (
    chk 694 (Ok (negb (has_value (Distance_distance (Distance_makeVicinity))))) (
    chk 695 (Ok (Distance_isReported (Distance_makeVicinity))) (
    chk 696 (Ok (negb (Distance_isValue (Distance_makeVicinity)))) (
    None)))).

Definition t_Distance_miles_0 : option N :=
    step 707 ((Distance_fromMileString "0SM" false)) (fun v1 => 
    chk 708 (Ok (has_value v1)) (
    step 709 (deref v1) (fun v2 => 
    step 709 ((Distance_miles v2)) (fun v3 => 
    chk 710 (Ok (has_value v3)) (
    chk 711 (let! v4 := deref v3 in Ok (N.eqb (fst v4) 0%N)) (
    chk 712 (let! v5 := deref v3 in Ok (MilesFraction_beq (snd v5) F_NONE)) (
    step 715 ((Distance_fromMeterString "0000")) (fun v6 => 
    chk 716 (Ok (has_value v6)) (
    step 717 (deref v6) (fun v7 => 
    step 717 ((Distance_miles v7)) (fun v8 => 
    chk 718 (Ok (has_value v8)) (
    chk 719 (let! v9 := deref v8 in Ok (N.eqb (fst v9) 0%N)) (
    chk 720 (let! v10 := deref v8 in Ok (MilesFraction_beq (snd v10) F_NONE)) (
    None)))))))))))))).

Definition t_Distance_miles_1_16 : option N :=
    step 725 ((Distance_fromMileString "1/16SM" false)) (fun v1 => 
    chk 726 (Ok (has_value v1)) (
    step 727 (deref v1) (fun v2 => 
    step 727 ((Distance_miles v2)) (fun v3 => 
    chk 728 (Ok (has_value v3)) (
    chk 729 (let! v4 := deref v3 in Ok (N.eqb (fst v4) 0%N)) (
    chk 730 (let! v5 := deref v3 in Ok (MilesFraction_beq (snd v5) F_1_16)) (
    step 733 ((Distance_fromMeterString "0100")) (fun v6 => 
    chk 734 (Ok (has_value v6)) (
    step 735 (deref v6) (fun v7 => 
    step 735 ((Distance_miles v7)) (fun v8 => 
    chk 736 (Ok (has_value v8)) (
    chk 737 (let! v9 := deref v8 in Ok (N.eqb (fst v9) 0%N)) (
    chk 738 (let! v10 := deref v8 in Ok (MilesFraction_beq (snd v10) F_1_16)) (
    None)))))))))))))).

Definition t_Distance_miles_1_8 : option N :=
    step 743 ((Distance_fromMileString "1/8SM" false)) (fun v1 => 
    chk 744 (Ok (has_value v1)) (
    step 745 (deref v1) (fun v2 => 
    step 745 ((Distance_miles v2)) (fun v3 => 
    chk 746 (Ok (has_value v3)) (
    chk 747 (let! v4 := deref v3 in Ok (N.eqb (fst v4) 0%N)) (
    chk 748 (let! v5 := deref v3 in Ok (MilesFraction_beq (snd v5) F_1_8)) (
    step 751 ((Distance_fromMeterString "0200")) (fun v6 => 
    chk 752 (Ok (has_value v6)) (
    step 753 (deref v6) (fun v7 => 
    step 753 ((Distance_miles v7)) (fun v8 => 
    chk 754 (Ok (has_value v8)) (
    chk 755 (let! v9 := deref v8 in Ok (N.eqb (fst v9) 0%N)) (
    chk 756 (let! v10 := deref v8 in Ok (MilesFraction_beq (snd v10) F_1_8)) (
    None)))))))))))))).

Definition t_Distance_miles_3_16 : option N :=
    step 761 ((Distance_fromMileString "3/16SM" false)) (fun v1 => 
    chk 762 (Ok (has_value v1)) (
    step 763 (deref v1) (fun v2 => 
    step 763 ((Distance_miles v2)) (fun v3 => 
    chk 764 (Ok (has_value v3)) (
    chk 765 (let! v4 := deref v3 in Ok (N.eqb (fst v4) 0%N)) (
    chk 766 (let! v5 := deref v3 in Ok (MilesFraction_beq (snd v5) F_3_16)) (
    step 769 ((Distance_fromMeterString "0300")) (fun v6 => 
    chk 770 (Ok (has_value v6)) (
    step 771 (deref v6) (fun v7 => 
    step 771 ((Distance_miles v7)) (fun v8 => 
    chk 772 (Ok (has_value v8)) (
    chk 773 (let! v9 := deref v8 in Ok (N.eqb (fst v9) 0%N)) (
    chk 774 (let! v10 := deref v8 in Ok (MilesFraction_beq (snd v10) F_3_16)) (
    None)))))))))))))).

Definition t_Distance_miles_1_4 : option N :=
    step 779 ((Distance_fromMileString "1/4SM" false)) (fun v1 => 
    chk 780 (Ok (has_value v1)) (
    step 781 (deref v1) (fun v2 => 
    step 781 ((Distance_miles v2)) (fun v3 => 
    chk 782 (Ok (has_value v3)) (
    chk 783 (let! v4 := deref v3 in Ok (N.eqb (fst v4) 0%N)) (
    chk 784 (let! v5 := deref v3 in Ok (MilesFraction_beq (snd v5) F_1_4)) (
    step 787 ((Distance_fromMeterString "0400")) (fun v6 => 
    chk 788 (Ok (has_value v6)) (
    step 789 (deref v6) (fun v7 => 
    step 789 ((Distance_miles v7)) (fun v8 => 
    chk 790 (Ok (has_value v8)) (
    chk 791 (let! v9 := deref v8 in Ok (N.eqb (fst v9) 0%N)) (
    chk 792 (let! v10 := deref v8 in Ok (MilesFraction_beq (snd v10) F_1_4)) (
    None)))))))))))))).

Definition t_Distance_miles_5_16 : option N :=
    step 797 ((Distance_fromMileString "5/16SM" false)) (fun v1 => 
    chk 798 (Ok (has_value v1)) (
    step 799 (deref v1) (fun v2 => 
    step 799 ((Distance_miles v2)) (fun v3 => 
    chk 800 (Ok (has_value v3)) (
    chk 801 (let! v4 := deref v3 in Ok (N.eqb (fst v4) 0%N)) (
    chk 802 (let! v5 := deref v3 in Ok (MilesFraction_beq (snd v5) F_5_16)) (
    step 805 ((Distance_fromMeterString "0500")) (fun v6 => 
    chk 806 (Ok (has_value v6)) (
    step 807 (deref v6) (fun v7 => 
    step 807 ((Distance_miles v7)) (fun v8 => 
    chk 808 (Ok (has_value v8)) (
    chk 809 (let! v9 := deref v8 in Ok (N.eqb (fst v9) 0%N)) (
    chk 810 (let! v10 := deref v8 in Ok (MilesFraction_beq (snd v10) F_5_16)) (
    None)))))))))))))).

Definition t_Distance_miles_3_8 : option N :=
    step 815 ((Distance_fromMileString "3/8SM" false)) (fun v1 => 
    chk 816 (Ok (has_value v1)) (
    step 817 (deref v1) (fun v2 => 
    step 817 ((Distance_miles v2)) (fun v3 => 
    chk 818 (Ok (has_value v3)) (
    chk 819 (let! v4 := deref v3 in Ok (N.eqb (fst v4) 0%N)) (
    chk 820 (let! v5 := deref v3 in Ok (MilesFraction_beq (snd v5) F_3_8)) (
    step 823 ((Distance_fromMeterString "0600")) (fun v6 => 
    chk 824 (Ok (has_value v6)) (
    step 825 (deref v6) (fun v7 => 
    step 825 ((Distance_miles v7)) (fun v8 => 
    chk 826 (Ok (has_value v8)) (
    chk 827 (let! v9 := deref v8 in Ok (N.eqb (fst v9) 0%N)) (
    chk 828 (let! v10 := deref v8 in Ok (MilesFraction_beq (snd v10) F_3_8)) (
    None)))))))))))))).

Definition t_Distance_miles_1_2 : option N :=
    step 833 ((Distance_fromMileString "1/2SM" false)) (fun v1 => 
    chk 834 (Ok (has_value v1)) (
    step 835 (deref v1) (fun v2 => 
    step 835 ((Distance_miles v2)) (fun v3 => 
    chk 836 (Ok (has_value v3)) (
    chk 837 (let! v4 := deref v3 in Ok (N.eqb (fst v4) 0%N)) (
    chk 838 (let! v5 := deref v3 in Ok (MilesFraction_beq (snd v5) F_1_2)) (
    step 841 ((Distance_fromMeterString "0800")) (fun v6 => 
    chk 842 (Ok (has_value v6)) (
    step 843 (deref v6) (fun v7 => 
    step 843 ((Distance_miles v7)) (fun v8 => 
    chk 844 (Ok (has_value v8)) (
    chk 845 (let! v9 := deref v8 in Ok (N.eqb (fst v9) 0%N)) (
    chk 846 (let! v10 := deref v8 in Ok (MilesFraction_beq (snd v10) F_1_2)) (
    None)))))))))))))).

Definition t_Distance_miles_5_8 : option N :=
    step 851 ((Distance_fromMileString "5/8SM" false)) (fun v1 => 
    chk 852 (Ok (has_value v1)) (
    step 853 (deref v1) (fun v2 => 
    step 853 ((Distance_miles v2)) (fun v3 => 
    chk 854 (Ok (has_value v3)) (
    chk 855 (let! v4 := deref v3 in Ok (N.eqb (fst v4) 0%N)) (
    chk 856 (let! v5 := deref v3 in Ok (MilesFraction_beq (snd v5) F_5_8)) (
    step 859 ((Distance_fromMeterString "1000")) (fun v6 => 
    chk 860 (Ok (has_value v6)) (
    step 861 (deref v6) (fun v7 => 
    step 861 ((Distance_miles v7)) (fun v8 => 
    chk 862 (Ok (has_value v8)) (
    chk 863 (let! v9 := deref v8 in Ok (N.eqb (fst v9) 0%N)) (
    chk 864 (let! v10 := deref v8 in Ok (MilesFraction_beq (snd v10) F_5_8)) (
    None)))))))))))))).

Definition t_Distance_miles_3_4 : option N :=
    step 869 ((Distance_fromMileString "3/4SM" false)) (fun v1 => 
    chk 870 (Ok (has_value v1)) (
    step 871 (deref v1) (fun v2 => 
    step 871 ((Distance_miles v2)) (fun v3 => 
    chk 872 (Ok (has_value v3)) (
    chk 873 (let! v4 := deref v3 in Ok (N.eqb (fst v4) 0%N)) (
    chk 874 (let! v5 := deref v3 in Ok (MilesFraction_beq (snd v5) F_3_4)) (
    step 877 ((Distance_fromMeterString "1200")) (fun v6 => 
    chk 878 (Ok (has_value v6)) (
    step 879 (deref v6) (fun v7 => 
    step 879 ((Distance_miles v7)) (fun v8 => 
    chk 880 (Ok (has_value v8)) (
    chk 881 (let! v9 := deref v8 in Ok (N.eqb (fst v9) 0%N)) (
    chk 882 (let! v10 := deref v8 in Ok (MilesFraction_beq (snd v10) F_3_4)) (
    None)))))))))))))).

Definition t_Distance_miles_7_8 : option N :=
    step 887 ((Distance_fromMileString "7/8SM" false)) (fun v1 => 
    chk 888 (Ok (has_value v1)) (
    step 889 (deref v1) (fun v2 => 
    step 889 ((Distance_miles v2)) (fun v3 => 
    chk 890 (Ok (has_value v3)) (
    chk 891 (let! v4 := deref v3 in Ok (N.eqb (fst v4) 0%N)) (
    chk 892 (let! v5 := deref v3 in Ok (MilesFraction_beq (snd v5) F_7_8)) (
    step 895 ((Distance_fromMeterString "1400")) (fun v6 => 
    chk 896 (Ok (has_value v6)) (
    step 897 (deref v6) (fun v7 => 
    step 897 ((Distance_miles v7)) (fun v8 => 
    chk 898 (Ok (has_value v8)) (
    chk 899 (let! v9 := deref v8 in Ok (N.eqb (fst v9) 0%N)) (
    chk 900 (let! v10 := deref v8 in Ok (MilesFraction_beq (snd v10) F_7_8)) (
    None)))))))))))))).

Definition t_Distance_miles_1 : option N :=
    step 905 ((Distance_fromMileString "1SM" false)) (fun v1 => 
    chk 906 (Ok (has_value v1)) (
    step 907 (deref v1) (fun v2 => 
    step 907 ((Distance_miles v2)) (fun v3 => 
    chk 908 (Ok (has_value v3)) (
    chk 909 (let! v4 := deref v3 in Ok (N.eqb (fst v4) 1%N)) (
    chk 910 (let! v5 := deref v3 in Ok (MilesFraction_beq (snd v5) F_NONE)) (
    step 913 ((Distance_fromMeterString "1600")) (fun v6 => 
    chk 914 (Ok (has_value v6)) (
    step 915 (deref v6) (fun v7 => 
    step 915 ((Distance_miles v7)) (fun v8 => 
    chk 916 (Ok (has_value v8)) (
    chk 917 (let! v9 := deref v8 in Ok (N.eqb (fst v9) 1%N)) (
    chk 918 (let! v10 := deref v8 in Ok (MilesFraction_beq (snd v10) F_NONE)) (
    None)))))))))))))).

Definition t_Distance_miles_1_1_8 : option N :=
    step 923 ((Distance_fromMileString "1/8SM" false)) (fun v1 => 
    chk 924 (Ok (has_value v1)) (
    step 925 (deref v1) (fun v2 => 
    step 925 ((Distance_fromIntegerAndFraction (Distance_of 1%N STATUTE_MILES) v2)) (fun v3 => 
    chk 927 (Ok (has_value v3)) (
    step 928 (deref v3) (fun v4 => 
    step 928 ((Distance_miles v4)) (fun v5 => 
    chk 929 (Ok (has_value v5)) (
    chk 930 (let! v6 := deref v5 in Ok (N.eqb (fst v6) 1%N)) (
    chk 931 (let! v7 := deref v5 in Ok (MilesFraction_beq (snd v7) F_1_8)) (
    step 934 ((Distance_fromMeterString "1800")) (fun v8 => 
    chk 935 (Ok (has_value v8)) (
    step 936 (deref v8) (fun v9 => 
    step 936 ((Distance_miles v9)) (fun v10 => 
    chk 937 (Ok (has_value v10)) (
    chk 938 (let! v11 := deref v10 in Ok (N.eqb (fst v11) 1%N)) (
    chk 939 (let! v12 := deref v10 in Ok (MilesFraction_beq (snd v12) F_1_8)) (
    None))))))))))))))))).

Definition t_Distance_miles_1_1_4 : option N :=
    step 944 ((Distance_fromMileString "1/4SM" false)) (fun v1 => 
    chk 945 (Ok (has_value v1)) (
    step 946 (deref v1) (fun v2 => 
    step 946 ((Distance_fromIntegerAndFraction (Distance_of 1%N STATUTE_MILES) v2)) (fun v3 => 
    chk 948 (Ok (has_value v3)) (
    step 949 (deref v3) (fun v4 => 
    step 949 ((Distance_miles v4)) (fun v5 => 
    chk 950 (Ok (has_value v5)) (
    chk 951 (let! v6 := deref v5 in Ok (N.eqb (fst v6) 1%N)) (
    chk 952 (let! v7 := deref v5 in Ok (MilesFraction_beq (snd v7) F_1_4)) (
    step 955 ((Distance_fromMeterString "2000")) (fun v8 => 
    chk 956 (Ok (has_value v8)) (
    step 957 (deref v8) (fun v9 => 
    step 957 ((Distance_miles v9)) (fun v10 => 
    chk 958 (Ok (has_value v10)) (
    chk 959 (let! v11 := deref v10 in Ok (N.eqb (fst v11) 1%N)) (
    chk 960 (let! v12 := deref v10 in Ok (MilesFraction_beq (snd v12) F_1_4)) (
    None))))))))))))))))).

Definition t_Distance_miles_1_3_8 : option N :=
    step 965 ((Distance_fromMileString "3/8SM" false)) (fun v1 => 
    chk 966 (Ok (has_value v1)) (
    step 967 (deref v1) (fun v2 => 
    step 967 ((Distance_fromIntegerAndFraction (Distance_of 1%N STATUTE_MILES) v2)) (fun v3 => 
    chk 969 (Ok (has_value v3)) (
    step 970 (deref v3) (fun v4 => 
    step 970 ((Distance_miles v4)) (fun v5 => 
    chk 971 (Ok (has_value v5)) (
    chk 972 (let! v6 := deref v5 in Ok (N.eqb (fst v6) 1%N)) (
    chk 973 (let! v7 := deref v5 in Ok (MilesFraction_beq (snd v7) F_3_8)) (
    step 976 ((Distance_fromMeterString "2200")) (fun v8 => 
    chk 977 (Ok (has_value v8)) (
    step 978 (deref v8) (fun v9 => 
    step 978 ((Distance_miles v9)) (fun v10 => 
    chk 979 (Ok (has_value v10)) (
    chk 980 (let! v11 := deref v10 in Ok (N.eqb (fst v11) 1%N)) (
    chk 981 (let! v12 := deref v10 in Ok (MilesFraction_beq (snd v12) F_3_8)) (
    None))))))))))))))))).

Definition t_Distance_miles_1_1_2 : option N :=
    step 986 ((Distance_fromMileString "1/2SM" false)) (fun v1 => 
    chk 987 (Ok (has_value v1)) (
    step 988 (deref v1) (fun v2 => 
    step 988 ((Distance_fromIntegerAndFraction (Distance_of 1%N STATUTE_MILES) v2)) (fun v3 => 
    chk 990 (Ok (has_value v3)) (
    step 991 (deref v3) (fun v4 => 
    step 991 ((Distance_miles v4)) (fun v5 => 
    chk 992 (Ok (has_value v5)) (
    chk 993 (let! v6 := deref v5 in Ok (N.eqb (fst v6) 1%N)) (
    chk 994 (let! v7 := deref v5 in Ok (MilesFraction_beq (snd v7) F_1_2)) (
    step 997 ((Distance_fromMeterString "2400")) (fun v8 => 
    chk 998 (Ok (has_value v8)) (
    step 999 (deref v8) (fun v9 => 
    step 999 ((Distance_miles v9)) (fun v10 => 
    chk 1000 (Ok (has_value v10)) (
    chk 1001 (let! v11 := deref v10 in Ok (N.eqb (fst v11) 1%N)) (
    chk 1002 (let! v12 := deref v10 in Ok (MilesFraction_beq (snd v12) F_1_2)) (
    None))))))))))))))))).

Definition t_Distance_miles_1_5_8 : option N :=
    step 1007 ((Distance_fromMileString "5/8SM" false)) (fun v1 => 
    chk 1008 (Ok (has_value v1)) (
    step 1009 (deref v1) (fun v2 => 
    step 1009 ((Distance_fromIntegerAndFraction (Distance_of 1%N STATUTE_MILES) v2)) (fun v3 => 
    chk 1011 (Ok (has_value v3)) (
    step 1012 (deref v3) (fun v4 => 
    step 1012 ((Distance_miles v4)) (fun v5 => 
    chk 1013 (Ok (has_value v5)) (
    chk 1014 (let! v6 := deref v5 in Ok (N.eqb (fst v6) 1%N)) (
    chk 1015 (let! v7 := deref v5 in Ok (MilesFraction_beq (snd v7) F_5_8)) (
    step 1018 ((Distance_fromMeterString "2600")) (fun v8 => 
    chk 1019 (Ok (has_value v8)) (
    step 1020 (deref v8) (fun v9 => 
    step 1020 ((Distance_miles v9)) (fun v10 => 
    chk 1021 (Ok (has_value v10)) (
    chk 1022 (let! v11 := deref v10 in Ok (N.eqb (fst v11) 1%N)) (
    chk 1023 (let! v12 := deref v10 in Ok (MilesFraction_beq (snd v12) F_5_8)) (
    None))))))))))))))))).

Definition t_Distance_miles_1_3_4 : option N :=
    step 1028 ((Distance_fromMileString "3/4SM" false)) (fun v1 => 
    chk 1029 (Ok (has_value v1)) (
    step 1030 (deref v1) (fun v2 => 
    step 1030 ((Distance_fromIntegerAndFraction (Distance_of 1%N STATUTE_MILES) v2)) (fun v3 => 
    chk 1032 (Ok (has_value v3)) (
    step 1033 (deref v3) (fun v4 => 
    step 1033 ((Distance_miles v4)) (fun v5 => 
    chk 1034 (Ok (has_value v5)) (
    chk 1035 (let! v6 := deref v5 in Ok (N.eqb (fst v6) 1%N)) (
    chk 1036 (let! v7 := deref v5 in Ok (MilesFraction_beq (snd v7) F_3_4)) (
    step 1039 ((Distance_fromMeterString "2800")) (fun v8 => 
    chk 1040 (Ok (has_value v8)) (
    step 1041 (deref v8) (fun v9 => 
    step 1041 ((Distance_miles v9)) (fun v10 => 
    chk 1042 (Ok (has_value v10)) (
    chk 1043 (let! v11 := deref v10 in Ok (N.eqb (fst v11) 1%N)) (
    chk 1044 (let! v12 := deref v10 in Ok (MilesFraction_beq (snd v12) F_3_4)) (
    None))))))))))))))))).

Definition t_Distance_miles_1_7_8 : option N :=
    step 1049 ((Distance_fromMileString "7/8SM" false)) (fun v1 => 
    chk 1050 (Ok (has_value v1)) (
    step 1051 (deref v1) (fun v2 => 
    step 1051 ((Distance_fromIntegerAndFraction (Distance_of 1%N STATUTE_MILES) v2)) (fun v3 => 
    chk 1053 (Ok (has_value v3)) (
    step 1054 (deref v3) (fun v4 => 
    step 1054 ((Distance_miles v4)) (fun v5 => 
    chk 1055 (Ok (has_value v5)) (
    chk 1056 (let! v6 := deref v5 in Ok (N.eqb (fst v6) 1%N)) (
    chk 1057 (let! v7 := deref v5 in Ok (MilesFraction_beq (snd v7) F_7_8)) (
    step 1060 ((Distance_fromMeterString "3000")) (fun v8 => 
    chk 1061 (Ok (has_value v8)) (
    step 1062 (deref v8) (fun v9 => 
    step 1062 ((Distance_miles v9)) (fun v10 => 
    chk 1063 (Ok (has_value v10)) (
    chk 1064 (let! v11 := deref v10 in Ok (N.eqb (fst v11) 1%N)) (
    chk 1065 (let! v12 := deref v10 in Ok (MilesFraction_beq (snd v12) F_7_8)) (
    None))))))))))))))))).

Definition t_Distance_miles_2 : option N :=
    step 1070 ((Distance_fromMileString "2SM" false)) (fun v1 => 
    chk 1071 (Ok (has_value v1)) (
    step 1072 (deref v1) (fun v2 => 
    step 1072 ((Distance_miles v2)) (fun v3 => 
    chk 1073 (Ok (has_value v3)) (
    chk 1074 (let! v4 := deref v3 in Ok (N.eqb (fst v4) 2%N)) (
    chk 1075 (let! v5 := deref v3 in Ok (MilesFraction_beq (snd v5) F_NONE)) (
    step 1078 ((Distance_fromMeterString "3200")) (fun v6 => 
    chk 1079 (Ok (has_value v6)) (
    step 1080 (deref v6) (fun v7 => 
    step 1080 ((Distance_miles v7)) (fun v8 => 
    chk 1081 (Ok (has_value v8)) (
    chk 1082 (let! v9 := deref v8 in Ok (N.eqb (fst v9) 2%N)) (
    chk 1083 (let! v10 := deref v8 in Ok (MilesFraction_beq (snd v10) F_NONE)) (
    None)))))))))))))).

Definition t_Distance_miles_2_1_4 : option N :=
    step 1088 ((Distance_fromMileString "1/4SM" false)) (fun v1 => 
    chk 1089 (Ok (has_value v1)) (
    step 1090 (deref v1) (fun v2 => 
    step 1090 ((Distance_fromIntegerAndFraction (Distance_of 2%N STATUTE_MILES) v2)) (fun v3 => 
    chk 1092 (Ok (has_value v3)) (
    step 1093 (deref v3) (fun v4 => 
    step 1093 ((Distance_miles v4)) (fun v5 => 
    chk 1094 (Ok (has_value v5)) (
    chk 1095 (let! v6 := deref v5 in Ok (N.eqb (fst v6) 2%N)) (
    chk 1096 (let! v7 := deref v5 in Ok (MilesFraction_beq (snd v7) F_1_4)) (
    step 1099 ((Distance_fromMeterString "3600")) (fun v8 => 
    chk 1100 (Ok (has_value v8)) (
    step 1101 (deref v8) (fun v9 => 
    step 1101 ((Distance_miles v9)) (fun v10 => 
    chk 1102 (Ok (has_value v10)) (
    chk 1103 (let! v11 := deref v10 in Ok (N.eqb (fst v11) 2%N)) (
    chk 1104 (let! v12 := deref v10 in Ok (MilesFraction_beq (snd v12) F_1_4)) (
    None))))))))))))))))).

Definition t_Distance_miles_2_1_2 : option N :=
    step 1109 ((Distance_fromMileString "1/2SM" false)) (fun v1 => 
    chk 1110 (Ok (has_value v1)) (
    step 1111 (deref v1) (fun v2 => 
    step 1111 ((Distance_fromIntegerAndFraction (Distance_of 2%N STATUTE_MILES) v2)) (fun v3 => 
    chk 1113 (Ok (has_value v3)) (
    step 1114 (deref v3) (fun v4 => 
    step 1114 ((Distance_miles v4)) (fun v5 => 
    chk 1115 (Ok (has_value v5)) (
    chk 1116 (let! v6 := deref v5 in Ok (N.eqb (fst v6) 2%N)) (
    chk 1117 (let! v7 := deref v5 in Ok (MilesFraction_beq (snd v7) F_1_2)) (
    step 1120 ((Distance_fromMeterString "4000")) (fun v8 => 
    chk 1121 (Ok (has_value v8)) (
    step 1122 (deref v8) (fun v9 => 
    step 1122 ((Distance_miles v9)) (fun v10 => 
    chk 1123 (Ok (has_value v10)) (
    chk 1124 (let! v11 := deref v10 in Ok (N.eqb (fst v11) 2%N)) (
    chk 1125 (let! v12 := deref v10 in Ok (MilesFraction_beq (snd v12) F_1_2)) (
    None))))))))))))))))).

Definition t_Distance_miles_2_3_4 : option N :=
    step 1130 ((Distance_fromMileString "3/4SM" false)) (fun v1 => 
    chk 1131 (Ok (has_value v1)) (
    step 1132 (deref v1) (fun v2 => 
    step 1132 ((Distance_fromIntegerAndFraction (Distance_of 2%N STATUTE_MILES) v2)) (fun v3 => 
    chk 1134 (Ok (has_value v3)) (
    step 1135 (deref v3) (fun v4 => 
    step 1135 ((Distance_miles v4)) (fun v5 => 
    chk 1136 (Ok (has_value v5)) (
    chk 1137 (let! v6 := deref v5 in Ok (N.eqb (fst v6) 2%N)) (
    chk 1138 (let! v7 := deref v5 in Ok (MilesFraction_beq (snd v7) F_3_4)) (
    step 1141 ((Distance_fromMeterString "4400")) (fun v8 => 
    chk 1142 (Ok (has_value v8)) (
    step 1143 (deref v8) (fun v9 => 
    step 1143 ((Distance_miles v9)) (fun v10 => 
    chk 1144 (Ok (has_value v10)) (
    chk 1145 (let! v11 := deref v10 in Ok (N.eqb (fst v11) 2%N)) (
    chk 1146 (let! v12 := deref v10 in Ok (MilesFraction_beq (snd v12) F_3_4)) (
    None))))))))))))))))).

Definition t_Distance_miles_3 : option N :=
    step 1151 ((Distance_fromMileString "3SM" false)) (fun v1 => 
    chk 1152 (Ok (has_value v1)) (
    step 1153 (deref v1) (fun v2 => 
    step 1153 ((Distance_miles v2)) (fun v3 => 
    chk 1154 (Ok (has_value v3)) (
    chk 1155 (let! v4 := deref v3 in Ok (N.eqb (fst v4) 3%N)) (
    chk 1156 (let! v5 := deref v3 in Ok (MilesFraction_beq (snd v5) F_NONE)) (
    step 1159 ((Distance_fromMeterString "4800")) (fun v6 => 
    chk 1160 (Ok (has_value v6)) (
    step 1161 (deref v6) (fun v7 => 
    step 1161 ((Distance_miles v7)) (fun v8 => 
    chk 1162 (Ok (has_value v8)) (
    chk 1163 (let! v9 := deref v8 in Ok (N.eqb (fst v9) 3%N)) (
    chk 1164 (let! v10 := deref v8 in Ok (MilesFraction_beq (snd v10) F_NONE)) (
    step 1167 ((Distance_fromMileString "1/4SM" false)) (fun v11 => 
    chk 1168 (Ok (has_value v11)) (
    step 1169 (deref v11) (fun v12 => 
    step 1169 ((Distance_fromIntegerAndFraction (Distance_of 3%N STATUTE_MILES) v12)) (fun v13 => 
    chk 1171 (Ok (has_value v13)) (
    step 1172 (deref v1) (fun v14 => 
    step 1172 ((Distance_miles v14)) (fun v15 => 
    chk 1173 (Ok (has_value v15)) (
    chk 1174 (let! v16 := deref v15 in Ok (N.eqb (fst v16) 3%N)) (
    chk 1175 (let! v17 := deref v15 in Ok (MilesFraction_beq (snd v17) F_NONE)) (
    step 1178 ((Distance_fromMileString "3/4SM" false)) (fun v18 => 
    chk 1179 (Ok (has_value v18)) (
    step 1180 (deref v18) (fun v19 => 
    step 1180 ((Distance_fromIntegerAndFraction (Distance_of 3%N STATUTE_MILES) v19)) (fun v20 => 
    chk 1182 (Ok (has_value v20)) (
    step 1183 (deref v1) (fun v21 => 
    step 1183 ((Distance_miles v21)) (fun v22 => 
    chk 1184 (Ok (has_value v22)) (
    chk 1185 (let! v23 := deref v22 in Ok (N.eqb (fst v23) 3%N)) (
    chk 1186 (let! v24 := deref v22 in Ok (MilesFraction_beq (snd v24) F_NONE)) (
    None)))))))))))))))))))))))))))))))))).

Definition t_Distance_miles_4 : option N :=
    step 1191 ((Distance_fromMileString "4SM" false)) (fun v1 => 
    chk 1192 (Ok (has_value v1)) (
    step 1193 (deref v1) (fun v2 => 
    step 1193 ((Distance_miles v2)) (fun v3 => 
    chk 1194 (Ok (has_value v3)) (
    chk 1195 (let! v4 := deref v3 in Ok (N.eqb (fst v4) 4%N)) (
    chk 1196 (let! v5 := deref v3 in Ok (MilesFraction_beq (snd v5) F_NONE)) (
    step 1199 ((Distance_fromMeterString "6400")) (fun v6 => 
    chk 1200 (Ok (has_value v6)) (
    step 1201 (deref v6) (fun v7 => 
    step 1201 ((Distance_miles v7)) (fun v8 => 
    chk 1202 (Ok (has_value v8)) (
    chk 1203 (let! v9 := deref v8 in Ok (N.eqb (fst v9) 4%N)) (
    chk 1204 (let! v10 := deref v8 in Ok (MilesFraction_beq (snd v10) F_NONE)) (
    None)))))))))))))).

Definition t_Distance_miles_5 : option N :=
    step 1209 ((Distance_fromMileString "5SM" false)) (fun v1 => 
    chk 1210 (Ok (has_value v1)) (
    step 1211 (deref v1) (fun v2 => 
    step 1211 ((Distance_miles v2)) (fun v3 => 
    chk 1212 (Ok (has_value v3)) (
    chk 1213 (let! v4 := deref v3 in Ok (N.eqb (fst v4) 5%N)) (
    chk 1214 (let! v5 := deref v3 in Ok (MilesFraction_beq (snd v5) F_NONE)) (
    step 1217 ((Distance_fromMeterString "8000")) (fun v6 => 
    chk 1218 (Ok (has_value v6)) (
    step 1219 (deref v6) (fun v7 => 
    step 1219 ((Distance_miles v7)) (fun v8 => 
    chk 1220 (Ok (has_value v8)) (
    chk 1221 (let! v9 := deref v8 in Ok (N.eqb (fst v9) 5%N)) (
    chk 1222 (let! v10 := deref v8 in Ok (MilesFraction_beq (snd v10) F_NONE)) (
    None)))))))))))))).

Definition t_Distance_miles_6 : option N :=
    step 1227 ((Distance_fromMileString "6SM" false)) (fun v1 => 
    chk 1228 (Ok (has_value v1)) (
    step 1229 (deref v1) (fun v2 => 
    step 1229 ((Distance_miles v2)) (fun v3 => 
    chk 1230 (Ok (has_value v3)) (
    chk 1231 (let! v4 := deref v3 in Ok (N.eqb (fst v4) 6%N)) (
    chk 1232 (let! v5 := deref v3 in Ok (MilesFraction_beq (snd v5) F_NONE)) (
    step 1235 ((Distance_fromMeterString "9700")) (fun v6 => 
    chk 1236 (Ok (has_value v6)) (
    step 1237 (deref v6) (fun v7 => 
    step 1237 ((Distance_miles v7)) (fun v8 => 
    chk 1238 (Ok (has_value v8)) (
    chk 1239 (let! v9 := deref v8 in Ok (N.eqb (fst v9) 6%N)) (
    chk 1240 (let! v10 := deref v8 in Ok (MilesFraction_beq (snd v10) F_NONE)) (
    None)))))))))))))).

Definition t_Distance_miles_7_to_14 : option N :=
    chk 1246 (let! v1 := (Distance_miles (Distance_of 7%N STATUTE_MILES)) in Ok (has_value v1)) (
    chk 1247 (let! v2 := (Distance_miles (Distance_of 7%N STATUTE_MILES)) in let! v3 := deref v2 in Ok (N.eqb (fst v3) 7%N)) (
    chk 1248 (let! v4 := (Distance_miles (Distance_of 7%N STATUTE_MILES)) in let! v5 := deref v4 in Ok (MilesFraction_beq (snd v5) F_NONE)) (
    chk 1252 (let! v6 := (Distance_miles (Distance_of 8%N STATUTE_MILES)) in Ok (has_value v6)) (
    chk 1253 (let! v7 := (Distance_miles (Distance_of 8%N STATUTE_MILES)) in let! v8 := deref v7 in Ok (N.eqb (fst v8) 8%N)) (
    chk 1254 (let! v9 := (Distance_miles (Distance_of 8%N STATUTE_MILES)) in let! v10 := deref v9 in Ok (MilesFraction_beq (snd v10) F_NONE)) (
    chk 1258 (let! v11 := (Distance_miles (Distance_of 9%N STATUTE_MILES)) in let! v12 := deref v11 in Ok (N.eqb (fst v12) 9%N)) (
    chk 1259 (let! v13 := (Distance_miles (Distance_of 9%N STATUTE_MILES)) in let! v14 := deref v13 in Ok (MilesFraction_beq (snd v14) F_NONE)) (
    chk 1263 (let! v15 := (Distance_miles (Distance_of 10%N STATUTE_MILES)) in let! v16 := deref v15 in Ok (N.eqb (fst v16) 10%N)) (
    chk 1264 (let! v17 := (Distance_miles (Distance_of 10%N STATUTE_MILES)) in let! v18 := deref v17 in Ok (MilesFraction_beq (snd v18) F_NONE)) (
    chk 1268 (let! v19 := (Distance_miles (Distance_of 11%N STATUTE_MILES)) in let! v20 := deref v19 in Ok (N.eqb (fst v20) 11%N)) (
    chk 1269 (let! v21 := (Distance_miles (Distance_of 11%N STATUTE_MILES)) in let! v22 := deref v21 in Ok (MilesFraction_beq (snd v22) F_NONE)) (
    chk 1273 (let! v23 := (Distance_miles (Distance_of 12%N STATUTE_MILES)) in let! v24 := deref v23 in Ok (N.eqb (fst v24) 12%N)) (
    chk 1274 (let! v25 := (Distance_miles (Distance_of 12%N STATUTE_MILES)) in let! v26 := deref v25 in Ok (MilesFraction_beq (snd v26) F_NONE)) (
    chk 1278 (let! v27 := (Distance_miles (Distance_of 13%N STATUTE_MILES)) in let! v28 := deref v27 in Ok (N.eqb (fst v28) 13%N)) (
    chk 1279 (let! v29 := (Distance_miles (Distance_of 13%N STATUTE_MILES)) in let! v30 := deref v29 in Ok (MilesFraction_beq (snd v30) F_NONE)) (
    chk 1283 (let! v31 := (Distance_miles (Distance_of 14%N STATUTE_MILES)) in let! v32 := deref v31 in Ok (N.eqb (fst v32) 14%N)) (
    chk 1284 (let! v33 := (Distance_miles (Distance_of 14%N STATUTE_MILES)) in let! v34 := deref v33 in Ok (MilesFraction_beq (snd v34) F_NONE)) (
    None)))))))))))))))))).

Definition t_Distance_miles_15_to_20 : option N :=
    chk 1290 (let! v1 := (Distance_miles (Distance_of 15%N STATUTE_MILES)) in let! v2 := deref v1 in Ok (N.eqb (fst v2) 15%N)) (
    chk 1291 (let! v3 := (Distance_miles (Distance_of 15%N STATUTE_MILES)) in let! v4 := deref v3 in Ok (MilesFraction_beq (snd v4) F_NONE)) (
    chk 1295 (let! v5 := (Distance_miles (Distance_of 16%N STATUTE_MILES)) in let! v6 := deref v5 in Ok (N.eqb (fst v6) 15%N)) (
    chk 1296 (let! v7 := (Distance_miles (Distance_of 16%N STATUTE_MILES)) in let! v8 := deref v7 in Ok (MilesFraction_beq (snd v8) F_NONE)) (
    chk 1300 (let! v9 := (Distance_miles (Distance_of 17%N STATUTE_MILES)) in let! v10 := deref v9 in Ok (N.eqb (fst v10) 15%N)) (
    chk 1301 (let! v11 := (Distance_miles (Distance_of 17%N STATUTE_MILES)) in let! v12 := deref v11 in Ok (MilesFraction_beq (snd v12) F_NONE)) (
    chk 1305 (let! v13 := (Distance_miles (Distance_of 18%N STATUTE_MILES)) in let! v14 := deref v13 in Ok (N.eqb (fst v14) 15%N)) (
    chk 1306 (let! v15 := (Distance_miles (Distance_of 18%N STATUTE_MILES)) in let! v16 := deref v15 in Ok (MilesFraction_beq (snd v16) F_NONE)) (
    chk 1310 (let! v17 := (Distance_miles (Distance_of 19%N STATUTE_MILES)) in let! v18 := deref v17 in Ok (N.eqb (fst v18) 15%N)) (
    chk 1311 (let! v19 := (Distance_miles (Distance_of 19%N STATUTE_MILES)) in let! v20 := deref v19 in Ok (MilesFraction_beq (snd v20) F_NONE)) (
    chk 1315 (let! v21 := (Distance_miles (Distance_of 20%N STATUTE_MILES)) in let! v22 := deref v21 in Ok (N.eqb (fst v22) 20%N)) (
    chk 1316 (let! v23 := (Distance_miles (Distance_of 20%N STATUTE_MILES)) in let! v24 := deref v23 in Ok (MilesFraction_beq (snd v24) F_NONE)) (
    None)))))))))))).

Definition t_Distance_miles_25_to_50 : option N :=
    chk 1322 (let! v1 := (Distance_miles (Distance_of 25%N STATUTE_MILES)) in let! v2 := deref v1 in Ok (N.eqb (fst v2) 25%N)) (
    chk 1323 (let! v3 := (Distance_miles (Distance_of 25%N STATUTE_MILES)) in let! v4 := deref v3 in Ok (MilesFraction_beq (snd v4) F_NONE)) (
    chk 1327 (let! v5 := (Distance_miles (Distance_of 30%N STATUTE_MILES)) in let! v6 := deref v5 in Ok (N.eqb (fst v6) 30%N)) (
    chk 1328 (let! v7 := (Distance_miles (Distance_of 30%N STATUTE_MILES)) in let! v8 := deref v7 in Ok (MilesFraction_beq (snd v8) F_NONE)) (
    chk 1332 (let! v9 := (Distance_miles (Distance_of 35%N STATUTE_MILES)) in let! v10 := deref v9 in Ok (N.eqb (fst v10) 35%N)) (
    chk 1333 (let! v11 := (Distance_miles (Distance_of 35%N STATUTE_MILES)) in let! v12 := deref v11 in Ok (MilesFraction_beq (snd v12) F_NONE)) (
    chk 1337 (let! v13 := (Distance_miles (Distance_of 40%N STATUTE_MILES)) in let! v14 := deref v13 in Ok (N.eqb (fst v14) 40%N)) (
    chk 1338 (let! v15 := (Distance_miles (Distance_of 40%N STATUTE_MILES)) in let! v16 := deref v15 in Ok (MilesFraction_beq (snd v16) F_NONE)) (
    chk 1342 (let! v17 := (Distance_miles (Distance_of 45%N STATUTE_MILES)) in let! v18 := deref v17 in Ok (N.eqb (fst v18) 45%N)) (
    chk 1343 (let! v19 := (Distance_miles (Distance_of 45%N STATUTE_MILES)) in let! v20 := deref v19 in Ok (MilesFraction_beq (snd v20) F_NONE)) (
    chk 1347 (let! v21 := (Distance_miles (Distance_of 50%N STATUTE_MILES)) in let! v22 := deref v21 in Ok (N.eqb (fst v22) 50%N)) (
    chk 1348 (let! v23 := (Distance_miles (Distance_of 50%N STATUTE_MILES)) in let! v24 := deref v23 in Ok (MilesFraction_beq (snd v24) F_NONE)) (
    None)))))))))))).

Definition t_Distance_milesFromOtherNotReported : option N :=
    step 1353 ((Distance_fromMeterString "////")) (fun v1 => 
    chk 1354 (Ok (has_value v1)) (
    chk 1355 (let! v2 := deref v1 in let! v3 := (Distance_miles v2) in Ok (negb (has_value v3))) (
    step 1357 ((Distance_fromMileString "////SM" false)) (fun v4 => 
    chk 1358 (Ok (has_value v4)) (
    chk 1359 (let! v5 := deref v4 in let! v6 := (Distance_miles v5) in Ok (negb (has_value v6))) (
    None)))))).

Definition t_Distance_milesFromOtherDistant : option N :=
    step 1364 ((Distance_miles (Distance_makeDistant))) (fun v1 => 
    chk 1365 (Ok (negb (has_value v1))) (
    None)).

Definition t_Distance_milesFromOtherVicinity : option N :=
    step 1370 ((Distance_miles (Distance_makeVicinity))) (fun v1 => 
    chk 1371 (Ok (negb (has_value v1))) (
    None)).

Definition t_Distance_isValidTrueMeters : option N :=
    step 1380 ((Distance_fromMeterString "6500")) (fun v1 => 
    chk 1381 (Ok (has_value v1)) (
    chk 1382 (let! v2 := deref v1 in Ok true) (
    step 1384 ((Distance_fromMeterString "9999")) (fun v3 => 
    chk 1385 (Ok (has_value v3)) (
    chk 1386 (let! v4 := deref v3 in Ok true) (
    step 1388 ((Distance_fromMeterString "0000")) (fun v5 => 
    chk 1389 (Ok (has_value v5)) (
    chk 1390 (let! v6 := deref v5 in Ok true) (
    step 1392 ((Distance_fromMeterString "////")) (fun v7 => 
    chk 1393 (Ok (has_value v7)) (
    chk 1394 (let! v8 := deref v7 in Ok true) (
    None)))))))))))).

Definition t_Distance_isValidTrueMiles : option N :=
    step 1398 ((Distance_fromMileString "3SM" false)) (fun v1 => 
    chk 1399 (Ok (has_value v1)) (
    chk 1400 (let! v2 := deref v1 in Ok true) (
    step 1402 ((Distance_fromMileString "1/2SM" false)) (fun v3 => 
    chk 1403 (Ok (has_value v3)) (
    chk 1404 (let! v4 := deref v3 in Ok true) (
    step 1406 ((Distance_fromMileString "11/2SM" false)) (fun v5 => 
    chk 1407 (Ok (has_value v5)) (
    chk 1408 (let! v6 := deref v5 in Ok true) (
    step 1410 ((Distance_fromMileString "M1/4SM" false)) (fun v7 => 
    chk 1411 (Ok (has_value v7)) (
    chk 1412 (let! v8 := deref v7 in Ok true) (
    step 1414 ((Distance_fromMileString "P15SM" false)) (fun v9 => 
    chk 1415 (Ok (has_value v9)) (
    chk 1416 (let! v10 := deref v9 in Ok true) (
    step 1418 ((Distance_fromMileString "0SM" false)) (fun v11 => 
    chk 1419 (Ok (has_value v11)) (
    chk 1420 (let! v12 := deref v11 in Ok true) (
    step 1422 ((Distance_fromMileString "////SM" false)) (fun v13 => 
    chk 1423 (Ok (has_value v13)) (
    chk 1424 (let! v14 := deref v13 in Ok true) (
    None))))))))))))))))))))).

Definition t_Distance_isValidTrueHeight : option N :=
    step 1428 ((Distance_fromHeightString "370")) (fun v1 => 
    chk 1429 (Ok (has_value v1)) (
    chk 1430 (let! v2 := deref v1 in Ok true) (
    step 1432 ((Distance_fromHeightString "000")) (fun v3 => 
    chk 1433 (Ok (has_value v3)) (
    chk 1434 (let! v4 := deref v3 in Ok true) (
    step 1436 ((Distance_fromHeightString "///")) (fun v5 => 
    chk 1437 (Ok (has_value v5)) (
    chk 1438 (let! v6 := deref v5 in Ok true) (
    None))))))))).

Definition t_Distance_isValidTrueRvr : option N :=
    step 1442 ((Distance_fromRvrString "2000" false)) (fun v1 => 
    chk 1443 (Ok (has_value v1)) (
    chk 1444 (let! v2 := deref v1 in Ok true) (
    step 1446 ((Distance_fromRvrString "M0200" true)) (fun v3 => 
    chk 1447 (Ok (has_value v3)) (
    chk 1448 (let! v4 := deref v3 in Ok true) (
    step 1450 ((Distance_fromRvrString "P6000" true)) (fun v5 => 
    chk 1451 (Ok (has_value v5)) (
    chk 1452 (let! v6 := deref v5 in Ok true) (
    step 1454 ((Distance_fromRvrString "0000" false)) (fun v7 => 
    chk 1455 (Ok (has_value v7)) (
    chk 1456 (let! v8 := deref v7 in Ok true) (
    step 1458 ((Distance_fromRvrString "////" false)) (fun v9 => 
    chk 1459 (Ok (has_value v9)) (
    chk 1460 (let! v10 := deref v9 in Ok true) (
    None))))))))))))))).

Definition t_Distance_toUnitSameUnit : option N :=
    step 1470 ((Distance_fromMeterString "2500")) (fun v1 => 
    chk 1471 (Ok (has_value v1)) (
    chk 1472 (let! v2 := deref v1 in Ok (has_value (Distance_toUnit v2 METERS))) (
    chk 1473 (let! v3 := deref v1 in let! v4 := deref (Distance_toUnit v3 METERS) in Ok (near v4 (dlit (2500) 1) (dlit (1) 200))) (
    step 1475 ((Distance_fromMileString "3SM" false)) (fun v5 => 
    chk 1476 (Ok (has_value v5)) (
    chk 1477 (let! v6 := deref v1 in Ok (has_value (Distance_toUnit v6 STATUTE_MILES))) (
    chk 1478 (let! v7 := deref v5 in let! v8 := deref (Distance_toUnit v7 STATUTE_MILES) in Ok (near v8 (dlit (3) 1) (dlit (1) 200))) (
    step 1480 ((Distance_fromMileString "1/4SM" false)) (fun v9 => 
    chk 1481 (Ok (has_value v9)) (
    chk 1482 (let! v10 := deref v1 in Ok (has_value (Distance_toUnit v10 STATUTE_MILES))) (
    chk 1483 (let! v11 := deref v9 in let! v12 := deref (Distance_toUnit v11 STATUTE_MILES) in Ok (near v12 (dlit (1) 4) (dlit (1) 200))) (
    step 1485 ((Distance_fromHeightString "044")) (fun v13 => 
    chk 1486 (Ok (has_value v13)) (
    chk 1487 (let! v14 := deref v13 in Ok (has_value (Distance_toUnit v14 FEET))) (
    chk 1488 (let! v15 := deref v13 in let! v16 := deref (Distance_toUnit v15 FEET) in Ok (near v16 (dlit (4400) 1) (dlit (1) 200))) (
    None)))))))))))))))).

Definition t_Distance_toUnitNotReported : option N :=
    step 1492 ((Distance_fromMeterString "////")) (fun v1 => 
    chk 1493 (Ok (has_value v1)) (
    chk 1494 (let! v2 := deref v1 in Ok (negb (has_value (Distance_toUnit v2 METERS)))) (
    chk 1495 (let! v3 := deref v1 in Ok (negb (has_value (Distance_toUnit v3 STATUTE_MILES)))) (
    chk 1496 (let! v4 := deref v1 in Ok (negb (has_value (Distance_toUnit v4 FEET)))) (
    step 1498 ((Distance_fromMileString "////SM" false)) (fun v5 => 
    chk 1499 (Ok (has_value v5)) (
    chk 1500 (let! v6 := deref v5 in Ok (negb (has_value (Distance_toUnit v6 METERS)))) (
    chk 1501 (let! v7 := deref v5 in Ok (negb (has_value (Distance_toUnit v7 STATUTE_MILES)))) (
    chk 1502 (let! v8 := deref v5 in Ok (negb (has_value (Distance_toUnit v8 FEET)))) (
    step 1504 ((Distance_fromHeightString "///")) (fun v9 => 
    chk 1505 (Ok (has_value v9)) (
    chk 1506 (let! v10 := deref v9 in Ok (negb (has_value (Distance_toUnit v10 METERS)))) (
    chk 1507 (let! v11 := deref v9 in Ok (negb (has_value (Distance_toUnit v11 STATUTE_MILES)))) (
    chk 1508 (let! v12 := deref v9 in Ok (negb (has_value (Distance_toUnit v12 FEET)))) (
    None))))))))))))))).

Definition t_Distance_toUnitMetersToMiles : option N :=
    step 1512 ((Distance_fromMeterString "2000")) (fun v1 => 
    chk 1513 (Ok (has_value v1)) (
    chk 1514 (let! v2 := deref v1 in Ok (has_value (Distance_toUnit v2 STATUTE_MILES))) (
    chk 1515 (let! v3 := deref v1 in let! v4 := deref (Distance_toUnit v3 STATUTE_MILES) in Ok (near v4 (dlit (31) 25) (dlit (1) 200))) (
    chk 1518 (Ok (has_value (Distance_toUnit (Distance_of 24140%N METERS) STATUTE_MILES))) (
    chk 1519 (let! v5 := deref (Distance_toUnit (Distance_of 24140%N METERS) STATUTE_MILES) in Ok (near v5 (dlit (15) 1) (dlit (1) 200))) (
    chk 1522 (Ok (has_value (Distance_toUnit (Distance_of 80467%N METERS) STATUTE_MILES))) (
    chk 1523 (let! v6 := deref (Distance_toUnit (Distance_of 80467%N METERS) STATUTE_MILES) in Ok (near v6 (dlit (50) 1) (dlit (1) 200))) (
    None)))))))).

Definition t_Distance_toUnitMetersToFeet : option N :=
    step 1527 ((Distance_fromMeterString "2000")) (fun v1 => 
    chk 1528 (Ok (has_value v1)) (
    chk 1529 (let! v2 := deref v1 in Ok (has_value (Distance_toUnit v2 FEET))) (
    chk 1530 (let! v3 := deref v1 in let! v4 := deref (Distance_toUnit v3 FEET) in Ok (near v4 (dlit (164042) 25) (dlit (1) 200))) (
    None)))).

Definition t_Distance_toUnitMilesToMeters : option N :=
    step 1534 ((Distance_fromMileString "3SM" false)) (fun v1 => 
    chk 1535 (Ok (has_value v1)) (
    chk 1536 (let! v2 := deref v1 in Ok (has_value (Distance_toUnit v2 METERS))) (
    chk 1537 (let! v3 := deref v1 in let! v4 := deref (Distance_toUnit v3 METERS) in Ok (near v4 (dlit (120701) 25) (dlit (1) 200))) (
    None)))).

Definition t_Distance_toUnitMilesToFeet : option N :=
    step 1541 ((Distance_fromMileString "3SM" false)) (fun v1 => 
    chk 1542 (Ok (has_value v1)) (
    chk 1543 (let! v2 := deref v1 in Ok (has_value (Distance_toUnit v2 FEET))) (
    chk 1544 (let! v3 := deref v1 in let! v4 := deref (Distance_toUnit v3 FEET) in Ok (near v4 (dlit (15840) 1) (dlit (1) 200))) (
    None)))).

Definition t_Distance_toUnitFeetToMeters : option N :=
    step 1548 ((Distance_fromHeightString "330")) (fun v1 => 
    chk 1549 (Ok (has_value v1)) (
    chk 1550 (let! v2 := deref v1 in Ok (has_value (Distance_toUnit v2 METERS))) (
    chk 1551 (let! v3 := deref v1 in let! v4 := deref (Distance_toUnit v3 METERS) in Ok (near v4 (dlit (50292) 5) (dlit (1) 200))) (
    None)))).

Definition t_Distance_toUnitFeetToMiles : option N :=
    step 1555 ((Distance_fromHeightString "330")) (fun v1 => 
    chk 1556 (Ok (has_value v1)) (
    chk 1557 (let! v2 := deref v1 in Ok (has_value (Distance_toUnit v2 STATUTE_MILES))) (
    chk 1558 (let! v3 := deref v1 in let! v4 := deref (Distance_toUnit v3 STATUTE_MILES) in Ok (near v4 (dlit (25) 4) (dlit (1) 200))) (
    None)))).

Definition t_Distance_toUnitFraction : option N :=
    step 1562 ((Distance_fromMileString "1/4SM" false)) (fun v1 => 
    chk 1563 (Ok (has_value v1)) (
    chk 1564 (let! v2 := deref v1 in Ok (has_value (Distance_toUnit v2 STATUTE_MILES))) (
    chk 1565 (let! v3 := deref v1 in let! v4 := deref (Distance_toUnit v3 STATUTE_MILES) in Ok (near v4 (dlit (1) 4) (dlit (1) 200))) (
    None)))).

Example tests_distance_pass : failures
  [("Distance_constructor", t_Distance_constructor);
   ("Distance_fromMeterString6500", t_Distance_fromMeterString6500);
   ("Distance_fromMeterString1000", t_Distance_fromMeterString1000);
   ("Distance_fromMeterString0400", t_Distance_fromMeterString0400);
   ("Distance_fromMeterString0150", t_Distance_fromMeterString0150);
   ("Distance_fromMeterString0050", t_Distance_fromMeterString0050);
   ("Distance_fromMeterString0000", t_Distance_fromMeterString0000);
   ("Distance_fromMeterStringNotReported", t_Distance_fromMeterStringNotReported);
   ("Distance_fromMeterString9999", t_Distance_fromMeterString9999);
   ("Distance_fromMeterStringWrongFormat", t_Distance_fromMeterStringWrongFormat);
   ("Distance_fromMileString3SM", t_Distance_fromMileString3SM);
   ("Distance_fromMileString16SM", t_Distance_fromMileString16SM);
   ("Distance_fromMileString0SM", t_Distance_fromMileString0SM);
   ("Distance_fromMileString1_2SM", t_Distance_fromMileString1_2SM);
   ("Distance_fromMileString3_16SM", t_Distance_fromMileString3_16SM);
   ("Distance_fromMileStringM1_8SM", t_Distance_fromMileStringM1_8SM);
   ("Distance_fromMileStringM1SM", t_Distance_fromMileStringM1SM);
   ("Distance_fromMileStringP6SM", t_Distance_fromMileStringP6SM);
   ("Distance_fromMileStringP15SM", t_Distance_fromMileStringP15SM);
   ("Distance_fromMileStringP3_4SM", t_Distance_fromMileStringP3_4SM);
   ("Distance_fromMileString21_4SM", t_Distance_fromMileString21_4SM);
   ("Distance_fromMileStringM11_2SM", t_Distance_fromMileStringM11_2SM);
   ("Distance_fromMileStringNotReported", t_Distance_fromMileStringNotReported);
   ("Distance_fromMileStringWrongFormat", t_Distance_fromMileStringWrongFormat);
   ("Distance_fromHeightString370", t_Distance_fromHeightString370);
   ("Distance_fromHeightString145", t_Distance_fromHeightString145);
   ("Distance_fromHeightString044", t_Distance_fromHeightString044);
   ("Distance_fromHeightString001", t_Distance_fromHeightString001);
   ("Distance_fromHeightString000", t_Distance_fromHeightString000);
   ("Distance_fromHeightStringNotReported", t_Distance_fromHeightStringNotReported);
   ("Distance_fromHeightStringWrongFormat", t_Distance_fromHeightStringWrongFormat);
   ("Distance_fromRvrString3500", t_Distance_fromRvrString3500);
   ("Distance_fromRvrString3500feet", t_Distance_fromRvrString3500feet);
   ("Distance_fromRvrString0800", t_Distance_fromRvrString0800);
   ("Distance_fromRvrString0200", t_Distance_fromRvrString0200);
   ("Distance_fromRvrStringM0200", t_Distance_fromRvrStringM0200);
   ("Distance_fromRvrStringP2000", t_Distance_fromRvrStringP2000);
   ("Distance_fromRvrString9999", t_Distance_fromRvrString9999);
   ("Distance_fromRvrString0000", t_Distance_fromRvrString0000);
   ("Distance_fromRvrStringNotReported", t_Distance_fromRvrStringNotReported);
   ("Distance_fromRvrStringWrongFormat", t_Distance_fromRvrStringWrongFormat);
   ("Distance_fromLayerString", t_Distance_fromLayerString);
   ("Distance_fromLayerStringWrongFormat", t_Distance_fromLayerStringWrongFormat);
   ("Distance_fromKmString", t_Distance_fromKmString);
   ("Distance_fromKmStringWrongFormat", t_Distance_fromKmStringWrongFormat);
   ("Distance_fromIntegerAndFraction", t_Distance_fromIntegerAndFraction);
   ("Distance_fromIntegerWithModifierAndFraction", t_Distance_fromIntegerWithModifierAndFraction);
   ("Distance_fromIntegerAndFractionWrongCombination", t_Distance_fromIntegerAndFractionWrongCombination);
   ("Distance_cavokVisibilityMeters", t_Distance_cavokVisibilityMeters);
   ("Distance_cavokVisibilityMiles", t_Distance_cavokVisibilityMiles);
   ("Distance_makeDistant", t_Distance_makeDistant);
   ("Distance_makeVicinity", t_Distance_makeVicinity);
   ("Distance_miles_0", t_Distance_miles_0);
   ("Distance_miles_1_16", t_Distance_miles_1_16);
   ("Distance_miles_1_8", t_Distance_miles_1_8);
   ("Distance_miles_3_16", t_Distance_miles_3_16);
   ("Distance_miles_1_4", t_Distance_miles_1_4);
   ("Distance_miles_5_16", t_Distance_miles_5_16);
   ("Distance_miles_3_8", t_Distance_miles_3_8);
   ("Distance_miles_1_2", t_Distance_miles_1_2);
   ("Distance_miles_5_8", t_Distance_miles_5_8);
   ("Distance_miles_3_4", t_Distance_miles_3_4);
   ("Distance_miles_7_8", t_Distance_miles_7_8);
   ("Distance_miles_1", t_Distance_miles_1);
   ("Distance_miles_1_1_8", t_Distance_miles_1_1_8);
   ("Distance_miles_1_1_4", t_Distance_miles_1_1_4);
   ("Distance_miles_1_3_8", t_Distance_miles_1_3_8);
   ("Distance_miles_1_1_2", t_Distance_miles_1_1_2);
   ("Distance_miles_1_5_8", t_Distance_miles_1_5_8);
   ("Distance_miles_1_3_4", t_Distance_miles_1_3_4);
   ("Distance_miles_1_7_8", t_Distance_miles_1_7_8);
   ("Distance_miles_2", t_Distance_miles_2);
   ("Distance_miles_2_1_4", t_Distance_miles_2_1_4);
   ("Distance_miles_2_1_2", t_Distance_miles_2_1_2);
   ("Distance_miles_2_3_4", t_Distance_miles_2_3_4);
   ("Distance_miles_3", t_Distance_miles_3);
   ("Distance_miles_4", t_Distance_miles_4);
   ("Distance_miles_5", t_Distance_miles_5);
   ("Distance_miles_6", t_Distance_miles_6);
   ("Distance_miles_7_to_14", t_Distance_miles_7_to_14);
   ("Distance_miles_15_to_20", t_Distance_miles_15_to_20);
   ("Distance_miles_25_to_50", t_Distance_miles_25_to_50);
   ("Distance_milesFromOtherNotReported", t_Distance_milesFromOtherNotReported);
   ("Distance_milesFromOtherDistant", t_Distance_milesFromOtherDistant);
   ("Distance_milesFromOtherVicinity", t_Distance_milesFromOtherVicinity);
   ("Distance_isValidTrueMeters", t_Distance_isValidTrueMeters);
   ("Distance_isValidTrueMiles", t_Distance_isValidTrueMiles);
   ("Distance_isValidTrueHeight", t_Distance_isValidTrueHeight);
   ("Distance_isValidTrueRvr", t_Distance_isValidTrueRvr);
   ("Distance_toUnitSameUnit", t_Distance_toUnitSameUnit);
   ("Distance_toUnitNotReported", t_Distance_toUnitNotReported);
   ("Distance_toUnitMetersToMiles", t_Distance_toUnitMetersToMiles);
   ("Distance_toUnitMetersToFeet", t_Distance_toUnitMetersToFeet);
   ("Distance_toUnitMilesToMeters", t_Distance_toUnitMilesToMeters);
   ("Distance_toUnitMilesToFeet", t_Distance_toUnitMilesToFeet);
   ("Distance_toUnitFeetToMeters", t_Distance_toUnitFeetToMeters);
   ("Distance_toUnitFeetToMiles", t_Distance_toUnitFeetToMiles);
   ("Distance_toUnitFraction", t_Distance_toUnitFraction)] = [].
Proof. vm_compute. reflexivity. Qed.
