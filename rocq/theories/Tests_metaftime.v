(** Generated by tools/gen_tests.py from /repo/test/test_metaftime.cpp: the project's own unit tests, run
    against the model. These are tests of the model's fidelity, not properties. *)

From Verif Require Import Prim Regex Float Values Weather Groups1 Groups2 Groups3 Groups4 Parser TestLib.
Local Open Scope string_scope.
Local Open Scope bool_scope.

Definition t_MetafTime_constructorHourMinute : option N :=
    chk 19 (Ok (negb (has_value (dayValue (mkTime None 11%N 25%N))))) (
    chk 20 (Ok (N.eqb (hourValue (mkTime None 11%N 25%N)) 11%N)) (
    chk 21 (Ok (N.eqb (minuteValue (mkTime None 11%N 25%N)) 25%N)) (
    chk 22 (Ok (MetafTime_isValid (mkTime None 11%N 25%N))) (
    None)))).

Definition t_MetafTime_constructorHourMinuteInvalidTime : option N :=
    chk 27 (Ok (negb (has_value (dayValue (mkTime None 25%N 90%N))))) (
    chk 28 (Ok (N.eqb (hourValue (mkTime None 25%N 90%N)) 25%N)) (
    chk 29 (Ok (N.eqb (minuteValue (mkTime None 25%N 90%N)) 90%N)) (
    chk 30 (Ok (negb (MetafTime_isValid (mkTime None 25%N 90%N)))) (
    None)))).

Definition t_MetafTime_constructorDayHourMinute : option N :=
    chk 35 (Ok (has_value (dayValue (mkTime (Some 4%N) 11%N 25%N)))) (
    chk 36 (let! v1 := deref (dayValue (mkTime (Some 4%N) 11%N 25%N)) in Ok (N.eqb v1 4%N)) (
    chk 37 (Ok (N.eqb (hourValue (mkTime (Some 4%N) 11%N 25%N)) 11%N)) (
    chk 38 (Ok (N.eqb (minuteValue (mkTime (Some 4%N) 11%N 25%N)) 25%N)) (
    chk 39 (Ok (MetafTime_isValid (mkTime (Some 4%N) 11%N 25%N))) (
    None))))).

Definition t_MetafTime_constructorDayHourMinuteDayNotReported : option N :=
    chk 44 (Ok (negb (has_value (dayValue (mkTime None 11%N 25%N))))) (
    chk 45 (Ok (N.eqb (hourValue (mkTime None 11%N 25%N)) 11%N)) (
    chk 46 (Ok (N.eqb (minuteValue (mkTime None 11%N 25%N)) 25%N)) (
    chk 47 (Ok (MetafTime_isValid (mkTime None 11%N 25%N))) (
    None)))).

Definition t_MetafTime_constructorDayHourMinuteInvalidDay : option N :=
    chk 52 (Ok (has_value (dayValue (mkTime (Some 32%N) 11%N 25%N)))) (
    chk 53 (let! v1 := deref (dayValue (mkTime (Some 32%N) 11%N 25%N)) in Ok (N.eqb v1 32%N)) (
    chk 54 (Ok (N.eqb (hourValue (mkTime (Some 32%N) 11%N 25%N)) 11%N)) (
    chk 55 (Ok (N.eqb (minuteValue (mkTime (Some 32%N) 11%N 25%N)) 25%N)) (
    chk 56 (Ok (negb (MetafTime_isValid (mkTime (Some 32%N) 11%N 25%N)))) (
    None))))).

Definition t_MetafTime_fromStringDDHHMMwithDay : option N :=
    step 66 ((MetafTime_fromStringDDHHMM "120830")) (fun v1 => 
    chk 67 (Ok (has_value v1)) (
    chk 68 (let! v2 := deref v1 in Ok (has_value (dayValue v2))) (
    chk 69 (let! v3 := deref v1 in let! v4 := deref (dayValue v3) in Ok (N.eqb v4 12%N)) (
    chk 70 (let! v5 := deref v1 in Ok (N.eqb (hourValue v5) 8%N)) (
    chk 71 (let! v6 := deref v1 in Ok (N.eqb (minuteValue v6) 30%N)) (
    None)))))).

Definition t_MetafTime_fromStringDDHHMMwithoutDay : option N :=
    step 75 ((MetafTime_fromStringDDHHMM "0830")) (fun v1 => 
    chk 76 (Ok (has_value v1)) (
    chk 77 (let! v2 := deref v1 in Ok (negb (has_value (dayValue v2)))) (
    chk 78 (let! v3 := deref v1 in Ok (N.eqb (hourValue v3) 8%N)) (
    chk 79 (let! v4 := deref v1 in Ok (N.eqb (minuteValue v4) 30%N)) (
    None))))).

Definition t_MetafTime_fromStringDDHHMM_wrongFormat : option N :=
    chk 83 (let! v1 := (MetafTime_fromStringDDHHMM "") in Ok (negb (has_value v1))) (
    chk 84 (let! v2 := (MetafTime_fromStringDDHHMM "12/08:30") in Ok (negb (has_value v2))) (
    chk 85 (let! v3 := (MetafTime_fromStringDDHHMM "A20830") in Ok (negb (has_value v3))) (
    chk 86 (let! v4 := (MetafTime_fromStringDDHHMM "//////") in Ok (negb (has_value v4))) (
    chk 87 (let! v5 := (MetafTime_fromStringDDHHMM "20830") in Ok (negb (has_value v5))) (
    chk 88 (let! v6 := (MetafTime_fromStringDDHHMM "1208030") in Ok (negb (has_value v6))) (
    chk 89 (let! v7 := (MetafTime_fromStringDDHHMM "120830Z") in Ok (negb (has_value v7))) (
    None))))))).

Definition t_MetafTime_fromStringDDHH : option N :=
    step 93 ((MetafTime_fromStringDDHH "1208")) (fun v1 => 
    chk 94 (Ok (has_value v1)) (
    chk 95 (let! v2 := deref v1 in Ok (has_value (dayValue v2))) (
    chk 96 (let! v3 := deref v1 in let! v4 := deref (dayValue v3) in Ok (N.eqb v4 12%N)) (
    chk 97 (let! v5 := deref v1 in Ok (N.eqb (hourValue v5) 8%N)) (
    chk 98 (let! v6 := deref v1 in Ok (N.eqb (minuteValue v6) 0%N)) (
    None)))))).

Definition t_MetafTime_fromStringDDHH_wrongFormat : option N :=
    chk 102 (let! v1 := (MetafTime_fromStringDDHH "") in Ok (negb (has_value v1))) (
    chk 103 (let! v2 := (MetafTime_fromStringDDHH "12:08") in Ok (negb (has_value v2))) (
    chk 104 (let! v3 := (MetafTime_fromStringDDHH "12/08") in Ok (negb (has_value v3))) (
    chk 105 (let! v4 := (MetafTime_fromStringDDHH "A208") in Ok (negb (has_value v4))) (
    chk 106 (let! v5 := (MetafTime_fromStringDDHH "208") in Ok (negb (has_value v5))) (
    chk 107 (let! v6 := (MetafTime_fromStringDDHH "////") in Ok (negb (has_value v6))) (
    chk 108 (let! v7 := (MetafTime_fromStringDDHH "12080") in Ok (negb (has_value v7))) (
    chk 109 (let! v8 := (MetafTime_fromStringDDHH "1208Z") in Ok (negb (has_value v8))) (
    None)))))))).

Definition t_MetafTime_isValidCorrect : option N :=
    step 118 ((MetafTime_fromStringDDHHMM "312459")) (fun v1 => 
    chk 119 (Ok (has_value v1)) (
    chk 120 (let! v2 := deref v1 in Ok (MetafTime_isValid v2)) (
    step 122 ((MetafTime_fromStringDDHHMM "010000")) (fun v3 => 
    chk 123 (Ok (has_value v3)) (
    chk 124 (let! v4 := deref v3 in Ok (MetafTime_isValid v4)) (
    step 126 ((MetafTime_fromStringDDHHMM "2459")) (fun v5 => 
    chk 127 (Ok (has_value v5)) (
    chk 128 (let! v6 := deref v5 in Ok (MetafTime_isValid v6)) (
    step 130 ((MetafTime_fromStringDDHHMM "0000")) (fun v7 => 
    chk 131 (Ok (has_value v7)) (
    chk 132 (let! v8 := deref v7 in Ok (MetafTime_isValid v8)) (
    step 134 ((MetafTime_fromStringDDHH "3124")) (fun v9 => 
    chk 135 (Ok (has_value v9)) (
    chk 136 (let! v10 := deref v9 in Ok (MetafTime_isValid v10)) (
    step 138 ((MetafTime_fromStringDDHH "0100")) (fun v11 => 
    chk 139 (Ok (has_value v11)) (
    chk 140 (let! v12 := deref v11 in Ok (MetafTime_isValid v12)) (
    None)))))))))))))))))).

Definition t_MetafTime_isValidIncorrect : option N :=
    step 145 ((MetafTime_fromStringDDHHMM "322459")) (fun v1 => 
    chk 146 (Ok (has_value v1)) (
    chk 147 (let! v2 := deref v1 in Ok (negb (MetafTime_isValid v2))) (
    step 149 ((MetafTime_fromStringDDHHMM "312559")) (fun v3 => 
    chk 150 (Ok (has_value v3)) (
    chk 151 (let! v4 := deref v3 in Ok (negb (MetafTime_isValid v4))) (
    step 153 ((MetafTime_fromStringDDHHMM "312460")) (fun v5 => 
    chk 154 (Ok (has_value v5)) (
    chk 155 (let! v6 := deref v5 in Ok (negb (MetafTime_isValid v6))) (
    step 157 ((MetafTime_fromStringDDHHMM "002459")) (fun v7 => 
    chk 158 (Ok (has_value v7)) (
    chk 159 (let! v8 := deref v7 in Ok (negb (MetafTime_isValid v8))) (
    step 161 ((MetafTime_fromStringDDHH "3224")) (fun v9 => 
    chk 162 (Ok (has_value v9)) (
    chk 163 (let! v10 := deref v9 in Ok (negb (MetafTime_isValid v10))) (
    step 165 ((MetafTime_fromStringDDHH "0024")) (fun v11 => 
    chk 166 (Ok (has_value v11)) (
    chk 167 (let! v12 := deref v11 in Ok (negb (MetafTime_isValid v12))) (
    step 169 ((MetafTime_fromStringDDHH "3125")) (fun v13 => 
    chk 170 (Ok (has_value v13)) (
    chk 171 (let! v14 := deref v13 in Ok (negb (MetafTime_isValid v14))) (
    None))))))))))))))))))))).

Definition t_MetafTime_is3hourlyReportTimeTrue : option N :=
    step 182 ((MetafTime_fromStringDDHHMM "310258")) (fun v1 => 
    chk 183 (Ok (has_value v1)) (
    chk 184 (let! v2 := deref v1 in Ok (MetafTime_is3hourlyReportTime v2)) (
    step 186 ((MetafTime_fromStringDDHHMM "310304")) (fun v3 => 
    chk 187 (Ok (has_value v3)) (
    chk 188 (let! v4 := deref v3 in Ok (MetafTime_is3hourlyReportTime v4)) (
    step 190 ((MetafTime_fromStringDDHHMM "310858")) (fun v5 => 
    chk 191 (Ok (has_value v5)) (
    chk 192 (let! v6 := deref v5 in Ok (MetafTime_is3hourlyReportTime v6)) (
    step 194 ((MetafTime_fromStringDDHHMM "310904")) (fun v7 => 
    chk 195 (Ok (has_value v7)) (
    chk 196 (let! v8 := deref v7 in Ok (MetafTime_is3hourlyReportTime v8)) (
    step 198 ((MetafTime_fromStringDDHHMM "311458")) (fun v9 => 
    chk 199 (Ok (has_value v9)) (
    chk 200 (let! v10 := deref v9 in Ok (MetafTime_is3hourlyReportTime v10)) (
    step 202 ((MetafTime_fromStringDDHHMM "311504")) (fun v11 => 
    chk 203 (Ok (has_value v11)) (
    chk 204 (let! v12 := deref v11 in Ok (MetafTime_is3hourlyReportTime v12)) (
    step 206 ((MetafTime_fromStringDDHHMM "312058")) (fun v13 => 
    chk 207 (Ok (has_value v13)) (
    chk 208 (let! v14 := deref v13 in Ok (MetafTime_is3hourlyReportTime v14)) (
    step 210 ((MetafTime_fromStringDDHHMM "312104")) (fun v15 => 
    chk 211 (Ok (has_value v15)) (
    chk 212 (let! v16 := deref v15 in Ok (MetafTime_is3hourlyReportTime v16)) (
    None)))))))))))))))))))))))).

Definition t_MetafTime_is3hourlyReportTimeFalse : option N :=
    step 216 ((MetafTime_fromStringDDHHMM "310005")) (fun v1 => 
    chk 217 (Ok (has_value v1)) (
    chk 218 (let! v2 := deref v1 in Ok (negb (MetafTime_is3hourlyReportTime v2))) (
    step 220 ((MetafTime_fromStringDDHHMM "310105")) (fun v3 => 
    chk 221 (Ok (has_value v3)) (
    chk 222 (let! v4 := deref v3 in Ok (negb (MetafTime_is3hourlyReportTime v4))) (
    step 224 ((MetafTime_fromStringDDHHMM "310405")) (fun v5 => 
    chk 225 (Ok (has_value v5)) (
    chk 226 (let! v6 := deref v5 in Ok (negb (MetafTime_is3hourlyReportTime v6))) (
    step 228 ((MetafTime_fromStringDDHHMM "310505")) (fun v7 => 
    chk 229 (Ok (has_value v7)) (
    chk 230 (let! v8 := deref v7 in Ok (negb (MetafTime_is3hourlyReportTime v8))) (
    step 232 ((MetafTime_fromStringDDHHMM "310605")) (fun v9 => 
    chk 233 (Ok (has_value v9)) (
    chk 234 (let! v10 := deref v9 in Ok (negb (MetafTime_is3hourlyReportTime v10))) (
    step 236 ((MetafTime_fromStringDDHHMM "310705")) (fun v11 => 
    chk 237 (Ok (has_value v11)) (
    chk 238 (let! v12 := deref v11 in Ok (negb (MetafTime_is3hourlyReportTime v12))) (
    step 240 ((MetafTime_fromStringDDHHMM "311005")) (fun v13 => 
    chk 241 (Ok (has_value v13)) (
    chk 242 (let! v14 := deref v13 in Ok (negb (MetafTime_is3hourlyReportTime v14))) (
    step 244 ((MetafTime_fromStringDDHHMM "311105")) (fun v15 => 
    chk 245 (Ok (has_value v15)) (
    chk 246 (let! v16 := deref v15 in Ok (negb (MetafTime_is3hourlyReportTime v16))) (
    step 248 ((MetafTime_fromStringDDHHMM "311205")) (fun v17 => 
    chk 249 (Ok (has_value v17)) (
    chk 250 (let! v18 := deref v17 in Ok (negb (MetafTime_is3hourlyReportTime v18))) (
    step 252 ((MetafTime_fromStringDDHHMM "311305")) (fun v19 => 
    chk 253 (Ok (has_value v19)) (
    chk 254 (let! v20 := deref v19 in Ok (negb (MetafTime_is3hourlyReportTime v20))) (
    step 256 ((MetafTime_fromStringDDHHMM "311605")) (fun v21 => 
    chk 257 (Ok (has_value v21)) (
    chk 258 (let! v22 := deref v21 in Ok (negb (MetafTime_is3hourlyReportTime v22))) (
    step 260 ((MetafTime_fromStringDDHHMM "311705")) (fun v23 => 
    chk 261 (Ok (has_value v23)) (
    chk 262 (let! v24 := deref v23 in Ok (negb (MetafTime_is3hourlyReportTime v24))) (
    step 264 ((MetafTime_fromStringDDHHMM "311805")) (fun v25 => 
    chk 265 (Ok (has_value v25)) (
    chk 266 (let! v26 := deref v25 in Ok (negb (MetafTime_is3hourlyReportTime v26))) (
    step 268 ((MetafTime_fromStringDDHHMM "311905")) (fun v27 => 
    chk 269 (Ok (has_value v27)) (
    chk 270 (let! v28 := deref v27 in Ok (negb (MetafTime_is3hourlyReportTime v28))) (
    step 272 ((MetafTime_fromStringDDHHMM "312205")) (fun v29 => 
    chk 273 (Ok (has_value v29)) (
    chk 274 (let! v30 := deref v29 in Ok (negb (MetafTime_is3hourlyReportTime v30))) (
    step 276 ((MetafTime_fromStringDDHHMM "312305")) (fun v31 => 
    chk 277 (Ok (has_value v31)) (
    chk 278 (let! v32 := deref v31 in Ok (negb (MetafTime_is3hourlyReportTime v32))) (
    None)))))))))))))))))))))))))))))))))))))))))))))))).

Definition t_MetafTime_is6hourlyReportTimeTrue : option N :=
    step 282 ((MetafTime_fromStringDDHHMM "310004")) (fun v1 => 
    chk 283 (Ok (has_value v1)) (
    chk 284 (let! v2 := deref v1 in Ok (MetafTime_is6hourlyReportTime v2)) (
    step 286 ((MetafTime_fromStringDDHHMM "310558")) (fun v3 => 
    chk 287 (Ok (has_value v3)) (
    chk 288 (let! v4 := deref v3 in Ok (MetafTime_is6hourlyReportTime v4)) (
    step 290 ((MetafTime_fromStringDDHHMM "310604")) (fun v5 => 
    chk 291 (Ok (has_value v5)) (
    chk 292 (let! v6 := deref v5 in Ok (MetafTime_is6hourlyReportTime v6)) (
    step 294 ((MetafTime_fromStringDDHHMM "311158")) (fun v7 => 
    chk 295 (Ok (has_value v7)) (
    chk 296 (let! v8 := deref v7 in Ok (MetafTime_is6hourlyReportTime v8)) (
    step 298 ((MetafTime_fromStringDDHHMM "311204")) (fun v9 => 
    chk 299 (Ok (has_value v9)) (
    chk 300 (let! v10 := deref v9 in Ok (MetafTime_is6hourlyReportTime v10)) (
    step 302 ((MetafTime_fromStringDDHHMM "311758")) (fun v11 => 
    chk 303 (Ok (has_value v11)) (
    chk 304 (let! v12 := deref v11 in Ok (MetafTime_is6hourlyReportTime v12)) (
    step 306 ((MetafTime_fromStringDDHHMM "311804")) (fun v13 => 
    chk 307 (Ok (has_value v13)) (
    chk 308 (let! v14 := deref v13 in Ok (MetafTime_is6hourlyReportTime v14)) (
    step 310 ((MetafTime_fromStringDDHHMM "312358")) (fun v15 => 
    chk 311 (Ok (has_value v15)) (
    chk 312 (let! v16 := deref v15 in Ok (MetafTime_is6hourlyReportTime v16)) (
    None)))))))))))))))))))))))).

Definition t_MetafTime_is6hourlyReportTimeFalse : option N :=
    step 316 ((MetafTime_fromStringDDHHMM "310105")) (fun v1 => 
    chk 317 (Ok (has_value v1)) (
    chk 318 (let! v2 := deref v1 in Ok (negb (MetafTime_is6hourlyReportTime v2))) (
    step 320 ((MetafTime_fromStringDDHHMM "310205")) (fun v3 => 
    chk 321 (Ok (has_value v3)) (
    chk 322 (let! v4 := deref v3 in Ok (negb (MetafTime_is6hourlyReportTime v4))) (
    step 324 ((MetafTime_fromStringDDHHMM "310305")) (fun v5 => 
    chk 325 (Ok (has_value v5)) (
    chk 326 (let! v6 := deref v5 in Ok (negb (MetafTime_is6hourlyReportTime v6))) (
    step 328 ((MetafTime_fromStringDDHHMM "310405")) (fun v7 => 
    chk 329 (Ok (has_value v7)) (
    chk 330 (let! v8 := deref v7 in Ok (negb (MetafTime_is6hourlyReportTime v8))) (
    step 332 ((MetafTime_fromStringDDHHMM "310705")) (fun v9 => 
    chk 333 (Ok (has_value v9)) (
    chk 334 (let! v10 := deref v9 in Ok (negb (MetafTime_is6hourlyReportTime v10))) (
    step 336 ((MetafTime_fromStringDDHHMM "310805")) (fun v11 => 
    chk 337 (Ok (has_value v11)) (
    chk 338 (let! v12 := deref v11 in Ok (negb (MetafTime_is6hourlyReportTime v12))) (
    step 340 ((MetafTime_fromStringDDHHMM "310905")) (fun v13 => 
    chk 341 (Ok (has_value v13)) (
    chk 342 (let! v14 := deref v13 in Ok (negb (MetafTime_is6hourlyReportTime v14))) (
    step 344 ((MetafTime_fromStringDDHHMM "311005")) (fun v15 => 
    chk 345 (Ok (has_value v15)) (
    chk 346 (let! v16 := deref v15 in Ok (negb (MetafTime_is6hourlyReportTime v16))) (
    step 348 ((MetafTime_fromStringDDHHMM "311305")) (fun v17 => 
    chk 349 (Ok (has_value v17)) (
    chk 350 (let! v18 := deref v17 in Ok (negb (MetafTime_is6hourlyReportTime v18))) (
    step 352 ((MetafTime_fromStringDDHHMM "311405")) (fun v19 => 
    chk 353 (Ok (has_value v19)) (
    chk 354 (let! v20 := deref v19 in Ok (negb (MetafTime_is6hourlyReportTime v20))) (
    step 356 ((MetafTime_fromStringDDHHMM "311505")) (fun v21 => 
    chk 357 (Ok (has_value v21)) (
    chk 358 (let! v22 := deref v21 in Ok (negb (MetafTime_is6hourlyReportTime v22))) (
    step 360 ((MetafTime_fromStringDDHHMM "311605")) (fun v23 => 
    chk 361 (Ok (has_value v23)) (
    chk 362 (let! v24 := deref v23 in Ok (negb (MetafTime_is6hourlyReportTime v24))) (
    step 364 ((MetafTime_fromStringDDHHMM "311905")) (fun v25 => 
    chk 365 (Ok (has_value v25)) (
    chk 366 (let! v26 := deref v25 in Ok (negb (MetafTime_is6hourlyReportTime v26))) (
    step 368 ((MetafTime_fromStringDDHHMM "312005")) (fun v27 => 
    chk 369 (Ok (has_value v27)) (
    chk 370 (let! v28 := deref v27 in Ok (negb (MetafTime_is6hourlyReportTime v28))) (
    step 372 ((MetafTime_fromStringDDHHMM "312105")) (fun v29 => 
    chk 373 (Ok (has_value v29)) (
    chk 374 (let! v30 := deref v29 in Ok (negb (MetafTime_is6hourlyReportTime v30))) (
    step 376 ((MetafTime_fromStringDDHHMM "312205")) (fun v31 => 
    chk 377 (Ok (has_value v31)) (
    chk 378 (let! v32 := deref v31 in Ok (negb (MetafTime_is6hourlyReportTime v32))) (
    None)))))))))))))))))))))))))))))))))))))))))))))))).

Definition t_MetafTime_dateBeforeRefSameMonthAndYear : option N :=
    step 391 ((MetafTime_fromStringDDHHMM "201730")) (fun v1 => 
    chk 392 (Ok (has_value v1)) (
    chk 393 (let! v2 := deref v1 in Ok (MetafTime_isValid v2)) (
    step 394 (deref v1) (fun v3 => 
    chk 395 (Ok (N.eqb (date_year (MetafTime_dateBeforeRef v3 (mkDate 2019%N 6%N 21%N))) 2019%N)) (
    chk 396 (Ok (N.eqb (date_month (MetafTime_dateBeforeRef v3 (mkDate 2019%N 6%N 21%N))) 6%N)) (
    chk 397 (Ok (N.eqb (date_day (MetafTime_dateBeforeRef v3 (mkDate 2019%N 6%N 21%N))) 20%N)) (
    None))))))).

Definition t_MetafTime_dateBeforeRefDifferentMonth : option N :=
    step 401 ((MetafTime_fromStringDDHHMM "301730")) (fun v1 => 
    chk 402 (Ok (has_value v1)) (
    chk 403 (let! v2 := deref v1 in Ok (MetafTime_isValid v2)) (
    step 404 (deref v1) (fun v3 => 
    chk 405 (Ok (N.eqb (date_year (MetafTime_dateBeforeRef v3 (mkDate 2019%N 7%N 1%N))) 2019%N)) (
    chk 406 (Ok (N.eqb (date_month (MetafTime_dateBeforeRef v3 (mkDate 2019%N 7%N 1%N))) 6%N)) (
    chk 407 (Ok (N.eqb (date_day (MetafTime_dateBeforeRef v3 (mkDate 2019%N 7%N 1%N))) 30%N)) (
    None))))))).

Definition t_MetafTime_dateBeforeRefDifferentMonthAndYear : option N :=
    step 411 ((MetafTime_fromStringDDHHMM "311730")) (fun v1 => 
    chk 412 (Ok (has_value v1)) (
    chk 413 (let! v2 := deref v1 in Ok (MetafTime_isValid v2)) (
    step 414 (deref v1) (fun v3 => 
    chk 415 (Ok (N.eqb (date_year (MetafTime_dateBeforeRef v3 (mkDate 2019%N 1%N 1%N))) 2018%N)) (
    chk 416 (Ok (N.eqb (date_month (MetafTime_dateBeforeRef v3 (mkDate 2019%N 1%N 1%N))) 12%N)) (
    chk 417 (Ok (N.eqb (date_day (MetafTime_dateBeforeRef v3 (mkDate 2019%N 1%N 1%N))) 31%N)) (
    None))))))).

Example tests_metaftime_pass : failures
  [("MetafTime_constructorHourMinute", t_MetafTime_constructorHourMinute);
   ("MetafTime_constructorHourMinuteInvalidTime", t_MetafTime_constructorHourMinuteInvalidTime);
   ("MetafTime_constructorDayHourMinute", t_MetafTime_constructorDayHourMinute);
   ("MetafTime_constructorDayHourMinuteDayNotReported", t_MetafTime_constructorDayHourMinuteDayNotReported);
   ("MetafTime_constructorDayHourMinuteInvalidDay", t_MetafTime_constructorDayHourMinuteInvalidDay);
   ("MetafTime_fromStringDDHHMMwithDay", t_MetafTime_fromStringDDHHMMwithDay);
   ("MetafTime_fromStringDDHHMMwithoutDay", t_MetafTime_fromStringDDHHMMwithoutDay);
   ("MetafTime_fromStringDDHHMM_wrongFormat", t_MetafTime_fromStringDDHHMM_wrongFormat);
   ("MetafTime_fromStringDDHH", t_MetafTime_fromStringDDHH);
   ("MetafTime_fromStringDDHH_wrongFormat", t_MetafTime_fromStringDDHH_wrongFormat);
   ("MetafTime_isValidCorrect", t_MetafTime_isValidCorrect);
   ("MetafTime_isValidIncorrect", t_MetafTime_isValidIncorrect);
   ("MetafTime_is3hourlyReportTimeTrue", t_MetafTime_is3hourlyReportTimeTrue);
   ("MetafTime_is3hourlyReportTimeFalse", t_MetafTime_is3hourlyReportTimeFalse);
   ("MetafTime_is6hourlyReportTimeTrue", t_MetafTime_is6hourlyReportTimeTrue);
   ("MetafTime_is6hourlyReportTimeFalse", t_MetafTime_is6hourlyReportTimeFalse);
   ("MetafTime_dateBeforeRefSameMonthAndYear", t_MetafTime_dateBeforeRefSameMonthAndYear);
   ("MetafTime_dateBeforeRefDifferentMonth", t_MetafTime_dateBeforeRefDifferentMonth);
   ("MetafTime_dateBeforeRefDifferentMonthAndYear", t_MetafTime_dateBeforeRefDifferentMonthAndYear)] = [].
Proof. vm_compute. reflexivity. Qed.
