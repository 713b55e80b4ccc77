(** Generated by tools/gen_tests.py from /repo/test/test_parser.cpp: the project's own unit tests, run
    against the model. These are tests of the model's fidelity, not properties. *)

From Verif Require Import Prim Regex Float Values Weather Groups1 Groups2 Groups3 Groups4 Parser TestLib.
Local Open Scope string_scope.
Local Open Scope bool_scope.

Definition t_ParserSyntaxMalformedReports_emptyReport : option N :=
    step 298 (((parse true) "" 200%nat)) (fun v1 => 
    chk 299 (Ok (ReportType_beq (md_type (pr_metadata v1)) RT_UNKNOWN)) (
    chk 300 (Ok (ReportError_beq (md_error (pr_metadata v1)) RE_EMPTY_REPORT)) (
    chk 301 (Ok (N.eqb (N.of_nat (List.length (pr_groups v1))) 0%N)) (
    step 303 (((parse true) "=" 200%nat)) (fun v2 => 
    chk 304 (Ok (ReportType_beq (md_type (pr_metadata v2)) RT_UNKNOWN)) (
    chk 305 (Ok (ReportError_beq (md_error (pr_metadata v2)) RE_EMPTY_REPORT)) (
    chk 306 (Ok (N.eqb (N.of_nat (List.length (pr_groups v2))) 0%N)) (
    None)))))))).

Definition t_ParserSyntaxMalformedReports_location : option N :=
    step 310 (((parse true) "ZZZZ=" 200%nat)) (fun v1 => 
    chk 311 (Ok (ReportType_beq (md_type (pr_metadata v1)) RT_UNKNOWN)) (
    chk 312 (Ok (ReportError_beq (md_error (pr_metadata v1)) RE_UNEXPECTED_REPORT_END)) (
    chk 313 (Ok (N.eqb (N.of_nat (List.length (pr_groups v1))) 1%N)) (
    chk 314 (let! v2 := deref (List.nth_error (pr_groups v1) 0%nat) in Ok (match (gi_group v2) with GLocation _ => true | _ => false end)) (
    None))))).

Definition t_ParserSyntaxMalformedReports_typeLocation : option N :=
    step 318 (((parse true) "METAR ZZZZ=" 200%nat)) (fun v1 => 
    chk 319 (Ok (ReportType_beq (md_type (pr_metadata v1)) RT_METAR)) (
    chk 320 (Ok (ReportError_beq (md_error (pr_metadata v1)) RE_UNEXPECTED_REPORT_END)) (
    chk 321 (Ok (N.eqb (N.of_nat (List.length (pr_groups v1))) 2%N)) (
    chk 322 (let! v2 := deref (List.nth_error (pr_groups v1) 0%nat) in Ok (match (gi_group v2) with GKeyword k => KwType_beq (kw_t k) Kw_METAR | _ => false end)) (
    chk 323 (let! v3 := deref (List.nth_error (pr_groups v1) 1%nat) in Ok (match (gi_group v3) with GLocation _ => true | _ => false end)) (
    step 325 (((parse true) "SPECI ZZZZ=" 200%nat)) (fun v4 => 
    chk 326 (Ok (ReportType_beq (md_type (pr_metadata v4)) RT_METAR)) (
    chk 327 (Ok (ReportError_beq (md_error (pr_metadata v4)) RE_UNEXPECTED_REPORT_END)) (
    chk 328 (Ok (N.eqb (N.of_nat (List.length (pr_groups v4))) 2%N)) (
    chk 329 (let! v5 := deref (List.nth_error (pr_groups v4) 0%nat) in Ok (match (gi_group v5) with GKeyword k => KwType_beq (kw_t k) Kw_SPECI | _ => false end)) (
    chk 330 (let! v6 := deref (List.nth_error (pr_groups v4) 1%nat) in Ok (match (gi_group v6) with GLocation _ => true | _ => false end)) (
    step 332 (((parse true) "TAF ZZZZ=" 200%nat)) (fun v7 => 
    chk 333 (Ok (ReportType_beq (md_type (pr_metadata v7)) RT_TAF)) (
    chk 334 (Ok (ReportError_beq (md_error (pr_metadata v7)) RE_UNEXPECTED_REPORT_END)) (
    chk 335 (Ok (N.eqb (N.of_nat (List.length (pr_groups v7))) 2%N)) (
    chk 336 (let! v8 := deref (List.nth_error (pr_groups v7) 0%nat) in Ok (match (gi_group v8) with GKeyword k => KwType_beq (kw_t k) Kw_TAF | _ => false end)) (
    chk 337 (let! v9 := deref (List.nth_error (pr_groups v7) 1%nat) in Ok (match (gi_group v9) with GLocation _ => true | _ => false end)) (
    None)))))))))))))))))).

Definition t_ParserSyntaxMalformedReports_strayGroupInPlaceOfLocation : option N :=
    step 341 (((parse true) "METAR 9999=" 200%nat)) (fun v1 => 
    chk 342 (Ok (ReportType_beq (md_type (pr_metadata v1)) RT_METAR)) (
    chk 343 (Ok (ReportError_beq (md_error (pr_metadata v1)) RE_EXPECTED_LOCATION)) (
    chk 344 (Ok (N.eqb (N.of_nat (List.length (pr_groups v1))) 2%N)) (
    chk 345 (let! v2 := deref (List.nth_error (pr_groups v1) 0%nat) in Ok (match (gi_group v2) with GKeyword k => KwType_beq (kw_t k) Kw_METAR | _ => false end)) (
    chk 346 (let! v3 := deref (List.nth_error (pr_groups v1) 1%nat) in Ok (match (gi_group v3) with GUnknown _ => true | _ => false end)) (
    step 348 (((parse true) "SPECI 9999=" 200%nat)) (fun v4 => 
    chk 349 (Ok (ReportType_beq (md_type (pr_metadata v4)) RT_METAR)) (
    chk 350 (Ok (ReportError_beq (md_error (pr_metadata v4)) RE_EXPECTED_LOCATION)) (
    chk 351 (Ok (N.eqb (N.of_nat (List.length (pr_groups v4))) 2%N)) (
    chk 352 (let! v5 := deref (List.nth_error (pr_groups v4) 0%nat) in Ok (match (gi_group v5) with GKeyword k => KwType_beq (kw_t k) Kw_SPECI | _ => false end)) (
    chk 353 (let! v6 := deref (List.nth_error (pr_groups v4) 1%nat) in Ok (match (gi_group v6) with GUnknown _ => true | _ => false end)) (
    step 355 (((parse true) "TAF 9999=" 200%nat)) (fun v7 => 
    chk 356 (Ok (ReportType_beq (md_type (pr_metadata v7)) RT_TAF)) (
    chk 357 (Ok (ReportError_beq (md_error (pr_metadata v7)) RE_EXPECTED_LOCATION)) (
    chk 358 (Ok (N.eqb (N.of_nat (List.length (pr_groups v7))) 2%N)) (
    chk 359 (let! v8 := deref (List.nth_error (pr_groups v7) 0%nat) in Ok (match (gi_group v8) with GKeyword k => KwType_beq (kw_t k) Kw_TAF | _ => false end)) (
    chk 360 (let! v9 := deref (List.nth_error (pr_groups v7) 1%nat) in Ok (match (gi_group v9) with GUnknown _ => true | _ => false end)) (
    None)))))))))))))))))).

Definition t_ParserSyntaxMalformedReports_locationTime : option N :=
    step 364 (((parse true) "ZZZZ 041115Z=" 200%nat)) (fun v1 => 
    chk 365 (Ok (ReportType_beq (md_type (pr_metadata v1)) RT_UNKNOWN)) (
    chk 366 (Ok (ReportError_beq (md_error (pr_metadata v1)) RE_UNEXPECTED_REPORT_END)) (
    chk 367 (Ok (N.eqb (N.of_nat (List.length (pr_groups v1))) 2%N)) (
    chk 368 (let! v2 := deref (List.nth_error (pr_groups v1) 0%nat) in Ok (match (gi_group v2) with GLocation _ => true | _ => false end)) (
    chk 369 (let! v3 := deref (List.nth_error (pr_groups v1) 1%nat) in Ok (match (gi_group v3) with GReportTime _ => true | _ => false end)) (
    None)))))).

Definition t_ParserSyntaxMalformedReports_typeLocationTime : option N :=
    step 373 (((parse true) "METAR ZZZZ 041115Z=" 200%nat)) (fun v1 => 
    chk 374 (Ok (ReportType_beq (md_type (pr_metadata v1)) RT_METAR)) (
    chk 375 (Ok (ReportError_beq (md_error (pr_metadata v1)) RE_UNEXPECTED_REPORT_END)) (
    chk 376 (Ok (N.eqb (N.of_nat (List.length (pr_groups v1))) 3%N)) (
    chk 377 (let! v2 := deref (List.nth_error (pr_groups v1) 0%nat) in Ok (match (gi_group v2) with GKeyword k => KwType_beq (kw_t k) Kw_METAR | _ => false end)) (
    chk 378 (let! v3 := deref (List.nth_error (pr_groups v1) 1%nat) in Ok (match (gi_group v3) with GLocation _ => true | _ => false end)) (
    chk 379 (let! v4 := deref (List.nth_error (pr_groups v1) 2%nat) in Ok (match (gi_group v4) with GReportTime _ => true | _ => false end)) (
    step 381 (((parse true) "SPECI ZZZZ 041115Z=" 200%nat)) (fun v5 => 
    chk 382 (Ok (ReportType_beq (md_type (pr_metadata v5)) RT_METAR)) (
    chk 383 (Ok (ReportError_beq (md_error (pr_metadata v5)) RE_UNEXPECTED_REPORT_END)) (
    chk 384 (Ok (N.eqb (N.of_nat (List.length (pr_groups v5))) 3%N)) (
    chk 385 (let! v6 := deref (List.nth_error (pr_groups v5) 0%nat) in Ok (match (gi_group v6) with GKeyword k => KwType_beq (kw_t k) Kw_SPECI | _ => false end)) (
    chk 386 (let! v7 := deref (List.nth_error (pr_groups v5) 1%nat) in Ok (match (gi_group v7) with GLocation _ => true | _ => false end)) (
    chk 387 (let! v8 := deref (List.nth_error (pr_groups v1) 2%nat) in Ok (match (gi_group v8) with GReportTime _ => true | _ => false end)) (
    step 389 (((parse true) "TAF ZZZZ 041115Z=" 200%nat)) (fun v9 => 
    chk 390 (Ok (ReportType_beq (md_type (pr_metadata v9)) RT_TAF)) (
    chk 391 (Ok (ReportError_beq (md_error (pr_metadata v9)) RE_UNEXPECTED_REPORT_END)) (
    chk 392 (Ok (N.eqb (N.of_nat (List.length (pr_groups v9))) 3%N)) (
    chk 393 (let! v10 := deref (List.nth_error (pr_groups v9) 0%nat) in Ok (match (gi_group v10) with GKeyword k => KwType_beq (kw_t k) Kw_TAF | _ => false end)) (
    chk 394 (let! v11 := deref (List.nth_error (pr_groups v9) 1%nat) in Ok (match (gi_group v11) with GLocation _ => true | _ => false end)) (
    chk 395 (let! v12 := deref (List.nth_error (pr_groups v9) 2%nat) in Ok (match (gi_group v12) with GReportTime _ => true | _ => false end)) (
    None))))))))))))))))))))).

Definition t_ParserSyntaxMalformedReports_strayGroupInPlaceOfReportTime : option N :=
    step 399 (((parse true) "METAR ZZZZ ZZZZ=" 200%nat)) (fun v1 => 
    chk 400 (Ok (ReportType_beq (md_type (pr_metadata v1)) RT_METAR)) (
    chk 401 (Ok (ReportError_beq (md_error (pr_metadata v1)) RE_EXPECTED_REPORT_TIME)) (
    chk 402 (Ok (N.eqb (N.of_nat (List.length (pr_groups v1))) 3%N)) (
    chk 403 (let! v2 := deref (List.nth_error (pr_groups v1) 0%nat) in Ok (match (gi_group v2) with GKeyword k => KwType_beq (kw_t k) Kw_METAR | _ => false end)) (
    chk 404 (let! v3 := deref (List.nth_error (pr_groups v1) 1%nat) in Ok (match (gi_group v3) with GLocation _ => true | _ => false end)) (
    chk 405 (let! v4 := deref (List.nth_error (pr_groups v1) 2%nat) in Ok (match (gi_group v4) with GLocation _ => true | _ => false end)) (
    step 407 (((parse true) "TAF ZZZZ ZZZZ=" 200%nat)) (fun v5 => 
    chk 408 (Ok (ReportType_beq (md_type (pr_metadata v5)) RT_TAF)) (
    chk 409 (Ok (ReportError_beq (md_error (pr_metadata v5)) RE_EXPECTED_REPORT_TIME)) (
    chk 410 (Ok (N.eqb (N.of_nat (List.length (pr_groups v5))) 3%N)) (
    chk 411 (let! v6 := deref (List.nth_error (pr_groups v5) 0%nat) in Ok (match (gi_group v6) with GKeyword k => KwType_beq (kw_t k) Kw_TAF | _ => false end)) (
    chk 412 (let! v7 := deref (List.nth_error (pr_groups v5) 1%nat) in Ok (match (gi_group v7) with GLocation _ => true | _ => false end)) (
    chk 413 (let! v8 := deref (List.nth_error (pr_groups v5) 2%nat) in Ok (match (gi_group v8) with GLocation _ => true | _ => false end)) (
    step 415 (((parse true) "ZZZZ ZZZZ=" 200%nat)) (fun v9 => 
    chk 416 (Ok (ReportType_beq (md_type (pr_metadata v9)) RT_UNKNOWN)) (
    chk 417 (Ok (ReportError_beq (md_error (pr_metadata v9)) RE_EXPECTED_REPORT_TIME)) (
    chk 418 (Ok (N.eqb (N.of_nat (List.length (pr_groups v9))) 2%N)) (
    chk 419 (let! v10 := deref (List.nth_error (pr_groups v9) 0%nat) in Ok (match (gi_group v10) with GLocation _ => true | _ => false end)) (
    chk 420 (let! v11 := deref (List.nth_error (pr_groups v9) 1%nat) in Ok (match (gi_group v11) with GLocation _ => true | _ => false end)) (
    None)))))))))))))))))))).

Definition t_ParserSyntaxMalformedReports_strayGroupInPlaceOfTimeSpan : option N :=
    step 424 (((parse true) "TAF ZZZZ 041115Z ZZZZ=" 200%nat)) (fun v1 => 
    chk 425 (Ok (ReportType_beq (md_type (pr_metadata v1)) RT_TAF)) (
    chk 426 (Ok (ReportError_beq (md_error (pr_metadata v1)) RE_EXPECTED_TIME_SPAN)) (
    chk 427 (Ok (N.eqb (N.of_nat (List.length (pr_groups v1))) 4%N)) (
    chk 428 (let! v2 := deref (List.nth_error (pr_groups v1) 0%nat) in Ok (match (gi_group v2) with GKeyword k => KwType_beq (kw_t k) Kw_TAF | _ => false end)) (
    chk 429 (let! v3 := deref (List.nth_error (pr_groups v1) 1%nat) in Ok (match (gi_group v3) with GLocation _ => true | _ => false end)) (
    chk 430 (let! v4 := deref (List.nth_error (pr_groups v1) 2%nat) in Ok (match (gi_group v4) with GReportTime _ => true | _ => false end)) (
    chk 431 (let! v5 := deref (List.nth_error (pr_groups v1) 3%nat) in Ok (match (gi_group v5) with GLocation _ => true | _ => false end)) (
    None)))))))).

Definition t_ParserSyntaxMalformedReports_tafReportTypeAndTimeNotSpecified : option N :=
    step 435 (((parse true) "ZZZZ 0412/0512 TX07/0416Z TN03/0505Z=" 200%nat)) (fun v1 => 
    chk 436 (Ok (ReportType_beq (md_type (pr_metadata v1)) RT_UNKNOWN)) (
    chk 437 (Ok (ReportError_beq (md_error (pr_metadata v1)) RE_EXPECTED_REPORT_TIME)) (
    chk 438 (Ok (N.eqb (N.of_nat (List.length (pr_groups v1))) 2%N)) (
    chk 439 (let! v2 := deref (List.nth_error (pr_groups v1) 0%nat) in Ok (match (gi_group v2) with GLocation _ => true | _ => false end)) (
    chk 440 (let! v3 := deref (List.nth_error (pr_groups v1) 1%nat) in Ok (match (gi_group v3) with GTrend k => Trend_isTimeSpanGroup k | _ => false end)) (
    None)))))).

Definition t_ParserSyntaxMalformedReports_corStrayGroupInPlaceOfLocation : option N :=
    step 444 (((parse true) "METAR COR 9999=" 200%nat)) (fun v1 => 
    chk 445 (Ok (ReportType_beq (md_type (pr_metadata v1)) RT_METAR)) (
    chk 446 (Ok (ReportError_beq (md_error (pr_metadata v1)) RE_EXPECTED_LOCATION)) (
    chk 447 (Ok (N.eqb (N.of_nat (List.length (pr_groups v1))) 3%N)) (
    chk 448 (let! v2 := deref (List.nth_error (pr_groups v1) 0%nat) in Ok (match (gi_group v2) with GKeyword k => KwType_beq (kw_t k) Kw_METAR | _ => false end)) (
    chk 449 (let! v3 := deref (List.nth_error (pr_groups v1) 1%nat) in Ok (match (gi_group v3) with GKeyword k => KwType_beq (kw_t k) Kw_COR | _ => false end)) (
    chk 450 (let! v4 := deref (List.nth_error (pr_groups v1) 2%nat) in Ok (match (gi_group v4) with GUnknown _ => true | _ => false end)) (
    step 452 (((parse true) "TAF COR 9999=" 200%nat)) (fun v5 => 
    chk 453 (Ok (ReportType_beq (md_type (pr_metadata v5)) RT_TAF)) (
    chk 454 (Ok (ReportError_beq (md_error (pr_metadata v5)) RE_EXPECTED_LOCATION)) (
    chk 455 (Ok (N.eqb (N.of_nat (List.length (pr_groups v5))) 3%N)) (
    chk 456 (let! v6 := deref (List.nth_error (pr_groups v5) 0%nat) in Ok (match (gi_group v6) with GKeyword k => KwType_beq (kw_t k) Kw_TAF | _ => false end)) (
    chk 457 (let! v7 := deref (List.nth_error (pr_groups v5) 1%nat) in Ok (match (gi_group v7) with GKeyword k => KwType_beq (kw_t k) Kw_COR | _ => false end)) (
    chk 458 (let! v8 := deref (List.nth_error (pr_groups v5) 2%nat) in Ok (match (gi_group v8) with GUnknown _ => true | _ => false end)) (
    None)))))))))))))).

Definition t_ParserSyntaxMalformedReports_amdStrayGroupInPlaceOfLocation : option N :=
    step 462 (((parse true) "TAF AMD 9999=" 200%nat)) (fun v1 => 
    chk 463 (Ok (ReportType_beq (md_type (pr_metadata v1)) RT_TAF)) (
    chk 464 (Ok (ReportError_beq (md_error (pr_metadata v1)) RE_EXPECTED_LOCATION)) (
    chk 465 (Ok (N.eqb (N.of_nat (List.length (pr_groups v1))) 3%N)) (
    chk 466 (let! v2 := deref (List.nth_error (pr_groups v1) 0%nat) in Ok (match (gi_group v2) with GKeyword k => KwType_beq (kw_t k) Kw_TAF | _ => false end)) (
    chk 467 (let! v3 := deref (List.nth_error (pr_groups v1) 1%nat) in Ok (match (gi_group v3) with GKeyword k => KwType_beq (kw_t k) Kw_AMD | _ => false end)) (
    chk 468 (let! v4 := deref (List.nth_error (pr_groups v1) 2%nat) in Ok (match (gi_group v4) with GUnknown _ => true | _ => false end)) (
    None))))))).

Definition t_ParserSyntaxMalformedReports_metarReportTooLarge : option N :=
    step 472 (((parse true) "METAR KNCA 121556Z AUTO 08008KT 10SM FEW035 31/23 A3010 RMK AO2 SLP195 T03110233 METAR KNCA 121556Z AUTO 08008KT 10SM FEW035 31/23 A3010 RMK AO2 SLP195 T03110233 METAR KNCA 121556Z AUTO 08008KT 10SM FEW035 31/23 A3010 RMK AO2 SLP195 T03110233 METAR KNCA 121556Z AUTO 08008KT 10SM FEW035 31/23 A3010 RMK AO2 SLP195 T03110233 METAR KNCA 121556Z AUTO 08008KT 10SM FEW035 31/23 A3010 RMK AO2 SLP195 T03110233 METAR KNCA 121556Z AUTO 08008KT 10SM FEW035 31/23 A3010 RMK AO2 SLP195 T03110233 METAR KNCA 121556Z AUTO 08008KT 10SM FEW035 31/23 A3010 RMK AO2 SLP195 T03110233 METAR KNCA 121556Z AUTO 08008KT 10SM FEW035 31/23 A3010 RMK AO2 SLP195 T03110233 METAR KNCA 121556Z AUTO 08008KT 10SM FEW035 31/23 A3010 RMK AO2 SLP195 T03110233 METAR KNCA 121556Z AUTO 08008KT 10SM FEW035 31/23 A3010 RMK AO2 SLP195 T03110233 METAR KNCA 121556Z AUTO 08008KT 10SM FEW035 31/23 A3010 RMK AO2 SLP195 T03110233 METAR KNCA 121556Z AUTO 08008KT 10SM FEW035 31/23 A3010 RMK AO2 SLP195 T03110233 METAR KNCA 121556Z AUTO 08008KT 10SM FEW035 31/23 A3010 RMK AO2 SLP195 T03110233 METAR KNCA 121556Z AUTO 08008KT 10SM FEW035 31/23 A3010 RMK AO2 SLP195 T03110233 METAR KNCA 121556Z AUTO 08008KT 10SM FEW035 31/23 A3010 RMK AO2 SLP195 T03110233 METAR KNCA 121556Z AUTO 08008KT 10SM FEW035 31/23 A3010 RMK AO2 SLP195 T03110233 " 200%nat)) (fun v1 => 
    chk 506 (Ok (ReportType_beq (md_type (pr_metadata v1)) RT_METAR)) (
    chk 507 (Ok (ReportError_beq (md_error (pr_metadata v1)) RE_REPORT_TOO_LARGE)) (
    None))).

Definition t_ParserSyntaxMalformedReports_tafReportTooLarge : option N :=
    step 511 (((parse true) "TAF COR EIKN 091726Z 0918/1018 25014KT 9999 SCT018 BKN030 TEMPO 0918/0921 25016G26KT BECMG 1001/1004 23009KT BECMG 1006/1009 20008KT BECMG 1009/1011 18013KT -RA SCT007 BKN012 TEMPO 1009/1011 5000 -RADZ BKN007 BECMG 1011/1014 5000 -RADZ SCT003 BKN007 TEMPO 1011/1017 18015G25KT 2000 RADZ BR BKN003 PROB30 TEMPO 1011/1017 0800 FG BKN002 BECMG 1016/1018 24014KT 9999 SCT008 BKN020 TEMPO 1016/1018 24016G26KTTAF COR EIKN 091726Z 0918/1018 25014KT 9999 SCT018 BKN030 TEMPO 0918/0921 25016G26KT BECMG 1001/1004 23009KT BECMG 1006/1009 20008KT BECMG 1009/1011 18013KT -RA SCT007 BKN012 TEMPO 1009/1011 5000 -RADZ BKN007 BECMG 1011/1014 5000 -RADZ SCT003 BKN007 TEMPO 1011/1017 18015G25KT 2000 RADZ BR BKN003 PROB30 TEMPO 1011/1017 0800 FG BKN002 BECMG 1016/1018 24014KT 9999 SCT008 BKN020 TEMPO 1016/1018 24016G26KTTAF COR EIKN 091726Z 0918/1018 25014KT 9999 SCT018 BKN030 TEMPO 0918/0921 25016G26KT BECMG 1001/1004 23009KT BECMG 1006/1009 20008KT BECMG 1009/1011 18013KT -RA SCT007 BKN012 TEMPO 1009/1011 5000 -RADZ BKN007 BECMG 1011/1014 5000 -RADZ SCT003 BKN007 TEMPO 1011/1017 18015G25KT 2000 RADZ BR BKN003 PROB30 TEMPO 1011/1017 0800 FG BKN002 BECMG 1016/1018 24014KT 9999 SCT008 BKN020 TEMPO 1016/1018 24016G26KTTAF COR EIKN 091726Z 0918/1018 25014KT 9999 SCT018 BKN030 TEMPO 0918/0921 25016G26KT BECMG 1001/1004 23009KT BECMG 1006/1009 20008KT BECMG 1009/1011 18013KT -RA SCT007 BKN012 TEMPO 1009/1011 5000 -RADZ BKN007 BECMG 1011/1014 5000 -RADZ SCT003 BKN007 TEMPO 1011/1017 18015G25KT 2000 RADZ BR BKN003 PROB30 TEMPO 1011/1017 0800 FG BKN002 BECMG 1016/1018 24014KT 9999 SCT008 BKN020 TEMPO 1016/1018 24016G26KT" 200%nat)) (fun v1 => 
    chk 561 (Ok (ReportType_beq (md_type (pr_metadata v1)) RT_TAF)) (
    chk 562 (Ok (ReportError_beq (md_error (pr_metadata v1)) RE_REPORT_TOO_LARGE)) (
    None))).

Definition t_ParserSyntaxNilReports_locationNil : option N :=
    step 572 (((parse true) "ZZZZ NIL=" 200%nat)) (fun v1 => 
    chk 573 (Ok (ReportType_beq (md_type (pr_metadata v1)) RT_UNKNOWN)) (
    chk 574 (Ok (ReportError_beq (md_error (pr_metadata v1)) RE_NONE)) (
    chk 575 (Ok (N.eqb (N.of_nat (List.length (pr_groups v1))) 2%N)) (
    chk 576 (let! v2 := deref (List.nth_error (pr_groups v1) 0%nat) in Ok (match (gi_group v2) with GLocation _ => true | _ => false end)) (
    chk 577 (let! v3 := deref (List.nth_error (pr_groups v1) 1%nat) in Ok (match (gi_group v3) with GKeyword k => KwType_beq (kw_t k) Kw_NIL | _ => false end)) (
    None)))))).

Definition t_ParserSyntaxNilReports_typeLocationNil : option N :=
    step 581 (((parse true) "METAR ZZZZ NIL=" 200%nat)) (fun v1 => 
    chk 582 (Ok (ReportType_beq (md_type (pr_metadata v1)) RT_METAR)) (
    chk 583 (Ok (ReportError_beq (md_error (pr_metadata v1)) RE_NONE)) (
    chk 584 (Ok (N.eqb (N.of_nat (List.length (pr_groups v1))) 3%N)) (
    chk 585 (let! v2 := deref (List.nth_error (pr_groups v1) 0%nat) in Ok (match (gi_group v2) with GKeyword k => KwType_beq (kw_t k) Kw_METAR | _ => false end)) (
    chk 586 (let! v3 := deref (List.nth_error (pr_groups v1) 1%nat) in Ok (match (gi_group v3) with GLocation _ => true | _ => false end)) (
    chk 587 (let! v4 := deref (List.nth_error (pr_groups v1) 2%nat) in Ok (match (gi_group v4) with GKeyword k => KwType_beq (kw_t k) Kw_NIL | _ => false end)) (
    step 589 (((parse true) "TAF ZZZZ NIL=" 200%nat)) (fun v5 => 
    chk 590 (Ok (ReportType_beq (md_type (pr_metadata v5)) RT_TAF)) (
    chk 591 (Ok (ReportError_beq (md_error (pr_metadata v5)) RE_NONE)) (
    chk 592 (Ok (N.eqb (N.of_nat (List.length (pr_groups v5))) 3%N)) (
    chk 593 (let! v6 := deref (List.nth_error (pr_groups v5) 0%nat) in Ok (match (gi_group v6) with GKeyword k => KwType_beq (kw_t k) Kw_TAF | _ => false end)) (
    chk 594 (let! v7 := deref (List.nth_error (pr_groups v5) 1%nat) in Ok (match (gi_group v7) with GLocation _ => true | _ => false end)) (
    chk 595 (let! v8 := deref (List.nth_error (pr_groups v5) 2%nat) in Ok (match (gi_group v8) with GKeyword k => KwType_beq (kw_t k) Kw_NIL | _ => false end)) (
    None)))))))))))))).

Definition t_ParserSyntaxNilReports_corAmdLocationNil : option N :=
    step 599 (((parse true) "COR ZZZZ NIL=" 200%nat)) (fun v1 => 
    chk 600 (Ok (ReportType_beq (md_type (pr_metadata v1)) RT_UNKNOWN)) (
    chk 601 (Ok (ReportError_beq (md_error (pr_metadata v1)) RE_EXPECTED_REPORT_TYPE_OR_LOCATION)) (
    chk 602 (Ok (N.eqb (N.of_nat (List.length (pr_groups v1))) 1%N)) (
    chk 603 (let! v2 := deref (List.nth_error (pr_groups v1) 0%nat) in Ok (match (gi_group v2) with GKeyword k => KwType_beq (kw_t k) Kw_COR | _ => false end)) (
    step 605 (((parse true) "AMD ZZZZ NIL=" 200%nat)) (fun v3 => 
    chk 606 (Ok (ReportType_beq (md_type (pr_metadata v3)) RT_UNKNOWN)) (
    chk 607 (Ok (ReportError_beq (md_error (pr_metadata v3)) RE_EXPECTED_REPORT_TYPE_OR_LOCATION)) (
    chk 608 (Ok (N.eqb (N.of_nat (List.length (pr_groups v3))) 1%N)) (
    chk 609 (let! v4 := deref (List.nth_error (pr_groups v3) 0%nat) in Ok (match (gi_group v4) with GKeyword k => KwType_beq (kw_t k) Kw_AMD | _ => false end)) (
    None)))))))))).

Definition t_ParserSyntaxNilReports_metarCorLocationNil : option N :=
    step 613 (((parse true) "METAR COR ZZZZ NIL=" 200%nat)) (fun v1 => 
    chk 614 (Ok (ReportType_beq (md_type (pr_metadata v1)) RT_METAR)) (
    chk 615 (Ok (ReportError_beq (md_error (pr_metadata v1)) RE_NONE)) (
    chk 616 (Ok (N.eqb (N.of_nat (List.length (pr_groups v1))) 4%N)) (
    chk 617 (let! v2 := deref (List.nth_error (pr_groups v1) 0%nat) in Ok (match (gi_group v2) with GKeyword k => KwType_beq (kw_t k) Kw_METAR | _ => false end)) (
    chk 618 (let! v3 := deref (List.nth_error (pr_groups v1) 1%nat) in Ok (match (gi_group v3) with GKeyword k => KwType_beq (kw_t k) Kw_COR | _ => false end)) (
    chk 619 (let! v4 := deref (List.nth_error (pr_groups v1) 2%nat) in Ok (match (gi_group v4) with GLocation _ => true | _ => false end)) (
    chk 620 (let! v5 := deref (List.nth_error (pr_groups v1) 3%nat) in Ok (match (gi_group v5) with GKeyword k => KwType_beq (kw_t k) Kw_NIL | _ => false end)) (
    None)))))))).

Definition t_ParserSyntaxNilReports_tafCorLocationNil : option N :=
    step 624 (((parse true) "TAF COR ZZZZ NIL=" 200%nat)) (fun v1 => 
    chk 625 (Ok (ReportType_beq (md_type (pr_metadata v1)) RT_TAF)) (
    chk 626 (Ok (ReportError_beq (md_error (pr_metadata v1)) RE_NONE)) (
    chk 627 (Ok (N.eqb (N.of_nat (List.length (pr_groups v1))) 4%N)) (
    chk 628 (let! v2 := deref (List.nth_error (pr_groups v1) 0%nat) in Ok (match (gi_group v2) with GKeyword k => KwType_beq (kw_t k) Kw_TAF | _ => false end)) (
    chk 629 (let! v3 := deref (List.nth_error (pr_groups v1) 1%nat) in Ok (match (gi_group v3) with GKeyword k => KwType_beq (kw_t k) Kw_COR | _ => false end)) (
    chk 630 (let! v4 := deref (List.nth_error (pr_groups v1) 2%nat) in Ok (match (gi_group v4) with GLocation _ => true | _ => false end)) (
    chk 631 (let! v5 := deref (List.nth_error (pr_groups v1) 3%nat) in Ok (match (gi_group v5) with GKeyword k => KwType_beq (kw_t k) Kw_NIL | _ => false end)) (
    None)))))))).

Definition t_ParserSyntaxNilReports_metarAmdLocationNil : option N :=
    step 635 (((parse true) "METAR AMD ZZZZ NIL=" 200%nat)) (fun v1 => 
    chk 636 (Ok (ReportType_beq (md_type (pr_metadata v1)) RT_METAR)) (
    chk 637 (Ok (ReportError_beq (md_error (pr_metadata v1)) RE_AMD_ALLOWED_IN_TAF_ONLY)) (
    chk 638 (Ok (N.eqb (N.of_nat (List.length (pr_groups v1))) 2%N)) (
    chk 639 (let! v2 := deref (List.nth_error (pr_groups v1) 0%nat) in Ok (match (gi_group v2) with GKeyword k => KwType_beq (kw_t k) Kw_METAR | _ => false end)) (
    chk 640 (let! v3 := deref (List.nth_error (pr_groups v1) 1%nat) in Ok (match (gi_group v3) with GKeyword k => KwType_beq (kw_t k) Kw_AMD | _ => false end)) (
    None)))))).

Definition t_ParserSyntaxNilReports_tafAmdLocationNil : option N :=
    step 644 (((parse true) "TAF AMD ZZZZ NIL=" 200%nat)) (fun v1 => 
    chk 645 (Ok (ReportType_beq (md_type (pr_metadata v1)) RT_TAF)) (
    chk 646 (Ok (ReportError_beq (md_error (pr_metadata v1)) RE_NONE)) (
    chk 647 (Ok (N.eqb (N.of_nat (List.length (pr_groups v1))) 4%N)) (
    chk 648 (let! v2 := deref (List.nth_error (pr_groups v1) 0%nat) in Ok (match (gi_group v2) with GKeyword k => KwType_beq (kw_t k) Kw_TAF | _ => false end)) (
    chk 649 (let! v3 := deref (List.nth_error (pr_groups v1) 1%nat) in Ok (match (gi_group v3) with GKeyword k => KwType_beq (kw_t k) Kw_AMD | _ => false end)) (
    chk 650 (let! v4 := deref (List.nth_error (pr_groups v1) 2%nat) in Ok (match (gi_group v4) with GLocation _ => true | _ => false end)) (
    chk 651 (let! v5 := deref (List.nth_error (pr_groups v1) 3%nat) in Ok (match (gi_group v5) with GKeyword k => KwType_beq (kw_t k) Kw_NIL | _ => false end)) (
    None)))))))).

Definition t_ParserSyntaxNilReports_locationTimeNil : option N :=
    step 655 (((parse true) "ZZZZ 041115Z NIL=" 200%nat)) (fun v1 => 
    chk 656 (Ok (ReportType_beq (md_type (pr_metadata v1)) RT_UNKNOWN)) (
    chk 657 (Ok (ReportError_beq (md_error (pr_metadata v1)) RE_NONE)) (
    chk 658 (Ok (N.eqb (N.of_nat (List.length (pr_groups v1))) 3%N)) (
    chk 659 (let! v2 := deref (List.nth_error (pr_groups v1) 0%nat) in Ok (match (gi_group v2) with GLocation _ => true | _ => false end)) (
    chk 660 (let! v3 := deref (List.nth_error (pr_groups v1) 1%nat) in Ok (match (gi_group v3) with GReportTime _ => true | _ => false end)) (
    chk 661 (let! v4 := deref (List.nth_error (pr_groups v1) 2%nat) in Ok (match (gi_group v4) with GKeyword k => KwType_beq (kw_t k) Kw_NIL | _ => false end)) (
    None))))))).

Definition t_ParserSyntaxNilReports_typeLocationTimeNil : option N :=
    step 665 (((parse true) "METAR ZZZZ 041115Z NIL=" 200%nat)) (fun v1 => 
    chk 666 (Ok (ReportType_beq (md_type (pr_metadata v1)) RT_METAR)) (
    chk 667 (Ok (ReportError_beq (md_error (pr_metadata v1)) RE_NONE)) (
    chk 668 (Ok (N.eqb (N.of_nat (List.length (pr_groups v1))) 4%N)) (
    chk 669 (let! v2 := deref (List.nth_error (pr_groups v1) 0%nat) in Ok (match (gi_group v2) with GKeyword k => KwType_beq (kw_t k) Kw_METAR | _ => false end)) (
    chk 670 (let! v3 := deref (List.nth_error (pr_groups v1) 1%nat) in Ok (match (gi_group v3) with GLocation _ => true | _ => false end)) (
    chk 671 (let! v4 := deref (List.nth_error (pr_groups v1) 2%nat) in Ok (match (gi_group v4) with GReportTime _ => true | _ => false end)) (
    chk 672 (let! v5 := deref (List.nth_error (pr_groups v1) 3%nat) in Ok (match (gi_group v5) with GKeyword k => KwType_beq (kw_t k) Kw_NIL | _ => false end)) (
    step 674 (((parse true) "TAF ZZZZ 041115Z NIL=" 200%nat)) (fun v6 => 
    chk 675 (Ok (ReportType_beq (md_type (pr_metadata v6)) RT_TAF)) (
    chk 676 (Ok (ReportError_beq (md_error (pr_metadata v6)) RE_NONE)) (
    chk 677 (Ok (N.eqb (N.of_nat (List.length (pr_groups v6))) 4%N)) (
    chk 678 (let! v7 := deref (List.nth_error (pr_groups v6) 0%nat) in Ok (match (gi_group v7) with GKeyword k => KwType_beq (kw_t k) Kw_TAF | _ => false end)) (
    chk 679 (let! v8 := deref (List.nth_error (pr_groups v6) 1%nat) in Ok (match (gi_group v8) with GLocation _ => true | _ => false end)) (
    chk 680 (let! v9 := deref (List.nth_error (pr_groups v6) 2%nat) in Ok (match (gi_group v9) with GReportTime _ => true | _ => false end)) (
    chk 681 (let! v10 := deref (List.nth_error (pr_groups v6) 3%nat) in Ok (match (gi_group v10) with GKeyword k => KwType_beq (kw_t k) Kw_NIL | _ => false end)) (
    None)))))))))))))))).

Definition t_ParserSyntaxNilReports_typeCorAmdLocationTimeNil : option N :=
    step 685 (((parse true) "METAR COR ZZZZ 041115Z NIL=" 200%nat)) (fun v1 => 
    chk 686 (Ok (ReportType_beq (md_type (pr_metadata v1)) RT_METAR)) (
    chk 687 (Ok (ReportError_beq (md_error (pr_metadata v1)) RE_NONE)) (
    chk 688 (Ok (N.eqb (N.of_nat (List.length (pr_groups v1))) 5%N)) (
    chk 689 (let! v2 := deref (List.nth_error (pr_groups v1) 0%nat) in Ok (match (gi_group v2) with GKeyword k => KwType_beq (kw_t k) Kw_METAR | _ => false end)) (
    chk 690 (let! v3 := deref (List.nth_error (pr_groups v1) 1%nat) in Ok (match (gi_group v3) with GKeyword k => KwType_beq (kw_t k) Kw_COR | _ => false end)) (
    chk 691 (let! v4 := deref (List.nth_error (pr_groups v1) 2%nat) in Ok (match (gi_group v4) with GLocation _ => true | _ => false end)) (
    chk 692 (let! v5 := deref (List.nth_error (pr_groups v1) 3%nat) in Ok (match (gi_group v5) with GReportTime _ => true | _ => false end)) (
    chk 693 (let! v6 := deref (List.nth_error (pr_groups v1) 4%nat) in Ok (match (gi_group v6) with GKeyword k => KwType_beq (kw_t k) Kw_NIL | _ => false end)) (
    step 695 (((parse true) "TAF AMD ZZZZ 041115Z NIL=" 200%nat)) (fun v7 => 
    chk 696 (Ok (ReportType_beq (md_type (pr_metadata v7)) RT_TAF)) (
    chk 697 (Ok (ReportError_beq (md_error (pr_metadata v7)) RE_NONE)) (
    chk 698 (Ok (N.eqb (N.of_nat (List.length (pr_groups v7))) 5%N)) (
    chk 699 (let! v8 := deref (List.nth_error (pr_groups v7) 0%nat) in Ok (match (gi_group v8) with GKeyword k => KwType_beq (kw_t k) Kw_TAF | _ => false end)) (
    chk 700 (let! v9 := deref (List.nth_error (pr_groups v7) 1%nat) in Ok (match (gi_group v9) with GKeyword k => KwType_beq (kw_t k) Kw_AMD | _ => false end)) (
    chk 701 (let! v10 := deref (List.nth_error (pr_groups v7) 2%nat) in Ok (match (gi_group v10) with GLocation _ => true | _ => false end)) (
    chk 702 (let! v11 := deref (List.nth_error (pr_groups v7) 3%nat) in Ok (match (gi_group v11) with GReportTime _ => true | _ => false end)) (
    chk 703 (let! v12 := deref (List.nth_error (pr_groups v7) 4%nat) in Ok (match (gi_group v12) with GKeyword k => KwType_beq (kw_t k) Kw_NIL | _ => false end)) (
    None)))))))))))))))))).

Definition t_ParserSyntaxNilReports_strayGroupAfterNil : option N :=
    step 707 (((parse true) "METAR ZZZZ 041115Z NIL 9999=" 200%nat)) (fun v1 => 
    chk 708 (Ok (ReportType_beq (md_type (pr_metadata v1)) RT_METAR)) (
    chk 709 (Ok (ReportError_beq (md_error (pr_metadata v1)) RE_UNEXPECTED_GROUP_AFTER_NIL)) (
    chk 710 (Ok (N.eqb (N.of_nat (List.length (pr_groups v1))) 5%N)) (
    chk 711 (let! v2 := deref (List.nth_error (pr_groups v1) 0%nat) in Ok (match (gi_group v2) with GKeyword k => KwType_beq (kw_t k) Kw_METAR | _ => false end)) (
    chk 712 (let! v3 := deref (List.nth_error (pr_groups v1) 1%nat) in Ok (match (gi_group v3) with GLocation _ => true | _ => false end)) (
    chk 713 (let! v4 := deref (List.nth_error (pr_groups v1) 2%nat) in Ok (match (gi_group v4) with GReportTime _ => true | _ => false end)) (
    chk 714 (let! v5 := deref (List.nth_error (pr_groups v1) 3%nat) in Ok (match (gi_group v5) with GKeyword k => KwType_beq (kw_t k) Kw_NIL | _ => false end)) (
    chk 715 (let! v6 := deref (List.nth_error (pr_groups v1) 4%nat) in Ok (match (gi_group v6) with GUnknown _ => true | _ => false end)) (
    step 717 (((parse true) "TAF ZZZZ 041115Z NIL 9999=" 200%nat)) (fun v7 => 
    chk 718 (Ok (ReportType_beq (md_type (pr_metadata v7)) RT_TAF)) (
    chk 719 (Ok (ReportError_beq (md_error (pr_metadata v7)) RE_UNEXPECTED_GROUP_AFTER_NIL)) (
    chk 720 (Ok (N.eqb (N.of_nat (List.length (pr_groups v7))) 5%N)) (
    chk 721 (let! v8 := deref (List.nth_error (pr_groups v7) 0%nat) in Ok (match (gi_group v8) with GKeyword k => KwType_beq (kw_t k) Kw_TAF | _ => false end)) (
    chk 722 (let! v9 := deref (List.nth_error (pr_groups v7) 1%nat) in Ok (match (gi_group v9) with GLocation _ => true | _ => false end)) (
    chk 723 (let! v10 := deref (List.nth_error (pr_groups v7) 2%nat) in Ok (match (gi_group v10) with GReportTime _ => true | _ => false end)) (
    chk 724 (let! v11 := deref (List.nth_error (pr_groups v7) 3%nat) in Ok (match (gi_group v11) with GKeyword k => KwType_beq (kw_t k) Kw_NIL | _ => false end)) (
    chk 725 (let! v12 := deref (List.nth_error (pr_groups v7) 4%nat) in Ok (match (gi_group v12) with GUnknown _ => true | _ => false end)) (
    step 727 (((parse true) "ZZZZ 041115Z NIL 9999=" 200%nat)) (fun v13 => 
    chk 728 (Ok (ReportType_beq (md_type (pr_metadata v13)) RT_UNKNOWN)) (
    chk 729 (Ok (ReportError_beq (md_error (pr_metadata v13)) RE_UNEXPECTED_GROUP_AFTER_NIL)) (
    chk 730 (Ok (N.eqb (N.of_nat (List.length (pr_groups v13))) 4%N)) (
    chk 731 (let! v14 := deref (List.nth_error (pr_groups v13) 0%nat) in Ok (match (gi_group v14) with GLocation _ => true | _ => false end)) (
    chk 732 (let! v15 := deref (List.nth_error (pr_groups v13) 1%nat) in Ok (match (gi_group v15) with GReportTime _ => true | _ => false end)) (
    chk 733 (let! v16 := deref (List.nth_error (pr_groups v13) 2%nat) in Ok (match (gi_group v16) with GKeyword k => KwType_beq (kw_t k) Kw_NIL | _ => false end)) (
    chk 734 (let! v17 := deref (List.nth_error (pr_groups v13) 3%nat) in Ok (match (gi_group v17) with GUnknown _ => true | _ => false end)) (
    None)))))))))))))))))))))))))).

Definition t_ParserSyntaxNilReports_strayNilInReportBody : option N :=
    step 738 (((parse true) "METAR ZZZZ 041115Z 24005KT 9999 NIL FEW040 25/18 Q1011 NOSIG=" 200%nat)) (fun v1 => 
    chk 739 (Ok (ReportType_beq (md_type (pr_metadata v1)) RT_METAR)) (
    chk 740 (Ok (ReportError_beq (md_error (pr_metadata v1)) RE_UNEXPECTED_NIL_OR_CNL_IN_REPORT_BODY)) (
    chk 741 (Ok (N.eqb (N.of_nat (List.length (pr_groups v1))) 6%N)) (
    chk 742 (let! v2 := deref (List.nth_error (pr_groups v1) 0%nat) in Ok (match (gi_group v2) with GKeyword k => KwType_beq (kw_t k) Kw_METAR | _ => false end)) (
    chk 743 (let! v3 := deref (List.nth_error (pr_groups v1) 1%nat) in Ok (match (gi_group v3) with GLocation _ => true | _ => false end)) (
    chk 744 (let! v4 := deref (List.nth_error (pr_groups v1) 2%nat) in Ok (match (gi_group v4) with GReportTime _ => true | _ => false end)) (
    chk 745 (let! v5 := deref (List.nth_error (pr_groups v1) 3%nat) in Ok (match (gi_group v5) with GWind _ => true | _ => false end)) (
    chk 746 (let! v6 := deref (List.nth_error (pr_groups v1) 4%nat) in Ok (match (gi_group v6) with GVisibility _ => true | _ => false end)) (
    chk 747 (let! v7 := deref (List.nth_error (pr_groups v1) 5%nat) in Ok (match (gi_group v7) with GKeyword k => KwType_beq (kw_t k) Kw_NIL | _ => false end)) (
    step 749 (((parse true) "TAF ZZZZ 041115Z 0412/0512 24005KT NIL 10SM FEW250=" 200%nat)) (fun v8 => 
    chk 750 (Ok (ReportType_beq (md_type (pr_metadata v8)) RT_TAF)) (
    chk 751 (Ok (ReportError_beq (md_error (pr_metadata v8)) RE_UNEXPECTED_NIL_OR_CNL_IN_REPORT_BODY)) (
    chk 752 (Ok (N.eqb (N.of_nat (List.length (pr_groups v8))) 6%N)) (
    chk 753 (let! v9 := deref (List.nth_error (pr_groups v8) 0%nat) in Ok (match (gi_group v9) with GKeyword k => KwType_beq (kw_t k) Kw_TAF | _ => false end)) (
    chk 754 (let! v10 := deref (List.nth_error (pr_groups v8) 1%nat) in Ok (match (gi_group v10) with GLocation _ => true | _ => false end)) (
    chk 755 (let! v11 := deref (List.nth_error (pr_groups v8) 2%nat) in Ok (match (gi_group v11) with GReportTime _ => true | _ => false end)) (
    chk 756 (let! v12 := deref (List.nth_error (pr_groups v8) 3%nat) in Ok (match (gi_group v12) with GTrend k => Trend_isTimeSpanGroup k | _ => false end)) (
    chk 757 (let! v13 := deref (List.nth_error (pr_groups v8) 4%nat) in Ok (match (gi_group v13) with GWind _ => true | _ => false end)) (
    chk 758 (let! v14 := deref (List.nth_error (pr_groups v8) 5%nat) in Ok (match (gi_group v14) with GKeyword k => KwType_beq (kw_t k) Kw_NIL | _ => false end)) (
    step 760 (((parse true) "ZZZZ 041115Z 24005KT 9999 NIL FEW040 25/18 Q1011 NOSIG=" 200%nat)) (fun v15 => 
    chk 761 (Ok (ReportType_beq (md_type (pr_metadata v15)) RT_METAR)) (
    chk 762 (Ok (ReportError_beq (md_error (pr_metadata v15)) RE_UNEXPECTED_NIL_OR_CNL_IN_REPORT_BODY)) (
    chk 763 (Ok (N.eqb (N.of_nat (List.length (pr_groups v15))) 5%N)) (
    chk 764 (let! v16 := deref (List.nth_error (pr_groups v15) 0%nat) in Ok (match (gi_group v16) with GLocation _ => true | _ => false end)) (
    chk 765 (let! v17 := deref (List.nth_error (pr_groups v15) 1%nat) in Ok (match (gi_group v17) with GReportTime _ => true | _ => false end)) (
    chk 766 (let! v18 := deref (List.nth_error (pr_groups v15) 2%nat) in Ok (match (gi_group v18) with GWind _ => true | _ => false end)) (
    chk 767 (let! v19 := deref (List.nth_error (pr_groups v15) 3%nat) in Ok (match (gi_group v19) with GVisibility _ => true | _ => false end)) (
    chk 768 (let! v20 := deref (List.nth_error (pr_groups v15) 4%nat) in Ok (match (gi_group v20) with GKeyword k => KwType_beq (kw_t k) Kw_NIL | _ => false end)) (
    None))))))))))))))))))))))))))))).

Definition t_ParserSyntaxNilReports_typeLocationTimeTimespanNil : option N :=
    step 772 (((parse true) "TAF ZZZZ 041115Z 0415/0424 NIL=" 200%nat)) (fun v1 => 
    chk 773 (Ok (ReportType_beq (md_type (pr_metadata v1)) RT_TAF)) (
    chk 774 (Ok (ReportError_beq (md_error (pr_metadata v1)) RE_NONE)) (
    chk 775 (Ok (N.eqb (N.of_nat (List.length (pr_groups v1))) 5%N)) (
    chk 776 (let! v2 := deref (List.nth_error (pr_groups v1) 0%nat) in Ok (match (gi_group v2) with GKeyword k => KwType_beq (kw_t k) Kw_TAF | _ => false end)) (
    chk 777 (let! v3 := deref (List.nth_error (pr_groups v1) 1%nat) in Ok (match (gi_group v3) with GLocation _ => true | _ => false end)) (
    chk 778 (let! v4 := deref (List.nth_error (pr_groups v1) 2%nat) in Ok (match (gi_group v4) with GReportTime _ => true | _ => false end)) (
    chk 779 (let! v5 := deref (List.nth_error (pr_groups v1) 3%nat) in Ok (match (gi_group v5) with GTrend k => Trend_isTimeSpanGroup k | _ => false end)) (
    chk 780 (let! v6 := deref (List.nth_error (pr_groups v1) 4%nat) in Ok (match (gi_group v6) with GKeyword k => KwType_beq (kw_t k) Kw_NIL | _ => false end)) (
    None))))))))).

Definition t_ParserSyntaxNilReports_typeCorAmdLocationTimeTimespanNil : option N :=
    step 784 (((parse true) "TAF COR ZZZZ 041115Z 0415/0424 NIL=" 200%nat)) (fun v1 => 
    chk 785 (Ok (ReportType_beq (md_type (pr_metadata v1)) RT_TAF)) (
    chk 786 (Ok (ReportError_beq (md_error (pr_metadata v1)) RE_NONE)) (
    chk 787 (Ok (N.eqb (N.of_nat (List.length (pr_groups v1))) 6%N)) (
    chk 788 (let! v2 := deref (List.nth_error (pr_groups v1) 0%nat) in Ok (match (gi_group v2) with GKeyword k => KwType_beq (kw_t k) Kw_TAF | _ => false end)) (
    chk 789 (let! v3 := deref (List.nth_error (pr_groups v1) 1%nat) in Ok (match (gi_group v3) with GKeyword k => KwType_beq (kw_t k) Kw_COR | _ => false end)) (
    chk 790 (let! v4 := deref (List.nth_error (pr_groups v1) 2%nat) in Ok (match (gi_group v4) with GLocation _ => true | _ => false end)) (
    chk 791 (let! v5 := deref (List.nth_error (pr_groups v1) 3%nat) in Ok (match (gi_group v5) with GReportTime _ => true | _ => false end)) (
    chk 792 (let! v6 := deref (List.nth_error (pr_groups v1) 4%nat) in Ok (match (gi_group v6) with GTrend k => Trend_isTimeSpanGroup k | _ => false end)) (
    chk 793 (let! v7 := deref (List.nth_error (pr_groups v1) 5%nat) in Ok (match (gi_group v7) with GKeyword k => KwType_beq (kw_t k) Kw_NIL | _ => false end)) (
    step 795 (((parse true) "TAF AMD ZZZZ 041115Z 0415/0424 NIL=" 200%nat)) (fun v8 => 
    chk 796 (Ok (ReportType_beq (md_type (pr_metadata v8)) RT_TAF)) (
    chk 797 (Ok (ReportError_beq (md_error (pr_metadata v8)) RE_NONE)) (
    chk 798 (Ok (N.eqb (N.of_nat (List.length (pr_groups v8))) 6%N)) (
    chk 799 (let! v9 := deref (List.nth_error (pr_groups v8) 0%nat) in Ok (match (gi_group v9) with GKeyword k => KwType_beq (kw_t k) Kw_TAF | _ => false end)) (
    chk 800 (let! v10 := deref (List.nth_error (pr_groups v8) 1%nat) in Ok (match (gi_group v10) with GKeyword k => KwType_beq (kw_t k) Kw_AMD | _ => false end)) (
    chk 801 (let! v11 := deref (List.nth_error (pr_groups v8) 2%nat) in Ok (match (gi_group v11) with GLocation _ => true | _ => false end)) (
    chk 802 (let! v12 := deref (List.nth_error (pr_groups v8) 3%nat) in Ok (match (gi_group v12) with GReportTime _ => true | _ => false end)) (
    chk 803 (let! v13 := deref (List.nth_error (pr_groups v8) 4%nat) in Ok (match (gi_group v13) with GTrend k => Trend_isTimeSpanGroup k | _ => false end)) (
    chk 804 (let! v14 := deref (List.nth_error (pr_groups v8) 5%nat) in Ok (match (gi_group v14) with GKeyword k => KwType_beq (kw_t k) Kw_NIL | _ => false end)) (
    None)))))))))))))))))))).

Definition t_ParserSyntaxCancelledReports_typeLocationCnl : option N :=
    step 815 (((parse true) "METAR ZZZZ CNL=" 200%nat)) (fun v1 => 
    chk 816 (Ok (ReportType_beq (md_type (pr_metadata v1)) RT_METAR)) (
    chk 817 (Ok (ReportError_beq (md_error (pr_metadata v1)) RE_EXPECTED_REPORT_TIME)) (
    chk 818 (Ok (N.eqb (N.of_nat (List.length (pr_groups v1))) 3%N)) (
    chk 819 (let! v2 := deref (List.nth_error (pr_groups v1) 0%nat) in Ok (match (gi_group v2) with GKeyword k => KwType_beq (kw_t k) Kw_METAR | _ => false end)) (
    chk 820 (let! v3 := deref (List.nth_error (pr_groups v1) 1%nat) in Ok (match (gi_group v3) with GLocation _ => true | _ => false end)) (
    chk 821 (let! v4 := deref (List.nth_error (pr_groups v1) 2%nat) in Ok (match (gi_group v4) with GKeyword k => KwType_beq (kw_t k) Kw_CNL | _ => false end)) (
    step 823 (((parse true) "TAF ZZZZ CNL=" 200%nat)) (fun v5 => 
    chk 824 (Ok (ReportType_beq (md_type (pr_metadata v5)) RT_TAF)) (
    chk 825 (Ok (ReportError_beq (md_error (pr_metadata v5)) RE_EXPECTED_REPORT_TIME)) (
    chk 826 (Ok (N.eqb (N.of_nat (List.length (pr_groups v5))) 3%N)) (
    chk 827 (let! v6 := deref (List.nth_error (pr_groups v5) 0%nat) in Ok (match (gi_group v6) with GKeyword k => KwType_beq (kw_t k) Kw_TAF | _ => false end)) (
    chk 828 (let! v7 := deref (List.nth_error (pr_groups v5) 1%nat) in Ok (match (gi_group v7) with GLocation _ => true | _ => false end)) (
    chk 829 (let! v8 := deref (List.nth_error (pr_groups v5) 2%nat) in Ok (match (gi_group v8) with GKeyword k => KwType_beq (kw_t k) Kw_CNL | _ => false end)) (
    None)))))))))))))).

Definition t_ParserSyntaxCancelledReports_typeLocationTimeCnl : option N :=
    step 833 (((parse true) "METAR ZZZZ 041115Z CNL=" 200%nat)) (fun v1 => 
    chk 834 (Ok (ReportType_beq (md_type (pr_metadata v1)) RT_METAR)) (
    chk 835 (Ok (ReportError_beq (md_error (pr_metadata v1)) RE_CNL_ALLOWED_IN_TAF_ONLY)) (
    chk 836 (Ok (N.eqb (N.of_nat (List.length (pr_groups v1))) 4%N)) (
    chk 837 (let! v2 := deref (List.nth_error (pr_groups v1) 0%nat) in Ok (match (gi_group v2) with GKeyword k => KwType_beq (kw_t k) Kw_METAR | _ => false end)) (
    chk 838 (let! v3 := deref (List.nth_error (pr_groups v1) 1%nat) in Ok (match (gi_group v3) with GLocation _ => true | _ => false end)) (
    chk 839 (let! v4 := deref (List.nth_error (pr_groups v1) 2%nat) in Ok (match (gi_group v4) with GReportTime _ => true | _ => false end)) (
    chk 840 (let! v5 := deref (List.nth_error (pr_groups v1) 3%nat) in Ok (match (gi_group v5) with GKeyword k => KwType_beq (kw_t k) Kw_CNL | _ => false end)) (
    step 842 (((parse true) "TAF ZZZZ 041115Z CNL=" 200%nat)) (fun v6 => 
    chk 843 (Ok (ReportType_beq (md_type (pr_metadata v6)) RT_TAF)) (
    chk 844 (Ok (ReportError_beq (md_error (pr_metadata v6)) RE_EXPECTED_TIME_SPAN)) (
    chk 845 (Ok (N.eqb (N.of_nat (List.length (pr_groups v6))) 4%N)) (
    chk 846 (let! v7 := deref (List.nth_error (pr_groups v6) 0%nat) in Ok (match (gi_group v7) with GKeyword k => KwType_beq (kw_t k) Kw_TAF | _ => false end)) (
    chk 847 (let! v8 := deref (List.nth_error (pr_groups v6) 1%nat) in Ok (match (gi_group v8) with GLocation _ => true | _ => false end)) (
    chk 848 (let! v9 := deref (List.nth_error (pr_groups v6) 2%nat) in Ok (match (gi_group v9) with GReportTime _ => true | _ => false end)) (
    chk 849 (let! v10 := deref (List.nth_error (pr_groups v6) 3%nat) in Ok (match (gi_group v10) with GKeyword k => KwType_beq (kw_t k) Kw_CNL | _ => false end)) (
    None)))))))))))))))).

Definition t_ParserSyntaxCancelledReports_strayGroupAfterCnl : option N :=
    step 853 (((parse true) "TAF ZZZZ 041115Z 0415/0424 CNL 9999=" 200%nat)) (fun v1 => 
    chk 854 (Ok (ReportType_beq (md_type (pr_metadata v1)) RT_TAF)) (
    chk 855 (Ok (ReportError_beq (md_error (pr_metadata v1)) RE_UNEXPECTED_GROUP_AFTER_CNL)) (
    chk 856 (Ok (N.eqb (N.of_nat (List.length (pr_groups v1))) 6%N)) (
    chk 857 (let! v2 := deref (List.nth_error (pr_groups v1) 0%nat) in Ok (match (gi_group v2) with GKeyword k => KwType_beq (kw_t k) Kw_TAF | _ => false end)) (
    chk 858 (let! v3 := deref (List.nth_error (pr_groups v1) 1%nat) in Ok (match (gi_group v3) with GLocation _ => true | _ => false end)) (
    chk 859 (let! v4 := deref (List.nth_error (pr_groups v1) 2%nat) in Ok (match (gi_group v4) with GReportTime _ => true | _ => false end)) (
    chk 860 (let! v5 := deref (List.nth_error (pr_groups v1) 3%nat) in Ok (match (gi_group v5) with GTrend k => Trend_isTimeSpanGroup k | _ => false end)) (
    chk 861 (let! v6 := deref (List.nth_error (pr_groups v1) 4%nat) in Ok (match (gi_group v6) with GKeyword k => KwType_beq (kw_t k) Kw_CNL | _ => false end)) (
    chk 862 (let! v7 := deref (List.nth_error (pr_groups v1) 5%nat) in Ok (match (gi_group v7) with GUnknown _ => true | _ => false end)) (
    None)))))))))).

Definition t_ParserSyntaxCancelledReports_strayCnlInReportBody : option N :=
    step 866 (((parse true) "TAF ZZZZ 041115Z 0412/0512 24005KT CNL 10SM FEW250=" 200%nat)) (fun v1 => 
    chk 867 (Ok (ReportType_beq (md_type (pr_metadata v1)) RT_TAF)) (
    chk 868 (Ok (ReportError_beq (md_error (pr_metadata v1)) RE_UNEXPECTED_NIL_OR_CNL_IN_REPORT_BODY)) (
    chk 869 (Ok (N.eqb (N.of_nat (List.length (pr_groups v1))) 6%N)) (
    chk 870 (let! v2 := deref (List.nth_error (pr_groups v1) 0%nat) in Ok (match (gi_group v2) with GKeyword k => KwType_beq (kw_t k) Kw_TAF | _ => false end)) (
    chk 871 (let! v3 := deref (List.nth_error (pr_groups v1) 1%nat) in Ok (match (gi_group v3) with GLocation _ => true | _ => false end)) (
    chk 872 (let! v4 := deref (List.nth_error (pr_groups v1) 2%nat) in Ok (match (gi_group v4) with GReportTime _ => true | _ => false end)) (
    chk 873 (let! v5 := deref (List.nth_error (pr_groups v1) 3%nat) in Ok (match (gi_group v5) with GTrend k => Trend_isTimeSpanGroup k | _ => false end)) (
    chk 874 (let! v6 := deref (List.nth_error (pr_groups v1) 4%nat) in Ok (match (gi_group v6) with GWind _ => true | _ => false end)) (
    chk 875 (let! v7 := deref (List.nth_error (pr_groups v1) 5%nat) in Ok (match (gi_group v7) with GKeyword k => KwType_beq (kw_t k) Kw_CNL | _ => false end)) (
    None)))))))))).

Definition t_ParserSyntaxCancelledReports_strayCnlInMetar : option N :=
    step 879 (((parse true) "METAR ZZZZ 041115Z 24005KT 9999 CNL FEW040 25/18 Q1011 NOSIG=" 200%nat)) (fun v1 => 
    chk 880 (Ok (ReportType_beq (md_type (pr_metadata v1)) RT_METAR)) (
    chk 881 (Ok (ReportError_beq (md_error (pr_metadata v1)) RE_UNEXPECTED_NIL_OR_CNL_IN_REPORT_BODY)) (
    chk 882 (Ok (N.eqb (N.of_nat (List.length (pr_groups v1))) 6%N)) (
    chk 883 (let! v2 := deref (List.nth_error (pr_groups v1) 0%nat) in Ok (match (gi_group v2) with GKeyword k => KwType_beq (kw_t k) Kw_METAR | _ => false end)) (
    chk 884 (let! v3 := deref (List.nth_error (pr_groups v1) 1%nat) in Ok (match (gi_group v3) with GLocation _ => true | _ => false end)) (
    chk 885 (let! v4 := deref (List.nth_error (pr_groups v1) 2%nat) in Ok (match (gi_group v4) with GReportTime _ => true | _ => false end)) (
    chk 886 (let! v5 := deref (List.nth_error (pr_groups v1) 3%nat) in Ok (match (gi_group v5) with GWind _ => true | _ => false end)) (
    chk 887 (let! v6 := deref (List.nth_error (pr_groups v1) 4%nat) in Ok (match (gi_group v6) with GVisibility _ => true | _ => false end)) (
    chk 888 (let! v7 := deref (List.nth_error (pr_groups v1) 5%nat) in Ok (match (gi_group v7) with GKeyword k => KwType_beq (kw_t k) Kw_CNL | _ => false end)) (
    None)))))))))).

Definition t_ParserSyntaxCancelledReports_typeLocationTimeTimespanCnl : option N :=
    step 892 (((parse true) "TAF ZZZZ 041115Z 0415/0424 CNL=" 200%nat)) (fun v1 => 
    chk 893 (Ok (ReportType_beq (md_type (pr_metadata v1)) RT_TAF)) (
    chk 894 (Ok (ReportError_beq (md_error (pr_metadata v1)) RE_NONE)) (
    chk 895 (Ok (N.eqb (N.of_nat (List.length (pr_groups v1))) 5%N)) (
    chk 896 (let! v2 := deref (List.nth_error (pr_groups v1) 0%nat) in Ok (match (gi_group v2) with GKeyword k => KwType_beq (kw_t k) Kw_TAF | _ => false end)) (
    chk 897 (let! v3 := deref (List.nth_error (pr_groups v1) 1%nat) in Ok (match (gi_group v3) with GLocation _ => true | _ => false end)) (
    chk 898 (let! v4 := deref (List.nth_error (pr_groups v1) 2%nat) in Ok (match (gi_group v4) with GReportTime _ => true | _ => false end)) (
    chk 899 (let! v5 := deref (List.nth_error (pr_groups v1) 3%nat) in Ok (match (gi_group v5) with GTrend k => Trend_isTimeSpanGroup k | _ => false end)) (
    chk 900 (let! v6 := deref (List.nth_error (pr_groups v1) 4%nat) in Ok (match (gi_group v6) with GKeyword k => KwType_beq (kw_t k) Kw_CNL | _ => false end)) (
    None))))))))).

Definition t_ParserSyntaxCancelledReports_typeCorAmdLocationTimeTimespanCnl : option N :=
    step 904 (((parse true) "TAF COR ZZZZ 041115Z 0415/0424 CNL=" 200%nat)) (fun v1 => 
    chk 905 (Ok (ReportType_beq (md_type (pr_metadata v1)) RT_TAF)) (
    chk 906 (Ok (ReportError_beq (md_error (pr_metadata v1)) RE_NONE)) (
    chk 907 (Ok (N.eqb (N.of_nat (List.length (pr_groups v1))) 6%N)) (
    chk 908 (let! v2 := deref (List.nth_error (pr_groups v1) 0%nat) in Ok (match (gi_group v2) with GKeyword k => KwType_beq (kw_t k) Kw_TAF | _ => false end)) (
    chk 909 (let! v3 := deref (List.nth_error (pr_groups v1) 1%nat) in Ok (match (gi_group v3) with GKeyword k => KwType_beq (kw_t k) Kw_COR | _ => false end)) (
    chk 910 (let! v4 := deref (List.nth_error (pr_groups v1) 2%nat) in Ok (match (gi_group v4) with GLocation _ => true | _ => false end)) (
    chk 911 (let! v5 := deref (List.nth_error (pr_groups v1) 3%nat) in Ok (match (gi_group v5) with GReportTime _ => true | _ => false end)) (
    chk 912 (let! v6 := deref (List.nth_error (pr_groups v1) 4%nat) in Ok (match (gi_group v6) with GTrend k => Trend_isTimeSpanGroup k | _ => false end)) (
    chk 913 (let! v7 := deref (List.nth_error (pr_groups v1) 5%nat) in Ok (match (gi_group v7) with GKeyword k => KwType_beq (kw_t k) Kw_CNL | _ => false end)) (
    step 915 (((parse true) "TAF AMD ZZZZ 041115Z 0415/0424 CNL=" 200%nat)) (fun v8 => 
    chk 916 (Ok (ReportType_beq (md_type (pr_metadata v8)) RT_TAF)) (
    chk 917 (Ok (ReportError_beq (md_error (pr_metadata v8)) RE_NONE)) (
    chk 918 (Ok (N.eqb (N.of_nat (List.length (pr_groups v8))) 6%N)) (
    chk 919 (let! v9 := deref (List.nth_error (pr_groups v8) 0%nat) in Ok (match (gi_group v9) with GKeyword k => KwType_beq (kw_t k) Kw_TAF | _ => false end)) (
    chk 920 (let! v10 := deref (List.nth_error (pr_groups v8) 1%nat) in Ok (match (gi_group v10) with GKeyword k => KwType_beq (kw_t k) Kw_AMD | _ => false end)) (
    chk 921 (let! v11 := deref (List.nth_error (pr_groups v8) 2%nat) in Ok (match (gi_group v11) with GLocation _ => true | _ => false end)) (
    chk 922 (let! v12 := deref (List.nth_error (pr_groups v8) 3%nat) in Ok (match (gi_group v12) with GReportTime _ => true | _ => false end)) (
    chk 923 (let! v13 := deref (List.nth_error (pr_groups v8) 4%nat) in Ok (match (gi_group v13) with GTrend k => Trend_isTimeSpanGroup k | _ => false end)) (
    chk 924 (let! v14 := deref (List.nth_error (pr_groups v8) 5%nat) in Ok (match (gi_group v14) with GKeyword k => KwType_beq (kw_t k) Kw_CNL | _ => false end)) (
    None)))))))))))))))))))).

Definition t_ParserSyntaxValidMetarReports_plainReports : option N :=
    step 934 (((parse true) "METAR ZZZZ 041115Z 24005KT 9999 FEW040 25/18 Q1011 NOSIG=" 200%nat)) (fun v1 => 
    chk 935 (Ok (ReportType_beq (md_type (pr_metadata v1)) RT_METAR)) (
    chk 936 (Ok (ReportError_beq (md_error (pr_metadata v1)) RE_NONE)) (
    chk 937 (Ok (N.eqb (N.of_nat (List.length (pr_groups v1))) 9%N)) (
    chk 938 (let! v2 := deref (List.nth_error (pr_groups v1) 0%nat) in Ok (match (gi_group v2) with GKeyword k => KwType_beq (kw_t k) Kw_METAR | _ => false end)) (
    chk 939 (let! v3 := deref (List.nth_error (pr_groups v1) 1%nat) in Ok (match (gi_group v3) with GLocation _ => true | _ => false end)) (
    chk 940 (let! v4 := deref (List.nth_error (pr_groups v1) 2%nat) in Ok (match (gi_group v4) with GReportTime _ => true | _ => false end)) (
    chk 941 (let! v5 := deref (List.nth_error (pr_groups v1) 3%nat) in Ok (match (gi_group v5) with GWind _ => true | _ => false end)) (
    chk 942 (let! v6 := deref (List.nth_error (pr_groups v1) 4%nat) in Ok (match (gi_group v6) with GVisibility _ => true | _ => false end)) (
    chk 943 (let! v7 := deref (List.nth_error (pr_groups v1) 5%nat) in Ok (match (gi_group v7) with GCloud _ => true | _ => false end)) (
    chk 944 (let! v8 := deref (List.nth_error (pr_groups v1) 6%nat) in Ok (match (gi_group v8) with GTemperature _ => true | _ => false end)) (
    chk 945 (let! v9 := deref (List.nth_error (pr_groups v1) 7%nat) in Ok (match (gi_group v9) with GPressure _ => true | _ => false end)) (
    chk 946 (let! v10 := deref (List.nth_error (pr_groups v1) 8%nat) in Ok (match (gi_group v10) with GTrend _ => true | _ => false end)) (
    step 948 (((parse true) "SPECI ZZZZ 041115Z 24005KT 9999 FEW040 25/18 Q1011 NOSIG=" 200%nat)) (fun v11 => 
    chk 949 (Ok (ReportType_beq (md_type (pr_metadata v11)) RT_METAR)) (
    chk 950 (Ok (ReportError_beq (md_error (pr_metadata v11)) RE_NONE)) (
    chk 951 (Ok (N.eqb (N.of_nat (List.length (pr_groups v11))) 9%N)) (
    chk 952 (let! v12 := deref (List.nth_error (pr_groups v11) 0%nat) in Ok (match (gi_group v12) with GKeyword k => KwType_beq (kw_t k) Kw_SPECI | _ => false end)) (
    chk 953 (let! v13 := deref (List.nth_error (pr_groups v11) 1%nat) in Ok (match (gi_group v13) with GLocation _ => true | _ => false end)) (
    chk 954 (let! v14 := deref (List.nth_error (pr_groups v11) 2%nat) in Ok (match (gi_group v14) with GReportTime _ => true | _ => false end)) (
    chk 955 (let! v15 := deref (List.nth_error (pr_groups v11) 3%nat) in Ok (match (gi_group v15) with GWind _ => true | _ => false end)) (
    chk 956 (let! v16 := deref (List.nth_error (pr_groups v11) 4%nat) in Ok (match (gi_group v16) with GVisibility _ => true | _ => false end)) (
    chk 957 (let! v17 := deref (List.nth_error (pr_groups v11) 5%nat) in Ok (match (gi_group v17) with GCloud _ => true | _ => false end)) (
    chk 958 (let! v18 := deref (List.nth_error (pr_groups v11) 6%nat) in Ok (match (gi_group v18) with GTemperature _ => true | _ => false end)) (
    chk 959 (let! v19 := deref (List.nth_error (pr_groups v11) 7%nat) in Ok (match (gi_group v19) with GPressure _ => true | _ => false end)) (
    chk 960 (let! v20 := deref (List.nth_error (pr_groups v11) 8%nat) in Ok (match (gi_group v20) with GTrend _ => true | _ => false end)) (
    step 962 (((parse true) "METAR ZZZZ 041115Z 24005KT 5000 RASN 01/01 Q0980=" 200%nat)) (fun v21 => 
    chk 963 (Ok (ReportType_beq (md_type (pr_metadata v21)) RT_METAR)) (
    chk 964 (Ok (ReportError_beq (md_error (pr_metadata v21)) RE_NONE)) (
    chk 965 (Ok (N.eqb (N.of_nat (List.length (pr_groups v21))) 8%N)) (
    chk 966 (let! v22 := deref (List.nth_error (pr_groups v21) 0%nat) in Ok (match (gi_group v22) with GKeyword k => KwType_beq (kw_t k) Kw_METAR | _ => false end)) (
    chk 967 (let! v23 := deref (List.nth_error (pr_groups v21) 1%nat) in Ok (match (gi_group v23) with GLocation _ => true | _ => false end)) (
    chk 968 (let! v24 := deref (List.nth_error (pr_groups v21) 2%nat) in Ok (match (gi_group v24) with GReportTime _ => true | _ => false end)) (
    chk 969 (let! v25 := deref (List.nth_error (pr_groups v21) 3%nat) in Ok (match (gi_group v25) with GWind _ => true | _ => false end)) (
    chk 970 (let! v26 := deref (List.nth_error (pr_groups v21) 4%nat) in Ok (match (gi_group v26) with GVisibility _ => true | _ => false end)) (
    chk 971 (let! v27 := deref (List.nth_error (pr_groups v21) 5%nat) in Ok (match (gi_group v27) with GWeather _ => true | _ => false end)) (
    chk 972 (let! v28 := deref (List.nth_error (pr_groups v21) 6%nat) in Ok (match (gi_group v28) with GTemperature _ => true | _ => false end)) (
    chk 973 (let! v29 := deref (List.nth_error (pr_groups v21) 7%nat) in Ok (match (gi_group v29) with GPressure _ => true | _ => false end)) (
    None)))))))))))))))))))))))))))))))))))))).

Definition t_ParserSyntaxValidMetarReports_correctionalReports : option N :=
    step 977 (((parse true) "METAR COR ZZZZ 041115Z 24005KT 9999 FEW040 25/18 Q1011 NOSIG=" 200%nat)) (fun v1 => 
    chk 978 (Ok (ReportType_beq (md_type (pr_metadata v1)) RT_METAR)) (
    chk 979 (Ok (ReportError_beq (md_error (pr_metadata v1)) RE_NONE)) (
    chk 980 (Ok (N.eqb (N.of_nat (List.length (pr_groups v1))) 10%N)) (
    chk 981 (let! v2 := deref (List.nth_error (pr_groups v1) 0%nat) in Ok (match (gi_group v2) with GKeyword k => KwType_beq (kw_t k) Kw_METAR | _ => false end)) (
    chk 982 (let! v3 := deref (List.nth_error (pr_groups v1) 1%nat) in Ok (match (gi_group v3) with GKeyword k => KwType_beq (kw_t k) Kw_COR | _ => false end)) (
    chk 983 (let! v4 := deref (List.nth_error (pr_groups v1) 2%nat) in Ok (match (gi_group v4) with GLocation _ => true | _ => false end)) (
    chk 984 (let! v5 := deref (List.nth_error (pr_groups v1) 3%nat) in Ok (match (gi_group v5) with GReportTime _ => true | _ => false end)) (
    chk 985 (let! v6 := deref (List.nth_error (pr_groups v1) 4%nat) in Ok (match (gi_group v6) with GWind _ => true | _ => false end)) (
    chk 986 (let! v7 := deref (List.nth_error (pr_groups v1) 5%nat) in Ok (match (gi_group v7) with GVisibility _ => true | _ => false end)) (
    chk 987 (let! v8 := deref (List.nth_error (pr_groups v1) 6%nat) in Ok (match (gi_group v8) with GCloud _ => true | _ => false end)) (
    chk 988 (let! v9 := deref (List.nth_error (pr_groups v1) 7%nat) in Ok (match (gi_group v9) with GTemperature _ => true | _ => false end)) (
    chk 989 (let! v10 := deref (List.nth_error (pr_groups v1) 8%nat) in Ok (match (gi_group v10) with GPressure _ => true | _ => false end)) (
    chk 990 (let! v11 := deref (List.nth_error (pr_groups v1) 9%nat) in Ok (match (gi_group v11) with GTrend _ => true | _ => false end)) (
    step 992 (((parse true) "SPECI COR ZZZZ 041115Z 24005KT 9999 FEW040 25/18 Q1011 NOSIG=" 200%nat)) (fun v12 => 
    chk 993 (Ok (ReportType_beq (md_type (pr_metadata v12)) RT_METAR)) (
    chk 994 (Ok (ReportError_beq (md_error (pr_metadata v12)) RE_NONE)) (
    chk 995 (Ok (N.eqb (N.of_nat (List.length (pr_groups v12))) 10%N)) (
    chk 996 (let! v13 := deref (List.nth_error (pr_groups v12) 0%nat) in Ok (match (gi_group v13) with GKeyword k => KwType_beq (kw_t k) Kw_SPECI | _ => false end)) (
    chk 997 (let! v14 := deref (List.nth_error (pr_groups v12) 1%nat) in Ok (match (gi_group v14) with GKeyword k => KwType_beq (kw_t k) Kw_COR | _ => false end)) (
    chk 998 (let! v15 := deref (List.nth_error (pr_groups v12) 2%nat) in Ok (match (gi_group v15) with GLocation _ => true | _ => false end)) (
    chk 999 (let! v16 := deref (List.nth_error (pr_groups v12) 3%nat) in Ok (match (gi_group v16) with GReportTime _ => true | _ => false end)) (
    chk 1000 (let! v17 := deref (List.nth_error (pr_groups v12) 4%nat) in Ok (match (gi_group v17) with GWind _ => true | _ => false end)) (
    chk 1001 (let! v18 := deref (List.nth_error (pr_groups v12) 5%nat) in Ok (match (gi_group v18) with GVisibility _ => true | _ => false end)) (
    chk 1002 (let! v19 := deref (List.nth_error (pr_groups v12) 6%nat) in Ok (match (gi_group v19) with GCloud _ => true | _ => false end)) (
    chk 1003 (let! v20 := deref (List.nth_error (pr_groups v12) 7%nat) in Ok (match (gi_group v20) with GTemperature _ => true | _ => false end)) (
    chk 1004 (let! v21 := deref (List.nth_error (pr_groups v12) 8%nat) in Ok (match (gi_group v21) with GPressure _ => true | _ => false end)) (
    chk 1005 (let! v22 := deref (List.nth_error (pr_groups v12) 9%nat) in Ok (match (gi_group v22) with GTrend _ => true | _ => false end)) (
    step 1007 (((parse true) "METAR ZZZZ 041115Z COR 24005KT 9999 FEW040 25/18 Q1011 NOSIG=" 200%nat)) (fun v23 => 
    chk 1008 (Ok (ReportType_beq (md_type (pr_metadata v23)) RT_METAR)) (
    chk 1009 (Ok (ReportError_beq (md_error (pr_metadata v23)) RE_NONE)) (
    chk 1010 (Ok (N.eqb (N.of_nat (List.length (pr_groups v23))) 10%N)) (
    chk 1011 (let! v24 := deref (List.nth_error (pr_groups v23) 0%nat) in Ok (match (gi_group v24) with GKeyword k => KwType_beq (kw_t k) Kw_METAR | _ => false end)) (
    chk 1012 (let! v25 := deref (List.nth_error (pr_groups v23) 1%nat) in Ok (match (gi_group v25) with GLocation _ => true | _ => false end)) (
    chk 1013 (let! v26 := deref (List.nth_error (pr_groups v23) 2%nat) in Ok (match (gi_group v26) with GReportTime _ => true | _ => false end)) (
    chk 1014 (let! v27 := deref (List.nth_error (pr_groups v23) 3%nat) in Ok (match (gi_group v27) with GKeyword k => KwType_beq (kw_t k) Kw_COR | _ => false end)) (
    chk 1015 (let! v28 := deref (List.nth_error (pr_groups v23) 4%nat) in Ok (match (gi_group v28) with GWind _ => true | _ => false end)) (
    chk 1016 (let! v29 := deref (List.nth_error (pr_groups v23) 5%nat) in Ok (match (gi_group v29) with GVisibility _ => true | _ => false end)) (
    chk 1017 (let! v30 := deref (List.nth_error (pr_groups v23) 6%nat) in Ok (match (gi_group v30) with GCloud _ => true | _ => false end)) (
    chk 1018 (let! v31 := deref (List.nth_error (pr_groups v23) 7%nat) in Ok (match (gi_group v31) with GTemperature _ => true | _ => false end)) (
    chk 1019 (let! v32 := deref (List.nth_error (pr_groups v23) 8%nat) in Ok (match (gi_group v32) with GPressure _ => true | _ => false end)) (
    chk 1020 (let! v33 := deref (List.nth_error (pr_groups v23) 9%nat) in Ok (match (gi_group v33) with GTrend _ => true | _ => false end)) (
    None)))))))))))))))))))))))))))))))))))))))))).

Definition t_ParserSyntaxValidMetarReports_reportsWithRemarks : option N :=
    step 1024 (((parse true) "METAR ZZZZ 041115Z 24005KT 9999 FEW040 25/18 Q1011 NOSIG RMK TEST=" 200%nat)) (fun v1 => 
    chk 1025 (Ok (ReportType_beq (md_type (pr_metadata v1)) RT_METAR)) (
    chk 1026 (Ok (ReportError_beq (md_error (pr_metadata v1)) RE_NONE)) (
    chk 1027 (Ok (N.eqb (N.of_nat (List.length (pr_groups v1))) 11%N)) (
    chk 1028 (let! v2 := deref (List.nth_error (pr_groups v1) 0%nat) in Ok (match (gi_group v2) with GKeyword k => KwType_beq (kw_t k) Kw_METAR | _ => false end)) (
    chk 1029 (let! v3 := deref (List.nth_error (pr_groups v1) 1%nat) in Ok (match (gi_group v3) with GLocation _ => true | _ => false end)) (
    chk 1030 (let! v4 := deref (List.nth_error (pr_groups v1) 2%nat) in Ok (match (gi_group v4) with GReportTime _ => true | _ => false end)) (
    chk 1031 (let! v5 := deref (List.nth_error (pr_groups v1) 3%nat) in Ok (match (gi_group v5) with GWind _ => true | _ => false end)) (
    chk 1032 (let! v6 := deref (List.nth_error (pr_groups v1) 4%nat) in Ok (match (gi_group v6) with GVisibility _ => true | _ => false end)) (
    chk 1033 (let! v7 := deref (List.nth_error (pr_groups v1) 5%nat) in Ok (match (gi_group v7) with GCloud _ => true | _ => false end)) (
    chk 1034 (let! v8 := deref (List.nth_error (pr_groups v1) 6%nat) in Ok (match (gi_group v8) with GTemperature _ => true | _ => false end)) (
    chk 1035 (let! v9 := deref (List.nth_error (pr_groups v1) 7%nat) in Ok (match (gi_group v9) with GPressure _ => true | _ => false end)) (
    chk 1036 (let! v10 := deref (List.nth_error (pr_groups v1) 8%nat) in Ok (match (gi_group v10) with GTrend _ => true | _ => false end)) (
    chk 1037 (let! v11 := deref (List.nth_error (pr_groups v1) 9%nat) in Ok (match (gi_group v11) with GKeyword k => KwType_beq (kw_t k) Kw_RMK | _ => false end)) (
    chk 1038 (let! v12 := deref (List.nth_error (pr_groups v1) 10%nat) in Ok (match (gi_group v12) with GUnknown _ => true | _ => false end)) (
    step 1040 (((parse true) "SPECI ZZZZ 041115Z 24005KT 9999 FEW040 25/18 Q1011 NOSIG RMK TEST=" 200%nat)) (fun v13 => 
    chk 1041 (Ok (ReportType_beq (md_type (pr_metadata v13)) RT_METAR)) (
    chk 1042 (Ok (ReportError_beq (md_error (pr_metadata v13)) RE_NONE)) (
    chk 1043 (Ok (N.eqb (N.of_nat (List.length (pr_groups v13))) 11%N)) (
    chk 1044 (let! v14 := deref (List.nth_error (pr_groups v13) 0%nat) in Ok (match (gi_group v14) with GKeyword k => KwType_beq (kw_t k) Kw_SPECI | _ => false end)) (
    chk 1045 (let! v15 := deref (List.nth_error (pr_groups v13) 1%nat) in Ok (match (gi_group v15) with GLocation _ => true | _ => false end)) (
    chk 1046 (let! v16 := deref (List.nth_error (pr_groups v13) 2%nat) in Ok (match (gi_group v16) with GReportTime _ => true | _ => false end)) (
    chk 1047 (let! v17 := deref (List.nth_error (pr_groups v13) 3%nat) in Ok (match (gi_group v17) with GWind _ => true | _ => false end)) (
    chk 1048 (let! v18 := deref (List.nth_error (pr_groups v13) 4%nat) in Ok (match (gi_group v18) with GVisibility _ => true | _ => false end)) (
    chk 1049 (let! v19 := deref (List.nth_error (pr_groups v13) 5%nat) in Ok (match (gi_group v19) with GCloud _ => true | _ => false end)) (
    chk 1050 (let! v20 := deref (List.nth_error (pr_groups v13) 6%nat) in Ok (match (gi_group v20) with GTemperature _ => true | _ => false end)) (
    chk 1051 (let! v21 := deref (List.nth_error (pr_groups v13) 7%nat) in Ok (match (gi_group v21) with GPressure _ => true | _ => false end)) (
    chk 1052 (let! v22 := deref (List.nth_error (pr_groups v13) 8%nat) in Ok (match (gi_group v22) with GTrend _ => true | _ => false end)) (
    chk 1053 (let! v23 := deref (List.nth_error (pr_groups v13) 9%nat) in Ok (match (gi_group v23) with GKeyword k => KwType_beq (kw_t k) Kw_RMK | _ => false end)) (
    chk 1054 (let! v24 := deref (List.nth_error (pr_groups v13) 10%nat) in Ok (match (gi_group v24) with GUnknown _ => true | _ => false end)) (
    None)))))))))))))))))))))))))))))).

Definition t_ParserSyntaxValidMetarReports_reportsWithAppendedRemarks : option N :=
    step 1058 (((parse true) "METAR ZZZZ 041115Z 24005KT 9999 FEW040 25/18 Q1011 NOSIG RMK TEST 9999 RMK=" 200%nat)) (fun v1 => 
    chk 1059 (Ok (ReportType_beq (md_type (pr_metadata v1)) RT_METAR)) (
    chk 1060 (Ok (ReportError_beq (md_error (pr_metadata v1)) RE_NONE)) (
    chk 1061 (Ok (N.eqb (N.of_nat (List.length (pr_groups v1))) 11%N)) (
    chk 1062 (let! v2 := deref (List.nth_error (pr_groups v1) 0%nat) in Ok (match (gi_group v2) with GKeyword k => KwType_beq (kw_t k) Kw_METAR | _ => false end)) (
    chk 1063 (let! v3 := deref (List.nth_error (pr_groups v1) 1%nat) in Ok (match (gi_group v3) with GLocation _ => true | _ => false end)) (
    chk 1064 (let! v4 := deref (List.nth_error (pr_groups v1) 2%nat) in Ok (match (gi_group v4) with GReportTime _ => true | _ => false end)) (
    chk 1065 (let! v5 := deref (List.nth_error (pr_groups v1) 3%nat) in Ok (match (gi_group v5) with GWind _ => true | _ => false end)) (
    chk 1066 (let! v6 := deref (List.nth_error (pr_groups v1) 4%nat) in Ok (match (gi_group v6) with GVisibility _ => true | _ => false end)) (
    chk 1067 (let! v7 := deref (List.nth_error (pr_groups v1) 5%nat) in Ok (match (gi_group v7) with GCloud _ => true | _ => false end)) (
    chk 1068 (let! v8 := deref (List.nth_error (pr_groups v1) 6%nat) in Ok (match (gi_group v8) with GTemperature _ => true | _ => false end)) (
    chk 1069 (let! v9 := deref (List.nth_error (pr_groups v1) 7%nat) in Ok (match (gi_group v9) with GPressure _ => true | _ => false end)) (
    chk 1070 (let! v10 := deref (List.nth_error (pr_groups v1) 8%nat) in Ok (match (gi_group v10) with GTrend _ => true | _ => false end)) (
    chk 1071 (let! v11 := deref (List.nth_error (pr_groups v1) 9%nat) in Ok (match (gi_group v11) with GKeyword k => KwType_beq (kw_t k) Kw_RMK | _ => false end)) (
    chk 1072 (let! v12 := deref (List.nth_error (pr_groups v1) 10%nat) in Ok (match (gi_group v12) with GUnknown _ => true | _ => false end)) (
    step 1074 (((parse true) "SPECI ZZZZ 041115Z 24005KT 9999 FEW040 25/18 Q1011 NOSIG RMK TEST 9999 RMK=" 200%nat)) (fun v13 => 
    chk 1075 (Ok (ReportType_beq (md_type (pr_metadata v13)) RT_METAR)) (
    chk 1076 (Ok (ReportError_beq (md_error (pr_metadata v13)) RE_NONE)) (
    chk 1077 (Ok (N.eqb (N.of_nat (List.length (pr_groups v13))) 11%N)) (
    chk 1078 (let! v14 := deref (List.nth_error (pr_groups v13) 0%nat) in Ok (match (gi_group v14) with GKeyword k => KwType_beq (kw_t k) Kw_SPECI | _ => false end)) (
    chk 1079 (let! v15 := deref (List.nth_error (pr_groups v13) 1%nat) in Ok (match (gi_group v15) with GLocation _ => true | _ => false end)) (
    chk 1080 (let! v16 := deref (List.nth_error (pr_groups v13) 2%nat) in Ok (match (gi_group v16) with GReportTime _ => true | _ => false end)) (
    chk 1081 (let! v17 := deref (List.nth_error (pr_groups v13) 3%nat) in Ok (match (gi_group v17) with GWind _ => true | _ => false end)) (
    chk 1082 (let! v18 := deref (List.nth_error (pr_groups v13) 4%nat) in Ok (match (gi_group v18) with GVisibility _ => true | _ => false end)) (
    chk 1083 (let! v19 := deref (List.nth_error (pr_groups v13) 5%nat) in Ok (match (gi_group v19) with GCloud _ => true | _ => false end)) (
    chk 1084 (let! v20 := deref (List.nth_error (pr_groups v13) 6%nat) in Ok (match (gi_group v20) with GTemperature _ => true | _ => false end)) (
    chk 1085 (let! v21 := deref (List.nth_error (pr_groups v13) 7%nat) in Ok (match (gi_group v21) with GPressure _ => true | _ => false end)) (
    chk 1086 (let! v22 := deref (List.nth_error (pr_groups v13) 8%nat) in Ok (match (gi_group v22) with GTrend _ => true | _ => false end)) (
    chk 1087 (let! v23 := deref (List.nth_error (pr_groups v13) 9%nat) in Ok (match (gi_group v23) with GKeyword k => KwType_beq (kw_t k) Kw_RMK | _ => false end)) (
    chk 1088 (let! v24 := deref (List.nth_error (pr_groups v13) 10%nat) in Ok (match (gi_group v24) with GUnknown _ => true | _ => false end)) (
    None)))))))))))))))))))))))))))))).

Definition t_ParserSyntaxValidMetarReports_reportTypeNotSpecified : option N :=
    step 1092 (((parse true) "ZZZZ 041115Z 24005KT 9999 FEW040 25/18 Q1011 NOSIG=" 200%nat)) (fun v1 => 
    chk 1093 (Ok (ReportType_beq (md_type (pr_metadata v1)) RT_METAR)) (
    chk 1094 (Ok (ReportError_beq (md_error (pr_metadata v1)) RE_NONE)) (
    chk 1095 (Ok (N.eqb (N.of_nat (List.length (pr_groups v1))) 8%N)) (
    chk 1096 (let! v2 := deref (List.nth_error (pr_groups v1) 0%nat) in Ok (match (gi_group v2) with GLocation _ => true | _ => false end)) (
    chk 1097 (let! v3 := deref (List.nth_error (pr_groups v1) 1%nat) in Ok (match (gi_group v3) with GReportTime _ => true | _ => false end)) (
    chk 1098 (let! v4 := deref (List.nth_error (pr_groups v1) 2%nat) in Ok (match (gi_group v4) with GWind _ => true | _ => false end)) (
    chk 1099 (let! v5 := deref (List.nth_error (pr_groups v1) 3%nat) in Ok (match (gi_group v5) with GVisibility _ => true | _ => false end)) (
    chk 1100 (let! v6 := deref (List.nth_error (pr_groups v1) 4%nat) in Ok (match (gi_group v6) with GCloud _ => true | _ => false end)) (
    chk 1101 (let! v7 := deref (List.nth_error (pr_groups v1) 5%nat) in Ok (match (gi_group v7) with GTemperature _ => true | _ => false end)) (
    chk 1102 (let! v8 := deref (List.nth_error (pr_groups v1) 6%nat) in Ok (match (gi_group v8) with GPressure _ => true | _ => false end)) (
    chk 1103 (let! v9 := deref (List.nth_error (pr_groups v1) 7%nat) in Ok (match (gi_group v9) with GTrend _ => true | _ => false end)) (
    step 1105 (((parse true) "ZZZZ 041115Z 24005KT 9999 FEW040 25/18 Q1011 NOSIG RMK TEST=" 200%nat)) (fun v10 => 
    chk 1106 (Ok (ReportType_beq (md_type (pr_metadata v10)) RT_METAR)) (
    chk 1107 (Ok (ReportError_beq (md_error (pr_metadata v10)) RE_NONE)) (
    chk 1108 (Ok (N.eqb (N.of_nat (List.length (pr_groups v10))) 10%N)) (
    chk 1109 (let! v11 := deref (List.nth_error (pr_groups v10) 0%nat) in Ok (match (gi_group v11) with GLocation _ => true | _ => false end)) (
    chk 1110 (let! v12 := deref (List.nth_error (pr_groups v10) 1%nat) in Ok (match (gi_group v12) with GReportTime _ => true | _ => false end)) (
    chk 1111 (let! v13 := deref (List.nth_error (pr_groups v10) 2%nat) in Ok (match (gi_group v13) with GWind _ => true | _ => false end)) (
    chk 1112 (let! v14 := deref (List.nth_error (pr_groups v10) 3%nat) in Ok (match (gi_group v14) with GVisibility _ => true | _ => false end)) (
    chk 1113 (let! v15 := deref (List.nth_error (pr_groups v10) 4%nat) in Ok (match (gi_group v15) with GCloud _ => true | _ => false end)) (
    chk 1114 (let! v16 := deref (List.nth_error (pr_groups v10) 5%nat) in Ok (match (gi_group v16) with GTemperature _ => true | _ => false end)) (
    chk 1115 (let! v17 := deref (List.nth_error (pr_groups v10) 6%nat) in Ok (match (gi_group v17) with GPressure _ => true | _ => false end)) (
    chk 1116 (let! v18 := deref (List.nth_error (pr_groups v10) 7%nat) in Ok (match (gi_group v18) with GTrend _ => true | _ => false end)) (
    chk 1117 (let! v19 := deref (List.nth_error (pr_groups v10) 8%nat) in Ok (match (gi_group v19) with GKeyword k => KwType_beq (kw_t k) Kw_RMK | _ => false end)) (
    chk 1118 (let! v20 := deref (List.nth_error (pr_groups v10) 9%nat) in Ok (match (gi_group v20) with GUnknown _ => true | _ => false end)) (
    step 1120 (((parse true) "ZZZZ 041115Z RMK TEST=" 200%nat)) (fun v21 => 
    chk 1121 (Ok (ReportType_beq (md_type (pr_metadata v21)) RT_METAR)) (
    chk 1122 (Ok (ReportError_beq (md_error (pr_metadata v21)) RE_NONE)) (
    chk 1123 (Ok (N.eqb (N.of_nat (List.length (pr_groups v21))) 4%N)) (
    chk 1124 (let! v22 := deref (List.nth_error (pr_groups v21) 0%nat) in Ok (match (gi_group v22) with GLocation _ => true | _ => false end)) (
    chk 1125 (let! v23 := deref (List.nth_error (pr_groups v21) 1%nat) in Ok (match (gi_group v23) with GReportTime _ => true | _ => false end)) (
    chk 1126 (let! v24 := deref (List.nth_error (pr_groups v21) 2%nat) in Ok (match (gi_group v24) with GKeyword k => KwType_beq (kw_t k) Kw_RMK | _ => false end)) (
    chk 1127 (let! v25 := deref (List.nth_error (pr_groups v21) 3%nat) in Ok (match (gi_group v25) with GUnknown _ => true | _ => false end)) (
    None)))))))))))))))))))))))))))))))))).

Definition t_ParserSyntaxValidMetarReports_reportWithTrend : option N :=
    step 1131 (((parse true) "METAR ZZZZ 041115Z 24005KT 9999 FEW040 25/18 Q1011 TEMPO 3500 BKN010 +RA=" 200%nat)) (fun v1 => 
    chk 1133 (Ok (ReportType_beq (md_type (pr_metadata v1)) RT_METAR)) (
    chk 1134 (Ok (ReportError_beq (md_error (pr_metadata v1)) RE_NONE)) (
    chk 1135 (Ok (N.eqb (N.of_nat (List.length (pr_groups v1))) 12%N)) (
    chk 1136 (let! v2 := deref (List.nth_error (pr_groups v1) 0%nat) in Ok (match (gi_group v2) with GKeyword k => KwType_beq (kw_t k) Kw_METAR | _ => false end)) (
    chk 1137 (let! v3 := deref (List.nth_error (pr_groups v1) 1%nat) in Ok (match (gi_group v3) with GLocation _ => true | _ => false end)) (
    chk 1138 (let! v4 := deref (List.nth_error (pr_groups v1) 2%nat) in Ok (match (gi_group v4) with GReportTime _ => true | _ => false end)) (
    chk 1139 (let! v5 := deref (List.nth_error (pr_groups v1) 3%nat) in Ok (match (gi_group v5) with GWind _ => true | _ => false end)) (
    chk 1140 (let! v6 := deref (List.nth_error (pr_groups v1) 4%nat) in Ok (match (gi_group v6) with GVisibility _ => true | _ => false end)) (
    chk 1141 (let! v7 := deref (List.nth_error (pr_groups v1) 5%nat) in Ok (match (gi_group v7) with GCloud _ => true | _ => false end)) (
    chk 1142 (let! v8 := deref (List.nth_error (pr_groups v1) 6%nat) in Ok (match (gi_group v8) with GTemperature _ => true | _ => false end)) (
    chk 1143 (let! v9 := deref (List.nth_error (pr_groups v1) 7%nat) in Ok (match (gi_group v9) with GPressure _ => true | _ => false end)) (
    chk 1144 (let! v10 := deref (List.nth_error (pr_groups v1) 8%nat) in Ok (match (gi_group v10) with GTrend _ => true | _ => false end)) (
    chk 1145 (let! v11 := deref (List.nth_error (pr_groups v1) 9%nat) in Ok (match (gi_group v11) with GVisibility _ => true | _ => false end)) (
    chk 1146 (let! v12 := deref (List.nth_error (pr_groups v1) 10%nat) in Ok (match (gi_group v12) with GCloud _ => true | _ => false end)) (
    chk 1147 (let! v13 := deref (List.nth_error (pr_groups v1) 11%nat) in Ok (match (gi_group v13) with GWeather _ => true | _ => false end)) (
    None)))))))))))))))).

Definition t_ParserSyntaxValidTafReports_plainReport : option N :=
    step 1157 (((parse true) "TAF ZZZZ 041115Z 0412/0512 24005KT 10SM FEW250=" 200%nat)) (fun v1 => 
    chk 1158 (Ok (ReportType_beq (md_type (pr_metadata v1)) RT_TAF)) (
    chk 1159 (Ok (ReportError_beq (md_error (pr_metadata v1)) RE_NONE)) (
    chk 1160 (Ok (N.eqb (N.of_nat (List.length (pr_groups v1))) 7%N)) (
    chk 1161 (let! v2 := deref (List.nth_error (pr_groups v1) 0%nat) in Ok (match (gi_group v2) with GKeyword k => KwType_beq (kw_t k) Kw_TAF | _ => false end)) (
    chk 1162 (let! v3 := deref (List.nth_error (pr_groups v1) 1%nat) in Ok (match (gi_group v3) with GLocation _ => true | _ => false end)) (
    chk 1163 (let! v4 := deref (List.nth_error (pr_groups v1) 2%nat) in Ok (match (gi_group v4) with GReportTime _ => true | _ => false end)) (
    chk 1164 (let! v5 := deref (List.nth_error (pr_groups v1) 3%nat) in Ok (match (gi_group v5) with GTrend k => Trend_isTimeSpanGroup k | _ => false end)) (
    chk 1165 (let! v6 := deref (List.nth_error (pr_groups v1) 4%nat) in Ok (match (gi_group v6) with GWind _ => true | _ => false end)) (
    chk 1166 (let! v7 := deref (List.nth_error (pr_groups v1) 5%nat) in Ok (match (gi_group v7) with GVisibility _ => true | _ => false end)) (
    chk 1167 (let! v8 := deref (List.nth_error (pr_groups v1) 6%nat) in Ok (match (gi_group v8) with GCloud _ => true | _ => false end)) (
    None))))))))))).

Definition t_ParserSyntaxValidTafReports_amendedAndCorrectionalReports : option N :=
    step 1171 (((parse true) "TAF AMD ZZZZ 041115Z 0412/0512 24005KT 10SM FEW250=" 200%nat)) (fun v1 => 
    chk 1172 (Ok (ReportType_beq (md_type (pr_metadata v1)) RT_TAF)) (
    chk 1173 (Ok (ReportError_beq (md_error (pr_metadata v1)) RE_NONE)) (
    chk 1174 (Ok (N.eqb (N.of_nat (List.length (pr_groups v1))) 8%N)) (
    chk 1175 (let! v2 := deref (List.nth_error (pr_groups v1) 0%nat) in Ok (match (gi_group v2) with GKeyword k => KwType_beq (kw_t k) Kw_TAF | _ => false end)) (
    chk 1176 (let! v3 := deref (List.nth_error (pr_groups v1) 1%nat) in Ok (match (gi_group v3) with GKeyword k => KwType_beq (kw_t k) Kw_AMD | _ => false end)) (
    chk 1177 (let! v4 := deref (List.nth_error (pr_groups v1) 2%nat) in Ok (match (gi_group v4) with GLocation _ => true | _ => false end)) (
    chk 1178 (let! v5 := deref (List.nth_error (pr_groups v1) 3%nat) in Ok (match (gi_group v5) with GReportTime _ => true | _ => false end)) (
    chk 1179 (let! v6 := deref (List.nth_error (pr_groups v1) 4%nat) in Ok (match (gi_group v6) with GTrend k => Trend_isTimeSpanGroup k | _ => false end)) (
    chk 1180 (let! v7 := deref (List.nth_error (pr_groups v1) 5%nat) in Ok (match (gi_group v7) with GWind _ => true | _ => false end)) (
    chk 1181 (let! v8 := deref (List.nth_error (pr_groups v1) 6%nat) in Ok (match (gi_group v8) with GVisibility _ => true | _ => false end)) (
    chk 1182 (let! v9 := deref (List.nth_error (pr_groups v1) 7%nat) in Ok (match (gi_group v9) with GCloud _ => true | _ => false end)) (
    step 1184 (((parse true) "TAF COR ZZZZ 041115Z 0412/0512 24005KT 10SM FEW250=" 200%nat)) (fun v10 => 
    chk 1185 (Ok (ReportType_beq (md_type (pr_metadata v10)) RT_TAF)) (
    chk 1186 (Ok (ReportError_beq (md_error (pr_metadata v10)) RE_NONE)) (
    chk 1187 (Ok (N.eqb (N.of_nat (List.length (pr_groups v10))) 8%N)) (
    chk 1188 (let! v11 := deref (List.nth_error (pr_groups v10) 0%nat) in Ok (match (gi_group v11) with GKeyword k => KwType_beq (kw_t k) Kw_TAF | _ => false end)) (
    chk 1189 (let! v12 := deref (List.nth_error (pr_groups v10) 1%nat) in Ok (match (gi_group v12) with GKeyword k => KwType_beq (kw_t k) Kw_COR | _ => false end)) (
    chk 1190 (let! v13 := deref (List.nth_error (pr_groups v10) 2%nat) in Ok (match (gi_group v13) with GLocation _ => true | _ => false end)) (
    chk 1191 (let! v14 := deref (List.nth_error (pr_groups v10) 3%nat) in Ok (match (gi_group v14) with GReportTime _ => true | _ => false end)) (
    chk 1192 (let! v15 := deref (List.nth_error (pr_groups v10) 4%nat) in Ok (match (gi_group v15) with GTrend k => Trend_isTimeSpanGroup k | _ => false end)) (
    chk 1193 (let! v16 := deref (List.nth_error (pr_groups v10) 5%nat) in Ok (match (gi_group v16) with GWind _ => true | _ => false end)) (
    chk 1194 (let! v17 := deref (List.nth_error (pr_groups v10) 6%nat) in Ok (match (gi_group v17) with GVisibility _ => true | _ => false end)) (
    chk 1195 (let! v18 := deref (List.nth_error (pr_groups v10) 7%nat) in Ok (match (gi_group v18) with GCloud _ => true | _ => false end)) (
    None)))))))))))))))))))))))).

Definition t_ParserSyntaxValidTafReports_reportsWithTemperatureForecasts : option N :=
    step 1199 (((parse true) "TAF ZZZZ 041115Z 0412/0512 TX07/0416Z=" 200%nat)) (fun v1 => 
    chk 1200 (Ok (ReportType_beq (md_type (pr_metadata v1)) RT_TAF)) (
    chk 1201 (Ok (ReportError_beq (md_error (pr_metadata v1)) RE_NONE)) (
    chk 1202 (Ok (N.eqb (N.of_nat (List.length (pr_groups v1))) 5%N)) (
    chk 1203 (let! v2 := deref (List.nth_error (pr_groups v1) 0%nat) in Ok (match (gi_group v2) with GKeyword k => KwType_beq (kw_t k) Kw_TAF | _ => false end)) (
    chk 1204 (let! v3 := deref (List.nth_error (pr_groups v1) 1%nat) in Ok (match (gi_group v3) with GLocation _ => true | _ => false end)) (
    chk 1205 (let! v4 := deref (List.nth_error (pr_groups v1) 2%nat) in Ok (match (gi_group v4) with GReportTime _ => true | _ => false end)) (
    chk 1206 (let! v5 := deref (List.nth_error (pr_groups v1) 3%nat) in Ok (match (gi_group v5) with GTrend k => Trend_isTimeSpanGroup k | _ => false end)) (
    chk 1207 (let! v6 := deref (List.nth_error (pr_groups v1) 4%nat) in Ok (match (gi_group v6) with GMinMaxTemperature _ => true | _ => false end)) (
    step 1209 (((parse true) "TAF ZZZZ 041115Z 0412/0512 TX07/0416Z TN03/0505Z=" 200%nat)) (fun v7 => 
    chk 1210 (Ok (ReportType_beq (md_type (pr_metadata v7)) RT_TAF)) (
    chk 1211 (Ok (ReportError_beq (md_error (pr_metadata v7)) RE_NONE)) (
    chk 1212 (Ok (N.eqb (N.of_nat (List.length (pr_groups v7))) 5%N)) (
    chk 1213 (let! v8 := deref (List.nth_error (pr_groups v7) 0%nat) in Ok (match (gi_group v8) with GKeyword k => KwType_beq (kw_t k) Kw_TAF | _ => false end)) (
    chk 1214 (let! v9 := deref (List.nth_error (pr_groups v7) 1%nat) in Ok (match (gi_group v9) with GLocation _ => true | _ => false end)) (
    chk 1215 (let! v10 := deref (List.nth_error (pr_groups v7) 2%nat) in Ok (match (gi_group v10) with GReportTime _ => true | _ => false end)) (
    chk 1216 (let! v11 := deref (List.nth_error (pr_groups v7) 3%nat) in Ok (match (gi_group v11) with GTrend k => Trend_isTimeSpanGroup k | _ => false end)) (
    chk 1217 (let! v12 := deref (List.nth_error (pr_groups v7) 4%nat) in Ok (match (gi_group v12) with GMinMaxTemperature _ => true | _ => false end)) (
    None)))))))))))))))))).

Definition t_ParserSyntaxValidTafReports_reportWithRemarks : option N :=
    step 1221 (((parse true) "TAF ZZZZ 041115Z 0412/0512 24005KT 10SM FEW250 RMK TEST=" 200%nat)) (fun v1 => 
    chk 1222 (Ok (ReportType_beq (md_type (pr_metadata v1)) RT_TAF)) (
    chk 1223 (Ok (ReportError_beq (md_error (pr_metadata v1)) RE_NONE)) (
    chk 1224 (Ok (N.eqb (N.of_nat (List.length (pr_groups v1))) 9%N)) (
    chk 1225 (let! v2 := deref (List.nth_error (pr_groups v1) 0%nat) in Ok (match (gi_group v2) with GKeyword k => KwType_beq (kw_t k) Kw_TAF | _ => false end)) (
    chk 1226 (let! v3 := deref (List.nth_error (pr_groups v1) 1%nat) in Ok (match (gi_group v3) with GLocation _ => true | _ => false end)) (
    chk 1227 (let! v4 := deref (List.nth_error (pr_groups v1) 2%nat) in Ok (match (gi_group v4) with GReportTime _ => true | _ => false end)) (
    chk 1228 (let! v5 := deref (List.nth_error (pr_groups v1) 3%nat) in Ok (match (gi_group v5) with GTrend k => Trend_isTimeSpanGroup k | _ => false end)) (
    chk 1229 (let! v6 := deref (List.nth_error (pr_groups v1) 4%nat) in Ok (match (gi_group v6) with GWind _ => true | _ => false end)) (
    chk 1230 (let! v7 := deref (List.nth_error (pr_groups v1) 5%nat) in Ok (match (gi_group v7) with GVisibility _ => true | _ => false end)) (
    chk 1231 (let! v8 := deref (List.nth_error (pr_groups v1) 6%nat) in Ok (match (gi_group v8) with GCloud _ => true | _ => false end)) (
    chk 1232 (let! v9 := deref (List.nth_error (pr_groups v1) 7%nat) in Ok (match (gi_group v9) with GKeyword k => KwType_beq (kw_t k) Kw_RMK | _ => false end)) (
    chk 1233 (let! v10 := deref (List.nth_error (pr_groups v1) 8%nat) in Ok (match (gi_group v10) with GUnknown _ => true | _ => false end)) (
    None))))))))))))).

Definition t_ParserSyntaxValidTafReports_reportWithAppendedRemarks : option N :=
    step 1237 (((parse true) "TAF ZZZZ 041115Z 0412/0512 24005KT 10SM FEW250 RMK TEST 9999 RMK=" 200%nat)) (fun v1 => 
    chk 1238 (Ok (ReportType_beq (md_type (pr_metadata v1)) RT_TAF)) (
    chk 1239 (Ok (ReportError_beq (md_error (pr_metadata v1)) RE_NONE)) (
    chk 1240 (Ok (N.eqb (N.of_nat (List.length (pr_groups v1))) 9%N)) (
    chk 1241 (let! v2 := deref (List.nth_error (pr_groups v1) 0%nat) in Ok (match (gi_group v2) with GKeyword k => KwType_beq (kw_t k) Kw_TAF | _ => false end)) (
    chk 1242 (let! v3 := deref (List.nth_error (pr_groups v1) 1%nat) in Ok (match (gi_group v3) with GLocation _ => true | _ => false end)) (
    chk 1243 (let! v4 := deref (List.nth_error (pr_groups v1) 2%nat) in Ok (match (gi_group v4) with GReportTime _ => true | _ => false end)) (
    chk 1244 (let! v5 := deref (List.nth_error (pr_groups v1) 3%nat) in Ok (match (gi_group v5) with GTrend k => Trend_isTimeSpanGroup k | _ => false end)) (
    chk 1245 (let! v6 := deref (List.nth_error (pr_groups v1) 4%nat) in Ok (match (gi_group v6) with GWind _ => true | _ => false end)) (
    chk 1246 (let! v7 := deref (List.nth_error (pr_groups v1) 5%nat) in Ok (match (gi_group v7) with GVisibility _ => true | _ => false end)) (
    chk 1247 (let! v8 := deref (List.nth_error (pr_groups v1) 6%nat) in Ok (match (gi_group v8) with GCloud _ => true | _ => false end)) (
    chk 1248 (let! v9 := deref (List.nth_error (pr_groups v1) 7%nat) in Ok (match (gi_group v9) with GKeyword k => KwType_beq (kw_t k) Kw_RMK | _ => false end)) (
    chk 1249 (let! v10 := deref (List.nth_error (pr_groups v1) 8%nat) in Ok (match (gi_group v10) with GUnknown _ => true | _ => false end)) (
    None))))))))))))).

Definition t_ParserSyntaxValidTafReports_reportWithTrends : option N :=
    step 1253 (((parse true) "TAF ZZZZ 041115Z 0412/0512 24005KT 10SM FEW250 PROB40 TEMPO 0420/0424 24010G15KT FM050300 BKN100 3SM RA BECMG 0506/0510 OVC050=" 200%nat)) (fun v1 => 
    chk 1260 (Ok (ReportType_beq (md_type (pr_metadata v1)) RT_TAF)) (
    chk 1261 (Ok (ReportError_beq (md_error (pr_metadata v1)) RE_NONE)) (
    chk 1262 (Ok (N.eqb (N.of_nat (List.length (pr_groups v1))) 15%N)) (
    chk 1263 (let! v2 := deref (List.nth_error (pr_groups v1) 0%nat) in Ok (match (gi_group v2) with GKeyword k => KwType_beq (kw_t k) Kw_TAF | _ => false end)) (
    chk 1264 (let! v3 := deref (List.nth_error (pr_groups v1) 1%nat) in Ok (match (gi_group v3) with GLocation _ => true | _ => false end)) (
    chk 1265 (let! v4 := deref (List.nth_error (pr_groups v1) 2%nat) in Ok (match (gi_group v4) with GReportTime _ => true | _ => false end)) (
    chk 1266 (let! v5 := deref (List.nth_error (pr_groups v1) 3%nat) in Ok (match (gi_group v5) with GTrend k => Trend_isTimeSpanGroup k | _ => false end)) (
    chk 1267 (let! v6 := deref (List.nth_error (pr_groups v1) 4%nat) in Ok (match (gi_group v6) with GWind _ => true | _ => false end)) (
    chk 1268 (let! v7 := deref (List.nth_error (pr_groups v1) 5%nat) in Ok (match (gi_group v7) with GVisibility _ => true | _ => false end)) (
    chk 1269 (let! v8 := deref (List.nth_error (pr_groups v1) 6%nat) in Ok (match (gi_group v8) with GCloud _ => true | _ => false end)) (
    chk 1270 (let! v9 := deref (List.nth_error (pr_groups v1) 7%nat) in Ok (match (gi_group v9) with GTrend _ => true | _ => false end)) (
    chk 1271 (let! v10 := deref (List.nth_error (pr_groups v1) 8%nat) in Ok (match (gi_group v10) with GWind _ => true | _ => false end)) (
    chk 1272 (let! v11 := deref (List.nth_error (pr_groups v1) 9%nat) in Ok (match (gi_group v11) with GTrend _ => true | _ => false end)) (
    chk 1273 (let! v12 := deref (List.nth_error (pr_groups v1) 10%nat) in Ok (match (gi_group v12) with GCloud _ => true | _ => false end)) (
    chk 1274 (let! v13 := deref (List.nth_error (pr_groups v1) 11%nat) in Ok (match (gi_group v13) with GVisibility _ => true | _ => false end)) (
    chk 1275 (let! v14 := deref (List.nth_error (pr_groups v1) 12%nat) in Ok (match (gi_group v14) with GWeather _ => true | _ => false end)) (
    chk 1276 (let! v15 := deref (List.nth_error (pr_groups v1) 13%nat) in Ok (match (gi_group v15) with GTrend _ => true | _ => false end)) (
    chk 1277 (let! v16 := deref (List.nth_error (pr_groups v1) 14%nat) in Ok (match (gi_group v16) with GCloud _ => true | _ => false end)) (
    None))))))))))))))))))).

Definition t_ParserSyntaxValidTafReports_reportTypeNotSpecified : option N :=
    step 1281 (((parse true) "ZZZZ 041115Z 0412/0512 TX07/0416Z=" 200%nat)) (fun v1 => 
    chk 1282 (Ok (ReportType_beq (md_type (pr_metadata v1)) RT_TAF)) (
    chk 1283 (Ok (ReportError_beq (md_error (pr_metadata v1)) RE_NONE)) (
    chk 1284 (Ok (N.eqb (N.of_nat (List.length (pr_groups v1))) 4%N)) (
    chk 1285 (let! v2 := deref (List.nth_error (pr_groups v1) 0%nat) in Ok (match (gi_group v2) with GLocation _ => true | _ => false end)) (
    chk 1286 (let! v3 := deref (List.nth_error (pr_groups v1) 1%nat) in Ok (match (gi_group v3) with GReportTime _ => true | _ => false end)) (
    chk 1287 (let! v4 := deref (List.nth_error (pr_groups v1) 2%nat) in Ok (match (gi_group v4) with GTrend k => Trend_isTimeSpanGroup k | _ => false end)) (
    chk 1288 (let! v5 := deref (List.nth_error (pr_groups v1) 3%nat) in Ok (match (gi_group v5) with GMinMaxTemperature _ => true | _ => false end)) (
    step 1290 (((parse true) "ZZZZ 041115Z 0412/0512 RMK TEST=" 200%nat)) (fun v6 => 
    chk 1291 (Ok (ReportType_beq (md_type (pr_metadata v6)) RT_TAF)) (
    chk 1292 (Ok (ReportError_beq (md_error (pr_metadata v6)) RE_NONE)) (
    chk 1293 (Ok (N.eqb (N.of_nat (List.length (pr_groups v6))) 5%N)) (
    chk 1294 (let! v7 := deref (List.nth_error (pr_groups v6) 0%nat) in Ok (match (gi_group v7) with GLocation _ => true | _ => false end)) (
    chk 1295 (let! v8 := deref (List.nth_error (pr_groups v6) 1%nat) in Ok (match (gi_group v8) with GReportTime _ => true | _ => false end)) (
    chk 1296 (let! v9 := deref (List.nth_error (pr_groups v6) 2%nat) in Ok (match (gi_group v9) with GTrend k => Trend_isTimeSpanGroup k | _ => false end)) (
    chk 1297 (let! v10 := deref (List.nth_error (pr_groups v6) 3%nat) in Ok (match (gi_group v10) with GKeyword k => KwType_beq (kw_t k) Kw_RMK | _ => false end)) (
    chk 1298 (let! v11 := deref (List.nth_error (pr_groups v6) 4%nat) in Ok (match (gi_group v11) with GUnknown _ => true | _ => false end)) (
    None))))))))))))))))).

Definition t_ParserSyntaxValidTafReports_reportTimeNotSpecified : option N :=
    step 1302 (((parse true) "TAF ZZZZ 0412/0512 TX07/0416Z TN03/0505Z=" 200%nat)) (fun v1 => 
    chk 1303 (Ok (ReportType_beq (md_type (pr_metadata v1)) RT_TAF)) (
    chk 1304 (Ok (ReportError_beq (md_error (pr_metadata v1)) RE_NONE)) (
    chk 1305 (Ok (N.eqb (N.of_nat (List.length (pr_groups v1))) 4%N)) (
    chk 1306 (let! v2 := deref (List.nth_error (pr_groups v1) 0%nat) in Ok (match (gi_group v2) with GKeyword k => KwType_beq (kw_t k) Kw_TAF | _ => false end)) (
    chk 1307 (let! v3 := deref (List.nth_error (pr_groups v1) 1%nat) in Ok (match (gi_group v3) with GLocation _ => true | _ => false end)) (
    chk 1308 (let! v4 := deref (List.nth_error (pr_groups v1) 2%nat) in Ok (match (gi_group v4) with GTrend k => Trend_isTimeSpanGroup k | _ => false end)) (
    chk 1309 (let! v5 := deref (List.nth_error (pr_groups v1) 3%nat) in Ok (match (gi_group v5) with GMinMaxTemperature _ => true | _ => false end)) (
    None)))))))).

Definition t_ParserSyntaxDesignatorsAndSeparators_noReportEndDesignator : option N :=
    step 1322 (((parse true) "METAR ZZZZ 041115Z 24005KT 9999 FEW040 25/18 Q1011 NOSIG" 200%nat)) (fun v1 => 
    chk 1323 (Ok (ReportType_beq (md_type (pr_metadata v1)) RT_METAR)) (
    chk 1324 (Ok (ReportError_beq (md_error (pr_metadata v1)) RE_NONE)) (
    chk 1325 (Ok (N.eqb (N.of_nat (List.length (pr_groups v1))) 9%N)) (
    chk 1326 (let! v2 := deref (List.nth_error (pr_groups v1) 0%nat) in Ok (match (gi_group v2) with GKeyword k => KwType_beq (kw_t k) Kw_METAR | _ => false end)) (
    chk 1327 (let! v3 := deref (List.nth_error (pr_groups v1) 1%nat) in Ok (match (gi_group v3) with GLocation _ => true | _ => false end)) (
    chk 1328 (let! v4 := deref (List.nth_error (pr_groups v1) 2%nat) in Ok (match (gi_group v4) with GReportTime _ => true | _ => false end)) (
    chk 1329 (let! v5 := deref (List.nth_error (pr_groups v1) 3%nat) in Ok (match (gi_group v5) with GWind _ => true | _ => false end)) (
    chk 1330 (let! v6 := deref (List.nth_error (pr_groups v1) 4%nat) in Ok (match (gi_group v6) with GVisibility _ => true | _ => false end)) (
    chk 1331 (let! v7 := deref (List.nth_error (pr_groups v1) 5%nat) in Ok (match (gi_group v7) with GCloud _ => true | _ => false end)) (
    chk 1332 (let! v8 := deref (List.nth_error (pr_groups v1) 6%nat) in Ok (match (gi_group v8) with GTemperature _ => true | _ => false end)) (
    chk 1333 (let! v9 := deref (List.nth_error (pr_groups v1) 7%nat) in Ok (match (gi_group v9) with GPressure _ => true | _ => false end)) (
    chk 1334 (let! v10 := deref (List.nth_error (pr_groups v1) 8%nat) in Ok (match (gi_group v10) with GTrend _ => true | _ => false end)) (
    step 1336 (((parse true) "TAF ZZZZ 041115Z 0412/0512 24005KT 10SM FEW250" 200%nat)) (fun v11 => 
    chk 1337 (Ok (ReportType_beq (md_type (pr_metadata v11)) RT_TAF)) (
    chk 1338 (Ok (ReportError_beq (md_error (pr_metadata v11)) RE_NONE)) (
    chk 1339 (Ok (N.eqb (N.of_nat (List.length (pr_groups v11))) 7%N)) (
    chk 1340 (let! v12 := deref (List.nth_error (pr_groups v11) 0%nat) in Ok (match (gi_group v12) with GKeyword k => KwType_beq (kw_t k) Kw_TAF | _ => false end)) (
    chk 1341 (let! v13 := deref (List.nth_error (pr_groups v11) 1%nat) in Ok (match (gi_group v13) with GLocation _ => true | _ => false end)) (
    chk 1342 (let! v14 := deref (List.nth_error (pr_groups v11) 2%nat) in Ok (match (gi_group v14) with GReportTime _ => true | _ => false end)) (
    chk 1343 (let! v15 := deref (List.nth_error (pr_groups v11) 3%nat) in Ok (match (gi_group v15) with GTrend k => Trend_isTimeSpanGroup k | _ => false end)) (
    chk 1344 (let! v16 := deref (List.nth_error (pr_groups v11) 4%nat) in Ok (match (gi_group v16) with GWind _ => true | _ => false end)) (
    chk 1345 (let! v17 := deref (List.nth_error (pr_groups v11) 5%nat) in Ok (match (gi_group v17) with GVisibility _ => true | _ => false end)) (
    chk 1346 (let! v18 := deref (List.nth_error (pr_groups v11) 6%nat) in Ok (match (gi_group v18) with GCloud _ => true | _ => false end)) (
    None)))))))))))))))))))))))).

Definition t_ParserSyntaxDesignatorsAndSeparators_separatorInLeadingPosition : option N :=
    step 1350 (((parse true) " METAR ZZZZ 041115Z 24005KT 9999 FEW040 25/18 Q1011 NOSIG" 200%nat)) (fun v1 => 
    chk 1351 (Ok (ReportType_beq (md_type (pr_metadata v1)) RT_METAR)) (
    chk 1352 (Ok (ReportError_beq (md_error (pr_metadata v1)) RE_NONE)) (
    chk 1353 (Ok (N.eqb (N.of_nat (List.length (pr_groups v1))) 9%N)) (
    chk 1354 (let! v2 := deref (List.nth_error (pr_groups v1) 0%nat) in Ok (match (gi_group v2) with GKeyword k => KwType_beq (kw_t k) Kw_METAR | _ => false end)) (
    chk 1355 (let! v3 := deref (List.nth_error (pr_groups v1) 1%nat) in Ok (match (gi_group v3) with GLocation _ => true | _ => false end)) (
    chk 1356 (let! v4 := deref (List.nth_error (pr_groups v1) 2%nat) in Ok (match (gi_group v4) with GReportTime _ => true | _ => false end)) (
    chk 1357 (let! v5 := deref (List.nth_error (pr_groups v1) 3%nat) in Ok (match (gi_group v5) with GWind _ => true | _ => false end)) (
    chk 1358 (let! v6 := deref (List.nth_error (pr_groups v1) 4%nat) in Ok (match (gi_group v6) with GVisibility _ => true | _ => false end)) (
    chk 1359 (let! v7 := deref (List.nth_error (pr_groups v1) 5%nat) in Ok (match (gi_group v7) with GCloud _ => true | _ => false end)) (
    chk 1360 (let! v8 := deref (List.nth_error (pr_groups v1) 6%nat) in Ok (match (gi_group v8) with GTemperature _ => true | _ => false end)) (
    chk 1361 (let! v9 := deref (List.nth_error (pr_groups v1) 7%nat) in Ok (match (gi_group v9) with GPressure _ => true | _ => false end)) (
    chk 1362 (let! v10 := deref (List.nth_error (pr_groups v1) 8%nat) in Ok (match (gi_group v10) with GTrend _ => true | _ => false end)) (
    step 1364 (((parse true) " TAF ZZZZ 041115Z 0412/0512 24005KT 10SM FEW250" 200%nat)) (fun v11 => 
    chk 1365 (Ok (ReportType_beq (md_type (pr_metadata v11)) RT_TAF)) (
    chk 1366 (Ok (ReportError_beq (md_error (pr_metadata v11)) RE_NONE)) (
    chk 1367 (Ok (N.eqb (N.of_nat (List.length (pr_groups v11))) 7%N)) (
    chk 1368 (let! v12 := deref (List.nth_error (pr_groups v11) 0%nat) in Ok (match (gi_group v12) with GKeyword k => KwType_beq (kw_t k) Kw_TAF | _ => false end)) (
    chk 1369 (let! v13 := deref (List.nth_error (pr_groups v11) 1%nat) in Ok (match (gi_group v13) with GLocation _ => true | _ => false end)) (
    chk 1370 (let! v14 := deref (List.nth_error (pr_groups v11) 2%nat) in Ok (match (gi_group v14) with GReportTime _ => true | _ => false end)) (
    chk 1371 (let! v15 := deref (List.nth_error (pr_groups v11) 3%nat) in Ok (match (gi_group v15) with GTrend k => Trend_isTimeSpanGroup k | _ => false end)) (
    chk 1372 (let! v16 := deref (List.nth_error (pr_groups v11) 4%nat) in Ok (match (gi_group v16) with GWind _ => true | _ => false end)) (
    chk 1373 (let! v17 := deref (List.nth_error (pr_groups v11) 5%nat) in Ok (match (gi_group v17) with GVisibility _ => true | _ => false end)) (
    chk 1374 (let! v18 := deref (List.nth_error (pr_groups v11) 6%nat) in Ok (match (gi_group v18) with GCloud _ => true | _ => false end)) (
    None)))))))))))))))))))))))).

Definition t_ParserSyntaxDesignatorsAndSeparators_variousGroupSeparators : option N :=
    step 1378 (((parse true) "METAR  ZZZZ    041115Z 
 24005KT9999
FEW040
25/18 
Q1011 NOSIG=" 200%nat)) (fun v1 => 
    chk 1380 (Ok (ReportType_beq (md_type (pr_metadata v1)) RT_METAR)) (
    chk 1381 (Ok (ReportError_beq (md_error (pr_metadata v1)) RE_NONE)) (
    chk 1382 (Ok (N.eqb (N.of_nat (List.length (pr_groups v1))) 9%N)) (
    chk 1383 (let! v2 := deref (List.nth_error (pr_groups v1) 0%nat) in Ok (match (gi_group v2) with GKeyword k => KwType_beq (kw_t k) Kw_METAR | _ => false end)) (
    chk 1384 (let! v3 := deref (List.nth_error (pr_groups v1) 1%nat) in Ok (match (gi_group v3) with GLocation _ => true | _ => false end)) (
    chk 1385 (let! v4 := deref (List.nth_error (pr_groups v1) 2%nat) in Ok (match (gi_group v4) with GReportTime _ => true | _ => false end)) (
    chk 1386 (let! v5 := deref (List.nth_error (pr_groups v1) 3%nat) in Ok (match (gi_group v5) with GWind _ => true | _ => false end)) (
    chk 1387 (let! v6 := deref (List.nth_error (pr_groups v1) 4%nat) in Ok (match (gi_group v6) with GVisibility _ => true | _ => false end)) (
    chk 1388 (let! v7 := deref (List.nth_error (pr_groups v1) 5%nat) in Ok (match (gi_group v7) with GCloud _ => true | _ => false end)) (
    chk 1389 (let! v8 := deref (List.nth_error (pr_groups v1) 6%nat) in Ok (match (gi_group v8) with GTemperature _ => true | _ => false end)) (
    chk 1390 (let! v9 := deref (List.nth_error (pr_groups v1) 7%nat) in Ok (match (gi_group v9) with GPressure _ => true | _ => false end)) (
    chk 1391 (let! v10 := deref (List.nth_error (pr_groups v1) 8%nat) in Ok (match (gi_group v10) with GTrend _ => true | _ => false end)) (
    step 1393 (((parse true) "TAF  ZZZZ      041115Z 
 0412/051224005KT
10SM
FEW250=" 200%nat)) (fun v11 => 
    chk 1395 (Ok (ReportType_beq (md_type (pr_metadata v11)) RT_TAF)) (
    chk 1396 (Ok (ReportError_beq (md_error (pr_metadata v11)) RE_NONE)) (
    chk 1397 (Ok (N.eqb (N.of_nat (List.length (pr_groups v11))) 7%N)) (
    chk 1398 (let! v12 := deref (List.nth_error (pr_groups v11) 0%nat) in Ok (match (gi_group v12) with GKeyword k => KwType_beq (kw_t k) Kw_TAF | _ => false end)) (
    chk 1399 (let! v13 := deref (List.nth_error (pr_groups v11) 1%nat) in Ok (match (gi_group v13) with GLocation _ => true | _ => false end)) (
    chk 1400 (let! v14 := deref (List.nth_error (pr_groups v11) 2%nat) in Ok (match (gi_group v14) with GReportTime _ => true | _ => false end)) (
    chk 1401 (let! v15 := deref (List.nth_error (pr_groups v11) 3%nat) in Ok (match (gi_group v15) with GTrend k => Trend_isTimeSpanGroup k | _ => false end)) (
    chk 1402 (let! v16 := deref (List.nth_error (pr_groups v11) 4%nat) in Ok (match (gi_group v16) with GWind _ => true | _ => false end)) (
    chk 1403 (let! v17 := deref (List.nth_error (pr_groups v11) 5%nat) in Ok (match (gi_group v17) with GVisibility _ => true | _ => false end)) (
    chk 1404 (let! v18 := deref (List.nth_error (pr_groups v11) 6%nat) in Ok (match (gi_group v18) with GCloud _ => true | _ => false end)) (
    None)))))))))))))))))))))))).

Definition t_ParserSyntaxDesignatorsAndSeparators_strayTextAfterReportEndDesignator : option N :=
    step 1408 (((parse true) "METAR ZZZZ 041115Z 24005KT 9999 FEW040 25/18 Q1011 NOSIG= STRAY TEXT 1000" 200%nat)) (fun v1 => 
    chk 1410 (Ok (ReportType_beq (md_type (pr_metadata v1)) RT_METAR)) (
    chk 1411 (Ok (ReportError_beq (md_error (pr_metadata v1)) RE_NONE)) (
    chk 1412 (Ok (N.eqb (N.of_nat (List.length (pr_groups v1))) 9%N)) (
    chk 1413 (let! v2 := deref (List.nth_error (pr_groups v1) 0%nat) in Ok (match (gi_group v2) with GKeyword k => KwType_beq (kw_t k) Kw_METAR | _ => false end)) (
    chk 1414 (let! v3 := deref (List.nth_error (pr_groups v1) 1%nat) in Ok (match (gi_group v3) with GLocation _ => true | _ => false end)) (
    chk 1415 (let! v4 := deref (List.nth_error (pr_groups v1) 2%nat) in Ok (match (gi_group v4) with GReportTime _ => true | _ => false end)) (
    chk 1416 (let! v5 := deref (List.nth_error (pr_groups v1) 3%nat) in Ok (match (gi_group v5) with GWind _ => true | _ => false end)) (
    chk 1417 (let! v6 := deref (List.nth_error (pr_groups v1) 4%nat) in Ok (match (gi_group v6) with GVisibility _ => true | _ => false end)) (
    chk 1418 (let! v7 := deref (List.nth_error (pr_groups v1) 5%nat) in Ok (match (gi_group v7) with GCloud _ => true | _ => false end)) (
    chk 1419 (let! v8 := deref (List.nth_error (pr_groups v1) 6%nat) in Ok (match (gi_group v8) with GTemperature _ => true | _ => false end)) (
    chk 1420 (let! v9 := deref (List.nth_error (pr_groups v1) 7%nat) in Ok (match (gi_group v9) with GPressure _ => true | _ => false end)) (
    chk 1421 (let! v10 := deref (List.nth_error (pr_groups v1) 8%nat) in Ok (match (gi_group v10) with GTrend _ => true | _ => false end)) (
    step 1423 (((parse true) "TAF ZZZZ 041115Z 0412/0512 24005KT 10SM FEW250= STRAY TEXT 1000" 200%nat)) (fun v11 => 
    chk 1425 (Ok (ReportType_beq (md_type (pr_metadata v11)) RT_TAF)) (
    chk 1426 (Ok (ReportError_beq (md_error (pr_metadata v11)) RE_NONE)) (
    chk 1427 (Ok (N.eqb (N.of_nat (List.length (pr_groups v11))) 7%N)) (
    chk 1428 (let! v12 := deref (List.nth_error (pr_groups v11) 0%nat) in Ok (match (gi_group v12) with GKeyword k => KwType_beq (kw_t k) Kw_TAF | _ => false end)) (
    chk 1429 (let! v13 := deref (List.nth_error (pr_groups v11) 1%nat) in Ok (match (gi_group v13) with GLocation _ => true | _ => false end)) (
    chk 1430 (let! v14 := deref (List.nth_error (pr_groups v11) 2%nat) in Ok (match (gi_group v14) with GReportTime _ => true | _ => false end)) (
    chk 1431 (let! v15 := deref (List.nth_error (pr_groups v11) 3%nat) in Ok (match (gi_group v15) with GTrend k => Trend_isTimeSpanGroup k | _ => false end)) (
    chk 1432 (let! v16 := deref (List.nth_error (pr_groups v11) 4%nat) in Ok (match (gi_group v16) with GWind _ => true | _ => false end)) (
    chk 1433 (let! v17 := deref (List.nth_error (pr_groups v11) 5%nat) in Ok (match (gi_group v17) with GVisibility _ => true | _ => false end)) (
    chk 1434 (let! v18 := deref (List.nth_error (pr_groups v11) 6%nat) in Ok (match (gi_group v18) with GCloud _ => true | _ => false end)) (
    None)))))))))))))))))))))))).

Definition t_ParserSyntaxMaintenanceIndicator_maintenanceIndicatorAtMetarBodyBegin : option N :=
    step 1444 (((parse true) "METAR ZZZZ 041115Z $" 200%nat)) (fun v1 => 
    chk 1445 (Ok (ReportType_beq (md_type (pr_metadata v1)) RT_METAR)) (
    chk 1446 (Ok (ReportError_beq (md_error (pr_metadata v1)) RE_NONE)) (
    chk 1447 (let! v2 := deref (List.nth_error (List.rev (pr_groups v1)) 0) in Ok (match (gi_group v2) with GKeyword k => KwType_beq (kw_t k) Kw_MAINTENANCE_INDICATOR | _ => false end)) (
    None)))).

Definition t_ParserSyntaxMaintenanceIndicator_maintenanceIndicatorAtTafBodyBegin : option N :=
    step 1451 (((parse true) "TAF ZZZZ 180712Z 1807/1821 $" 200%nat)) (fun v1 => 
    chk 1452 (Ok (ReportType_beq (md_type (pr_metadata v1)) RT_TAF)) (
    chk 1453 (Ok (ReportError_beq (md_error (pr_metadata v1)) RE_MAINTENANCE_INDICATOR_ALLOWED_IN_METAR_ONLY)) (
    chk 1454 (let! v2 := deref (List.nth_error (List.rev (pr_groups v1)) 0) in Ok (match (gi_group v2) with GKeyword k => KwType_beq (kw_t k) Kw_MAINTENANCE_INDICATOR | _ => false end)) (
    None)))).

Definition t_ParserSyntaxMaintenanceIndicator_maintenanceIndicatorAtTheEndOfMetar : option N :=
    step 1458 (((parse true) "METAR BGTL 092056Z AUTO 30007KT 9999 CLR 02/00 A2954 RMK AO2 SLP989 T00150003 58001 PNO TSNO $" 200%nat)) (fun v1 => 
    chk 1461 (Ok (ReportType_beq (md_type (pr_metadata v1)) RT_METAR)) (
    chk 1462 (Ok (ReportError_beq (md_error (pr_metadata v1)) RE_NONE)) (
    chk 1463 (let! v2 := deref (List.nth_error (List.rev (pr_groups v1)) 0) in Ok (match (gi_group v2) with GKeyword k => KwType_beq (kw_t k) Kw_MAINTENANCE_INDICATOR | _ => false end)) (
    None)))).

Definition t_ParserSyntaxMaintenanceIndicator_maintenanceIndicatorAtTheEndOfMetarRemark : option N :=
    step 1467 (((parse true) "METAR BGTL 092056Z AUTO 30007KT 9999 CLR 02/00 A2954 RMK AO2 SLP989 T00150003 58001 PNO TSNO $" 200%nat)) (fun v1 => 
    chk 1470 (Ok (ReportType_beq (md_type (pr_metadata v1)) RT_METAR)) (
    chk 1471 (Ok (ReportError_beq (md_error (pr_metadata v1)) RE_NONE)) (
    chk 1472 (let! v2 := deref (List.nth_error (List.rev (pr_groups v1)) 0) in Ok (match (gi_group v2) with GKeyword k => KwType_beq (kw_t k) Kw_MAINTENANCE_INDICATOR | _ => false end)) (
    None)))).

Definition t_ParserSyntaxMaintenanceIndicator_maintenanceIndicatorAtTheEndOfMetarRemarkWithReportEndDesignator : option N :=
    step 1478 (((parse true) "METAR BGTL 092056Z AUTO 30007KT 9999 CLR 02/00 A2954 RMK AO2 SLP989 T00150003 58001 PNO TSNO $=" 200%nat)) (fun v1 => 
    chk 1481 (Ok (ReportType_beq (md_type (pr_metadata v1)) RT_METAR)) (
    chk 1482 (Ok (ReportError_beq (md_error (pr_metadata v1)) RE_NONE)) (
    chk 1483 (let! v2 := deref (List.nth_error (List.rev (pr_groups v1)) 0) in Ok (match (gi_group v2) with GKeyword k => KwType_beq (kw_t k) Kw_MAINTENANCE_INDICATOR | _ => false end)) (
    None)))).

Definition t_ParserSyntaxMaintenanceIndicator_maintenanceIndicatorAtTheEndOfTaf : option N :=
    step 1487 (((parse true) "TAF ENLE 101100Z 1012/1021 24028KT 9999 FEW020TCU BKN035 $" 200%nat)) (fun v1 => 
    chk 1489 (Ok (ReportType_beq (md_type (pr_metadata v1)) RT_TAF)) (
    chk 1490 (Ok (ReportError_beq (md_error (pr_metadata v1)) RE_MAINTENANCE_INDICATOR_ALLOWED_IN_METAR_ONLY)) (
    chk 1492 (let! v2 := deref (List.nth_error (List.rev (pr_groups v1)) 0) in Ok (match (gi_group v2) with GKeyword k => KwType_beq (kw_t k) Kw_MAINTENANCE_INDICATOR | _ => false end)) (
    None)))).

Definition t_ParserSyntaxMaintenanceIndicator_maintenanceIndicatorAtTheEndOfTafRemark : option N :=
    step 1496 (((parse true) "TAF ENLE 101100Z 1012/1021 24028KT 9999 FEW020TCU BKN035 RMK TEST $" 200%nat)) (fun v1 => 
    chk 1498 (Ok (ReportType_beq (md_type (pr_metadata v1)) RT_TAF)) (
    chk 1499 (Ok (ReportError_beq (md_error (pr_metadata v1)) RE_MAINTENANCE_INDICATOR_ALLOWED_IN_METAR_ONLY)) (
    chk 1501 (let! v2 := deref (List.nth_error (List.rev (pr_groups v1)) 0) in Ok (match (gi_group v2) with GKeyword k => KwType_beq (kw_t k) Kw_MAINTENANCE_INDICATOR | _ => false end)) (
    None)))).

Definition t_ParserSyntaxMaintenanceIndicator_maintenanceIndicatorInTheMiddleOfMetar : option N :=
    step 1505 (((parse true) "METAR BGTL 092056Z AUTO 30007KT 9999 CLR $ 02/00 A2954 RMK AO2 SLP989 T00150003 58001 PNO TSNO" 200%nat)) (fun v1 => 
    chk 1508 (Ok (ReportType_beq (md_type (pr_metadata v1)) RT_METAR)) (
    chk 1509 (Ok (ReportError_beq (md_error (pr_metadata v1)) RE_NONE)) (
    None))).

Definition t_ParserSyntaxMaintenanceIndicator_maintenanceIndicatorInTheMiddleOfMetarRemark : option N :=
    step 1513 (((parse true) "METAR BGTL 092056Z AUTO 30007KT 9999 CLR 02/00 A2954 RMK AO2 SLP989 T00150003 $ 58001 PNO TSNO" 200%nat)) (fun v1 => 
    chk 1516 (Ok (ReportType_beq (md_type (pr_metadata v1)) RT_METAR)) (
    chk 1517 (Ok (ReportError_beq (md_error (pr_metadata v1)) RE_NONE)) (
    None))).

Definition t_ParserSyntaxMaintenanceIndicator_maintenanceIndicatorInTheMiddleOfTaf : option N :=
    step 1521 (((parse true) "TAF ENLE 101100Z 1012/1021 24028KT 9999 $ FEW020TCU BKN035" 200%nat)) (fun v1 => 
    chk 1523 (Ok (ReportType_beq (md_type (pr_metadata v1)) RT_TAF)) (
    chk 1524 (Ok (ReportError_beq (md_error (pr_metadata v1)) RE_MAINTENANCE_INDICATOR_ALLOWED_IN_METAR_ONLY)) (
    chk 1526 (let! v2 := deref (List.nth_error (List.rev (pr_groups v1)) 0) in Ok (match (gi_group v2) with GKeyword k => KwType_beq (kw_t k) Kw_MAINTENANCE_INDICATOR | _ => false end)) (
    None)))).

Definition t_ParserSyntaxMaintenanceIndicator_maintenanceIndicatorInTheMiddleOfTafRemark : option N :=
    step 1530 (((parse true) "TAF ENLE 101100Z 1012/1021 24028KT 9999 FEW020TCU BKN035 RMK TEST $ TEST" 200%nat)) (fun v1 => 
    chk 1532 (Ok (ReportType_beq (md_type (pr_metadata v1)) RT_TAF)) (
    chk 1533 (Ok (ReportError_beq (md_error (pr_metadata v1)) RE_MAINTENANCE_INDICATOR_ALLOWED_IN_METAR_ONLY)) (
    chk 1535 (let! v2 := deref (List.nth_error (List.rev (pr_groups v1)) 0) in Ok (match (gi_group v2) with GKeyword k => KwType_beq (kw_t k) Kw_MAINTENANCE_INDICATOR | _ => false end)) (
    None)))).

Definition t_ParserSyntaxMaintenanceIndicator_maintenanceIndicatorAfterNil : option N :=
    step 1539 (((parse true) "METAR ZZZZ 041115Z NIL $" 200%nat)) (fun v1 => 
    chk 1540 (Ok (ReportType_beq (md_type (pr_metadata v1)) RT_METAR)) (
    chk 1541 (Ok (ReportError_beq (md_error (pr_metadata v1)) RE_UNEXPECTED_GROUP_AFTER_NIL)) (
    None))).

Definition t_ParserAppended_appendedGroups : option N :=
    step 1551 (((parse true) "METAR KLGA 111951Z 04004KT 2 1/2SM HZ BKN008 OVC015 23/21 A3012 RMK AO2 SFC VIS 4 SLP198 T02330206=" 200%nat)) (fun v1 => 
    chk 1554 (Ok (ReportType_beq (md_type (pr_metadata v1)) RT_METAR)) (
    chk 1555 (Ok (ReportError_beq (md_error (pr_metadata v1)) RE_NONE)) (
    chk 1557 (Ok (N.eqb (N.of_nat (List.length (pr_groups v1))) 15%N)) (
    chk 1559 (let! v2 := deref (List.nth_error (pr_groups v1) 0%nat) in Ok (match (gi_group v2) with GKeyword k => KwType_beq (kw_t k) Kw_METAR | _ => false end)) (
    chk 1560 (let! v3 := deref (List.nth_error (pr_groups v1) 1%nat) in Ok (match (gi_group v3) with GLocation _ => true | _ => false end)) (
    chk 1561 (let! v4 := deref (List.nth_error (pr_groups v1) 2%nat) in Ok (match (gi_group v4) with GReportTime _ => true | _ => false end)) (
    chk 1562 (let! v5 := deref (List.nth_error (pr_groups v1) 3%nat) in Ok (match (gi_group v5) with GWind _ => true | _ => false end)) (
    chk 1563 (let! v6 := deref (List.nth_error (pr_groups v1) 4%nat) in Ok (match (gi_group v6) with GVisibility _ => true | _ => false end)) (
    chk 1564 (let! v7 := deref (List.nth_error (pr_groups v1) 5%nat) in Ok (match (gi_group v7) with GWeather _ => true | _ => false end)) (
    chk 1565 (let! v8 := deref (List.nth_error (pr_groups v1) 6%nat) in Ok (match (gi_group v8) with GCloud _ => true | _ => false end)) (
    chk 1566 (let! v9 := deref (List.nth_error (pr_groups v1) 7%nat) in Ok (match (gi_group v9) with GCloud _ => true | _ => false end)) (
    chk 1567 (let! v10 := deref (List.nth_error (pr_groups v1) 8%nat) in Ok (match (gi_group v10) with GTemperature _ => true | _ => false end)) (
    chk 1568 (let! v11 := deref (List.nth_error (pr_groups v1) 9%nat) in Ok (match (gi_group v11) with GPressure _ => true | _ => false end)) (
    chk 1569 (let! v12 := deref (List.nth_error (pr_groups v1) 10%nat) in Ok (match (gi_group v12) with GKeyword k => KwType_beq (kw_t k) Kw_RMK | _ => false end)) (
    chk 1570 (let! v13 := deref (List.nth_error (pr_groups v1) 11%nat) in Ok (match (gi_group v13) with GKeyword _ => true | _ => false end)) (
    chk 1571 (let! v14 := deref (List.nth_error (pr_groups v1) 12%nat) in Ok (match (gi_group v14) with GVisibility _ => true | _ => false end)) (
    chk 1572 (let! v15 := deref (List.nth_error (pr_groups v1) 13%nat) in Ok (match (gi_group v15) with GPressure _ => true | _ => false end)) (
    chk 1573 (let! v16 := deref (List.nth_error (pr_groups v1) 14%nat) in Ok (match (gi_group v16) with GTemperature _ => true | _ => false end)) (
    None))))))))))))))))))).

Definition t_ParserReparsedGroups_reparsedGroups : option N :=
    step 1584 (((parse true) "METAR ZZZZ 010000Z 00000KT RMK FU BKN001 FU NE-E=" 200%nat)) (fun v1 => 
    chk 1587 (Ok (ReportType_beq (md_type (pr_metadata v1)) RT_METAR)) (
    chk 1588 (Ok (ReportError_beq (md_error (pr_metadata v1)) RE_NONE)) (
    chk 1590 (Ok (N.eqb (N.of_nat (List.length (pr_groups v1))) 7%N)) (
    chk 1592 (let! v2 := deref (List.nth_error (pr_groups v1) 0%nat) in Ok (match (gi_group v2) with GKeyword k => KwType_beq (kw_t k) Kw_METAR | _ => false end)) (
    chk 1593 (let! v3 := deref (List.nth_error (pr_groups v1) 0%nat) in Ok (String.eqb (gi_rawString v3) "METAR")) (
    chk 1594 (let! v4 := deref (List.nth_error (pr_groups v1) 0%nat) in Ok (ReportPart_beq (gi_reportPart v4) RP_HEADER)) (
    chk 1596 (let! v5 := deref (List.nth_error (pr_groups v1) 1%nat) in Ok (match (gi_group v5) with GLocation _ => true | _ => false end)) (
    chk 1597 (let! v6 := deref (List.nth_error (pr_groups v1) 1%nat) in Ok (String.eqb (gi_rawString v6) "ZZZZ")) (
    chk 1598 (let! v7 := deref (List.nth_error (pr_groups v1) 1%nat) in Ok (ReportPart_beq (gi_reportPart v7) RP_HEADER)) (
    chk 1600 (let! v8 := deref (List.nth_error (pr_groups v1) 2%nat) in Ok (match (gi_group v8) with GReportTime _ => true | _ => false end)) (
    chk 1601 (let! v9 := deref (List.nth_error (pr_groups v1) 2%nat) in Ok (String.eqb (gi_rawString v9) "010000Z")) (
    chk 1602 (let! v10 := deref (List.nth_error (pr_groups v1) 2%nat) in Ok (ReportPart_beq (gi_reportPart v10) RP_HEADER)) (
    chk 1604 (let! v11 := deref (List.nth_error (pr_groups v1) 3%nat) in Ok (match (gi_group v11) with GWind _ => true | _ => false end)) (
    chk 1605 (let! v12 := deref (List.nth_error (pr_groups v1) 3%nat) in Ok (String.eqb (gi_rawString v12) "00000KT")) (
    chk 1606 (let! v13 := deref (List.nth_error (pr_groups v1) 3%nat) in Ok (ReportPart_beq (gi_reportPart v13) RP_METAR)) (
    chk 1608 (let! v14 := deref (List.nth_error (pr_groups v1) 4%nat) in Ok (match (gi_group v14) with GKeyword k => KwType_beq (kw_t k) Kw_RMK | _ => false end)) (
    chk 1609 (let! v15 := deref (List.nth_error (pr_groups v1) 4%nat) in Ok (String.eqb (gi_rawString v15) "RMK")) (
    chk 1610 (let! v16 := deref (List.nth_error (pr_groups v1) 4%nat) in Ok (ReportPart_beq (gi_reportPart v16) RP_METAR)) (
    chk 1612 (let! v17 := deref (List.nth_error (pr_groups v1) 5%nat) in Ok (match (gi_group v17) with GCloud _ => true | _ => false end)) (
    chk 1613 (let! v18 := deref (List.nth_error (pr_groups v1) 5%nat) in Ok (String.eqb (gi_rawString v18) "FU BKN001")) (
    chk 1614 (let! v19 := deref (List.nth_error (pr_groups v1) 5%nat) in Ok (ReportPart_beq (gi_reportPart v19) RP_RMK)) (
    chk 1616 (let! v20 := deref (List.nth_error (pr_groups v1) 6%nat) in Ok (match (gi_group v20) with GVicinity _ => true | _ => false end)) (
    chk 1617 (let! v21 := deref (List.nth_error (pr_groups v1) 6%nat) in Ok (String.eqb (gi_rawString v21) "FU NE-E")) (
    chk 1618 (let! v22 := deref (List.nth_error (pr_groups v1) 6%nat) in Ok (ReportPart_beq (gi_reportPart v22) RP_RMK)) (
    None))))))))))))))))))))))))).

Definition t_ParserResultReportPartAndRawString_metar : option N :=
    step 1631 (((parse true) "METAR LMML 092045Z 14004KT 9999 FEW020 25/21 Q1020 NOSIG RMK LAST" 200%nat)) (fun v1 => 
    chk 1634 (Ok (N.eqb (N.of_nat (List.length (pr_groups v1))) 11%N)) (
    chk 1636 (let! v2 := deref (List.nth_error (pr_groups v1) 0%nat) in Ok (match (gi_group v2) with GKeyword k => KwType_beq (kw_t k) Kw_METAR | _ => false end)) (
    chk 1637 (let! v3 := deref (List.nth_error (pr_groups v1) 0%nat) in Ok (String.eqb (gi_rawString v3) "METAR")) (
    chk 1638 (let! v4 := deref (List.nth_error (pr_groups v1) 0%nat) in Ok (ReportPart_beq (gi_reportPart v4) RP_HEADER)) (
    chk 1640 (let! v5 := deref (List.nth_error (pr_groups v1) 1%nat) in Ok (match (gi_group v5) with GLocation _ => true | _ => false end)) (
    chk 1641 (let! v6 := deref (List.nth_error (pr_groups v1) 1%nat) in Ok (String.eqb (gi_rawString v6) "LMML")) (
    chk 1642 (let! v7 := deref (List.nth_error (pr_groups v1) 1%nat) in Ok (ReportPart_beq (gi_reportPart v7) RP_HEADER)) (
    chk 1644 (let! v8 := deref (List.nth_error (pr_groups v1) 2%nat) in Ok (match (gi_group v8) with GReportTime _ => true | _ => false end)) (
    chk 1645 (let! v9 := deref (List.nth_error (pr_groups v1) 2%nat) in Ok (String.eqb (gi_rawString v9) "092045Z")) (
    chk 1646 (let! v10 := deref (List.nth_error (pr_groups v1) 2%nat) in Ok (ReportPart_beq (gi_reportPart v10) RP_HEADER)) (
    chk 1648 (let! v11 := deref (List.nth_error (pr_groups v1) 3%nat) in Ok (match (gi_group v11) with GWind _ => true | _ => false end)) (
    chk 1649 (let! v12 := deref (List.nth_error (pr_groups v1) 3%nat) in Ok (String.eqb (gi_rawString v12) "14004KT")) (
    chk 1650 (let! v13 := deref (List.nth_error (pr_groups v1) 3%nat) in Ok (ReportPart_beq (gi_reportPart v13) RP_METAR)) (
    chk 1652 (let! v14 := deref (List.nth_error (pr_groups v1) 4%nat) in Ok (match (gi_group v14) with GVisibility _ => true | _ => false end)) (
    chk 1653 (let! v15 := deref (List.nth_error (pr_groups v1) 4%nat) in Ok (String.eqb (gi_rawString v15) "9999")) (
    chk 1654 (let! v16 := deref (List.nth_error (pr_groups v1) 4%nat) in Ok (ReportPart_beq (gi_reportPart v16) RP_METAR)) (
    chk 1656 (let! v17 := deref (List.nth_error (pr_groups v1) 5%nat) in Ok (match (gi_group v17) with GCloud _ => true | _ => false end)) (
    chk 1657 (let! v18 := deref (List.nth_error (pr_groups v1) 5%nat) in Ok (String.eqb (gi_rawString v18) "FEW020")) (
    chk 1658 (let! v19 := deref (List.nth_error (pr_groups v1) 5%nat) in Ok (ReportPart_beq (gi_reportPart v19) RP_METAR)) (
    chk 1660 (let! v20 := deref (List.nth_error (pr_groups v1) 6%nat) in Ok (match (gi_group v20) with GTemperature _ => true | _ => false end)) (
    chk 1661 (let! v21 := deref (List.nth_error (pr_groups v1) 6%nat) in Ok (String.eqb (gi_rawString v21) "25/21")) (
    chk 1662 (let! v22 := deref (List.nth_error (pr_groups v1) 6%nat) in Ok (ReportPart_beq (gi_reportPart v22) RP_METAR)) (
    chk 1664 (let! v23 := deref (List.nth_error (pr_groups v1) 7%nat) in Ok (match (gi_group v23) with GPressure _ => true | _ => false end)) (
    chk 1665 (let! v24 := deref (List.nth_error (pr_groups v1) 7%nat) in Ok (String.eqb (gi_rawString v24) "Q1020")) (
    chk 1666 (let! v25 := deref (List.nth_error (pr_groups v1) 7%nat) in Ok (ReportPart_beq (gi_reportPart v25) RP_METAR)) (
    chk 1668 (let! v26 := deref (List.nth_error (pr_groups v1) 8%nat) in Ok (match (gi_group v26) with GTrend _ => true | _ => false end)) (
    chk 1669 (let! v27 := deref (List.nth_error (pr_groups v1) 8%nat) in Ok (String.eqb (gi_rawString v27) "NOSIG")) (
    chk 1670 (let! v28 := deref (List.nth_error (pr_groups v1) 8%nat) in Ok (ReportPart_beq (gi_reportPart v28) RP_METAR)) (
    chk 1672 (let! v29 := deref (List.nth_error (pr_groups v1) 9%nat) in Ok (match (gi_group v29) with GKeyword k => KwType_beq (kw_t k) Kw_RMK | _ => false end)) (
    chk 1673 (let! v30 := deref (List.nth_error (pr_groups v1) 9%nat) in Ok (String.eqb (gi_rawString v30) "RMK")) (
    chk 1674 (let! v31 := deref (List.nth_error (pr_groups v1) 9%nat) in Ok (ReportPart_beq (gi_reportPart v31) RP_METAR)) (
    chk 1676 (let! v32 := deref (List.nth_error (pr_groups v1) 10%nat) in Ok (match (gi_group v32) with GUnknown _ => true | _ => false end)) (
    chk 1677 (let! v33 := deref (List.nth_error (pr_groups v1) 10%nat) in Ok (String.eqb (gi_rawString v33) "LAST")) (
    chk 1678 (let! v34 := deref (List.nth_error (pr_groups v1) 10%nat) in Ok (ReportPart_beq (gi_reportPart v34) RP_RMK)) (
    None))))))))))))))))))))))))))))))))))).

Definition t_ParserResultReportPartAndRawString_taf : option N :=
    step 1682 (((parse true) "TAF CYVQ 091738Z 0918/1006 VRB03KT P6SM FEW003 SCT120 BKN210 FM092000 25006KT P6SM FEW080 BKN120 BKN210 RMK LAST" 200%nat)) (fun v1 => 
    chk 1686 (Ok (ReportType_beq (md_type (pr_metadata v1)) RT_TAF)) (
    chk 1687 (Ok (ReportError_beq (md_error (pr_metadata v1)) RE_NONE)) (
    chk 1689 (Ok (N.eqb (N.of_nat (List.length (pr_groups v1))) 17%N)) (
    chk 1691 (let! v2 := deref (List.nth_error (pr_groups v1) 0%nat) in Ok (match (gi_group v2) with GKeyword k => KwType_beq (kw_t k) Kw_TAF | _ => false end)) (
    chk 1692 (let! v3 := deref (List.nth_error (pr_groups v1) 0%nat) in Ok (String.eqb (gi_rawString v3) "TAF")) (
    chk 1693 (let! v4 := deref (List.nth_error (pr_groups v1) 0%nat) in Ok (ReportPart_beq (gi_reportPart v4) RP_HEADER)) (
    chk 1695 (let! v5 := deref (List.nth_error (pr_groups v1) 1%nat) in Ok (match (gi_group v5) with GLocation _ => true | _ => false end)) (
    chk 1696 (let! v6 := deref (List.nth_error (pr_groups v1) 1%nat) in Ok (String.eqb (gi_rawString v6) "CYVQ")) (
    chk 1697 (let! v7 := deref (List.nth_error (pr_groups v1) 1%nat) in Ok (ReportPart_beq (gi_reportPart v7) RP_HEADER)) (
    chk 1699 (let! v8 := deref (List.nth_error (pr_groups v1) 2%nat) in Ok (match (gi_group v8) with GReportTime _ => true | _ => false end)) (
    chk 1700 (let! v9 := deref (List.nth_error (pr_groups v1) 2%nat) in Ok (String.eqb (gi_rawString v9) "091738Z")) (
    chk 1701 (let! v10 := deref (List.nth_error (pr_groups v1) 2%nat) in Ok (ReportPart_beq (gi_reportPart v10) RP_HEADER)) (
    chk 1703 (let! v11 := deref (List.nth_error (pr_groups v1) 3%nat) in Ok (match (gi_group v11) with GTrend k => Trend_isTimeSpanGroup k | _ => false end)) (
    chk 1704 (let! v12 := deref (List.nth_error (pr_groups v1) 3%nat) in Ok (String.eqb (gi_rawString v12) "0918/1006")) (
    chk 1705 (let! v13 := deref (List.nth_error (pr_groups v1) 3%nat) in Ok (ReportPart_beq (gi_reportPart v13) RP_HEADER)) (
    chk 1707 (let! v14 := deref (List.nth_error (pr_groups v1) 4%nat) in Ok (match (gi_group v14) with GWind _ => true | _ => false end)) (
    chk 1708 (let! v15 := deref (List.nth_error (pr_groups v1) 4%nat) in Ok (String.eqb (gi_rawString v15) "VRB03KT")) (
    chk 1709 (let! v16 := deref (List.nth_error (pr_groups v1) 4%nat) in Ok (ReportPart_beq (gi_reportPart v16) RP_TAF)) (
    chk 1711 (let! v17 := deref (List.nth_error (pr_groups v1) 5%nat) in Ok (match (gi_group v17) with GVisibility _ => true | _ => false end)) (
    chk 1712 (let! v18 := deref (List.nth_error (pr_groups v1) 5%nat) in Ok (String.eqb (gi_rawString v18) "P6SM")) (
    chk 1713 (let! v19 := deref (List.nth_error (pr_groups v1) 5%nat) in Ok (ReportPart_beq (gi_reportPart v19) RP_TAF)) (
    chk 1715 (let! v20 := deref (List.nth_error (pr_groups v1) 6%nat) in Ok (match (gi_group v20) with GCloud _ => true | _ => false end)) (
    chk 1716 (let! v21 := deref (List.nth_error (pr_groups v1) 6%nat) in Ok (String.eqb (gi_rawString v21) "FEW003")) (
    chk 1717 (let! v22 := deref (List.nth_error (pr_groups v1) 6%nat) in Ok (ReportPart_beq (gi_reportPart v22) RP_TAF)) (
    chk 1719 (let! v23 := deref (List.nth_error (pr_groups v1) 7%nat) in Ok (match (gi_group v23) with GCloud _ => true | _ => false end)) (
    chk 1720 (let! v24 := deref (List.nth_error (pr_groups v1) 7%nat) in Ok (String.eqb (gi_rawString v24) "SCT120")) (
    chk 1721 (let! v25 := deref (List.nth_error (pr_groups v1) 7%nat) in Ok (ReportPart_beq (gi_reportPart v25) RP_TAF)) (
    chk 1723 (let! v26 := deref (List.nth_error (pr_groups v1) 8%nat) in Ok (match (gi_group v26) with GCloud _ => true | _ => false end)) (
    chk 1724 (let! v27 := deref (List.nth_error (pr_groups v1) 8%nat) in Ok (String.eqb (gi_rawString v27) "BKN210")) (
    chk 1725 (let! v28 := deref (List.nth_error (pr_groups v1) 8%nat) in Ok (ReportPart_beq (gi_reportPart v28) RP_TAF)) (
    chk 1727 (let! v29 := deref (List.nth_error (pr_groups v1) 9%nat) in Ok (match (gi_group v29) with GTrend _ => true | _ => false end)) (
    chk 1728 (let! v30 := deref (List.nth_error (pr_groups v1) 9%nat) in Ok (String.eqb (gi_rawString v30) "FM092000")) (
    chk 1729 (let! v31 := deref (List.nth_error (pr_groups v1) 9%nat) in Ok (ReportPart_beq (gi_reportPart v31) RP_TAF)) (
    chk 1731 (let! v32 := deref (List.nth_error (pr_groups v1) 10%nat) in Ok (match (gi_group v32) with GWind _ => true | _ => false end)) (
    chk 1732 (let! v33 := deref (List.nth_error (pr_groups v1) 10%nat) in Ok (String.eqb (gi_rawString v33) "25006KT")) (
    chk 1733 (let! v34 := deref (List.nth_error (pr_groups v1) 10%nat) in Ok (ReportPart_beq (gi_reportPart v34) RP_TAF)) (
    chk 1735 (let! v35 := deref (List.nth_error (pr_groups v1) 11%nat) in Ok (match (gi_group v35) with GVisibility _ => true | _ => false end)) (
    chk 1736 (let! v36 := deref (List.nth_error (pr_groups v1) 11%nat) in Ok (String.eqb (gi_rawString v36) "P6SM")) (
    chk 1737 (let! v37 := deref (List.nth_error (pr_groups v1) 11%nat) in Ok (ReportPart_beq (gi_reportPart v37) RP_TAF)) (
    chk 1739 (let! v38 := deref (List.nth_error (pr_groups v1) 12%nat) in Ok (match (gi_group v38) with GCloud _ => true | _ => false end)) (
    chk 1740 (let! v39 := deref (List.nth_error (pr_groups v1) 12%nat) in Ok (String.eqb (gi_rawString v39) "FEW080")) (
    chk 1741 (let! v40 := deref (List.nth_error (pr_groups v1) 12%nat) in Ok (ReportPart_beq (gi_reportPart v40) RP_TAF)) (
    chk 1743 (let! v41 := deref (List.nth_error (pr_groups v1) 13%nat) in Ok (match (gi_group v41) with GCloud _ => true | _ => false end)) (
    chk 1744 (let! v42 := deref (List.nth_error (pr_groups v1) 13%nat) in Ok (String.eqb (gi_rawString v42) "BKN120")) (
    chk 1745 (let! v43 := deref (List.nth_error (pr_groups v1) 13%nat) in Ok (ReportPart_beq (gi_reportPart v43) RP_TAF)) (
    chk 1747 (let! v44 := deref (List.nth_error (pr_groups v1) 14%nat) in Ok (match (gi_group v44) with GCloud _ => true | _ => false end)) (
    chk 1748 (let! v45 := deref (List.nth_error (pr_groups v1) 14%nat) in Ok (String.eqb (gi_rawString v45) "BKN210")) (
    chk 1749 (let! v46 := deref (List.nth_error (pr_groups v1) 14%nat) in Ok (ReportPart_beq (gi_reportPart v46) RP_TAF)) (
    chk 1751 (let! v47 := deref (List.nth_error (pr_groups v1) 15%nat) in Ok (match (gi_group v47) with GKeyword k => KwType_beq (kw_t k) Kw_RMK | _ => false end)) (
    chk 1752 (let! v48 := deref (List.nth_error (pr_groups v1) 15%nat) in Ok (String.eqb (gi_rawString v48) "RMK")) (
    chk 1753 (let! v49 := deref (List.nth_error (pr_groups v1) 15%nat) in Ok (ReportPart_beq (gi_reportPart v49) RP_TAF)) (
    chk 1755 (let! v50 := deref (List.nth_error (pr_groups v1) 16%nat) in Ok (match (gi_group v50) with GUnknown _ => true | _ => false end)) (
    chk 1756 (let! v51 := deref (List.nth_error (pr_groups v1) 16%nat) in Ok (String.eqb (gi_rawString v51) "LAST")) (
    chk 1757 (let! v52 := deref (List.nth_error (pr_groups v1) 16%nat) in Ok (ReportPart_beq (gi_reportPart v52) RP_RMK)) (
    None))))))))))))))))))))))))))))))))))))))))))))))))))))))).

Definition t_ParserResultReportPartAndRawString_autodetectMetar : option N :=
    step 1761 (((parse true) "CYEV 092000Z 25007KT 15SM FEW030 BKN085 OVC250 08/02 A2999 RMK SC1AC6CI1 SLP162" 200%nat)) (fun v1 => 
    chk 1763 (Ok (ReportType_beq (md_type (pr_metadata v1)) RT_METAR)) (
    chk 1764 (Ok (ReportError_beq (md_error (pr_metadata v1)) RE_NONE)) (
    chk 1765 (Ok (N.eqb (N.of_nat (List.length (pr_groups v1))) 12%N)) (
    None)))).

Definition t_ParserResultReportPartAndRawString_autodetectTaf : option N :=
    step 1769 (((parse true) "MYNN 131000Z 1312/1412 13006KT 9999 SCT018CB SCT050" 200%nat)) (fun v1 => 
    chk 1771 (Ok (ReportType_beq (md_type (pr_metadata v1)) RT_TAF)) (
    chk 1772 (Ok (ReportError_beq (md_error (pr_metadata v1)) RE_NONE)) (
    chk 1773 (Ok (N.eqb (N.of_nat (List.length (pr_groups v1))) 7%N)) (
    None)))).

Definition t_ParserResultReportPartAndRawStringParse_error : option N :=
    step 1777 (((parse true) "ZZZZ FEW010 BKN022 12/11 Q1002" 200%nat)) (fun v1 => 
    chk 1780 (Ok (ReportType_beq (md_type (pr_metadata v1)) RT_UNKNOWN)) (
    chk 1781 (Ok (ReportError_beq (md_error (pr_metadata v1)) RE_EXPECTED_REPORT_TIME)) (
    chk 1783 (Ok (N.eqb (N.of_nat (List.length (pr_groups v1))) 2%N)) (
    chk 1785 (let! v2 := deref (List.nth_error (pr_groups v1) 0%nat) in Ok (match (gi_group v2) with GLocation _ => true | _ => false end)) (
    chk 1786 (let! v3 := deref (List.nth_error (pr_groups v1) 0%nat) in Ok (String.eqb (gi_rawString v3) "ZZZZ")) (
    chk 1787 (let! v4 := deref (List.nth_error (pr_groups v1) 0%nat) in Ok (ReportPart_beq (gi_reportPart v4) RP_HEADER)) (
    chk 1789 (let! v5 := deref (List.nth_error (pr_groups v1) 1%nat) in Ok (match (gi_group v5) with GUnknown _ => true | _ => false end)) (
    chk 1790 (let! v6 := deref (List.nth_error (pr_groups v1) 1%nat) in Ok (String.eqb (gi_rawString v6) "FEW010")) (
    chk 1791 (let! v7 := deref (List.nth_error (pr_groups v1) 1%nat) in Ok (ReportPart_beq (gi_reportPart v7) RP_HEADER)) (
    None)))))))))).

Definition t_ParserResultReportPartAndRawString_appendedGroups : option N :=
    step 1795 (((parse true) "METAR KLGA 111951Z 04004KT 2 1/2SM HZ BKN008 OVC015 23/21 A3012 RMK AO2 SLP198 T02330206" 200%nat)) (fun v1 => 
    chk 1798 (Ok (ReportType_beq (md_type (pr_metadata v1)) RT_METAR)) (
    chk 1799 (Ok (ReportError_beq (md_error (pr_metadata v1)) RE_NONE)) (
    chk 1801 (Ok (N.eqb (N.of_nat (List.length (pr_groups v1))) 14%N)) (
    chk 1803 (let! v2 := deref (List.nth_error (pr_groups v1) 0%nat) in Ok (match (gi_group v2) with GKeyword k => KwType_beq (kw_t k) Kw_METAR | _ => false end)) (
    chk 1804 (let! v3 := deref (List.nth_error (pr_groups v1) 0%nat) in Ok (String.eqb (gi_rawString v3) "METAR")) (
    chk 1805 (let! v4 := deref (List.nth_error (pr_groups v1) 0%nat) in Ok (ReportPart_beq (gi_reportPart v4) RP_HEADER)) (
    chk 1807 (let! v5 := deref (List.nth_error (pr_groups v1) 1%nat) in Ok (match (gi_group v5) with GLocation _ => true | _ => false end)) (
    chk 1808 (let! v6 := deref (List.nth_error (pr_groups v1) 1%nat) in Ok (String.eqb (gi_rawString v6) "KLGA")) (
    chk 1809 (let! v7 := deref (List.nth_error (pr_groups v1) 1%nat) in Ok (ReportPart_beq (gi_reportPart v7) RP_HEADER)) (
    chk 1811 (let! v8 := deref (List.nth_error (pr_groups v1) 2%nat) in Ok (match (gi_group v8) with GReportTime _ => true | _ => false end)) (
    chk 1812 (let! v9 := deref (List.nth_error (pr_groups v1) 2%nat) in Ok (String.eqb (gi_rawString v9) "111951Z")) (
    chk 1813 (let! v10 := deref (List.nth_error (pr_groups v1) 2%nat) in Ok (ReportPart_beq (gi_reportPart v10) RP_HEADER)) (
    chk 1815 (let! v11 := deref (List.nth_error (pr_groups v1) 3%nat) in Ok (match (gi_group v11) with GWind _ => true | _ => false end)) (
    chk 1816 (let! v12 := deref (List.nth_error (pr_groups v1) 3%nat) in Ok (String.eqb (gi_rawString v12) "04004KT")) (
    chk 1817 (let! v13 := deref (List.nth_error (pr_groups v1) 3%nat) in Ok (ReportPart_beq (gi_reportPart v13) RP_METAR)) (
    chk 1819 (let! v14 := deref (List.nth_error (pr_groups v1) 4%nat) in Ok (match (gi_group v14) with GVisibility _ => true | _ => false end)) (
    chk 1820 (let! v15 := deref (List.nth_error (pr_groups v1) 4%nat) in Ok (String.eqb (gi_rawString v15) "2 1/2SM")) (
    chk 1821 (let! v16 := deref (List.nth_error (pr_groups v1) 4%nat) in Ok (ReportPart_beq (gi_reportPart v16) RP_METAR)) (
    chk 1823 (let! v17 := deref (List.nth_error (pr_groups v1) 5%nat) in Ok (match (gi_group v17) with GWeather _ => true | _ => false end)) (
    chk 1824 (let! v18 := deref (List.nth_error (pr_groups v1) 5%nat) in Ok (String.eqb (gi_rawString v18) "HZ")) (
    chk 1825 (let! v19 := deref (List.nth_error (pr_groups v1) 5%nat) in Ok (ReportPart_beq (gi_reportPart v19) RP_METAR)) (
    chk 1827 (let! v20 := deref (List.nth_error (pr_groups v1) 6%nat) in Ok (match (gi_group v20) with GCloud _ => true | _ => false end)) (
    chk 1828 (let! v21 := deref (List.nth_error (pr_groups v1) 6%nat) in Ok (String.eqb (gi_rawString v21) "BKN008")) (
    chk 1829 (let! v22 := deref (List.nth_error (pr_groups v1) 6%nat) in Ok (ReportPart_beq (gi_reportPart v22) RP_METAR)) (
    chk 1831 (let! v23 := deref (List.nth_error (pr_groups v1) 7%nat) in Ok (match (gi_group v23) with GCloud _ => true | _ => false end)) (
    chk 1832 (let! v24 := deref (List.nth_error (pr_groups v1) 7%nat) in Ok (String.eqb (gi_rawString v24) "OVC015")) (
    chk 1833 (let! v25 := deref (List.nth_error (pr_groups v1) 7%nat) in Ok (ReportPart_beq (gi_reportPart v25) RP_METAR)) (
    chk 1835 (let! v26 := deref (List.nth_error (pr_groups v1) 8%nat) in Ok (match (gi_group v26) with GTemperature _ => true | _ => false end)) (
    chk 1836 (let! v27 := deref (List.nth_error (pr_groups v1) 8%nat) in Ok (String.eqb (gi_rawString v27) "23/21")) (
    chk 1837 (let! v28 := deref (List.nth_error (pr_groups v1) 8%nat) in Ok (ReportPart_beq (gi_reportPart v28) RP_METAR)) (
    chk 1839 (let! v29 := deref (List.nth_error (pr_groups v1) 9%nat) in Ok (match (gi_group v29) with GPressure _ => true | _ => false end)) (
    chk 1840 (let! v30 := deref (List.nth_error (pr_groups v1) 9%nat) in Ok (String.eqb (gi_rawString v30) "A3012")) (
    chk 1841 (let! v31 := deref (List.nth_error (pr_groups v1) 9%nat) in Ok (ReportPart_beq (gi_reportPart v31) RP_METAR)) (
    chk 1843 (let! v32 := deref (List.nth_error (pr_groups v1) 10%nat) in Ok (match (gi_group v32) with GKeyword k => KwType_beq (kw_t k) Kw_RMK | _ => false end)) (
    chk 1844 (let! v33 := deref (List.nth_error (pr_groups v1) 10%nat) in Ok (String.eqb (gi_rawString v33) "RMK")) (
    chk 1845 (let! v34 := deref (List.nth_error (pr_groups v1) 10%nat) in Ok (ReportPart_beq (gi_reportPart v34) RP_METAR)) (
    chk 1847 (let! v35 := deref (List.nth_error (pr_groups v1) 11%nat) in Ok (match (gi_group v35) with GKeyword _ => true | _ => false end)) (
    chk 1848 (let! v36 := deref (List.nth_error (pr_groups v1) 11%nat) in Ok (String.eqb (gi_rawString v36) "AO2")) (
    chk 1849 (let! v37 := deref (List.nth_error (pr_groups v1) 11%nat) in Ok (ReportPart_beq (gi_reportPart v37) RP_RMK)) (
    chk 1851 (let! v38 := deref (List.nth_error (pr_groups v1) 12%nat) in Ok (match (gi_group v38) with GPressure _ => true | _ => false end)) (
    chk 1852 (let! v39 := deref (List.nth_error (pr_groups v1) 12%nat) in Ok (String.eqb (gi_rawString v39) "SLP198")) (
    chk 1853 (let! v40 := deref (List.nth_error (pr_groups v1) 12%nat) in Ok (ReportPart_beq (gi_reportPart v40) RP_RMK)) (
    chk 1855 (let! v41 := deref (List.nth_error (pr_groups v1) 13%nat) in Ok (match (gi_group v41) with GTemperature _ => true | _ => false end)) (
    chk 1856 (let! v42 := deref (List.nth_error (pr_groups v1) 13%nat) in Ok (String.eqb (gi_rawString v42) "T02330206")) (
    chk 1857 (let! v43 := deref (List.nth_error (pr_groups v1) 13%nat) in Ok (ReportPart_beq (gi_reportPart v43) RP_RMK)) (
    None)))))))))))))))))))))))))))))))))))))))))))))).

Definition t_ParserResultReportPartAndRawString_appendedRemarks : option N :=
    step 1861 (((parse true) "METAR LMML 092045Z 14004KT 9999 FEW020 25/21 Q1020 NOSIG RMK SMOKE TO NE" 200%nat)) (fun v1 => 
    chk 1864 (Ok (N.eqb (N.of_nat (List.length (pr_groups v1))) 11%N)) (
    chk 1866 (let! v2 := deref (List.nth_error (pr_groups v1) 0%nat) in Ok (match (gi_group v2) with GKeyword k => KwType_beq (kw_t k) Kw_METAR | _ => false end)) (
    chk 1867 (let! v3 := deref (List.nth_error (pr_groups v1) 0%nat) in Ok (String.eqb (gi_rawString v3) "METAR")) (
    chk 1868 (let! v4 := deref (List.nth_error (pr_groups v1) 0%nat) in Ok (ReportPart_beq (gi_reportPart v4) RP_HEADER)) (
    chk 1870 (let! v5 := deref (List.nth_error (pr_groups v1) 1%nat) in Ok (match (gi_group v5) with GLocation _ => true | _ => false end)) (
    chk 1871 (let! v6 := deref (List.nth_error (pr_groups v1) 1%nat) in Ok (String.eqb (gi_rawString v6) "LMML")) (
    chk 1872 (let! v7 := deref (List.nth_error (pr_groups v1) 1%nat) in Ok (ReportPart_beq (gi_reportPart v7) RP_HEADER)) (
    chk 1874 (let! v8 := deref (List.nth_error (pr_groups v1) 2%nat) in Ok (match (gi_group v8) with GReportTime _ => true | _ => false end)) (
    chk 1875 (let! v9 := deref (List.nth_error (pr_groups v1) 2%nat) in Ok (String.eqb (gi_rawString v9) "092045Z")) (
    chk 1876 (let! v10 := deref (List.nth_error (pr_groups v1) 2%nat) in Ok (ReportPart_beq (gi_reportPart v10) RP_HEADER)) (
    chk 1878 (let! v11 := deref (List.nth_error (pr_groups v1) 3%nat) in Ok (match (gi_group v11) with GWind _ => true | _ => false end)) (
    chk 1879 (let! v12 := deref (List.nth_error (pr_groups v1) 3%nat) in Ok (String.eqb (gi_rawString v12) "14004KT")) (
    chk 1880 (let! v13 := deref (List.nth_error (pr_groups v1) 3%nat) in Ok (ReportPart_beq (gi_reportPart v13) RP_METAR)) (
    chk 1882 (let! v14 := deref (List.nth_error (pr_groups v1) 4%nat) in Ok (match (gi_group v14) with GVisibility _ => true | _ => false end)) (
    chk 1883 (let! v15 := deref (List.nth_error (pr_groups v1) 4%nat) in Ok (String.eqb (gi_rawString v15) "9999")) (
    chk 1884 (let! v16 := deref (List.nth_error (pr_groups v1) 4%nat) in Ok (ReportPart_beq (gi_reportPart v16) RP_METAR)) (
    chk 1886 (let! v17 := deref (List.nth_error (pr_groups v1) 5%nat) in Ok (match (gi_group v17) with GCloud _ => true | _ => false end)) (
    chk 1887 (let! v18 := deref (List.nth_error (pr_groups v1) 5%nat) in Ok (String.eqb (gi_rawString v18) "FEW020")) (
    chk 1888 (let! v19 := deref (List.nth_error (pr_groups v1) 5%nat) in Ok (ReportPart_beq (gi_reportPart v19) RP_METAR)) (
    chk 1890 (let! v20 := deref (List.nth_error (pr_groups v1) 6%nat) in Ok (match (gi_group v20) with GTemperature _ => true | _ => false end)) (
    chk 1891 (let! v21 := deref (List.nth_error (pr_groups v1) 6%nat) in Ok (String.eqb (gi_rawString v21) "25/21")) (
    chk 1892 (let! v22 := deref (List.nth_error (pr_groups v1) 6%nat) in Ok (ReportPart_beq (gi_reportPart v22) RP_METAR)) (
    chk 1894 (let! v23 := deref (List.nth_error (pr_groups v1) 7%nat) in Ok (match (gi_group v23) with GPressure _ => true | _ => false end)) (
    chk 1895 (let! v24 := deref (List.nth_error (pr_groups v1) 7%nat) in Ok (String.eqb (gi_rawString v24) "Q1020")) (
    chk 1896 (let! v25 := deref (List.nth_error (pr_groups v1) 7%nat) in Ok (ReportPart_beq (gi_reportPart v25) RP_METAR)) (
    chk 1898 (let! v26 := deref (List.nth_error (pr_groups v1) 8%nat) in Ok (match (gi_group v26) with GTrend _ => true | _ => false end)) (
    chk 1899 (let! v27 := deref (List.nth_error (pr_groups v1) 8%nat) in Ok (String.eqb (gi_rawString v27) "NOSIG")) (
    chk 1900 (let! v28 := deref (List.nth_error (pr_groups v1) 8%nat) in Ok (ReportPart_beq (gi_reportPart v28) RP_METAR)) (
    chk 1902 (let! v29 := deref (List.nth_error (pr_groups v1) 9%nat) in Ok (match (gi_group v29) with GKeyword k => KwType_beq (kw_t k) Kw_RMK | _ => false end)) (
    chk 1903 (let! v30 := deref (List.nth_error (pr_groups v1) 9%nat) in Ok (String.eqb (gi_rawString v30) "RMK")) (
    chk 1904 (let! v31 := deref (List.nth_error (pr_groups v1) 9%nat) in Ok (ReportPart_beq (gi_reportPart v31) RP_METAR)) (
    chk 1906 (let! v32 := deref (List.nth_error (pr_groups v1) 10%nat) in Ok (match (gi_group v32) with GUnknown _ => true | _ => false end)) (
    chk 1907 (let! v33 := deref (List.nth_error (pr_groups v1) 10%nat) in Ok (String.eqb (gi_rawString v33) "SMOKE TO NE")) (
    chk 1908 (let! v34 := deref (List.nth_error (pr_groups v1) 10%nat) in Ok (ReportPart_beq (gi_reportPart v34) RP_RMK)) (
    None))))))))))))))))))))))))))))))))))).

Definition t_ParserResultReportPartAndRawString_appendedRemarksWithInvalidatedGroups : option N :=
    step 1912 (((parse true) "METAR LMML 092045Z 14004KT 9999 FEW020 25/21 Q1020 NOSIG RMK TS/LTNG TO NE" 200%nat)) (fun v1 => 
    chk 1917 (Ok (N.eqb (N.of_nat (List.length (pr_groups v1))) 11%N)) (
    chk 1919 (let! v2 := deref (List.nth_error (pr_groups v1) 0%nat) in Ok (match (gi_group v2) with GKeyword k => KwType_beq (kw_t k) Kw_METAR | _ => false end)) (
    chk 1920 (let! v3 := deref (List.nth_error (pr_groups v1) 0%nat) in Ok (String.eqb (gi_rawString v3) "METAR")) (
    chk 1921 (let! v4 := deref (List.nth_error (pr_groups v1) 0%nat) in Ok (ReportPart_beq (gi_reportPart v4) RP_HEADER)) (
    chk 1923 (let! v5 := deref (List.nth_error (pr_groups v1) 1%nat) in Ok (match (gi_group v5) with GLocation _ => true | _ => false end)) (
    chk 1924 (let! v6 := deref (List.nth_error (pr_groups v1) 1%nat) in Ok (String.eqb (gi_rawString v6) "LMML")) (
    chk 1925 (let! v7 := deref (List.nth_error (pr_groups v1) 1%nat) in Ok (ReportPart_beq (gi_reportPart v7) RP_HEADER)) (
    chk 1927 (let! v8 := deref (List.nth_error (pr_groups v1) 2%nat) in Ok (match (gi_group v8) with GReportTime _ => true | _ => false end)) (
    chk 1928 (let! v9 := deref (List.nth_error (pr_groups v1) 2%nat) in Ok (String.eqb (gi_rawString v9) "092045Z")) (
    chk 1929 (let! v10 := deref (List.nth_error (pr_groups v1) 2%nat) in Ok (ReportPart_beq (gi_reportPart v10) RP_HEADER)) (
    chk 1931 (let! v11 := deref (List.nth_error (pr_groups v1) 3%nat) in Ok (match (gi_group v11) with GWind _ => true | _ => false end)) (
    chk 1932 (let! v12 := deref (List.nth_error (pr_groups v1) 3%nat) in Ok (String.eqb (gi_rawString v12) "14004KT")) (
    chk 1933 (let! v13 := deref (List.nth_error (pr_groups v1) 3%nat) in Ok (ReportPart_beq (gi_reportPart v13) RP_METAR)) (
    chk 1935 (let! v14 := deref (List.nth_error (pr_groups v1) 4%nat) in Ok (match (gi_group v14) with GVisibility _ => true | _ => false end)) (
    chk 1936 (let! v15 := deref (List.nth_error (pr_groups v1) 4%nat) in Ok (String.eqb (gi_rawString v15) "9999")) (
    chk 1937 (let! v16 := deref (List.nth_error (pr_groups v1) 4%nat) in Ok (ReportPart_beq (gi_reportPart v16) RP_METAR)) (
    chk 1939 (let! v17 := deref (List.nth_error (pr_groups v1) 5%nat) in Ok (match (gi_group v17) with GCloud _ => true | _ => false end)) (
    chk 1940 (let! v18 := deref (List.nth_error (pr_groups v1) 5%nat) in Ok (String.eqb (gi_rawString v18) "FEW020")) (
    chk 1941 (let! v19 := deref (List.nth_error (pr_groups v1) 5%nat) in Ok (ReportPart_beq (gi_reportPart v19) RP_METAR)) (
    chk 1943 (let! v20 := deref (List.nth_error (pr_groups v1) 6%nat) in Ok (match (gi_group v20) with GTemperature _ => true | _ => false end)) (
    chk 1944 (let! v21 := deref (List.nth_error (pr_groups v1) 6%nat) in Ok (String.eqb (gi_rawString v21) "25/21")) (
    chk 1945 (let! v22 := deref (List.nth_error (pr_groups v1) 6%nat) in Ok (ReportPart_beq (gi_reportPart v22) RP_METAR)) (
    chk 1947 (let! v23 := deref (List.nth_error (pr_groups v1) 7%nat) in Ok (match (gi_group v23) with GPressure _ => true | _ => false end)) (
    chk 1948 (let! v24 := deref (List.nth_error (pr_groups v1) 7%nat) in Ok (String.eqb (gi_rawString v24) "Q1020")) (
    chk 1949 (let! v25 := deref (List.nth_error (pr_groups v1) 7%nat) in Ok (ReportPart_beq (gi_reportPart v25) RP_METAR)) (
    chk 1951 (let! v26 := deref (List.nth_error (pr_groups v1) 8%nat) in Ok (match (gi_group v26) with GTrend _ => true | _ => false end)) (
    chk 1952 (let! v27 := deref (List.nth_error (pr_groups v1) 8%nat) in Ok (String.eqb (gi_rawString v27) "NOSIG")) (
    chk 1953 (let! v28 := deref (List.nth_error (pr_groups v1) 8%nat) in Ok (ReportPart_beq (gi_reportPart v28) RP_METAR)) (
    chk 1955 (let! v29 := deref (List.nth_error (pr_groups v1) 9%nat) in Ok (match (gi_group v29) with GKeyword k => KwType_beq (kw_t k) Kw_RMK | _ => false end)) (
    chk 1956 (let! v30 := deref (List.nth_error (pr_groups v1) 9%nat) in Ok (String.eqb (gi_rawString v30) "RMK")) (
    chk 1957 (let! v31 := deref (List.nth_error (pr_groups v1) 9%nat) in Ok (ReportPart_beq (gi_reportPart v31) RP_METAR)) (
    chk 1959 (let! v32 := deref (List.nth_error (pr_groups v1) 10%nat) in Ok (match (gi_group v32) with GUnknown _ => true | _ => false end)) (
    chk 1960 (let! v33 := deref (List.nth_error (pr_groups v1) 10%nat) in Ok (String.eqb (gi_rawString v33) "TS/LTNG TO NE")) (
    chk 1961 (let! v34 := deref (List.nth_error (pr_groups v1) 10%nat) in Ok (ReportPart_beq (gi_reportPart v34) RP_RMK)) (
    None))))))))))))))))))))))))))))))))))).

Definition t_ParserResultReportPartAndRawString_appendedRemarksLastGroupValidity : option N :=
    step 1970 (((parse true) "SPECI MSLP 221550Z VRB02KT 9999 FEW020 SCT027 FEW037CB 30/23 Q1012 A2991 NOSIG RMK CB W=" 200%nat)) (fun v1 => 
    chk 1974 (Ok (N.eqb (N.of_nat (List.length (pr_groups v1))) 14%N)) (
    step 1976 (deref (List.nth_error (pr_groups v1) 13%nat)) (fun v2 => 
    chk 1977 (Ok (has_value (as_Vicinity (gi_group v2)))) (
    step 1978 (deref (as_Vicinity (gi_group v2))) (fun v3 => 
    chk 1979 (Ok (VicinityGroup_isValid v3)) (
    chk 1980 (let! v4 := deref (List.nth_error (pr_groups v1) 13%nat) in Ok (String.eqb (gi_rawString v4) "CB W")) (
    None))))))).

Definition t_ParserResultReportPartAndRawString_incompleteGroupAtTheEndOfReport : option N :=
    step 1984 (((parse true) "METAR LGRP 232250Z 13011G25KT 040V210 9999 FEW010 FEW018TCU BKN020 15/12 Q1003 WS ALL" 200%nat)) (fun v1 => 
    chk 1987 (Ok (ReportType_beq (md_type (pr_metadata v1)) RT_METAR)) (
    chk 1988 (Ok (ReportError_beq (md_error (pr_metadata v1)) RE_NONE)) (
    chk 1989 (Ok (N.eqb (N.of_nat (List.length (pr_groups v1))) 11%N)) (
    chk 1991 (let! v2 := deref (List.nth_error (pr_groups v1) 0%nat) in Ok (match (gi_group v2) with GKeyword k => KwType_beq (kw_t k) Kw_METAR | _ => false end)) (
    chk 1992 (let! v3 := deref (List.nth_error (pr_groups v1) 0%nat) in Ok (String.eqb (gi_rawString v3) "METAR")) (
    chk 1993 (let! v4 := deref (List.nth_error (pr_groups v1) 0%nat) in Ok (ReportPart_beq (gi_reportPart v4) RP_HEADER)) (
    chk 1995 (let! v5 := deref (List.nth_error (pr_groups v1) 1%nat) in Ok (match (gi_group v5) with GLocation _ => true | _ => false end)) (
    chk 1996 (let! v6 := deref (List.nth_error (pr_groups v1) 1%nat) in Ok (String.eqb (gi_rawString v6) "LGRP")) (
    chk 1997 (let! v7 := deref (List.nth_error (pr_groups v1) 1%nat) in Ok (ReportPart_beq (gi_reportPart v7) RP_HEADER)) (
    chk 1999 (let! v8 := deref (List.nth_error (pr_groups v1) 2%nat) in Ok (match (gi_group v8) with GReportTime _ => true | _ => false end)) (
    chk 2000 (let! v9 := deref (List.nth_error (pr_groups v1) 2%nat) in Ok (String.eqb (gi_rawString v9) "232250Z")) (
    chk 2001 (let! v10 := deref (List.nth_error (pr_groups v1) 2%nat) in Ok (ReportPart_beq (gi_reportPart v10) RP_HEADER)) (
    chk 2003 (let! v11 := deref (List.nth_error (pr_groups v1) 3%nat) in Ok (match (gi_group v11) with GWind _ => true | _ => false end)) (
    chk 2004 (let! v12 := deref (List.nth_error (pr_groups v1) 3%nat) in Ok (String.eqb (gi_rawString v12) "13011G25KT 040V210")) (
    chk 2005 (let! v13 := deref (List.nth_error (pr_groups v1) 3%nat) in Ok (ReportPart_beq (gi_reportPart v13) RP_METAR)) (
    chk 2007 (let! v14 := deref (List.nth_error (pr_groups v1) 4%nat) in Ok (match (gi_group v14) with GVisibility _ => true | _ => false end)) (
    chk 2008 (let! v15 := deref (List.nth_error (pr_groups v1) 4%nat) in Ok (String.eqb (gi_rawString v15) "9999")) (
    chk 2009 (let! v16 := deref (List.nth_error (pr_groups v1) 4%nat) in Ok (ReportPart_beq (gi_reportPart v16) RP_METAR)) (
    chk 2011 (let! v17 := deref (List.nth_error (pr_groups v1) 5%nat) in Ok (match (gi_group v17) with GCloud _ => true | _ => false end)) (
    chk 2012 (let! v18 := deref (List.nth_error (pr_groups v1) 5%nat) in Ok (String.eqb (gi_rawString v18) "FEW010")) (
    chk 2013 (let! v19 := deref (List.nth_error (pr_groups v1) 5%nat) in Ok (ReportPart_beq (gi_reportPart v19) RP_METAR)) (
    chk 2015 (let! v20 := deref (List.nth_error (pr_groups v1) 6%nat) in Ok (match (gi_group v20) with GCloud _ => true | _ => false end)) (
    chk 2016 (let! v21 := deref (List.nth_error (pr_groups v1) 6%nat) in Ok (String.eqb (gi_rawString v21) "FEW018TCU")) (
    chk 2017 (let! v22 := deref (List.nth_error (pr_groups v1) 6%nat) in Ok (ReportPart_beq (gi_reportPart v22) RP_METAR)) (
    chk 2019 (let! v23 := deref (List.nth_error (pr_groups v1) 7%nat) in Ok (match (gi_group v23) with GCloud _ => true | _ => false end)) (
    chk 2020 (let! v24 := deref (List.nth_error (pr_groups v1) 7%nat) in Ok (String.eqb (gi_rawString v24) "BKN020")) (
    chk 2021 (let! v25 := deref (List.nth_error (pr_groups v1) 7%nat) in Ok (ReportPart_beq (gi_reportPart v25) RP_METAR)) (
    chk 2023 (let! v26 := deref (List.nth_error (pr_groups v1) 8%nat) in Ok (match (gi_group v26) with GTemperature _ => true | _ => false end)) (
    chk 2024 (let! v27 := deref (List.nth_error (pr_groups v1) 8%nat) in Ok (String.eqb (gi_rawString v27) "15/12")) (
    chk 2025 (let! v28 := deref (List.nth_error (pr_groups v1) 8%nat) in Ok (ReportPart_beq (gi_reportPart v28) RP_METAR)) (
    chk 2027 (let! v29 := deref (List.nth_error (pr_groups v1) 9%nat) in Ok (match (gi_group v29) with GPressure _ => true | _ => false end)) (
    chk 2028 (let! v30 := deref (List.nth_error (pr_groups v1) 9%nat) in Ok (String.eqb (gi_rawString v30) "Q1003")) (
    chk 2029 (let! v31 := deref (List.nth_error (pr_groups v1) 9%nat) in Ok (ReportPart_beq (gi_reportPart v31) RP_METAR)) (
    chk 2031 (let! v32 := deref (List.nth_error (pr_groups v1) 10%nat) in Ok (match (gi_group v32) with GUnknown _ => true | _ => false end)) (
    chk 2032 (let! v33 := deref (List.nth_error (pr_groups v1) 10%nat) in Ok (String.eqb (gi_rawString v33) "WS ALL")) (
    chk 2033 (let! v34 := deref (List.nth_error (pr_groups v1) 10%nat) in Ok (ReportPart_beq (gi_reportPart v34) RP_METAR)) (
    None))))))))))))))))))))))))))))))))))))).

Definition t_ParserResultReportPartAndRawString_invalidatedGroupAtTheEndOfReport : option N :=
    step 2037 (((parse true) "METAR LMML 092045Z 14004KT 9999 FEW020 25/21 Q1020 NOSIG RMK SMOKE=" 200%nat)) (fun v1 => 
    chk 2040 (Ok (ReportType_beq (md_type (pr_metadata v1)) RT_METAR)) (
    chk 2041 (Ok (ReportError_beq (md_error (pr_metadata v1)) RE_NONE)) (
    chk 2042 (Ok (N.eqb (N.of_nat (List.length (pr_groups v1))) 11%N)) (
    chk 2044 (let! v2 := deref (List.nth_error (pr_groups v1) 0%nat) in Ok (match (gi_group v2) with GKeyword k => KwType_beq (kw_t k) Kw_METAR | _ => false end)) (
    chk 2045 (let! v3 := deref (List.nth_error (pr_groups v1) 0%nat) in Ok (String.eqb (gi_rawString v3) "METAR")) (
    chk 2046 (let! v4 := deref (List.nth_error (pr_groups v1) 0%nat) in Ok (ReportPart_beq (gi_reportPart v4) RP_HEADER)) (
    chk 2048 (let! v5 := deref (List.nth_error (pr_groups v1) 1%nat) in Ok (match (gi_group v5) with GLocation _ => true | _ => false end)) (
    chk 2049 (let! v6 := deref (List.nth_error (pr_groups v1) 1%nat) in Ok (String.eqb (gi_rawString v6) "LMML")) (
    chk 2050 (let! v7 := deref (List.nth_error (pr_groups v1) 1%nat) in Ok (ReportPart_beq (gi_reportPart v7) RP_HEADER)) (
    chk 2052 (let! v8 := deref (List.nth_error (pr_groups v1) 2%nat) in Ok (match (gi_group v8) with GReportTime _ => true | _ => false end)) (
    chk 2053 (let! v9 := deref (List.nth_error (pr_groups v1) 2%nat) in Ok (String.eqb (gi_rawString v9) "092045Z")) (
    chk 2054 (let! v10 := deref (List.nth_error (pr_groups v1) 2%nat) in Ok (ReportPart_beq (gi_reportPart v10) RP_HEADER)) (
    chk 2056 (let! v11 := deref (List.nth_error (pr_groups v1) 3%nat) in Ok (match (gi_group v11) with GWind _ => true | _ => false end)) (
    chk 2057 (let! v12 := deref (List.nth_error (pr_groups v1) 3%nat) in Ok (String.eqb (gi_rawString v12) "14004KT")) (
    chk 2058 (let! v13 := deref (List.nth_error (pr_groups v1) 3%nat) in Ok (ReportPart_beq (gi_reportPart v13) RP_METAR)) (
    chk 2060 (let! v14 := deref (List.nth_error (pr_groups v1) 4%nat) in Ok (match (gi_group v14) with GVisibility _ => true | _ => false end)) (
    chk 2061 (let! v15 := deref (List.nth_error (pr_groups v1) 4%nat) in Ok (String.eqb (gi_rawString v15) "9999")) (
    chk 2062 (let! v16 := deref (List.nth_error (pr_groups v1) 4%nat) in Ok (ReportPart_beq (gi_reportPart v16) RP_METAR)) (
    chk 2064 (let! v17 := deref (List.nth_error (pr_groups v1) 5%nat) in Ok (match (gi_group v17) with GCloud _ => true | _ => false end)) (
    chk 2065 (let! v18 := deref (List.nth_error (pr_groups v1) 5%nat) in Ok (String.eqb (gi_rawString v18) "FEW020")) (
    chk 2066 (let! v19 := deref (List.nth_error (pr_groups v1) 5%nat) in Ok (ReportPart_beq (gi_reportPart v19) RP_METAR)) (
    chk 2068 (let! v20 := deref (List.nth_error (pr_groups v1) 6%nat) in Ok (match (gi_group v20) with GTemperature _ => true | _ => false end)) (
    chk 2069 (let! v21 := deref (List.nth_error (pr_groups v1) 6%nat) in Ok (String.eqb (gi_rawString v21) "25/21")) (
    chk 2070 (let! v22 := deref (List.nth_error (pr_groups v1) 6%nat) in Ok (ReportPart_beq (gi_reportPart v22) RP_METAR)) (
    chk 2072 (let! v23 := deref (List.nth_error (pr_groups v1) 7%nat) in Ok (match (gi_group v23) with GPressure _ => true | _ => false end)) (
    chk 2073 (let! v24 := deref (List.nth_error (pr_groups v1) 7%nat) in Ok (String.eqb (gi_rawString v24) "Q1020")) (
    chk 2074 (let! v25 := deref (List.nth_error (pr_groups v1) 7%nat) in Ok (ReportPart_beq (gi_reportPart v25) RP_METAR)) (
    chk 2076 (let! v26 := deref (List.nth_error (pr_groups v1) 8%nat) in Ok (match (gi_group v26) with GTrend _ => true | _ => false end)) (
    chk 2077 (let! v27 := deref (List.nth_error (pr_groups v1) 8%nat) in Ok (String.eqb (gi_rawString v27) "NOSIG")) (
    chk 2078 (let! v28 := deref (List.nth_error (pr_groups v1) 8%nat) in Ok (ReportPart_beq (gi_reportPart v28) RP_METAR)) (
    chk 2080 (let! v29 := deref (List.nth_error (pr_groups v1) 9%nat) in Ok (match (gi_group v29) with GKeyword k => KwType_beq (kw_t k) Kw_RMK | _ => false end)) (
    chk 2081 (let! v30 := deref (List.nth_error (pr_groups v1) 9%nat) in Ok (String.eqb (gi_rawString v30) "RMK")) (
    chk 2082 (let! v31 := deref (List.nth_error (pr_groups v1) 9%nat) in Ok (ReportPart_beq (gi_reportPart v31) RP_METAR)) (
    chk 2084 (let! v32 := deref (List.nth_error (pr_groups v1) 10%nat) in Ok (match (gi_group v32) with GUnknown _ => true | _ => false end)) (
    chk 2085 (let! v33 := deref (List.nth_error (pr_groups v1) 10%nat) in Ok (String.eqb (gi_rawString v33) "SMOKE")) (
    chk 2086 (let! v34 := deref (List.nth_error (pr_groups v1) 10%nat) in Ok (ReportPart_beq (gi_reportPart v34) RP_RMK)) (
    None))))))))))))))))))))))))))))))))))))).

Definition t_ParserResultReportPartAndRawString_invalidatedGroupsFollowedByValidGroup : option N :=
    step 2090 (((parse true) "METAR LMML 092045Z 14004KT 9999 FEW020 25/21 Q1020 NOSIG RMK TS/LTNG T00560028" 200%nat)) (fun v1 => 
    chk 2096 (Ok (N.eqb (N.of_nat (List.length (pr_groups v1))) 12%N)) (
    chk 2098 (let! v2 := deref (List.nth_error (pr_groups v1) 0%nat) in Ok (match (gi_group v2) with GKeyword k => KwType_beq (kw_t k) Kw_METAR | _ => false end)) (
    chk 2099 (let! v3 := deref (List.nth_error (pr_groups v1) 0%nat) in Ok (String.eqb (gi_rawString v3) "METAR")) (
    chk 2100 (let! v4 := deref (List.nth_error (pr_groups v1) 0%nat) in Ok (ReportPart_beq (gi_reportPart v4) RP_HEADER)) (
    chk 2102 (let! v5 := deref (List.nth_error (pr_groups v1) 1%nat) in Ok (match (gi_group v5) with GLocation _ => true | _ => false end)) (
    chk 2103 (let! v6 := deref (List.nth_error (pr_groups v1) 1%nat) in Ok (String.eqb (gi_rawString v6) "LMML")) (
    chk 2104 (let! v7 := deref (List.nth_error (pr_groups v1) 1%nat) in Ok (ReportPart_beq (gi_reportPart v7) RP_HEADER)) (
    chk 2106 (let! v8 := deref (List.nth_error (pr_groups v1) 2%nat) in Ok (match (gi_group v8) with GReportTime _ => true | _ => false end)) (
    chk 2107 (let! v9 := deref (List.nth_error (pr_groups v1) 2%nat) in Ok (String.eqb (gi_rawString v9) "092045Z")) (
    chk 2108 (let! v10 := deref (List.nth_error (pr_groups v1) 2%nat) in Ok (ReportPart_beq (gi_reportPart v10) RP_HEADER)) (
    chk 2110 (let! v11 := deref (List.nth_error (pr_groups v1) 3%nat) in Ok (match (gi_group v11) with GWind _ => true | _ => false end)) (
    chk 2111 (let! v12 := deref (List.nth_error (pr_groups v1) 3%nat) in Ok (String.eqb (gi_rawString v12) "14004KT")) (
    chk 2112 (let! v13 := deref (List.nth_error (pr_groups v1) 3%nat) in Ok (ReportPart_beq (gi_reportPart v13) RP_METAR)) (
    chk 2114 (let! v14 := deref (List.nth_error (pr_groups v1) 4%nat) in Ok (match (gi_group v14) with GVisibility _ => true | _ => false end)) (
    chk 2115 (let! v15 := deref (List.nth_error (pr_groups v1) 4%nat) in Ok (String.eqb (gi_rawString v15) "9999")) (
    chk 2116 (let! v16 := deref (List.nth_error (pr_groups v1) 4%nat) in Ok (ReportPart_beq (gi_reportPart v16) RP_METAR)) (
    chk 2118 (let! v17 := deref (List.nth_error (pr_groups v1) 5%nat) in Ok (match (gi_group v17) with GCloud _ => true | _ => false end)) (
    chk 2119 (let! v18 := deref (List.nth_error (pr_groups v1) 5%nat) in Ok (String.eqb (gi_rawString v18) "FEW020")) (
    chk 2120 (let! v19 := deref (List.nth_error (pr_groups v1) 5%nat) in Ok (ReportPart_beq (gi_reportPart v19) RP_METAR)) (
    chk 2122 (let! v20 := deref (List.nth_error (pr_groups v1) 6%nat) in Ok (match (gi_group v20) with GTemperature _ => true | _ => false end)) (
    chk 2123 (let! v21 := deref (List.nth_error (pr_groups v1) 6%nat) in Ok (String.eqb (gi_rawString v21) "25/21")) (
    chk 2124 (let! v22 := deref (List.nth_error (pr_groups v1) 6%nat) in Ok (ReportPart_beq (gi_reportPart v22) RP_METAR)) (
    chk 2126 (let! v23 := deref (List.nth_error (pr_groups v1) 7%nat) in Ok (match (gi_group v23) with GPressure _ => true | _ => false end)) (
    chk 2127 (let! v24 := deref (List.nth_error (pr_groups v1) 7%nat) in Ok (String.eqb (gi_rawString v24) "Q1020")) (
    chk 2128 (let! v25 := deref (List.nth_error (pr_groups v1) 7%nat) in Ok (ReportPart_beq (gi_reportPart v25) RP_METAR)) (
    chk 2130 (let! v26 := deref (List.nth_error (pr_groups v1) 8%nat) in Ok (match (gi_group v26) with GTrend _ => true | _ => false end)) (
    chk 2131 (let! v27 := deref (List.nth_error (pr_groups v1) 8%nat) in Ok (String.eqb (gi_rawString v27) "NOSIG")) (
    chk 2132 (let! v28 := deref (List.nth_error (pr_groups v1) 8%nat) in Ok (ReportPart_beq (gi_reportPart v28) RP_METAR)) (
    chk 2134 (let! v29 := deref (List.nth_error (pr_groups v1) 9%nat) in Ok (match (gi_group v29) with GKeyword k => KwType_beq (kw_t k) Kw_RMK | _ => false end)) (
    chk 2135 (let! v30 := deref (List.nth_error (pr_groups v1) 9%nat) in Ok (String.eqb (gi_rawString v30) "RMK")) (
    chk 2136 (let! v31 := deref (List.nth_error (pr_groups v1) 9%nat) in Ok (ReportPart_beq (gi_reportPart v31) RP_METAR)) (
    chk 2138 (let! v32 := deref (List.nth_error (pr_groups v1) 10%nat) in Ok (match (gi_group v32) with GUnknown _ => true | _ => false end)) (
    chk 2139 (let! v33 := deref (List.nth_error (pr_groups v1) 10%nat) in Ok (String.eqb (gi_rawString v33) "TS/LTNG")) (
    chk 2140 (let! v34 := deref (List.nth_error (pr_groups v1) 10%nat) in Ok (ReportPart_beq (gi_reportPart v34) RP_RMK)) (
    chk 2142 (let! v35 := deref (List.nth_error (pr_groups v1) 11%nat) in Ok (match (gi_group v35) with GTemperature _ => true | _ => false end)) (
    chk 2143 (let! v36 := deref (List.nth_error (pr_groups v1) 11%nat) in Ok (String.eqb (gi_rawString v36) "T00560028")) (
    chk 2144 (let! v37 := deref (List.nth_error (pr_groups v1) 11%nat) in Ok (ReportPart_beq (gi_reportPart v37) RP_RMK)) (
    None)))))))))))))))))))))))))))))))))))))).

Definition t_ParserTafTimeSpanInMetadata_parseNormalTaf : option N :=
    step 2154 (((parse true) "TAF COR EIKN 091726Z 0918/1018 25014KT 9999 SCT018 BKN030 TEMPO 0918/0921 25016G26KT BECMG 1001/1004 23009KT BECMG 1006/1009 20008KT BECMG 1009/1011 18013KT -RA SCT007 BKN012 TEMPO 1009/1011 5000 -RADZ BKN007 BECMG 1011/1014 5000 -RADZ SCT003 BKN007 TEMPO 1011/1017 18015G25KT 2000 RADZ BR BKN003 PROB30 TEMPO 1011/1017 0800 FG BKN002 BECMG 1016/1018 24014KT 9999 SCT008 BKN020 TEMPO 1016/1018 24016G26KT" 200%nat)) (fun v1 => 
    chk 2167 (Ok (ReportType_beq (md_type (pr_metadata v1)) RT_TAF)) (
    chk 2168 (Ok (ReportError_beq (md_error (pr_metadata v1)) RE_NONE)) (
    chk 2170 (Ok (has_value (md_timeSpanFrom (pr_metadata v1)))) (
    chk 2171 (let! v2 := deref (md_timeSpanFrom (pr_metadata v1)) in Ok (has_value (dayValue v2))) (
    chk 2172 (let! v3 := deref (md_timeSpanFrom (pr_metadata v1)) in let! v4 := deref (dayValue v3) in Ok (N.eqb v4 9%N)) (
    chk 2173 (let! v5 := deref (md_timeSpanFrom (pr_metadata v1)) in Ok (N.eqb (hourValue v5) 18%N)) (
    chk 2174 (let! v6 := deref (md_timeSpanFrom (pr_metadata v1)) in Ok (N.eqb (minuteValue v6) 0%N)) (
    chk 2176 (Ok (has_value (md_timeSpanUntil (pr_metadata v1)))) (
    chk 2177 (let! v7 := deref (md_timeSpanUntil (pr_metadata v1)) in Ok (has_value (dayValue v7))) (
    chk 2178 (let! v8 := deref (md_timeSpanUntil (pr_metadata v1)) in let! v9 := deref (dayValue v8) in Ok (N.eqb v9 10%N)) (
    chk 2179 (let! v10 := deref (md_timeSpanUntil (pr_metadata v1)) in Ok (N.eqb (hourValue v10) 18%N)) (
    chk 2180 (let! v11 := deref (md_timeSpanUntil (pr_metadata v1)) in Ok (N.eqb (minuteValue v11) 0%N)) (
    None))))))))))))).

Definition t_ParserTafTimeSpanInMetadata_parseCancelledTaf : option N :=
    step 2184 (((parse true) "TAF AMD EGYD 280939Z 2809/2818 CNL=" 200%nat)) (fun v1 => 
    chk 2186 (Ok (ReportType_beq (md_type (pr_metadata v1)) RT_TAF)) (
    chk 2187 (Ok (ReportError_beq (md_error (pr_metadata v1)) RE_NONE)) (
    chk 2189 (Ok (has_value (md_timeSpanFrom (pr_metadata v1)))) (
    chk 2190 (let! v2 := deref (md_timeSpanFrom (pr_metadata v1)) in Ok (has_value (dayValue v2))) (
    chk 2191 (let! v3 := deref (md_timeSpanFrom (pr_metadata v1)) in let! v4 := deref (dayValue v3) in Ok (N.eqb v4 28%N)) (
    chk 2192 (let! v5 := deref (md_timeSpanFrom (pr_metadata v1)) in Ok (N.eqb (hourValue v5) 9%N)) (
    chk 2193 (let! v6 := deref (md_timeSpanFrom (pr_metadata v1)) in Ok (N.eqb (minuteValue v6) 0%N)) (
    chk 2195 (Ok (has_value (md_timeSpanUntil (pr_metadata v1)))) (
    chk 2196 (let! v7 := deref (md_timeSpanUntil (pr_metadata v1)) in Ok (has_value (dayValue v7))) (
    chk 2197 (let! v8 := deref (md_timeSpanUntil (pr_metadata v1)) in let! v9 := deref (dayValue v8) in Ok (N.eqb v9 28%N)) (
    chk 2198 (let! v10 := deref (md_timeSpanUntil (pr_metadata v1)) in Ok (N.eqb (hourValue v10) 18%N)) (
    chk 2199 (let! v11 := deref (md_timeSpanUntil (pr_metadata v1)) in Ok (N.eqb (minuteValue v11) 0%N)) (
    None))))))))))))).

Definition t_ParserTafTimeSpanInMetadata_parseNilTaf : option N :=
    step 2203 (((parse true) "TAF EGKB 182000Z NIL=" 200%nat)) (fun v1 => 
    chk 2205 (Ok (ReportType_beq (md_type (pr_metadata v1)) RT_TAF)) (
    chk 2206 (Ok (ReportError_beq (md_error (pr_metadata v1)) RE_NONE)) (
    chk 2207 (Ok (negb (has_value (md_timeSpanFrom (pr_metadata v1))))) (
    chk 2208 (Ok (negb (has_value (md_timeSpanUntil (pr_metadata v1))))) (
    None))))).

Definition t_ParserTafTimeSpanInMetadata_parseTafWithoudTypeIdentifier : option N :=
    step 2212 (((parse true) "ENNE 091100Z 0912/0917 11020KT 9999 FEW040=" 200%nat)) (fun v1 => 
    chk 2214 (Ok (ReportType_beq (md_type (pr_metadata v1)) RT_TAF)) (
    chk 2215 (Ok (ReportError_beq (md_error (pr_metadata v1)) RE_NONE)) (
    chk 2217 (Ok (has_value (md_timeSpanFrom (pr_metadata v1)))) (
    chk 2218 (let! v2 := deref (md_timeSpanFrom (pr_metadata v1)) in Ok (has_value (dayValue v2))) (
    chk 2219 (let! v3 := deref (md_timeSpanFrom (pr_metadata v1)) in let! v4 := deref (dayValue v3) in Ok (N.eqb v4 9%N)) (
    chk 2220 (let! v5 := deref (md_timeSpanFrom (pr_metadata v1)) in Ok (N.eqb (hourValue v5) 12%N)) (
    chk 2221 (let! v6 := deref (md_timeSpanFrom (pr_metadata v1)) in Ok (N.eqb (minuteValue v6) 0%N)) (
    chk 2223 (Ok (has_value (md_timeSpanUntil (pr_metadata v1)))) (
    chk 2224 (let! v7 := deref (md_timeSpanUntil (pr_metadata v1)) in Ok (has_value (dayValue v7))) (
    chk 2225 (let! v8 := deref (md_timeSpanUntil (pr_metadata v1)) in let! v9 := deref (dayValue v8) in Ok (N.eqb v9 9%N)) (
    chk 2226 (let! v10 := deref (md_timeSpanUntil (pr_metadata v1)) in Ok (N.eqb (hourValue v10) 17%N)) (
    chk 2227 (let! v11 := deref (md_timeSpanUntil (pr_metadata v1)) in Ok (N.eqb (minuteValue v11) 0%N)) (
    None))))))))))))).

Definition t_ParserTafTimeSpanInMetadata_parseTafTrendExceedingMainTrend : option N :=
    step 2234 (((parse true) "TAF ZZZZ 172009Z 1720/1808 17001KT CAVOK TEMPO 1806/1809 21012KT SCT022TCU=" 200%nat)) (fun v1 => 
    chk 2238 (Ok (ReportType_beq (md_type (pr_metadata v1)) RT_TAF)) (
    chk 2239 (Ok (ReportError_beq (md_error (pr_metadata v1)) RE_NONE)) (
    chk 2241 (Ok (has_value (md_timeSpanFrom (pr_metadata v1)))) (
    chk 2242 (let! v2 := deref (md_timeSpanFrom (pr_metadata v1)) in Ok (has_value (dayValue v2))) (
    chk 2243 (let! v3 := deref (md_timeSpanFrom (pr_metadata v1)) in let! v4 := deref (dayValue v3) in Ok (N.eqb v4 17%N)) (
    chk 2244 (let! v5 := deref (md_timeSpanFrom (pr_metadata v1)) in Ok (N.eqb (hourValue v5) 20%N)) (
    chk 2245 (let! v6 := deref (md_timeSpanFrom (pr_metadata v1)) in Ok (N.eqb (minuteValue v6) 0%N)) (
    chk 2247 (Ok (has_value (md_timeSpanUntil (pr_metadata v1)))) (
    chk 2248 (let! v7 := deref (md_timeSpanUntil (pr_metadata v1)) in Ok (has_value (dayValue v7))) (
    chk 2249 (let! v8 := deref (md_timeSpanUntil (pr_metadata v1)) in let! v9 := deref (dayValue v8) in Ok (N.eqb v9 18%N)) (
    chk 2250 (let! v10 := deref (md_timeSpanUntil (pr_metadata v1)) in Ok (N.eqb (hourValue v10) 8%N)) (
    chk 2251 (let! v11 := deref (md_timeSpanUntil (pr_metadata v1)) in Ok (N.eqb (minuteValue v11) 0%N)) (
    None))))))))))))).

Definition t_ParserTafTimeSpanInMetadata_parseMetar : option N :=
    step 2255 (((parse true) "METAR YBBN 041130Z 15010KT 9999 SCT013 BKN028 BKN045 22/19 Q1018 FM1130 16011KT 9999 -DZ FEW010 BKN015 INTER 1130/1300 16020G30KT 3000 SHRA BKN010 TEMPO 1300/1430 2000 DZ BKN010 FM1130 MOD TURB BLW 5000FT TL1200=" 200%nat)) (fun v1 => 
    chk 2261 (Ok (ReportType_beq (md_type (pr_metadata v1)) RT_METAR)) (
    chk 2262 (Ok (ReportError_beq (md_error (pr_metadata v1)) RE_NONE)) (
    chk 2263 (Ok (negb (has_value (md_timeSpanFrom (pr_metadata v1))))) (
    chk 2264 (Ok (negb (has_value (md_timeSpanUntil (pr_metadata v1))))) (
    None))))).

Definition t_ParserBluPlus_delimiter : option N :=
    step 2274 (((parse true) "METAR ZZZZ 010000Z RMK BLU+ TEST=" 200%nat)) (fun v1 => 
    chk 2276 (Ok (ReportType_beq (md_type (pr_metadata v1)) RT_METAR)) (
    chk 2277 (Ok (ReportError_beq (md_error (pr_metadata v1)) RE_NONE)) (
    chk 2279 (Ok (N.eqb (N.of_nat (List.length (pr_groups v1))) 6%N)) (
    chk 2281 (let! v2 := deref (List.nth_error (pr_groups v1) 0%nat) in Ok (match (gi_group v2) with GKeyword k => KwType_beq (kw_t k) Kw_METAR | _ => false end)) (
    chk 2282 (let! v3 := deref (List.nth_error (pr_groups v1) 0%nat) in Ok (String.eqb (gi_rawString v3) "METAR")) (
    chk 2283 (let! v4 := deref (List.nth_error (pr_groups v1) 0%nat) in Ok (ReportPart_beq (gi_reportPart v4) RP_HEADER)) (
    chk 2285 (let! v5 := deref (List.nth_error (pr_groups v1) 1%nat) in Ok (match (gi_group v5) with GLocation _ => true | _ => false end)) (
    chk 2286 (let! v6 := deref (List.nth_error (pr_groups v1) 1%nat) in Ok (String.eqb (gi_rawString v6) "ZZZZ")) (
    chk 2287 (let! v7 := deref (List.nth_error (pr_groups v1) 1%nat) in Ok (ReportPart_beq (gi_reportPart v7) RP_HEADER)) (
    chk 2289 (let! v8 := deref (List.nth_error (pr_groups v1) 2%nat) in Ok (match (gi_group v8) with GReportTime _ => true | _ => false end)) (
    chk 2290 (let! v9 := deref (List.nth_error (pr_groups v1) 2%nat) in Ok (String.eqb (gi_rawString v9) "010000Z")) (
    chk 2291 (let! v10 := deref (List.nth_error (pr_groups v1) 2%nat) in Ok (ReportPart_beq (gi_reportPart v10) RP_HEADER)) (
    chk 2293 (let! v11 := deref (List.nth_error (pr_groups v1) 3%nat) in Ok (match (gi_group v11) with GKeyword k => KwType_beq (kw_t k) Kw_RMK | _ => false end)) (
    chk 2294 (let! v12 := deref (List.nth_error (pr_groups v1) 3%nat) in Ok (String.eqb (gi_rawString v12) "RMK")) (
    chk 2295 (let! v13 := deref (List.nth_error (pr_groups v1) 3%nat) in Ok (ReportPart_beq (gi_reportPart v13) RP_METAR)) (
    chk 2297 (let! v14 := deref (List.nth_error (pr_groups v1) 4%nat) in Ok (match (gi_group v14) with GMisc k => MsType_beq (ms_type k) Ms_COLOUR_CODE_BLUE_PLUS | _ => false end)) (
    chk 2298 (let! v15 := deref (List.nth_error (pr_groups v1) 4%nat) in Ok (String.eqb (gi_rawString v15) "BLU+")) (
    chk 2299 (let! v16 := deref (List.nth_error (pr_groups v1) 4%nat) in Ok (ReportPart_beq (gi_reportPart v16) RP_RMK)) (
    chk 2301 (let! v17 := deref (List.nth_error (pr_groups v1) 5%nat) in Ok (match (gi_group v17) with GUnknown _ => true | _ => false end)) (
    chk 2302 (let! v18 := deref (List.nth_error (pr_groups v1) 5%nat) in Ok (String.eqb (gi_rawString v18) "TEST")) (
    chk 2303 (let! v19 := deref (List.nth_error (pr_groups v1) 5%nat) in Ok (ReportPart_beq (gi_reportPart v19) RP_RMK)) (
    None)))))))))))))))))))))).

Definition t_ParserBluPlus_noDelimiter : option N :=
    step 2307 (((parse true) "METAR ZZZZ 010000Z RMK BLU+TEST=" 200%nat)) (fun v1 => 
    chk 2309 (Ok (ReportType_beq (md_type (pr_metadata v1)) RT_METAR)) (
    chk 2310 (Ok (ReportError_beq (md_error (pr_metadata v1)) RE_NONE)) (
    chk 2312 (Ok (N.eqb (N.of_nat (List.length (pr_groups v1))) 6%N)) (
    chk 2314 (let! v2 := deref (List.nth_error (pr_groups v1) 0%nat) in Ok (match (gi_group v2) with GKeyword k => KwType_beq (kw_t k) Kw_METAR | _ => false end)) (
    chk 2315 (let! v3 := deref (List.nth_error (pr_groups v1) 0%nat) in Ok (String.eqb (gi_rawString v3) "METAR")) (
    chk 2316 (let! v4 := deref (List.nth_error (pr_groups v1) 0%nat) in Ok (ReportPart_beq (gi_reportPart v4) RP_HEADER)) (
    chk 2318 (let! v5 := deref (List.nth_error (pr_groups v1) 1%nat) in Ok (match (gi_group v5) with GLocation _ => true | _ => false end)) (
    chk 2319 (let! v6 := deref (List.nth_error (pr_groups v1) 1%nat) in Ok (String.eqb (gi_rawString v6) "ZZZZ")) (
    chk 2320 (let! v7 := deref (List.nth_error (pr_groups v1) 1%nat) in Ok (ReportPart_beq (gi_reportPart v7) RP_HEADER)) (
    chk 2322 (let! v8 := deref (List.nth_error (pr_groups v1) 2%nat) in Ok (match (gi_group v8) with GReportTime _ => true | _ => false end)) (
    chk 2323 (let! v9 := deref (List.nth_error (pr_groups v1) 2%nat) in Ok (String.eqb (gi_rawString v9) "010000Z")) (
    chk 2324 (let! v10 := deref (List.nth_error (pr_groups v1) 2%nat) in Ok (ReportPart_beq (gi_reportPart v10) RP_HEADER)) (
    chk 2326 (let! v11 := deref (List.nth_error (pr_groups v1) 3%nat) in Ok (match (gi_group v11) with GKeyword k => KwType_beq (kw_t k) Kw_RMK | _ => false end)) (
    chk 2327 (let! v12 := deref (List.nth_error (pr_groups v1) 3%nat) in Ok (String.eqb (gi_rawString v12) "RMK")) (
    chk 2328 (let! v13 := deref (List.nth_error (pr_groups v1) 3%nat) in Ok (ReportPart_beq (gi_reportPart v13) RP_METAR)) (
    chk 2330 (let! v14 := deref (List.nth_error (pr_groups v1) 4%nat) in Ok (match (gi_group v14) with GMisc k => MsType_beq (ms_type k) Ms_COLOUR_CODE_BLUE_PLUS | _ => false end)) (
    chk 2331 (let! v15 := deref (List.nth_error (pr_groups v1) 4%nat) in Ok (String.eqb (gi_rawString v15) "BLU+")) (
    chk 2332 (let! v16 := deref (List.nth_error (pr_groups v1) 4%nat) in Ok (ReportPart_beq (gi_reportPart v16) RP_RMK)) (
    chk 2334 (let! v17 := deref (List.nth_error (pr_groups v1) 5%nat) in Ok (match (gi_group v17) with GUnknown _ => true | _ => false end)) (
    chk 2335 (let! v18 := deref (List.nth_error (pr_groups v1) 5%nat) in Ok (String.eqb (gi_rawString v18) "TEST")) (
    chk 2336 (let! v19 := deref (List.nth_error (pr_groups v1) 5%nat) in Ok (ReportPart_beq (gi_reportPart v19) RP_RMK)) (
    None)))))))))))))))))))))).

Definition t_ParserBluPlus_last : option N :=
    step 2340 (((parse true) "METAR ZZZZ 010000Z RMK BLU+=" 200%nat)) (fun v1 => 
    chk 2342 (Ok (ReportType_beq (md_type (pr_metadata v1)) RT_METAR)) (
    chk 2343 (Ok (ReportError_beq (md_error (pr_metadata v1)) RE_NONE)) (
    chk 2345 (Ok (N.eqb (N.of_nat (List.length (pr_groups v1))) 5%N)) (
    chk 2347 (let! v2 := deref (List.nth_error (pr_groups v1) 0%nat) in Ok (match (gi_group v2) with GKeyword k => KwType_beq (kw_t k) Kw_METAR | _ => false end)) (
    chk 2348 (let! v3 := deref (List.nth_error (pr_groups v1) 0%nat) in Ok (String.eqb (gi_rawString v3) "METAR")) (
    chk 2349 (let! v4 := deref (List.nth_error (pr_groups v1) 0%nat) in Ok (ReportPart_beq (gi_reportPart v4) RP_HEADER)) (
    chk 2351 (let! v5 := deref (List.nth_error (pr_groups v1) 1%nat) in Ok (match (gi_group v5) with GLocation _ => true | _ => false end)) (
    chk 2352 (let! v6 := deref (List.nth_error (pr_groups v1) 1%nat) in Ok (String.eqb (gi_rawString v6) "ZZZZ")) (
    chk 2353 (let! v7 := deref (List.nth_error (pr_groups v1) 1%nat) in Ok (ReportPart_beq (gi_reportPart v7) RP_HEADER)) (
    chk 2355 (let! v8 := deref (List.nth_error (pr_groups v1) 2%nat) in Ok (match (gi_group v8) with GReportTime _ => true | _ => false end)) (
    chk 2356 (let! v9 := deref (List.nth_error (pr_groups v1) 2%nat) in Ok (String.eqb (gi_rawString v9) "010000Z")) (
    chk 2357 (let! v10 := deref (List.nth_error (pr_groups v1) 2%nat) in Ok (ReportPart_beq (gi_reportPart v10) RP_HEADER)) (
    chk 2359 (let! v11 := deref (List.nth_error (pr_groups v1) 3%nat) in Ok (match (gi_group v11) with GKeyword k => KwType_beq (kw_t k) Kw_RMK | _ => false end)) (
    chk 2360 (let! v12 := deref (List.nth_error (pr_groups v1) 3%nat) in Ok (String.eqb (gi_rawString v12) "RMK")) (
    chk 2361 (let! v13 := deref (List.nth_error (pr_groups v1) 3%nat) in Ok (ReportPart_beq (gi_reportPart v13) RP_METAR)) (
    chk 2363 (let! v14 := deref (List.nth_error (pr_groups v1) 4%nat) in Ok (match (gi_group v14) with GMisc k => MsType_beq (ms_type k) Ms_COLOUR_CODE_BLUE_PLUS | _ => false end)) (
    chk 2364 (let! v15 := deref (List.nth_error (pr_groups v1) 4%nat) in Ok (String.eqb (gi_rawString v15) "BLU+")) (
    chk 2365 (let! v16 := deref (List.nth_error (pr_groups v1) 4%nat) in Ok (ReportPart_beq (gi_reportPart v16) RP_RMK)) (
    None))))))))))))))))))).

Definition t_ParserBluPlus_lastNoReportEndChar : option N :=
    step 2369 (((parse true) "METAR ZZZZ 010000Z RMK BLU+" 200%nat)) (fun v1 => 
    chk 2371 (Ok (ReportType_beq (md_type (pr_metadata v1)) RT_METAR)) (
    chk 2372 (Ok (ReportError_beq (md_error (pr_metadata v1)) RE_NONE)) (
    chk 2374 (Ok (N.eqb (N.of_nat (List.length (pr_groups v1))) 5%N)) (
    chk 2376 (let! v2 := deref (List.nth_error (pr_groups v1) 0%nat) in Ok (match (gi_group v2) with GKeyword k => KwType_beq (kw_t k) Kw_METAR | _ => false end)) (
    chk 2377 (let! v3 := deref (List.nth_error (pr_groups v1) 0%nat) in Ok (String.eqb (gi_rawString v3) "METAR")) (
    chk 2378 (let! v4 := deref (List.nth_error (pr_groups v1) 0%nat) in Ok (ReportPart_beq (gi_reportPart v4) RP_HEADER)) (
    chk 2380 (let! v5 := deref (List.nth_error (pr_groups v1) 1%nat) in Ok (match (gi_group v5) with GLocation _ => true | _ => false end)) (
    chk 2381 (let! v6 := deref (List.nth_error (pr_groups v1) 1%nat) in Ok (String.eqb (gi_rawString v6) "ZZZZ")) (
    chk 2382 (let! v7 := deref (List.nth_error (pr_groups v1) 1%nat) in Ok (ReportPart_beq (gi_reportPart v7) RP_HEADER)) (
    chk 2384 (let! v8 := deref (List.nth_error (pr_groups v1) 2%nat) in Ok (match (gi_group v8) with GReportTime _ => true | _ => false end)) (
    chk 2385 (let! v9 := deref (List.nth_error (pr_groups v1) 2%nat) in Ok (String.eqb (gi_rawString v9) "010000Z")) (
    chk 2386 (let! v10 := deref (List.nth_error (pr_groups v1) 2%nat) in Ok (ReportPart_beq (gi_reportPart v10) RP_HEADER)) (
    chk 2388 (let! v11 := deref (List.nth_error (pr_groups v1) 3%nat) in Ok (match (gi_group v11) with GKeyword k => KwType_beq (kw_t k) Kw_RMK | _ => false end)) (
    chk 2389 (let! v12 := deref (List.nth_error (pr_groups v1) 3%nat) in Ok (String.eqb (gi_rawString v12) "RMK")) (
    chk 2390 (let! v13 := deref (List.nth_error (pr_groups v1) 3%nat) in Ok (ReportPart_beq (gi_reportPart v13) RP_METAR)) (
    chk 2392 (let! v14 := deref (List.nth_error (pr_groups v1) 4%nat) in Ok (match (gi_group v14) with GMisc k => MsType_beq (ms_type k) Ms_COLOUR_CODE_BLUE_PLUS | _ => false end)) (
    chk 2393 (let! v15 := deref (List.nth_error (pr_groups v1) 4%nat) in Ok (String.eqb (gi_rawString v15) "BLU+")) (
    chk 2394 (let! v16 := deref (List.nth_error (pr_groups v1) 4%nat) in Ok (ReportPart_beq (gi_reportPart v16) RP_RMK)) (
    None))))))))))))))))))).

Definition t_ParserBluPlus_duplicatedNoDelimiter : option N :=
    step 2398 (((parse true) "METAR ZZZZ 010000Z RMK BLU+BLU+TEST=" 200%nat)) (fun v1 => 
    chk 2400 (Ok (ReportType_beq (md_type (pr_metadata v1)) RT_METAR)) (
    chk 2401 (Ok (ReportError_beq (md_error (pr_metadata v1)) RE_NONE)) (
    chk 2403 (Ok (N.eqb (N.of_nat (List.length (pr_groups v1))) 7%N)) (
    chk 2405 (let! v2 := deref (List.nth_error (pr_groups v1) 0%nat) in Ok (match (gi_group v2) with GKeyword k => KwType_beq (kw_t k) Kw_METAR | _ => false end)) (
    chk 2406 (let! v3 := deref (List.nth_error (pr_groups v1) 0%nat) in Ok (String.eqb (gi_rawString v3) "METAR")) (
    chk 2407 (let! v4 := deref (List.nth_error (pr_groups v1) 0%nat) in Ok (ReportPart_beq (gi_reportPart v4) RP_HEADER)) (
    chk 2409 (let! v5 := deref (List.nth_error (pr_groups v1) 1%nat) in Ok (match (gi_group v5) with GLocation _ => true | _ => false end)) (
    chk 2410 (let! v6 := deref (List.nth_error (pr_groups v1) 1%nat) in Ok (String.eqb (gi_rawString v6) "ZZZZ")) (
    chk 2411 (let! v7 := deref (List.nth_error (pr_groups v1) 1%nat) in Ok (ReportPart_beq (gi_reportPart v7) RP_HEADER)) (
    chk 2413 (let! v8 := deref (List.nth_error (pr_groups v1) 2%nat) in Ok (match (gi_group v8) with GReportTime _ => true | _ => false end)) (
    chk 2414 (let! v9 := deref (List.nth_error (pr_groups v1) 2%nat) in Ok (String.eqb (gi_rawString v9) "010000Z")) (
    chk 2415 (let! v10 := deref (List.nth_error (pr_groups v1) 2%nat) in Ok (ReportPart_beq (gi_reportPart v10) RP_HEADER)) (
    chk 2417 (let! v11 := deref (List.nth_error (pr_groups v1) 3%nat) in Ok (match (gi_group v11) with GKeyword k => KwType_beq (kw_t k) Kw_RMK | _ => false end)) (
    chk 2418 (let! v12 := deref (List.nth_error (pr_groups v1) 3%nat) in Ok (String.eqb (gi_rawString v12) "RMK")) (
    chk 2419 (let! v13 := deref (List.nth_error (pr_groups v1) 3%nat) in Ok (ReportPart_beq (gi_reportPart v13) RP_METAR)) (
    chk 2421 (let! v14 := deref (List.nth_error (pr_groups v1) 4%nat) in Ok (match (gi_group v14) with GMisc k => MsType_beq (ms_type k) Ms_COLOUR_CODE_BLUE_PLUS | _ => false end)) (
    chk 2422 (let! v15 := deref (List.nth_error (pr_groups v1) 4%nat) in Ok (String.eqb (gi_rawString v15) "BLU+")) (
    chk 2423 (let! v16 := deref (List.nth_error (pr_groups v1) 4%nat) in Ok (ReportPart_beq (gi_reportPart v16) RP_RMK)) (
    chk 2425 (let! v17 := deref (List.nth_error (pr_groups v1) 5%nat) in Ok (match (gi_group v17) with GMisc k => MsType_beq (ms_type k) Ms_COLOUR_CODE_BLUE_PLUS | _ => false end)) (
    chk 2426 (let! v18 := deref (List.nth_error (pr_groups v1) 5%nat) in Ok (String.eqb (gi_rawString v18) "BLU+")) (
    chk 2427 (let! v19 := deref (List.nth_error (pr_groups v1) 5%nat) in Ok (ReportPart_beq (gi_reportPart v19) RP_RMK)) (
    chk 2429 (let! v20 := deref (List.nth_error (pr_groups v1) 6%nat) in Ok (match (gi_group v20) with GUnknown _ => true | _ => false end)) (
    chk 2430 (let! v21 := deref (List.nth_error (pr_groups v1) 6%nat) in Ok (String.eqb (gi_rawString v21) "TEST")) (
    chk 2431 (let! v22 := deref (List.nth_error (pr_groups v1) 6%nat) in Ok (ReportPart_beq (gi_reportPart v22) RP_RMK)) (
    None))))))))))))))))))))))))).

Definition t_ParserBluPlus_duplicatedLastNoDelimiter : option N :=
    step 2435 (((parse true) "METAR ZZZZ 010000Z RMK BLU+BLU+=" 200%nat)) (fun v1 => 
    chk 2437 (Ok (ReportType_beq (md_type (pr_metadata v1)) RT_METAR)) (
    chk 2438 (Ok (ReportError_beq (md_error (pr_metadata v1)) RE_NONE)) (
    chk 2440 (Ok (N.eqb (N.of_nat (List.length (pr_groups v1))) 6%N)) (
    chk 2442 (let! v2 := deref (List.nth_error (pr_groups v1) 0%nat) in Ok (match (gi_group v2) with GKeyword k => KwType_beq (kw_t k) Kw_METAR | _ => false end)) (
    chk 2443 (let! v3 := deref (List.nth_error (pr_groups v1) 0%nat) in Ok (String.eqb (gi_rawString v3) "METAR")) (
    chk 2444 (let! v4 := deref (List.nth_error (pr_groups v1) 0%nat) in Ok (ReportPart_beq (gi_reportPart v4) RP_HEADER)) (
    chk 2446 (let! v5 := deref (List.nth_error (pr_groups v1) 1%nat) in Ok (match (gi_group v5) with GLocation _ => true | _ => false end)) (
    chk 2447 (let! v6 := deref (List.nth_error (pr_groups v1) 1%nat) in Ok (String.eqb (gi_rawString v6) "ZZZZ")) (
    chk 2448 (let! v7 := deref (List.nth_error (pr_groups v1) 1%nat) in Ok (ReportPart_beq (gi_reportPart v7) RP_HEADER)) (
    chk 2450 (let! v8 := deref (List.nth_error (pr_groups v1) 2%nat) in Ok (match (gi_group v8) with GReportTime _ => true | _ => false end)) (
    chk 2451 (let! v9 := deref (List.nth_error (pr_groups v1) 2%nat) in Ok (String.eqb (gi_rawString v9) "010000Z")) (
    chk 2452 (let! v10 := deref (List.nth_error (pr_groups v1) 2%nat) in Ok (ReportPart_beq (gi_reportPart v10) RP_HEADER)) (
    chk 2454 (let! v11 := deref (List.nth_error (pr_groups v1) 3%nat) in Ok (match (gi_group v11) with GKeyword k => KwType_beq (kw_t k) Kw_RMK | _ => false end)) (
    chk 2455 (let! v12 := deref (List.nth_error (pr_groups v1) 3%nat) in Ok (String.eqb (gi_rawString v12) "RMK")) (
    chk 2456 (let! v13 := deref (List.nth_error (pr_groups v1) 3%nat) in Ok (ReportPart_beq (gi_reportPart v13) RP_METAR)) (
    chk 2458 (let! v14 := deref (List.nth_error (pr_groups v1) 4%nat) in Ok (match (gi_group v14) with GMisc k => MsType_beq (ms_type k) Ms_COLOUR_CODE_BLUE_PLUS | _ => false end)) (
    chk 2459 (let! v15 := deref (List.nth_error (pr_groups v1) 4%nat) in Ok (String.eqb (gi_rawString v15) "BLU+")) (
    chk 2460 (let! v16 := deref (List.nth_error (pr_groups v1) 4%nat) in Ok (ReportPart_beq (gi_reportPart v16) RP_RMK)) (
    chk 2462 (let! v17 := deref (List.nth_error (pr_groups v1) 5%nat) in Ok (match (gi_group v17) with GMisc k => MsType_beq (ms_type k) Ms_COLOUR_CODE_BLUE_PLUS | _ => false end)) (
    chk 2463 (let! v18 := deref (List.nth_error (pr_groups v1) 5%nat) in Ok (String.eqb (gi_rawString v18) "BLU+")) (
    chk 2464 (let! v19 := deref (List.nth_error (pr_groups v1) 5%nat) in Ok (ReportPart_beq (gi_reportPart v19) RP_RMK)) (
    None)))))))))))))))))))))).

Example tests_parser_pass : failures
  [("ParserSyntaxMalformedReports_emptyReport", t_ParserSyntaxMalformedReports_emptyReport);
   ("ParserSyntaxMalformedReports_location", t_ParserSyntaxMalformedReports_location);
   ("ParserSyntaxMalformedReports_typeLocation", t_ParserSyntaxMalformedReports_typeLocation);
   ("ParserSyntaxMalformedReports_strayGroupInPlaceOfLocation", t_ParserSyntaxMalformedReports_strayGroupInPlaceOfLocation);
   ("ParserSyntaxMalformedReports_locationTime", t_ParserSyntaxMalformedReports_locationTime);
   ("ParserSyntaxMalformedReports_typeLocationTime", t_ParserSyntaxMalformedReports_typeLocationTime);
   ("ParserSyntaxMalformedReports_strayGroupInPlaceOfReportTime", t_ParserSyntaxMalformedReports_strayGroupInPlaceOfReportTime);
   ("ParserSyntaxMalformedReports_strayGroupInPlaceOfTimeSpan", t_ParserSyntaxMalformedReports_strayGroupInPlaceOfTimeSpan);
   ("ParserSyntaxMalformedReports_tafReportTypeAndTimeNotSpecified", t_ParserSyntaxMalformedReports_tafReportTypeAndTimeNotSpecified);
   ("ParserSyntaxMalformedReports_corStrayGroupInPlaceOfLocation", t_ParserSyntaxMalformedReports_corStrayGroupInPlaceOfLocation);
   ("ParserSyntaxMalformedReports_amdStrayGroupInPlaceOfLocation", t_ParserSyntaxMalformedReports_amdStrayGroupInPlaceOfLocation);
   ("ParserSyntaxMalformedReports_metarReportTooLarge", t_ParserSyntaxMalformedReports_metarReportTooLarge);
   ("ParserSyntaxMalformedReports_tafReportTooLarge", t_ParserSyntaxMalformedReports_tafReportTooLarge);
   ("ParserSyntaxNilReports_locationNil", t_ParserSyntaxNilReports_locationNil);
   ("ParserSyntaxNilReports_typeLocationNil", t_ParserSyntaxNilReports_typeLocationNil);
   ("ParserSyntaxNilReports_corAmdLocationNil", t_ParserSyntaxNilReports_corAmdLocationNil);
   ("ParserSyntaxNilReports_metarCorLocationNil", t_ParserSyntaxNilReports_metarCorLocationNil);
   ("ParserSyntaxNilReports_tafCorLocationNil", t_ParserSyntaxNilReports_tafCorLocationNil);
   ("ParserSyntaxNilReports_metarAmdLocationNil", t_ParserSyntaxNilReports_metarAmdLocationNil);
   ("ParserSyntaxNilReports_tafAmdLocationNil", t_ParserSyntaxNilReports_tafAmdLocationNil);
   ("ParserSyntaxNilReports_locationTimeNil", t_ParserSyntaxNilReports_locationTimeNil);
   ("ParserSyntaxNilReports_typeLocationTimeNil", t_ParserSyntaxNilReports_typeLocationTimeNil);
   ("ParserSyntaxNilReports_typeCorAmdLocationTimeNil", t_ParserSyntaxNilReports_typeCorAmdLocationTimeNil);
   ("ParserSyntaxNilReports_strayGroupAfterNil", t_ParserSyntaxNilReports_strayGroupAfterNil);
   ("ParserSyntaxNilReports_strayNilInReportBody", t_ParserSyntaxNilReports_strayNilInReportBody);
   ("ParserSyntaxNilReports_typeLocationTimeTimespanNil", t_ParserSyntaxNilReports_typeLocationTimeTimespanNil);
   ("ParserSyntaxNilReports_typeCorAmdLocationTimeTimespanNil", t_ParserSyntaxNilReports_typeCorAmdLocationTimeTimespanNil);
   ("ParserSyntaxCancelledReports_typeLocationCnl", t_ParserSyntaxCancelledReports_typeLocationCnl);
   ("ParserSyntaxCancelledReports_typeLocationTimeCnl", t_ParserSyntaxCancelledReports_typeLocationTimeCnl);
   ("ParserSyntaxCancelledReports_strayGroupAfterCnl", t_ParserSyntaxCancelledReports_strayGroupAfterCnl);
   ("ParserSyntaxCancelledReports_strayCnlInReportBody", t_ParserSyntaxCancelledReports_strayCnlInReportBody);
   ("ParserSyntaxCancelledReports_strayCnlInMetar", t_ParserSyntaxCancelledReports_strayCnlInMetar);
   ("ParserSyntaxCancelledReports_typeLocationTimeTimespanCnl", t_ParserSyntaxCancelledReports_typeLocationTimeTimespanCnl);
   ("ParserSyntaxCancelledReports_typeCorAmdLocationTimeTimespanCnl", t_ParserSyntaxCancelledReports_typeCorAmdLocationTimeTimespanCnl);
   ("ParserSyntaxValidMetarReports_plainReports", t_ParserSyntaxValidMetarReports_plainReports);
   ("ParserSyntaxValidMetarReports_correctionalReports", t_ParserSyntaxValidMetarReports_correctionalReports);
   ("ParserSyntaxValidMetarReports_reportsWithRemarks", t_ParserSyntaxValidMetarReports_reportsWithRemarks);
   ("ParserSyntaxValidMetarReports_reportsWithAppendedRemarks", t_ParserSyntaxValidMetarReports_reportsWithAppendedRemarks);
   ("ParserSyntaxValidMetarReports_reportTypeNotSpecified", t_ParserSyntaxValidMetarReports_reportTypeNotSpecified);
   ("ParserSyntaxValidMetarReports_reportWithTrend", t_ParserSyntaxValidMetarReports_reportWithTrend);
   ("ParserSyntaxValidTafReports_plainReport", t_ParserSyntaxValidTafReports_plainReport);
   ("ParserSyntaxValidTafReports_amendedAndCorrectionalReports", t_ParserSyntaxValidTafReports_amendedAndCorrectionalReports);
   ("ParserSyntaxValidTafReports_reportsWithTemperatureForecasts", t_ParserSyntaxValidTafReports_reportsWithTemperatureForecasts);
   ("ParserSyntaxValidTafReports_reportWithRemarks", t_ParserSyntaxValidTafReports_reportWithRemarks);
   ("ParserSyntaxValidTafReports_reportWithAppendedRemarks", t_ParserSyntaxValidTafReports_reportWithAppendedRemarks);
   ("ParserSyntaxValidTafReports_reportWithTrends", t_ParserSyntaxValidTafReports_reportWithTrends);
   ("ParserSyntaxValidTafReports_reportTypeNotSpecified", t_ParserSyntaxValidTafReports_reportTypeNotSpecified);
   ("ParserSyntaxValidTafReports_reportTimeNotSpecified", t_ParserSyntaxValidTafReports_reportTimeNotSpecified);
   ("ParserSyntaxDesignatorsAndSeparators_noReportEndDesignator", t_ParserSyntaxDesignatorsAndSeparators_noReportEndDesignator);
   ("ParserSyntaxDesignatorsAndSeparators_separatorInLeadingPosition", t_ParserSyntaxDesignatorsAndSeparators_separatorInLeadingPosition);
   ("ParserSyntaxDesignatorsAndSeparators_variousGroupSeparators", t_ParserSyntaxDesignatorsAndSeparators_variousGroupSeparators);
   ("ParserSyntaxDesignatorsAndSeparators_strayTextAfterReportEndDesignator", t_ParserSyntaxDesignatorsAndSeparators_strayTextAfterReportEndDesignator);
   ("ParserSyntaxMaintenanceIndicator_maintenanceIndicatorAtMetarBodyBegin", t_ParserSyntaxMaintenanceIndicator_maintenanceIndicatorAtMetarBodyBegin);
   ("ParserSyntaxMaintenanceIndicator_maintenanceIndicatorAtTafBodyBegin", t_ParserSyntaxMaintenanceIndicator_maintenanceIndicatorAtTafBodyBegin);
   ("ParserSyntaxMaintenanceIndicator_maintenanceIndicatorAtTheEndOfMetar", t_ParserSyntaxMaintenanceIndicator_maintenanceIndicatorAtTheEndOfMetar);
   ("ParserSyntaxMaintenanceIndicator_maintenanceIndicatorAtTheEndOfMetarRemark", t_ParserSyntaxMaintenanceIndicator_maintenanceIndicatorAtTheEndOfMetarRemark);
   ("ParserSyntaxMaintenanceIndicator_maintenanceIndicatorAtTheEndOfMetarRemarkWithReportEndDesignator", t_ParserSyntaxMaintenanceIndicator_maintenanceIndicatorAtTheEndOfMetarRemarkWithReportEndDesignator);
   ("ParserSyntaxMaintenanceIndicator_maintenanceIndicatorAtTheEndOfTaf", t_ParserSyntaxMaintenanceIndicator_maintenanceIndicatorAtTheEndOfTaf);
   ("ParserSyntaxMaintenanceIndicator_maintenanceIndicatorAtTheEndOfTafRemark", t_ParserSyntaxMaintenanceIndicator_maintenanceIndicatorAtTheEndOfTafRemark);
   ("ParserSyntaxMaintenanceIndicator_maintenanceIndicatorInTheMiddleOfMetar", t_ParserSyntaxMaintenanceIndicator_maintenanceIndicatorInTheMiddleOfMetar);
   ("ParserSyntaxMaintenanceIndicator_maintenanceIndicatorInTheMiddleOfMetarRemark", t_ParserSyntaxMaintenanceIndicator_maintenanceIndicatorInTheMiddleOfMetarRemark);
   ("ParserSyntaxMaintenanceIndicator_maintenanceIndicatorInTheMiddleOfTaf", t_ParserSyntaxMaintenanceIndicator_maintenanceIndicatorInTheMiddleOfTaf);
   ("ParserSyntaxMaintenanceIndicator_maintenanceIndicatorInTheMiddleOfTafRemark", t_ParserSyntaxMaintenanceIndicator_maintenanceIndicatorInTheMiddleOfTafRemark);
   ("ParserSyntaxMaintenanceIndicator_maintenanceIndicatorAfterNil", t_ParserSyntaxMaintenanceIndicator_maintenanceIndicatorAfterNil);
   ("ParserAppended_appendedGroups", t_ParserAppended_appendedGroups);
   ("ParserReparsedGroups_reparsedGroups", t_ParserReparsedGroups_reparsedGroups);
   ("ParserResultReportPartAndRawString_metar", t_ParserResultReportPartAndRawString_metar);
   ("ParserResultReportPartAndRawString_taf", t_ParserResultReportPartAndRawString_taf);
   ("ParserResultReportPartAndRawString_autodetectMetar", t_ParserResultReportPartAndRawString_autodetectMetar);
   ("ParserResultReportPartAndRawString_autodetectTaf", t_ParserResultReportPartAndRawString_autodetectTaf);
   ("ParserResultReportPartAndRawStringParse_error", t_ParserResultReportPartAndRawStringParse_error);
   ("ParserResultReportPartAndRawString_appendedGroups", t_ParserResultReportPartAndRawString_appendedGroups);
   ("ParserResultReportPartAndRawString_appendedRemarks", t_ParserResultReportPartAndRawString_appendedRemarks);
   ("ParserResultReportPartAndRawString_appendedRemarksWithInvalidatedGroups", t_ParserResultReportPartAndRawString_appendedRemarksWithInvalidatedGroups);
   ("ParserResultReportPartAndRawString_appendedRemarksLastGroupValidity", t_ParserResultReportPartAndRawString_appendedRemarksLastGroupValidity);
   ("ParserResultReportPartAndRawString_incompleteGroupAtTheEndOfReport", t_ParserResultReportPartAndRawString_incompleteGroupAtTheEndOfReport);
   ("ParserResultReportPartAndRawString_invalidatedGroupAtTheEndOfReport", t_ParserResultReportPartAndRawString_invalidatedGroupAtTheEndOfReport);
   ("ParserResultReportPartAndRawString_invalidatedGroupsFollowedByValidGroup", t_ParserResultReportPartAndRawString_invalidatedGroupsFollowedByValidGroup);
   ("ParserTafTimeSpanInMetadata_parseNormalTaf", t_ParserTafTimeSpanInMetadata_parseNormalTaf);
   ("ParserTafTimeSpanInMetadata_parseCancelledTaf", t_ParserTafTimeSpanInMetadata_parseCancelledTaf);
   ("ParserTafTimeSpanInMetadata_parseNilTaf", t_ParserTafTimeSpanInMetadata_parseNilTaf);
   ("ParserTafTimeSpanInMetadata_parseTafWithoudTypeIdentifier", t_ParserTafTimeSpanInMetadata_parseTafWithoudTypeIdentifier);
   ("ParserTafTimeSpanInMetadata_parseTafTrendExceedingMainTrend", t_ParserTafTimeSpanInMetadata_parseTafTrendExceedingMainTrend);
   ("ParserTafTimeSpanInMetadata_parseMetar", t_ParserTafTimeSpanInMetadata_parseMetar);
   ("ParserBluPlus_delimiter", t_ParserBluPlus_delimiter);
   ("ParserBluPlus_noDelimiter", t_ParserBluPlus_noDelimiter);
   ("ParserBluPlus_last", t_ParserBluPlus_last);
   ("ParserBluPlus_lastNoReportEndChar", t_ParserBluPlus_lastNoReportEndChar);
   ("ParserBluPlus_duplicatedNoDelimiter", t_ParserBluPlus_duplicatedNoDelimiter);
   ("ParserBluPlus_duplicatedLastNoDelimiter", t_ParserBluPlus_duplicatedLastNoDelimiter)] = [].
Proof. vm_compute. reflexivity. Qed.
