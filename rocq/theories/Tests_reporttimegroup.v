(** Generated by tools/gen_tests.py from /repo/test/test_reporttimegroup.cpp: the project's own unit tests, run
    against the model. These are tests of the model's fidelity, not properties. *)

From Verif Require Import Prim Regex Float Values Weather Groups1 Groups2 Groups3 Groups4 Parser TestLib.
Local Open Scope string_scope.
Local Open Scope bool_scope.

Definition t_ReportTimeGroup_parseReportTime : option N :=
    step 18 ((ReportTimeGroup_parse "201730Z" RP_HEADER md_default)) (fun v1 => 
    chk 19 (Ok (has_value v1)) (
    chk 20 (let! v2 := deref v1 in Ok (has_value (dayValue (rt_t v2)))) (
    chk 21 (let! v3 := deref v1 in let! v4 := deref (dayValue (rt_t v3)) in Ok (N.eqb v4 20%N)) (
    chk 22 (let! v5 := deref v1 in Ok (N.eqb (hourValue (rt_t v5)) 17%N)) (
    chk 23 (let! v6 := deref v1 in Ok (N.eqb (minuteValue (rt_t v6)) 30%N)) (
    None)))))).

Definition t_ReportTimeGroup_parseWrongReportPart : option N :=
    chk 28 (let! v1 := (ReportTimeGroup_parse "201730Z" RP_HEADER md_default) in Ok (has_value v1)) (
    chk 29 (let! v2 := (ReportTimeGroup_parse "201730Z" RP_UNKNOWN md_default) in Ok (negb (has_value v2))) (
    chk 30 (let! v3 := (ReportTimeGroup_parse "201730Z" RP_METAR md_default) in Ok (negb (has_value v3))) (
    chk 31 (let! v4 := (ReportTimeGroup_parse "201730Z" RP_TAF md_default) in Ok (negb (has_value v4))) (
    chk 32 (let! v5 := (ReportTimeGroup_parse "201730Z" RP_RMK md_default) in Ok (negb (has_value v5))) (
    None))))).

Definition t_ReportTimeGroup_parseWrongFormat : option N :=
    chk 36 (let! v1 := (ReportTimeGroup_parse "" RP_HEADER md_default) in Ok (negb (has_value v1))) (
    chk 38 (let! v2 := (ReportTimeGroup_parse "//////Z" RP_HEADER md_default) in Ok (negb (has_value v2))) (
    chk 40 (let! v3 := (ReportTimeGroup_parse "2017030Z" RP_HEADER md_default) in Ok (negb (has_value v3))) (
    chk 42 (let! v4 := (ReportTimeGroup_parse "20173Z" RP_HEADER md_default) in Ok (negb (has_value v4))) (
    chk 44 (let! v5 := (ReportTimeGroup_parse "201730" RP_HEADER md_default) in Ok (negb (has_value v5))) (
    chk 46 (let! v6 := (ReportTimeGroup_parse "05025KT" RP_HEADER md_default) in Ok (negb (has_value v6))) (
    chk 48 (let! v7 := (ReportTimeGroup_parse "1709/1721" RP_HEADER md_default) in Ok (negb (has_value v7))) (
    chk 50 (let! v8 := (ReportTimeGroup_parse "FM122230" RP_HEADER md_default) in Ok (negb (has_value v8))) (
    None)))))))).

Definition t_ReportTimeGroup_isValidCorrect : option N :=
    step 60 ((ReportTimeGroup_parse "312459Z" RP_HEADER md_default)) (fun v1 => 
    chk 61 (Ok (has_value v1)) (
    chk 62 (let! v2 := deref v1 in Ok (ReportTimeGroup_isValid v2)) (
    step 64 ((ReportTimeGroup_parse "010000Z" RP_HEADER md_default)) (fun v3 => 
    chk 65 (Ok (has_value v3)) (
    chk 66 (let! v4 := deref v3 in Ok (ReportTimeGroup_isValid v4)) (
    None)))))).

Definition t_ReportTimeGroup_isValidDayIncorrect : option N :=
    step 70 ((ReportTimeGroup_parse "321730Z" RP_HEADER md_default)) (fun v1 => 
    chk 71 (Ok (has_value v1)) (
    chk 72 (let! v2 := deref v1 in Ok (negb (ReportTimeGroup_isValid v2))) (
    step 74 ((ReportTimeGroup_parse "001730Z" RP_HEADER md_default)) (fun v3 => 
    chk 75 (Ok (has_value v3)) (
    chk 76 (let! v4 := deref v3 in Ok (negb (ReportTimeGroup_isValid v4))) (
    None)))))).

Definition t_ReportTimeGroup_isValidHourIncorrect : option N :=
    step 80 ((ReportTimeGroup_parse "202530Z" RP_HEADER md_default)) (fun v1 => 
    chk 81 (Ok (has_value v1)) (
    chk 82 (let! v2 := deref v1 in Ok (negb (ReportTimeGroup_isValid v2))) (
    None))).

Definition t_ReportTimeGroup_isValidMinuteIncorrect : option N :=
    step 86 ((ReportTimeGroup_parse "201760Z" RP_HEADER md_default)) (fun v1 => 
    chk 87 (Ok (has_value v1)) (
    chk 88 (let! v2 := deref v1 in Ok (negb (ReportTimeGroup_isValid v2))) (
    None))).

Definition t_ReportTimeGroup_append : option N :=
    step 97 ((ReportTimeGroup_parse "201700Z" RP_HEADER md_default)) (fun v1 => 
    chk 98 (Ok (has_value v1)) (
    step 100 ((ReportTimeGroup_parse "201730Z" RP_HEADER md_default)) (fun v2 => 
    chk 101 (Ok (has_value v2)) (
    step 103 (let! v3 := deref v1 in ReportTimeGroup_append v3 "201730Z" RP_HEADER md_default) (fun p => let v4 := Some (fst p) in let v5 := snd p in 
    chk 103 (Ok (AppendResult_beq v5 NOT_APPENDED)) (
    step 105 (let! v6 := deref v4 in ReportTimeGroup_append v6 "FM1250" RP_HEADER md_default) (fun p => let v7 := Some (fst p) in let v8 := snd p in 
    chk 105 (Ok (AppendResult_beq v8 NOT_APPENDED)) (
    step 107 (let! v9 := deref v7 in ReportTimeGroup_append v9 "TL1830" RP_HEADER md_default) (fun p => let v10 := Some (fst p) in let v11 := snd p in 
    chk 107 (Ok (AppendResult_beq v11 NOT_APPENDED)) (
    step 109 (let! v12 := deref v10 in ReportTimeGroup_append v12 "AT1800" RP_HEADER md_default) (fun p => let v13 := Some (fst p) in let v14 := snd p in 
    chk 109 (Ok (AppendResult_beq v14 NOT_APPENDED)) (
    step 111 (let! v15 := deref v13 in ReportTimeGroup_append v15 "2016/2019" RP_HEADER md_default) (fun p => let v16 := Some (fst p) in let v17 := snd p in 
    chk 111 (Ok (AppendResult_beq v17 NOT_APPENDED)) (
    step 113 (let! v18 := deref v16 in ReportTimeGroup_append v18 "AUTO" RP_HEADER md_default) (fun p => let v19 := Some (fst p) in let v20 := snd p in 
    chk 113 (Ok (AppendResult_beq v20 NOT_APPENDED)) (
    step 115 (let! v21 := deref v19 in ReportTimeGroup_append v21 "31003KT" RP_HEADER md_default) (fun p => let v22 := Some (fst p) in let v23 := snd p in 
    chk 115 (Ok (AppendResult_beq v23 NOT_APPENDED)) (
    step 117 (let! v24 := deref v22 in ReportTimeGroup_append v24 "RMK" RP_HEADER md_default) (fun p => let v25 := Some (fst p) in let v26 := snd p in 
    chk 117 (Ok (AppendResult_beq v26 NOT_APPENDED)) (
    step 120 (let! v27 := deref v2 in ReportTimeGroup_append v27 "201730Z" RP_HEADER md_default) (fun p => let v28 := Some (fst p) in let v29 := snd p in 
    chk 120 (Ok (AppendResult_beq v29 NOT_APPENDED)) (
    step 122 (let! v30 := deref v28 in ReportTimeGroup_append v30 "FM1250" RP_HEADER md_default) (fun p => let v31 := Some (fst p) in let v32 := snd p in 
    chk 122 (Ok (AppendResult_beq v32 NOT_APPENDED)) (
    step 124 (let! v33 := deref v31 in ReportTimeGroup_append v33 "TL1830" RP_HEADER md_default) (fun p => let v34 := Some (fst p) in let v35 := snd p in 
    chk 124 (Ok (AppendResult_beq v35 NOT_APPENDED)) (
    step 126 (let! v36 := deref v34 in ReportTimeGroup_append v36 "AT1800" RP_HEADER md_default) (fun p => let v37 := Some (fst p) in let v38 := snd p in 
    chk 126 (Ok (AppendResult_beq v38 NOT_APPENDED)) (
    step 128 (let! v39 := deref v37 in ReportTimeGroup_append v39 "2016/2019" RP_HEADER md_default) (fun p => let v40 := Some (fst p) in let v41 := snd p in 
    chk 128 (Ok (AppendResult_beq v41 NOT_APPENDED)) (
    step 130 (let! v42 := deref v40 in ReportTimeGroup_append v42 "AUTO" RP_HEADER md_default) (fun p => let v43 := Some (fst p) in let v44 := snd p in 
    chk 130 (Ok (AppendResult_beq v44 NOT_APPENDED)) (
    step 132 (let! v45 := deref v43 in ReportTimeGroup_append v45 "31003KT" RP_HEADER md_default) (fun p => let v46 := Some (fst p) in let v47 := snd p in 
    chk 132 (Ok (AppendResult_beq v47 NOT_APPENDED)) (
    step 134 (let! v48 := deref v46 in ReportTimeGroup_append v48 "RMK" RP_HEADER md_default) (fun p => let v49 := Some (fst p) in let v50 := snd p in 
    chk 134 (Ok (AppendResult_beq v50 NOT_APPENDED)) (
    None)))))))))))))))))))))))))))))))))))).

Example tests_reporttimegroup_pass : failures
  [("ReportTimeGroup_parseReportTime", t_ReportTimeGroup_parseReportTime);
   ("ReportTimeGroup_parseWrongReportPart", t_ReportTimeGroup_parseWrongReportPart);
   ("ReportTimeGroup_parseWrongFormat", t_ReportTimeGroup_parseWrongFormat);
   ("ReportTimeGroup_isValidCorrect", t_ReportTimeGroup_isValidCorrect);
   ("ReportTimeGroup_isValidDayIncorrect", t_ReportTimeGroup_isValidDayIncorrect);
   ("ReportTimeGroup_isValidHourIncorrect", t_ReportTimeGroup_isValidHourIncorrect);
   ("ReportTimeGroup_isValidMinuteIncorrect", t_ReportTimeGroup_isValidMinuteIncorrect);
   ("ReportTimeGroup_append", t_ReportTimeGroup_append)] = [].
Proof. vm_compute. reflexivity. Qed.
