(** Generated by tools/gen_tests.py from /repo/test/test_unknowngroup.cpp: the project's own unit tests, run
    against the model. These are tests of the model's fidelity, not properties. *)

From Verif Require Import Prim Regex Float Values Weather Groups1 Groups2 Groups3 Groups4 Parser TestLib.
Local Open Scope string_scope.
Local Open Scope bool_scope.

Definition t_UnknownGroup_parse : option N :=
    step 20 ((UnknownGroup_parse "AAAAAAAA" RP_UNKNOWN md_default)) (fun v1 => 
    chk 21 (Ok (has_value v1)) (
    step 23 ((UnknownGroup_parse "AAAAAAAA" RP_HEADER md_default)) (fun v2 => 
    chk 24 (Ok (has_value v2)) (
    step 26 ((UnknownGroup_parse "AAAAAAAA" RP_METAR md_default)) (fun v3 => 
    chk 27 (Ok (has_value v3)) (
    step 29 ((UnknownGroup_parse "AAAAAAAA" RP_TAF md_default)) (fun v4 => 
    chk 30 (Ok (has_value v4)) (
    step 32 ((UnknownGroup_parse "AAAAAAAA" RP_RMK md_default)) (fun v5 => 
    chk 33 (Ok (has_value v5)) (
    None)))))))))).

Definition t_UnknownGroup_append : option N :=
    step 37 ((UnknownGroup_parse "ZZZZZZZZ " RP_METAR md_default)) (fun v1 => 
    chk 38 (Ok (has_value v1)) (
    step 39 (let! v2 := deref v1 in UnknownGroup_append v2 "AAAAAAAAAAA" RP_UNKNOWN md_default) (fun p => let v3 := Some (fst p) in let v4 := snd p in 
    chk 39 (Ok (AppendResult_beq v4 APPENDED)) (
    None)))).

Definition t_UnknownGroup_isValid : option N :=
    step 43 ((UnknownGroup_parse "ZZZZZZZZ " RP_METAR md_default)) (fun v1 => 
    chk 44 (Ok (has_value v1)) (
    chk 45 (let! v2 := deref v1 in Ok (UnknownGroup_isValid v2)) (
    step 47 ((UnknownGroup_parse " " RP_METAR md_default)) (fun v3 => 
    chk 48 (Ok (has_value v3)) (
    chk 49 (let! v4 := deref v3 in Ok (UnknownGroup_isValid v4)) (
    None)))))).

Example tests_unknowngroup_pass : failures
  [("UnknownGroup_parse", t_UnknownGroup_parse);
   ("UnknownGroup_append", t_UnknownGroup_append);
   ("UnknownGroup_isValid", t_UnknownGroup_isValid)] = [].
Proof. vm_compute. reflexivity. Qed.
