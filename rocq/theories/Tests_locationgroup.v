(** Generated by tools/gen_tests.py from /repo/test/test_locationgroup.cpp: the project's own unit tests, run
    against the model. These are tests of the model's fidelity, not properties. *)

From Verif Require Import Prim Regex Float Values Weather Groups1 Groups2 Groups3 Groups4 Parser TestLib.
Local Open Scope string_scope.
Local Open Scope bool_scope.

Definition t_LocationGroup_parseLocationWithoutNumber : option N :=
    step 19 ((LocationGroup_parse "UKLL" RP_HEADER md_default)) (fun v1 => 
    chk 20 (Ok (has_value v1)) (
    chk 21 (let! v2 := deref v1 in Ok (String.eqb (LocationGroup_toString v2) "UKLL")) (
    None))).

Definition t_LocationGroup_parseLocationWithNumber : option N :=
    step 26 ((LocationGroup_parse "K2J3" RP_HEADER md_default)) (fun v1 => 
    chk 27 (Ok (has_value v1)) (
    chk 28 (let! v2 := deref v1 in Ok (String.eqb (LocationGroup_toString v2) "K2J3")) (
    None))).

Definition t_LocationGroup_parseWrongReportPart : option N :=
    chk 33 (let! v1 := (LocationGroup_parse "UKLL" RP_HEADER md_default) in Ok (has_value v1)) (
    chk 34 (let! v2 := (LocationGroup_parse "UKLL" RP_UNKNOWN md_default) in Ok (negb (has_value v2))) (
    chk 35 (let! v3 := (LocationGroup_parse "UKLL" RP_METAR md_default) in Ok (negb (has_value v3))) (
    chk 36 (let! v4 := (LocationGroup_parse "UKLL" RP_TAF md_default) in Ok (negb (has_value v4))) (
    chk 37 (let! v5 := (LocationGroup_parse "UKLL" RP_RMK md_default) in Ok (negb (has_value v5))) (
    None))))).

Definition t_LocationGroup_parseWrongFormat : option N :=
    chk 41 (let! v1 := (LocationGroup_parse "2AAA" RP_METAR md_default) in Ok (negb (has_value v1))) (
    chk 42 (let! v2 := (LocationGroup_parse "AAA" RP_METAR md_default) in Ok (negb (has_value v2))) (
    chk 43 (let! v3 := (LocationGroup_parse "AAAAA" RP_METAR md_default) in Ok (negb (has_value v3))) (
    None))).

Definition t_LocationGroup_isValid : option N :=
    step 47 ((LocationGroup_parse "UKLL" RP_HEADER md_default)) (fun v1 => 
    chk 48 (Ok (has_value v1)) (
    chk 49 (let! v2 := deref v1 in Ok (LocationGroup_isValid v2)) (
    step 51 ((LocationGroup_parse "K2J3" RP_HEADER md_default)) (fun v3 => 
    chk 52 (Ok (has_value v3)) (
    chk 53 (let! v4 := deref v3 in Ok (LocationGroup_isValid v4)) (
    None)))))).

Example tests_locationgroup_pass : failures
  [("LocationGroup_parseLocationWithoutNumber", t_LocationGroup_parseLocationWithoutNumber);
   ("LocationGroup_parseLocationWithNumber", t_LocationGroup_parseLocationWithNumber);
   ("LocationGroup_parseWrongReportPart", t_LocationGroup_parseWrongReportPart);
   ("LocationGroup_parseWrongFormat", t_LocationGroup_parseWrongFormat);
   ("LocationGroup_isValid", t_LocationGroup_isValid)] = [].
Proof. vm_compute. reflexivity. Qed.
