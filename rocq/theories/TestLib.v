(** Combinators for the generated Tests_*.v files (see tools/gen_tests.py). *)

From Coq Require Import SpecFloat.
From Verif Require Import Prim Float Values Groups1 Parser.
Local Open Scope string_scope.

(** Run a statement; the result is the source line of the first failing one, [None] if all pass. *)
Definition step {A : Type} (line : N) (m : res A) (k : A -> option N) : option N :=
  match m with Ok a => k a | Bad _ => Some line end.
Definition chk (line : N) (m : res bool) (k : option N) : option N :=
  match m with Ok true => k | _ => Some line end.
(** EXPECT_NEAR: both operands and the margin are doubles *)
Definition near (a b margin : flt) : bool :=
  flt_leb (SFabs (f64_sub (to64 a) (to64 b))) (to64 margin).

(** Rows of testdata_real.cpp: report, type, location, twelve attributes, correction number *)
Definition real_row : Type := string * ReportType * string * list bool * N.
Definition real_ok (r : real_row) : bool :=
  let '(report, ty, loc, attrs, num) := r in
  match parse true report 200 with
  | Ok p =>
    let m := pr_metadata p in
    ReportType_beq (md_type m) ty && ReportError_beq (md_error m) RE_NONE
    && String.eqb (md_icaoLocation m) loc
    && forallb (fun p => Bool.eqb (fst p) (snd p))
         (combine attrs
            [md_isSpeci m; md_isNospeci m; md_isAutomated m; md_isAo1 m; md_isAo1a m; md_isAo2 m;
             md_isAo2a m; md_isNil m; md_isCancelled m; md_isAmended m; md_isCorrectional m;
             md_maintenanceIndicator m])
    && (match ty with
        | RT_METAR => N.eqb (opt_default (md_correctionNumber m) 0%N) num
        | _ => true end)
  | Bad _ => false
  end.
Definition real_failures (l : list real_row) : list string :=
  map (fun r => let '(s, _, _, _, _) := r in s) (filter (fun r => negb (real_ok r)) l).
Scheme Equality for TempUnit.
Scheme Equality for WhUnit.
Definition failures (l : list (string * option N)) : list (string * option N) :=
  filter (fun p => match snd p with None => false | Some _ => true end) l.
