(** C09, C10: the report grammar and the error of the result. *)
From Verif Require Import Prim Regex Float Values Weather Groups1 Groups2 Groups3 Groups4 Parser.
From Verif Require Import SpecTokens SpecReads SpecText SpecLimit SpecGrammar Pf_Grammar2.
Local Open Scope string_scope.

(** C09: [WellFormed] is the documented grammar, the second condition says that the limit was not
    reached (C07). *)
Theorem C09_no_error_iff_well_formed :
  forall (sgn : bool) (report : string) (groupLimit : nat) (r : ParseResult),
    parse sgn report groupLimit = Ok r ->
    (md_error (pr_metadata r) = RE_NONE
     <-> ((exists t, WellFormed t (labels r))
          /\ ~ (words_of_result r <> [] /\ (groupLimit <= groups_counted r)%nat))).
Proof. exact error_free_iff_any. Qed.
Print Assumptions C09_no_error_iff_well_formed.

(** The type of an error-free result is the one the grammar says, and no other fits. *)
Theorem C09_type_of_well_formed :
  forall (sgn : bool) (report : string) (groupLimit : nat) (r : ParseResult),
    parse sgn report groupLimit = Ok r ->
    (md_error (pr_metadata r) = RE_NONE
     <-> (WellFormed (md_type (pr_metadata r)) (labels r)
          /\ ~ (words_of_result r <> [] /\ (groupLimit <= groups_counted r)%nat))).
Proof. exact error_free_iff. Qed.
Print Assumptions C09_type_of_well_formed.
Theorem C09_grammar_is_unambiguous :
  forall (t t' : ReportType) (l : list label), WellFormed t l -> WellFormed t' l -> t = t'.
Proof. exact well_formed_type. Qed.
Print Assumptions C09_grammar_is_unambiguous.

Definition error_and_labels (r : res ParseResult) : option (ReportType * ReportError * list label) :=
  match r with
  | Ok r => Some (md_type (pr_metadata r), md_error (pr_metadata r), labels r)
  | Bad _ => None
  end.
Example C09_nonvacuous :
  error_and_labels (parse true "TAF AMD ZZZZ 010000Z 0100/0124 00000KT CAVOK RMK AO2" 100)
  = Some (RT_TAF, RE_NONE,
      [head SG_TAF; head SG_AMD; head SG_LOCATION; head SG_REPORT_TIME; head SG_TIME_SPAN;
       (RP_TAF, SG_OTHER); (RP_TAF, SG_OTHER); (RP_TAF, SG_RMK); (RP_RMK, SG_OTHER)])
  /\ error_and_labels (parse true "ZZZZ 010000Z NIL" 100)
     = Some (RT_UNKNOWN, RE_NONE, [head SG_LOCATION; head SG_REPORT_TIME; head SG_NIL])
  /\ error_and_labels (parse true "METAR ZZZZ 010000Z CAVOK NIL" 100)
     = Some (RT_METAR, RE_UNEXPECTED_NIL_OR_CNL_IN_REPORT_BODY,
         [head SG_METAR; head SG_LOCATION; head SG_REPORT_TIME; (RP_METAR, SG_OTHER); (RP_METAR, SG_NIL)]).
Proof. repeat split; vm_compute; reflexivity. Qed.

(** C10: for each error what the groups of the result look like; [ErrorAt] says which error a group is
    after the beginning of a report. *)
Theorem C10_error_names_first_violation :
  forall (sgn : bool) (report : string) (groupLimit : nat) (r : ParseResult),
    parse sgn report groupLimit = Ok r ->
    match md_error (pr_metadata r) with
    | RE_NONE => True
    | RE_REPORT_TOO_LARGE => True
    | RE_EMPTY_REPORT => labels r = []
    | RE_UNEXPECTED_REPORT_END =>
      labels r <> [] /\ Viable (labels r) /\ forall t, ~ WellFormed t (labels r)
    | e => exists l x, labels r = (l ++ [x])%list /\ Viable l /\ ~ Viable (l ++ [x])%list /\ ErrorAt l x e
    end.
Proof. exact first_error. Qed.
Print Assumptions C10_error_names_first_violation.

(** Reports whose groups are the same to the grammar have the same error. *)
Theorem C10_error_determined_by_labels :
  forall (sgn : bool) (report : string) (groupLimit : nat) (r : ParseResult)
         (sgn' : bool) (report' : string) (groupLimit' : nat) (r' : ParseResult),
    parse sgn report groupLimit = Ok r -> parse sgn' report' groupLimit' = Ok r' -> labels r = labels r' ->
    md_error (pr_metadata r) <> RE_REPORT_TOO_LARGE -> md_error (pr_metadata r') <> RE_REPORT_TOO_LARGE ->
    md_error (pr_metadata r) = md_error (pr_metadata r').
Proof. exact error_function_of_labels. Qed.
Print Assumptions C10_error_determined_by_labels.

(** Whatever follows the offending group makes no difference. *)
Theorem C10_rest_is_ignored :
  forall (sgn : bool) (report : string) (groupLimit : nat) (r : ParseResult),
    parse sgn report groupLimit = Ok r ->
    md_error (pr_metadata r) <> RE_NONE -> md_error (pr_metadata r) <> RE_UNEXPECTED_REPORT_END ->
    md_error (pr_metadata r) <> RE_EMPTY_REPORT ->
    forall (sgn' : bool) (report' : string) (rest' : list string),
      report_groups sgn' report' = (words_of_result r ++ rest')%list ->
      parse sgn' report' groupLimit = Ok r.
Proof. exact rest_ignored. Qed.
Print Assumptions C10_rest_is_ignored.

Theorem C10_empty_report :
  forall (sgn : bool) (report : string) (groupLimit : nat) (r : ParseResult),
    parse sgn report groupLimit = Ok r ->
    (md_error (pr_metadata r) = RE_EMPTY_REPORT <-> report_groups sgn report = []).
Proof. exact empty_report_iff. Qed.
Print Assumptions C10_empty_report.

(** Every error code occurs. *)
Definition error_of (report : string) : option ReportError :=
  match parse true report 100 with Ok r => Some (md_error (pr_metadata r)) | Bad _ => None end.
Example C10_nonvacuous :
  map error_of [""; "FOO"; "TAF FOO"; "METAR ZZZZ FOO"; "TAF ZZZZ 010000Z FOO"; "METAR ZZZZ";
    "TAF ZZZZ NIL FOO"; "TAF ZZZZ 0100/0124 CNL FOO"; "METAR ZZZZ 010000Z CAVOK NIL"; "METAR AMD";
    "METAR ZZZZ 010000Z CNL"; "TAF ZZZZ 0100/0124 $"]
  = map Some [RE_EMPTY_REPORT; RE_EXPECTED_REPORT_TYPE_OR_LOCATION; RE_EXPECTED_LOCATION;
    RE_EXPECTED_REPORT_TIME; RE_EXPECTED_TIME_SPAN; RE_UNEXPECTED_REPORT_END;
    RE_UNEXPECTED_GROUP_AFTER_NIL; RE_UNEXPECTED_GROUP_AFTER_CNL;
    RE_UNEXPECTED_NIL_OR_CNL_IN_REPORT_BODY; RE_AMD_ALLOWED_IN_TAF_ONLY;
    RE_CNL_ALLOWED_IN_TAF_ONLY; RE_MAINTENANCE_INDICATOR_ALLOWED_IN_METAR_ONLY].
Proof. vm_compute. reflexivity. Qed.
