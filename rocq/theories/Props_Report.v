(** C59: the reports which are read without error are exactly the well-formed ones. *)
From Coq Require Import List.
From Verif Require Import Prim Regex Float Values Weather Groups1 Groups2 Groups3 Groups4 Parser SpecTokens SpecReads SpecText SpecNumeral SpecTrend
  SpecAssembled SpecOpenings SpecSentence SpecWhole Pf_SentenceExample Pf_ReportIff Pf_ReportExample.
Import ListNotations.
Local Open Scope string_scope.

(** Parsing a report gives no error and this type, report time and groups exactly if these are the type, time
    and groups of its words and there are fewer words than the limit. *)
Theorem C59_report :
  forall (sgn : bool) (report : string) (limit : nat) type now groups,
    (exists r, parse sgn report limit = Ok r /\ read_as r type now groups)
    <-> (exists n, Report (report_groups sgn report) type now groups n /\ n < limit).
Proof. exact report_iff. Qed.
Print Assumptions C59_report.
(** The result has an error exactly if the words are not a report, or too many. *)
Theorem C59_no_error :
  forall (sgn : bool) (report : string) (limit : nat) r, parse sgn report limit = Ok r ->
    (md_error (pr_metadata r) = RE_NONE
     <-> exists type now groups n, Report (report_groups sgn report) type now groups n /\ n < limit).
Proof. exact no_error_iff. Qed.
Print Assumptions C59_no_error.
(** Words are a report in one way at most. *)
Theorem C59_one_way :
  forall (sgn : bool) (report : string) type now groups n type' now' groups' n',
    Report (report_groups sgn report) type now groups n -> Report (report_groups sgn report) type' now' groups' n' ->
    type = type' /\ now = now' /\ groups = groups' /\ n = n'.
Proof. exact report_one_way. Qed.
Print Assumptions C59_one_way.

(** The report of C56; the same words when the header is left out are not a report; a missing report; a
    cancelled forecast *)
Example C59_nonvacuous :
  (exists groups n, Report (report_groups true e_report) RT_METAR (Some issue_time) groups n /\ length groups = 14)
  /\ (forall type now groups n, ~ Report (report_groups true "24008KT 9999 FEW020 20/10 Q1013") type now groups n)
  /\ (exists groups n, Report (report_groups true "TAF YUDO NIL=") RT_TAF None groups n /\ length groups = 3)
  /\ (exists t groups n, Report (report_groups true "YUDO 091130Z 0912/1012 CNL=") RT_TAF (Some t) groups n /\ length groups = 4).
Proof. exact examples. Qed.
