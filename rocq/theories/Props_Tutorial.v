(** C76: the listing of the tutorial program. *)
From Verif Require Import Prim Regex Float Values Weather Groups1 Groups2 Groups3 Groups4 Parser Format Tutorial.
From Verif Require Import SpecTutorial Pf_Tutorial.
Local Open Scope string_scope.

(** For every report there is a listing: the heading, and a line for each group of the result, in order, with the name of
    its kind and its text. *)
Theorem C76_listing :
  forall (sgn : bool) (report : string), exists (r : ParseResult) (lines : list string),
    parse sgn report default_groupLimit = Ok r
    /\ Forall2 lists (pr_groups r) lines
    /\ tutorial sgn report = Ok (print_lines (heading report (errorMessage (md_error (pr_metadata r)))
         (reportTypeMessage (md_type (pr_metadata r))) (List.length (pr_groups r)) ++ lines)).
Proof. exact tutorial_prints. Qed.
Print Assumptions C76_listing.

(** The line tells the kind and the text. *)
Theorem C76_line_tells_kind_and_text :
  forall (i j : GroupInfo), Visitor_visitInfo "" MyVisitor i = Visitor_visitInfo "" MyVisitor j ->
    Group_index (gi_group i) = Group_index (gi_group j) /\ gi_rawString i = gi_rawString j.
Proof. exact line_tells. Qed.
Print Assumptions C76_line_tells_kind_and_text.

(** The messages tell the error and the type. *)
Theorem C76_error_told : forall (e e' : ReportError), errorMessage e = errorMessage e' -> e = e'.
Proof. exact messages. Qed.
Print Assumptions C76_error_told.
Theorem C76_type_told : forall (t t' : ReportType), reportTypeMessage t = reportTypeMessage t' -> t = t'.
Proof. exact types. Qed.
Print Assumptions C76_type_told.

(** The program's own report *)
Example C76_nonvacuous : tutorial true tutorial_report = Ok (print_lines
  ["Parsing report: KDDC 112052Z AUTO 19023G34KT 7SM CLR 33/16 A2992 RMK AO2 PK WND 20038/2033 SLP096 T03330156 58018";
   "Parse error: no error, parsed succesfully"; "Detected report type: METAR"; "14 groups parsed"; "ICAO location: KDDC";
   "Report Release Time: 112052Z"; "Keyword: AUTO"; "Wind: 19023G34KT"; "Visibility: 7SM"; "Cloud Data: CLR";
   "Temperature and Dew Point: 33/16"; "Pressure: A2992"; "Keyword: RMK"; "Keyword: AO2"; "Wind: PK WND 20038/2033";
   "Pressure: SLP096"; "Temperature and Dew Point: T03330156"; "Pressure Tendency: 58018"]).
Proof. vm_compute. reflexivity. Qed.
