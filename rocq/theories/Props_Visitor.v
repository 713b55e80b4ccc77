(** C42: every group is dispatched to exactly one visitor method. *)
From Verif Require Import Prim Regex Float Values Weather Groups1 Groups2 Groups3 Groups4 Parser.
From Verif Require Import SpecVisitor Pf_Visitor.

(** visit() makes exactly one call, to the method for the group's alternative, with the group, the
    report part and the raw string unchanged; for every visitor and every group. *)
Theorem C42_visit_calls_exactly_one_method :
  forall (T : Type) (v : Visitor T) (g : Group) (part : ReportPart) (raw : string),
    Visitor_calls v g part raw = [method_for v g part raw].
Proof. exact visitor_calls_one. Qed.
Print Assumptions C42_visit_calls_exactly_one_method.

(** The value returned by visit(GroupInfo) is the one returned by that method. *)
Theorem C42_visit_returns_what_the_method_returned :
  forall (T : Type) (dflt : T) (v : Visitor T) (i : GroupInfo),
    Visitor_visitInfo dflt v i = method_for v (gi_group i) (gi_reportPart i) (gi_rawString i).
Proof. exact visitor_visit_method. Qed.
Print Assumptions C42_visit_returns_what_the_method_returned.

(** Seen through a visitor recording the number of the called method and its arguments. *)
Theorem C42_recorded_call :
  forall (g : Group) (part : ReportPart) (raw : string),
    Visitor_calls recorder g part raw = [(Group_index g, g, part, raw)].
Proof. exact visitor_recorder. Qed.
Print Assumptions C42_recorded_call.

Example C42_nonvacuous :
  Visitor_calls recorder (GLocation (mkLocation "KJFK"%string)) RP_HEADER "KJFK"%string
  = [(1, GLocation (mkLocation "KJFK"%string), RP_HEADER, "KJFK"%string)].
Proof. reflexivity. Qed.
