(** Specification for C11: the report type as a function of the first groups of the report. *)
From Verif Require Import Prim Values Groups1 Parser SpecForm.
Local Open Scope string_scope.

Definition documented_type (groups : list string) : ReportType :=
  match groups with
  | [] => RT_UNKNOWN
  | first :: groups' =>
    if seqb first "METAR" || seqb first "SPECI" then RT_METAR
    else if seqb first "TAF" then RT_TAF
    else
      match groups' with
      | second :: third :: _ =>
        if fits location_form first && fits report_time_form second then
          if fits time_span_form third then RT_TAF
          else if seqb third "NIL" then RT_UNKNOWN
          else RT_METAR
        else RT_UNKNOWN
      | _ => RT_UNKNOWN
      end
  end.
