(** Words to speak about explanations with. *)
From Coq Require Import List.
Import ListNotations.
From Verif Require Import Prim Values Weather Groups1 Groups2 Groups3 Groups4 Parser.
Local Open Scope string_scope.

(** [c] stands in [s] *)
Fixpoint occurs (c : ascii) (s : string) : bool :=
  match s with
  | EmptyString => false
  | String d t => Ascii.eqb c d || occurs c t
  end.
(** [p] stands in [s] *)
Fixpoint mentions (p s : string) : bool :=
  prefix p s || match s with EmptyString => false | String _ t => mentions p t end.

(** ** The table *)
(** A line break for every end of line *)
Fixpoint with_breaks (s : string) : string :=
  match s with
  | EmptyString => ""
  | String c t => (if Ascii.eqb c "010" then "<br>" else String c "") ++ with_breaks t
  end.
Definition row (cells : string * string) : string := "<tr><td>" ++ fst cells ++ "</td><td>" ++ snd cells ++ "</td></tr>".
Fixpoint all_rows (l : list (string * string)) : string := match l with nil => "" | cons r t => row r ++ all_rows t end.
Definition table (rows : list (string * string)) : string :=
  "<thead><tr><th>Group</th><th>Explanation</th></tr></thead><tbody>" ++ all_rows rows ++ "</tbody>".

(** A group for a varying runway visual range which names no runway *)
Definition unnamed_runway (g : Group) : Prop :=
  exists v, g = GVisibility v /\ vi_type v = Vi_VARIABLE_RVR /\ vi_rw v = None.
Definition names_no_runway (p : ParseResult) : Prop := exists i, In i (pr_groups p) /\ unnamed_runway (gi_group i).

(** The rows of the table: the type of the report, the error if there is one, and the groups, each with its text from
    the report and its explanation *)
Definition type_text (t : ReportType) : string :=
  match t with
  | RT_UNKNOWN => "unable to detect" | RT_METAR => "METAR (weather observation)" | RT_TAF => "TAF (weather forecast)"
  end.
Definition error_text (e : ReportError) : option string :=
  match e with
  | RE_NONE => None
  | RE_EMPTY_REPORT => Some "report is empty"
  | RE_EXPECTED_REPORT_TYPE_OR_LOCATION => Some "expected report type or ICAO location at report start"
  | RE_EXPECTED_LOCATION => Some "expected ICAO location"
  | RE_EXPECTED_REPORT_TIME => Some "expected report time"
  | RE_EXPECTED_TIME_SPAN => Some "expected time span"
  | RE_UNEXPECTED_REPORT_END => Some "unexpected report end"
  | RE_UNEXPECTED_GROUP_AFTER_NIL => Some "unexpected group after NIL"
  | RE_UNEXPECTED_GROUP_AFTER_CNL => Some "unexpected group after CNL"
  | RE_UNEXPECTED_NIL_OR_CNL_IN_REPORT_BODY => Some "unexpected NIL or CNL in report body"
  | RE_AMD_ALLOWED_IN_TAF_ONLY => Some "AMD is allowed only in TAF reports"
  | RE_CNL_ALLOWED_IN_TAF_ONLY => Some "CNL is allowed only in TAF reports"
  | RE_MAINTENANCE_INDICATOR_ALLOWED_IN_METAR_ONLY => Some "Maintenance indicator is allowed only in METAR reports"
  | RE_REPORT_TOO_LARGE => Some "Report has too many groups"
  end.
Definition report_rows (p : ParseResult) (texts : list string) : list (string * string) :=
  ("&nbsp;", "Detected report type: " ++ type_text (md_type (pr_metadata p)))
  :: (match error_text (md_error (pr_metadata p)) with None => nil | Some e => [("&nbsp;", "Parsing error: " ++ e)] end
      ++ combine (map gi_rawString (pr_groups p)) (map with_breaks texts)).
