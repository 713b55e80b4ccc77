(** The example program examples/tutorial.cpp. Definitions only.

    The program parses one report, the string literal at 7-9; here that is an argument. Its output is the text it writes to
    std::cout. *)
From Coq Require Import List String.
From Verif Require Import Prim Regex Float Values Weather Groups1 Groups2 Groups3 Groups4 Parser Format.
Import ListNotations.
Local Open Scope string_scope.

(** tutorial.cpp:7-9 *)
Definition tutorial_report : string :=
  "KDDC 112052Z AUTO 19023G34KT 7SM CLR 33/16 A2992" ++
  " RMK AO2 PK WND 20038/2033 SLP096 T03330156 58018".

(** tutorial.cpp:11-55 *)
Definition errorMessage (error : ReportError) : string :=
  match error with
  | RE_NONE => "no error, parsed succesfully"
  | RE_EMPTY_REPORT => "empty report"
  | RE_EXPECTED_REPORT_TYPE_OR_LOCATION => "expected report type or ICAO location"
  | RE_EXPECTED_LOCATION => "expected ICAO location"
  | RE_EXPECTED_REPORT_TIME => "expected report time"
  | RE_EXPECTED_TIME_SPAN => "expected time span"
  | RE_UNEXPECTED_REPORT_END => "unexpected report end"
  | RE_UNEXPECTED_GROUP_AFTER_NIL => "unexpected group after NIL"
  | RE_UNEXPECTED_GROUP_AFTER_CNL => "unexpected group after CNL"
  | RE_UNEXPECTED_NIL_OR_CNL_IN_REPORT_BODY => "unexpected NIL or CNL in report body"
  | RE_AMD_ALLOWED_IN_TAF_ONLY => "AMD is allowed in TAF only"
  | RE_CNL_ALLOWED_IN_TAF_ONLY => "CNL is allowed in TAF only"
  | RE_MAINTENANCE_INDICATOR_ALLOWED_IN_METAR_ONLY => "Maintenance indicator is allowed only in METAR reports"
  | RE_REPORT_TOO_LARGE => "Report has too many groups and may be malformed"
  end.
(** tutorial.cpp:57-68 *)
Definition reportTypeMessage (reportType : ReportType) : string :=
  match reportType with
  | RT_UNKNOWN => "unable to detect"
  | RT_METAR => "METAR"
  | RT_TAF => "TAF"
  end.

(** tutorial.cpp:70-268: class MyVisitor; its functions use the raw string only *)
Definition MyVisitor : Visitor string :=
  mkVisitor string
    (fun _ _ rawString => "Keyword: " ++ rawString)
    (fun _ _ rawString => "ICAO location: " ++ rawString)
    (fun _ _ rawString => "Report Release Time: " ++ rawString)
    (fun _ _ rawString => "Trend Header: " ++ rawString)
    (fun _ _ rawString => "Wind: " ++ rawString)
    (fun _ _ rawString => "Visibility: " ++ rawString)
    (fun _ _ rawString => "Cloud Data: " ++ rawString)
    (fun _ _ rawString => "Weather Phenomena: " ++ rawString)
    (fun _ _ rawString => "Temperature and Dew Point: " ++ rawString)
    (fun _ _ rawString => "Pressure: " ++ rawString)
    (fun _ _ rawString => "State of Runway:" ++ rawString)
    (fun _ _ rawString => "Sea Surface: " ++ rawString)
    (fun _ _ rawString => "Minimum/Maximum Temperature: " ++ rawString)
    (fun _ _ rawString => "Precipitation: " ++ rawString)
    (fun _ _ rawString => "Atmospheric Layer Forecast: " ++ rawString)
    (fun _ _ rawString => "Pressure Tendency: " ++ rawString)
    (fun _ _ rawString => "Cloud Types: " ++ rawString)
    (fun _ _ rawString => "Low, middle, and high cloud layers: " ++ rawString)
    (fun _ _ rawString => "Lightning data: " ++ rawString)
    (fun _ _ rawString => "Events in vicinity: " ++ rawString)
    (fun _ _ rawString => "Miscellaneous Data: " ++ rawString)
    (fun _ _ rawString => "Not recognised by the parser: " ++ rawString).

Definition end_line : string := String "010"%char "".                     (* "\n" *)
(** tutorial.cpp:280-282: the loop over the groups *)
Fixpoint tutorial_groups (l : list GroupInfo) : string :=
  match l with
  | [] => ""
  | groupInfo :: l' => Visitor_visitInfo "" MyVisitor groupInfo ++ end_line ++ tutorial_groups l'
  end.
(** tutorial.cpp:270-284: main() *)
Definition tutorial (sgn : bool) (report : string) : res string :=
  let! result := parse sgn report default_groupLimit in
  Ok ("Parsing report: " ++ report ++ end_line
      ++ "Parse error: " ++ errorMessage (md_error (pr_metadata result)) ++ end_line
      ++ "Detected report type: " ++ reportTypeMessage (md_type (pr_metadata result)) ++ end_line
      ++ dec_N (N.of_nat (List.length (pr_groups result))) ++ " groups parsed" ++ end_line
      ++ tutorial_groups (pr_groups result)).
