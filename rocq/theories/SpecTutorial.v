(** Specification for C76: what the tutorial program is to print. *)
From Coq Require Import List String.
From Verif Require Import Prim Values Weather Groups1 Groups2 Groups3 Groups4 Parser Format.
Import ListNotations.
Local Open Scope string_scope.

(** The name of the kind of a group *)
Definition kind_name (g : Group) : string :=
  match g with
  | GKeyword _ => "Keyword"
  | GLocation _ => "ICAO location"
  | GReportTime _ => "Report Release Time"
  | GTrend _ => "Trend Header"
  | GWind _ => "Wind"
  | GVisibility _ => "Visibility"
  | GCloud _ => "Cloud Data"
  | GWeather _ => "Weather Phenomena"
  | GTemperature _ => "Temperature and Dew Point"
  | GPressure _ => "Pressure"
  | GRunwayState _ => "State of Runway"
  | GSeaSurface _ => "Sea Surface"
  | GMinMaxTemperature _ => "Minimum/Maximum Temperature"
  | GPrecipitation _ => "Precipitation"
  | GLayerForecast _ => "Atmospheric Layer Forecast"
  | GPressureTendency _ => "Pressure Tendency"
  | GCloudTypes _ => "Cloud Types"
  | GLowMidHighCloud _ => "Low, middle, and high cloud layers"
  | GLightning _ => "Lightning data"
  | GVicinity _ => "Events in vicinity"
  | GMisc _ => "Miscellaneous Data"
  | GUnknown _ => "Not recognised by the parser"
  end.
(** The line names the kind of the group and ends with its text. *)
Definition lists (i : GroupInfo) (line : string) : Prop :=
  line = kind_name (gi_group i) ++ ": " ++ gi_rawString i \/ line = kind_name (gi_group i) ++ ":" ++ gi_rawString i.
(** Lines, each with its end *)
Fixpoint print_lines (l : list string) : string :=
  match l with [] => "" | s :: l' => s ++ String "010"%char (print_lines l') end.
(** The lines before those of the groups, with the words for the error and for the type of the report *)
Definition heading (report error type : string) (count : nat) : list string :=
  ["Parsing report: " ++ report; "Parse error: " ++ error; "Detected report type: " ++ type;
   dec_N (N.of_nat count) ++ " groups parsed"].
