(** Specification of the program performance/main.cpp: which reports it reads, what it keeps of them, what it prints. *)
From Coq Require Import List String Ascii NArith Bool Arith Sorted.
From Verif Require Import Prim Groups1 Parser Format Performance.
Import ListNotations.
Local Open Scope string_scope.

(** ** Lines and reports *)

Definition newline : ascii := "010"%char.
(** The lines of a text: each ends with a line end, except possibly the last one, which is then not empty *)
Fixpoint lines (s : string) : list string :=
  match s with
  | "" => []
  | String c r =>
    if Ascii.eqb c newline then "" :: lines r
    else match lines r with [] => [String c ""] | l :: ls => String c l :: ls end
  end.
(** The text of which these are the lines *)
Definition text_of (ls : list string) : string := String.concat "" (map (fun l => l ++ String newline "") ls).
Definition one_line (s : string) : Prop := ~ In newline (list_ascii_of_string s).

Definition line_ends (s : string) : nat := count_occ ascii_dec (list_ascii_of_string s) newline.

(** The lines which are really read, [n] at a time: if there are at least [n], those left over at the end are not used *)
Definition read_lines (n : nat) (ls : list string) : list string :=
  if Nat.ltb (List.length ls) n then ls else firstn (List.length ls / n * n) ls.

(** The METAR and TAF of a collection, without the empty ones *)
Definition reports_of (data : DataSet) : list string :=
  filter (fun s => negb (String.eqb s "")) (flat_map (fun d => [fst d; snd d]) data).
Fixpoint times {A : Type} (n : nat) (l : list A) : list A := match n with 0 => [] | S k => (l ++ times k l)%list end.

(** ** What is kept of a report *)

Definition groups_of (sgn : bool) (report : string) : list GroupInfo :=
  match parse sgn report default_groupLimit with Ok r => pr_groups r | Bad _ => [] end.
Definition error_of (sgn : bool) (report : string) : ReportError :=
  match parse sgn report default_groupLimit with Ok r => md_error (pr_metadata r) | Bad _ => RE_NONE end.

(** The texts of the groups of one kind, i.e. alternative of metaf::Group, in one part of the reports *)
Definition texts (sgn : bool) (kind : nat) (part : ReportPart) (reports : list string) : list string :=
  map gi_rawString
    (filter (fun gi => Nat.eqb (Group_index (gi_group gi)) kind && ReportPart_beq (gi_reportPart gi) part)
       (flat_map (groups_of sgn) reports)).
(** The kinds of groups, in the order of the alternatives of metaf::Group *)
Definition kind_names : list string :=
  ["KeywordGroup"; "LocationGroup"; "ReportTimeGroup"; "TrendGroup"; "WindGroup"; "VisibilityGroup"; "CloudGroup"; "WeatherGroup";
   "TemperatureGroup"; "PressureGroup"; "RunwayStateGroup"; "SeaSurfaceGroup"; "MinMaxTemperatureGroup"; "PrecipitationGroup";
   "LayerForecastGroup"; "PressureTendencyGroup"; "CloudTypesGroup"; "LowMidHighCloudGroup"; "LightningGroup"; "VicinityGroup";
   "MiscGroup"; "UnknownGroup"].
Definition error_name (e : ReportError) : string :=
  match e with
  | RE_NONE => "no error"
  | RE_EMPTY_REPORT => "empty report"
  | RE_EXPECTED_REPORT_TYPE_OR_LOCATION => "expected report_type_or_location"
  | RE_EXPECTED_LOCATION => "expected location"
  | RE_EXPECTED_REPORT_TIME => "expected report time"
  | RE_EXPECTED_TIME_SPAN => "expected time span"
  | RE_UNEXPECTED_REPORT_END => "unexpected report end"
  | RE_UNEXPECTED_GROUP_AFTER_NIL => "unexpected group after NIL"
  | RE_UNEXPECTED_GROUP_AFTER_CNL => "unexpected group after CNL"
  | RE_UNEXPECTED_NIL_OR_CNL_IN_REPORT_BODY => "unexpected NIL or CNL in report body"
  | RE_AMD_ALLOWED_IN_TAF_ONLY => "unexpected AMD in non TAF report"
  | RE_CNL_ALLOWED_IN_TAF_ONLY => "unexpected CNL in non TAF report"
  | RE_MAINTENANCE_INDICATOR_ALLOWED_IN_METAR_ONLY => "unexpected maintenance indicator in TAF report"
  | RE_REPORT_TOO_LARGE => "report too large"
  end.
(** The reports with errors, each after the name of its error *)
Definition failures (sgn : bool) (reports : list string) : list string :=
  flat_map (fun report => match error_of sgn report with RE_NONE => [] | e => [error_name e; report] end) reports.

(** An archive holds these records, in this order *)
Definition holds (a : Archive) (l : list string) : Prop :=
  match a with
  | ArchiveToMemory storage => storage = l
  | ArchiveToFile file count => file = text_of l /\ lines file = l /\ count = List.length l
  end.
(** The archive of a kind and part *)
Definition archive_of (ar : Archiver) (kind : nat) (part : ReportPart) : option Archive :=
  nth_error (archives ar) (kind * 5 + match part with RP_UNKNOWN => 0 | RP_HEADER => 1 | RP_METAR => 2 | RP_TAF => 3 | RP_RMK => 4 end).
Definition holds_reports (sgn : bool) (ar : Archiver) (reports : list string) : Prop :=
  holds (errorReports ar) (failures sgn reports) /\
  forall kind part, kind < 22 -> exists a, archive_of ar kind part = Some a /\ holds a (texts sgn kind part reports).

(** ** Figures *)

Fixpoint sum_clock (clock : nat -> N) (n : nat) : N := match n with 0 => 0%N | S k => (sum_clock clock k + clock k)%N end.
Definition two64 : N := 18446744073709551616%N.

Definition amount (what : string) (n : N) : string :=
  (if (n =? 0)%N then "<1" else dec_N n) ++ " " ++ what ++ (if (2 <=? n)%N then "s" else "").
(** [items] things in [microsec] microseconds *)
Definition figures (what : string) (microsec items : N) : string :=
  amount "microsecond" microsec ++ ", " ++ amount what items ++ ", " ++
  amount what (1000000 * items / microsec)%N ++ " per second." ++ String newline "".

(** ** The list of groups not recognised *)

(** How often [s] is in the list *)
Definition occurrences (s : string) (l : list string) : nat := count_occ string_dec l s.
(** Each text of [l] once, with the number of its occurrences, the most frequent first *)
Definition frequency_list (l : list string) (fl : list (N * string)) : Prop :=
  NoDup (map snd fl) /\
  (forall n s, In (n, s) fl <-> In s l /\ n = N.of_nat (occurrences s l)) /\
  StronglySorted (fun a b => (fst b <= fst a)%N) fl.
Definition listing (fl : list (N * string)) : string :=
  String.concat "" (map (fun e => dec_N (fst e) ++ ": " ++ snd e ++ String newline "") fl).
Definition all_parts : list ReportPart := [RP_UNKNOWN; RP_HEADER; RP_METAR; RP_TAF; RP_RMK].
Definition unrecognised (sgn : bool) (reports : list string) : list string :=
  flat_map (fun part => texts sgn 21 part reports) all_parts.

(** ** The output *)

(** [sub] is part of [s] *)
Definition printed (sub s : string) : Prop := exists a b, s = a ++ sub ++ b.

(** Of [total] reports, these have been processed *)
Definition progress (sgn : bool) (total : N) (reports : list string) : string :=
  let n := N.of_nat (List.length reports) in
  "Processed " ++ dec_N n ++ " reports of " ++ dec_N total ++ " (" ++ dec_N (100 * n / total) ++ "%), " ++
  dec_N (N.of_nat (List.length (flat_map (groups_of sgn) reports))) ++ " groups parsed" ++ String newline "".
Definition error_list (records : list string) : string :=
  match records with
  | [] => "no report errors, all reports parsed successfully" ++ String newline ""
  | _ => "Reports with errors: " ++ dec_N (N.of_nat (List.length records) / 2) ++ String newline "" ++ text_of records
  end.

(** A report can be kept in a file: it and the texts of its groups are not empty *)
Definition can_be_kept (sgn : bool) (report : string) : Prop :=
  report <> "" /\ forall gi, In gi (groups_of sgn report) -> gi_rawString gi <> "".

(** ** The command line *)

Definition starts (c : ascii) (s : string) : Prop := exists r, s = String c r.
(** An argument which is a name of a file: not empty, and neither the first nor the second character is a hyphen *)
Definition plain_name (arg : string) : Prop :=
  exists c r, arg = String c r /\ c <> "-"%char /\ ~ starts "-" r.

(** The reports which the program uses, and the size of the test set as it understands it: without a file as last argument,
    those of the collection, 300 times; with a file, its lines, 64000 at a time *)
Definition file_batch : nat := N.to_nat 64000.
Inductive Uses (data : DataSet) (file : string -> option string) (args : list string) : bool -> list string -> N -> nat -> Prop :=
| Uses_collection : (args = [] \/ exists opts arg, args = (opts ++ [arg])%list /\ starts "-" arg) ->
    Uses data file args false (times 300 (reports_of data)) (N.of_nat (List.length (reports_of data)) * 300) 300
| Uses_file : forall opts name content, args = (opts ++ [name])%list -> plain_name name -> file name = Some content ->
    Uses data file args true (read_lines file_batch (lines content)) (N.of_nat (line_ends content))
      (Nat.max 1 (List.length (lines content) / file_batch)).

(** ** The test of single groups *)

(** The records of an archive which are used again, 1000 at a time if they are in a file, and in how many steps *)
Definition reused (files : bool) (l : list string) : list string := if files then read_lines 1000 l else l.
Definition steps (files : bool) (l : list string) : nat := if files then Nat.max 1 (List.length l / 1000) else 1.
(** The number of groups of a kind which are tested *)
Definition filled (l : list string) : nat := List.length (filter (fun s => negb (String.eqb s "")) l).
Definition sum (l : list nat) : nat := fold_right Nat.add 0 l.
Definition number_tested (sgn files : bool) (kind : nat) (reports : list string) : N :=
  N.of_nat (sum (map (fun part => filled (reused files (texts sgn kind part reports))) all_parts)).
Definition number_steps (sgn files : bool) (kind : nat) (reports : list string) : nat :=
  sum (map (fun part => steps files (texts sgn kind part reports)) all_parts).
(** [n] readings of the clock, from the reading number [first] on *)
Fixpoint sum_range (clock : nat -> N) (first n : nat) : N :=
  match n with 0 => 0%N | S k => (clock first + sum_range clock (S first) k)%N end.
(** The number of steps before those of a kind: the kinds are tested in their order, without weather *)
Definition steps_before (sgn files : bool) (kind : nat) (reports : list string) : nat :=
  sum (map (fun j => number_steps sgn files j reports) (filter (fun j => negb (Nat.eqb j 7)) (seq 0 kind))).
(** The line for a kind of things of which [items] have been dealt with in [microsec] microseconds *)
Definition account (what : string) (microsec items : N) : string :=
  if (items =? 0)%N then "No processed " ++ what ++ "s." ++ String newline "" else figures what microsec items.

(** The program is called to measure, not for help or export *)
Definition measures (args : list string) : Prop := ~ In "--help" args /\ ~ In "--expint" args.
Definition heading (s : string) : string := s ++ String newline "".

(** The input which the command line asks for: the collection or a file *)
Inductive Input (args : list string) : option string -> Prop :=
| Input_collection : (args = [] \/ exists opts arg, args = (opts ++ [arg])%list /\ starts "-" arg) -> Input args None
| Input_file : forall opts name, args = (opts ++ [name])%list -> plain_name name -> Input args (Some name).
(** A section of the output, left out if the option is given *)
Definition unless (option : string) (args : list string) (section : string) : string :=
  if in_dec string_dec option args then "" else section.
Definition begins_with (prefix s : string) : Prop := exists r, s = prefix ++ r.
Definition option_names : list string := ["--help"; "--expint"; "--nogroups"; "--noerror"; "--nounkn"; "--nosize"].

(** Examples of input *)
Definition sample : string := "METAR ZZZZ 010000Z 24005KT 9999".
Definition odd_sample : string := "METAR ZZZZ 010000Z 24005KT 9999 QQQQQ".
Definition example_file : string := text_of [odd_sample; "METAR"; "TAF ZZZZ 010000Z 0100/0106 24005KT 9999"].
Definition example_data : DataSet := [(odd_sample, "TAF ZZZZ 010000Z 0100/0106 24005KT 9999"); ("", "TAF"); ("METAR ZZZZ 010000Z 24005KT QQQQQ 9999 AAAAA", "")].
