(** C89 to C93 and C95: what performance/main.cpp measures, keeps and prints. *)
From Coq Require Import List String NArith Bool Arith.
From Verif Require Import Prim Groups1 Parser Format Performance SpecPerformance.
From Verif Require Import Pf_Performance Pf_PerfLine Pf_PerfCases.
Import ListNotations.
Local Open Scope string_scope.

(** ** C89 *)

(** The program says that it has processed the reports which it uses, with the number of their groups. *)
Theorem C89_progress :
  forall (sgn : bool) (clock : nat -> N) (sizeof : string -> N) (data : DataSet) (file : string -> option string) (args : list string)
    (files : bool) (reports : list string) (total : N) (k : nat) (o : Output),
    Uses data file args files reports total k -> measures args ->
    (100 * N.of_nat (List.length reports) < two64)%N -> (N.of_nat (List.length (flat_map (groups_of sgn) reports)) < two64)%N ->
    performance_main sgn false clock sizeof data file args = Ok o -> printed (progress sgn total reports) (out_text o).
Proof. exact progress_printed. Qed.
Print Assumptions C89_progress.
(** All lines of a file are processed if there are fewer than 64000, or a multiple of 64000. *)
Theorem C89_file_partial :
  forall (sgn : bool) (clock : nat -> N) (sizeof : string -> N) (data : DataSet) (file : string -> option string)
    (opts : list string) (name content : string) (o : Output),
    plain_name name -> file name = Some content -> measures (opts ++ [name]) ->
    List.length (lines content) < file_batch \/ List.length (lines content) mod file_batch = 0 ->
    (100 * N.of_nat (List.length (lines content)) < two64)%N -> (N.of_nat (List.length (flat_map (groups_of sgn) (lines content))) < two64)%N ->
    performance_main sgn false clock sizeof data file (opts ++ [name]) = Ok o ->
    printed (progress sgn (N.of_nat (line_ends content)) (lines content)) (out_text o) /\ holds_reports sgn (out_archiver o) (lines content).
Proof. exact file_complete. Qed.
Print Assumptions C89_file_partial.
(** Of a file with 64001 lines, the last one is not processed. *)
Theorem C89_last_line_refuted :
  exists content, List.length (lines content) = S file_batch /\
    forall (sgn : bool) (sizeof : string -> N) (data : DataSet) (file : string -> option string), file "reports.txt" = Some content ->
      exists o, performance_main sgn false (fun _ => 1%N) sizeof data file ["--nogroups"; "reports.txt"] = Ok o /\
        printed (progress sgn 64001 (firstn file_batch (lines content))) (out_text o) /\
        holds_reports sgn (out_archiver o) (firstn file_batch (lines content)).
Proof. exact last_lines_lost. Qed.
Print Assumptions C89_last_line_refuted.
Example C89_nonvacuous :
  exists o, performance_main true false (fun i => N.of_nat (7 + i)) (fun _ => 8%N) [] (fun _ => Some example_file) ["reports.txt"] = Ok o /\
    Uses [] (fun _ => Some example_file) ["reports.txt"] true [odd_sample; "METAR"; "TAF ZZZZ 010000Z 0100/0106 24005KT 9999"] 3 1 /\
    measures ["reports.txt"] /\ unrecognised true [odd_sample; "METAR"; "TAF ZZZZ 010000Z 0100/0106 24005KT 9999"] = ["QQQQQ"] /\
    failures true [odd_sample; "METAR"; "TAF ZZZZ 010000Z 0100/0106 24005KT 9999"] = ["unexpected report end"; "METAR"] /\
    out_text o <> "".
Proof. exact example_run. Qed.

(** ** C90 *)

(** Each group of each report is kept once, in the archive of its kind and part, in the order of the input, and each report with an
    error once, with the name of the error. *)
Theorem C90_archives :
  forall (sgn : bool) (clock : nat -> N) (sizeof : string -> N) (data : DataSet) (file : string -> option string) (args : list string)
    (files : bool) (reports : list string) (total : N) (k : nat) (o : Output),
    Uses data file args files reports total k -> measures args ->
    performance_main sgn false clock sizeof data file args = Ok o -> holds_reports sgn (out_archiver o) reports.
Proof. exact archives_filled. Qed.
Print Assumptions C90_archives.
(** The archives are in different files. *)
Theorem C90_files :
  forall (i : nat) (p : ReportPart) (j : nat) (q : ReportPart),
    i < 22 -> j < 22 -> archive_filename i p = archive_filename j q -> i = j /\ p = q.
Proof. exact files_differ. Qed.
Print Assumptions C90_files.
Theorem C90_error_file : forall (i : nat) (p : ReportPart), i < 22 -> archive_filename i p <> error_filename.
Proof. exact error_file_differs. Qed.
Print Assumptions C90_error_file.

(** ** C91 *)

(** The program returns if no time is measured as 0, the sums of times are representable, the number of reports or line ends is not 0,
    and no line of the file is blank. *)
Theorem C91_returns_partial :
  forall (sgn : bool) (clock : nat -> N) (sizeof : string -> N) (data : DataSet) (file : string -> option string) (args : list string)
    (files : bool) (reports : list string) (total : N) (k : nat) (B : N),
    Uses data file args files reports total k ->
    (files = true -> forall x, In x reports -> can_be_kept sgn x) -> total <> 0%N ->
    (forall i, (1 <= clock i <= B)%N) -> (B * N.of_nat k < two64)%N ->
    (~ In "--nogroups" args -> forall kind, kind < 21 -> (B * N.of_nat (number_steps sgn files kind reports) < two64)%N) ->
    exists o, performance_main sgn false clock sizeof data file args = Ok o.
Proof. exact main_returns. Qed.
Print Assumptions C91_returns_partial.
(** A file which cannot be read is an exception. *)
Theorem C91_missing_file :
  forall (sgn : bool) (clock : nat -> N) (sizeof : string -> N) (data : DataSet) (file : string -> option string) (args : list string) (name : string),
    Input args (Some name) -> measures args -> file name = None -> performance_main sgn false clock sizeof data file args = Bad Throw.
Proof. exact missing_file. Qed.
Print Assumptions C91_missing_file.
(** A blank line in the file: back() of an empty string. *)
Theorem C91_blank_line_refuted :
  forall sgn, performance_main sgn false (fun _ => 1%N) (fun _ => 0%N) [] (fun _ => Some (heading sample ++ heading "" ++ heading sample)) ["reports.txt"] = Bad UB.
Proof. exact blank_line. Qed.
Print Assumptions C91_blank_line_refuted.
(** A file of one report without a line end: division by zero in the percentage. *)
Theorem C91_no_line_end_refuted :
  forall sgn, performance_main sgn false (fun _ => 1%N) (fun _ => 0%N) [] (fun _ => Some sample) ["reports.txt"] = Bad UB.
Proof. exact no_line_end. Qed.
Print Assumptions C91_no_line_end_refuted.
(** A measured time of less than a microsecond: division by zero in the number per second. *)
Theorem C91_clock_refuted :
  forall sgn, performance_main sgn false (fun _ => 0%N) (fun _ => 0%N) [] (fun _ => Some (heading sample)) ["reports.txt"] = Bad UB.
Proof. exact quick_clock. Qed.
Print Assumptions C91_clock_refuted.

(** ** C92 *)

(** For the collection, the list of groups which are not recognised has each of them once, with the number of its occurrences in the
    collection, the most frequent first. *)
Theorem C92_collection :
  forall (sgn : bool) (clock : nat -> N) (sizeof : string -> N) (data : DataSet) (file : string -> option string)
    (args : list string) (total : N) (k : nat) (reports : list string) (o : Output),
    Uses data file args false reports total k -> measures args -> ~ In "--nounkn" args ->
    (N.of_nat (List.length (unrecognised sgn reports)) < two64)%N ->
    performance_main sgn false clock sizeof data file args = Ok o ->
    exists fl, frequency_list (unrecognised sgn (reports_of data)) fl /\
      printed (heading "Groups not recognised by the parser (by occurrence number):" ++ listing fl ++ String newline "") (out_text o).
Proof. exact unknown_collection. Qed.
Print Assumptions C92_collection.
(** For a file this holds if each part of the reports has fewer than 1000 such groups, or a multiple of 1000. *)
Theorem C92_file_partial :
  forall (sgn : bool) (clock : nat -> N) (sizeof : string -> N) (data : DataSet) (file : string -> option string)
    (args : list string) (total : N) (k : nat) (reports : list string) (o : Output),
    Uses data file args true reports total k -> measures args -> ~ In "--nounkn" args ->
    (N.of_nat (List.length (unrecognised sgn reports)) < two64)%N ->
    (forall part, List.length (texts sgn 21 part reports) < 1000 \/ List.length (texts sgn 21 part reports) mod 1000 = 0) ->
    performance_main sgn false clock sizeof data file args = Ok o ->
    exists fl, frequency_list (unrecognised sgn reports) fl /\
      printed (heading "Groups not recognised by the parser (by occurrence number):" ++ listing fl ++ String newline "") (out_text o).
Proof. exact unknown_file. Qed.
Print Assumptions C92_file_partial.
(** Of 1001 occurrences, 1000 are counted. *)
Theorem C92_file_refuted :
  exists content, (forall sgn, unrecognised sgn (lines content) = repeat "QQQQQ" 1001) /\
    forall (sgn : bool) (sizeof : string -> N) (data : DataSet) (file : string -> option string), file "reports.txt" = Some content ->
      exists o, performance_main sgn false (fun _ => 1%N) sizeof data file ["--nogroups"; "reports.txt"] = Ok o /\
        printed (heading "Groups not recognised by the parser (by occurrence number):" ++ heading "1000: QQQQQ" ++ String newline "") (out_text o).
Proof. exact unknown_lost. Qed.
Print Assumptions C92_file_refuted.
(** All reports with errors are listed, for a file if there are fewer than 500, or a multiple of 500. *)
Theorem C92_errors_partial :
  forall (sgn : bool) (clock : nat -> N) (sizeof : string -> N) (data : DataSet) (file : string -> option string)
    (args : list string) (files : bool) (total : N) (k : nat) (reports : list string) (o : Output),
    Uses data file args files reports total k -> measures args -> ~ In "--noerror" args ->
    (files = true -> List.length (failures sgn reports) < 1000 \/ List.length (failures sgn reports) mod 1000 = 0) ->
    performance_main sgn false clock sizeof data file args = Ok o ->
    printed (heading "Reports not recognised by the parser:" ++ error_list (failures sgn reports) ++ String newline "") (out_text o).
Proof. exact errors_listed. Qed.
Print Assumptions C92_errors_partial.
(** Of 501 reports with errors, 500 are listed. *)
Theorem C92_errors_refuted :
  exists content, (forall sgn, List.length (failures sgn (lines content)) = 1002) /\
    forall (sgn : bool) (sizeof : string -> N) (data : DataSet) (file : string -> option string), file "reports.txt" = Some content ->
      exists o, performance_main sgn false (fun _ => 1%N) sizeof data file ["--nogroups"; "reports.txt"] = Ok o /\
        printed (heading "Reports not recognised by the parser:" ++ heading "Reports with errors: 501" ++
                 text_of (firstn 1000 (failures sgn (lines content))) ++ String newline "" ++
                 heading "Groups not recognised by the parser (by occurrence number):") (out_text o).
Proof. exact errors_lost. Qed.
Print Assumptions C92_errors_refuted.
Example C92_nonvacuous :
  exists o, performance_main true false (fun _ => 7%N) (fun _ => 8%N) example_data (fun _ => None) [] = Ok o /\
    Uses example_data (fun _ => None) [] false (times 300 (reports_of example_data)) 1200 300 /\ measures [] /\
    unrecognised true (reports_of example_data) = ["QQQQQ"; "QQQQQ"; "AAAAA"].
Proof. exact example_collection. Qed.

(** ** C93 *)

(** For each kind of recognised groups except weather, the number of groups tested and the time of their tests are printed. *)
Theorem C93_kinds_partial :
  forall (sgn : bool) (clock : nat -> N) (sizeof : string -> N) (data : DataSet) (file : string -> option string)
    (args : list string) (files : bool) (total : N) (k : nat) (reports : list string) (o : Output) (kind : nat),
    Uses data file args files reports total k -> measures args -> ~ In "--nogroups" args ->
    kind < 21 -> kind <> 7 ->
    (sum_range clock (k + steps_before sgn files kind reports) (number_steps sgn files kind reports) < two64)%N -> (1000000 * number_tested sgn files kind reports < two64)%N ->
    performance_main sgn false clock sizeof data file args = Ok o ->
    printed (account (nth kind kind_names "") (sum_range clock (k + steps_before sgn files kind reports) (number_steps sgn files kind reports)) (number_tested sgn files kind reports)) (out_text o).
Proof. exact kinds_reported. Qed.
Print Assumptions C93_kinds_partial.
(** Weather groups are never tested, whatever the input. *)
Theorem C93_weather :
  forall (sgn : bool) (clock : nat -> N) (sizeof : string -> N) (data : DataSet) (file : string -> option string)
    (args : list string) (files : bool) (total : N) (k : nat) (reports : list string) (o : Output),
    Uses data file args files reports total k -> measures args -> ~ In "--nogroups" args ->
    performance_main sgn false clock sizeof data file args = Ok o ->
    printed (heading "No performance stats exist for WeatherGroup.") (out_text o).
Proof. exact weather_missing. Qed.
Print Assumptions C93_weather.
Theorem C93_weather_refuted :
  exists data, forall sgn, texts sgn 7 RP_METAR (reports_of data) = ["-RA"] /\
    forall (sizeof : string -> N) (file : string -> option string),
      exists o, performance_main sgn false (fun _ => 1%N) sizeof data file [] = Ok o /\
        printed (heading "No performance stats exist for WeatherGroup.") (out_text o).
Proof. exact weather_untested. Qed.
Print Assumptions C93_weather_refuted.

(** ** C95 *)

(** The time, the number and the rate of reports and of groups. *)
Theorem C95_figures :
  forall (sgn : bool) (clock : nat -> N) (sizeof : string -> N) (data : DataSet) (file : string -> option string)
    (args : list string) (files : bool) (total : N) (k : nat) (reports : list string) (o : Output),
    Uses data file args files reports total k -> measures args ->
    (sum_clock clock k < two64)%N -> (1000000 * N.of_nat (List.length reports) < two64)%N ->
    (1000000 * N.of_nat (List.length (flat_map (groups_of sgn) reports)) < two64)%N ->
    performance_main sgn false clock sizeof data file args = Ok o ->
    printed (account "report" (sum_clock clock k) (N.of_nat (List.length reports)) ++
             account "group" (sum_clock clock k) (N.of_nat (List.length (flat_map (groups_of sgn) reports)))) (out_text o).
Proof. exact figures_printed. Qed.
Print Assumptions C95_figures.
