(** C104: the performance program compiled for a browser. *)
From Coq Require Import List String Ascii NArith Bool Arith.
From Verif Require Import Prim Groups1 Parser Format Performance SpecPerformance.
From Verif Require Import Pf_PerfBrowser.
Import ListNotations.
Local Open Scope string_scope.

(** ** C104 *)

(** The second argument of [performance_main] tells that the program is compiled for a browser. All its output: the collection is
    parsed 300 times, nothing is kept and no other section is shown, whatever the command line. Numbers are below 2^32, as size_t has
    32 bits there. Missing: a last argument which is empty, and a clock which does not advance. *)
Theorem C104_output_partial :
  forall (sgn : bool) (clock : nat -> N) (sizeof : string -> N) (data : DataSet) (file : string -> option string)
    (args : list string) (o : Output),
    (forall opts, args <> (opts ++ [""])%list) -> (sum_clock clock 300 < two64)%N ->
    (N.of_nat (List.length (times 300 (reports_of data))) < 4294967296)%N ->
    (N.of_nat (List.length (flat_map (groups_of sgn) (times 300 (reports_of data)))) < 4294967296)%N ->
    performance_main sgn true clock sizeof data file args = Ok o ->
    out_text o =
      heading "Checking overall parser performance" ++ heading "Using internal data set" ++
      heading ("Test set size is " ++ dec_N (N.of_nat (List.length (reports_of data)) * 300)) ++ heading "" ++
      account "report" (sum_clock clock 300) (N.of_nat (List.length (times 300 (reports_of data)))) ++
      account "group" (sum_clock clock 300) (N.of_nat (List.length (flat_map (groups_of sgn) (times 300 (reports_of data))))) ++
      heading "" /\
    out_export o = None /\ holds_reports sgn (out_archiver o) [].
Proof. exact browser_text. Qed.
Print Assumptions C104_output_partial.
(** The program ends; the collection may be empty. *)
Theorem C104_returns_partial :
  forall (sgn : bool) (clock : nat -> N) (sizeof : string -> N) (data : DataSet) (file : string -> option string) (args : list string),
    (forall opts, args <> (opts ++ [""])%list) -> (0 < sum_clock clock 300 < two64)%N ->
    exists o, performance_main sgn true clock sizeof data file args = Ok o.
Proof. exact browser_returns. Qed.
Print Assumptions C104_returns_partial.
(** The command line and the files make no difference. *)
Theorem C104_line_ignored_partial :
  forall (sgn : bool) (clock : nat -> N) (sizeof sizeof' : string -> N) (data : DataSet) (file file' : string -> option string)
    (args args' : list string),
    (forall opts, args <> (opts ++ [""])%list) -> (forall opts, args' <> (opts ++ [""])%list) ->
    performance_main sgn true clock sizeof data file args = performance_main sgn true clock sizeof' data file' args'.
Proof. exact browser_same. Qed.
Print Assumptions C104_line_ignored_partial.
(** A clock which does not advance (clocks of browsers are coarse): division by zero. *)
Theorem C104_no_time_refuted :
  forall (sizeof : string -> N) (file : string -> option string),
    performance_main true true (fun _ => 0%N) sizeof [(sample, "")] file [] = Bad UB.
Proof. exact browser_no_time. Qed.
Print Assumptions C104_no_time_refuted.
Example C104_nonvacuous :
  (forall opts, ["--help"] <> (opts ++ [""])%list) /\ (0 < sum_clock (fun i => N.of_nat (7 + i)) 300 < two64)%N /\
  (N.of_nat (List.length (times 300 (reports_of [(sample, "")]))) < 4294967296)%N /\
  N.of_nat (List.length (flat_map (groups_of true) (times 300 (reports_of [(sample, "")])))) = 1500%N.
Proof. exact browser_nonvacuous. Qed.
