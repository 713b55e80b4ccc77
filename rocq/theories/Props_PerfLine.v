(** C94 and C96: the command line of performance/main.cpp and the export of its collection. *)
From Coq Require Import List String Ascii NArith Bool Arith Permutation.
From Verif Require Import Prim Groups1 Parser Format Performance SpecPerformance.
From Verif Require Import Pf_PerfLine Pf_PerfCases.
Import ListNotations.
Local Open Scope string_scope.

(** ** C94 *)

(** The output has five sections. An option leaves out its section, and changes nothing else; it may stand at any place. *)
Theorem C94_sections :
  forall (sgn : bool) (clock : nat -> N) (sizeof : string -> N) (data : DataSet) (file : string -> option string)
    (input : option string) (args : list string) (o : Output),
    Input args input -> (forall name, In name option_names -> ~ In name args) ->
    performance_main sgn false clock sizeof data file args = Ok o ->
    exists parser errors unknown groups sizes,
      out_text o = parser ++ errors ++ unknown ++ groups ++ sizes /\
      begins_with (heading "Checking overall parser performance") parser /\
      begins_with (heading "Reports not recognised by the parser:") errors /\
      begins_with (heading "Groups not recognised by the parser (by occurrence number):") unknown /\
      begins_with (heading "Checking group performance") groups /\
      begins_with (heading "Data type sizes:") sizes /\
      forall args', Input args' input -> measures args' ->
        exists o', performance_main sgn false clock sizeof data file args' = Ok o' /\ out_archiver o' = out_archiver o /\ out_export o' = None /\
          out_text o' = parser ++ unless "--noerror" args' errors ++ unless "--nounkn" args' unknown ++
                        unless "--nogroups" args' groups ++ unless "--nosize" args' sizes.
Proof. exact main_sections. Qed.
Print Assumptions C94_sections.
(** Help is shown, and nothing else is done, wherever the option stands. *)
Theorem C94_help :
  forall (sgn : bool) (clock : nat -> N) (sizeof : string -> N) (data : DataSet) (file : string -> option string)
    (input : option string) (args : list string),
    Input args input -> In "--help" args ->
    exists o, performance_main sgn false clock sizeof data file args = Ok o /\ out_export o = None /\ holds_reports sgn (out_archiver o) [] /\
      begins_with (heading "Usage: performance [options] [input_file]") (out_text o).
Proof. exact help_shown. Qed.
Print Assumptions C94_help.
(** Which input a command line asks for: all cases but two. *)
Theorem C94_inputs_partial :
  forall args, (exists input, Input args input) \/ (exists opts, args = (opts ++ [""])%list) \/
    (exists opts c r, args = (opts ++ [String c (String "-" r)])%list /\ c <> "-"%char).
Proof. exact last_argument. Qed.
Print Assumptions C94_inputs_partial.
(** A file whose name has a hyphen as second character is not read: the collection is used. *)
Theorem C94_hyphen_refuted :
  forall (sgn : bool) (clock : nat -> N) (sizeof : string -> N) (data : DataSet) (file file' : string -> option string)
    (opts : list string) (c : ascii) (r : string), c <> "-"%char ->
    performance_main sgn false clock sizeof data file (opts ++ [String c (String "-" r)]) =
    performance_main sgn false clock sizeof data file' (opts ++ ["-"]).
Proof. exact hyphen_ignored. Qed.
Print Assumptions C94_hyphen_refuted.
(** An empty last argument: reading beyond its end. *)
Theorem C94_empty_refuted :
  forall (sgn wasm : bool) (clock : nat -> N) (sizeof : string -> N) (data : DataSet) (file : string -> option string) (opts : list string),
    performance_main sgn wasm clock sizeof data file (opts ++ [""]) = Bad UB.
Proof. exact empty_argument. Qed.
Print Assumptions C94_empty_refuted.
(** Arguments before the last which are none of these options change nothing; --nostats, which the help lists, is one of them. *)
Theorem C94_ignored :
  forall (sgn wasm : bool) (clock : nat -> N) (sizeof : string -> N) (data : DataSet) (file : string -> option string)
    (w : string) (a b : list string),
    ~ In w option_names -> b <> [] ->
    performance_main sgn wasm clock sizeof data file (a ++ w :: b) = performance_main sgn wasm clock sizeof data file (a ++ b).
Proof. exact argument_ignored. Qed.
Print Assumptions C94_ignored.
Theorem C94_nostats_refuted :
  forall (sgn wasm : bool) (clock : nat -> N) (sizeof : string -> N) (data : DataSet) (file : string -> option string) (a b : list string),
    b <> [] ->
    performance_main sgn wasm clock sizeof data file (a ++ "--nostats" :: b) = performance_main sgn wasm clock sizeof data file (a ++ b).
Proof. exact nostats_ignored. Qed.
Print Assumptions C94_nostats_refuted.
Example C94_nonvacuous :
  exists o, performance_main true false (fun i => N.of_nat (7 + i)) (fun _ => 8%N) [] (fun _ => Some example_file) ["reports.txt"] = Ok o /\
    Input ["reports.txt"] (Some "reports.txt") /\ (forall name, In name option_names -> ~ In name ["reports.txt"]) /\
    Input ["--nounkn"; "--nogroups"; "reports.txt"] (Some "reports.txt") /\ measures ["--nounkn"; "--nogroups"; "reports.txt"].
Proof. exact example_options. Qed.

(** ** C96 *)

(** The export has each METAR of the collection, then each TAF, one in a line, and nothing is measured. *)
Theorem C96_export :
  forall (sgn : bool) (clock : nat -> N) (sizeof : string -> N) (data : DataSet) (file : string -> option string)
    (input : option string) (args : list string),
    Input args input -> ~ In "--help" args -> In "--expint" args -> (forall d, In d data -> one_line (fst d) /\ one_line (snd d)) ->
    exists o content, performance_main sgn false clock sizeof data file args = Ok o /\ out_export o = Some content /\
      holds_reports sgn (out_archiver o) [] /\ line_ends content = List.length (lines content) /\
      lines content = (filter (fun s => negb (String.eqb s "")) (map fst data) ++ filter (fun s => negb (String.eqb s "")) (map snd data))%list /\
      Permutation (lines content) (reports_of data).
Proof. exact export_written. Qed.
Print Assumptions C96_export.
(** The exported file, given to the program as input, has the reports of the collection, each once. *)
Theorem C96_used :
  forall (data data' : DataSet) (file : string -> option string) (opts : list string) (name content : string),
    plain_name name -> file name = Some content -> line_ends content = List.length (lines content) -> Permutation (lines content) (reports_of data) ->
    List.length (lines content) < file_batch ->
    exists reports k, Uses data' file (opts ++ [name]) true reports (N.of_nat (List.length (reports_of data))) k /\ Permutation reports (reports_of data).
Proof. exact export_used. Qed.
Print Assumptions C96_used.
Example C96_nonvacuous :
  Input ["--expint"] None /\ ~ In "--help" ["--expint"] /\ (forall d, In d example_data -> one_line (fst d) /\ one_line (snd d)) /\
  List.length (reports_of example_data) = 4.
Proof. exact example_export. Qed.
