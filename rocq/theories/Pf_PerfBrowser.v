(** Proofs of C104: the performance program in a browser. *)
From Coq Require Import List String Ascii NArith Bool Arith Lia.
From Verif Require Import Prim Lib Groups1 Parser Format Pf_ExTable.
From Verif Require Import Performance SpecPerformance Pf_PerfBatch Pf_PerfArchive Pf_PerfTest Pf_PerfMain Pf_Performance Pf_PerfLine Pf_PerfCases.
Import ListNotations.
Local Open Scope string_scope.

(** After the reports [h] in [k] batches, without archives and without progress *)
Record Quiet (sgn : bool) (clock : nat -> N) (text : string) (ar : Archiver) (h : list string) (k : nat) (r : Run) : Prop := mkQuiet
  { q_measured : measured r = k;
    q_report : entry (stats r) "report" k (sum_clock clock k) (size_of h);
    q_group : entry (stats r) "group" k (sum_clock clock k) (groups_in sgn h);
    q_first : k = 0 -> h = [];
    q_text : cout r = text;
    q_archives : archiver r = ar }.

Lemma quiet_step : forall sgn clock text ar total batch h k r, Quiet sgn clock text ar h k r ->
  exists r', test_batch sgn false false clock total batch r = Ok r' /\ Quiet sgn clock text ar (h ++ batch) (S k) r'.
Proof.
  intros sgn clock text ar total batch h k r I. unfold test_batch.
  destruct (batch_parsed sgn batch) as (ps & P & F). rewrite P. cbn [bind]. eexists. split; [reflexivity|].
  rewrite (groups_counted _ _ _ F), (parsed_length _ _ _ F). fold (size_of batch).
  rewrite (q_measured _ _ _ _ _ _ _ I).
  assert (Z0 : k = 0 -> sum_clock clock k = 0%N /\ size_of h = 0%N /\ groups_in sgn h = 0%N).
  { intros E. rewrite (q_first _ _ _ _ _ _ _ I E), E. repeat split. }
  constructor; cbn [cout measured stats archiver].
  - reflexivity.
  - apply entry_other; [|discriminate]. eapply entry_same; [apply entry_step; [exact (q_report _ _ _ _ _ _ _ I)|]| |].
    + intros E. destruct (Z0 E) as (a & b & c). auto.
    + cbn [sum_clock]. apply u64_add_r.
    + rewrite size_app. reflexivity.
  - eapply entry_same; [apply entry_step; [apply entry_other; [exact (q_group _ _ _ _ _ _ _ I)|discriminate]|]| |].
    + intros E. destruct (Z0 E) as (a & b & c). auto.
    + cbn [sum_clock]. apply u64_add_r.
    + rewrite u64_add_r, groups_in_app. reflexivity.
  - discriminate.
  - rewrite (q_text _ _ _ _ _ _ _ I). apply app_empty_r.
  - exact (q_archives _ _ _ _ _ _ _ I).
Qed.
Lemma quiet_steps : forall sgn clock text ar total bs h k r, Quiet sgn clock text ar h k r ->
  exists r', foldM (test_batch sgn false false clock total) bs r = Ok r' /\ Quiet sgn clock text ar (h ++ concat bs) (k + List.length bs) r'.
Proof.
  intros sgn clock text ar total. induction bs as [|b bs IH]; intros h k r I; cbn [foldM concat List.length].
  - exists r. rewrite app_nil_r, Nat.add_0_r. split; [reflexivity|exact I].
  - destruct (quiet_step _ _ _ _ total b _ _ _ I) as (r1 & E & I1). rewrite E. cbn [bind].
    destruct (IH _ _ _ I1) as (r2 & E2 & I2). exists r2. split; [exact E2|]. rewrite app_assoc, Nat.add_succ_r. exact I2.
Qed.

Lemma line_any : forall args, (forall opts, args <> (opts ++ [""])%list) -> exists p, setCommandLineParameters args = Ok p.
Proof.
  intros args N. destruct (last_argument args) as [(input & H)|[(opts & E)|(opts & c & r & -> & H)]].
  - exists (params_of args input). exact (input_params _ _ H).
  - exfalso. exact (N opts E).
  - eexists. exact (line_hyphen opts c r H).
Qed.
Lemma browser_eq : forall sgn clock sizeof data file args, (forall opts, args <> (opts ++ [""])%list) ->
  exists r, Quiet sgn clock (intro false "" (N.of_nat (List.length (reports_of data)) * 300)) (Archiver_new false) (times 300 (reports_of data)) 300 r /\
  performance_main sgn true clock sizeof data file args =
  let! a := PerformanceStats_print "report" (stats r) in
  let! b := PerformanceStats_print "group" (stats r) in
  Ok (mkOutput (cout r ++ endl ++ a ++ b ++ endl) (archiver r) None).
Proof.
  intros sgn clock sizeof data file args H. destruct (line_any _ H) as (p & Lp). destruct (source_real (getReports data) 299 300) as (C & Ne & S).
  set (src := BatchFromTestdataReal (getReports data) 300 300) in S.
  assert (T : totalSize src = (N.of_nat (List.length (reports_of data)) * 300)%N) by (rewrite <- reports_same; reflexivity).
  destruct (quiet_steps sgn clock (intro false "" (totalSize src)) (Archiver_new false) (totalSize src) (repeat (getReports data) 300) [] 0
             (mkRun (intro false "" (totalSize src)) [] (Archiver_new false) 0 0 0)) as (r & E & Q).
  { constructor; reflexivity. }
  exists r. rewrite <- T. cbn [app] in Q. rewrite C, repeat_length, reports_same in Q. split; [exact Q|].
  unfold performance_main. rewrite Lp. cbn [bind]. cbv zeta.
  change (help setWasmParameters) with false. change (exportInternalTestData setWasmParameters) with false.
  change (negb (inputFromInternalTestData setWasmParameters)) with false. cbv iota.
  change (main_parser sgn true clock data file setWasmParameters (mkRun "" [] (Archiver_new false) 0 0 0)) with
    (let! r := tester_test sgn false false clock src (mkRun (intro false "" (totalSize src)) [] (Archiver_new false) 0 0 0) in
     let r := print endl r in
     let! a := PerformanceStats_print "report" (stats r) in
     let! b := PerformanceStats_print "group" (stats r) in
     Ok (print endl (print b (print a r)))).
  unfold tester_test. rewrite S. cbn [cout stats archiver measured]. fold src. rewrite E. cbn [bind]. cbv zeta.
  change (stats (print endl r)) with (stats r).
  destruct (PerformanceStats_print "report" (stats r)) as [a|]; [|reflexivity]. cbn [bind].
  destruct (PerformanceStats_print "group" (stats r)) as [b|]; [|reflexivity]. cbn [bind].
  cbn [printErrors printUnknownGroups checkGroupPerformance printSizes setWasmParameters bind]. 
  cbn [print cout archiver]. rewrite !app_assoc_s. reflexivity.
Qed.

Lemma browser_text : forall (sgn : bool) (clock : nat -> N) (sizeof : string -> N) (data : DataSet) (file : string -> option string)
  (args : list string) (o : Output),
  (forall opts, args <> (opts ++ [""])%list) -> (sum_clock clock 300 < two64)%N ->
  (N.of_nat (List.length (times 300 (reports_of data))) < 4294967296)%N ->
  (N.of_nat (List.length (flat_map (groups_of sgn) (times 300 (reports_of data)))) < 4294967296)%N ->
  performance_main sgn true clock sizeof data file args = Ok o ->
  out_text o =
    heading "Checking overall parser performance" ++ heading "Using internal data set" ++
    heading ("Test set size is " ++ dec_N (N.of_nat (List.length (reports_of data)) * 300)) ++ heading "" ++
    account "report" (sum_clock clock 300) (N.of_nat (List.length (times 300 (reports_of data)))) ++
    account "group" (sum_clock clock 300) (N.of_nat (List.length (flat_map (groups_of sgn) (times 300 (reports_of data))))) ++
    heading "" /\
  out_export o = None /\ holds_reports sgn (out_archiver o) [].
Proof.
  intros sgn clock sizeof data file args o H S A B X.
  destruct (browser_eq sgn clock sizeof data file args H) as (r & Q & E). rewrite E in X. clear E.
  destruct (PerformanceStats_print "report" (stats r)) as [a|] eqn:Pa; [|discriminate]. cbn [bind] in X.
  destruct (PerformanceStats_print "group" (stats r)) as [b|] eqn:Pb; [|discriminate]. cbn [bind] in X.
  apply ok_same in X. subst o. cbn [out_text out_export out_archiver].
  assert (K : 1 <= 300) by (apply Nat.leb_le; reflexivity).
  assert (L : forall n, (n < 4294967296)%N -> (1000000 * n < two64)%N) by (unfold two64; intros; lia).
  rewrite (account_entry _ _ _ _ _ _ (q_report _ _ _ _ _ _ _ Q) K S (L _ A) Pa).
  rewrite (account_entry _ _ _ _ _ _ (q_group _ _ _ _ _ _ _ Q) K S (L _ B) Pb).
  rewrite (q_text _ _ _ _ _ _ _ Q), (q_archives _ _ _ _ _ _ _ Q). split.
  - unfold intro, heading, size_of, groups_in. cbv iota. rewrite !app_assoc_s. reflexivity.
  - split; [reflexivity|]. pose proof (Holds_new false) as W. split; [exact (h_errors _ _ _ _ W)|exact (h_groups _ _ _ _ W)].
Qed.
Lemma browser_returns : forall (sgn : bool) (clock : nat -> N) (sizeof : string -> N) (data : DataSet) (file : string -> option string)
  (args : list string),
  (forall opts, args <> (opts ++ [""])%list) -> (0 < sum_clock clock 300 < two64)%N ->
  exists o, performance_main sgn true clock sizeof data file args = Ok o.
Proof.
  intros sgn clock sizeof data file args H S.
  destruct (browser_eq sgn clock sizeof data file args H) as (r & Q & E). rewrite E. clear E.
  assert (U : u64 (sum_clock clock 300) <> 0%N) by (rewrite u64_small by lia; lia).
  destruct (print_returns _ _ _ _ _ (q_report _ _ _ _ _ _ _ Q) U) as (a & ->). cbn [bind].
  destruct (print_returns _ _ _ _ _ (q_group _ _ _ _ _ _ _ Q) U) as (b & ->). cbn [bind]. eexists. reflexivity.
Qed.
(** The command line, files and sizes of types make no difference. *)
Lemma browser_same : forall (sgn : bool) (clock : nat -> N) (sizeof sizeof' : string -> N) (data : DataSet) (file file' : string -> option string)
  (args args' : list string),
  (forall opts, args <> (opts ++ [""])%list) -> (forall opts, args' <> (opts ++ [""])%list) ->
  performance_main sgn true clock sizeof data file args = performance_main sgn true clock sizeof' data file' args'.
Proof.
  intros sgn clock sizeof sizeof' data file file' args args' H H'. destruct (line_any _ H) as (p & L). destruct (line_any _ H') as (p' & L').
  unfold performance_main. rewrite L, L'. cbn [bind]. reflexivity.
Qed.
Lemma browser_no_time : forall sizeof file, performance_main true true (fun _ => 0%N) sizeof [(sample, "")] file [] = Bad UB.
Proof. intros. vm_compute. reflexivity. Qed.
Lemma browser_nonvacuous :
  (forall opts, ["--help"] <> (opts ++ [""])%list) /\ (0 < sum_clock (fun i => N.of_nat (7 + i)) 300 < two64)%N /\
  (N.of_nat (List.length (times 300 (reports_of [(sample, "")]))) < 4294967296)%N /\
  N.of_nat (List.length (flat_map (groups_of true) (times 300 (reports_of [(sample, "")])))) = 1500%N.
Proof.
  split; [intros [|a [|b l]]; discriminate|]. split; [split; vm_compute; reflexivity|]. split; vm_compute; reflexivity.
Qed.
