(** The performance program as a whole (C89 to C96). *)
From Coq Require Import List String Ascii NArith Bool Arith Lia.
From Verif Require Import Prim Lib Groups1 Parser Format Pf_ExTable.
From Verif Require Import Performance SpecPerformance Pf_PerfBatch Pf_PerfArchive Pf_PerfTest Pf_PerfFreq Pf_PerfGroups.
Import ListNotations.
Local Open Scope string_scope.

(** ** The command line *)

Lemma given_iff : forall name args, option_given name args = true <-> In name args.
Proof.
  intros name args. unfold option_given. rewrite existsb_exists. split.
  - intros (x & I & E). apply String.eqb_eq in E. subst. exact I.
  - intros I. exists name. split; [exact I|apply String.eqb_refl].
Qed.
Lemma not_given : forall name args, ~ In name args -> option_given name args = false.
Proof. intros name args N. destruct (option_given name args) eqn:E; [|reflexivity]. apply given_iff in E. contradiction. Qed.

Definition params_of (args : list string) (file : option string) : CommandLineParameters :=
  mkParams (match file with Some a => a | None => "" end) (option_given "--help" args)
    (match file with Some _ => false | None => true end) (option_given "--expint" args)
    (negb (option_given "--nogroups" args)) (negb (option_given "--noerror" args)) (negb (option_given "--nounkn" args))
    (negb (option_given "--nosize" args)).
Lemma line_option : forall args, (args = [] \/ exists opts arg, args = (opts ++ [arg])%list /\ starts "-" arg) ->
  setCommandLineParameters args = Ok (params_of args None).
Proof.
  intros args [-> |(opts & arg & -> & (r & ->))]; [reflexivity|]. unfold setCommandLineParameters. rewrite rev_app_distr. reflexivity.
Qed.
Lemma line_file : forall opts name, plain_name name -> setCommandLineParameters (opts ++ [name]) = Ok (params_of (opts ++ [name]) (Some name)).
Proof.
  intros opts name (c & r & -> & N & M). unfold setCommandLineParameters. rewrite rev_app_distr. cbn [rev app].
  change (sget (String c r) 0) with (Ok c). cbn [bind]. rewrite (proj2 (Ascii.eqb_neq c "-") N).
  destruct r as [|d r]; [reflexivity|]. change (sget (String c (String d r)) 1) with (Ok d). cbn [bind].
  destruct (Ascii.eqb d "-") eqn:E; [|reflexivity]. apply Ascii.eqb_eq in E. subst d. exfalso. apply M. exists r. reflexivity.
Qed.
Lemma line_hyphen : forall opts c r, c <> "-"%char ->
  setCommandLineParameters (opts ++ [String c (String "-" r)]) = Ok (params_of (opts ++ [String c (String "-" r)]) None).
Proof.
  intros opts c r N. unfold setCommandLineParameters. rewrite rev_app_distr. cbn [rev app].
  change (sget (String c (String "-" r)) 0) with (Ok c). cbn [bind]. rewrite (proj2 (Ascii.eqb_neq c "-") N). reflexivity.
Qed.
Lemma line_empty : forall opts, setCommandLineParameters (opts ++ [""]) = Bad UB.
Proof. intros opts. unfold setCommandLineParameters. rewrite rev_app_distr. reflexivity. Qed.

(** ** Sources *)

Lemma reports_same : forall data, getReports data = reports_of data.
Proof.
  unfold getReports, reports_of. induction data as [|[m t] data IH]; [reflexivity|]. cbn [flat_map fst snd]. rewrite IH.
  rewrite filter_app. f_equal. cbn [filter]. destruct m, t; reflexivity.
Qed.
Lemma ends_same : forall s, count_nl s = line_ends s.
Proof.
  unfold line_ends. induction s as [|c s IH]; [reflexivity|]. cbn [count_nl list_ascii_of_string count_occ]. change newline with nl.
  destruct (ascii_dec c nl) as [-> |N]; [rewrite Ascii.eqb_refl, IH; reflexivity|]. rewrite (proj2 (Ascii.eqb_neq c nl) N). exact IH.
Qed.
Definition the_source (files : bool) (data : DataSet) (content : string) : BatchProcess :=
  if files then openBatch content inputBatchSize else BatchFromTestdataReal (getReports data) 300 300.
Lemma uses_params : forall data file args files reports total k, Uses data file args files reports total k ->
  exists name content bs, setCommandLineParameters args = Ok (params_of args (if files then Some name else None)) /\
    (files = true -> file name = Some content) /\
    source (the_source files data content) reports bs /\ List.length bs = k /\ totalSize (the_source files data content) = total /\
    (files = true -> forall x, In x reports -> one_line x) /\ 1 <= k.
Proof.
  intros data file args files reports total k U. destruct U as [A|opts name content A N F].
  - exists "", "", (repeat (getReports data) 300). split; [exact (line_option _ A)|]. split; [discriminate|]. cbn [the_source].
    rewrite <- reports_same. split; [apply source_real|]. split; [reflexivity|]. split; [reflexivity|]. split; [discriminate|]. lia.
  - destruct (source_file inputBatchSize content) as (bs & S & L); [unfold inputBatchSize; lia|].
    exists name, content, bs. subst args. split; [exact (line_file _ _ N)|]. split; [intros _; exact F|]. cbn [the_source].
    split; [exact S|]. split; [exact L|]. split.
    + unfold openBatch. cbn [nextBatch]. destruct (loadLines inputBatchSize content) as [[l f] more]. rewrite <- ends_same. reflexivity.
    + split; [|lia]. intros _ x I. apply (lines_one_line content). unfold read_lines in I.
      destruct (Nat.ltb (List.length (lines content)) file_batch); [exact I|]. rewrite <- (firstn_skipn (List.length (lines content) / file_batch * file_batch)).
      apply in_or_app. left. exact I.
Qed.

(** ** The test of the parser *)

Lemma inv_start : forall sgn files clock text, Inv sgn files clock [] 0 (mkRun text [] (Archiver_new files) 0 0 0).
Proof.
  intros. constructor; cbn [reportCount groupCount measured stats archiver]; try reflexivity.
  exact (Holds_new files).
Qed.
Lemma inv_print : forall sgn files clock h k s r, Inv sgn files clock h k r -> Inv sgn files clock h k (print s r).
Proof. intros sgn files clock h k s r [A B C D E F G H]. constructor; assumption. Qed.

Definition intro (files : bool) (name : string) (total : N) : string :=
  "Checking overall parser performance" ++ endl ++
  (if files then "Using data set from file " ++ name ++ endl else "Using internal data set" ++ endl) ++
  "Test set size is " ++ dec_N total ++ endl.
Lemma parser_eq : forall sgn clock data file files args name content, (files = true -> file name = Some content) ->
  main_parser sgn false clock data file (params_of args (if files then Some name else None)) (mkRun "" [] (Archiver_new files) 0 0 0) =
  let src := the_source files data content in
  let! r := tester_test sgn true true clock src (mkRun (intro files name (totalSize src)) [] (Archiver_new files) 0 0 0) in
  let r := print endl r in
  let! a := PerformanceStats_print "report" (stats r) in
  let! b := PerformanceStats_print "group" (stats r) in
  Ok (print endl (print b (print a r))).
Proof.
  intros sgn clock data file files args name content F. unfold main_parser. destruct files; cbn [params_of inputFromInternalTestData inputFile].
  - rewrite (F eq_refl). reflexivity.
  - reflexivity.
Qed.

Lemma parser_done : forall sgn clock data file files args name content reports bs r,
  (files = true -> file name = Some content) -> source (the_source files data content) reports bs ->
  (files = true -> forall x, In x reports -> one_line x) ->
  main_parser sgn false clock data file (params_of args (if files then Some name else None)) (mkRun "" [] (Archiver_new files) 0 0 0) = Ok r ->
  Inv sgn files clock reports (List.length bs) r /\
  exists head a b, cout r = head ++ line_of sgn (totalSize (the_source files data content)) reports ++ endl ++ a ++ b ++ endl /\
    PerformanceStats_print "report" (stats r) = Ok a /\ PerformanceStats_print "group" (stats r) = Ok b.
Proof.
  intros sgn clock data file files args name content reports bs r F (C & Ne & S) O X. rewrite (parser_eq _ _ _ _ _ _ _ _ F) in X. cbv zeta in X.
  unfold tester_test in X. rewrite S in X. cbn [cout stats archiver measured] in X.
  set (r0 := mkRun (intro files name (totalSize (the_source files data content))) [] (Archiver_new files) 0 0 0) in X.
  destruct (foldM (test_batch sgn true true clock (totalSize (the_source files data content))) bs r0) as [r1|] eqn:T; [|discriminate].
  cbn [bind] in X. rewrite <- C in O.
  destruct (batches_step _ _ _ _ _ _ _ _ _ (inv_start sgn files clock _) O T) as (I & t & Ct & Lt). cbn [app] in I. rewrite Nat.add_0_l, C in I.
  destruct (Lt Ne) as (t' & ->). cbn [app] in Ct. rewrite C in Ct.
  destruct (PerformanceStats_print "report" (stats (print endl r1))) as [a|] eqn:A; [|discriminate]. cbn [bind] in X.
  destruct (PerformanceStats_print "group" (stats (print endl r1))) as [b|] eqn:B; [|discriminate]. cbn [bind] in X. apply ok_same in X. subst r.
  split; [do 4 apply inv_print; exact I|]. exists (cout r0 ++ t'), a, b. split; [|split; assumption].
  cbn [print cout]. rewrite Ct. rewrite !app_assoc_s. reflexivity.
Qed.

Lemma print_returns : forall st what k us n, entry st what k us n -> u64 us <> 0%N -> exists t, PerformanceStats_print what st = Ok t.
Proof.
  intros st what k us n E N. unfold PerformanceStats_print. unfold entry in E. rewrite E. destruct k; [eexists; reflexivity|].
  destruct (u64 n =? 0)%N; [eexists; reflexivity|]. unfold udiv. apply N.eqb_neq in N. rewrite N. cbn [bind]. eexists. reflexivity.
Qed.
Lemma sum_range_bound : forall clock B first n, (forall i, (1 <= clock i <= B)%N) ->
  (N.of_nat n <= sum_range clock first n <= B * N.of_nat n)%N.
Proof.
  intros clock B first n H. revert first. induction n as [|n IH]; intros first; cbn [sum_range]; [lia|].
  specialize (IH (S first)). specialize (H first). nia.
Qed.
Lemma sum_clock_bound : forall clock B n, (forall i, (1 <= clock i <= B)%N) -> (N.of_nat n <= sum_clock clock n <= B * N.of_nat n)%N.
Proof.
  intros clock B n H. induction n as [|n IH]; cbn [sum_clock]; [lia|]. specialize (H n). nia.
Qed.
Lemma parser_returns : forall sgn clock data file files args name content reports bs B,
  (files = true -> file name = Some content) -> source (the_source files data content) reports bs ->
  (files = true -> forall x, In x reports -> one_line x) -> (files = true -> forall x, In x reports -> can_be_kept sgn x) ->
  totalSize (the_source files data content) <> 0%N -> (forall i, (1 <= clock i <= B)%N) -> (B * N.of_nat (List.length bs) < two64)%N ->
  exists r, main_parser sgn false clock data file (params_of args (if files then Some name else None)) (mkRun "" [] (Archiver_new files) 0 0 0) = Ok r.
Proof.
  intros sgn clock data file files args name content reports bs B F (C & Ne & S) O K T Cl L. rewrite (parser_eq _ _ _ _ _ _ _ _ F). cbv zeta.
  unfold tester_test. rewrite S. cbn [cout stats archiver measured].
  set (r0 := mkRun (intro files name (totalSize (the_source files data content))) [] (Archiver_new files) 0 0 0).
  rewrite <- C in O, K.
  destruct (batches_return sgn files clock _ bs [] 0 r0 (inv_start sgn files clock _) O K T) as (r1 & E). rewrite E. cbn [bind].
  destruct (batches_step _ _ _ _ _ _ _ _ _ (inv_start sgn files clock _) O E) as (I & _).
  assert (U : u64 (sum_clock clock (0 + List.length bs)) <> 0%N).
  { pose proof (sum_clock_bound clock B (List.length bs) Cl) as W. cbn [Nat.add]. rewrite u64_small by lia. destruct bs; [congruence|]. cbn [List.length] in *. lia. }
  destruct (print_returns _ _ _ _ _ (i_report _ _ _ _ _ _ I) U) as (a & A). change (stats (print endl r1)) with (stats r1). rewrite A. cbn [bind].
  destruct (print_returns _ _ _ _ _ (i_group _ _ _ _ _ _ I) U) as (b & Bq). rewrite Bq. cbn [bind]. eexists. reflexivity.
Qed.

(** ** The list of errors *)

Lemma text_concat : forall l, String.concat "" (map (fun record => record ++ endl) l) = text_of l.
Proof. reflexivity. Qed.
Lemma printed_batches : forall bs out, foldM (fun batch out => Ok (out ++ String.concat "" (map (fun record => record ++ endl) batch))) bs out =
  Ok (out ++ text_of (concat bs)).
Proof.
  induction bs as [|b bs IH]; intros out; cbn [foldM concat]; [rewrite app_empty_r; reflexivity|]. cbn [bind]. rewrite IH, text_concat, text_app, app_assoc_s.
  reflexivity.
Qed.
Lemma archive_printed : forall files a l, in_files files a -> holds a l -> Archive_print a = Ok (text_of (reused files l)).
Proof.
  intros files a l F H. destruct (source_archive _ _ _ F H) as (bs & (C & _ & S) & _). unfold Archive_print. rewrite S, printed_batches, C. reflexivity.
Qed.
Definition error_text (files : bool) (records : list string) : string :=
  match records with
  | [] => "no report errors, all reports parsed successfully" ++ endl
  | _ => "Reports with errors: " ++ dec_N (N.of_nat (List.length records) / 2) ++ endl ++ text_of (reused files records)
  end.
Lemma size_holds : forall a l, holds a l -> Archive_size a = List.length l.
Proof. intros [st|f n] l H; cbn [holds Archive_size] in *; [subst; reflexivity|]. exact (proj2 (proj2 H)). Qed.
Lemma errors_printed : forall files E T r, Holds files (archiver r) E T ->
  main_errors r = Ok (print ("Reports not recognised by the parser:" ++ endl ++ error_text files E ++ endl) r).
Proof.
  intros files E T r H. unfold main_errors, printErrorReports. rewrite (size_holds _ _ (h_errors _ _ _ _ H)).
  destruct E as [|e E]; [reflexivity|]. cbn [List.length]. rewrite (archive_printed _ _ _ (h_efile _ _ _ _ H) (h_errors _ _ _ _ H)). cbn [bind].
  unfold error_text. rewrite Nat.div2_div, Nat2N.inj_div. cbn [List.length]. change (N.of_nat 2) with 2%N. rewrite !app_assoc_s. reflexivity.
Qed.

(** ** The list of groups not recognised *)

Lemma unknown_counted : forall files internal E T ar, Holds files ar E T ->
  exists m, Counts m (flat_map (fun part => reused files (T 21 part)) all_parts) /\
    unknown_stats internal ar = Ok (if internal then compensateRepetitions (N.of_nat 300) m else m).
Proof.
  intros files internal E T ar H. unfold unknown_stats. assert (K : 21 < 22) by lia.
  destruct (source_group _ _ _ _ 21 RP_UNKNOWN H K) as (s0 & b0 & -> & S0 & _). cbn [bind].
  destruct (counts_batches _ _ _ _ _ S0 counts_nil) as (m0 & -> & C0). cbn [bind].
  destruct (source_group _ _ _ _ 21 RP_HEADER H K) as (s1 & b1 & -> & S1 & _). cbn [bind].
  destruct (counts_batches _ _ _ _ _ S1 C0) as (m1 & -> & C1). cbn [bind].
  destruct (source_group _ _ _ _ 21 RP_METAR H K) as (s2 & b2 & -> & S2 & _). cbn [bind].
  destruct (counts_batches _ _ _ _ _ S2 C1) as (m2 & -> & C2). cbn [bind].
  destruct (source_group _ _ _ _ 21 RP_TAF H K) as (s3 & b3 & -> & S3 & _). cbn [bind].
  destruct (counts_batches _ _ _ _ _ S3 C2) as (m3 & -> & C3). cbn [bind].
  destruct (source_group _ _ _ _ 21 RP_RMK H K) as (s4 & b4 & -> & S4 & _). cbn [bind].
  destruct (counts_batches _ _ _ _ _ S4 C3) as (m4 & -> & C4). cbn [bind].
  exists m4. split; [|destruct internal; reflexivity]. cbn [all_parts flat_map]. rewrite app_nil_r.
  cbn [app] in C4. rewrite <- !app_assoc in C4. exact C4.
Qed.

(** ** The test of groups *)

Lemma kinds_nodup : NoDup tested_kinds.
Proof. unfold tested_kinds. repeat (constructor; [cbn [In]; intuition discriminate|]). constructor. Qed.
Lemma kinds_in : forall k, In k tested_kinds <-> k < 21 /\ k <> 7.
Proof.
  intros k. unfold tested_kinds. split.
  - cbn [In]. intros H. repeat (destruct H as [<- |H]; [lia|]). destruct H.
  - intros [L N]. cbn [In]. lia.
Qed.
Lemma kinds_printed : forall ks st, (forall k, In k ks -> exists t, PerformanceStats_print (groupName k) st = Ok t) ->
  exists t, print_kinds ks st = Ok t.
Proof.
  induction ks as [|k ks IH]; intros st H; cbn [print_kinds]; [eexists; reflexivity|]. destruct (H k (or_introl eq_refl)) as (a & ->). cbn [bind].
  destruct (IH st (fun j J => H j (or_intror J))) as (b & ->). eexists. reflexivity.
Qed.
Lemma kind_printed : forall ks st t k, print_kinds ks st = Ok t -> In k ks -> exists a, PerformanceStats_print (groupName k) st = Ok a /\ printed a t.
Proof.
  induction ks as [|j ks IH]; intros st t k X I; [destruct I|]. cbn [print_kinds] in X.
  destruct (PerformanceStats_print (groupName j) st) as [a|] eqn:A; [|discriminate]. cbn [bind] in X.
  destruct (print_kinds ks st) as [b|] eqn:B; [|discriminate]. cbn [bind] in X. apply ok_same in X. subst t. destruct I as [<- |I].
  - exists a. split; [exact A|]. exists "", b. reflexivity.
  - destruct (IH st b k B I) as (c & C & (u & v & ->)). exists c. split; [exact C|]. exists (a ++ u), v. rewrite app_assoc_s. reflexivity.
Qed.
Definition all_kinds : list nat := [0; 1; 2; 3; 4; 5; 6; 7; 8; 9; 10; 11; 12; 13; 14; 15; 16; 17; 18; 19; 20; 21].
Lemma all_kinds_in : forall k, k < 22 -> In k all_kinds.
Proof. intros k L. unfold all_kinds. cbn [In]. lia. Qed.

(** The entries after the test of groups *)
Definition after_groups (sgn files : bool) (clock : nat -> N) (n : nat) (reports : list string) (st : PerformanceStats) : Prop :=
  (forall k, k < 21 -> k <> 7 ->
     entry st (groupName k) (number_steps sgn files k reports)
       (sum_range clock (n + steps_before sgn files k reports) (number_steps sgn files k reports)) (number_tested sgn files k reports)) /\
  stats_at (groupName 7) st = None /\ stats_at (groupName 21) st = None.
Lemma groups_done : forall sgn files clock reports k r, Inv sgn files clock reports k r ->
  exists r', group_tester_test clock r = Ok r' /\ archiver r' = archiver r /\ (exists t, cout r' = cout r ++ t) /\
    after_groups sgn files clock k reports (stats r').
Proof.
  intros sgn files clock reports k r I.
  destruct (kinds_tested clock files _ _ tested_kinds r (i_archives _ _ _ _ _ _ I) kinds_nodup) as (r' & E & A & C & K & O).
  { intros j J. apply kinds_in in J. lia. }
  assert (Z : forall j, stats_at (groupName j) (stats r) = None).
  { intros j. apply (i_other _ _ _ _ _ _ I); do 22 (destruct j as [|j]; [discriminate|]); discriminate. }
  exists r'. split; [exact E|]. split; [exact A|]. split; [exact C|]. split; [|split].
  - intros j L N. rewrite <- (i_measured _ _ _ _ _ _ I).
    assert (P : exists post, tested_kinds = (filter (fun j => negb (Nat.eqb j 7)) (seq 0 j) ++ j :: post)%list).
    { clear - L N. do 21 (destruct j as [|j]; [first [eexists; reflexivity|congruence]|]). lia. }
    destruct P as (post & P). exact (K _ j post P (Z j)).
  - rewrite (O (groupName 7)); [exact (Z 7)|]. intros j J X. apply kinds_in in J. apply names_differ in X; lia.
  - rewrite (O (groupName 21)); [exact (Z 21)|]. intros j J X. apply kinds_in in J. apply names_differ in X; lia.
Qed.
