(** Proofs of C89 to C96. *)
From Coq Require Import List String Ascii NArith Bool Arith Lia.
From Verif Require Import Prim Lib Groups1 Parser Format Pf_ExTable.
From Verif Require Import Performance SpecPerformance Pf_PerfBatch Pf_PerfArchive Pf_PerfTest Pf_PerfFreq Pf_PerfGroups Pf_PerfMain.
Import ListNotations.
Local Open Scope string_scope.

(** The sections of the output *)
Definition unknown_text (m : FrequencyStats) : string :=
  "Groups not recognised by the parser (by occurrence number):" ++ endl ++ printDescending m ++ endl.
Lemma main_done : forall sgn clock sizeof data file args files reports total k o, Uses data file args files reports total k -> measures args ->
  performance_main sgn false clock sizeof data file args = Ok o ->
  exists st a b h e u g z,
    out_text o = h ++ line_of sgn total reports ++ endl ++ a ++ b ++ endl ++ e ++ u ++ g ++ z /\
    entry st "report" k (sum_clock clock k) (size_of reports) /\ entry st "group" k (sum_clock clock k) (groups_in sgn reports) /\
    PerformanceStats_print "report" st = Ok a /\ PerformanceStats_print "group" st = Ok b /\
    Holds files (out_archiver o) (failures sgn reports) (fun kind part => texts sgn kind part reports) /\
    (~ In "--noerror" args -> e = "Reports not recognised by the parser:" ++ endl ++ error_text files (failures sgn reports) ++ endl) /\
    (~ In "--nounkn" args -> exists m, Counts m (flat_map (fun part => reused files (texts sgn 21 part reports)) all_parts) /\
       u = unknown_text (if files then m else compensateRepetitions (N.of_nat 300) m)) /\
    (~ In "--nogroups" args -> exists st' t t', g = t ++ endl ++ t' ++ endl /\ printGroupStats st' = Ok t' /\ after_groups sgn files clock k reports st').
Proof.
  intros sgn clock sizeof data file args files reports total k o U (Nh & Ne) X.
  destruct (uses_params _ _ _ _ _ _ _ U) as (name & content & bs & P & F & S & L & T & O & _).
  unfold performance_main in X. rewrite P in X. cbn [bind] in X. cbv zeta in X.
  set (pf := params_of args (if files then Some name else None)) in X.
  assert (Hh : help pf = false) by (exact (not_given _ _ Nh)).
  assert (He : exportInternalTestData pf = false) by (exact (not_given _ _ Ne)).
  rewrite Hh, He in X.
  assert (Ai : negb (inputFromInternalTestData pf) = files) by (destruct files; reflexivity). rewrite Ai in X.
  destruct (main_parser sgn false clock data file pf (mkRun "" [] (Archiver_new files) 0 0 0)) as [r1|] eqn:M; [|discriminate]. cbn [bind] in X.
  destruct (parser_done _ _ _ _ _ _ _ _ _ _ _ F S O M) as (I & h & a & b & C & A & B). rewrite T in C. rewrite L in I.
  pose proof (i_archives _ _ _ _ _ _ I) as H1.
  assert (M2 : exists e, (if printErrors pf then main_errors r1 else Ok r1) = Ok (print e r1) /\
    (~ In "--noerror" args -> e = "Reports not recognised by the parser:" ++ endl ++ error_text files (failures sgn reports) ++ endl)).
  { change (printErrors pf) with (negb (option_given "--noerror" args)). destruct (option_given "--noerror" args) eqn:G; cbn [negb].
    - exists "". split; [unfold print; rewrite app_empty_r; destruct r1; reflexivity|]. intros N. apply given_iff in G. contradiction.
    - rewrite (errors_printed _ _ _ _ H1). eexists. split; [reflexivity|]. intros _. reflexivity. }
  destruct M2 as (e & M2 & De). rewrite M2 in X. cbn [bind] in X. set (r2 := print e r1) in X.
  assert (I2 : Inv sgn files clock reports k r2) by (apply inv_print; exact I).
  assert (M3 : exists u, (if printUnknownGroups pf then main_unknown (inputFromInternalTestData pf) r2 else Ok r2) = Ok (print u r2) /\
    (~ In "--nounkn" args -> exists m, Counts m (flat_map (fun part => reused files (texts sgn 21 part reports)) all_parts) /\
       u = unknown_text (if files then m else compensateRepetitions (N.of_nat 300) m))).
  { change (printUnknownGroups pf) with (negb (option_given "--nounkn" args)). destruct (option_given "--nounkn" args) eqn:G; cbn [negb].
    - exists "". split; [unfold print; rewrite app_empty_r; destruct r2; reflexivity|]. intros N. apply given_iff in G. contradiction.
    - unfold main_unknown.
      destruct (unknown_counted files (inputFromInternalTestData pf) _ _ _ (i_archives _ _ _ _ _ _ I2)) as (m & Cm & E). rewrite E. cbn [bind].
      eexists. split; [reflexivity|]. intros _. exists m. split; [exact Cm|]. unfold unknown_text. destruct files; reflexivity. }
  destruct M3 as (u & M3 & Du). rewrite M3 in X. cbn [bind] in X. set (r3 := print u r2) in X.
  assert (I3 : Inv sgn files clock reports k r3) by (apply inv_print; exact I2).
  destruct (if checkGroupPerformance pf then main_groups clock r3 else Ok r3) as [r4|] eqn:M4; [|discriminate]. cbn [bind] in X.
  assert (D4 : exists g, cout r4 = cout r3 ++ g /\ archiver r4 = archiver r3 /\
    (~ In "--nogroups" args -> exists st' t t', g = t ++ endl ++ t' ++ endl /\ printGroupStats st' = Ok t' /\ after_groups sgn files clock k reports st')).
  { change (checkGroupPerformance pf) with (negb (option_given "--nogroups" args)) in M4. destruct (option_given "--nogroups" args) eqn:G; cbn [negb] in M4.
    - apply ok_same in M4. subst r4. exists "". split; [rewrite app_empty_r; reflexivity|]. split; [reflexivity|]. intros N. apply given_iff in G. contradiction.
    - unfold main_groups in M4.
      destruct (groups_done sgn files clock reports k _ (inv_print _ _ _ _ _ ("Checking group performance" ++ endl) _ I3)) as (r' & E' & A' & (t & C') & D').
      rewrite E' in M4. cbn [bind] in M4. destruct (printGroupStats (stats r')) as [t'|] eqn:Q; [|discriminate]. cbn [bind] in M4. apply ok_same in M4. subst r4.
      exists (("Checking group performance" ++ endl ++ t) ++ endl ++ t' ++ endl).
      split; [cbn [print cout]; rewrite C'; cbn [print cout]; rewrite !app_assoc_s; reflexivity|]. split; [exact A'|].
      intros _. exists (stats r'), ("Checking group performance" ++ endl ++ t), t'. split; [reflexivity|]. split; [exact Q|exact D']. }
  destruct D4 as (g & Cg & Ag & Dg).
  assert (Xz : exists z, cout (if printSizes pf then print (printDataSize sizeof) r4 else r4) = cout r4 ++ z /\
                archiver (if printSizes pf then print (printDataSize sizeof) r4 else r4) = archiver r4).
  { destruct (printSizes pf); [exists (printDataSize sizeof)|exists ""]; (split; [|reflexivity]); [reflexivity|rewrite app_empty_r; reflexivity]. }
  destruct Xz as (z & Cz & Az). apply ok_same in X. subst o. cbn [out_text out_archiver].
  exists (stats r1), a, b, h, e, u, g, z. split; [|split; [|split; [|split; [|split; [|split; [|split; [|split]]]]]]].
  - rewrite Cz, Cg. unfold r3, r2. cbn [print cout]. rewrite C, !app_assoc_s. reflexivity.
  - exact (i_report _ _ _ _ _ _ I).
  - exact (i_group _ _ _ _ _ _ I).
  - exact A.
  - exact B.
  - rewrite Az, Ag. exact (i_archives _ _ _ _ _ _ I3).
  - exact De.
  - exact Du.
  - exact Dg.
Qed.

(** ** C91: it returns *)

Lemma entry_print : forall st what k us n B, entry st what k us n -> (1 <= k)%nat -> (N.of_nat k <= us <= B * N.of_nat k)%N -> (B * N.of_nat k < two64)%N ->
  exists t, PerformanceStats_print what st = Ok t.
Proof.
  intros st what k us n B E K U L. apply (print_returns _ _ _ _ _ E). rewrite u64_small by lia. lia.
Qed.
Lemma main_returns : forall sgn clock sizeof data file args files reports total k B, Uses data file args files reports total k ->
  (files = true -> forall x, In x reports -> can_be_kept sgn x) -> total <> 0%N ->
  (forall i, (1 <= clock i <= B)%N) -> (B * N.of_nat k < two64)%N ->
  (~ In "--nogroups" args -> forall kind, kind < 21 -> (B * N.of_nat (number_steps sgn files kind reports) < two64)%N) ->
  exists o, performance_main sgn false clock sizeof data file args = Ok o.
Proof.
  intros sgn clock sizeof data file args files reports total k B U K T0 Cl Lk Ls.
  destruct (uses_params _ _ _ _ _ _ _ U) as (name & content & bs & P & F & S & L & T & O & K1).
  unfold performance_main. rewrite P. cbn [bind]. cbv zeta. set (pf := params_of args (if files then Some name else None)).
  assert (Ai : negb (inputFromInternalTestData pf) = files) by (destruct files; reflexivity). rewrite Ai.
  destruct (help pf); [eexists; reflexivity|]. destruct (exportInternalTestData pf); [eexists; reflexivity|].
  subst total k.
  destruct (parser_returns sgn clock data file files args name content reports bs B F S O K T0 Cl Lk) as (r1 & M). fold pf in M. rewrite M. cbn [bind].
  destruct (parser_done _ _ _ _ _ _ _ _ _ _ _ F S O M) as (I & _).
  assert (M2 : exists r2, (if printErrors pf then main_errors r1 else Ok r1) = Ok r2 /\ Inv sgn files clock reports (List.length bs) r2).
  { destruct (printErrors pf); [|exists r1; split; [reflexivity|exact I]]. rewrite (errors_printed _ _ _ _ (i_archives _ _ _ _ _ _ I)).
    eexists. split; [reflexivity|]. apply inv_print. exact I. }
  destruct M2 as (r2 & M2 & I2). rewrite M2. cbn [bind].
  assert (M3 : exists r3, (if printUnknownGroups pf then main_unknown (inputFromInternalTestData pf) r2 else Ok r2) = Ok r3 /\ Inv sgn files clock reports (List.length bs) r3).
  { destruct (printUnknownGroups pf); [|exists r2; split; [reflexivity|exact I2]]. unfold main_unknown.
    destruct (unknown_counted files (inputFromInternalTestData pf) _ _ _ (i_archives _ _ _ _ _ _ I2)) as (m & _ & E). rewrite E. cbn [bind].
    eexists. split; [reflexivity|]. apply inv_print. exact I2. }
  destruct M3 as (r3 & M3 & I3). rewrite M3. cbn [bind].
  assert (M4 : exists r4, (if checkGroupPerformance pf then main_groups clock r3 else Ok r3) = Ok r4).
  { change (checkGroupPerformance pf) with (negb (option_given "--nogroups" args)). destruct (option_given "--nogroups" args) eqn:Og; cbn [negb]; [exists r3; reflexivity|].
    assert (Ng : ~ In "--nogroups" args) by (intros J; apply given_iff in J; congruence). specialize (Ls Ng). unfold main_groups.
    destruct (groups_done sgn files clock reports _ _ (inv_print _ _ _ _ _ ("Checking group performance" ++ endl) _ I3)) as (r' & E & _ & _ & D1 & D2 & D3).
    rewrite E. cbn [bind].
    destruct (kinds_printed all_kinds (stats r')) as (t & Et).
    { intros k Ik. assert (L22 : k < 22) by (unfold all_kinds in Ik; cbn [In] in Ik; lia).
      destruct (Nat.eq_dec k 7) as [-> |N7]; [unfold PerformanceStats_print; rewrite D2; eexists; reflexivity|].
      destruct (Nat.eq_dec k 21) as [-> |N21]; [unfold PerformanceStats_print; rewrite D3; eexists; reflexivity|].
      assert (L21 : k < 21) by lia.
      pose proof (D1 k L21 N7) as En. apply (entry_print _ _ _ _ _ B En); [|exact (sum_range_bound clock B _ _ Cl)|exact (Ls k L21)].
      unfold number_steps, all_parts. cbn [map sum fold_right]. assert (Q : forall l, 1 <= steps files l) by (intros l; unfold steps; destruct files; lia).
      pose proof (Q (texts sgn k RP_UNKNOWN reports)). lia. }
    unfold printGroupStats. fold all_kinds. rewrite Et. eexists. reflexivity. }
  destruct M4 as (r4 & ->). cbn [bind]. eexists. reflexivity.
Qed.

(** ** C89 *)

Lemma line_progress : forall sgn total reports, (100 * size_of reports < two64)%N -> (groups_in sgn reports < two64)%N ->
  line_of sgn total reports = progress sgn total reports.
Proof.
  intros sgn total reports A B. unfold line_of, progress. rewrite (u64_small (groups_in sgn reports)) by exact B.
  rewrite (u64_small (size_of reports)) by lia. rewrite (u64_small (size_of reports * 100)) by lia. rewrite (N.mul_comm (size_of reports)).
  reflexivity.
Qed.
Lemma progress_printed : forall sgn clock sizeof data file args files reports total k o,
  Uses data file args files reports total k -> measures args ->
  (100 * N.of_nat (List.length reports) < two64)%N -> (N.of_nat (List.length (flat_map (groups_of sgn) reports)) < two64)%N ->
  performance_main sgn false clock sizeof data file args = Ok o -> printed (progress sgn total reports) (out_text o).
Proof.
  intros sgn clock sizeof data file args files reports total k o U M A B X.
  destruct (main_done _ _ _ _ _ _ _ _ _ _ _ U M X) as (st & a & b & h & e & u & g & z & E & _).
  rewrite <- (line_progress sgn total reports A B). eexists h, _. exact E.
Qed.
Lemma all_lines : forall n ls, 0 < n -> List.length ls < n \/ List.length ls mod n = 0 -> read_lines n ls = ls.
Proof.
  intros n ls P [L|L]; unfold read_lines.
  - apply Nat.ltb_lt in L. rewrite L. reflexivity.
  - destruct (Nat.ltb (List.length ls) n); [reflexivity|]. apply firstn_all2.
    pose proof (Nat.div_mod (List.length ls) n ltac:(lia)) as D. rewrite L in D. lia.
Qed.
Lemma file_complete : forall (sgn : bool) (clock : nat -> N) (sizeof : string -> N) (data : DataSet) (file : string -> option string)
  (opts : list string) (name content : string) (o : Output),
  plain_name name -> file name = Some content -> measures (opts ++ [name]) ->
  List.length (lines content) < file_batch \/ List.length (lines content) mod file_batch = 0 ->
  (100 * N.of_nat (List.length (lines content)) < two64)%N -> (N.of_nat (List.length (flat_map (groups_of sgn) (lines content))) < two64)%N ->
  performance_main sgn false clock sizeof data file (opts ++ [name]) = Ok o ->
  printed (progress sgn (N.of_nat (line_ends content)) (lines content)) (out_text o) /\ holds_reports sgn (out_archiver o) (lines content).
Proof.
  intros sgn clock sizeof data file opts name content o N F M L A B X.
  pose proof (Uses_file data file (opts ++ [name]) opts name content eq_refl N F) as U.
  assert (R : read_lines file_batch (lines content) = lines content) by (apply all_lines; [unfold file_batch; lia|exact L]). rewrite R in U.
  split; [exact (progress_printed _ _ _ _ _ _ _ _ _ _ _ U M A B X)|].
  destruct (main_done _ _ _ _ _ _ _ _ _ _ _ U M X) as (st & a & b & h & e & u & g & z & _ & _ & _ & _ & _ & H & _).
  split; [exact (h_errors _ _ _ _ H)|exact (h_groups _ _ _ _ H)].
Qed.

(** ** C90 *)

Lemma archives_filled : forall sgn clock sizeof data file args files reports total k o,
  Uses data file args files reports total k -> measures args ->
  performance_main sgn false clock sizeof data file args = Ok o -> holds_reports sgn (out_archiver o) reports.
Proof.
  intros sgn clock sizeof data file args files reports total k o U M X.
  destruct (main_done _ _ _ _ _ _ _ _ _ _ _ U M X) as (st & a & b & h & e & u & g & z & _ & _ & _ & _ & _ & H & _).
  split; [exact (h_errors _ _ _ _ H)|exact (h_groups _ _ _ _ H)].
Qed.
Lemma files_differ : forall i p j q, i < 22 -> j < 22 -> archive_filename i p = archive_filename j q -> i = j /\ p = q.
Proof.
  assert (T : forallb (fun i => forallb (fun j => forallb (fun p => forallb (fun q =>
    implb (String.eqb (archive_filename i p) (archive_filename j q)) (Nat.eqb i j && ReportPart_beq p q)) all_parts) all_parts) (seq 0 22)) (seq 0 22) = true)
    by (vm_compute; reflexivity).
  assert (P : forall p, In p all_parts) by (destruct p; cbn; tauto).
  intros i p j q I J E. rewrite forallb_forall in T. specialize (T i ltac:(apply in_seq; lia)). rewrite forallb_forall in T.
  specialize (T j ltac:(apply in_seq; lia)). rewrite forallb_forall in T. specialize (T p (P p)). rewrite forallb_forall in T. specialize (T q (P q)).
  rewrite E, String.eqb_refl in T. cbn [implb] in T. apply andb_prop in T. destruct T as [T1 T2]. split; [apply Nat.eqb_eq; exact T1|apply beq_part; exact T2].
Qed.
Lemma error_file_differs : forall i p, i < 22 -> archive_filename i p <> error_filename.
Proof.
  intros i p _ E. do 22 (destruct i as [|i]; [destruct p; discriminate|]). destruct p; discriminate.
Qed.

(** ** C92 *)

Lemma reused_all : forall files l, (files = true -> List.length l < 1000 \/ List.length l mod 1000 = 0) -> reused files l = l.
Proof. intros files l H. destruct files; [|reflexivity]. apply all_lines; [lia|exact (H eq_refl)]. Qed.
Lemma texts_times : forall sgn kind part n l, texts sgn kind part (times n l) = times n (texts sgn kind part l).
Proof. intros sgn kind part n l. induction n as [|n IH]; [reflexivity|]. cbn [times]. rewrite texts_app, IH. reflexivity. Qed.
Lemma unrecognised_occ : forall sgn n l s, occurrences s (unrecognised sgn (times n l)) = n * occurrences s (unrecognised sgn l).
Proof.
  intros sgn n l s. unfold unrecognised, all_parts. cbn [flat_map]. rewrite !texts_times, !occ_app, !occ_times. cbn [occurrences count_occ]. lia.
Qed.
Definition unknown_heading : string := "Groups not recognised by the parser (by occurrence number):".

Lemma unknown_collection : forall (sgn : bool) (clock : nat -> N) (sizeof : string -> N) (data : DataSet) (file : string -> option string)
  (args : list string) (total : N) (k : nat) (reports : list string) (o : Output),
  Uses data file args false reports total k -> measures args -> ~ In "--nounkn" args ->
  (N.of_nat (List.length (unrecognised sgn reports)) < two64)%N ->
  performance_main sgn false clock sizeof data file args = Ok o ->
  exists fl, frequency_list (unrecognised sgn (reports_of data)) fl /\
    printed (heading "Groups not recognised by the parser (by occurrence number):" ++ listing fl ++ String newline "") (out_text o).
Proof.
  intros sgn clock sizeof data file args total k reports o U M N L X.
  destruct (main_done _ _ _ _ _ _ _ _ _ _ _ U M X) as (st & a & b & h & e & u & g & z & E & _ & _ & _ & _ & _ & _ & Du & _).
  destruct (Du N) as (m & C & ->). cbn [reused] in C. change (flat_map (fun part => texts sgn 21 part reports) all_parts) with (unrecognised sgn reports) in C.
  assert (R : reports = times 300 (reports_of data)) by (inversion U; reflexivity).
  assert (O : forall s, occurrences s (unrecognised sgn reports) = 300 * occurrences s (unrecognised sgn (reports_of data))).
  { intros s. rewrite R. apply unrecognised_occ. }
  pose proof (counts_compensated _ _ _ 300 ltac:(lia) C O L) as C'.
  assert (L' : (N.of_nat (List.length (unrecognised sgn (reports_of data))) < two64)%N).
  { eapply N.le_lt_trans; [|exact L]. rewrite R. unfold unrecognised, all_parts. cbn [flat_map].
    rewrite !texts_times, !app_length, !times_length. lia. }
  destruct (printed_list _ _ C' L') as (fl & Pl & Fl). exists fl. split; [exact Fl|].
  exists (h ++ line_of sgn total reports ++ endl ++ a ++ b ++ endl ++ e), (g ++ z). rewrite E. unfold unknown_text, heading. rewrite Pl, !app_assoc_s.
  reflexivity.
Qed.
Lemma unknown_file : forall (sgn : bool) (clock : nat -> N) (sizeof : string -> N) (data : DataSet) (file : string -> option string)
  (args : list string) (total : N) (k : nat) (reports : list string) (o : Output),
  Uses data file args true reports total k -> measures args -> ~ In "--nounkn" args ->
  (N.of_nat (List.length (unrecognised sgn reports)) < two64)%N ->
  (forall part, List.length (texts sgn 21 part reports) < 1000 \/ List.length (texts sgn 21 part reports) mod 1000 = 0) ->
  performance_main sgn false clock sizeof data file args = Ok o ->
  exists fl, frequency_list (unrecognised sgn reports) fl /\
    printed (heading "Groups not recognised by the parser (by occurrence number):" ++ listing fl ++ String newline "") (out_text o).
Proof.
  intros sgn clock sizeof data file args total k reports o U M N L Q X.
  destruct (main_done _ _ _ _ _ _ _ _ _ _ _ U M X) as (st & a & b & h & e & u & g & z & E & _ & _ & _ & _ & _ & _ & Du & _).
  destruct (Du N) as (m & C & ->).
  assert (R : flat_map (fun part => reused true (texts sgn 21 part reports)) all_parts = unrecognised sgn reports).
  { unfold unrecognised. cbn [all_parts flat_map]. rewrite !(reused_all true) by (intros _; apply Q). reflexivity. }
  rewrite R in C. destruct (printed_list _ _ C L) as (fl & Pl & Fl). exists fl. split; [exact Fl|].
  exists (h ++ line_of sgn total reports ++ endl ++ a ++ b ++ endl ++ e), (g ++ z). rewrite E. unfold unknown_text, heading. rewrite Pl, !app_assoc_s.
  reflexivity.
Qed.
Lemma errors_listed : forall (sgn : bool) (clock : nat -> N) (sizeof : string -> N) (data : DataSet) (file : string -> option string)
  (args : list string) (files : bool) (total : N) (k : nat) (reports : list string) (o : Output),
  Uses data file args files reports total k -> measures args -> ~ In "--noerror" args ->
  (files = true -> List.length (failures sgn reports) < 1000 \/ List.length (failures sgn reports) mod 1000 = 0) ->
  performance_main sgn false clock sizeof data file args = Ok o ->
  printed (heading "Reports not recognised by the parser:" ++ error_list (failures sgn reports) ++ String newline "") (out_text o).
Proof.
  intros sgn clock sizeof data file args files total k reports o U M N Q X.
  destruct (main_done _ _ _ _ _ _ _ _ _ _ _ U M X) as (st & a & b & h & e & u & g & z & E & _ & _ & _ & _ & _ & De & _).
  assert (T : error_text files (failures sgn reports) = error_list (failures sgn reports)).
  { unfold error_text, error_list. rewrite (reused_all files _ Q). destruct (failures sgn reports); reflexivity. }
  rewrite (De N), T in E. exists (h ++ line_of sgn total reports ++ endl ++ a ++ b ++ endl), (u ++ g ++ z). rewrite E. unfold heading. rewrite !app_assoc_s.
  reflexivity.
Qed.

(** ** C93 *)

Lemma account_entry : forall st what k us n t, entry st what k us n -> 1 <= k -> (us < two64)%N -> (1000000 * n < two64)%N ->
  PerformanceStats_print what st = Ok t -> t = account what us n.
Proof.
  intros st what k us n t E K U L X. destruct k as [|k]; [lia|]. unfold account. destruct (n =? 0)%N eqn:Z.
  - apply N.eqb_eq in Z. subst n. unfold PerformanceStats_print in X. unfold entry in E. rewrite E in X. cbn [u64] in X.
    change (u64 0 =? 0)%N with true in X. cbv iota in X. apply ok_same in X. symmetry. exact X.
  - apply N.eqb_neq in Z. rewrite (print_figures _ _ _ _ _ E U L ltac:(lia)) in X. destruct (us =? 0)%N; [discriminate|]. apply ok_same in X. symmetry. exact X.
Qed.
Lemma printed_in : forall s t u, printed s t -> printed t u -> printed s u.
Proof.
  intros s t u (a & b & ->) (c & d & ->). exists (c ++ a), (b ++ d). rewrite !app_assoc_s. reflexivity.
Qed.
Lemma names_same : forall kind, kind < 21 -> groupName kind = nth kind kind_names "".
Proof. intros kind L. do 21 (destruct kind as [|kind]; [reflexivity|]). lia. Qed.
Lemma kinds_reported : forall (sgn : bool) (clock : nat -> N) (sizeof : string -> N) (data : DataSet) (file : string -> option string)
  (args : list string) (files : bool) (total : N) (k : nat) (reports : list string) (o : Output) (kind : nat),
  Uses data file args files reports total k -> measures args -> ~ In "--nogroups" args ->
  kind < 21 -> kind <> 7 ->
  (sum_range clock (k + steps_before sgn files kind reports) (number_steps sgn files kind reports) < two64)%N -> (1000000 * number_tested sgn files kind reports < two64)%N ->
  performance_main sgn false clock sizeof data file args = Ok o ->
  printed (account (nth kind kind_names "") (sum_range clock (k + steps_before sgn files kind reports) (number_steps sgn files kind reports)) (number_tested sgn files kind reports)) (out_text o).
Proof.
  intros sgn clock sizeof data file args files total k reports o kind U M N K K7 S L X.
  destruct (main_done _ _ _ _ _ _ _ _ _ _ _ U M X) as (st & a & b & h & e & u & g & z & E & _ & _ & _ & _ & _ & _ & _ & Dg).
  destruct (Dg N) as (st' & t & t' & -> & Pg & D1 & D2 & D3). pose proof (D1 kind K K7) as En.
  destruct (kind_printed all_kinds st' t' kind Pg (all_kinds_in kind ltac:(lia))) as (l & Pl & In').
  assert (1 <= number_steps sgn files kind reports) as K1.
  { unfold number_steps, all_parts. cbn [map sum fold_right]. assert (Q : forall l, 1 <= steps files l) by (intros l0; unfold steps; destruct files; lia).
    pose proof (Q (texts sgn kind RP_UNKNOWN reports)). lia. }
  rewrite <- (names_same kind K), <- (account_entry _ _ _ _ _ _ En K1 S L Pl). eapply printed_in; [exact In'|].
  exists (h ++ line_of sgn total reports ++ endl ++ a ++ b ++ endl ++ e ++ u ++ t ++ endl), (endl ++ z). rewrite E. rewrite !app_assoc_s. reflexivity.
Qed.
Lemma weather_missing : forall (sgn : bool) (clock : nat -> N) (sizeof : string -> N) (data : DataSet) (file : string -> option string)
  (args : list string) (files : bool) (total : N) (k : nat) (reports : list string) (o : Output),
  Uses data file args files reports total k -> measures args -> ~ In "--nogroups" args ->
  performance_main sgn false clock sizeof data file args = Ok o ->
  printed (heading "No performance stats exist for WeatherGroup.") (out_text o).
Proof.
  intros sgn clock sizeof data file args files total k reports o U M N X.
  destruct (main_done _ _ _ _ _ _ _ _ _ _ _ U M X) as (st & a & b & h & e & u & g & z & E & _ & _ & _ & _ & _ & _ & _ & Dg).
  destruct (Dg N) as (st' & t & t' & -> & Pg & D1 & D2 & D3).
  destruct (kind_printed all_kinds st' t' 7 Pg (all_kinds_in 7 ltac:(lia))) as (l & Pl & In').
  unfold PerformanceStats_print in Pl. rewrite D2 in Pl. apply ok_same in Pl. subst l. eapply printed_in; [exact In'|].
  exists (h ++ line_of sgn total reports ++ endl ++ a ++ b ++ endl ++ e ++ u ++ t ++ endl), (endl ++ z). rewrite E. rewrite !app_assoc_s. reflexivity.
Qed.

(** ** C95 *)

Lemma figures_printed : forall (sgn : bool) (clock : nat -> N) (sizeof : string -> N) (data : DataSet) (file : string -> option string)
  (args : list string) (files : bool) (total : N) (k : nat) (reports : list string) (o : Output),
  Uses data file args files reports total k -> measures args ->
  (sum_clock clock k < two64)%N -> (1000000 * N.of_nat (List.length reports) < two64)%N ->
  (1000000 * N.of_nat (List.length (flat_map (groups_of sgn) reports)) < two64)%N ->
  performance_main sgn false clock sizeof data file args = Ok o ->
  printed (account "report" (sum_clock clock k) (N.of_nat (List.length reports)) ++
           account "group" (sum_clock clock k) (N.of_nat (List.length (flat_map (groups_of sgn) reports)))) (out_text o).
Proof.
  intros sgn clock sizeof data file args files total k reports o U M S A B X.
  destruct (uses_params _ _ _ _ _ _ _ U) as (_ & _ & _ & _ & _ & _ & _ & _ & _ & K1).
  destruct (main_done _ _ _ _ _ _ _ _ _ _ _ U M X) as (st & a & b & h & e & u & g & z & E & Er & Eg & Pr & Pg & _).
  pose proof (account_entry _ _ _ _ _ _ Er K1 S A Pr) as Qa. pose proof (account_entry _ _ _ _ _ _ Eg K1 S B Pg) as Qb.
  unfold size_of in Qa. unfold groups_in in Qb. rewrite <- Qa, <- Qb.
  exists (h ++ line_of sgn total reports ++ endl), (endl ++ e ++ u ++ g ++ z). rewrite E, !app_assoc_s. reflexivity.
Qed.
