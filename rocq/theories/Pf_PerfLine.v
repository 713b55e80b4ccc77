(** Proofs of C94 and C96: the command line and the export. *)
From Coq Require Import List String Ascii NArith Bool Arith Lia Permutation.
From Verif Require Import Prim Lib Groups1 Parser Format Pf_ExTable.
From Verif Require Import Performance SpecPerformance Pf_PerfBatch Pf_PerfArchive Pf_PerfTest Pf_PerfFreq Pf_PerfGroups Pf_PerfMain Pf_Performance.
Import ListNotations.
Local Open Scope string_scope.

(** ** The output does not depend on what has been printed before *)

Definition after (s : string) (r : Run) : Run := mkRun (s ++ cout r) (stats r) (archiver r) (reportCount r) (groupCount r) (measured r).
Definition rmap {A : Type} (f : A -> A) (x : res A) : res A := let! y := x in Ok (f y).

Lemma batches_after : forall (A : Type) (f : A -> A) (body : list string -> A -> res A), (forall l a, body l (f a) = rmap f (body l a)) ->
  forall fuel src a, do_batches fuel body src (f a) = rmap f (do_batches fuel body src a).
Proof.
  intros A f body H. induction fuel as [|fuel IH]; intros src a; [reflexivity|]. cbn [do_batches]. rewrite H.
  match goal with |- context [body ?l a] => destruct (body l a) as [a'|e] end; [|reflexivity]. cbn [rmap bind].
  destruct (nextBatch src) as [src' more]. destruct more; [apply IH|reflexivity].
Qed.
Lemma part_after : forall clock k rp s r, testGroupReportPart clock k rp (after s r) = rmap (after s) (testGroupReportPart clock k rp r).
Proof.
  intros clock k rp s r. unfold testGroupReportPart. destruct (Nat.eqb k 21); [reflexivity|]. change (archiver (after s r)) with (archiver r).
  destruct (getBatchGroup (archiver r) k rp) as [src|e]; [|reflexivity]. cbn [bind]. unfold for_batches. apply batches_after.
  intros l a. unfold test_group_batch. destruct (prepareBatch l) as [b|e]; [|reflexivity]. cbn [bind].
  destruct (parse_groups b rp (makeDummyMetadata rp)) as [x|e]; [|reflexivity]. reflexivity.
Qed.
Lemma after_print : forall s t r, after s (print t r) = print t (after s r).
Proof. intros s t r. unfold after, print. cbn [cout stats archiver reportCount groupCount measured]. rewrite app_assoc_s. reflexivity. Qed.
Lemma kind_after : forall clock k s r, testGroupType clock k (after s r) = rmap (after s) (testGroupType clock k r).
Proof.
  intros clock k s r. unfold testGroupType.
  change (mkRun (cout (after s r) ++ "Testing " ++ groupName k ++ endl) (stats (after s r)) (archiver (after s r)) (reportCount (after s r))
            (groupCount (after s r)) (measured (after s r))) with (print ("Testing " ++ groupName k ++ endl) (after s r)).
  change (mkRun (cout r ++ "Testing " ++ groupName k ++ endl) (stats r) (archiver r) (reportCount r) (groupCount r) (measured r))
    with (print ("Testing " ++ groupName k ++ endl) r). rewrite <- after_print. cbv zeta.
  do 4 (rewrite part_after; match goal with |- context [testGroupReportPart clock k ?p ?x] => destruct (testGroupReportPart clock k p x) as [?|?] end;
    [|reflexivity]; cbn [rmap bind]). apply part_after.
Qed.
Lemma kinds_after : forall clock ks s r, test_kinds clock ks (after s r) = rmap (after s) (test_kinds clock ks r).
Proof.
  intros clock ks s. induction ks as [|k ks IH]; intros r; [reflexivity|]. cbn [test_kinds]. rewrite kind_after.
  destruct (testGroupType clock k r) as [r'|e]; [|reflexivity]. cbn [rmap bind]. apply IH.
Qed.
Lemma groups_after : forall clock s r, main_groups clock (after s r) = rmap (after s) (main_groups clock r).
Proof.
  intros clock s r. unfold main_groups, group_tester_test. rewrite <- after_print, kinds_after.
  destruct (test_kinds clock tested_kinds (print ("Checking group performance" ++ endl) r)) as [r'|e]; [|reflexivity]. cbn [rmap bind].
  change (stats (after s r')) with (stats r'). destruct (printGroupStats (stats r')) as [t|e]; [|reflexivity]. cbn [bind].
  rewrite <- after_print. reflexivity.
Qed.
Lemma tester_after : forall sgn w v clock src s r, tester_test sgn w v clock src (after s r) = rmap (after s) (tester_test sgn w v clock src r).
Proof.
  intros sgn w v clock src s r. unfold tester_test, for_batches.
  change (mkRun (cout (after s r)) (stats (after s r)) (archiver (after s r)) 0 0 (measured (after s r)))
    with (after s (mkRun (cout r) (stats r) (archiver r) 0 0 (measured r))).
  apply batches_after. intros l a. unfold test_batch. change (archiver (after s a)) with (archiver a). change (stats (after s a)) with (stats a).
  change (measured (after s a)) with (measured a). change (reportCount (after s a)) with (reportCount a). change (groupCount (after s a)) with (groupCount a).
  change (cout (after s a)) with (s ++ cout a). cbv zeta.
  destruct (parse_batch sgn l) as [x|e]; [|reflexivity]. cbn [bind].
  destruct (if w then _ else _) as [ar|e]; [|reflexivity]. cbn [bind].
  destruct (if v then _ else _) as [t|e]; [|reflexivity]. cbn [bind rmap].
  unfold after. cbn [cout stats archiver reportCount groupCount measured]. rewrite app_assoc_s. reflexivity.
Qed.
Lemma parser_print : forall sgn w clock data file params ar r',
  main_parser sgn w clock data file params (mkRun "" [] ar 0 0 0) = Ok r' -> begins_with (heading "Checking overall parser performance") (cout r').
Proof.
  intros sgn w clock data file params ar r' X. unfold main_parser in X. cbv zeta in X.
  set (h := "Checking overall parser performance" ++ endl) in *.
  change (print h (mkRun "" [] ar 0 0 0)) with (mkRun h [] ar 0 0 0) in X.
  assert (A : mkRun h [] ar 0 0 0 = after h (mkRun "" [] ar 0 0 0)) by (unfold after; cbn [cout stats archiver reportCount groupCount measured]; rewrite app_empty_r; reflexivity).
  rewrite A in X. clear A.
  assert (K : forall t src, (let! r := tester_test sgn (negb w) (negb w) clock src (print ("Test set size is " ++ dec_N (totalSize src) ++ endl) (print t (after h (mkRun "" [] ar 0 0 0)))) in
      let! a := PerformanceStats_print "report" (stats (print endl r)) in
      let! b := PerformanceStats_print "group" (stats (print endl r)) in
      Ok (print endl (print b (print a (print endl r))))) = Ok r' -> begins_with (heading "Checking overall parser performance") (cout r')).
  { intros t src Y. rewrite <- !after_print, tester_after in Y.
    destruct (tester_test sgn (negb w) (negb w) clock src _) as [r1|e]; [|discriminate]. cbn [rmap bind] in Y.
    destruct (PerformanceStats_print "report" _) as [a|e]; [|discriminate]. cbn [bind] in Y.
    destruct (PerformanceStats_print "group" _) as [b|e]; [|discriminate]. cbn [bind] in Y. rewrite <- !after_print in Y. apply ok_same in Y. subst r'.
    eexists. reflexivity. }
  destruct (inputFromInternalTestData params).
  - cbn [bind] in X. exact (K _ _ X).
  - destruct (file (inputFile params)) as [content|]; [|discriminate]. cbn [bind] in X. exact (K _ _ X).
Qed.
Lemma kinds_keep : forall clock ks r r', test_kinds clock ks r = Ok r' -> archiver r' = archiver r.
Proof.
  intros clock. assert (P : forall k rp r r', testGroupReportPart clock k rp r = Ok r' -> archiver r' = archiver r).
  { intros k rp r r' X. unfold testGroupReportPart in X. destruct (Nat.eqb k 21); [apply ok_same in X; subst; reflexivity|].
    destruct (getBatchGroup (archiver r) k rp) as [src|]; [|discriminate]. cbn [bind] in X. unfold for_batches in X. revert src r X.
    generalize 0. intros _.
    assert (Q : forall fuel src r, do_batches fuel (test_group_batch clock k rp) src r = Ok r' -> archiver r' = archiver r).
    { induction fuel as [|fuel IH]; intros src r X; [discriminate|]. cbn [do_batches] in X.
      match type of X with context [test_group_batch clock k rp ?l r] => destruct (test_group_batch clock k rp l r) as [a|] eqn:E end; [|discriminate].
      cbn [bind] in X. assert (A : archiver a = archiver r).
      { unfold test_group_batch in E. destruct (prepareBatch _) as [b|]; [|discriminate]. cbn [bind] in E.
        destruct (parse_groups b rp (makeDummyMetadata rp)); [|discriminate]. cbn [bind] in E. apply ok_same in E. subst a. reflexivity. }
      destruct (nextBatch src) as [src' more]. destruct more; [rewrite <- A; exact (IH _ _ X)|]. apply ok_same in X. subst. exact A. }
    intros src r X. exact (Q _ _ _ X). }
  induction ks as [|k ks IH]; intros r r' X; [apply ok_same in X; subst; reflexivity|]. cbn [test_kinds] in X.
  destruct (testGroupType clock k r) as [r1|] eqn:T; [|discriminate]. cbn [bind] in X. rewrite (IH _ _ X). clear X IH.
  unfold testGroupType in T. cbv zeta in T.
  destruct (testGroupReportPart clock k RP_UNKNOWN _) as [a|] eqn:A; [|discriminate]. apply P in A. cbn [bind archiver] in *.
  destruct (testGroupReportPart clock k RP_HEADER _) as [b|] eqn:B; [|discriminate]. apply P in B. cbn [bind] in *.
  destruct (testGroupReportPart clock k RP_METAR _) as [c|] eqn:C; [|discriminate]. apply P in C. cbn [bind] in *.
  destruct (testGroupReportPart clock k RP_TAF _) as [d|] eqn:D; [|discriminate]. apply P in D. cbn [bind] in *.
  apply P in T. congruence.
Qed.

(** ** The command line *)

Lemma input_params : forall args input, Input args input -> setCommandLineParameters args = Ok (params_of args input).
Proof. intros args input [H|opts name -> H]; [exact (line_option _ H)|exact (line_file _ _ H)]. Qed.
Lemma given_dec : forall name args (A : Type) (a b : A), (if option_given name args then a else b) = if in_dec string_dec name args then a else b.
Proof.
  intros name args A a b. destruct (in_dec string_dec name args) as [I|N].
  - apply given_iff in I. rewrite I. reflexivity.
  - rewrite (not_given _ _ N). reflexivity.
Qed.
Lemma run_eta : forall r, mkRun (cout r) (stats r) (archiver r) (reportCount r) (groupCount r) (measured r) = r.
Proof. intros []. reflexivity. Qed.

Lemma main_sections : forall (sgn : bool) (clock : nat -> N) (sizeof : string -> N) (data : DataSet) (file : string -> option string)
  (input : option string) (args : list string) (o : Output),
  Input args input -> (forall name, In name option_names -> ~ In name args) ->
  performance_main sgn false clock sizeof data file args = Ok o ->
  exists parser errors unknown groups sizes,
    out_text o = parser ++ errors ++ unknown ++ groups ++ sizes /\
    begins_with (heading "Checking overall parser performance") parser /\
    begins_with (heading "Reports not recognised by the parser:") errors /\
    begins_with (heading "Groups not recognised by the parser (by occurrence number):") unknown /\
    begins_with (heading "Checking group performance") groups /\
    begins_with (heading "Data type sizes:") sizes /\
    forall args', Input args' input -> measures args' ->
      exists o', performance_main sgn false clock sizeof data file args' = Ok o' /\ out_archiver o' = out_archiver o /\ out_export o' = None /\
        out_text o' = parser ++ unless "--noerror" args' errors ++ unless "--nounkn" args' unknown ++
                      unless "--nogroups" args' groups ++ unless "--nosize" args' sizes.
Proof.
  intros sgn clock sizeof data file input args o I N X.
  assert (G : forall name, In name option_names -> option_given name args = false) by (intros name J; apply not_given; exact (N name J)).
  unfold performance_main in X. rewrite (input_params _ _ I) in X. cbn [bind] in X. cbv zeta in X.
  change (help (params_of args input)) with (option_given "--help" args) in X.
  change (exportInternalTestData (params_of args input)) with (option_given "--expint" args) in X.
  change (printErrors (params_of args input)) with (negb (option_given "--noerror" args)) in X.
  change (printUnknownGroups (params_of args input)) with (negb (option_given "--nounkn" args)) in X.
  change (checkGroupPerformance (params_of args input)) with (negb (option_given "--nogroups" args)) in X.
  change (printSizes (params_of args input)) with (negb (option_given "--nosize" args)) in X.
  rewrite !G in X by (unfold option_names; cbn [In]; tauto). cbn [negb] in X.
  set (internal := match input with Some _ => false | None => true end).
  change (inputFromInternalTestData (params_of args input)) with internal in X.
  assert (Mp : forall args' r, main_parser sgn false clock data file (params_of args' input) r = main_parser sgn false clock data file (params_of args input) r)
    by reflexivity.
  destruct (main_parser sgn false clock data file (params_of args input) (mkRun "" [] (Archiver_new (negb internal)) 0 0 0)) as [r1|] eqn:E1; [|discriminate].
  cbn [bind] in X. unfold main_errors in X.
  destruct (printErrorReports (archiver r1)) as [te|] eqn:Ee; [|discriminate]. cbn [bind] in X.
  match type of X with context [print ?t r1] => set (errors := t) in X end.
  unfold main_unknown in X. change (archiver (print errors r1)) with (archiver r1) in X.
  destruct (unknown_stats internal (archiver r1)) as [m|] eqn:Eu; [|discriminate]. cbn [bind] in X.
  match type of X with context [print ?t (print errors r1)] => set (unknown := t) in X end.
  set (r0 := mkRun "" (stats r1) (archiver r1) (reportCount r1) (groupCount r1) (measured r1)).
  assert (A0 : forall t, mkRun t (stats r1) (archiver r1) (reportCount r1) (groupCount r1) (measured r1) = after t r0).
  { intros t. unfold after, r0. cbn [cout stats archiver reportCount groupCount measured]. rewrite app_empty_r. reflexivity. }
  assert (P1 : r1 = after (cout r1) r0) by (rewrite <- A0; symmetry; apply run_eta).
  assert (P3 : print unknown (print errors r1) = after ((cout r1 ++ errors) ++ unknown) r0) by (rewrite <- A0; reflexivity).
  rewrite P3, groups_after in X. destruct (main_groups clock r0) as [r4|] eqn:Eg; [|discriminate]. cbn [rmap bind] in X.
  assert (Ar : archiver r4 = archiver r1).
  { unfold main_groups, group_tester_test in Eg. destruct (test_kinds clock tested_kinds _) as [q|] eqn:Q; [|discriminate]. cbn [bind] in Eg.
    destruct (printGroupStats (stats q)) as [t|]; [|discriminate]. cbn [bind] in Eg. apply ok_same in Eg. subst r4. cbn [print archiver].
    rewrite (kinds_keep _ _ _ _ Q). reflexivity. }
  apply ok_same in X. subst o. cbn [out_text out_archiver cout print after archiver].
  exists (cout r1), errors, unknown, (cout r4), (printDataSize sizeof).
  split; [rewrite !app_assoc_s; reflexivity|].
  split.
  { exact (parser_print _ _ _ _ _ _ _ _ E1). }
  split; [eexists; reflexivity|]. split; [eexists; reflexivity|].
  split.
  { unfold main_groups, group_tester_test in Eg. set (h := "Checking group performance" ++ endl) in Eg.
    change (print h r0) with (mkRun h (stats r1) (archiver r1) (reportCount r1) (groupCount r1) (measured r1)) in Eg. rewrite A0, kinds_after in Eg.
    destruct (test_kinds clock tested_kinds r0) as [q|]; [|discriminate]. cbn [rmap bind] in Eg.
    destruct (printGroupStats _) as [t|]; [|discriminate]. cbn [bind] in Eg. rewrite <- after_print in Eg. apply ok_same in Eg. subst r4. eexists. reflexivity. }
  split; [eexists; reflexivity|].
  intros args' I' (Nh & Ne). unfold performance_main. rewrite (input_params _ _ I'). cbn [bind]. cbv zeta.
  change (help (params_of args' input)) with (option_given "--help" args'). rewrite (not_given _ _ Nh).
  change (exportInternalTestData (params_of args' input)) with (option_given "--expint" args'). rewrite (not_given _ _ Ne).
  change (inputFromInternalTestData (params_of args' input)) with internal.
  change (printErrors (params_of args' input)) with (negb (option_given "--noerror" args')).
  change (printUnknownGroups (params_of args' input)) with (negb (option_given "--nounkn" args')).
  change (checkGroupPerformance (params_of args' input)) with (negb (option_given "--nogroups" args')).
  change (printSizes (params_of args' input)) with (negb (option_given "--nosize" args')).
  rewrite Mp, E1. cbn [bind]. unfold unless. rewrite <- !given_dec.
  assert (M2 : (if negb (option_given "--noerror" args') then main_errors r1 else Ok r1) =
    Ok (after (cout r1 ++ (if option_given "--noerror" args' then "" else errors)) r0)).
  { destruct (option_given "--noerror" args'); cbn [negb]; [rewrite app_empty_r, <- P1; reflexivity|].
    unfold main_errors. rewrite Ee. cbn [bind]. rewrite <- A0. reflexivity. }
  rewrite M2. cbn [bind]. clear M2. set (e := if option_given "--noerror" args' then "" else errors).
  assert (M3 : (if negb (option_given "--nounkn" args') then main_unknown internal (after (cout r1 ++ e) r0) else Ok (after (cout r1 ++ e) r0)) =
    Ok (after (cout r1 ++ e ++ (if option_given "--nounkn" args' then "" else unknown)) r0)).
  { destruct (option_given "--nounkn" args'); cbn [negb]; [rewrite app_empty_r; reflexivity|].
    unfold main_unknown. change (archiver (after (cout r1 ++ e) r0)) with (archiver r1). rewrite Eu. cbn [bind]. rewrite <- !A0. unfold print.
    cbn [cout stats archiver reportCount groupCount measured]. rewrite app_assoc_s. reflexivity. }
  rewrite M3. cbn [bind]. clear M3. set (u := if option_given "--nounkn" args' then "" else unknown).
  set (g := if option_given "--nogroups" args' then "" else cout r4).
  assert (M4 : exists r5, (if negb (option_given "--nogroups" args') then main_groups clock (after (cout r1 ++ e ++ u) r0) else Ok (after (cout r1 ++ e ++ u) r0)) = Ok r5
    /\ cout r5 = cout r1 ++ e ++ u ++ g /\ archiver r5 = archiver r1).
  { unfold g. destruct (option_given "--nogroups" args'); cbn [negb].
    - eexists. split; [reflexivity|]. rewrite <- A0. cbn [cout archiver]. rewrite app_empty_r. split; reflexivity.
    - rewrite groups_after, Eg. cbn [rmap bind]. eexists. split; [reflexivity|]. cbn [after cout archiver]. rewrite ?app_assoc_s. split; [reflexivity|exact Ar]. }
  destruct M4 as (r5 & M4 & C5 & A5). rewrite M4. cbn [bind].
  destruct (option_given "--nosize" args'); cbn [negb]; eexists; (split; [reflexivity|]); cbn [out_archiver out_text out_export print cout archiver];
    (split; [congruence|]); (split; [reflexivity|]); rewrite C5, ?app_empty_r, ?app_assoc_s; reflexivity.
Qed.

Lemma given_ignored : forall w name a b, w <> name -> option_given name (a ++ w :: b) = option_given name (a ++ b).
Proof.
  intros w name a b N. unfold option_given. rewrite !existsb_app. cbn [existsb].
  assert (E : String.eqb name w = false) by (apply String.eqb_neq; congruence). rewrite E. reflexivity.
Qed.
Lemma argument_ignored : forall (sgn wasm : bool) (clock : nat -> N) (sizeof : string -> N) (data : DataSet) (file : string -> option string)
  (w : string) (a b : list string),
  ~ In w option_names -> b <> [] ->
  performance_main sgn wasm clock sizeof data file (a ++ w :: b) = performance_main sgn wasm clock sizeof data file (a ++ b).
Proof.
  intros sgn wasm clock sizeof data file w a b N B. unfold performance_main.
  assert (E : setCommandLineParameters (a ++ w :: b) = setCommandLineParameters (a ++ b)).
  { destruct (exists_last B) as (b' & x & ->). unfold setCommandLineParameters.
    assert (G : forall name, In name option_names -> option_given name (a ++ w :: b' ++ [x]) = option_given name (a ++ b' ++ [x])).
    { intros name I. apply given_ignored. intros ->. exact (N I). }
    rewrite !G by (unfold option_names; cbn [In]; tauto).
    change (w :: b' ++ [x])%list with ((w :: b') ++ [x])%list. rewrite !app_assoc, !rev_app_distr. reflexivity. }
  rewrite E. reflexivity.
Qed.
Lemma help_shown : forall (sgn : bool) (clock : nat -> N) (sizeof : string -> N) (data : DataSet) (file : string -> option string)
  (input : option string) (args : list string),
  Input args input -> In "--help" args ->
  exists o, performance_main sgn false clock sizeof data file args = Ok o /\ out_export o = None /\ holds_reports sgn (out_archiver o) [] /\
    begins_with (heading "Usage: performance [options] [input_file]") (out_text o).
Proof.
  intros sgn clock sizeof data file input args I H. unfold performance_main. rewrite (input_params _ _ I). cbn [bind]. cbv zeta.
  change (help (params_of args input)) with (option_given "--help" args). apply given_iff in H. rewrite H. eexists. split; [reflexivity|].
  cbn [out_export out_archiver out_text]. split; [reflexivity|]. split; [|eexists; reflexivity].
  pose proof (Holds_new (negb (inputFromInternalTestData (params_of args input)))) as K.
  split; [exact (h_errors _ _ _ _ K)|exact (h_groups _ _ _ _ K)].
Qed.
Lemma hyphen_ignored : forall (sgn : bool) (clock : nat -> N) (sizeof : string -> N) (data : DataSet) (file file' : string -> option string)
  (opts : list string) (c : ascii) (r : string), c <> "-"%char ->
  performance_main sgn false clock sizeof data file (opts ++ [String c (String "-" r)]) =
  performance_main sgn false clock sizeof data file' (opts ++ ["-"]).
Proof.
  intros sgn clock sizeof data file file' opts c r N. unfold performance_main. rewrite (line_hyphen _ _ _ N).
  rewrite (line_option (opts ++ ["-"])) by (right; exists opts, "-"; split; [reflexivity|exists ""; reflexivity]).
  assert (P : forall name, In name option_names -> option_given name (opts ++ [String c (String "-" r)]) = option_given name (opts ++ ["-"])).
  { intros name I. unfold option_given. rewrite !existsb_app. f_equal. cbn [existsb]. f_equal.
    assert (H : String.eqb name (String c (String "-" r)) = false).
    { apply String.eqb_neq. intros ->. unfold option_names in I. cbn [In] in I. repeat (destruct I as [I|I]; [congruence|]). exact I. }
    rewrite H. symmetry. apply String.eqb_neq. intros ->. unfold option_names in I. cbn [In] in I. repeat (destruct I as [I|I]; [discriminate|]). exact I. }
  unfold params_of. rewrite !P by (unfold option_names; cbn [In]; tauto). reflexivity.
Qed.
Lemma empty_argument : forall (sgn wasm : bool) (clock : nat -> N) (sizeof : string -> N) (data : DataSet) (file : string -> option string) (opts : list string),
  performance_main sgn wasm clock sizeof data file (opts ++ [""]) = Bad UB.
Proof. intros. unfold performance_main. rewrite line_empty. reflexivity. Qed.

(** ** The export *)

Lemma exported_lines : forall data, (forall d, In d data -> one_line (fst d) /\ one_line (snd d)) ->
  lines (exported data) = (filter (fun s => negb (String.eqb s "")) (map fst data) ++ filter (fun s => negb (String.eqb s "")) (map snd data))%list.
Proof.
  intros data O.
  assert (F : forall l, filter not_empty l = filter (fun s => negb (String.eqb s "")) l) by (intros l; apply filter_ext; intros []; reflexivity).
  unfold exported. rewrite !F.
  change (String.concat "" (map (fun s => s ++ endl) ?l)) with (text_of l).
  set (a := filter _ (map fst data)). set (b := filter _ (map snd data)).
  change (lines (text_of a ++ text_of b) = (a ++ b)%list). rewrite <- text_app. apply text_lines. intros l I. apply in_app_or in I.
  destruct I as [I|I]; apply filter_In in I; destruct I as [I _]; apply in_map_iff in I; destruct I as (d & <- & D); apply (O d D).
Qed.
Lemma exported_reports : forall data,
  Permutation (filter (fun s => negb (String.eqb s "")) (map fst data) ++ filter (fun s => negb (String.eqb s "")) (map snd data)) (reports_of data).
Proof.
  unfold reports_of. induction data as [|[m t] data IH]; [constructor|].
  change (map fst ((m, t) :: data)) with ([m] ++ map fst data)%list. change (map snd ((m, t) :: data)) with ([t] ++ map snd data)%list.
  change (flat_map (fun d => [fst d; snd d]) ((m, t) :: data)) with ([m] ++ [t] ++ flat_map (fun d : string * string => [fst d; snd d]) data)%list.
  rewrite !filter_app, <- app_assoc. apply Permutation_app_head.
  eapply Permutation_trans; [apply Permutation_app_swap_app|]. apply Permutation_app_head. exact IH.
Qed.
Lemma ends_text : forall ls, (forall l, In l ls -> one_line l) -> line_ends (text_of ls) = List.length ls.
Proof.
  assert (H : forall l t, line_ends (l ++ String newline t) = line_ends l + S (line_ends t)).
  { induction l as [|c l IH]; intros t; [reflexivity|]. unfold line_ends in *. cbn [append list_ascii_of_string count_occ].
    rewrite IH. destruct (ascii_dec c newline); lia. }
  induction ls as [|l ls IH]; intros O; [reflexivity|]. rewrite text_cons, H, IH by (intros x I; apply O; right; exact I).
  assert (Z : line_ends l = 0) by (apply count_occ_not_In; apply O; left; reflexivity). rewrite Z. reflexivity.
Qed.
Lemma export_written : forall (sgn : bool) (clock : nat -> N) (sizeof : string -> N) (data : DataSet) (file : string -> option string)
  (input : option string) (args : list string),
  Input args input -> ~ In "--help" args -> In "--expint" args -> (forall d, In d data -> one_line (fst d) /\ one_line (snd d)) ->
  exists o content, performance_main sgn false clock sizeof data file args = Ok o /\ out_export o = Some content /\
    holds_reports sgn (out_archiver o) [] /\ line_ends content = List.length (lines content) /\
    lines content = (filter (fun s => negb (String.eqb s "")) (map fst data) ++ filter (fun s => negb (String.eqb s "")) (map snd data))%list /\
    Permutation (lines content) (reports_of data).
Proof.
  intros sgn clock sizeof data file input args I H E O. unfold performance_main. rewrite (input_params _ _ I). cbn [bind]. cbv zeta.
  change (help (params_of args input)) with (option_given "--help" args). rewrite (not_given _ _ H).
  change (exportInternalTestData (params_of args input)) with (option_given "--expint" args). apply given_iff in E. rewrite E.
  exists (mkOutput ("Exporting internal test data to testdatareal.txt" ++ endl ++ "Internal test data export complete" ++ endl ++ endl)
    (Archiver_new (negb (inputFromInternalTestData (params_of args input)))) (Some (exported data))), (exported data).
  split; [reflexivity|]. split; [reflexivity|]. split.
  { cbn [out_archiver]. pose proof (Holds_new (negb (inputFromInternalTestData (params_of args input)))) as K.
    split; [exact (h_errors _ _ _ _ K)|exact (h_groups _ _ _ _ K)]. }
  rewrite (exported_lines data O). split; [|split; [reflexivity|apply exported_reports]].
  assert (F : forall l, filter not_empty l = filter (fun s => negb (String.eqb s "")) l) by (intros l; apply filter_ext; intros []; reflexivity).
  unfold exported. rewrite !F. set (a := filter _ (map fst data)). set (b := filter _ (map snd data)).
  change (line_ends (text_of a ++ text_of b) = List.length (a ++ b)). rewrite <- text_app. apply ends_text. intros l J. apply in_app_or in J.
  destruct J as [J|J]; apply filter_In in J; destruct J as [J _]; apply in_map_iff in J; destruct J as (d & <- & D); apply (O d D).
Qed.
Lemma export_used : forall (data data' : DataSet) (file : string -> option string) (opts : list string) (name content : string),
  plain_name name -> file name = Some content -> line_ends content = List.length (lines content) -> Permutation (lines content) (reports_of data) ->
  List.length (lines content) < file_batch ->
  exists reports k, Uses data' file (opts ++ [name]) true reports (N.of_nat (List.length (reports_of data))) k /\ Permutation reports (reports_of data).
Proof.
  intros data data' file opts name content N F E P L. pose proof (Uses_file data' file (opts ++ [name]) opts name content eq_refl N F) as U.
  assert (R : read_lines file_batch (lines content) = lines content) by (apply all_lines; [unfold file_batch; lia|left; exact L]).
  rewrite R, E, (Permutation_length P) in U. eexists _, _. split; [exact U|exact P].
Qed.
