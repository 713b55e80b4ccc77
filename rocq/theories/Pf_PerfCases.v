(** Runs of performance/main.cpp which do not do what is expected, and examples. *)
From Coq Require Import List String Ascii NArith Bool Arith Lia.
From Verif Require Import Prim Lib Groups1 Parser Format Pf_ExTable.
From Verif Require Import Performance SpecPerformance Pf_PerfBatch Pf_PerfArchive Pf_PerfTest Pf_PerfFreq Pf_PerfGroups Pf_PerfMain Pf_Performance Pf_PerfLine.
Import ListNotations.
Local Open Scope string_scope.

Lemma repeat_texts : forall sgn kind part x n t, texts sgn kind part [x] = t -> texts sgn kind part (repeat x n) = times n t.
Proof.
  intros sgn kind part x n t <-. induction n as [|n IH]; [reflexivity|]. cbn [repeat times].
  change (x :: repeat x n) with ([x] ++ repeat x n)%list. rewrite texts_app, IH. reflexivity.
Qed.
Lemma repeat_failures : forall sgn x n t, failures sgn [x] = t -> failures sgn (repeat x n) = times n t.
Proof.
  intros sgn x n t <-. induction n as [|n IH]; [reflexivity|]. cbn [repeat times].
  change (x :: repeat x n) with ([x] ++ repeat x n)%list. rewrite failures_app, IH. reflexivity.
Qed.
Lemma repeat_groups : forall sgn x n, List.length (flat_map (groups_of sgn) (repeat x n)) = n * List.length (groups_of sgn x).
Proof. intros sgn x n. induction n as [|n IH]; [reflexivity|]. cbn [repeat flat_map]. rewrite app_length, IH. lia. Qed.
Lemma times_single : forall (x : string) n, times n [x] = repeat x n.
Proof. intros x. induction n as [|n IH]; [reflexivity|]. cbn [times repeat app]. rewrite IH. reflexivity. Qed.
Lemma one_line_dec : forall s, existsb (Ascii.eqb newline) (list_ascii_of_string s) = false -> one_line s.
Proof.
  intros s E I. assert (existsb (Ascii.eqb newline) (list_ascii_of_string s) = true); [|congruence]. apply existsb_exists. exists newline.
  split; [exact I|apply Ascii.eqb_refl].
Qed.
Lemma kept_dec : forall sgn s, s <> "" -> forallb (fun gi => negb (String.eqb (gi_rawString gi) "")) (groups_of sgn s) = true -> can_be_kept sgn s.
Proof.
  intros sgn s N E. split; [exact N|]. intros gi I Z. rewrite forallb_forall in E. specialize (E gi I). rewrite Z in E. discriminate.
Qed.
Lemma plain_dec : plain_name "reports.txt".
Proof. exists "r"%char, "eports.txt". split; [reflexivity|]. split; [discriminate|]. intros (r & E). discriminate. Qed.
Lemma quick_args : measures ["--nogroups"; "reports.txt"].
Proof. split; cbn [In]; intuition discriminate. Qed.

(** A file of n times the same line *)
Lemma same_lines : forall x n, one_line x -> lines (text_of (repeat x n)) = repeat x n /\ line_ends (text_of (repeat x n)) = n.
Proof.
  intros x n O. assert (A : forall l, In l (repeat x n) -> one_line l) by (intros l I; apply repeat_spec in I; subst l; exact O).
  split; [exact (text_lines _ A)|]. rewrite (ends_text _ A). apply repeat_length.
Qed.
Lemma same_run : forall (sgn : bool) (sizeof : string -> N) (data : DataSet) (file : string -> option string) (x : string) (n : nat),
  one_line x -> can_be_kept sgn x -> 1 <= n -> (N.of_nat n < 1000000)%N -> file "reports.txt" = Some (text_of (repeat x n)) ->
  exists o k, performance_main sgn false (fun _ => 1%N) sizeof data file ["--nogroups"; "reports.txt"] = Ok o /\
    Uses data file ["--nogroups"; "reports.txt"] true (read_lines file_batch (repeat x n)) (N.of_nat n) k.
Proof.
  intros sgn sizeof data file x n O K P B F. destruct (same_lines x n O) as (L & E).
  pose proof (Uses_file data file ["--nogroups"; "reports.txt"] ["--nogroups"] "reports.txt" _ eq_refl plain_dec F) as U. rewrite L, E in U.
  rewrite repeat_length in U. set (k := Nat.max 1 (n / file_batch)) in U.
  destruct (main_returns sgn (fun _ => 1%N) sizeof data file _ _ _ _ _ 1%N U) as (o & X).
  - intros _ y I. assert (J : In y (repeat x n)).
    { unfold read_lines in I. destruct (Nat.ltb _ _); [exact I|]. rewrite <- (firstn_skipn (List.length (repeat x n) / file_batch * file_batch)).
      apply in_or_app. left. exact I. }
    apply repeat_spec in J. subst y. exact K.
  - lia.
  - intros i. lia.
  - assert (k <= S n). { unfold k. assert (n / file_batch <= n); [|lia]. apply Nat.div_le_upper_bound; [unfold file_batch; lia|]. unfold file_batch. nia. }
    unfold two64. lia.
  - intros N. exfalso. apply N. left. reflexivity.
  - exists o, k. split; [exact X|exact U].
Qed.

(** ** C89 *)

Lemma firstn_repeat : forall (x : string) n m, n <= m -> firstn n (repeat x m) = repeat x n.
Proof.
  intros x. induction n as [|n IH]; intros m L; [reflexivity|]. destruct m as [|m]; [lia|]. cbn [repeat firstn]. rewrite IH by lia. reflexivity.
Qed.
Lemma last_lines_lost : exists content, List.length (lines content) = S file_batch /\
  forall (sgn : bool) (sizeof : string -> N) (data : DataSet) (file : string -> option string), file "reports.txt" = Some content ->
    exists o, performance_main sgn false (fun _ => 1%N) sizeof data file ["--nogroups"; "reports.txt"] = Ok o /\
      printed (progress sgn 64001 (firstn file_batch (lines content))) (out_text o) /\
      holds_reports sgn (out_archiver o) (firstn file_batch (lines content)).
Proof.
  assert (O : one_line sample) by (apply one_line_dec; vm_compute; reflexivity).
  destruct (same_lines sample (S file_batch) O) as (L & E).
  exists (text_of (repeat sample (S file_batch))). rewrite L. split; [apply repeat_length|]. intros sgn sizeof data file F.
  assert (K : can_be_kept sgn sample) by (apply kept_dec; [discriminate|]; destruct sgn; vm_compute; reflexivity).
  assert (fb : N.of_nat file_batch = 64000%N) by (unfold file_batch; lia).
  destruct (same_run sgn sizeof data file sample (S file_batch) O K ltac:(lia) ltac:(lia) F) as (o & k & X & U).
  assert (R : read_lines file_batch (repeat sample (S file_batch)) = firstn file_batch (repeat sample (S file_batch))).
  { unfold read_lines. rewrite repeat_length. destruct (Nat.ltb (S file_batch) file_batch) eqn:Z; [apply Nat.ltb_lt in Z; lia|].
    assert (D : S file_batch / file_batch = 1) by (symmetry; apply (Nat.div_unique (S file_batch) file_batch 1 1); lia).
    rewrite D, Nat.mul_1_l. reflexivity. }
  rewrite R in U. replace (N.of_nat (S file_batch)) with 64001%N in U by lia.
  exists o. split; [exact X|]. split; [|exact (archives_filled _ _ _ _ _ _ _ _ _ _ _ U quick_args X)].
  apply (progress_printed _ _ _ _ _ _ _ _ _ _ _ U quick_args) with (3 := X).
  - rewrite firstn_repeat by lia. rewrite repeat_length. unfold two64. lia.
  - rewrite firstn_repeat by lia. rewrite repeat_groups.
    assert (G : List.length (groups_of sgn sample) = 5) by (destruct sgn; vm_compute; reflexivity). rewrite G. unfold two64. lia.
Qed.

(** ** C91 *)

Lemma blank_line : forall sgn, performance_main sgn false (fun _ => 1%N) (fun _ => 0%N) [] (fun _ => Some (heading sample ++ heading "" ++ heading sample)) ["reports.txt"] = Bad UB.
Proof. intros []; vm_compute; reflexivity. Qed.
Lemma no_line_end : forall sgn, performance_main sgn false (fun _ => 1%N) (fun _ => 0%N) [] (fun _ => Some sample) ["reports.txt"] = Bad UB.
Proof. intros []; vm_compute; reflexivity. Qed.
Lemma quick_clock : forall sgn, performance_main sgn false (fun _ => 0%N) (fun _ => 0%N) [] (fun _ => Some (heading sample)) ["reports.txt"] = Bad UB.
Proof. intros []; vm_compute; reflexivity. Qed.

(** ** C92 *)

Lemma frequency_same : forall x n fl, 1 <= n -> frequency_list (repeat x n) fl -> fl = [(N.of_nat n, x)].
Proof.
  intros x n fl P (N & I & _).
  assert (O : occurrences x (repeat x n) = n). { unfold occurrences. clear. induction n as [|n IH]; [reflexivity|]. cbn [repeat count_occ]. destruct (string_dec x x); [lia|congruence]. }
  assert (A : forall e, In e fl -> e = (N.of_nat n, x)).
  { intros [m s] J. apply I in J. destruct J as (J & ->). apply repeat_spec in J. subst s. rewrite O. reflexivity. }
  assert (B : In (N.of_nat n, x) fl). { apply I. split; [|rewrite O; reflexivity]. destruct n; [lia|]. left. reflexivity. }
  destruct fl as [|a fl]; [destruct B|]. rewrite (A a (or_introl eq_refl)) in *. destruct fl as [|b fl]; [reflexivity|].
  rewrite (A b (or_intror (or_introl eq_refl))) in *. cbn [map snd] in N. inversion N as [|? ? M _]. exfalso. apply M. left. reflexivity.
Qed.
Lemma unknown_lost : exists content, (forall sgn, unrecognised sgn (lines content) = repeat "QQQQQ" 1001) /\
  forall (sgn : bool) (sizeof : string -> N) (data : DataSet) (file : string -> option string), file "reports.txt" = Some content ->
    exists o, performance_main sgn false (fun _ => 1%N) sizeof data file ["--nogroups"; "reports.txt"] = Ok o /\
      printed (heading "Groups not recognised by the parser (by occurrence number):" ++ heading "1000: QQQQQ" ++ String newline "") (out_text o).
Proof.
  assert (O : one_line odd_sample) by (apply one_line_dec; vm_compute; reflexivity).
  destruct (same_lines odd_sample 1001 O) as (L & E).
  assert (T : forall sgn part, texts sgn 21 part (repeat odd_sample 1001) = match part with RP_METAR => repeat "QQQQQ" 1001 | _ => [] end).
  { intros sgn part. destruct part; [rewrite (repeat_texts _ _ _ _ _ []) by (destruct sgn; vm_compute; reflexivity); reflexivity
      |rewrite (repeat_texts _ _ _ _ _ []) by (destruct sgn; vm_compute; reflexivity); reflexivity
      |rewrite (repeat_texts _ _ _ _ _ ["QQQQQ"]) by (destruct sgn; vm_compute; reflexivity); apply times_single
      |rewrite (repeat_texts _ _ _ _ _ []) by (destruct sgn; vm_compute; reflexivity); reflexivity
      |rewrite (repeat_texts _ _ _ _ _ []) by (destruct sgn; vm_compute; reflexivity); reflexivity]. }
  exists (text_of (repeat odd_sample 1001)). rewrite L. split.
  { intros sgn. unfold unrecognised, all_parts. cbn [flat_map]. rewrite !T. rewrite app_nil_r. reflexivity. }
  intros sgn sizeof data file F.
  assert (K : can_be_kept sgn odd_sample) by (apply kept_dec; [discriminate|]; destruct sgn; vm_compute; reflexivity).
  destruct (same_run sgn sizeof data file odd_sample 1001 O K ltac:(lia) ltac:(lia) F) as (o & k & X & U).
  assert (R : read_lines file_batch (repeat odd_sample 1001) = repeat odd_sample 1001).
  { apply all_lines; [unfold file_batch; lia|]. left. rewrite repeat_length. unfold file_batch. lia. }
  rewrite R in U. exists o. split; [exact X|].
  destruct (main_done _ _ _ _ _ _ _ _ _ _ _ U quick_args X) as (st & a & b & h & e & u & g & z & Et & _ & _ & _ & _ & _ & _ & Du & _).
  destruct Du as (m & C & ->); [cbn [In]; intuition discriminate|].
  assert (Q : flat_map (fun part => reused true (texts sgn 21 part (repeat odd_sample 1001))) all_parts = repeat "QQQQQ" 1000).
  { unfold all_parts. cbn [flat_map]. rewrite !T. vm_compute. reflexivity. }
  rewrite Q in C. destruct (printed_list _ _ C) as (fl & Pl & Fl); [rewrite repeat_length; unfold two64; lia|].
  apply frequency_same in Fl; [|lia]. subst fl.
  exists (h ++ line_of sgn (N.of_nat 1001) (repeat odd_sample 1001) ++ endl ++ a ++ b ++ endl ++ e), (g ++ z). rewrite Et. unfold unknown_text. rewrite Pl.
  unfold heading. rewrite !app_assoc_s. reflexivity.
Qed.
Lemma errors_lost : exists content, (forall sgn, List.length (failures sgn (lines content)) = 1002) /\
  forall (sgn : bool) (sizeof : string -> N) (data : DataSet) (file : string -> option string), file "reports.txt" = Some content ->
    exists o, performance_main sgn false (fun _ => 1%N) sizeof data file ["--nogroups"; "reports.txt"] = Ok o /\
      printed (heading "Reports not recognised by the parser:" ++ heading "Reports with errors: 501" ++
               text_of (firstn 1000 (failures sgn (lines content))) ++ String newline "" ++
               heading "Groups not recognised by the parser (by occurrence number):") (out_text o).
Proof.
  assert (O : one_line "METAR") by (apply one_line_dec; vm_compute; reflexivity).
  destruct (same_lines "METAR" 501 O) as (L & E).
  assert (T : forall sgn, failures sgn (repeat "METAR" 501) = times 501 ["unexpected report end"; "METAR"]).
  { intros sgn. apply repeat_failures. destruct sgn; vm_compute; reflexivity. }
  exists (text_of (repeat "METAR" 501)). rewrite L. split.
  { intros sgn. rewrite T, times_length. reflexivity. }
  intros sgn sizeof data file F.
  assert (K : can_be_kept sgn "METAR") by (apply kept_dec; [discriminate|]; destruct sgn; vm_compute; reflexivity).
  destruct (same_run sgn sizeof data file "METAR" 501 O K ltac:(lia) ltac:(lia) F) as (o & k & X & U).
  assert (R : read_lines file_batch (repeat "METAR" 501) = repeat "METAR" 501).
  { apply all_lines; [unfold file_batch; lia|]. left. rewrite repeat_length. unfold file_batch. lia. }
  rewrite R in U. exists o. split; [exact X|].
  destruct (main_done _ _ _ _ _ _ _ _ _ _ _ U quick_args X) as (st & a & b & h & e & u & g & z & Et & _ & _ & _ & _ & _ & De & Du & _).
  destruct Du as (m & C & ->); [cbn [In]; intuition discriminate|]. rewrite De in Et by (cbn [In]; intuition discriminate).
  assert (Q : error_text true (failures sgn (repeat "METAR" 501)) = heading "Reports with errors: 501" ++ text_of (firstn 1000 (failures sgn (repeat "METAR" 501)))).
  { rewrite T. vm_compute. reflexivity. }
  rewrite Q in Et. unfold unknown_text in Et.
  exists (h ++ line_of sgn (N.of_nat 501) (repeat "METAR" 501) ++ endl ++ a ++ b ++ endl), ((printDescending m ++ endl) ++ g ++ z). rewrite Et.
  unfold heading. rewrite !app_assoc_s. reflexivity.
Qed.

(** ** C93 *)

Lemma weather_untested : exists data, forall sgn, texts sgn 7 RP_METAR (reports_of data) = ["-RA"] /\
  forall (sizeof : string -> N) (file : string -> option string),
    exists o, performance_main sgn false (fun _ => 1%N) sizeof data file [] = Ok o /\
      printed (heading "No performance stats exist for WeatherGroup.") (out_text o).
Proof.
  set (data := [("METAR ZZZZ 010000Z 24005KT 9999 -RA", "")]). exists data. intros sgn. split; [destruct sgn; vm_compute; reflexivity|]. intros sizeof file.
  pose proof (Uses_collection data file [] (or_introl eq_refl)) as U.
  destruct (main_returns sgn (fun _ => 1%N) sizeof data file _ _ _ _ _ 1%N U) as (o & X).
  - discriminate.
  - discriminate.
  - intros i. lia.
  - vm_compute. reflexivity.
  - intros _ kind _. unfold number_steps, all_parts. cbn [map steps]. vm_compute. reflexivity.
  - exists o. split; [exact X|]. apply (weather_missing _ _ _ _ _ _ _ _ _ _ _ U) with (3 := X); [split; intros []|intros []].
Qed.

(** ** Examples *)

Lemma example_run : exists o, performance_main true false (fun i => N.of_nat (7 + i)) (fun _ => 8%N) [] (fun _ => Some example_file) ["reports.txt"] = Ok o /\
  Uses [] (fun _ => Some example_file) ["reports.txt"] true [odd_sample; "METAR"; "TAF ZZZZ 010000Z 0100/0106 24005KT 9999"] 3 1 /\
  measures ["reports.txt"] /\ unrecognised true [odd_sample; "METAR"; "TAF ZZZZ 010000Z 0100/0106 24005KT 9999"] = ["QQQQQ"] /\
  failures true [odd_sample; "METAR"; "TAF ZZZZ 010000Z 0100/0106 24005KT 9999"] = ["unexpected report end"; "METAR"] /\
  out_text o <> "".
Proof.
  pose proof (Uses_file [] (fun _ => Some example_file) ["reports.txt"] [] "reports.txt" example_file eq_refl plain_dec eq_refl) as U.
  set (reports := [odd_sample; "METAR"; "TAF ZZZZ 010000Z 0100/0106 24005KT 9999"]) in *.
  assert (L : lines example_file = reports) by (vm_compute; reflexivity). rewrite L in U.
  assert (R : read_lines file_batch reports = reports) by (apply all_lines; [unfold file_batch; lia|]; left; unfold file_batch; cbn [List.length reports]; lia).
  rewrite R in U. assert (K : Nat.max 1 (List.length reports / file_batch) = 1).
  { rewrite Nat.div_small; [reflexivity|]. cbn [List.length reports]. unfold file_batch. lia. }
  rewrite K in U. assert (E : line_ends example_file = 3) by (vm_compute; reflexivity). rewrite E in U.
  eexists. split; [vm_compute; reflexivity|]. split; [exact U|]. split; [split; cbn [In]; intuition discriminate|].
  split; [vm_compute; reflexivity|]. split; [vm_compute; reflexivity|]. discriminate.
Qed.
Lemma example_collection : exists o, performance_main true false (fun _ => 7%N) (fun _ => 8%N) example_data (fun _ => None) [] = Ok o /\
  Uses example_data (fun _ => None) [] false (times 300 (reports_of example_data)) 1200 300 /\ measures [] /\
  unrecognised true (reports_of example_data) = ["QQQQQ"; "QQQQQ"; "AAAAA"].
Proof.
  pose proof (Uses_collection example_data (fun _ => None) [] (or_introl eq_refl)) as U.
  destruct (main_returns true (fun _ => 7%N) (fun _ => 8%N) example_data (fun _ => None) _ _ _ _ _ 7%N U) as (o & X).
  - discriminate.
  - discriminate.
  - intros i. lia.
  - vm_compute. reflexivity.
  - intros _ kind _. unfold number_steps, all_parts. cbn [map steps]. vm_compute. reflexivity.
  - exists o. split; [exact X|]. split; [exact U|]. split; [split; intros []|]. vm_compute. reflexivity.
Qed.
Lemma missing_file : forall (sgn : bool) (clock : nat -> N) (sizeof : string -> N) (data : DataSet) (file : string -> option string) (args : list string) (name : string),
  Input args (Some name) -> measures args -> file name = None -> performance_main sgn false clock sizeof data file args = Bad Throw.
Proof.
  intros sgn clock sizeof data file args name I (Nh & Ne) F. unfold performance_main. rewrite (input_params _ _ I). cbn [bind]. cbv zeta.
  change (help (params_of args (Some name))) with (option_given "--help" args). rewrite (not_given _ _ Nh).
  change (exportInternalTestData (params_of args (Some name))) with (option_given "--expint" args). rewrite (not_given _ _ Ne).
  unfold main_parser. cbn [inputFromInternalTestData inputFile params_of]. rewrite F. reflexivity.
Qed.
Lemma last_argument : forall args, (exists input, Input args input) \/ (exists opts, args = (opts ++ [""])%list) \/
  (exists opts c r, args = (opts ++ [String c (String "-" r)])%list /\ c <> "-"%char).
Proof.
  intros args. destruct args as [|a0 args0]; [left; exists None; apply Input_collection; left; reflexivity|].
  destruct (@exists_last _ (a0 :: args0) ltac:(discriminate)) as (opts & x & E). rewrite E. clear E.
  destruct x as [|c r]; [right; left; exists opts; reflexivity|].
  destruct (ascii_dec c "-") as [-> |N].
  - left. exists None. apply Input_collection. right. exists opts, (String "-" r). split; [reflexivity|exists r; reflexivity].
  - destruct r as [|d r].
    + left. exists (Some (String c "")). apply (Input_file _ opts); [reflexivity|]. exists c, "". split; [reflexivity|]. split; [exact N|]. intros (q & Q). discriminate.
    + destruct (ascii_dec d "-") as [-> |M].
      * right. right. exists opts, c, r. split; [reflexivity|exact N].
      * left. exists (Some (String c (String d r))). apply (Input_file _ opts); [reflexivity|]. exists c, (String d r). split; [reflexivity|].
        split; [exact N|]. intros (q & Q). congruence.
Qed.
Lemma nostats_ignored : forall (sgn wasm : bool) (clock : nat -> N) (sizeof : string -> N) (data : DataSet) (file : string -> option string) (a b : list string),
  b <> [] ->
  performance_main sgn wasm clock sizeof data file (a ++ "--nostats" :: b) = performance_main sgn wasm clock sizeof data file (a ++ b).
Proof. intros. apply argument_ignored; [unfold option_names; cbn [In]; intuition discriminate|assumption]. Qed.
Lemma example_options : exists o, performance_main true false (fun i => N.of_nat (7 + i)) (fun _ => 8%N) [] (fun _ => Some example_file) ["reports.txt"] = Ok o /\
  Input ["reports.txt"] (Some "reports.txt") /\ (forall name, In name option_names -> ~ In name ["reports.txt"]) /\
  Input ["--nounkn"; "--nogroups"; "reports.txt"] (Some "reports.txt") /\ measures ["--nounkn"; "--nogroups"; "reports.txt"].
Proof.
  destruct example_run as (o & X & _). exists o. split; [exact X|]. split; [exact (Input_file _ [] _ eq_refl plain_dec)|].
  split; [intros name I; unfold option_names in I; cbn [In] in *; intuition (subst; discriminate)|].
  split; [exact (Input_file _ ["--nounkn"; "--nogroups"] _ eq_refl plain_dec)|]. split; cbn [In]; intuition discriminate.
Qed.
Lemma example_export : Input ["--expint"] None /\ ~ In "--help" ["--expint"] /\ (forall d, In d example_data -> one_line (fst d) /\ one_line (snd d)) /\
  List.length (reports_of example_data) = 4.
Proof.
  split; [apply Input_collection; right; exists [], "--expint"; split; [reflexivity|eexists; reflexivity]|].
  split; [cbn [In]; intuition discriminate|]. split; [|vm_compute; reflexivity].
  intros d I. unfold example_data in I. cbn [In] in I. repeat (destruct I as [<- |I]; [split; apply one_line_dec; vm_compute; reflexivity|]). destruct I.
Qed.
