(** The test of single groups by the performance program, for C91 and C93. *)
From Coq Require Import List String Ascii NArith Bool Arith Lia.
From Verif Require Import Prim Lib Groups1 Parser Format Pf_Ok Pf_Total SpecReach Pf_ExTable.
From Verif Require Import Performance SpecPerformance Pf_PerfBatch Pf_PerfArchive Pf_PerfTest.
Import ListNotations.
Local Open Scope string_scope.

(** ** Splitting and parsing again *)

Lemma upto_shorter : forall d s a b, upto d s = (a, b) -> s <> "" -> slen b < slen s.
Proof.
  intros d. induction s as [|c s IH]; intros a b E N; [congruence|]. cbn [upto] in E. unfold slen in *. cbn [String.length].
  destruct (Ascii.eqb c d); [injection E as <- <-; lia|]. destruct (upto d s) as [a0 b0] eqn:U. injection E as <- <-.
  destruct s as [|c' s']; [cbn [upto] in U; injection U as <- <-; cbn [String.length]; lia|].
  specialize (IH a0 b0 eq_refl ltac:(discriminate)). lia.
Qed.
Lemma split_returns : forall fuel s, slen s < fuel -> exists l, splitLoop fuel s = Ok l /\ (s <> "" -> l <> []).
Proof.
  induction fuel as [|fuel IH]; intros s L; [lia|]. cbn [splitLoop]. destruct s as [|c s].
  - exists []. split; [reflexivity|congruence].
  - unfold getline. destruct (upto " " (String c s)) as [a b] eqn:U. pose proof (upto_shorter _ _ _ _ U ltac:(discriminate)) as M.
    destruct (IH b ltac:(lia)) as (l & E & _). rewrite E. cbn [bind]. exists (a :: l). split; [reflexivity|discriminate].
Qed.
Lemma prepared : forall src, exists batch, prepareBatch src = Ok batch /\ List.length batch = filled src /\ (forall g, In g batch -> g <> []).
Proof.
  induction src as [|a src (batch & E & L & N)]; cbn [prepareBatch].
  - exists []. repeat split. intros g [].
  - destruct a as [|c a].
    + cbn [slen String.length bind]. rewrite E. cbn [bind]. exists batch. repeat split; assumption.
    + unfold splitToGroups. destruct (split_returns (S (slen (String c a))) (String c a) ltac:(lia)) as (l & Sp & M).
      change (slen (String c a)) with (S (slen a)) at 1. cbn iota. rewrite Sp. cbn [bind]. rewrite E. cbn [bind].
      exists (l :: batch). split; [reflexivity|]. split.
      * unfold filled in *. cbn [filter String.eqb negb List.length]. rewrite L. reflexivity.
      * intros g [<- |I]; [apply M; discriminate|exact (N g I)].
Qed.
Lemma appended : forall rest g part md, Reachable g -> exists g', append_groups g rest part md = Ok g'.
Proof.
  induction rest as [|s rest IH]; intros g part md R; cbn [append_groups]; [eexists; reflexivity|].
  destruct (ok_elim _ _ _ (ok_Group_append_reach g s part md R)) as ([g' a] & E & R'). rewrite E. cbn [bind]. exact (IH g' part md R').
Qed.
Lemma groups_parsed : forall batch part md, (forall g, In g batch -> g <> []) -> parse_groups batch part md = Ok tt.
Proof.
  induction batch as [|[|s rest] batch IH]; intros part md N; cbn [parse_groups]; [reflexivity|exfalso; exact (N [] (or_introl eq_refl) eq_refl)|].
  destruct (ok_elim _ _ _ (ok_GroupParser_parse s part md)) as (g & E & R). rewrite E. cbn [bind].
  destruct (appended rest g part md R) as (g' & E'). rewrite E'. cbn [bind]. apply IH. intros x I. apply N. right. exact I.
Qed.

(** ** Loops *)

Lemma filled_app : forall a b, filled (a ++ b) = filled a + filled b.
Proof. intros a b. unfold filled. rewrite filter_app, app_length. reflexivity. Qed.
Lemma range_app : forall clock a n m, sum_range clock a (n + m) = (sum_range clock a n + sum_range clock (a + n) m)%N.
Proof.
  intros clock a n. revert a. induction n as [|n IH]; intros a m; cbn [Nat.add sum_range]; [rewrite Nat.add_0_r; reflexivity|].
  rewrite IH, Nat.add_succ_r. rewrite N.add_assoc. reflexivity.
Qed.

(** From [r] to [r'], [n] steps have tested [items] groups of the name *)
Record Went (clock : nat -> N) (name : string) (n : nat) (items : nat) (r r' : Run) : Prop := mkWent
  { w_archiver : archiver r' = archiver r;
    w_measured : measured r' = measured r + n;
    w_entry : forall k us it, entry (stats r) name k us it -> (k = 0 -> us = 0%N /\ it = 0%N) ->
      entry (stats r') name (k + n) (us + sum_range clock (measured r) n) (it + N.of_nat items);
    w_other : forall other, other <> name -> stats_at other (stats r') = stats_at other (stats r);
    w_cout : exists t, cout r' = cout r ++ t;
    w_none : n = 0 -> items = 0 }.
Lemma went_refl : forall clock name r, Went clock name 0 0 r r.
Proof.
  intros. constructor; try reflexivity; [lia| |exists ""; rewrite app_empty_r; reflexivity].
  intros k us it E Z. rewrite Nat.add_0_r. cbn [sum_range N.of_nat]. rewrite !N.add_0_r. exact E.
Qed.
Lemma went_trans : forall clock name n m i j r s t, Went clock name n i r s -> Went clock name m j s t -> Went clock name (n + m) (i + j) r t.
Proof.
  intros clock name n m i j r s t A B. constructor.
  - rewrite (w_archiver _ _ _ _ _ _ B). exact (w_archiver _ _ _ _ _ _ A).
  - rewrite (w_measured _ _ _ _ _ _ B), (w_measured _ _ _ _ _ _ A). lia.
  - intros k us it E Z. pose proof (w_entry _ _ _ _ _ _ A k us it E Z) as E1.
    assert (Z1 : k + n = 0 -> (us + sum_range clock (measured r) n)%N = 0%N /\ (it + N.of_nat i)%N = 0%N).
    { intros K. destruct (Z ltac:(lia)) as [-> ->]. assert (n = 0) as N0 by lia. rewrite (w_none _ _ _ _ _ _ A N0), N0. split; reflexivity. }
    pose proof (w_entry _ _ _ _ _ _ B _ _ _ E1 Z1) as E2. rewrite <- Nat.add_assoc in E2.
    eapply entry_same; [exact E2| |].
    + rewrite range_app, (w_measured _ _ _ _ _ _ A), N.add_assoc. reflexivity.
    + f_equal. lia.
  - intros other N. rewrite (w_other _ _ _ _ _ _ B other N). exact (w_other _ _ _ _ _ _ A other N).
  - destruct (w_cout _ _ _ _ _ _ A) as (a & Ca). destruct (w_cout _ _ _ _ _ _ B) as (b & Cb). exists (a ++ b). rewrite Cb, Ca, app_assoc_s. reflexivity.
  - intros Z. rewrite (w_none _ _ _ _ _ _ A ltac:(lia)), (w_none _ _ _ _ _ _ B ltac:(lia)). reflexivity.
Qed.

Lemma group_batch : forall clock index part l r,
  exists r', test_group_batch clock index part l r = Ok r' /\ Went clock (groupName index) 1 (filled l) r r' /\ cout r' = cout r.
Proof.
  intros clock index part l r. unfold test_group_batch. destruct (prepared l) as (batch & E & L & N). rewrite E. cbn [bind].
  rewrite (groups_parsed _ part (makeDummyMetadata part) N). cbn [bind]. eexists. split; [reflexivity|]. split; [|reflexivity].
  constructor; cbn [archiver measured stats cout].
  - reflexivity.
  - lia.
  - intros k us it En Z. rewrite Nat.add_1_r. rewrite L. eapply entry_same; [apply entry_step; [exact En|exact Z]| |reflexivity].
    cbn [sum_range]. rewrite N.add_0_r. apply u64_add_r.
  - intros other O. rewrite stats_added. apply not_eq_sym in O. apply String.eqb_neq in O. rewrite O. reflexivity.
  - exists "". rewrite app_empty_r. reflexivity.
  - discriminate.
Qed.
Lemma group_batches : forall clock index part bs r,
  exists r', foldM (test_group_batch clock index part) bs r = Ok r' /\ Went clock (groupName index) (List.length bs) (filled (concat bs)) r r'.
Proof.
  intros clock index part. induction bs as [|b bs IH]; intros r; cbn [foldM].
  - exists r. split; [reflexivity|apply went_refl].
  - destruct (group_batch clock index part b r) as (r1 & E & W & _). rewrite E. cbn [bind]. destruct (IH r1) as (r2 & E2 & W2).
    exists r2. split; [exact E2|]. cbn [List.length concat]. rewrite filled_app. exact (went_trans _ _ _ _ _ _ _ _ _ W W2).
Qed.

(** The records of an archive, used again *)
Lemma source_archive : forall files a l, in_files files a -> holds a l ->
  exists bs, source (getBatchProcess a 1000) (reused files l) bs /\ List.length bs = steps files l.
Proof.
  intros files a l F H. destruct a as [st|f n]; cbn [in_files holds] in *.
  - subst. exists [l]. split; [apply source_memory|reflexivity].
  - subst files. destruct H as (_ & <- & _). cbn [getBatchProcess reused steps]. apply source_file. lia.
Qed.
Lemma source_group : forall files ar E T kind part, Holds files ar E T -> kind < 22 ->
  exists src bs, getBatchGroup ar kind part = Ok src /\ source src (reused files (T kind part)) bs /\ List.length bs = steps files (T kind part).
Proof.
  intros files ar E T kind part H K. destruct (h_groups _ _ _ _ H kind part K) as (a & A & Ha).
  assert (F : in_files files a).
  { pose proof (h_gfile _ _ _ _ H) as G. rewrite Forall_forall in G. apply G. unfold archive_of in A. exact (nth_error_In _ _ A). }
  destruct (source_archive _ _ _ F Ha) as (bs & S & L). exists (getBatchProcess a 1000), bs. split; [|split; assumption].
  unfold getBatchGroup, array_at, groupIndex, reportPartSize. unfold archive_of in A. unfold reportPartIndex. rewrite A. reflexivity.
Qed.

Lemma part_tested : forall clock files E T kind part r, Holds files (archiver r) E T -> kind < 21 ->
  exists r', testGroupReportPart clock kind part r = Ok r' /\
    Went clock (groupName kind) (steps files (T kind part)) (filled (reused files (T kind part))) r r'.
Proof.
  intros clock files E T kind part r H K. unfold testGroupReportPart. rewrite (proj2 (Nat.eqb_neq kind 21)) by lia.
  destruct (source_group _ _ _ _ kind part H ltac:(lia)) as (src & bs & -> & (C & _ & S) & L). cbn [bind]. rewrite S.
  destruct (group_batches clock kind part bs r) as (r' & X & W). exists r'. split; [exact X|]. rewrite <- L, <- C. exact W.
Qed.
Lemma kind_tested : forall clock files E T kind r, Holds files (archiver r) E T -> kind < 21 ->
  exists r', testGroupType clock kind r = Ok r' /\
    Went clock (groupName kind) (sum (map (fun part => steps files (T kind part)) all_parts))
      (sum (map (fun part => filled (reused files (T kind part))) all_parts)) r r'.
Proof.
  intros clock files E T kind r H K. unfold testGroupType.
  set (r0 := mkRun (cout r ++ "Testing " ++ groupName kind ++ endl) (stats r) (archiver r) (reportCount r) (groupCount r) (measured r)).
  assert (W0 : Went clock (groupName kind) 0 0 r r0).
  { constructor; cbn [r0 archiver measured stats cout]; try reflexivity; [lia| |eexists; reflexivity].
    intros k us it En Z. rewrite Nat.add_0_r. cbn [sum_range N.of_nat]. rewrite !N.add_0_r. exact En. }
  destruct (part_tested clock files E T kind RP_UNKNOWN r0 H K) as (r1 & E1 & W1). rewrite E1. cbn [bind].
  assert (H1 : Holds files (archiver r1) E T) by (rewrite (w_archiver _ _ _ _ _ _ W1); exact H).
  destruct (part_tested clock files E T kind RP_HEADER r1 H1 K) as (r2 & E2 & W2). rewrite E2. cbn [bind].
  assert (H2 : Holds files (archiver r2) E T) by (rewrite (w_archiver _ _ _ _ _ _ W2); exact H1).
  destruct (part_tested clock files E T kind RP_METAR r2 H2 K) as (r3 & E3 & W3). rewrite E3. cbn [bind].
  assert (H3 : Holds files (archiver r3) E T) by (rewrite (w_archiver _ _ _ _ _ _ W3); exact H2).
  destruct (part_tested clock files E T kind RP_TAF r3 H3 K) as (r4 & E4 & W4). rewrite E4. cbn [bind].
  assert (H4 : Holds files (archiver r4) E T) by (rewrite (w_archiver _ _ _ _ _ _ W4); exact H3).
  destruct (part_tested clock files E T kind RP_RMK r4 H4 K) as (r5 & E5 & W5). exists r5. split; [exact E5|].
  pose proof (went_trans _ _ _ _ _ _ _ _ _ W4 W5) as A. pose proof (went_trans _ _ _ _ _ _ _ _ _ W3 A) as B.
  pose proof (went_trans _ _ _ _ _ _ _ _ _ W2 B) as C. pose proof (went_trans _ _ _ _ _ _ _ _ _ W1 C) as D.
  pose proof (went_trans _ _ _ _ _ _ _ _ _ W0 D) as F. cbn [all_parts map sum fold_right]. rewrite !Nat.add_0_r. exact F.
Qed.

Lemma names_differ : forall i j, i < 22 -> j < 22 -> groupName i = groupName j -> i = j.
Proof.
  assert (T : forallb (fun i => forallb (fun j => implb (String.eqb (groupName i) (groupName j)) (Nat.eqb i j)) (seq 0 22)) (seq 0 22) = true)
    by (vm_compute; reflexivity).
  intros i j I J E. rewrite forallb_forall in T. specialize (T i ltac:(apply in_seq; lia)). rewrite forallb_forall in T.
  specialize (T j ltac:(apply in_seq; lia)). rewrite E, String.eqb_refl in T. cbn [implb] in T. apply Nat.eqb_eq. exact T.
Qed.

Lemma kinds_tested : forall clock files E T ks r, Holds files (archiver r) E T -> NoDup ks -> (forall k, In k ks -> k < 21) ->
  exists r', test_kinds clock ks r = Ok r' /\ archiver r' = archiver r /\ (exists t, cout r' = cout r ++ t) /\
    (forall pre k post, ks = (pre ++ k :: post)%list -> stats_at (groupName k) (stats r) = None ->
       entry (stats r') (groupName k) (sum (map (fun part => steps files (T k part)) all_parts))
         (sum_range clock (measured r + sum (map (fun j => sum (map (fun part => steps files (T j part)) all_parts)) pre))
            (sum (map (fun part => steps files (T k part)) all_parts)))
         (N.of_nat (sum (map (fun part => filled (reused files (T k part))) all_parts)))) /\
    (forall name, (forall k, In k ks -> name <> groupName k) -> stats_at name (stats r') = stats_at name (stats r)).
Proof.
  intros clock files E T. induction ks as [|k ks IH]; intros r H D L; cbn [test_kinds].
  - exists r. split; [reflexivity|]. split; [reflexivity|]. split; [exists ""; rewrite app_empty_r; reflexivity|]. split; [intros [|? ?] k post X; discriminate|reflexivity].
  - inversion D as [|x y N D']; subst.
    destruct (kind_tested clock files E T k r H (L k (or_introl eq_refl))) as (r1 & E1 & W). rewrite E1. cbn [bind].
    assert (H1 : Holds files (archiver r1) E T) by (rewrite (w_archiver _ _ _ _ _ _ W); exact H).
    destruct (IH r1 H1 D' (fun j I => L j (or_intror I))) as (r2 & E2 & A2 & (t2 & C2) & K2 & O2).
    exists r2. split; [exact E2|]. split; [rewrite A2; exact (w_archiver _ _ _ _ _ _ W)|].
    destruct (w_cout _ _ _ _ _ _ W) as (t1 & C1). split; [exists (t1 ++ t2); rewrite C2, C1, app_assoc_s; reflexivity|].
    assert (Q : forall j, In j ks -> groupName k <> groupName j).
    { intros j J X. apply N. apply names_differ in X; [subst; exact J| |]; [specialize (L k (or_introl eq_refl)); lia|specialize (L j (or_intror J)); lia]. }
    split.
    + intros pre j post X Z. destruct pre as [|i pre].
      * cbn [app] in X. assert (Ej : k = j) by congruence. subst j. cbn [map sum fold_right]. rewrite Nat.add_0_r.
        unfold entry. rewrite (O2 (groupName k) Q). apply (w_entry _ _ _ _ _ _ W 0 0%N 0%N Z). auto.
      * cbn [app] in X. assert (Ei : k = i) by congruence. assert (Ep : ks = (pre ++ j :: post)%list) by congruence. subst i.
        assert (J : In j ks) by (rewrite Ep; apply in_elt).
        cbn [map sum fold_right]. rewrite Nat.add_assoc, <- (w_measured _ _ _ _ _ _ W). apply (K2 pre j post Ep).
        rewrite (w_other _ _ _ _ _ _ W); [exact Z|]. intros Y. exact (Q j J (eq_sym Y)).
    + intros name M. rewrite (O2 name (fun j J => M j (or_intror J))). apply (w_other _ _ _ _ _ _ W). exact (M k (or_introl eq_refl)).
Qed.
