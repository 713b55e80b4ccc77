(** What the tester of the performance program counts and keeps, for C89 to C96. *)
From Coq Require Import List String Ascii NArith Bool Arith Lia.
From Verif Require Import Prim Lib Groups1 Parser Format Pf_ExTable.
From Verif Require Import Performance SpecPerformance Pf_PerfBatch Pf_PerfArchive.
Import ListNotations.
Local Open Scope string_scope.

(** ** Counters *)

Lemma u64_add : forall a b, u64 (u64 a + b) = u64 (a + b).
Proof. intros a b. unfold u64. apply N.add_mod_idemp_l. discriminate. Qed.
Lemma u64_add_r : forall a b, u64 (a + u64 b) = u64 (a + b).
Proof. intros a b. unfold u64. apply N.add_mod_idemp_r. discriminate. Qed.
Lemma u64_u64 : forall a, u64 (u64 a) = u64 a.
Proof. intros a. unfold u64. apply N.mod_mod. discriminate. Qed.
Lemma u64_small : forall a, (a < two64)%N -> u64 a = a.
Proof. intros a L. unfold u64. apply N.mod_small. exact L. Qed.

Lemma stats_added : forall name m i st n,
  stats_at n (PerformanceStats_add name m i st) =
  if String.eqb name n
  then Some (match stats_at name st with Some (a, b) => (u64 (a + m), u64 (b + i)) | None => (u64 m, u64 i) end)
  else stats_at n st.
Proof.
  intros name m i. induction st as [|[k [a b]] st IH]; intros n; cbn [PerformanceStats_add stats_at].
  - destruct (String.eqb name n); reflexivity.
  - destruct (String.eqb k name) eqn:K.
    + apply String.eqb_eq in K. subst k. cbn [stats_at]. destruct (String.eqb name n); reflexivity.
    + cbn [stats_at]. rewrite IH. destruct (String.eqb name n) eqn:E; [|destruct (String.eqb k n); reflexivity].
      apply String.eqb_eq in E. subst n. rewrite K. reflexivity.
Qed.
(** The entry for [name] after [k] measurements *)
Definition entry (st : PerformanceStats) (name : string) (k : nat) (microsec items : N) : Prop :=
  stats_at name st = match k with 0 => None | _ => Some (u64 microsec, u64 items) end.
Lemma entry_step : forall st name k us n us' n', entry st name k us n -> (k = 0 -> us = 0%N /\ n = 0%N) ->
  entry (PerformanceStats_add name us' n' st) name (S k) (us + us') (n + n').
Proof.
  intros st name k us n us' n' E Z. unfold entry in *. rewrite stats_added, String.eqb_refl, E. destruct k.
  - destruct (Z eq_refl) as [-> ->]. reflexivity.
  - rewrite !u64_add. reflexivity.
Qed.
Lemma entry_other : forall st name name' k us n us' n', entry st name k us n -> name' <> name ->
  entry (PerformanceStats_add name' us' n' st) name k us n.
Proof.
  intros st name name' k us n us' n' E N. unfold entry in *. rewrite stats_added. apply String.eqb_neq in N. rewrite N. exact E.
Qed.
Lemma entry_same : forall st name k us n us' n', entry st name k us n -> u64 us = u64 us' -> u64 n = u64 n' -> entry st name k us' n'.
Proof. intros st name k us n us' n' E A B. unfold entry in *. rewrite E. destruct k; [reflexivity|]. rewrite A, B. reflexivity. Qed.

Definition size_of (l : list string) : N := N.of_nat (List.length l).
Definition groups_in (sgn : bool) (l : list string) : N := N.of_nat (List.length (flat_map (groups_of sgn) l)).
Lemma size_app : forall a b, size_of (a ++ b) = (size_of a + size_of b)%N.
Proof. intros a b. unfold size_of. rewrite app_length. lia. Qed.
Lemma groups_in_app : forall sgn a b, groups_in sgn (a ++ b) = (groups_in sgn a + groups_in sgn b)%N.
Proof. intros sgn a b. unfold groups_in. rewrite flat_map_app, app_length. lia. Qed.

Lemma parsed_length : forall sgn batch ps, Forall2 (result_of sgn) batch ps -> List.length ps = List.length batch.
Proof. intros sgn batch ps F. induction F; [reflexivity|]. cbn [List.length]. congruence. Qed.
Lemma groups_counted : forall sgn batch ps, Forall2 (result_of sgn) batch ps -> countGroups ps = u64 (groups_in sgn batch).
Proof.
  intros sgn batch ps F. unfold countGroups.
  assert (G : forall c, fold_left (fun count r => u64 (count + N.of_nat (List.length (pr_groups r)))) ps (u64 c) = u64 (c + groups_in sgn batch)).
  { induction F as [|report p batch ps P F IH]; intros c; cbn [fold_left].
    - unfold groups_in. cbn [flat_map List.length]. rewrite N.add_0_r. reflexivity.
    - rewrite u64_add, IH. f_equal. change (report :: batch) with ([report] ++ batch)%list. rewrite groups_in_app.
      unfold groups_in at 2. cbn [flat_map]. rewrite app_nil_r.
      assert (E : groups_of sgn report = pr_groups p) by (unfold groups_of; unfold result_of in P; rewrite P; reflexivity).
      rewrite E. lia. }
  exact (G 0%N).
Qed.

(** ** The loop over the batches *)

Record Inv (sgn files : bool) (clock : nat -> N) (h : list string) (k : nat) (r : Run) : Prop := mkInv
  { i_reports : reportCount r = u64 (size_of h);
    i_groups : groupCount r = u64 (groups_in sgn h);
    i_measured : measured r = k;
    i_report : entry (stats r) "report" k (sum_clock clock k) (size_of h);
    i_group : entry (stats r) "group" k (sum_clock clock k) (groups_in sgn h);
    i_other : forall name, name <> "report" -> name <> "group" -> stats_at name (stats r) = None;
    i_first : k = 0 -> h = [];
    i_archives : Holds files (archiver r) (failures sgn h) (fun kind part => texts sgn kind part h) }.

Definition line_of (sgn : bool) (total : N) (h : list string) : string :=
  "Processed " ++ dec_N (u64 (size_of h)) ++ " reports of " ++ dec_N total ++ " (" ++ dec_N (u64 (u64 (size_of h) * 100) / total) ++
  "%)" ++ ", " ++ dec_N (u64 (groups_in sgn h)) ++ " groups parsed" ++ endl.

Lemma batch_step : forall sgn files clock total batch h k r r', Inv sgn files clock h k r ->
  (files = true -> forall x, In x batch -> one_line x) ->
  test_batch sgn true true clock total batch r = Ok r' ->
  Inv sgn files clock (h ++ batch) (S k) r' /\ cout r' = cout r ++ line_of sgn total (h ++ batch) /\ total <> 0%N.
Proof.
  intros sgn files clock total batch h k r r' I O X. unfold test_batch in X.
  destruct (batch_parsed sgn batch) as (ps & P & F). rewrite P in X. cbn [bind] in X.
  destruct (toArchives ps batch (archiver r)) as [ar|] eqn:A; [|discriminate]. cbn [bind] in X.
  unfold udiv in X. destruct (total =? 0)%N eqn:Z; [discriminate|]. cbn [bind] in X. apply ok_same in X. subst r'.
  rewrite (groups_counted _ _ _ F), (parsed_length _ _ _ F). fold (size_of batch).
  rewrite (i_reports _ _ _ _ _ _ I), (i_groups _ _ _ _ _ _ I), (i_measured _ _ _ _ _ _ I), u64_add_r, !u64_add, <- size_app, <- groups_in_app.
  split; [|split; [reflexivity|apply N.eqb_neq; exact Z]].
  assert (Z0 : k = 0 -> sum_clock clock k = 0%N /\ size_of h = 0%N /\ groups_in sgn h = 0%N).
  { intros E. rewrite (i_first _ _ _ _ _ _ I E), E. repeat split. }
  constructor; cbn [reportCount groupCount measured stats archiver].
  - reflexivity.
  - reflexivity.
  - reflexivity.
  - apply entry_other; [|discriminate]. eapply entry_same; [apply entry_step; [exact (i_report _ _ _ _ _ _ I)|]| |].
    + intros E. destruct (Z0 E) as (a & b & c). auto.
    + cbn [sum_clock]. apply u64_add_r.
    + rewrite size_app. reflexivity.
  - eapply entry_same; [apply entry_step; [apply entry_other; [exact (i_group _ _ _ _ _ _ I)|discriminate]|]| |].
    + intros E. destruct (Z0 E) as (a & b & c). auto.
    + cbn [sum_clock]. apply u64_add_r.
    + rewrite u64_add_r, groups_in_app. reflexivity.
  - intros name N1 N2. rewrite !stats_added. apply not_eq_sym in N1. apply not_eq_sym in N2.
    apply String.eqb_neq in N1. apply String.eqb_neq in N2. rewrite N1, N2. apply (i_other _ _ _ _ _ _ I).
    + intros ->. discriminate.
    + intros ->. discriminate.
  - discriminate.
  - rewrite failures_app. eapply Holds_ext; [|exact (archives_hold _ _ _ _ _ _ _ _ F (i_archives _ _ _ _ _ _ I) O A)].
    intros kind part. unfold added. symmetry. apply texts_app.
Qed.

Lemma batches_step : forall sgn files clock total bs h k r r', Inv sgn files clock h k r ->
  (files = true -> forall x, In x (concat bs) -> one_line x) ->
  foldM (test_batch sgn true true clock total) bs r = Ok r' ->
  Inv sgn files clock (h ++ concat bs) (k + List.length bs) r' /\
  exists t, cout r' = cout r ++ t /\ (bs <> [] -> exists t', t = t' ++ line_of sgn total (h ++ concat bs)).
Proof.
  intros sgn files clock total. induction bs as [|b bs IH]; intros h k r r' I O X; cbn [foldM] in X.
  - apply ok_same in X. subst r'. cbn [concat List.length]. rewrite app_nil_r, Nat.add_0_r. split; [exact I|].
    exists "". split; [rewrite app_empty_r; reflexivity|]. intros []. reflexivity.
  - destruct (test_batch sgn true true clock total b r) as [r1|] eqn:B; [|discriminate]. cbn [bind] in X.
    cbn [concat] in O. destruct (batch_step _ _ _ _ _ _ _ _ _ I (fun f x J => O f x (in_or_app _ _ _ (or_introl J))) B) as (I1 & C1 & _).
    destruct (IH _ _ _ _ I1 (fun f x J => O f x (in_or_app _ _ _ (or_intror J))) X) as (I2 & t & C2 & L).
    cbn [concat List.length]. rewrite app_assoc. rewrite Nat.add_succ_r. split; [exact I2|].
    exists (line_of sgn total (h ++ b) ++ t). split; [rewrite C2, C1, app_assoc_s; reflexivity|]. intros _. destruct bs as [|b' bs].
    + cbn [foldM] in X. apply ok_same in X. subst r'. exists "". cbn [concat]. rewrite app_nil_r.
      assert (t = "") as ->.
      { clear - C2. induction (cout r1) as [|c s IHs]; cbn [append] in C2; [symmetry; exact C2|]. injection C2. exact IHs. }
      rewrite app_empty_r. reflexivity.
    + destruct (L ltac:(discriminate)) as (t' & ->). exists (line_of sgn total (h ++ b) ++ t'). rewrite app_assoc_s. reflexivity.
Qed.

(** The loop returns *)
Lemma batch_returns : forall sgn files clock total batch h k r, Inv sgn files clock h k r ->
  (files = true -> forall x, In x batch -> one_line x) -> (files = true -> forall x, In x batch -> can_be_kept sgn x) ->
  total <> 0%N -> exists r', test_batch sgn true true clock total batch r = Ok r'.
Proof.
  intros sgn files clock total batch h k r I O C T. unfold test_batch.
  destruct (batch_parsed sgn batch) as (ps & P & F). rewrite P. cbn [bind].
  destruct (archives_return _ _ _ _ _ _ _ F (i_archives _ _ _ _ _ _ I) O C) as (ar & A). rewrite A. cbn [bind].
  unfold udiv. apply N.eqb_neq in T. rewrite T. cbn [bind]. eexists. reflexivity.
Qed.
Lemma batches_return : forall sgn files clock total bs h k r, Inv sgn files clock h k r ->
  (files = true -> forall x, In x (concat bs) -> one_line x) -> (files = true -> forall x, In x (concat bs) -> can_be_kept sgn x) ->
  total <> 0%N -> exists r', foldM (test_batch sgn true true clock total) bs r = Ok r'.
Proof.
  intros sgn files clock total. induction bs as [|b bs IH]; intros h k r I O C T; cbn [foldM]; [eexists; reflexivity|]. cbn [concat] in O, C.
  destruct (batch_returns sgn files clock total b h k r I (fun f x J => O f x (in_or_app _ _ _ (or_introl J)))
              (fun f x J => C f x (in_or_app _ _ _ (or_introl J))) T) as (r1 & B).
  rewrite B. cbn [bind].
  destruct (batch_step _ _ _ _ _ _ _ _ _ I (fun f x J => O f x (in_or_app _ _ _ (or_introl J))) B) as (I1 & _).
  exact (IH _ _ _ I1 (fun f x J => O f x (in_or_app _ _ _ (or_intror J))) (fun f x J => C f x (in_or_app _ _ _ (or_intror J))) T).
Qed.

(** ** Figures *)

Lemma quantity_amount : forall what n, quantity what n = amount what n.
Proof.
  intros what n. unfold quantity, amount. destruct (n =? 0)%N eqn:Z.
  - apply N.eqb_eq in Z. subst n. cbn [N.leb N.compare]. rewrite app_empty_r. reflexivity.
  - assert (E : (1 <? n)%N = (2 <=? n)%N); [|rewrite E; reflexivity].
    destruct (2 <=? n)%N eqn:L; [apply N.leb_le in L; apply N.ltb_lt; lia|apply N.leb_gt in L; apply N.ltb_ge; lia].
Qed.
Lemma print_figures : forall st what k us n, entry st what (S k) us n -> (us < two64)%N -> (1000000 * n < two64)%N -> (0 < n)%N ->
  PerformanceStats_print what st = if (us =? 0)%N then Bad UB else Ok (figures what us n).
Proof.
  intros st what k us n E U L P. unfold PerformanceStats_print. unfold entry in E. rewrite E.
  rewrite (u64_small us U). rewrite (u64_small n) by (unfold two64 in *; lia).
  destruct (n =? 0)%N eqn:Z; [apply N.eqb_eq in Z; lia|]. rewrite (u64_small (1000000 * n)) by exact L.
  unfold udiv. destruct (us =? 0)%N; [reflexivity|]. cbn [bind]. rewrite !quantity_amount. unfold figures. reflexivity.
Qed.
