(** The frequency list of the performance program (C92). *)
From Coq Require Import List String Ascii NArith Bool Arith Lia Sorted Permutation.
From Verif Require Import Prim Lib Groups1 Parser Format.
From Verif Require Import Performance SpecPerformance Pf_PerfBatch Pf_PerfTest.
Import ListNotations.
Local Open Scope string_scope.

(** ** The order of the keys *)

Lemma compare_refl : forall s, String.compare s s = Eq.
Proof.
  induction s as [|c s IH]; [reflexivity|]. cbn [String.compare]. unfold Ascii.compare. rewrite N.compare_refl. exact IH.
Qed.
Lemma compare_trans : forall a b c, String.compare a b = Lt -> String.compare b c = Lt -> String.compare a c = Lt.
Proof.
  induction a as [|x a IH]; intros [|y b] [|z c] A B; cbn [String.compare] in *; try discriminate; try reflexivity.
  unfold Ascii.compare in *.
  destruct (N_of_ascii x ?= N_of_ascii y)%N eqn:X; [|clear A|discriminate];
  destruct (N_of_ascii y ?= N_of_ascii z)%N eqn:Y; try discriminate.
  - apply N.compare_eq in X. apply N.compare_eq in Y. rewrite X, Y, N.compare_refl. exact (IH _ _ A B).
  - apply N.compare_eq in X. rewrite X, Y. reflexivity.
  - apply N.compare_eq in Y. rewrite <- Y, X. reflexivity.
  - apply N.compare_lt_iff in X. apply N.compare_lt_iff in Y. pose proof (N.lt_trans _ _ _ X Y) as Z. apply N.compare_lt_iff in Z. rewrite Z. reflexivity.
Qed.
Lemma compare_gt : forall a b, String.compare a b = Gt -> String.compare b a = Lt.
Proof. intros a b E. rewrite String.compare_antisym, E. reflexivity. Qed.

Definition below (a b : string * N) : Prop := String.compare (fst a) (fst b) = Lt.
Definition count (s : string) (m : FrequencyStats) : option N :=
  match find (fun e => String.eqb (fst e) s) m with Some e => Some (snd e) | None => None end.

Lemma count_above : forall m s, (forall e, In e m -> String.compare s (fst e) = Lt) -> count s m = None.
Proof.
  intros m s H. unfold count. destruct (find (fun e => String.eqb (fst e) s) m) as [e|] eqn:F; [|reflexivity].
  apply find_some in F. destruct F as [I E]. apply String.eqb_eq in E. specialize (H e I). rewrite E, compare_refl in H. discriminate.
Qed.
Lemma add_in : forall s m e, In e (FrequencyStats_add s m) -> fst e = s \/ In (fst e) (map fst m).
Proof.
  intros s. induction m as [|[k n] m IH]; intros e I; cbn [FrequencyStats_add] in I.
  - destruct I as [<- |[]]. left. reflexivity.
  - cbn [map fst]. destruct (String.compare s k).
    + destruct I as [<- |I]; [right; left; reflexivity|right; right; apply in_map; exact I].
    + destruct I as [<- |I]; [left; reflexivity|right]. change (k :: map fst m) with (map fst ((k, n) :: m)). apply in_map. exact I.
    + destruct I as [<- |I]; [right; left; reflexivity|]. destruct (IH e I) as [H|H]; [left; exact H|right; right; exact H].
Qed.
Lemma add_sorted : forall s m, StronglySorted below m -> StronglySorted below (FrequencyStats_add s m).
Proof.
  intros s. induction m as [|[k n] m IH]; intros S; cbn [FrequencyStats_add]; [repeat constructor|].
  inversion S as [|x y S' F]; subst. rewrite Forall_forall in F. destruct (String.compare s k) eqn:C.
  - constructor; [exact S'|]. apply Forall_forall. exact F.
  - constructor; [exact S|]. apply Forall_forall. intros e [<- |I]; [exact C|]. exact (compare_trans _ _ _ C (F e I)).
  - constructor; [exact (IH S')|]. apply Forall_forall. intros e I. unfold below. cbn [fst].
    destruct (add_in _ _ _ I) as [-> |J]; [exact (compare_gt _ _ C)|]. apply in_map_iff in J. destruct J as (e' & E & J).
    rewrite <- E. exact (F e' J).
Qed.
Lemma add_count : forall s t m, StronglySorted below m ->
  count t (FrequencyStats_add s m) =
  if String.eqb s t then Some (match count s m with Some n => u64 (n + 1) | None => 1%N end) else count t m.
Proof.
  intros s t. induction m as [|[k n] m IH]; intros S; cbn [FrequencyStats_add].
  - unfold count. cbn [find fst snd]. destruct (String.eqb s t); reflexivity.
  - inversion S as [|x y S' F]; subst. rewrite Forall_forall in F. destruct (String.compare s k) eqn:C.
    + apply String.compare_eq_iff in C. subst k. unfold count. cbn [find fst]. rewrite String.eqb_refl. destruct (String.eqb s t); reflexivity.
    + assert (N : count s ((k, n) :: m) = None).
      { apply count_above. intros e [<- |I]; [exact C|]. exact (compare_trans _ _ _ C (F e I)). }
      rewrite N. unfold count at 1. cbn [find fst]. destruct (String.eqb s t); [reflexivity|]. reflexivity.
    + assert (K : String.eqb k s = false).
      { apply String.eqb_neq. intros ->. rewrite compare_refl in C. discriminate. }
      unfold count in *. cbn [find fst]. rewrite K. destruct (String.eqb k t) eqn:Kt.
      * apply String.eqb_eq in Kt. subst t. destruct (String.eqb s k) eqn:X; [|reflexivity].
        apply String.eqb_eq in X. subst. rewrite String.eqb_refl in K. discriminate.
      * exact (IH S').
Qed.

(** The map counts the strings of [l] *)
Definition Counts (m : FrequencyStats) (l : list string) : Prop :=
  StronglySorted below m /\
  forall s, count s m = match occurrences s l with 0 => None | n => Some (u64 (N.of_nat n)) end.
Lemma counts_nil : Counts [] [].
Proof. split; [constructor|reflexivity]. Qed.
Lemma occ_app : forall s a b, occurrences s (a ++ b) = occurrences s a + occurrences s b.
Proof. intros s a b. unfold occurrences. apply count_occ_app. Qed.
Lemma counts_add : forall m l s, Counts m l -> Counts (FrequencyStats_add s m) (l ++ [s]).
Proof.
  intros m l s [S C]. split; [exact (add_sorted _ _ S)|]. intros t. rewrite (add_count _ _ _ S), occ_app.
  unfold occurrences at 2. cbn [count_occ]. destruct (String.eqb s t) eqn:E.
  - apply String.eqb_eq in E. subst t. destruct (string_dec s s) as [_|N]; [|congruence]. rewrite C, Nat.add_1_r.
    destruct (occurrences s l) as [|n]; [reflexivity|]. rewrite u64_add. do 2 f_equal. lia.
  - apply String.eqb_neq in E. destruct (string_dec s t) as [e|_]; [congruence|]. rewrite Nat.add_0_r. exact (C t).
Qed.
Lemma counts_fold : forall b m l, Counts m l -> Counts (fold_left (fun m s => FrequencyStats_add s m) b m) (l ++ b).
Proof.
  induction b as [|s b IH]; intros m l C; cbn [fold_left]; [rewrite app_nil_r; exact C|].
  change (s :: b) with ([s] ++ b)%list. rewrite app_assoc. apply IH. apply counts_add. exact C.
Qed.
Lemma counts_batches : forall src l bs m l0, source src l bs -> Counts m l0 ->
  exists m', FrequencyStats_addBatches src m = Ok m' /\ Counts m' (l0 ++ l).
Proof.
  intros src l bs m l0 (E & _ & H) C. unfold FrequencyStats_addBatches. rewrite H. subst l. clear H.
  revert m l0 C. induction bs as [|b bs IH]; intros m l0 C; cbn [foldM concat].
  - exists m. rewrite app_nil_r. split; [reflexivity|exact C].
  - cbn [bind]. rewrite app_assoc. apply IH. apply counts_fold. exact C.
Qed.

(** ** Sorting by number *)

Lemma insert_perm : forall n s m, Permutation (multimap_insert n s m) ((n, s) :: m).
Proof.
  intros n s. induction m as [|[k t] m IH]; cbn [multimap_insert]; [reflexivity|]. destruct (n <? k)%N; [reflexivity|].
  rewrite IH. apply perm_swap.
Qed.
Definition up (a b : N * string) : Prop := (fst a <= fst b)%N.
Lemma insert_sorted : forall n s m, StronglySorted up m -> StronglySorted up (multimap_insert n s m).
Proof.
  intros n s. induction m as [|[k t] m IH]; intros S; cbn [multimap_insert]; [repeat constructor|].
  inversion S as [|x y S' F]; subst. destruct (n <? k)%N eqn:L.
  - apply N.ltb_lt in L. constructor; [exact S|]. constructor; [unfold up; cbn [fst]; lia|].
    rewrite Forall_forall in *. intros e I. specialize (F e I). unfold up in *. cbn [fst] in *. lia.
  - apply N.ltb_ge in L. constructor; [exact (IH S')|]. rewrite Forall_forall in *. intros e I.
    apply (Permutation_in _ (insert_perm n s m)) in I. destruct I as [<- |I]; [exact L|exact (F e I)].
Qed.
Lemma by_number : forall m, Permutation (statsByNumber m) (map (fun e => (snd e, fst e)) m) /\ StronglySorted up (statsByNumber m).
Proof.
  intros m. unfold statsByNumber.
  assert (G : forall mm, StronglySorted up mm ->
    Permutation (fold_left (fun mm e => multimap_insert (snd e) (fst e) mm) m mm) (map (fun e => (snd e, fst e)) m ++ mm) /\
    StronglySorted up (fold_left (fun mm e => multimap_insert (snd e) (fst e) mm) m mm)).
  { induction m as [|e m IH]; intros mm S; cbn [fold_left map app]; [split; [reflexivity|exact S]|].
    destruct (IH _ (insert_sorted (snd e) (fst e) mm S)) as [P Q]. split; [|exact Q]. rewrite P.
    rewrite (insert_perm (snd e) (fst e) mm). symmetry. apply Permutation_middle. }
  destruct (G [] ltac:(constructor)) as [P Q]. rewrite app_nil_r in P. split; assumption.
Qed.
Lemma sorted_snoc : forall {A} (R : A -> A -> Prop) l x, StronglySorted R l -> (forall y, In y l -> R y x) -> StronglySorted R (l ++ [x]).
Proof.
  intros A R. induction l as [|a l IH]; intros x S H; cbn [app]; [repeat constructor|]. inversion S; subst. constructor.
  - apply IH; [assumption|]. intros y I. apply H. right. exact I.
  - apply Forall_app. split; [assumption|]. constructor; [apply H; left; reflexivity|constructor].
Qed.
Lemma sorted_rev : forall l, StronglySorted up l -> StronglySorted (fun a b => (fst b <= fst a)%N) (rev l).
Proof.
  induction l as [|a l IH]; intros S; cbn [rev]; [constructor|]. inversion S as [|x y S' F]; subst. apply sorted_snoc; [exact (IH S')|].
  intros y I. apply in_rev in I. rewrite Forall_forall in F. exact (F y I).
Qed.

Lemma sorted_nodup : forall m, StronglySorted below m -> NoDup (map fst m).
Proof.
  induction m as [|e m IH]; intros S; cbn [map]; [constructor|]. inversion S as [|x y S' F]; subst. constructor; [|exact (IH S')].
  intros I. apply in_map_iff in I. destruct I as (e' & E & I). rewrite Forall_forall in F. specialize (F e' I). unfold below in F.
  rewrite E, compare_refl in F. discriminate.
Qed.
Lemma count_in : forall m s n, NoDup (map fst m) -> (In (s, n) m <-> count s m = Some n).
Proof.
  intros m s n D. unfold count. induction m as [|[k v] m IH]; cbn [find]; [split; [intros []|discriminate]|]. cbn [fst snd map] in *.
  inversion D as [|x y N D']; subst. destruct (String.eqb k s) eqn:E.
  - apply String.eqb_eq in E. subst k. cbn [snd]. split.
    + intros [H|H]; [congruence|]. exfalso. apply N. exact (in_map fst _ _ H).
    + intros [= ->]. left. reflexivity.
  - apply String.eqb_neq in E. rewrite <- (IH D'). split; [intros [H|H]; [congruence|exact H]|intros H; right; exact H].
Qed.

Lemma printed_list : forall m l, Counts m l -> (N.of_nat (List.length l) < two64)%N ->
  exists fl, printDescending m = listing fl /\ frequency_list l fl.
Proof.
  intros m l [S C] L. destruct (by_number m) as [P Q]. exists (rev (statsByNumber m)). split; [reflexivity|].
  assert (P' : Permutation (rev (statsByNumber m)) (map (fun e => (snd e, fst e)) m)) by (rewrite <- Permutation_rev; exact P).
  assert (D : NoDup (map fst m)) by (apply sorted_nodup; exact S).
  split; [|split].
  - apply (Permutation_map snd) in P'. rewrite map_map in P'. cbn [snd] in P'. apply (Permutation_NoDup (Permutation_sym P')). exact D.
  - intros n s.
    assert (A : In (n, s) (rev (statsByNumber m)) <-> In (s, n) m).
    { split; intros I.
      - apply (Permutation_in _ P') in I. apply in_map_iff in I. destruct I as ([a b] & E & I). cbn [fst snd] in E. congruence.
      - apply (Permutation_in _ (Permutation_sym P')). apply in_map_iff. exists (s, n). split; [reflexivity|exact I]. }
    rewrite A, (count_in _ _ _ D), C. unfold occurrences.
    assert (B : count_occ string_dec l s <= List.length l) by apply count_occ_bound.
    pose proof (count_occ_In string_dec l s) as CI. destruct (count_occ string_dec l s) as [|k].
    + split; [discriminate|]. intros [I _]. apply CI in I. lia.
    + rewrite u64_small by (unfold two64 in *; lia). split; [intros [= <-]; split; [apply CI; lia|reflexivity]|intros [_ ->]; reflexivity].
  - apply sorted_rev. exact Q.
Qed.

(** ** Repetitions *)

Lemma occ_times : forall s n l, occurrences s (times n l) = n * occurrences s l.
Proof. intros s n l. induction n as [|n IH]; [reflexivity|]. cbn [times]. rewrite occ_app, IH. lia. Qed.
Lemma times_length : forall {A} n (l : list A), List.length (times n l) = n * List.length l.
Proof. intros A n l. induction n as [|n IH]; [reflexivity|]. cbn [times]. rewrite app_length, IH. lia. Qed.
Lemma counts_compensated : forall m l l' n, 0 < n -> Counts m l -> (forall s, occurrences s l = n * occurrences s l') ->
  (N.of_nat (List.length l) < two64)%N -> Counts (compensateRepetitions (N.of_nat n) m) l'.
Proof.
  intros m l l' n P [So C] O L. split.
  - unfold compensateRepetitions. clear C. induction So as [|e m So IH F]; cbn [map]; constructor; [exact IH|].
    rewrite Forall_forall in *. intros x I. apply in_map_iff in I. destruct I as (y & <- & I). exact (F y I).
  - intros s.
    assert (E : count s (compensateRepetitions (N.of_nat n) m) = match count s m with Some x => Some (x / N.of_nat n)%N | None => None end).
    { unfold count, compensateRepetitions. clear. induction m as [|[k v] m IH]; [reflexivity|]. cbn [map find fst snd].
      destruct (String.eqb k s); [reflexivity|exact IH]. }
    rewrite E, C, O. assert (B : occurrences s l <= List.length l) by apply count_occ_bound. rewrite O in B.
    destruct (occurrences s l') as [|k]; [rewrite Nat.mul_0_r; reflexivity|].
    assert (U : (N.of_nat (n * S k) < two64)%N) by lia.
    destruct (n * S k) as [|x] eqn:X; [lia|]. rewrite <- X in U |- *. rewrite (u64_small _ U).
    rewrite u64_small; [|nia]. f_equal. rewrite Nat2N.inj_mul, N.mul_comm. apply N.div_mul. lia.
Qed.
