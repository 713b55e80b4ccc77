(** Texts of numbers and named values contain no brackets. *)
From Coq Require Import DecimalString Lia.
From Verif Require Import Prim Float Values Weather Groups1 Groups2 Groups3 Groups4 Parser Summary Format Explain SpecExplain.
Local Open Scope string_scope.

Lemma occurs_app : forall c a b, occurs c (a ++ b) = occurs c a || occurs c b.
Proof. intros c a b. induction a as [|d a IH]; [reflexivity|]. cbn [occurs append]. rewrite IH. apply orb_assoc. Qed.
(** No tag begins in [s], and every bracket opens "[r": *)
Fixpoint tame (s : string) : bool :=
  match s with
  | EmptyString => true
  | String c t =>
    negb (Ascii.eqb c "<") && (negb (Ascii.eqb c "[") || match t with String d _ => Ascii.eqb d "r" | EmptyString => false end) && tame t
  end.
Lemma tame_app : forall a b, tame a = true -> tame b = true -> tame (a ++ b) = true.
Proof.
  induction a as [|c a IH]; intros b A B; [exact B|]. cbn [append tame] in *. apply andb_prop in A. destruct A as [A1 A2].
  rewrite (IH _ A2 B), andb_true_r. apply andb_prop in A1. destruct A1 as [A1 A3]. rewrite A1. cbn [andb].
  destruct (Ascii.eqb c "["); [|reflexivity]. destruct a; [discriminate A3|exact A3].
Qed.
Definition safe (c : ascii) : bool := negb (Ascii.eqb c "<") && negb (Ascii.eqb c "[").
Fixpoint safe_all (s : string) : bool := match s with EmptyString => true | String c t => safe c && safe_all t end.
Lemma safe_tame : forall s, safe_all s = true -> tame s = true.
Proof.
  induction s as [|c s IH]; intros H; [reflexivity|]. cbn [safe_all tame] in *. apply andb_prop in H. destruct H as [A B].
  rewrite (IH B), andb_true_r. unfold safe in A. apply andb_prop in A. destruct A as [-> ->]. reflexivity.
Qed.
Lemma safe_app : forall a b, safe_all a = true -> safe_all b = true -> safe_all (a ++ b) = true.
Proof. intros a b. induction a as [|c a IH]; [auto|]. cbn [safe_all append]. intros A B. apply andb_prop in A. destruct A as [-> A]. exact (IH A B). Qed.
Lemma tame_cons : forall c s, safe c = true -> tame s = true -> tame (String c s) = true.
Proof. intros c s C S. exact (tame_app (String c "") s (safe_tame (String c "") ltac:(cbn [safe_all]; rewrite C; reflexivity)) S). Qed.

Lemma safe_uint : forall d, safe_all (NilEmpty.string_of_uint d) = true.
Proof. intros d. induction d; cbn [NilEmpty.string_of_uint safe_all]; auto. Qed.
Lemma safe_N : forall n, safe_all (dec_N n) = true.
Proof. intros n. apply safe_uint. Qed.
Lemma safe_Z : forall z, safe_all (dec_Z z) = true.
Proof. intros z. unfold dec_Z. destruct (z <? 0)%Z; [apply safe_app; [reflexivity|]|]; apply safe_N. Qed.
Lemma safe_digits : forall k n, safe_all (dec_digits k n) = true.
Proof. induction k as [|k IH]; intros n; [reflexivity|]. cbn [dec_digits]. apply safe_app; [apply IH|apply safe_N]. Qed.
Lemma safe_point : forall k n, safe_all (dec_point k n) = true.
Proof.
  intros k n. unfold dec_point. apply safe_app; [apply safe_N|]. destruct k; [reflexivity|]. apply safe_app; [reflexivity|apply safe_digits].
Qed.
Lemma safe_sign : forall s, safe_all (sign_text s) = true.
Proof. intros []; reflexivity. Qed.
Lemma safe_to_string : forall x, safe_all (to_string_flt x) = true.
Proof.
  intros [s|s| |s m e]; cbn [to_string_flt]; try reflexivity; (apply safe_app; [apply safe_sign|]); try reflexivity. apply safe_point.
Qed.
Lemma safe_srev : forall s acc, safe_all (srev s acc) = safe_all s && safe_all acc.
Proof.
  induction s as [|c s IH]; intros acc; [reflexivity|]. cbn [srev]. rewrite IH. cbn [safe_all].
  destruct (safe c), (safe_all s), (safe_all acc); reflexivity.
Qed.
Lemma safe_drop : forall s, safe_all s = true -> safe_all (drop_zeros s) = true.
Proof.
  induction s as [|c s IH]; intros H; [reflexivity|]. cbn [safe_all] in H. apply andb_prop in H. destruct H as [A B].
  destruct (Ascii.ascii_dec c "0") as [->|N]; [exact (IH B)|].
  assert (E : drop_zeros (String c s) = String c s).
  { destruct c as [b0 b1 b2 b3 b4 b5 b6 b7]; destruct b0, b1, b2, b3, b4, b5, b6, b7; try reflexivity. destruct (N eq_refl). }
  rewrite E. cbn [safe_all]. rewrite A, B. reflexivity.
Qed.
Lemma safe_trim : forall s, safe_all s = true -> safe_all (trim_fraction s) = true.
Proof.
  intros s H. unfold trim_fraction.
  assert (R : safe_all (drop_zeros (srev s "")) = true) by (apply safe_drop; rewrite safe_srev, H; reflexivity).
  assert (W : forall t, safe_all t = true -> safe_all (srev t "") = true) by (intros t T; rewrite safe_srev, T; reflexivity).
  destruct (drop_zeros (srev s "")) as [|c t]; [reflexivity|]. pose proof (W _ R) as Wc.
  cbn [safe_all] in R. apply andb_prop in R. destruct R as [_ T]. apply W in T.
  destruct c as [b0 b1 b2 b3 b4 b5 b6 b7]; destruct b0, b1, b2, b3, b4, b5, b6, b7; assumption.
Qed.
Lemma safe_stream : forall x, safe_all (stream_flt x) = true.
Proof.
  intros [s|s| |s m e]; cbn [stream_flt]; try reflexivity; (apply safe_app; [apply safe_sign|]); try reflexivity.
  cbv zeta. set (d := if (1000000 <=? _)%Z then _ else _). set (ex := if (1000000 <=? _)%Z then _ else _). clearbody d ex.
  destruct (_ && _)%bool.
  - destruct (_ =? 5)%Z; [apply safe_N|apply safe_trim, safe_point].
  - apply safe_app; [apply safe_trim, safe_point|]. apply safe_app; [destruct (_ <? 0)%Z; reflexivity|].
    apply safe_app; [destruct (_ <? 10)%Z; reflexivity|apply safe_N].
Qed.
Lemma safe_prefix : forall s n, safe_all s = true -> safe_all (substring 0 n s) = true.
Proof.
  induction s as [|c s IH]; intros [|n] H; try reflexivity. cbn [substring safe_all] in *. apply andb_prop in H. destruct H as [A B].
  rewrite A. exact (IH _ B).
Qed.
Lemma safe_round : forall x d, safe_all (roundTo x d) = true.
Proof.
  intros x d. unfold roundTo. cbv zeta. destruct (sfind _ _ _); [|apply safe_to_string]. destruct (Nat.ltb _ _); [|apply safe_to_string].
  apply safe_prefix. apply safe_to_string.
Qed.

Lemma tame_N : forall n, tame (dec_N n) = true. Proof. intros; apply safe_tame, safe_N. Qed.
Lemma tame_Z : forall z, tame (dec_Z z) = true. Proof. intros; apply safe_tame, safe_Z. Qed.
Lemma tame_stream : forall x, tame (stream_flt x) = true. Proof. intros; apply safe_tame, safe_stream. Qed.
Lemma tame_round : forall x d, tame (roundTo x d) = true. Proof. intros; apply safe_tame, safe_round. Qed.

(** The tables of names *)
Ltac table := let x := fresh in intros x; destruct x; vm_compute; reflexivity.
Lemma tame_speedUnit : forall x, tame (speedUnitToString x) = true. Proof. table. Qed.
Lemma tame_distanceUnit : forall x, tame (distanceUnitToString x) = true. Proof. table. Qed.
Lemma tame_milesFraction : forall x, tame (distanceMilesFractionToString x) = true. Proof. table. Qed.
Lemma tame_cardinal : forall x, tame (cardinalDirectionToString x) = true. Proof. table. Qed.
Lemma tame_braking : forall x, tame (brakingActionToString x) = true. Proof. table. Qed.
Lemma tame_seaSurface : forall x, tame (stateOfSeaSurfaceToString x) = true. Proof. table. Qed.
Lemma tame_cloudAmount : forall x, tame (cloudAmountToString x) = true. Proof. table. Qed.
Lemma tame_convective : forall x, tame (convectiveTypeToString x) = true. Proof. table. Qed.
Lemma tame_probability : forall x, tame (probabilityToString x) = true. Proof. table. Qed.
Lemma tame_visTrend : forall x, tame (visTrendToString x) = true. Proof. table. Qed.
Lemma tame_deposits : forall x, tame (runwayStateDepositsToString x) = true. Proof. table. Qed.
Lemma tame_extent : forall x, tame (runwayStateExtentToString x) = true. Proof. table. Qed.
Lemma tame_layer : forall x, tame (layerForecastGroupTypeToString x) = true. Proof. table. Qed.
Lemma tame_tendencyType : forall x, tame (pressureTendencyTypeToString x) = true. Proof. table. Qed.
Lemma tame_tendencyTrend : forall x, tame (pressureTendencyTrendToString x) = true. Proof. table. Qed.
Lemma tame_cloudType : forall x, tame (cloudTypeToString x) = true. Proof. table. Qed.
Lemma tame_low : forall x, tame (cloudLowLayerToString x) = true. Proof. table. Qed.
Lemma tame_mid : forall x, tame (cloudMidLayerToString x) = true. Proof. table. Qed.
Lemma tame_high : forall x, tame (cloudHighLayerToString x) = true. Proof. table. Qed.
Lemma tame_reportType : forall x, tame (reportTypeToString x) = true. Proof. table. Qed.
Lemma tame_reportError : forall x, tame (reportErrorToString x) = true. Proof. table. Qed.
Lemma tame_special : forall w, tame (specialWeatherPhenomenaToString w) = true.
Proof.
  intros w. unfold specialWeatherPhenomenaToString.
  assert (F : forallb (fun x => tame (snd x)) specialWeatherPhenomena = true) by (vm_compute; reflexivity).
  induction specialWeatherPhenomena as [|[[[q d] ws] s] l IH]; [reflexivity|]. cbn [special_loop forallb snd] in *.
  apply andb_prop in F. destruct F as [A B]. destruct (_ && _)%bool; auto.
Qed.
Create HintDb tame.
#[export] Hint Resolve tame_app tame_N tame_Z tame_stream tame_round tame_speedUnit tame_distanceUnit tame_milesFraction tame_cardinal
  tame_braking tame_seaSurface tame_cloudAmount tame_convective tame_probability tame_visTrend tame_deposits tame_extent tame_layer
  tame_tendencyType tame_tendencyTrend tame_cloudType tame_low tame_mid tame_high tame_reportType tame_reportError tame_special : tame.

(** Explanations that are made, and have no brackets *)
Definition clean (r : res string) : Prop := exists s, r = Ok s /\ tame s = true.
Lemma clean_put : forall s, tame s = true -> clean (put s).
Proof. intros s H. exists s. auto. Qed.
Lemma clean_line : forall s, tame s = true -> clean (line s).
Proof. intros s H. eexists; split; [reflexivity|]. apply tame_cons; [reflexivity|exact H]. Qed.
Lemma clean_nil : clean (say []).
Proof. exists "". auto. Qed.
Lemma clean_cons : forall r l, clean r -> clean (say l) -> clean (say (r :: l)).
Proof.
  intros r l (a & -> & A) (b & B & T). cbn [say bind]. rewrite B. cbn [bind]. eexists; split; [reflexivity|]. apply tame_app; assumption.
Qed.
Lemma clean_when : forall b r, (b = true -> clean r) -> clean (when b r).
Proof. intros [] r H; cbn [when]; [exact (H eq_refl)|exists ""; auto]. Qed.
Lemma clean_validity : forall v, clean (validity v).
Proof. intros []; [exists ""; auto|]. eexists; split; [reflexivity|reflexivity]. Qed.
Lemma clean_bind : forall (A : Type) (m : res A) (k : A -> res string) x, m = Ok x -> clean (k x) -> clean (bind m k).
Proof. intros A m k x -> H. exact H. Qed.
Lemma clean_map : forall (A : Type) (f : A -> res string) l, Forall (fun x => clean (f x)) l -> clean (say (map f l)).
Proof. intros A f l H. induction H; [exact clean_nil|]. cbn [map]. apply clean_cons; assumption. Qed.
Lemma clean_rounded : forall o d u m, has_value o = true -> tame u = true -> clean (rounded o d u m).
Proof.
  intros [x|] d u m H T; [|discriminate H]. cbn [rounded]. apply clean_cons; [apply clean_put, tame_round|].
  apply clean_cons; [exact (clean_put _ T)|exact clean_nil].
Qed.
Ltac tm := first [reflexivity | solve [auto with tame] | solve [vm_compute; reflexivity]].
Ltac cl := repeat first
  [ match goal with |- clean (say []) => apply clean_nil end
  | match goal with |- clean (say (_ :: _)) => apply clean_cons end
  | match goal with |- clean (validity _) => apply clean_validity end
  | match goal with |- clean (put _) => apply clean_put; tm end
  | match goal with |- clean (line _) => apply clean_line; tm end
  | match goal with |- clean (when _ _) => apply clean_when; intros ? end ].
