(** Proofs for the texts of directions *)
From Coq Require Import NArith List String Bool Lia.
From Verif Require Import Prim Regex Float Values Weather Groups1 Groups2 Groups3 Groups4 Parser Format Explain.
From Verif Require Import Lib SpecDirection SpecShown SpecCompass Pf_ExShown Pf_Values6.
Import ListNotations.
Local Open Scope string_scope.
Local Open Scope N_scope.

Definition nth_degrees : list N := Eval vm_compute in map N.of_nat (seq 0 361).
Lemma degrees_listed : forall d, d <= 360 -> In d nth_degrees.
Proof.
  intros d L. assert (E : nth_degrees = map N.of_nat (seq 0 361)) by (vm_compute; reflexivity). rewrite E.
  apply in_map_iff. exists (N.to_nat d). split; [apply N2Nat.id|apply in_seq; lia].
Qed.
Definition named_b (exactly : bool) (v : N) (name : string) : bool :=
  existsb (fun p => (2 * angle v (fst p) <? 45)
    && String.eqb name (if exactly && main_point v then "true " ++ snd p else snd p)) compass.
Lemma named_b_ok : forall b v n, named_b b v n = true -> named b v n.
Proof.
  intros b v n H. unfold named_b in H. apply existsb_exists in H. destruct H as ([d w] & I & H).
  apply andb_true_iff in H. destruct H as [H1 H2]. exists d, w. split; [exact I|]. split; [apply N.ltb_lt, H1|].
  apply String.eqb_eq, H2.
Qed.
Lemma cardinal_named : forall b t v, (t = DT_VALUE_DEGREES \/ t = DT_VALUE_CARDINAL) -> v <= 360 ->
  named b v (cardinalDirectionToString (Direction_cardinal (mkDir v t) b)).
Proof.
  intros b t v T L. apply named_b_ok.
  assert (A : forallb (fun v => named_b b v (cardinalDirectionToString (Direction_cardinal (mkDir v t) b))) nth_degrees = true)
    by (destruct T as [T|T]; rewrite T; destruct b; vm_compute; reflexivity).
  rewrite forallb_forall in A. apply A, degrees_listed, L.
Qed.
Lemma named_nonempty : forall b v n, named b v n -> sempty n = false.
Proof.
  intros b v n (d & w & I & _ & ->). destruct (b && main_point v); [reflexivity|].
  cbn in I. intuition (match goal with H : (_, _) = (_, _) |- _ => injection H as _ <- end; reflexivity).
Qed.
Lemma degrees_named : forall d b s, dirType d = DT_VALUE_DEGREES -> dirDegrees d <= 360 -> explainDirection d b = Ok s ->
  exists n w, whole n (dirDegrees d) /\ named b (dirDegrees d) w /\ s = n ++ " degrees(" ++ w ++ ")".
Proof.
  intros [v t] b s T L E. cbn [dirType dirDegrees] in *. subst t.
  pose proof (cardinal_named b DT_VALUE_DEGREES v (or_introl eq_refl) L) as N.
  exists (dec_N v), (cardinalDirectionToString (Direction_cardinal (mkDir v DT_VALUE_DEGREES) b)).
  split; [apply whole_dec|]. split; [exact N|].
  unfold explainDirection in E. cbn [dirType] in E. rewrite (named_nonempty _ _ _ N) in E.
  apply ok_same. rewrite <- E. clear E N.
  generalize (cardinalDirectionToString (Direction_cardinal (mkDir v DT_VALUE_DEGREES) b)). intros w.
  change (Direction_degrees (mkDir v DT_VALUE_DEGREES)) with (Some v). cbn [negb when say bind put].
  apply f_equal. rewrite !app_empty_r, !app_assoc_s. reflexivity.
Qed.
Lemma point_named : forall d b s, dirType d = DT_VALUE_CARDINAL -> dirDegrees d <= 360 -> explainDirection d b = Ok s ->
  named b (dirDegrees d) s.
Proof.
  intros [v t] b s T L E. cbn [dirType dirDegrees] in *. subst t.
  pose proof (cardinal_named b DT_VALUE_CARDINAL v (or_intror eq_refl) L) as N.
  unfold explainDirection in E. cbn [dirType] in E. rewrite (named_nonempty _ _ _ N) in E. cbn [negb when] in E.
  apply ok_same in E. rewrite <- E. exact N.
Qed.
