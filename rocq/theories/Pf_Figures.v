(** Proofs for C70: texts of distances in all units *)
From Coq Require Import Lia ZArith NArith List String.
From Verif Require Import Prim Lib Float Values Format SpecDecimal SpecNumeral SpecShown SpecExplain Explain Summary SpecUnits SpecSumNumbers SpecFigures.
From Verif Require Import SpecReal Pf_ExNumber Pf_ExShown.
From Verif Require Pf_SumRange Pf_Miles.
Import ListNotations.
Local Open Scope string_scope.
Local Open Scope N_scope.

Lemma signed_dec : forall z, signed_whole (dec_Z z) z.
Proof.
  intros z. unfold dec_Z. destruct (Z.ltb_spec z 0).
  - exists (dec_N (Z.to_N (- z))), (Z.to_N (- z)). split; [apply whole_dec|]. right. split; [reflexivity|lia].
  - exists (dec_N (Z.to_N z)), (Z.to_N z). split; [apply whole_dec|]. left. split; [reflexivity|lia].
Qed.
Lemma int_text : forall x a, int_of_flt x = Ok a -> exists z, whole_of (Some x) z /\ signed_whole a z.
Proof.
  intros x a H. unfold int_of_flt in H. destruct (trunc_to_int x) as [z|] eqn:E; [|discriminate H]. cbn [bind] in H. apply ok_same in H. subst a.
  exists z. split; [|apply signed_dec]. destruct (Pf_SumRange.trunc_whole x z E) as (v & V & W). exists x, v. auto.
Qed.
Lemma miles_text : forall i f a, explainMiles (i, f) = Ok a -> mile_text a (16 * i + sixteenths_of f).
Proof.
  intros i f a H. unfold explainMiles in H.
  destruct (MilesFraction_beq f F_NONE) eqn:F.
  - rewrite Bool.orb_true_r, Bool.andb_false_r in H. cbn [negb when say put bind] in H. apply ok_same in H. rewrite !app_empty_r in H. subst a.
    left. exists i. split; [apply whole_dec|]. destruct f; try discriminate F. cbn [sixteenths_of]. lia.
  - assert (I : In (distanceMilesFractionToString f, sixteenths_of f) mile_fractions)
      by (destruct f; try discriminate F; cbn; tauto).
    destruct (i =? 0) eqn:Z; cbn [negb orb andb when say put bind] in H; apply ok_same in H; rewrite ?app_empty_r in H.
    + apply N.eqb_eq in Z. subst i a. right. left. exists (sixteenths_of f). split; [exact I|lia].
    + right. right. exists (dec_N i), i, (distanceMilesFractionToString f), (sixteenths_of f). split; [apply whole_dec|].
      split; [exact I|]. split; [|reflexivity]. rewrite <- H. rewrite ?app_assoc_s. reflexivity.
Qed.
Lemma unit_name : forall u, distanceUnitToString u = distance_unit_name u. Proof. intros []; reflexivity. Qed.

Ltac parts_of H :=
  repeat match type of H with
  | say (put _ :: _) = Ok _ => let s := fresh "s" in let E := fresh "E" in apply say_cons in H; destruct H as (s & H & E)
  end.
Lemma when_true : forall r, when true r = r. Proof. reflexivity. Qed.
Lemma say_nil : forall s, say [] = Ok s -> s = "". Proof. intros s H. apply ok_same. symmetry. exact H. Qed.

Definition metric (d : Distance) (u : DistUnit) : res string :=
  match Distance_toUnit d u with
  | Some x => say [int_of_flt x; put " "; put (distanceUnitToString u)]
  | None => put ""
  end.
Lemma metric_in : forall d u x a, u <> STATUTE_MILES -> Distance_toUnit d u = Some x -> say [int_of_flt x; put " "; put (distanceUnitToString u)] = Ok a -> in_unit d u a.
Proof.
  intros d u x a U T H. apply say_ok in H. destruct H as (b & s & B & H & ->). apply say_cons in H. destruct H as (s1 & H & ->).
  apply say_cons in H. destruct H as (s2 & H & ->). apply say_nil in H. subst s2. rewrite app_empty_r, unit_name.
  exists b. split; [reflexivity|]. destruct (int_text x b B) as (z & Z1 & Z2). rewrite <- T in Z1. destruct u; [| |]; try (exists z; split; assumption). contradiction U; reflexivity.
Qed.
Lemma miles_in : forall d x a, Distance_miles d = Ok (Some x) -> say [explainMiles x; put " "; put (distanceUnitToString STATUTE_MILES)] = Ok a -> in_unit d STATUTE_MILES a.
Proof.
  intros d [i f] a T H. apply say_ok in H. destruct H as (b & s & B & H & ->). apply say_cons in H. destruct H as (s1 & H & ->).
  apply say_cons in H. destruct H as (s2 & H & ->). apply say_nil in H. subst s2. rewrite app_empty_r, unit_name.
  exists b. split; [reflexivity|]. exists i, f. split; [exact T|]. apply miles_text, B.
Qed.
Lemma unit_some : forall d n u, dist d = Some n -> exists x, Distance_toUnit d u = Some x.
Proof. intros d n u D. unfold Distance_toUnit, Distance_distance. rewrite D. eauto. Qed.
Lemma miles_some : forall d n r, dist d = Some n -> Distance_miles d = Ok r -> exists x, r = Some x.
Proof.
  intros d n r D H. unfold Distance_miles in H. destruct (unit_some d n STATUTE_MILES D) as (x & X). rewrite X in H.
  destruct (round_to_uint _) as [k|]; [|discriminate H]. cbn [bind] in H. apply ok_same in H. eauto.
Qed.

Lemma others_text : forall d n s, dist d = Some n -> explainDistOtherUnits d = Ok s ->
  exists a b, in_unit d (fst (other_units (distUnit d))) a /\ in_unit d (snd (other_units (distUnit d))) b /\ s = " (" ++ a ++ " / " ++ b ++ ")".
Proof.
  intros d n s D H. unfold explainDistOtherUnits in H.
  destruct (unit_some d n METERS D) as (xm & M). destruct (unit_some d n FEET D) as (xf & F).
  destruct (distUnit d); cbn [DistUnit_beq negb] in H; rewrite ?when_true in H; cbn [other_units fst snd].
  - (* METERS *)
    apply say_cons in H. destruct H as (t & H & ->). apply say_ok in H. destruct H as (z & t1 & Z & H & ->). apply ok_same in Z. subst z.
    apply say_ok in H. destruct H as (a & t2 & A & H & ->). apply say_ok in H. destruct H as (b & t3 & B & H & ->).
    apply say_cons in H. destruct H as (t4 & H & ->). apply say_nil in H. subst t4.
    apply say_ok in A. destruct A as (a1 & u1 & A & U & ->). destruct (Distance_miles d) as [r|] eqn:R; [|discriminate A]. cbn [bind] in A.
    destruct (miles_some d n r D R) as (x & ->). apply say_cons in U. destruct U as (u2 & U & ->). apply say_nil in U. subst u2.
    rewrite F in B. exists a1, b. split; [eapply miles_in; eassumption|]. split; [eapply metric_in; [discriminate|exact F|exact B]|].
    rewrite ?app_assoc_s, ?app_empty_r. reflexivity.
  - (* STATUTE_MILES *)
    apply say_cons in H. destruct H as (t & H & ->). apply say_ok in H. destruct H as (a & t1 & A & H & ->).
    apply say_ok in H. destruct H as (z & t2 & Z & H & ->). apply ok_same in Z. subst z. apply say_ok in H. destruct H as (b & t3 & B & H & ->).
    apply say_cons in H. destruct H as (t4 & H & ->). apply say_nil in H. subst t4. rewrite M in A. rewrite F in B.
    apply say_ok in A. destruct A as (a1 & u1 & A & U & ->). apply say_cons in U. destruct U as (u2 & U & ->). apply say_nil in U. subst u2.
    exists a1, b. split; [eapply metric_in; [discriminate|exact M|exact A]|]. split; [eapply metric_in; [discriminate|exact F|exact B]|].
    rewrite ?app_assoc_s, ?app_empty_r. reflexivity.
  - (* FEET *)
    apply say_cons in H. destruct H as (t & H & ->). apply say_ok in H. destruct H as (a & t1 & A & H & ->).
    apply say_ok in H. destruct H as (b & t3 & B & H & ->).
    apply say_ok in H. destruct H as (z & t2 & Z & H & ->). apply ok_same in Z. subst z.
    apply say_cons in H. destruct H as (t4 & H & ->). apply say_nil in H. subst t4. rewrite M in A.
    apply say_ok in A. destruct A as (a1 & u1 & A & U & ->). apply say_cons in U. destruct U as (u2 & U & ->). apply say_nil in U. subst u2.
    apply say_ok in B. destruct B as (b1 & v1 & B & V & ->). destruct (Distance_miles d) as [r|] eqn:R; [|discriminate B]. cbn [bind] in B.
    destruct (miles_some d n r D R) as (x & ->). apply say_ok in V. destruct V as (v2 & v3 & V & V' & ->). apply ok_same in V. apply say_nil in V'. subst v2 v3.
    exists a1, b1. split; [eapply metric_in; [discriminate|exact M|exact A]|]. split; [eapply miles_in; eassumption|].
    rewrite ?app_assoc_s, ?app_empty_r. reflexivity.
Qed.
Lemma distance_units : forall d n s, dist d = Some n ->
  (distModifier d = DM_NONE \/ distModifier d = DM_LESS_THAN \/ distModifier d = DM_MORE_THAN) -> explainDistance d = Ok s ->
  exists own a b, in_unit d (distUnit d) own /\ in_unit d (fst (other_units (distUnit d))) a /\ in_unit d (snd (other_units (distUnit d))) b
    /\ s = limit_sign (distModifier d) ++ own ++ " (" ++ a ++ " / " ++ b ++ ")".
Proof.
  intros d n s D M E. unfold explainDistance, Distance_isReported, Distance_isValue in E. rewrite D in E. cbn [has_value orb negb] in E.
  assert (K : explainDistModifier (distModifier d) = Ok (limit_sign (distModifier d))) by (destruct M as [M|[M|M]]; rewrite M; reflexivity). rewrite K in E. cbn [bind] in E.
  destruct (unit_some d n (distUnit d) D) as (x & T).
  destruct (DistUnit_beq (distUnit d) STATUTE_MILES) eqn:B.
  - assert (U : distUnit d = STATUTE_MILES) by (destruct (distUnit d); try discriminate B; reflexivity).
    destruct (Distance_miles d) as [r|] eqn:R; [|discriminate E]. cbn [bind] in E. destruct (miles_some d n r D R) as (m & ->).
    apply say_cons in E. destruct E as (s1 & E & ->). apply say_ok in E. destruct E as (a & s2 & A & E & ->). apply say_cons in E. destruct E as (s3 & E & ->).
    apply say_cons in E. destruct E as (s4 & E & ->). apply say_ok in E. destruct E as (o & s5 & O & E & ->). apply say_nil in E. subst s5.
    destruct (others_text d n o D O) as (p & q & P & Q & ->). exists (a ++ " " ++ distance_unit_name (distUnit d)), p, q.
    split; [rewrite U; exists a; split; [reflexivity|]; destruct m as [i f]; exists i, f; split; [exact R|apply miles_text, A]|].
    split; [exact P|]. split; [exact Q|]. rewrite unit_name, ?app_assoc_s, ?app_empty_r. reflexivity.
  - rewrite T in E.
    apply say_cons in E. destruct E as (s1 & E & ->). apply say_ok in E. destruct E as (a & s2 & A & E & ->). apply say_cons in E. destruct E as (s3 & E & ->).
    apply say_cons in E. destruct E as (s4 & E & ->). apply say_ok in E. destruct E as (o & s5 & O & E & ->). apply say_nil in E. subst s5.
    destruct (others_text d n o D O) as (p & q & P & Q & ->). exists (a ++ " " ++ distance_unit_name (distUnit d)), p, q.
    split. { exists a. split; [reflexivity|]. destruct (int_text x a A) as (z & Z1 & Z2). rewrite <- T in Z1. destruct (distUnit d); try discriminate B; exists z; split; assumption. }
    split; [exact P|]. split; [exact Q|]. rewrite unit_name, ?app_assoc_s, ?app_empty_r. reflexivity.
Qed.
Lemma miles_reported : forall m r s, reportable r -> r <= 20000 -> (m = DM_NONE \/ m = DM_LESS_THAN \/ m = DM_MORE_THAN) ->
  explainDistance (mkDist m (Some (625 * r)) STATUTE_MILES) = Ok s ->
  exists a rest, mile_text a r /\ s = limit_sign m ++ a ++ " statute miles (" ++ rest.
Proof.
  intros m r s R L M E. destruct (distance_units (mkDist m (Some (625 * r)) STATUTE_MILES) (625 * r) s eq_refl M E) as (own & p & q & (a & O & i & f & D & T) & _ & _ & ->).
  destruct (Pf_Miles.miles_exact m r R L) as (i' & f' & D' & X). cbn [distUnit] in *. rewrite D' in D. apply ok_same in D. injection D as <- <-.
  exists a, (p ++ " / " ++ q ++ ")"). split; [rewrite <- X; exact T|]. rewrite O. cbn [distModifier distance_unit_name]. rewrite !app_assoc_s. reflexivity.
Qed.
