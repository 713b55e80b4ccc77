(** Every value parser returns normally on every string. *)
From Verif Require Import Prim Regex Float Values Lib Pf_Ok SpecDecimal Pf_Decimal Pf_Regex Pf_Caps.
Local Open Scope string_scope.
Local Open Scope N_scope.

Ltac b2p := rewrite ?negb_true_iff, ?negb_false_iff, ?andb_true_iff, ?andb_false_iff,
  ?orb_true_iff, ?orb_false_iff, ?Nat.eqb_eq, ?Nat.eqb_neq, ?Nat.ltb_lt, ?Nat.ltb_ge in *.

Lemma ok_T_strToUint : forall s p n, ok (strToUint s p n) (fun _ => True).
Proof. intros; eapply ok_true, ok_strToUint. Qed.
#[global] Hint Resolve ok_T_strToUint : okdb.
Lemma ok_T_fraction : forall s p n, ok (fractionStrToUint s p n) (fun _ => True).
Proof. intros; eapply ok_true, ok_fractionStrToUint. Qed.
#[global] Hint Resolve ok_T_fraction : okdb.

Lemma ok_Runway_fromString : forall s b, ok (Runway_fromString s b) (fun _ => True).
Proof. intros s b; unfold Runway_fromString; ok_auto. Qed.
Lemma ok_MetafTime_fromStringDDHHMM : forall s, ok (MetafTime_fromStringDDHHMM s) (fun _ => True).
Proof. intros s; unfold MetafTime_fromStringDDHHMM; ok_auto. Qed.
Lemma ok_MetafTime_fromStringDDHH : forall s, ok (MetafTime_fromStringDDHH s) (fun _ => True).
Proof. intros s; unfold MetafTime_fromStringDDHH; ok_auto. Qed.
Lemma ok_Speed_fromString : forall s u, ok (Speed_fromString s u) (fun _ => True).
Proof. intros s u; unfold Speed_fromString; ok_auto. Qed.
Lemma ok_Temperature_fromString : forall s, ok (Temperature_fromString s)
  (fun o => s <> "//" -> forall t, o = Some t -> tempValue t <> None).
Proof.
  intros s; unfold Temperature_fromString; ok_auto; intros; try discriminate;
    try match goal with H : Some _ = Some _ |- _ => inv H end; cbn; try discriminate.
  apply seqb_eq in E; congruence.
Qed.
(** Tenths of a degree between -99.9 and 99.9 convert without overflow. *)
Definition tenths (b : bool) (t : N) : flt :=
  to32 (f64_div (f64_of_Z (if b then Z.opp (i32_of_u32 t) else i32_of_u32 t)) (f64_of_Z 10)).
Definition range_N (n : nat) : list N := map N.of_nat (seq 0 n).
Lemma in_range_N : forall n v, v < N.of_nat n -> In v (range_N n).
Proof.
  intros n v H; unfold range_N; apply in_map_iff; exists (N.to_nat v); split; [lia|].
  apply in_seq; lia.
Qed.
Lemma tenths_table :
  forallb (fun b => forallb (fun t =>
    match Temperature_ofFloat (tenths b t) with Ok _ => true | Bad _ => false end)
    (range_N 1000)) [true; false] = true.
Proof. vm_compute; reflexivity. Qed.
Lemma ok_tenths : forall b t, t < 1000 -> ok (Temperature_ofFloat (tenths b t)) (fun _ => True).
Proof.
  intros b t H; pose proof tenths_table as T; rewrite forallb_forall in T.
  specialize (T b ltac:(destruct b; cbn; auto)); rewrite forallb_forall in T.
  specialize (T t (in_range_N 1000 t H)).
  destruct (Temperature_ofFloat (tenths b t)); [exact I | discriminate].
Qed.
Lemma strToUint_lt : forall s p n v, (n <= 9)%nat -> strToUint s p n = Ok (Some v) ->
  v < 10 ^ N.of_nat n.
Proof. intros s p n v Hn H; destruct (strToUint_exact _ _ _ _ Hn H) as (A & B & C & D); lia. Qed.
Lemma ok_Temperature_fromRemarkString : forall s, ok (Temperature_fromRemarkString s) (fun _ => True).
Proof.
  intros s; unfold Temperature_fromRemarkString.
  destruct (Nat.eqb_spec (slen s) 4) as [L|L]; cbn [negb]; [|exact I].
  apply ok_bind, ok_sget; [lia|]; intros c0.
  destruct (negb (Ascii.eqb c0 "0") && negb (Ascii.eqb c0 "1")); [exact I|].
  apply ok_bind; eapply ok_mono_eq; [apply ok_T_strToUint|].
  intros [t|] Ht _; [|exact I].
  apply strToUint_lt in Ht; [|lia]; change (10 ^ N.of_nat 3) with 1000 in Ht.
  cbv zeta; pose proof (ok_tenths (Ascii.eqb c0 "1") t Ht) as K; unfold tenths in K.
  apply ok_bind; eapply ok_mono; [exact K | intros a _; exact I].
Qed.
Lemma ok_Distance_fromMeterString : forall s, ok (Distance_fromMeterString s) (fun _ => True).
Proof. intros s; unfold Distance_fromMeterString; ok_auto. Qed.
Lemma ok_Distance_fromMileString : forall s b, ok (Distance_fromMileString s b) (fun _ => True).
Proof. intros s b; unfold Distance_fromMileString; ok_auto. Qed.
Lemma ok_Distance_fromHeightString : forall s, ok (Distance_fromHeightString s) (fun _ => True).
Proof. intros s; unfold Distance_fromHeightString; ok_auto. Qed.
Lemma ok_Distance_fromRvrString : forall s b, ok (Distance_fromRvrString s b) (fun _ => True).
Proof. intros s b; unfold Distance_fromRvrString; ok_auto. Qed.
Lemma ok_Distance_fromLayerString : forall s, ok (Distance_fromLayerString s) (fun _ => True).
Proof. intros s; unfold Distance_fromLayerString; ok_auto. Qed.
Lemma ok_Distance_fromKmString : forall s, ok (Distance_fromKmString s) (fun _ => True).
Proof. intros s; unfold Distance_fromKmString; ok_auto. Qed.
Lemma ok_Distance_fromIntegerAndFraction : forall a b,
  ok (Distance_fromIntegerAndFraction a b) (fun _ => True).
Proof.
  intros a b; unfold Distance_fromIntegerAndFraction.
  destruct (negb _ && _ && _); [exact I|].
  destruct (dist a), (dist b); cbn [has_value negb orb]; rewrite ?orb_true_r; cbn [orb]; try exact I;
    ok_auto; cbn [deref]; ok_auto.
Qed.
Lemma ok_Direction_fromDegreesString : forall s, ok (Direction_fromDegreesString s) (fun _ => True).
Proof. intros s; unfold Direction_fromDegreesString; ok_auto. Qed.
Lemma ok_three_at : forall s i a b c, (i + 2 <= slen s)%nat -> ok (three_at s i a b c) (fun _ => True).
Proof. intros; unfold three_at; ok_auto. Qed.
#[global] Hint Resolve ok_three_at : okdb.
Lemma ok_Pressure_fromString : forall s, ok (Pressure_fromString s) (fun _ => True).
Proof. intros s; unfold Pressure_fromString; ok_auto. Qed.
Lemma ok_Pressure_fromForecastString : forall s, ok (Pressure_fromForecastString s) (fun _ => True).
Proof.
  intros s; unfold Pressure_fromForecastString.
  destruct (Nat.eqb_spec (slen s) 10) as [L|L]; cbn [negb]; [|exact I].
  apply ok_bind; eapply ok_mono; [apply ok_three_at; lia|]; intros a _; ok_step; [exact I|].
  apply ok_bind; eapply ok_mono; [apply ok_three_at; lia|]; intros b _; ok_auto.
Qed.
Lemma ok_Pressure_fromSlpString : forall s, ok (Pressure_fromSlpString s) (fun _ => True).
Proof.
  intros s; unfold Pressure_fromSlpString.
  destruct (Nat.eqb_spec (slen s) 6) as [L|L]; cbn [negb]; [|exact I].
  apply ok_bind; eapply ok_mono; [apply ok_three_at; lia|]; intros a _; ok_auto.
Qed.
Lemma ok_Pressure_fromQfeString : forall s, ok (Pressure_fromQfeString s) (fun _ => True).
Proof.
  intros s; unfold Pressure_fromQfeString.
  destruct (negb _ && negb _) eqn:E; [exact I|].
  assert (slen s = 6 \/ slen s = 11)%nat as L by (b2p; lia).
  apply ok_bind; eapply ok_mono; [apply ok_three_at; lia|]; intros a _; ok_auto.
Qed.
Lemma ok_Pressure_fromTendencyString : forall s, ok (Pressure_fromTendencyString s) (fun _ => True).
Proof. intros s; unfold Pressure_fromTendencyString; ok_auto. Qed.
Lemma ok_Precipitation_fromRainfallString : forall s,
  ok (Precipitation_fromRainfallString s) (fun _ => True).
Proof. intros s; unfold Precipitation_fromRainfallString; ok_auto. Qed.
Lemma ok_Precipitation_fromRunwayDeposits : forall s,
  ok (Precipitation_fromRunwayDeposits s) (fun _ => True).
Proof. intros s; unfold Precipitation_fromRunwayDeposits; ok_auto. Qed.
Lemma ok_Precipitation_fromRemarkString : forall s f u b,
  ok (Precipitation_fromRemarkString s f u b) (fun _ => True).
Proof. intros s f u b; unfold Precipitation_fromRemarkString; ok_auto. Qed.
Lemma ok_Precipitation_fromSnincrString : forall s,
  ok (Precipitation_fromSnincrString s) (fun _ => True).
Proof. intros s; unfold Precipitation_fromSnincrString; ok_auto. Qed.
Lemma ok_SurfaceFriction_fromString : forall s, ok (SurfaceFriction_fromString s) (fun _ => True).
Proof. intros s; unfold SurfaceFriction_fromString; ok_auto. Qed.
Lemma ok_WaveHeight_fromString : forall s, ok (WaveHeight_fromString s) (fun _ => True).
Proof. intros s; unfold WaveHeight_fromString; ok_auto. Qed.

Lemma ok_T_Temperature_fromString : forall s, ok (Temperature_fromString s) (fun _ => True).
Proof. intros; eapply ok_true, ok_Temperature_fromString. Qed.

#[global] Hint Resolve ok_Runway_fromString ok_MetafTime_fromStringDDHHMM ok_MetafTime_fromStringDDHH
  ok_Speed_fromString ok_T_Temperature_fromString ok_Temperature_fromRemarkString
  ok_Distance_fromMeterString ok_Distance_fromMileString ok_Distance_fromHeightString
  ok_Distance_fromRvrString ok_Distance_fromLayerString ok_Distance_fromKmString
  ok_Distance_fromIntegerAndFraction ok_Direction_fromDegreesString ok_Pressure_fromString
  ok_Pressure_fromForecastString ok_Pressure_fromSlpString ok_Pressure_fromQfeString
  ok_Pressure_fromTendencyString ok_Precipitation_fromRainfallString
  ok_Precipitation_fromRunwayDeposits ok_Precipitation_fromRemarkString
  ok_Precipitation_fromSnincrString ok_SurfaceFriction_fromString ok_WaveHeight_fromString : okdb.
