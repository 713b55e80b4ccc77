(** The values shown in explanations are the values reported (C70). *)
From Coq Require Import Lia ZArith NArith List String.
Import ListNotations.
From Verif Require Import Prim Lib Float Values Format Weather Groups1 Groups2 Groups3 Groups4 SpecDecimal SpecNumeral SpecShown SpecExplain Explain Summary.
From Verif Require Import SpecReal Pf_ExNumber.
From Verif Require Pf_SumRange.
From Coq Require Import QArith Qabs.
Local Open Scope string_scope.
Local Open Scope N_scope.

Lemma ok_same : forall (A : Type) (a b : A), Ok a = Ok b -> a = b.
Proof. intros A a b H. injection H as H. exact H. Qed.
Lemma whole_dec : forall n, whole (dec_N n) n.
Proof. intros n. split; [apply dec_nonempty|apply decimal_dec]. Qed.
Lemma two_digits : forall n, n < 100 -> exists s, (if n <? 10 then "0" else "") ++ dec_N n = s /\ numeral 2 s n.
Proof.
  intros n H. exists ((if n <? 10 then "0" else "") ++ dec_N n). split; [reflexivity|].
  assert (C : In n (map N.of_nat (seq 0 100))) by (apply in_map_iff; exists (N.to_nat n); split; [lia|apply in_seq; lia]).
  clear H. cbn [seq map] in C. repeat (destruct C as [<-|C]; [split; reflexivity|]). destruct C.
Qed.
Lemma time_shown : forall t s, hourValue t < 100 -> minuteValue t < 100 -> explainMetafTime t = Ok s ->
  exists day hh mm, numeral 2 hh (hourValue t) /\ numeral 2 mm (minuteValue t)
    /\ match dayValue t with Some d => exists dd, whole dd d /\ day = "day " ++ dd ++ ", " | None => day = "" end
    /\ s = day ++ hh ++ ":" ++ mm ++ " GMT".
Proof.
  intros t s H M E. destruct (two_digits _ H) as (hh & Eh & Nh). destruct (two_digits _ M) as (mm & Em & Nm).
  assert (X : forall day, say [put day; put (if hourValue t <? 10 then "0" else ""); put (dec_N (hourValue t)); put ":"; put (if minuteValue t <? 10 then "0" else ""); put (dec_N (minuteValue t)); put " GMT"] = Ok (day ++ hh ++ ":" ++ mm ++ " GMT")).
  { intros day. cbn [say put bind]. rewrite <- Eh, <- Em. rewrite !app_assoc_s, ?app_empty_r. reflexivity. }
  unfold explainMetafTime in E. destruct (dayValue t) as [d|].
  - exists ("day " ++ dec_N d ++ ", "), hh, mm. split; [exact Nh|]. split; [exact Nm|]. split; [exists (dec_N d); split; [apply whole_dec|reflexivity]|].
    apply ok_same. rewrite <- E. exact (X ("day " ++ dec_N d ++ ", ")).
  - exists "", hh, mm. split; [exact Nh|]. split; [exact Nm|]. split; [reflexivity|]. apply ok_same. rewrite <- E. exact (X "").
Qed.

Lemma runway_shown : forall r s, rNumber r < 100 -> Runway_isAllRunways r = false -> Runway_isMessageRepetition r = false -> explainRunway r = Ok s ->
  exists nn, numeral 2 nn (rNumber r) /\ s = "runway " ++ nn ++ designator_text (rDesignator r).
Proof.
  intros r s H A M E. unfold explainRunway in E. rewrite A, M in E. destruct (two_digits _ H) as (nn & En & Nn). exists nn. split; [exact Nn|]. apply ok_same.
  rewrite <- E, <- En. destruct (rDesignator r); cbn [say put bind designator_text]; rewrite !app_assoc_s, ?app_empty_r; reflexivity.
Qed.
Lemma runway_told : forall r s, rNumber r < 100 -> explainRunway r = Ok s ->
  r = mkRunway 88 Rw_NONE /\ s = "all runways" \/ r = mkRunway 99 Rw_NONE /\ s = "same runway (repetition of last message)"
  \/ r <> mkRunway 88 Rw_NONE /\ r <> mkRunway 99 Rw_NONE
     /\ exists nn, numeral 2 nn (rNumber r) /\ s = "runway " ++ nn ++ designator_text (rDesignator r).
Proof.
  intros r s H E. destruct (Runway_isAllRunways r) eqn:A; [|destruct (Runway_isMessageRepetition r) eqn:M].
  - left. unfold explainRunway in E. rewrite A in E. split; [|apply ok_same; symmetry; exact E]. destruct r as [n d].
    unfold Runway_isAllRunways in A. cbn [rNumber rDesignator] in A. apply andb_prop in A as [A B]. apply N.eqb_eq in A. subst n.
    destruct d; try discriminate B. reflexivity.
  - right. left. unfold explainRunway in E. rewrite A, M in E. split; [|apply ok_same; symmetry; exact E]. destruct r as [n d].
    unfold Runway_isMessageRepetition in M. cbn [rNumber rDesignator] in M. apply andb_prop in M as [M B]. apply N.eqb_eq in M. subst n.
    destruct d; try discriminate B. reflexivity.
  - right. right. split; [intros ->; discriminate A|]. split; [intros ->; discriminate M|]. exact (runway_shown r s H A M E).
Qed.
Lemma say_cons : forall a l s, say (put a :: l) = Ok s -> exists t, say l = Ok t /\ s = a ++ t.
Proof. intros a l s H. cbn [say put bind] in H. destruct (say l) as [t|]; [|discriminate H]. exists t. split; [reflexivity|]. apply ok_same. symmetry. exact H. Qed.
Lemma say_ok : forall r l s, say (r :: l) = Ok s -> exists a t, r = Ok a /\ say l = Ok t /\ s = a ++ t.
Proof.
  intros r l s H. cbn [say] in H. destruct r as [a|]; [|discriminate H]. cbn [bind] in H. destruct (say l) as [t|]; [|discriminate H]. exists a, t.
  split; [reflexivity|]. split; [reflexivity|]. apply ok_same. symmetry. exact H.
Qed.
Lemma speed_shown : forall v s t, speedValue v = Some t -> explainSpeed v = Ok s ->
  exists n rest, whole n t /\ s = n ++ " " ++ speed_unit_name (speedUnit v) ++ " (" ++ rest.
Proof.
  intros v s t V E. unfold explainSpeed in E. rewrite V in E. apply say_cons in E. destruct E as (s1 & E & ->). apply say_cons in E. destruct E as (s2 & E & ->).
  apply say_cons in E. destruct E as (s3 & E & ->). apply say_cons in E. destruct E as (s4 & E & ->).
  exists (dec_N t), s4. split; [apply whole_dec|]. destruct (speedUnit v); reflexivity.
Qed.
Lemma degrees_shown : forall d b s, dirType d = DT_VALUE_DEGREES -> explainDirection d b = Ok s ->
  exists n rest, whole n (dirDegrees d) /\ s = n ++ " degrees" ++ rest.
Proof.
  intros d b s T E. unfold explainDirection in E. rewrite T in E. unfold Direction_degrees, Direction_isValue in E. rewrite T in E. cbn [negb] in E.
  apply say_ok in E. destruct E as (a & t & A & _ & ->). exists (dec_N (dirDegrees d)), t. split; [apply whole_dec|].
  rewrite <- app_assoc_s. f_equal. apply ok_same. rewrite <- A. reflexivity.
Qed.
Lemma distance_shown : forall d n s, dist d = Some n -> distUnit d <> STATUTE_MILES -> n <= 16777216 -> explainDistance d = Ok s ->
  (distModifier d = DM_NONE \/ distModifier d = DM_LESS_THAN \/ distModifier d = DM_MORE_THAN) ->
  exists a rest, whole a n /\ s = limit_sign (distModifier d) ++ a ++ " " ++ distance_unit_name (distUnit d) ++ " (" ++ rest.
Proof.
  intros d n s D U L E M. unfold explainDistance, Distance_isReported, Distance_isValue in E. rewrite D in E. cbn [has_value orb negb] in E.
  assert (K : explainDistModifier (distModifier d) = Ok (limit_sign (distModifier d))) by (destruct M as [M|[M|M]]; rewrite M; reflexivity). rewrite K in E. cbn [bind] in E.
  destruct (DistUnit_beq (distUnit d) STATUTE_MILES) eqn:B; [destruct (distUnit d); try discriminate B; contradiction U; reflexivity|].
  assert (T : Distance_toUnit d (distUnit d) = Some (f32_of_N n)).
  { unfold Distance_toUnit, Distance_distance. rewrite D. destruct (distUnit d); try reflexivity. contradiction U; reflexivity. }
  rewrite T in E. apply say_cons in E. destruct E as (s1 & E & ->). apply say_ok in E. destruct E as (a & s2 & A & E & ->). apply say_cons in E. destruct E as (s3 & E & ->).
  apply say_cons in E. destruct E as (s4 & E & ->). apply say_ok in E. destruct E as (o & s5 & O & E & ->).
  unfold int_of_flt in A. rewrite (Pf_SumRange.integer_shown n L) in A. cbn [bind] in A. apply ok_same in A.
  unfold explainDistOtherUnits in O. apply say_cons in O. destruct O as (s6 & _ & ->).
  exists (dec_N n), (s6 ++ s5). split; [apply whole_dec|]. subst a.
  replace (dec_Z (Z.of_N n)) with (dec_N n) by (unfold dec_Z; destruct (Z.ltb_spec (Z.of_N n) 0); [lia|rewrite N2Z.id; reflexivity]).
  rewrite !app_assoc_s. destruct (distUnit d); reflexivity.
Qed.

Lemma rounded_text : forall x d u m, rounded (Some x) d u m = Ok (roundTo x d ++ u).
Proof. intros x d u m. unfold rounded. cbn [say put bind]. rewrite app_empty_r. reflexivity. Qed.
Lemma round_is : forall x d, (1 <= d <= 6)%nat -> shown_as d (roundTo x d) x.
Proof. intros x d D q V. exact (round_shown x q d V D). Qed.
Ltac texts := cbn [when say put bind negb andb]; rewrite ?app_assoc_s, ?app_empty_r; cbn [append]; rewrite ?app_assoc_s; reflexivity.
Lemma temperature_shown : forall t v c f s, Temperature_temperature t = Some v -> Temperature_toUnit t Temp_C = Some c -> Temperature_toUnit t Temp_F = Some f -> explainTemperature t = Ok s ->
  exists a b, shown_as 1 a c /\ shown_as 1 b f
    /\ s = (if flt_is_zero v && negb (precise t) then (if freezing t then "slightly less than " else "slightly more than ") else "") ++ a ++ " &deg;C / " ++ b ++ " &deg;F".
Proof.
  intros t v c f s T C F E. unfold explainTemperature in E. rewrite T, C, F in E. rewrite !rounded_text in E. exists (roundTo c 1), (roundTo f 1).
  split; [apply round_is; lia|]. split; [apply round_is; lia|]. apply ok_same. rewrite <- E. destruct (flt_is_zero v && negb (precise t)), (freezing t); texts.
Qed.
Lemma pressure_shown : forall p h i m s, Pressure_toUnit p HECTOPASCAL = Some h -> Pressure_toUnit p INCHES_HG = Some i -> Pressure_toUnit p MM_HG = Some m -> explainPressure p = Ok s ->
  exists a b c, shown_as 1 a h /\ shown_as 2 b i /\ shown_as 1 c m /\ s = a ++ " hPa / " ++ b ++ " inHg / " ++ c ++ " mmHg".
Proof.
  intros p h i m s C F G E. unfold explainPressure in E. rewrite C, F, G in E. rewrite !rounded_text in E. exists (roundTo h 1), (roundTo i 2), (roundTo m 1).
  split; [apply round_is; lia|]. split; [apply round_is; lia|]. split; [apply round_is; lia|].
  destruct (pressureValue p) eqn:V; [|unfold Pressure_toUnit in C; rewrite V in C; discriminate C]. apply ok_same. rewrite <- E. texts.
Qed.
Lemma precipitation_shown : forall p v m i s, precipValue p = Some v -> flt_is_zero v = false -> Precipitation_toUnit p MM = Some m -> Precipitation_toUnit p INCHES = Some i -> explainPrecipitation p = Ok s ->
  exists a b, shown_as 1 a m /\ shown_as 2 b i /\ s = a ++ " mm / " ++ b ++ " inches".
Proof.
  intros p v m i s V Z M I E. unfold explainPrecipitation, Precipitation_isReported in E. rewrite V, Z, M, I in E. cbn [has_value negb] in E. rewrite !rounded_text in E. exists (roundTo m 1), (roundTo i 2).
  split; [apply round_is; lia|]. split; [apply round_is; lia|]. apply ok_same. rewrite <- E. texts.
Qed.
Lemma waves_shown : forall w m f s, whType w = Wh_WAVE_HEIGHT -> WaveHeight_toUnit w Wh_METERS = Some m -> WaveHeight_toUnit w Wh_FEET = Some f -> explainWaveHeight w = Ok s ->
  WaveHeight_isReported w = true -> exists a b, shown_as 1 a m /\ shown_as 1 b f /\ s = "wave height: " ++ a ++ " meters / " ++ b ++ " feet".
Proof.
  intros w m f s T M F E R. unfold explainWaveHeight in E. rewrite T, M, F, R in E. rewrite !rounded_text in E. exists (roundTo m 1), (roundTo f 1).
  split; [apply round_is; lia|]. split; [apply round_is; lia|]. apply ok_same. rewrite <- E. texts.
Qed.
Lemma friction_shown : forall f c s, SurfaceFriction_coefficient f = Some c -> sfType f = Sf_SURFACE_FRICTION_REPORTED -> explainSurfaceFriction f = Ok s ->
  exists a, shown_as 2 a c /\ s = "friction coefficient " ++ a.
Proof.
  intros f c s C T E. unfold explainSurfaceFriction in E. rewrite T, C in E. exists (roundTo c 2). split; [apply round_is; lia|]. apply ok_same. rewrite <- E. reflexivity.
Qed.
Lemma speeds_shown : forall v t k m h p s, speedValue v = Some t -> Speed_toUnit v KNOTS = Some k -> Speed_toUnit v METERS_PER_SECOND = Some m -> Speed_toUnit v KILOMETERS_PER_HOUR = Some h -> Speed_toUnit v MILES_PER_HOUR = Some p ->
  explainSpeed v = Ok s -> exists n a b c d, whole n t /\ shown_as 1 a k /\ shown_as 1 b m /\ shown_as 1 c h /\ shown_as 1 d p
    /\ s = n ++ " " ++ speed_unit_name (speedUnit v) ++ " ("
        ++ match speedUnit v with
           | KNOTS => b ++ " m/s / " ++ c ++ " km/h / " ++ d ++ " mph"
           | METERS_PER_SECOND => a ++ " knots / " ++ c ++ " km/h / " ++ d ++ " mph"
           | KILOMETERS_PER_HOUR => a ++ " knots / " ++ b ++ " m/s / " ++ d ++ " mph"
           | MILES_PER_HOUR => a ++ " knots / " ++ b ++ " m/s / " ++ c ++ " km/h"
           end ++ ")".
Proof.
  intros v t k m h p s V K M H P E. unfold explainSpeed in E. rewrite V, K, M, H, P in E. rewrite !rounded_text in E. exists (dec_N t), (roundTo k 1), (roundTo m 1), (roundTo h 1), (roundTo p 1).
  split; [apply whole_dec|]. split; [apply round_is; lia|]. split; [apply round_is; lia|]. split; [apply round_is; lia|]. split; [apply round_is; lia|].
  apply ok_same. rewrite <- E. destruct (speedUnit v); cbn [SpeedUnit_beq negb speedUnitToString speed_unit_name]; texts.
Qed.
Lemma few_miles : forall m v, v <= 15 -> Distance_miles (mkDist m (Some (v * 10000)) STATUTE_MILES) = Ok (Some (v, F_NONE)).
Proof.
  intros m v H. assert (C : In v [0; 1; 2; 3; 4; 5; 6; 7; 8; 9; 10; 11; 12; 13; 14; 15]) by (cbn; lia).
  clear H. cbn [In] in C. repeat (destruct C as [<-|C]; [vm_compute; reflexivity|]). destruct C.
Qed.
Lemma miles_shown : forall m v s, v <= 15 -> (m = DM_NONE \/ m = DM_LESS_THAN \/ m = DM_MORE_THAN) -> explainDistance (mkDist m (Some (v * 10000)) STATUTE_MILES) = Ok s ->
  exists a rest, whole a v /\ s = limit_sign m ++ a ++ " statute miles (" ++ rest.
Proof.
  intros m v s H M E. unfold explainDistance, Distance_isReported, Distance_isValue in E. cbn [dist distModifier distUnit has_value orb negb DistUnit_beq] in E.
  rewrite (few_miles m v H) in E.
  assert (K : explainDistModifier m = Ok (limit_sign m)) by (destruct M as [M|[M|M]]; rewrite M; reflexivity). rewrite K in E. cbn [bind] in E.
  apply say_cons in E. destruct E as (s1 & E & ->). apply say_ok in E. destruct E as (a & s2 & A & E & ->). apply say_cons in E. destruct E as (s3 & E & ->).
  apply say_cons in E. destruct E as (s4 & E & ->). apply say_ok in E. destruct E as (o & s5 & O & E & ->).
  unfold explainDistOtherUnits in O. apply say_cons in O. destruct O as (s6 & _ & ->).
  exists (dec_N v), (s6 ++ s5). split; [apply whole_dec|].
  assert (Ea : a = dec_N v).
  { apply ok_same. rewrite <- A. unfold explainMiles. cbn [MilesFraction_beq]. rewrite Bool.orb_true_r, Bool.andb_false_r. cbn [negb when say put bind]. rewrite !app_empty_r. reflexivity. }
  rewrite Ea. rewrite !app_assoc_s. reflexivity.
Qed.

(** ** Different codes have different texts *)
Ltac apart := let a := fresh in let b := fresh in let H := fresh in intros a b H; destruct a, b; try reflexivity; discriminate H.
Lemma apart_all :
  (forall a b, cardinalDirectionToString a = cardinalDirectionToString b -> a = b)
  /\ (forall a b, brakingActionToString a = brakingActionToString b -> a = b)
  /\ (forall a b, stateOfSeaSurfaceToString a = stateOfSeaSurfaceToString b -> a = b)
  /\ (forall a b, cloudAmountToString a = cloudAmountToString b -> a = b)
  /\ (forall a b, convectiveTypeToString a = convectiveTypeToString b -> a = b)
  /\ (forall a b, probabilityToString a = probabilityToString b -> a = b)
  /\ (forall a b, visTrendToString a = visTrendToString b -> a = b)
  /\ (forall a b, runwayStateDepositsToString a = runwayStateDepositsToString b -> a = b)
  /\ (forall a b, runwayStateExtentToString a = runwayStateExtentToString b -> a = b)
  /\ (forall a b, layerForecastGroupTypeToString a = layerForecastGroupTypeToString b -> a = b)
  /\ (forall a b, pressureTendencyTypeToString a = pressureTendencyTypeToString b -> a = b)
  /\ (forall a b, pressureTendencyTrendToString a = pressureTendencyTrendToString b -> a = b)
  /\ (forall a b, cloudLowLayerToString a = cloudLowLayerToString b -> a = b)
  /\ (forall a b, cloudMidLayerToString a = cloudMidLayerToString b -> a = b)
  /\ (forall a b, cloudHighLayerToString a = cloudHighLayerToString b -> a = b)
  /\ (forall a b, distanceMilesFractionToString a = distanceMilesFractionToString b -> a = b).
Proof. repeat split; apart. Qed.
Lemma cloud_types_apart : forall a b, a <> Ct_NOT_REPORTED -> b <> Ct_NOT_REPORTED -> cloudTypeToString a = cloudTypeToString b -> a = b.
Proof. intros a b A B H; destruct a, b; try reflexivity; try (discriminate H); try (contradiction A; reflexivity); contradiction B; reflexivity. Qed.
Lemma weather_apart : forall a b s, weatherPhenomenaWeatherToString a = Ok s -> weatherPhenomenaWeatherToString b = Ok s -> a = b.
Proof. intros a b s A B. destruct a; try discriminate A; apply ok_same in A; subst s; destruct b; try reflexivity; discriminate B. Qed.
Lemma cloud_types_same : cloudTypeToString Ct_NOT_REPORTED = cloudTypeToString Ct_CUMULONIMBUS.
Proof. reflexivity. Qed.

(** ** Refutations *)
Lemma unnamed_throws : forall pow sgn, explain pow sgn "METAR EGLL 010000Z 00000KT 9999 R///////V1000 20/10 Q1010" = Bad Throw.
Proof. intros pow sgn. destruct sgn; vm_compute; reflexivity. Qed.
Lemma markup_passes : forall pow sgn, exists t, explain pow sgn "METAR EGLL 010000Z <b>" = Ok t /\ mentions "<td><b></td>" t = true.
Proof. intros pow sgn. destruct sgn; eexists; (split; [vm_compute; reflexivity|vm_compute; reflexivity]). Qed.
Lemma cut_not_rounded : forall pow sgn, exists t, explain pow sgn "METAR EGLL 010000Z 00000KT RMK SLP123" = Ok t /\ mentions "1012.2 hPa" t = true.
Proof. intros pow sgn. destruct sgn; eexists; (split; [vm_compute; reflexivity|vm_compute; reflexivity]). Qed.
Lemma miles_differ : forall pow sgn, exists t, explain pow sgn "METAR EGLL 010000Z 00000KT 99SM" = Ok t /\ mentions "<td>99SM</td><td>Prevailing visibility is 95 statute miles" t = true.
Proof. intros pow sgn. destruct sgn; eexists; (split; [vm_compute; reflexivity|vm_compute; reflexivity]). Qed.
Lemma altitude_exponent : forall pow sgn, exists t, explain pow sgn "METAR EGLL 010000Z 00000KT RMK DENSITY ALT 1000000FT" = Ok t /\ mentions "1e+06 feet" t = true.
Proof. intros pow sgn. destruct sgn; eexists; (split; [vm_compute; reflexivity|vm_compute; reflexivity]). Qed.
