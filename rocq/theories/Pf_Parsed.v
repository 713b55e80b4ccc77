(** Temperatures and wind speeds that were read from a report are in the range of Pf_Index. *)
From Coq Require Import ZArith NArith QArith Qabs Lia.
From Verif Require Import Prim Float Values SpecNumeral SpecReal SpecUnits.
From Verif Require Import Pf_Numeral Pf_Values1 Pf_Units Pf_Index.

Lemma parsed_temperature : forall s t, temperature_text s t ->
  tempValue t = None \/ exists z, tempValue t = Some z /\ (Qabs (degrees_of t z) <= 100 # 1)%Q.
Proof.
  assert (Q : forall z d, (Z.abs z <= 1000)%Z -> (d = 10%positive \/ d = 1%positive /\ (Z.abs z <= 100)%Z) -> (Qabs (z # d) <= 100 # 1)%Q).
  { intros z d L D. apply Qabs_Qle_condition. unfold Qle, Qopp. cbn [Qnum Qden].
    destruct D as [-> |[-> D]]; lia. }
  intros s t [H|H].
  - apply temperature_parse in H. destruct H as [[-> ->]|[(v & N & ->)|(d & v & -> & N & ->)]]; [left; reflexivity| |];
      pose proof (numeral_bound _ _ _ N) as B; cbn in B; right; eexists; (split; [reflexivity|]);
      unfold degrees_of; cbn [precise]; apply Q; lia.
  - apply remark_temperature_parse in H. destruct H as [(d & v & -> & N & ->)|(d & v & -> & N & ->)];
      pose proof (numeral_bound _ _ _ N) as B; cbn in B; right; eexists; (split; [reflexivity|]);
      unfold degrees_of; cbn [precise]; apply Q; lia.
Qed.
Lemma parsed_speed : forall s u w, Speed_fromString s u = Ok (Some w) ->
  speedValue w = None \/ exists n, w = mkSpeed (Some n) u /\ (n < 1000)%N.
Proof.
  intros s u w H. apply speed_parse in H. destruct H as [[_ ->]|[(v & N & ->)|(v & N & _ & ->)]]; [left; reflexivity| |];
    pose proof (numeral_bound _ _ _ N) as B; cbn in B; right; exists v; (split; [reflexivity|lia]).
Qed.
Lemma heat_index_parsed : forall pow sa sd air dew, pow_sane pow -> temperature_text sa air -> temperature_text sd dew ->
  exists h, Temperature_heatIndexDP pow air dew = Ok h.
Proof.
  intros pow sa sd air dew S A D. apply parsed_temperature in A, D.
  destruct A as [A|(za & A & La)]; [eexists; apply heat_index_dew_none; auto|].
  destruct D as [D|(zd & D & Ld)]; [eexists; apply heat_index_dew_none; auto|].
  destruct (heat_index_dew pow air dew za zd S A D La Ld) as (rh & q & h & _ & _ & E & _). exists h. exact E.
Qed.
Lemma wind_chill_parsed : forall pow s sw u air wind, pow_sane pow -> temperature_text s air ->
  Speed_fromString sw u = Ok (Some wind) -> exists h, Temperature_windChill pow air wind = Ok h.
Proof.
  intros pow s sw u air wind S A W. apply parsed_temperature in A. apply parsed_speed in W.
  destruct A as [A|(za & A & La)]; [eexists; apply wind_chill_unreported; auto|].
  destruct W as [W|(n & -> & L)]; [eexists; apply wind_chill_unreported; auto|].
  destruct (wind_chill_range pow air za n u S A) as (h & E & _); [|lia|exists h; exact E].
  eapply Qle_trans; [exact La|discriminate].
Qed.

(** *** Reportedness and the unit in which a quantity is stored *)
Lemma speed_reported : forall s u, (exists x, Speed_toUnit s u = Some x) <-> Speed_isReported s = true.
Proof.
  intros [[n|] u0] u; unfold Speed_toUnit, Speed_isReported; cbn [speedValue speedUnit has_value]; split; intros H.
  - reflexivity.
  - destruct u0, u; eexists; reflexivity.
  - destruct H; discriminate.
  - discriminate.
Qed.
Lemma speed_same : forall n u, Speed_toUnit (mkSpeed (Some n) u) u = Some (f32_of_N n).
Proof. intros n []; reflexivity. Qed.
Lemma distance_reported : forall d u, (exists x, Distance_toUnit d u = Some x) <-> Distance_isValue d = true.
Proof.
  intros [md [n|] u0] u; unfold Distance_toUnit, Distance_isValue, Distance_distance; cbn [dist has_value]; split; intros H.
  - reflexivity.
  - eexists; reflexivity.
  - destruct H; discriminate.
  - discriminate.
Qed.
Lemma distance_same : forall d, Distance_toUnit d (distUnit d) = Distance_distance d.
Proof. intros [md [n|] []]; reflexivity. Qed.
Lemma pressure_reported : forall p u, (exists x, Pressure_toUnit p u = Some x) <-> Pressure_isReported p = true.
Proof.
  intros [[n|] u0] u; unfold Pressure_toUnit, Pressure_isReported; cbn [pressureValue has_value]; split; intros H.
  - reflexivity.
  - eexists; reflexivity.
  - destruct H; discriminate.
  - discriminate.
Qed.
Lemma pressure_same : forall p, Pressure_toUnit p (pressureUnit p) = pressureValue p.
Proof. intros [[n|] []]; reflexivity. Qed.
Lemma precip_reported : forall p u, (exists x, Precipitation_toUnit p u = Some x) <-> Precipitation_isReported p = true.
Proof.
  intros [[n|] u0] u; unfold Precipitation_toUnit, Precipitation_isReported; cbn [precipValue precipUnit has_value]; split; intros H.
  - reflexivity.
  - destruct u0, u; eexists; reflexivity.
  - destruct H; discriminate.
  - discriminate.
Qed.
Lemma precip_same : forall p, Precipitation_toUnit p (precipUnit p) = precipValue p.
Proof. intros [[n|] []]; reflexivity. Qed.
Lemma temperature_reported : forall t u, (exists x, Temperature_toUnit t u = Some x) <-> Temperature_isReported t = true.
Proof.
  intros [[n|] f p] u; unfold Temperature_toUnit, Temperature_isReported, Temperature_temperature; cbn [tempValue has_value]; split; intros H.
  - reflexivity.
  - destruct u; eexists; reflexivity.
  - destruct H; discriminate.
  - discriminate.
Qed.
Lemma temperature_same_unit : forall t, Temperature_toUnit t Temp_C = Temperature_temperature t.
Proof. intros [[n|] f p]; reflexivity. Qed.
Lemma wave_reported : forall w u, (exists x, WaveHeight_toUnit w u = Some x) <-> WaveHeight_isReported w = true.
Proof.
  intros [t [n|]] u; unfold WaveHeight_toUnit, WaveHeight_isReported, WaveHeight_waveHeight; cbn [whValue has_value]; split; intros H.
  - reflexivity.
  - destruct u; eexists; reflexivity.
  - destruct H; discriminate.
  - discriminate.
Qed.
Lemma wave_same : forall w, WaveHeight_toUnit w Wh_METERS = WaveHeight_waveHeight w.
Proof. intros [t [n|]]; reflexivity. Qed.
