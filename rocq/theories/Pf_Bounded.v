(** What the groups of a report can hold: how large the numbers are that were read from its text. *)
From Coq Require Import Lia ZArith NArith.
From Verif Require Import Prim Lib Regex Float Values Weather Groups1 Groups2 Groups3 Groups4 Parser.
From Verif Require Import SpecNumeral SpecReach SpecUnits Pf_Ok Pf_Numeral Pf_Values1 Pf_Values2 Pf_Parsed Pf_Kinds Pf_Decode Pf_Refuse.
From Verif Require Import Pf_Weather Pf_OkGroups3 Pf_Total.
Local Open Scope N_scope.

Definition speed_small (s : Speed) : Prop := speedValue s = None \/ exists n, speedValue s = Some n /\ n < 1000.
Definition temp_read (t : Temperature) : Prop := t = Temperature_default \/ exists s, temperature_text s t.
Definition dist_small (d : Distance) : Prop :=
  dist d = None \/ exists n, dist d = Some n /\ n < 4294967296 /\ (distUnit d = STATUTE_MILES \/ n <= 10000).

Lemma u32_lt : forall x, u32 x < 4294967296.
Proof. intros x. unfold u32, two32. apply N.mod_lt. discriminate. Qed.
Lemma small_speed : forall s u w, Speed_fromString s u = Ok (Some w) -> speed_small w.
Proof. intros s u w H. destruct (parsed_speed s u w H) as [E|(n & -> & L)]; [left; exact E|right; exists n; auto]. Qed.
Lemma small_default : speed_small Speed_default.
Proof. left; reflexivity. Qed.

Ltac peel_all H := peel H;
  repeat match goal with H : Ok (Some _) = Ok (Some _) |- _ => injection H; clear H; intros; subst end.

Ltac deep := repeat match goal with
  | E : bind _ _ = Ok (Some _) |- _ => progress (peel_all E)
  | E : (match _ with _ => _ end) = Ok (Some _) |- _ => progress (peel_all E)
  end.

Lemma wind_speeds : forall k, Reachable (GWind k) -> speed_small (wi_speed k) /\ speed_small (wi_gust k).
Proof.
  apply (reach_Wind (fun k => speed_small (wi_speed k) /\ speed_small (wi_gust k))).
  - intros s part md k H. unfold WindGroup_parse, or_else, Wind_parseVariableSector, Wind_parseSurfaceOrShear in H.
    peel_all H; deep; cbn; split; try exact small_default; eauto using small_speed.
    all: match goal with |- speed_small (match ?o with _ => _ end) => destruct o end; eauto using small_speed, small_default.
  - intros k s part md k' a _ [I1 I2] H. unfold WindGroup_append, Wind_appendVariableSector, Wind_appendPeakWind, Wind_appendWindShift in H.
    peel_all H; cbn; split; eauto using small_speed.
Qed.

Lemma read_text : forall s t, Temperature_fromString s = Ok (Some t) -> temp_read t.
Proof. intros s t H. right; exists s; left; exact H. Qed.
Lemma read_remark : forall s t, Temperature_fromRemarkString s = Ok (Some t) -> temp_read t.
Proof. intros s t H. right; exists s; right; exact H. Qed.
Lemma read_default : temp_read Temperature_default.
Proof. left; reflexivity. Qed.

Lemma temperature_read : forall k, Reachable (GTemperature k) -> temp_read (tg_t k) /\ temp_read (tg_dp k).
Proof.
  apply (reach_Temperature (fun k => temp_read (tg_t k) /\ temp_read (tg_dp k))).
  - intros s part md k H. unfold TemperatureGroup_parse in H. peel_all H; deep; cbn; split; eauto using read_text, read_remark, read_default.
  - intros k s part md k' a _ [I1 I2] H. unfold TemperatureGroup_append in H. peel_all H; cbn; split; auto.
Qed.
Lemma minmax_6 : forall s k, MinMax_from6hourly s = Ok (Some k) -> temp_read (mm_minTemp k) /\ temp_read (mm_maxTemp k).
Proof.
  intros s k H. unfold MinMax_from6hourly in H. peel_all H; deep; cbn; split; eauto using read_text, read_remark, read_default;
    match goal with |- temp_read (if ?b then _ else _) => destruct b end; eauto using read_remark, read_default.
Qed.
Lemma minmax_f : forall s k, MinMax_fromForecast s = Ok (Some k) -> temp_read (mm_minTemp k) /\ temp_read (mm_maxTemp k).
Proof.
  intros s k H. unfold MinMax_fromForecast in H. peel_all H; deep; cbn; split;
    match goal with |- temp_read (if ?b then _ else _) => destruct b end; eauto using read_text, read_default.
Qed.
Lemma minmax_read : forall k, Reachable (GMinMaxTemperature k) -> temp_read (mm_minTemp k) /\ temp_read (mm_maxTemp k).
Proof.
  apply (reach_MinMaxTemperature (fun k => temp_read (mm_minTemp k) /\ temp_read (mm_maxTemp k))).
  - intros s part md k H. unfold MinMaxTemperatureGroup_parse, or_else in H.
    destruct (is_part part RP_TAF); [exact (minmax_f _ _ H)|]. destruct (is_part part RP_RMK); [|discriminate H].
    apply bind_ok in H. destruct H as ([x|] & E & H).
    + injection H as <-. exact (minmax_6 _ _ E).
    + unfold MinMax_from24hourly in H. peel_all H; deep; cbn; split; eauto using read_remark.
  - intros k s part md k' a _ [I1 I2] H. unfold MinMaxTemperatureGroup_append in H. destruct (mm_t k).
    + unfold MinMax_append6hourly in H. peel_all H; cbn; auto;
      match goal with E : MinMax_from6hourly _ = _ |- _ => apply minmax_6 in E; destruct E end; split;
      match goal with |- temp_read (if ?b then _ else _) => destruct b end; auto.
    + injection H as <- <-; auto.
    + unfold MinMax_appendForecast in H. peel_all H; cbn; auto;
      match goal with E : MinMax_fromForecast _ = _ |- _ => apply minmax_f in E; destruct E end; split;
      repeat match goal with |- temp_read (_ (if ?b then _ else _)) => destruct b; cbn | |- temp_read (if ?b then _ else _) => destruct b end; auto.
Qed.
Lemma qnh_read : forall k, Reachable (GPressure k) -> pg_t k = Pg_OBSERVED_QNH -> exists s, Pressure_fromString s = Ok (Some (pg_p k)).
Proof.
  apply (reach_Pressure (fun k => pg_t k = Pg_OBSERVED_QNH -> exists s, Pressure_fromString s = Ok (Some (pg_p k)))).
  - intros s part md k H. unfold PressureGroup_parse, or_else in H. peel_all H; deep; cbn; intros; try discriminate; eauto.
  - intros k s part md k' a _ IH H. unfold PressureGroup_append in H. peel_all H; cbn; auto.
Qed.

Lemma d_none : forall m u, dist_small (mkDist m None u).
Proof. intros; left; reflexivity. Qed.
Lemma d_mile : forall m n, dist_small (mkDist m (Some (u32 n)) STATUTE_MILES).
Proof. intros; right; exists (u32 n); split; [reflexivity|split; [apply u32_lt|left; reflexivity]]. Qed.
Lemma d_small : forall m n u, n <= 10000 -> dist_small (mkDist m (Some n) u).
Proof. intros m n u L; right; exists n; split; [reflexivity|split; [lia|right; lia]]. Qed.
Lemma d_meter : forall s d, Distance_fromMeterString s = Ok (Some d) -> dist_small d.
Proof.
  intros s d H. apply meter_parse in H. destruct H as [[_ ->]|[[_ ->]|(v & N & _ & ->)]]; [apply d_none|apply d_small; lia|].
  pose proof (numeral_bound _ _ _ N) as B; cbn in B. apply d_small; lia.
Qed.
Lemma d_rvr : forall s f d, Distance_fromRvrString s f = Ok (Some d) -> dist_small d.
Proof.
  intros s f d H. apply rvr_parse in H. destruct H as [[_ ->]|(p & m & n & v & _ & _ & N & ->)]; [apply d_none|].
  pose proof (numeral_bound _ _ _ N) as B; cbn in B. apply d_small; lia.
Qed.
Lemma d_mileText : forall s r d, Distance_fromMileString s r = Ok (Some d) -> dist_small d.
Proof.
  intros s r d H. unfold Distance_fromMileString in H. peel_all H; deep; auto using d_none, d_mile.
  all: peel_all E; deep; auto using d_none; discriminate.
Qed.
Lemma d_join : forall a b d, Distance_fromIntegerAndFraction a b = Ok (Some d) -> dist_small d.
Proof. intros a b d H. unfold Distance_fromIntegerAndFraction in H. peel_all H; auto using d_mile. Qed.
Lemma d_fraction : forall n q, dist_small (Distance_ofFraction n q).
Proof.
  intros n q. unfold Distance_ofFraction. destruct (q =? 0) eqn:Q; [left; reflexivity|]. right. eexists; split; [reflexivity|]. split; [|left; reflexivity].
  apply N.eqb_neq in Q. eapply N.le_lt_trans; [|apply (u32_lt (n * statuteMileFactor))]. apply N.div_le_upper_bound; [exact Q|]. nia.
Qed.
Lemma d_default : dist_small Distance_default.
Proof. left; reflexivity. Qed.

Definition vis_small (k : VisibilityGroup) : Prop := dist_small (vi_vis k) /\ dist_small (vi_visMax k).
#[local] Hint Resolve d_meter d_rvr d_mileText d_join d_fraction d_default : dsm.
Ltac vs := unfold vis_small, Vis_setVis, Vis_setVisMax, Vis_setInc, Vis_setType, Vis_setRw, Vis_setDir, Vis_setSector in *; cbn in *;
  try match goal with I : _ /\ _ |- _ => destruct I end; split; eauto with dsm.
Lemma vs_direction : forall k s n k', vis_small k -> Vis_appendDirection k s n = Ok (Some k') -> vis_small k'.
Proof. intros k s n k' I H. unfold Vis_appendDirection in H. peel_all H; vs. all: destruct (ViType_beq _ _); auto. Qed.
Lemma vs_runway : forall k s n k', vis_small k -> Vis_appendRunway k s n = Ok (Some k') -> vis_small k'.
Proof. intros k s n k' I H. unfold Vis_appendRunway in H. peel_all H; vs. all: repeat (match goal with |- context [ViType_beq ?a ?b] => destruct (ViType_beq a b) end; cbn); auto. Qed.
Lemma vs_integer : forall k s n k', vis_small k -> Vis_appendInteger k s n = Ok (Some k') -> vis_small k'.
Proof. intros k s n k' I H. unfold Vis_appendInteger in H. peel_all H; vs. Qed.
Lemma vs_fraction : forall k s n k', vis_small k -> Vis_appendFraction k s n = Ok (Some k') -> vis_small k'.
Proof. intros k s n k' I H. unfold Vis_appendFraction in H. peel_all H; deep; vs. Qed.
Lemma vs_maxfraction : forall k s n k', vis_small k -> Vis_appendVariableMaxFraction k s n = Ok (Some k') -> vis_small k'.
Proof. intros k s n k' I H. unfold Vis_appendVariableMaxFraction in H. peel_all H; deep; vs. Qed.
Lemma vs_variable : forall k s n m k', vis_small k -> Vis_appendVariable k s n m = Ok (Some k') -> vis_small k'.
Proof. intros k s n m k' I H. unfold Vis_appendVariable in H. peel_all H; deep; vs. Qed.
Lemma vs_meters : forall k s n k', vis_small k -> Vis_appendMeters k s n = Ok (Some k') -> vis_small k'.
Proof. intros k s n k' I H. unfold Vis_appendMeters in H. peel_all H; deep; vs. Qed.
Lemma vs_varmeters : forall k s n k', vis_small k -> Vis_appendVariableMeters k s n = Ok (Some k') -> vis_small k'.
Proof. intros k s n k' I H. unfold Vis_appendVariableMeters in H. peel_all H; deep; vs. Qed.
Lemma vs_incomplete : forall k s n k', vis_small k -> Vis_appendFractionToIncompleteInteger k s n = Ok (Some k') -> vis_small k'.
Proof. intros k s n k' I H. unfold Vis_appendFractionToIncompleteInteger in H. peel_all H; deep; vs. Qed.
Lemma vs_try : forall (P : VisibilityGroup -> Prop) e r g a, (forall g', e = Ok (Some g') -> P g') -> (r = Ok (g, a) -> P g) -> try_append e r = Ok (g, a) -> P g.
Proof. intros P e r g a X Y H. unfold try_append in H. apply bind_ok in H. destruct H as ([x|] & E & H); [injection H as <- <-; auto|auto]. Qed.

Lemma visibility_small : forall k, Reachable (GVisibility k) -> vis_small k.
Proof.
  apply (reach_Visibility vis_small).
  - intros s part md k H. unfold VisibilityGroup_parse, Vis_fromIncompleteInteger, Vis_fromMeters, Vis_fromRvr, or_else in H.
    peel_all H; deep; try (vs; fail).
    refine (vs_integer Vis_default s ViI_NONE v _ E5). split; exact d_default.
  - intros k s part md k' a _ I H. unfold VisibilityGroup_append in H. destruct (vi_inc k).
    all: repeat first
      [ match type of H with (if ?b then _ else _) = _ => destruct b end
      | revert H; apply vs_try; [intros g'; first [apply vs_direction|apply vs_runway|apply vs_integer|apply vs_fraction|apply vs_maxfraction|apply vs_variable|apply vs_meters|apply vs_varmeters|apply vs_incomplete]; exact I|intros H]
      | apply bind_ok in H; destruct H as ([x|] & E & H); [apply vs_variable in E; [|exact I]|] ].
    all: injection H as <- <-; assumption.
Qed.
