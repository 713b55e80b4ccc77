(** Which wind and visibility groups of a result are valid, and all kinds together. *)
From Coq Require Import NArith ZArith List String Bool Lia.
From Coq Require Import ZifyBool ZifyNat ZifyN.
From Verif Require Import Prim Regex Float Values Weather Groups1 Groups2 Groups3 Groups4 Parser Lib Pf_Ok SpecReach SpecText SpecBuilt SpecNumeral SpecMiles SpecTexts
  SpecTrend SpecWind SpecVisibility SpecMinMax SpecReadings SpecAppend SpecValid Pf_Trend Pf_Numeral Pf_Values6 Pf_Refuse Pf_RunwayRange Pf_Visibility Pf_Order Pf_MileOrder Pf_Valid.
From Verif Require Pf_WindWords Pf_Temperatures Pf_MinMax Pf_Built.
Import ListNotations.
Local Open Scope string_scope.
Local Open Scope N_scope.

(** ** Wind *)
Definition strong (s : Speed) : Prop := forall v, speedValue s = Some v -> v <= 999.
Lemma speed_strong : forall u s t, Speed_text u s t -> strong t.
Proof.
  intros u s t [[_ ->]|[(v & N & ->)|(v & N & _ & ->)]] x E; cbn in E; [discriminate E| |]; injection E as <-;
    apply numeral_bound in N; cbn in N; lia.
Qed.
Lemma blowing_strong : forall w d s g, Blowing w d s g -> strong s.
Proof. intros w d s g (a & b & c & u & unit & _ & _ & _ & S & _). exact (speed_strong _ _ _ S). Qed.
Lemma no_speed_strong : strong no_speed.
Proof. intros v E. discriminate E. Qed.
Definition hundreds (h : Distance) : Prop := h = no_height \/ exists v, v < 1000 /\ h = mkDist DM_NONE (Some (100 * v)) FEET.
Lemma wind_bounds : forall part now ws v, Wind part now ws v -> strong (w_speed v) /\ hundreds (w_height v).
Proof.
  intros part now ws v W. destruct W; cbn [w_speed w_height only]; split; try (left; reflexivity); try exact no_speed_strong;
    try (eapply blowing_strong; eassumption).
  - destruct H0 as (u & unit & _ & _ & ->). intros x E. injection E as <-. lia.
  - right. eexists. split; [|reflexivity]. match goal with N : numeral 3 _ _ |- _ => apply numeral_bound in N; cbn in N end. lia.
  - match goal with N : Speed_number _ _ _ |- _ => destruct N as [N _]; exact (speed_strong _ _ _ N) end.
Qed.
Lemma heights : forallb (fun n => Bool.eqb (flt_is_zero (f32_of_N (100 * N.of_nat n))) (N.of_nat n =? 0)) (seq 0 1000) = true.
Proof. vm_compute. reflexivity. Qed.
Lemma height_zero : forall h, hundreds h -> (flt_is_zero (opt_default (Distance_distance h) (f32_of_N 1)) = false <-> if_any (fun x => x <> 0) (dist h)).
Proof.
  intros h [->|(v & B & ->)]; unfold if_any, Distance_distance; cbn [dist distUnit DistUnit_beq opt_default no_height].
  - split; [intros _ x; discriminate|reflexivity].
  - pose proof heights as H. rewrite forallb_forall in H. specialize (H (N.to_nat v)). rewrite N2Nat.id in H. apply Bool.eqb_prop in H; [|apply in_seq; lia].
    rewrite H. destruct (N.eqb_spec v 0) as [->|Ne]; split; try discriminate; try reflexivity.
    + intros K. exfalso. exact (K 0 eq_refl eq_refl).
    + intros _ x E. remember (100 * v) as y. injection E as <-. lia.
Qed.
Lemma wind_valid : forall g, wi_inc g = WiI_NONE -> strong (wi_speed g) -> hundreds (wi_height g) ->
  (WindGroup_isValid g = true <-> valid_wind g /\ ~ (speedValue (wi_gust g) = None /\ speedValue (wi_speed g) = Some 999)).
Proof.
  intros g I S H. unfold WindGroup_isValid, valid_wind. rewrite I. cbn [WiInc_beq negb].
  rewrite <- (height_zero _ H), <- !direction_proper, <- (default_iff _ _ _ (wi_rw g) Runway_default runway_proper eq_refl),
    <- (default_iff _ _ _ (wi_evTime g) MetafTime_default time_proper eq_refl).
  destruct (flt_is_zero _); [split; [destruct (_ =? 0); discriminate|intros ((_ & X & _) & _); discriminate X]|].
  destruct (Runway_isValid _); cbn [negb]; [|split; [destruct (_ =? 0); discriminate|intros ((_ & _ & _ & _ & _ & _ & X) & _); discriminate X]].
  destruct (MetafTime_isValid _); cbn [negb]; [|split; [destruct (_ =? 0); discriminate|intros ((_ & _ & _ & _ & _ & X & _) & _); discriminate X]].
  destruct (Direction_isValid (wi_dir g)), (Direction_isValid (wi_vsecBegin g)), (Direction_isValid (wi_vsecEnd g)); cbn [andb];
    try (split; [destruct (_ =? 0); [discriminate|destruct (_ <=? _); discriminate]|intros ((_ & _ & X1 & X2 & X3 & _) & _); discriminate]).
  unfold if_any. unfold strong in S. destruct (speedValue (wi_gust g)) as [b|]; cbn [opt_default].
  - destruct (N.eqb_spec b 0) as [->|B]; [split; [discriminate|intros ((X & _) & _); destruct (X 0 eq_refl) as [X0 _]; congruence]|].
    destruct (speedValue (wi_speed g)) as [a|]; cbn [opt_default].
    + destruct (N.leb_spec b a) as [L|L]; split; try discriminate; try reflexivity.
      * intros ((X & _) & _). destruct (X b eq_refl) as [_ Y]. specialize (Y a eq_refl). lia.
      * intros _. split; [|intros [X _]; discriminate X]. split; [|repeat split].
        intros x [= <-]. split; [exact B|]. intros y [= <-]. exact L.
    + destruct (N.leb_spec b 0) as [L|L]; [lia|]. split; [|reflexivity]. intros _. split; [|intros [X _]; discriminate X]. split; [|repeat split].
      intros x [= <-]. split; [exact B|]. intros y Y. discriminate Y.
  - change (1 =? 0) with false. cbv iota. destruct (speedValue (wi_speed g)) as [a|]; cbn [opt_default].
    + specialize (S a eq_refl). destruct (N.leb_spec 999 a) as [L|L]; split; try discriminate; try reflexivity.
      * intros (_ & X). exfalso. apply X. split; [reflexivity|]. f_equal. lia.
      * intros _. split; [|intros [_ X]; injection X as X; lia]. split; [|repeat split]. intros x X. discriminate X.
    + change (999 <=? 0) with false. split; [|reflexivity]. intros _. split; [|intros [_ X]; discriminate X]. split; [|repeat split]. intros x X. discriminate X.
Qed.

(** ** Visibility *)
Definition bounded (u : DistUnit) (a : N) : Prop := if DistUnit_beq u STATUTE_MILES then a < 1500000 else a <= 10000.
Definition measured (d : Distance) : Prop := forall a, dist d = Some a -> bounded (distUnit d) a.
Definition comparable (lo hi : Distance) : Prop := (exists b, dist hi = Some b) /\ distUnit lo = distUnit hi /\ measured lo /\ measured hi.
Lemma distance_order : forall lo hi a b, comparable lo hi -> dist lo = Some a -> dist hi = Some b ->
  exists x y, Distance_toUnit lo (distUnit lo) = Some x /\ Distance_toUnit hi (distUnit lo) = Some y /\ flt_ltb y x = (b <? a).
Proof.
  intros lo hi a b (_ & U & Ml & Mh) A B. specialize (Ml _ A). specialize (Mh _ B). unfold Distance_toUnit, Distance_distance. rewrite A, B, U. rewrite U in Ml.
  destruct (distUnit hi); cbn [DistUnit_beq bounded] in *; unfold bounded in *; cbn [DistUnit_beq] in *.
  - exists (f32_of_N a), (f32_of_N b). repeat split. unfold f32_of_N. change (flt_ltb (f32_of_Z (Z.of_N b)) (f32_of_Z (Z.of_N a))) with (SFltb (whole (Z.of_N b)) (whole (Z.of_N a))).
    rewrite (climbs_ltb whole _ _ whole_climbs) by lia. lia.
  - eexists. eexists. repeat split. match goal with |- flt_ltb ?x ?y = _ => change (flt_ltb x y) with (SFltb (miles (Z.of_N b)) (miles (Z.of_N a))) end.
    rewrite miles_order by lia. lia.
  - exists (f32_of_N a), (f32_of_N b). repeat split. unfold f32_of_N. change (flt_ltb (f32_of_Z (Z.of_N b)) (f32_of_Z (Z.of_N a))) with (SFltb (whole (Z.of_N b)) (whole (Z.of_N a))).
    rewrite (climbs_ltb whole _ _ whole_climbs) by lia. lia.
Qed.
Definition ranged (v : sight) : Prop :=
  s_maximum v = no_distance \/ Vis_isVariable (s_type v) = true /\ comparable (s_minimum v) (s_maximum v).
Lemma vis_valid : forall v, ranged v -> (VisibilityGroup_isValid (of_sight v ViI_NONE) = true <-> valid_visibility (of_sight v ViI_NONE)).
Proof.
  intros v R. unfold VisibilityGroup_isValid, valid_visibility, VisibilityGroup_minVisibility, VisibilityGroup_maxVisibility, of_sight.
  cbn [vi_visMax vi_vis vi_inc vi_dir vi_rw vi_type ViInc_beq].
  rewrite <- (any_iff _ _ _ (s_direction v) direction_proper), <- (any_iff _ _ _ (s_runway v) runway_proper).
  rewrite !andb_true_iff. destruct R as [->|(-> & C)].
  - cbn [Distance_toUnit Distance_distance dist no_distance]. intuition. discriminate.
  - cbn [negb]. set (lo := s_minimum v) in *. set (hi := s_maximum v) in *. pose proof C as ((b & B) & U & _).
    assert (Rp : Distance_isReported hi = true) by (unfold Distance_isReported, Distance_isValue; rewrite B; reflexivity). rewrite Rp.
    assert (Q : match Distance_toUnit hi (distUnit lo) with
      | None => true | Some max => match Distance_toUnit lo (distUnit lo) with None => false | Some min => negb (flt_ltb max min) end end = true <-> not_above lo hi).
    { unfold not_above. destruct (dist lo) as [a|] eqn:A.
      - destruct (distance_order _ _ _ _ C A B) as (x & y & -> & -> & ->). rewrite negb_true_iff, N.ltb_ge. split.
        + intros L. exists a, b. auto.
        + intros (a' & b' & [= <-] & E & _ & L). rewrite B in E. injection E as <-. exact L.
      - unfold Distance_toUnit, Distance_distance. rewrite A, B. split; [discriminate|]. intros (a' & b' & X & _). discriminate X. }
    rewrite Q. intuition.
Qed.
Lemma short_bound : forall s v, short_numeral s v -> v <= 99.
Proof. intros s v [N|N]; apply numeral_bound in N; cbn in N; lia. Qed.
Lemma miles_bound : forall e s d, Miles e s d -> exists k, dist d = Some k /\ distUnit d = STATUTE_MILES /\ (k <= 180000 \/ k <= 990000 /\ k mod 10000 = 0).
Proof.
  intros e s d (p & m & body & w & n & q & k & _ & _ & T & -> & B). exists k. split; [reflexivity|]. split; [reflexivity|].
  destruct T as [s0 v S|s1 s2 n d S1 S2 N D C|s0 s1 s2 w n d W N1 S2 N D C].
  - right. pose proof (short_bound _ _ S) as L. assert (E : k = v * 10000) by lia. subst k. split; [lia|]. apply N.mod_mul. lia.
  - left. pose proof (short_bound _ _ S1) as L. destruct C as [C|C]; [nia|]. apply numeral_bound in C. cbn in C. nia.
  - left. apply numeral_bound in W, N1. cbn in W, N1. nia.
Qed.
Lemma whole_bound : forall s d, Whole_miles s d -> exists k, dist d = Some k /\ distUnit d = STATUTE_MILES /\ k <= 990000.
Proof.
  intros s d (p & m & n & v & _ & _ & S & ->). eexists. split; [reflexivity|]. split; [reflexivity|]. pose proof (short_bound _ _ S). lia.
Qed.
Lemma fraction_bound : forall s d, Fraction s d -> exists k, dist d = Some k /\ (k <= 495000 \/ k mod 10000 = 0).
Proof.
  intros s d (s1 & s2 & n & q & k & _ & S1 & S2 & -> & B). exists k. split; [reflexivity|]. pose proof (short_bound _ _ S1).
  destruct (N.eq_dec q 1) as [->|Ne].
  - right. assert (E : k = n * 10000) by lia. rewrite E. apply N.mod_mul. lia.
  - left. nia.
Qed.
Definition some_miles (d : Distance) : Prop := exists k, dist d = Some k /\ distUnit d = STATUTE_MILES /\ k < 1500000.
Lemma added_miles : forall a b d s, Whole_miles s a -> (exists k, dist b = Some k /\ (k <= 495000 \/ k mod 10000 = 0)) -> Added a b d -> some_miles d.
Proof.
  intros a b d s W (k & E & K) (m & x & y & -> & -> & _ & Y & ->). destruct (whole_bound _ _ W) as (z & Z & _ & L). cbn in Z, E. injection Z as ->. injection E as ->.
  exists (z + k). repeat split. destruct K; [lia|contradiction].
Qed.
Lemma low_miles : forall ws s d, Low ws s d -> some_miles d.
Proof.
  intros ws s d [a d' M|w x a b d' W M A].
  - destruct (miles_bound _ _ _ M) as (k & E & U & L). exists k. repeat split; try assumption. lia.
  - apply (added_miles _ _ _ _ W) in A; [exact A|]. destruct (miles_bound _ _ _ M) as (k & E & U & L). exists k. split; [exact E|]. destruct L; [left; lia|right; tauto].
Qed.
Lemma high_miles : forall s ws d, High s ws d -> some_miles d.
Proof.
  intros s ws d [a d' M|w x a b d' W M A].
  - destruct (miles_bound _ _ _ M) as (k & E & U & L). exists k. repeat split; try assumption. lia.
  - apply (added_miles _ _ _ _ W) in A; [exact A|]. exact (fraction_bound _ _ M).
Qed.
Lemma miles_comparable : forall lo hi, some_miles lo -> some_miles hi -> comparable lo hi.
Proof.
  intros lo hi (a & A & U & L) (b & B & V & M). split; [eauto|]. split; [congruence|].
  split; intros x X; unfold bounded; [rewrite U|rewrite V]; cbn [DistUnit_beq]; congruence.
Qed.
Lemma meters_measured : forall s d, Meters_number s d -> exists k, d = mkDist (distModifier d) (Some k) METERS /\ k <= 10000.
Proof.
  intros s d [[[E _]|[[_ ->]|(v & N & _ & ->)]] Ne]; [contradiction|exists 10000; split; [reflexivity|lia]|].
  exists v. split; [reflexivity|]. apply numeral_bound in N. cbn in N. lia.
Qed.
Lemma range_comparable : forall ws lo hi, Range ws lo hi -> comparable lo hi.
Proof.
  intros ws lo hi [before a b after low high L H|a b low high L H].
  - apply miles_comparable; [exact (low_miles _ _ _ L)|exact (high_miles _ _ _ H)].
  - destruct (meters_measured _ _ L) as (x & Ex & Bx), (meters_measured _ _ H) as (y & Ey & By). rewrite Ex, Ey.
    split; [exists y; reflexivity|]. split; [reflexivity|]. split; intros z [= <-]; assumption.
Qed.
Lemma visual_measured : forall feet s d, Visual_range feet s d -> measured d /\ distUnit d = (if feet then FEET else METERS) /\ (s <> "////" -> exists k, dist d = Some k).
Proof.
  intros feet s d [[-> ->]|(p & m & n & v & _ & _ & N & ->)].
  - split; [intros a A; discriminate A|]. split; [reflexivity|]. intros X. contradiction.
  - split; [|split; [reflexivity|intros _; exists v; reflexivity]]. intros a A. cbn [dist] in A. injection A as <-. cbn [distUnit]. apply numeral_bound in N. cbn in N.
    unfold bounded. destruct feet; cbn [DistUnit_beq]; lia.
Qed.
Lemma runway_ranged : forall w v, Runway_range w v -> ranged v.
Proof.
  intros w v H. destruct H as [r x e runway feet d t _ _ _|r x y e runway feet low high t _ X Y Ne _|e feet t _ _|y e feet high t Y Ne _ _].
  - left. reflexivity.
  - right. split; [reflexivity|]. cbn [s_minimum s_maximum]. destruct (visual_measured _ _ _ X) as (Mx & Ux & _), (visual_measured _ _ _ Y) as (My & Uy & Sy).
    split; [exact (Sy Ne)|]. split; [congruence|]. split; assumption.
  - left. reflexivity.
  - right. split; [reflexivity|]. cbn [s_minimum s_maximum]. destruct (visual_measured _ _ _ Y) as (My & Uy & Sy).
    split; [exact (Sy Ne)|]. split; [cbn; congruence|]. split; [|assumption]. intros a A. discriminate A.
Qed.
Lemma vis_ranged : forall part ws v, Visibility part ws v -> ranged v.
Proof.
  intros part ws v V. destruct V; try (left; reflexivity);
    try (match goal with R : Runway_range _ _ |- _ => exact (runway_ranged _ _ R) end);
    right; (split; [try reflexivity|cbn [varies s_minimum s_maximum]; eapply range_comparable; eassumption]).
  destruct p; reflexivity.
Qed.

(** ** All kinds *)
Lemma cloud_types_valid : forall l, forallb CloudType_isValid l = true <-> Forall (fun c => 1 <= ctOkt c <= 8) l.
Proof.
  intros l. rewrite forallb_forall, Forall_forall. unfold CloudType_isValid. split; intros H c I; specialize (H c I).
  - apply andb_true_iff in H. lia.
  - apply andb_true_iff. lia.
Qed.
Lemma layers_valid : forall g, LowMidHighCloudGroup_isValid g = true
  <-> (lmh_low g = Lo_NOT_OBSERVABLE -> lmh_mid g = Mi_NOT_OBSERVABLE) /\ (lmh_mid g = Mi_NOT_OBSERVABLE -> lmh_high g = Hi_NOT_OBSERVABLE).
Proof.
  intros [l m h]. unfold LowMidHighCloudGroup_isValid. cbn [lmh_low lmh_mid lmh_high].
  destruct (LowLayer_beq l Lo_NOT_OBSERVABLE) eqn:L, (MidLayer_beq m Mi_NOT_OBSERVABLE) eqn:M, (HighLayer_beq h Hi_NOT_OBSERVABLE) eqn:H; cbn [andb negb];
    repeat match goal with
    | X : LowLayer_beq _ _ = true |- _ => apply internal_LowLayer_dec_bl in X
    | X : MidLayer_beq _ _ = true |- _ => apply internal_MidLayer_dec_bl in X
    | X : HighLayer_beq _ _ = true |- _ => apply internal_HighLayer_dec_bl in X
    | X : LowLayer_beq _ ?v = false |- _ => let Y := fresh in assert (Y : l <> v) by (intros ->; discriminate X); clear X
    | X : MidLayer_beq _ ?v = false |- _ => let Y := fresh in assert (Y : m <> v) by (intros ->; discriminate X); clear X
    | X : HighLayer_beq _ ?v = false |- _ => let Y := fresh in assert (Y : h <> v) by (intros ->; discriminate X); clear X
    end; intuition (try discriminate; try congruence).
Qed.
Lemma minmax_told : forall part ws g, Pf_MinMax.state part ws g ->
  (exists p, Told p (mm_minTemp g) /\ Told p (mm_maxTemp g)) /\ (mm_isIncomplete g = true -> mm_minTemp g = mm_maxTemp g /\ exists x, in_tenths (mm_minTemp g) = Some x).
Proof.
  intros part ws g H.
  assert (F : forall l w t time, forecast_word l w t time -> Told false t /\ exists x, in_tenths t = Some x).
  { intros l w t time (a & b & _ & A & _). split; [exact (whole_told _ _ A)|]. destruct A as (m & d & v & _ & _ & ->). eexists. reflexivity. }
  destruct H as [ws lo hi _ S _|a b lo hi _ A B|l w t time _ L W|w v t time u time' _ W V|w v t time u time' _ W V|w v t time u time' _ W V _|w v t time u time' _ W V _].
  - split; [|discriminate]. exists true. cbn.
    assert (G : (forall t, lo = Some t -> Told true t) /\ (forall t, hi = Some t -> Told true t)).
    { clear -S. induction S as [|ws w lo hi S IH _ _|ws s lo t S IH T|ws s hi t S IH T].
      - split; discriminate.
      - exact IH.
      - split; [apply IH|]. intros x [= <-]. exact (tenths_told _ _ T).
      - split; [|apply IH]. intros x [= <-]. exact (tenths_told _ _ T). }
    destruct G as [G1 G2]. split; [destruct lo as [x|]; [exact (G1 x eq_refl)|left; reflexivity]|destruct hi as [x|]; [exact (G2 x eq_refl)|left; reflexivity]].
  - split; [|discriminate]. exists true. cbn. split; [exact (tenths_told _ _ B)|exact (tenths_told _ _ A)].
  - destruct (F _ _ _ _ W) as [T X]. cbn in L. destruct L as [<-|[<-|[<-|[]]]]; cbn.
    + split; [exists false; auto|]. intros _. auto.
    + split; [exists false; split; [left; reflexivity|exact T]|discriminate].
    + split; [exists false; split; [exact T|left; reflexivity]|discriminate].
  - split; [|discriminate]. exists false. cbn. split; [apply (F _ _ _ _ V)|apply (F _ _ _ _ W)].
  - split; [|discriminate]. exists false. cbn. split; [apply (F _ _ _ _ W)|apply (F _ _ _ _ V)].
  - split; [|discriminate]. exists false. cbn. split; [apply (F _ _ _ _ W)|apply (F _ _ _ _ V)].
  - split; [|discriminate]. exists false. cbn. split; [apply (F _ _ _ _ V)|apply (F _ _ _ _ W)].
Qed.
Lemma ok_iff : forall b P, (b = true <-> P) -> (Ok b = Ok true <-> P).
Proof. intros b P H. rewrite <- H. split; [intros [= ->]; reflexivity|intros ->; reflexivity]. Qed.
Lemma no_shadow : forall (P : Prop), P <-> P /\ ~ False.
Proof. tauto. Qed.
Theorem result_valid : forall sgn report limit r, parse sgn report limit = Ok r ->
  forall g part raw, In (mkGroupInfo g part raw) (pr_groups r) -> raw <> "" ->
  (Group_isValid g = Ok true <-> valid_group g /\ ~ very_strong_wind g).
Proof.
  intros sgn report limit r E g part raw Hi N.
  pose proof (fun W => result_waits _ _ _ _ E _ _ _ Hi N W) as Wt. pose proof (Pf_Built.built_from_words _ _ _ _ E _ _ _ Hi N) as B.
  destruct g as [k|k|k|k|k|k|k|k|k|k|k|k|k|k|k|k|k|k|k|k|k|k]; cbn [Group_isValid valid_group very_strong_wind];
    try (rewrite <- no_shadow); try apply ok_iff.
  - cbn. tauto.
  - cbn. tauto.
  - (* report time *) unfold ReportTimeGroup_isValid. rewrite <- time_proper, andb_true_iff. split; [tauto|]. intros V. split; [exact V|].
    refine (Pf_WeatherWords.built_kind part (fun _ g => match g with GReportTime x => has_value (dayValue (rt_t x)) = true | _ => True end) _ _ _ _ _ _ B).
    + exact (fun _ => I).
    + intros w md [] P; try exact I. cbn in P. unfold ReportTimeGroup_parse in P.
      destruct (negb (is_part part RP_HEADER)); [discriminate P|]. destruct (negb (is_match rgx_reporttime w)); [discriminate P|].
      destruct (substr w 0 6); cbn [bind] in P; [|discriminate P]. destruct (MetafTime_fromStringDDHHMM _) as [[t|]|]; cbn [bind] in P; try discriminate P.
      destruct (has_value (dayValue t)) eqn:D; cbn [negb] in P; [|discriminate P]. injection P as <-. exact D.
    + intros ws w md [] [] _ IH A; try exact I; try contradiction. cbn in A. unfold ReportTimeGroup_append in A. discriminate A.
    + intros ws w part' md [] [] _ IH A; try exact I; try contradiction. cbn in A. unfold ReportTimeGroup_append in A. injection A as <-. exact IH.
  - (* trend *) unfold TrendGroup_isValid, time_ok. rewrite !andb_true_iff, !(any_iff _ _ _ _ time_proper).
    assert (X : negb (TrType_beq (tr_t k) Tr_PROB) = true <-> tr_t k <> Tr_PROB) by (destruct (tr_t k); cbn; split; congruence).
    rewrite X. tauto.
  - (* wind *) pose proof (Pf_WindWords.result_wind _ _ _ _ E _ _ _ Hi N) as W. destruct (wind_bounds _ _ _ _ W) as [S H]. apply wind_valid; [|exact S|exact H].
    destruct (waiting (GWind k)) eqn:X; [apply (Wt eq_refl)|]. cbn in X. apply orb_false_iff in X as [X _]. apply negb_false_iff in X. apply internal_WiInc_dec_bl in X. exact X.
  - (* visibility *) pose proof (built_vis _ _ _ B) as S.
    assert (C : vi_inc k = ViI_NONE).
    { destruct (waiting (GVisibility k)) eqn:W; [destruct (Wt eq_refl)|]. cbn in W. apply negb_false_iff in W. apply internal_ViInc_dec_bl in W. exact W. }
    destruct (completed_told _ _ _ S) as (v & V & Ek); [rewrite C; reflexivity|]. rewrite C in Ek. rewrite Ek. apply vis_valid. exact (vis_ranged _ _ _ V).
  - (* cloud *) unfold CloudGroup_isValid. rewrite andb_true_iff, (any_iff _ _ _ _ direction_proper), (any_iff _ _ _ _ runway_proper). tauto.
  - (* weather *) unfold WeatherGroup_isValid. destruct (waiting (GWeather k)) eqn:W; [destruct (Wt eq_refl)|]. cbn in W. rewrite W. apply all_proper.
  - (* temperature *) apply temperature_valid; [|exact (temperatures_told _ _ _ _ _ (Pf_Temperatures.result_temperature _ _ _ _ E _ _ _ Hi N))].
    destruct (waiting (GTemperature k)) eqn:W; [destruct (Wt eq_refl)|exact W].
  - (* pressure *) unfold PressureGroup_isValid. destruct (waiting (GPressure k)) eqn:W; [destruct (Wt eq_refl)|]. cbn in W. rewrite W. cbn. tauto.
  - (* runway state *) unfold RunwayStateGroup_isValid. rewrite andb_true_iff, runway_proper. unfold reserved_extents.
    assert (X : match rs_ext k with Ex_RESERVED_3 | Ex_RESERVED_4 | Ex_RESERVED_6 | Ex_RESERVED_7 | Ex_RESERVED_8 => false | _ => true end = true
      <-> ~ In (rs_ext k) [Ex_RESERVED_3; Ex_RESERVED_4; Ex_RESERVED_6; Ex_RESERVED_7; Ex_RESERVED_8]).
    { destruct (rs_ext k); cbn; split; try reflexivity; try discriminate; intuition discriminate. }
    rewrite X. reflexivity.
  - cbn. tauto.
  - (* minimum and maximum *) destruct (minmax_told _ _ _ (Pf_MinMax.assembled_state _ _ _ (Pf_MinMax.built_minmax _ _ _ B))) as ((p & L & H) & Inc).
    destruct (mm_isIncomplete k) eqn:I; [|exact (minmax_valid _ _ I L H)]. unfold MinMaxTemperatureGroup_isValid. rewrite I. split; [discriminate|].
    intros (X & _). destruct (Inc eq_refl) as (Eq & x & T). unfold below in X. rewrite <- Eq in X. specialize (X _ _ T T). lia.
  - (* precipitation *) unfold PrecipitationGroup_isValid. destruct (pc_isIncomplete k) eqn:W; cbn [negb]; [|tauto].
    assert (Y : waiting (GPrecipitation k) = true) by (cbn; rewrite W; reflexivity). destruct (Wt Y) as [Z _]. congruence.
  - cbn. tauto.
  - cbn. tauto.
  - apply cloud_types_valid.
  - apply layers_valid.
  - unfold LightningGroup_isValid. rewrite negb_true_iff. reflexivity.
  - (* vicinity *) unfold VicinityGroup_isValid. destruct (waiting (GVicinity k)) eqn:W; [destruct (Wt eq_refl)|]. cbn in W. apply negb_false_iff in W. rewrite W. tauto.
  - (* miscellaneous *) unfold MiscGroup_isValid. destruct (waiting (GMisc k)) eqn:W; [destruct (Wt eq_refl)|]. cbn in W. apply negb_false_iff in W. rewrite W. tauto.
  - cbn. tauto.
Qed.

(** ** Witnesses against the documentation *)
Definition result_of (report : string) : ParseResult := match parse true report 100 with Ok r => r | Bad _ => mkParseResult md_default [] end.
Definition wind_report : string := "METAR EGLL 171520Z 270999KT".
Definition wind_result : ParseResult := Eval vm_compute in result_of wind_report.
Definition wind_parsed : parse true wind_report 100 = Ok wind_result.
Proof. vm_compute. reflexivity. Qed.
Definition wind_group : WindGroup :=
  Eval vm_compute in match nth 3 (pr_groups wind_result) (mkGroupInfo (GUnknown mkUnknown) RP_UNKNOWN "") with mkGroupInfo (GWind g) _ _ => g | _ => Wind_ofType Wi_SURFACE_WIND WiI_NONE end.
Lemma strong_wind_invalid :
  ~ (forall (char_signed : bool) (report : string) (limit : nat) (r : ParseResult),
      parse char_signed report limit = Ok r ->
      forall (g : Group) (part : ReportPart) (raw : string),
        In (mkGroupInfo g part raw) (pr_groups r) -> raw <> "" -> valid_group g -> Group_isValid g = Ok true).
Proof.
  intros H. specialize (H true wind_report 100%nat wind_result wind_parsed (GWind wind_group) RP_METAR "270999KT").
  assert (X : Group_isValid (GWind wind_group) = Ok true).
  { apply H; [right; right; right; left; reflexivity|discriminate|]. cbn. unfold valid_wind, if_any, proper_direction, Direction_degrees. cbn.
    split; [discriminate|]. split; [discriminate|]. repeat match goal with |- _ /\ _ => split end; intros z Ez; try discriminate Ez; injection Ez as <-; lia. }
  vm_compute in X. discriminate X.
Qed.
Definition types_report : string := "METAR EGLL 171520Z RMK CU0".
Definition types_result : ParseResult := Eval vm_compute in result_of types_report.
Definition types_parsed : parse true types_report 100 = Ok types_result.
Proof. vm_compute. reflexivity. Qed.
Definition types_group : CloudTypesGroup :=
  Eval vm_compute in match nth 4 (pr_groups types_result) (mkGroupInfo (GUnknown mkUnknown) RP_UNKNOWN "") with mkGroupInfo (GCloudTypes g) _ _ => g | _ => mkCloudTypes [] end.
Lemma cloud_types_invalid :
  ~ (forall (char_signed : bool) (report : string) (limit : nat) (r : ParseResult),
      parse char_signed report limit = Ok r ->
      forall (g : CloudTypesGroup) (part : ReportPart) (raw : string),
        In (mkGroupInfo (GCloudTypes g) part raw) (pr_groups r) -> raw <> "" -> CloudTypesGroup_isValid g = true).
Proof.
  intros H. specialize (H true types_report 100%nat types_result types_parsed types_group RP_RMK "CU0").
  assert (X : CloudTypesGroup_isValid types_group = true) by (apply H; [right; right; right; right; left; reflexivity|discriminate]).
  vm_compute in X. discriminate X.
Qed.
Definition equal_report : string := "TAF EGLL 171520Z 1718/1818 27005KT TX05/1718Z TN05/1803Z".
Definition equal_result : ParseResult := Eval vm_compute in result_of equal_report.
Definition equal_parsed : parse true equal_report 100 = Ok equal_result.
Proof. vm_compute. reflexivity. Qed.
Definition equal_group : MinMaxTemperatureGroup :=
  Eval vm_compute in match nth 5 (pr_groups equal_result) (mkGroupInfo (GUnknown mkUnknown) RP_UNKNOWN "") with mkGroupInfo (GMinMaxTemperature g) _ _ => g | _ => mkMinMax Mm_FORECAST Temperature_default Temperature_default None None false end.
Definition apart_report : string := "TAF EGLL 171520Z 1718/1818 27005KT TX06/1718Z TN05/1803Z".
Definition apart_result : ParseResult := Eval vm_compute in result_of apart_report.
Definition apart_parsed : parse true apart_report 100 = Ok apart_result.
Proof. vm_compute. reflexivity. Qed.
Definition apart_group : MinMaxTemperatureGroup :=
  Eval vm_compute in match nth 5 (pr_groups apart_result) (mkGroupInfo (GUnknown mkUnknown) RP_UNKNOWN "") with mkGroupInfo (GMinMaxTemperature g) _ _ => g | _ => mkMinMax Mm_FORECAST Temperature_default Temperature_default None None false end.
Lemma minmax_documented :
  (exists (char_signed : bool) (report : string) (limit : nat) (r : ParseResult) (g : MinMaxTemperatureGroup) (part : ReportPart) (raw : string),
     parse char_signed report limit = Ok r /\ In (mkGroupInfo (GMinMaxTemperature g) part raw) (pr_groups r) /\ raw <> ""
     /\ in_tenths (mm_minTemp g) = in_tenths (mm_maxTemp g) /\ in_tenths (mm_minTemp g) <> None /\ mm_isIncomplete g = false
     /\ MinMaxTemperatureGroup_isValid g = false)
  /\ (exists (char_signed : bool) (report : string) (limit : nat) (r : ParseResult) (g : MinMaxTemperatureGroup) (part : ReportPart) (raw : string),
     parse char_signed report limit = Ok r /\ In (mkGroupInfo (GMinMaxTemperature g) part raw) (pr_groups r) /\ raw <> ""
     /\ (exists x y, in_tenths (mm_minTemp g) = Some x /\ in_tenths (mm_maxTemp g) = Some y /\ x < y)%Z
     /\ MinMaxTemperatureGroup_isValid g = true).
Proof.
  split.
  - exists true, equal_report, 100%nat, equal_result, equal_group, RP_TAF, "TX05/1718Z TN05/1803Z".
    split; [exact equal_parsed|]. split; [right; right; right; right; right; left; reflexivity|]. split; [discriminate|].
    split; [reflexivity|]. split; [discriminate|]. split; vm_compute; reflexivity.
  - exists true, apart_report, 100%nat, apart_result, apart_group, RP_TAF, "TX06/1718Z TN05/1803Z".
    split; [exact apart_parsed|]. split; [right; right; right; right; right; left; reflexivity|]. split; [discriminate|].
    split; [exists 50%Z, 60%Z; repeat split; reflexivity|]. vm_compute; reflexivity.
Qed.
