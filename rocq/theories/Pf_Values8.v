(** What the value parsers return, in terms of the numbers reported (C25, C35-C38). *)
From Coq Require Import QArith Qabs.
From Verif Require Import Prim Lib Regex Float Values Groups3 SpecNumeral Pf_Numeral Pf_Values1 Pf_Values2 SpecMiles Pf_Values3 Pf_Values4 Pf_Values5 SpecReal SpecScale Pf_Values7.
From Coq Require Import Lia ZifyBool ZifyN ZifyNat.
Local Open Scope string_scope.
Local Open Scope N_scope.

Lemma temperature_value : forall s t, Temperature_fromString s = Ok (Some t) ->
  (s = "//" /\ Temperature_temperature t = None /\ freezing t = false)
  \/ exists (minus : bool) d v x, s = (if minus then "M" else "") ++ d /\ numeral 2 d v
     /\ Temperature_temperature t = Some x /\ is_exactly x (signed_value minus v 1) /\ freezing t = minus.
Proof.
  intros s t H; apply temperature_parse in H; destruct H as [[-> ->]|[(v & N & ->)|(d & v & -> & N & ->)]]; [auto| |]; right.
  - pose proof (numeral_bound _ _ _ N) as B; destruct (degrees_exact false v false) as (x & E & X); [cbn in B; lia|].
    exists false, s, v, x; auto.
  - pose proof (numeral_bound _ _ _ N) as B; destruct (degrees_exact true v true) as (x & E & X); [cbn in B; lia|].
    exists true, d, v, x; auto.
Qed.
Lemma remark_temperature_value : forall s t, Temperature_fromRemarkString s = Ok (Some t) ->
  exists (minus : bool) d v x, s = (if minus then "1" else "0") ++ d /\ numeral 3 d v
     /\ Temperature_temperature t = Some x /\ within (1 # 100000) x (signed_value minus v 10) /\ freezing t = (minus && negb (v =? 0))%bool.
Proof.
  intros s t H; apply remark_temperature_parse in H; destruct H as [(d & v & -> & N & ->)|(d & v & -> & N & ->)].
  - pose proof (numeral_bound _ _ _ N) as B; destruct (degree_tenths_close false v false) as (x & E & X); [cbn in B; lia|].
    exists false, d, v, x; auto.
  - pose proof (numeral_bound _ _ _ N) as B; destruct (degree_tenths_close true v (negb (v =? 0))) as (x & E & X); [cbn in B; lia|].
    exists true, d, v, x; auto.
Qed.
Lemma fahrenheit : forall s t, Temperature_fromString s = Ok (Some t) \/ Temperature_fromRemarkString s = Ok (Some t) ->
  Temperature_toUnit t Temp_C = Temperature_temperature t
  /\ match Temperature_temperature t with
     | None => Temperature_toUnit t Temp_F = None
     | Some _ => exists q f, (exists c, Temperature_temperature t = Some c /\ within (1 # 100000) c q)
         /\ Temperature_toUnit t Temp_F = Some f /\ within (1 # 10000) f (q * (9 # 5) + 32)
     end.
Proof.
  assert (Ex : forall x q, is_exactly x q -> within (1 # 100000) x q).
  { intros x q (v & E & Q); exists v; split; [exact E|]; rewrite Q; unfold Qminus; rewrite Qplus_opp_r; cbn; unfold Qle; cbn; lia. }
  intros s t H; split; [unfold Temperature_toUnit; destruct (Temperature_temperature t); reflexivity|].
  destruct H as [H|H].
  - apply temperature_parse in H; destruct H as [[-> ->]|[(v & N & ->)|(d & v & -> & N & ->)]]; [reflexivity| |];
      pose proof (numeral_bound _ _ _ N) as B; cbn in B.
    + destruct (degrees_exact false v false) as (x & E & X); [lia|]; unfold signed in E; rewrite E; destruct (fahrenheit_degrees false v false) as (f & F & W); [lia|].
      exists (Z.of_N v # 1)%Q, f; split; [exists x; auto|]; auto.
    + destruct (degrees_exact true v true) as (x & E & X); [lia|]; unfold signed in E; rewrite E; destruct (fahrenheit_degrees true v true) as (f & F & W); [lia|].
      exists (- Z.of_N v # 1)%Q, f; split; [exists x; auto|]; auto.
  - apply remark_temperature_parse in H; destruct H as [(d & v & -> & N & ->)|(d & v & -> & N & ->)];
      pose proof (numeral_bound _ _ _ N) as B; cbn in B.
    + destruct (degree_tenths_close false v false) as (x & E & X); [lia|]; unfold signed in E; rewrite E; destruct (fahrenheit_tenths false v false) as (f & F & W); [lia|].
      exists (Z.of_N v # 10)%Q, f; split; [exists x; auto|]; auto.
    + destruct (degree_tenths_close true v (negb (v =? 0))) as (x & E & X); [lia|]; unfold signed in E; rewrite E; destruct (fahrenheit_tenths true v (negb (v =? 0))) as (f & F & W); [lia|].
      exists (- Z.of_N v # 10)%Q, f; split; [exists x; auto|]; auto.
Qed.

Lemma pressure_value : forall s p, Pressure_fromString s = Ok (Some p) ->
  (s = "A////" /\ p = mkPressure None INCHES_HG) \/ (s = "Q////" /\ p = mkPressure None HECTOPASCAL)
  \/ (exists d v x, s = "A" ++ d /\ numeral 4 d v /\ p = mkPressure (Some x) INCHES_HG /\ within (1 # 100000) x (parts v 100))
  \/ (exists d v x, s = "Q" ++ d /\ numeral 4 d v /\ p = mkPressure (Some x) HECTOPASCAL /\ is_exactly x (parts v 1)).
Proof.
  intros s p H; apply pressure_parse in H; destruct H as [H|[H|[(d & v & -> & N & ->)|(d & v & -> & N & ->)]]]; auto; right; right;
    pose proof (numeral_bound _ _ _ N) as B; cbn in B; [left|right]; eexists d, v, _; repeat (split; [eauto|]).
  - apply hundredths_close; lia.
  - apply whole_exact; lia.
Qed.
Lemma forecast_pressure_value : forall s p, Pressure_fromForecastString s = Ok (Some p) ->
  exists d v x, s = "QNH" ++ d ++ "INS" /\ numeral 4 d v /\ p = mkPressure (Some x) INCHES_HG /\ within (1 # 100000) x (parts v 100).
Proof.
  intros s p H; apply forecast_pressure_parse in H; destruct H as (d & v & -> & N & ->); pose proof (numeral_bound _ _ _ N) as B; cbn in B.
  eexists d, v, _; repeat (split; [eauto|]); apply hundredths_close; lia.
Qed.
Lemma slp_value_ok : forall s p, Pressure_fromSlpString s = Ok (Some p) ->
  exists d v x q, s = "SLP" ++ d /\ numeral 3 d v /\ p = mkPressure (Some x) HECTOPASCAL /\ within (1 # 10000) x q
    /\ (exists hundreds : Z, q == parts v 10 + (hundreds * 100 # 1))%Q /\ (950 <= q /\ q < 1050)%Q.
Proof.
  intros s p H; apply slp_parse in H; destruct H as (d & v & -> & N & ->); pose proof (numeral_bound _ _ _ N) as B; cbn in B.
  eexists d, v, _, _; split; [reflexivity|]; split; [exact N|]; split; [reflexivity|]; split; [apply slp_close; lia|].
  unfold parts; destruct (N.ltb_spec v 500) as [L|L]; split; [exists 10%Z; reflexivity | | exists 9%Z; reflexivity |]; unfold Qle, Qlt, Qplus; cbn; lia.
Qed.
Lemma qfe_value : forall s p, Pressure_fromQfeString s = Ok (Some p) ->
  exists d v rest x, s = "QFE" ++ d ++ rest /\ numeral 3 d v /\ p = mkPressure (Some x) MM_HG /\ is_exactly x (parts v 1)
    /\ (rest = "" \/ exists d2 v2, rest = "/" ++ d2 /\ numeral 4 d2 v2).
Proof.
  intros s p H; apply qfe_parse in H; destruct H as (d & v & rest & -> & N & -> & R); pose proof (numeral_bound _ _ _ N) as B; cbn in B.
  eexists d, v, rest, _; repeat (split; [eauto|]); [apply whole_exact; lia | exact R].
Qed.
Lemma tendency_value : forall s p, Pressure_fromTendencyString s = Ok (Some p) ->
  (s = "///" /\ p = mkPressure None HECTOPASCAL)
  \/ exists v x, numeral 3 s v /\ p = mkPressure (Some x) HECTOPASCAL /\ within (1 # 100000) x (parts v 10).
Proof.
  intros s p H; apply tendency_parse in H; destruct H as [H|(v & N & ->)]; [auto|]; right; pose proof (numeral_bound _ _ _ N) as B; cbn in B.
  eexists v, _; repeat (split; [eauto|]); apply tendency_close; lia.
Qed.

Lemma rainfall_value : forall s p, Precipitation_fromRainfallString s = Ok (Some p) ->
  ((s = "///./" \/ s = "//./") /\ p = mkPrecip None MM)
  \/ exists i f a b x, s = i ++ "." ++ f /\ (numeral 2 i a \/ numeral 3 i a) /\ numeral 1 f b
     /\ p = mkPrecip (Some x) MM /\ within (1 # 10000) x (parts (10 * a + b) 10).
Proof.
  intros s p H; apply rainfall_parse in H; destruct H as [H|(i & f & a & b & -> & Ni & Nf & ->)]; [auto|]; right.
  assert (A : a < 1000) by (destruct Ni as [Ni|Ni]; apply numeral_bound in Ni; cbn in Ni; lia).
  pose proof (numeral_bound _ _ _ Nf) as B; cbn in B.
  eexists i, f, a, b, _; repeat (split; [eauto|]); apply rain_close; lia.
Qed.
Lemma deposits_value : forall s p, Precipitation_fromRunwayDeposits s = Ok (Some p) ->
  (s = "//" /\ p = mkPrecip None MM)
  \/ exists v, numeral 2 s v /\ v <> 91
     /\ match deposit_depth v with
        | None => p = mkPrecip None MM
        | Some mm => exists x, p = mkPrecip (Some x) MM /\ is_exactly x (parts mm 1)
        end.
Proof.
  intros s p H; apply deposits_parse in H; destruct H as [H|(v & N & Z & ->)]; [auto|]; right; exists v; split; [exact N|]; split; [exact Z|].
  pose proof (numeral_bound _ _ _ N) as B; change (v < 100) in B.
  assert (E : deposit_depth v = deposit_mm v).
  { apply in_upto with (n := 100%nat) in B; unfold upto in B; cbn [seq map] in B.
    repeat (destruct B as [<-|B]; [reflexivity|]); destruct B. }
  rewrite E; assert (L : forall mm, deposit_mm v = Some mm -> mm < 1000).
  { unfold deposit_mm; intros mm; destruct (N.eqb_spec v 99); [discriminate|]; destruct (N.leb_spec 92 v); intros Q; apply (f_equal (fun o => match o with Some x => x | None => 0 end)) in Q; cbv beta iota in Q; lia. }
  destruct (deposit_mm v) as [mm|]; [|reflexivity]; specialize (L _ eq_refl).
  eexists; split; [reflexivity|]; apply whole_exact; lia.
Qed.
Lemma amount_value : forall t s allow p, Precipitation_fromRemarkString s (Precip_factorFromType t) (Precip_unitFromType t) allow = Ok (Some p) ->
  ((s = "///" \/ s = "////") /\ p = mkPrecip None (amount_unit t))
  \/ exists v x, (numeral 3 s v \/ numeral 4 s v) /\ p = mkPrecip (Some x) (amount_unit t) /\ within (1 # 10000) x (parts v (amount_step t)).
Proof.
  assert (Ex : forall x q, is_exactly x q -> within (1 # 10000) x q).
  { intros x q (v & E & Q); exists v; split; [exact E|]; rewrite Q; unfold Qminus; rewrite Qplus_opp_r; cbn; unfold Qle; cbn; lia. }
  assert (Le : forall x q, within (1 # 100000) x q -> within (1 # 10000) x q).
  { intros x q (v & E & Q); exists v; split; [exact E|]; eapply Qle_trans; [exact Q|]; unfold Qle; cbn; lia. }
  intros t s allow p H; apply remark_precip_parse in H; destruct H as [(H & _ & ->)|(v & N & ->)].
  - left; split; [exact H|]; destruct t; reflexivity.
  - right; assert (B : v < 10000) by (destruct N as [N|N]; apply numeral_bound in N; cbn in N; lia).
    eexists v, _; split; [exact N|]; split; [f_equal; destruct t; reflexivity|].
    destruct t; cbn [Precip_factorFromType amount_step];
      match goal with
      | |- within _ _ (parts _ 10) => apply tenths_close; lia
      | |- within _ _ (parts _ 100) => apply Le, hundredths_close; lia
      | |- within _ _ (parts _ 1) => apply Ex, ones_exact; lia
      end.
Qed.
Lemma snincr_value : forall s r, Precipitation_fromSnincrString s = Ok (Some r) ->
  exists a b n m x y, s = a ++ "/" ++ b /\ short_numeral a n /\ short_numeral b m
    /\ r = (mkPrecip (Some x) INCHES, mkPrecip (Some y) INCHES) /\ is_exactly x (parts n 1) /\ is_exactly y (parts m 1).
Proof.
  intros s r H; apply snincr_parse in H; destruct H as (a & b & n & m & -> & A & B & ->).
  pose proof (short_bound _ _ A); pose proof (short_bound _ _ B).
  eexists a, b, n, m, _, _; repeat (split; [eauto|]); apply whole_exact; lia.
Qed.

(** ** Sea surface *)
Lemma sea_monotone : forall a b t u, a <= b -> (sea_rank (WaveHeight_stateOfSurface (mkWh t (Some a))) <= sea_rank (WaveHeight_stateOfSurface (mkWh u (Some b))))%nat.
Proof.
  intros a b t u L; unfold WaveHeight_stateOfSurface; cbn [whValue].
  repeat match goal with |- context [if ?c then _ else _] => destruct c eqn:?; cbn [sea_rank]; try lia end.
Qed.
Lemma sea_codes : forall s st, In (s, st) sea_states -> exists w, WaveHeight_fromString s = Ok (Some w) /\ whType w = Wh_STATE_OF_SURFACE /\ WaveHeight_stateOfSurface w = st.
Proof.
  intros s st I; unfold sea_states in I; cbn [In] in I; repeat (destruct I as [I|I]; [injection I as <- <-; eexists; split; [vm_compute; reflexivity|split; reflexivity]|]); destruct I.
Qed.
Lemma wave_value : forall s w, WaveHeight_fromString s = Ok (Some w) ->
  (s = "S/" /\ w = mkWh Wh_STATE_OF_SURFACE None) \/ (s = "H///" /\ w = mkWh Wh_WAVE_HEIGHT None)
  \/ (exists st, In (s, st) sea_states /\ whType w = Wh_STATE_OF_SURFACE /\ WaveHeight_stateOfSurface w = st)
  \/ (exists d v x, s = "H" ++ d /\ (numeral 1 d v \/ numeral 2 d v \/ numeral 3 d v)
       /\ whType w = Wh_WAVE_HEIGHT /\ WaveHeight_waveHeight w = Some x /\ within (1 # 100000) x (parts v 10)).
Proof.
  intros s w H; apply wave_parse in H; destruct H as [H|[H|[(h & I & ->)|(d & n & v & -> & I & N & ->)]]]; auto; right; right.
  - left; unfold sea_state_codes in I; cbn [In] in I.
    repeat (destruct I as [I|I]; [injection I as <- <-; eexists; split; [unfold sea_states; cbn [In]; auto 12|split; reflexivity]|]); destruct I.
  - right; assert (B : v < 1000) by (cbn [In] in I; destruct I as [<-|[<-|[<-|[]]]]; apply numeral_bound in N; cbn in N; lia).
    destruct (wave_close v Wh_WAVE_HEIGHT ltac:(lia)) as (x & E & X); exists d, v, x; split; [reflexivity|].
    split; [cbn [In] in I; destruct I as [<-|[<-|[<-|[]]]]; auto|]; auto.
Qed.

(** ** Runway friction *)
Lemma braking_monotone : forall a b t u, a <= b ->
  (t = Sf_SURFACE_FRICTION_REPORTED \/ t = Sf_BRAKING_ACTION_REPORTED) -> (u = Sf_SURFACE_FRICTION_REPORTED \/ u = Sf_BRAKING_ACTION_REPORTED) ->
  (braking_rank (SurfaceFriction_brakingAction (mkSf t a)) <= braking_rank (SurfaceFriction_brakingAction (mkSf u b)))%nat.
Proof.
  intros a b t u L T U; unfold SurfaceFriction_brakingAction; destruct T as [->| ->]; destruct U as [->| ->]; cbn [sfType sfCoefficient];
    repeat match goal with |- context [if ?c then _ else _] => destruct c eqn:?; cbn [braking_rank]; try lia end.
Qed.
Lemma friction_value : forall s f, SurfaceFriction_fromString s = Ok (Some f) ->
  (s = "//" /\ SurfaceFriction_isReported f = false) \/ (s = "99" /\ SurfaceFriction_isUnreliable f = true)
  \/ (exists ba, In (s, ba) braking_codes /\ sfType f = Sf_BRAKING_ACTION_REPORTED /\ SurfaceFriction_brakingAction f = ba)
  \/ (exists v x, numeral 2 s v /\ v <= 90 /\ sfType f = Sf_SURFACE_FRICTION_REPORTED
       /\ SurfaceFriction_coefficient f = Some x /\ within (1 # 1000000) x (parts v 100)).
Proof.
  intros s f H; apply friction_parse in H; destruct H as [[-> ->]|[[-> ->]|[I|(v & N & B & ->)]]]; auto; right; right.
  - left; cbn [In] in I; repeat (destruct I as [I|I]; [injection I as <- <-; eexists; split; [unfold braking_codes; cbn [In]; auto 12|split; reflexivity]|]); destruct I.
  - right; destruct (friction_close v Sf_SURFACE_FRICTION_REPORTED ltac:(lia) (or_introl eq_refl)) as (x & E & X); exists v, x; auto.
Qed.
Lemma braking_codes_accepted : forall s ba, In (s, ba) braking_codes -> exists f, SurfaceFriction_fromString s = Ok (Some f) /\ SurfaceFriction_brakingAction f = ba.
Proof. intros s ba I; unfold braking_codes in I; cbn [In] in I; repeat (destruct I as [I|I]; [injection I as <- <-; eexists; split; vm_compute; reflexivity|]); destruct I. Qed.
Lemma minus_zero : exists t x, Temperature_fromRemarkString "1000" = Ok (Some t) /\ Temperature_temperature t = Some x /\ is_exactly x 0 /\ freezing t = false.
Proof. eexists _, _; split; [vm_compute; reflexivity|]; split; [vm_compute; reflexivity|]; split; [eexists; split; [reflexivity|]; reflexivity|reflexivity]. Qed.
