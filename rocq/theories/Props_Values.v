(** C22-C26, C35-C38: what the values decoded from a report are. *)
From Coq Require Import QArith Qabs.
From Verif Require Import Prim Regex Float Values Groups3.
From Verif Require Import SpecNumeral SpecMiles SpecReal SpecDate SpecScale.
From Verif Require Import Pf_Values1 Pf_Values6 Pf_Values8 Pf_Values9.
Local Open Scope string_scope.
Local Open Scope N_scope.

(** ** C22 *)

Theorem C22_time :
  forall (s : string) (t : MetafTime),
    MetafTime_fromStringDDHHMM s = Ok (Some t)
    <-> (exists h m hour minute, s = h ++ m /\ numeral 2 h hour /\ numeral 2 m minute
         /\ t = mkTime None hour minute)
        \/ (exists d h m day hour minute, s = d ++ h ++ m
            /\ numeral 2 d day /\ numeral 2 h hour /\ numeral 2 m minute /\ t = mkTime (Some day) hour minute).
Proof. exact time_parse. Qed.
Print Assumptions C22_time.
Theorem C22_day_and_hour :
  forall (s : string) (t : MetafTime),
    MetafTime_fromStringDDHH s = Ok (Some t)
    <-> exists d h day hour, s = d ++ h /\ numeral 2 d day /\ numeral 2 h hour /\ t = mkTime (Some day) hour 0.
Proof. exact day_hour_parse. Qed.
Print Assumptions C22_day_and_hour.
Theorem C22_valid :
  forall t : MetafTime,
    MetafTime_isValid t = true
    <-> (dayValue t = None \/ exists d, dayValue t = Some d /\ 1 <= d <= 31)
        /\ hourValue t <= 24 /\ minuteValue t <= 59.
Proof. exact time_valid. Qed.
Print Assumptions C22_valid.
Example C22_nonvacuous :
  MetafTime_fromStringDDHHMM "312459" = Ok (Some (mkTime (Some 31) 24 59))
  /\ MetafTime_isValid (mkTime (Some 31) 24 59) = true /\ MetafTime_isValid (mkTime (Some 32) 24 59) = false.
Proof. repeat split; vm_compute; reflexivity. Qed.

(** ** C23 *)

(** The date has the given day, is not later than the reference date, and is the latest such date. *)
Theorem C23_latest_date :
  forall (t : MetafTime) (ref : Date) (day : N),
    dayValue t = Some day -> month_ok ref -> 0 < date_year ref < 4294967296 ->
    let r := MetafTime_dateBeforeRef t ref in
    date_day r = day /\ month_ok r /\ date_le r ref
    /\ (forall x, date_day x = day -> month_ok x -> date_le x ref -> date_le x r).
Proof. exact date_before. Qed.
Print Assumptions C23_latest_date.
Theorem C23_no_day :
  forall (t : MetafTime) (ref : Date), dayValue t = None -> MetafTime_dateBeforeRef t ref = ref.
Proof. exact date_no_day. Qed.
Print Assumptions C23_no_day.
Example C23_nonvacuous :
  MetafTime_dateBeforeRef (mkTime (Some 31) 12 0) (mkDate 2020 1 15) = mkDate 2019 12 31
  /\ MetafTime_dateBeforeRef (mkTime (Some 15) 12 0) (mkDate 2020 1 15) = mkDate 2020 1 15.
Proof. split; reflexivity. Qed.

(** ** C24 *)

(** From one hour before 03, 09, 15 or 21 o'clock to less than one hour after *)
Theorem C24_three_hourly_partial :
  forall t : MetafTime, hourValue t < 24 -> minuteValue t < 60 ->
    (MetafTime_is3hourlyReportTime t = true
     <-> exists c, In c [180; 540; 900; 1260] /\ c <= minutes t + 60 < c + 120).
Proof. exact hourly3. Qed.
Print Assumptions C24_three_hourly_partial.
(** From one hour before 00, 06, 12 or 18 o'clock to less than one hour after *)
Theorem C24_six_hourly_partial :
  forall t : MetafTime, hourValue t < 24 -> minuteValue t < 60 ->
    (MetafTime_is6hourlyReportTime t = true
     <-> exists c, In c [0; 360; 720; 1080; 1440] /\ c <= minutes t + 60 < c + 120).
Proof. exact hourly6. Qed.
Print Assumptions C24_six_hourly_partial.
Theorem C24_exclusive :
  forall t : MetafTime,
    ~ (MetafTime_is3hourlyReportTime t = true /\ MetafTime_is6hourlyReportTime t = true).
Proof. exact hourly_not_both. Qed.
Print Assumptions C24_exclusive.
Example C24_nonvacuous :
  MetafTime_is3hourlyReportTime (mkTime (Some 1) 2 55) = true
  /\ MetafTime_is6hourlyReportTime (mkTime (Some 1) 23 50) = true
  /\ MetafTime_is6hourlyReportTime (mkTime (Some 1) 4 59) = false.
Proof. repeat split; vm_compute; reflexivity. Qed.
(** Midnight at the end of the day, 24:00, is a valid time and midnight, but is not taken for a
    6-hourly report time. *)
Theorem C24_midnight_at_end_of_day_refuted :
  MetafTime_isValid (mkTime (Some 1) 24 0) = true
  /\ minutes (mkTime (Some 1) 24 0) = 1440
  /\ MetafTime_is6hourlyReportTime (mkTime (Some 1) 24 0) = false.
Proof. exact midnight_24. Qed.
Print Assumptions C24_midnight_at_end_of_day_refuted.

(** ** C25 *)

Theorem C25_temperature :
  forall (s : string) (t : Temperature),
    Temperature_fromString s = Ok (Some t) ->
    (s = "//" /\ Temperature_temperature t = None /\ freezing t = false)
    \/ exists (minus : bool) d v x,
         s = (if minus then "M" else "") ++ d /\ numeral 2 d v
         /\ Temperature_temperature t = Some x /\ is_exactly x (signed_value minus v 1) /\ freezing t = minus.
Proof. exact temperature_value. Qed.
Print Assumptions C25_temperature.
(** The freezing flag of a temperature in the remarks is not set for "1000", minus zero. *)
Theorem C25_temperature_in_remarks :
  forall (s : string) (t : Temperature),
    Temperature_fromRemarkString s = Ok (Some t) ->
    exists (minus : bool) d v x,
      s = (if minus then "1" else "0") ++ d /\ numeral 3 d v
      /\ Temperature_temperature t = Some x /\ within (1 # 100000) x (signed_value minus v 10)
      /\ freezing t = (minus && negb (v =? 0))%bool.
Proof. exact remark_temperature_value. Qed.
Print Assumptions C25_temperature_in_remarks.
Theorem C25_minus_zero_refuted :
  exists t x, Temperature_fromRemarkString "1000" = Ok (Some t)
    /\ Temperature_temperature t = Some x /\ is_exactly x 0 /\ freezing t = false.
Proof. exact minus_zero. Qed.
Print Assumptions C25_minus_zero_refuted.
(** Converting to degrees Celsius gives the temperature; to degrees Fahrenheit, 9/5 of it plus 32. *)
Theorem C25_units :
  forall (s : string) (t : Temperature),
    Temperature_fromString s = Ok (Some t) \/ Temperature_fromRemarkString s = Ok (Some t) ->
    Temperature_toUnit t Temp_C = Temperature_temperature t
    /\ match Temperature_temperature t with
       | None => Temperature_toUnit t Temp_F = None
       | Some _ => exists q f,
           (exists c, Temperature_temperature t = Some c /\ within (1 # 100000) c q)
           /\ Temperature_toUnit t Temp_F = Some f /\ within (1 # 10000) f (q * (9 # 5) + 32)
       end.
Proof. exact fahrenheit. Qed.
Print Assumptions C25_units.
Example C25_nonvacuous :
  Temperature_fromString "M07" = Ok (Some (mkTemp (Some (-7)%Z) true false))
  /\ Temperature_fromRemarkString "1017" = Ok (Some (mkTemp (Some (-17)%Z) true true)).
Proof. split; vm_compute; reflexivity. Qed.

(** ** C26 *)

(** Distances are kept in 1/10000 of a mile, rounded down. *)
Theorem C26_miles :
  forall (s : string) (remark : bool) (d : Distance),
    Distance_fromMileString s remark = Ok (Some d)
    <-> remark = false /\ s = "////SM" /\ d = mkDist DM_NONE None STATUTE_MILES
     \/ exists prefix body w n q k modifier,
          s = prefix ++ body ++ (if remark then "" else "SM")
          /\ In (prefix, modifier) [("", DM_NONE); ("M", DM_LESS_THAN); ("P", DM_MORE_THAN)]
          /\ MileText body w n q
          /\ d = mkDist modifier (Some k) STATUTE_MILES
          /\ k * q <= 10000 * (w * q + n) < (k + 1) * q.
Proof. exact miles_decode. Qed.
Print Assumptions C26_miles.
Theorem C26_whole_miles_and_fraction :
  forall (s1 s2 : string) (r1 r2 : bool) (i f d : Distance),
    Distance_fromMileString s1 r1 = Ok (Some i) -> Distance_fromMileString s2 r2 = Ok (Some f) ->
    Distance_fromIntegerAndFraction i f = Ok (Some d) ->
    exists a b, dist i = Some a /\ dist f = Some b /\ a mod 10000 = 0 /\ b mod 10000 <> 0
      /\ distModifier f = DM_NONE
      /\ distModifier d = distModifier i /\ distUnit d = STATUTE_MILES /\ dist d = Some (a + b).
Proof. exact (fun s1 s2 r1 r2 => miles_sum s1 r1 s2 r2). Qed.
Print Assumptions C26_whole_miles_and_fraction.
Theorem C26_whole_miles_and_fraction_accepted :
  forall (i f : Distance) (m : DistModifier) (a b : N),
    i = mkDist m (Some a) STATUTE_MILES -> f = mkDist DM_NONE (Some b) STATUTE_MILES ->
    (m = DM_NONE \/ m = DM_LESS_THAN \/ m = DM_MORE_THAN) -> a mod 10000 = 0 -> b mod 10000 <> 0 ->
    accepted (Distance_fromIntegerAndFraction i f).
Proof. exact sum_possible. Qed.
Print Assumptions C26_whole_miles_and_fraction_accepted.
Example C26_nonvacuous :
  Distance_fromMileString "11/2SM" false = Ok (Some (mkDist DM_NONE (Some 15000) STATUTE_MILES))
  /\ Distance_fromMileString "M1/4SM" false = Ok (Some (mkDist DM_LESS_THAN (Some 2500) STATUTE_MILES))
  /\ Distance_fromIntegerAndFraction (mkDist DM_NONE (Some 20000) STATUTE_MILES) (mkDist DM_NONE (Some 3333) STATUTE_MILES)
     = Ok (Some (mkDist DM_NONE (Some 23333) STATUTE_MILES)).
Proof. repeat split; vm_compute; reflexivity. Qed.

(** ** C35 *)

Theorem C35_pressure :
  forall (s : string) (p : Pressure),
    Pressure_fromString s = Ok (Some p) ->
    (s = "A////" /\ p = mkPressure None INCHES_HG) \/ (s = "Q////" /\ p = mkPressure None HECTOPASCAL)
    \/ (exists d v x, s = "A" ++ d /\ numeral 4 d v
        /\ p = mkPressure (Some x) INCHES_HG /\ within (1 # 100000) x (parts v 100))
    \/ (exists d v x, s = "Q" ++ d /\ numeral 4 d v
        /\ p = mkPressure (Some x) HECTOPASCAL /\ is_exactly x (parts v 1)).
Proof. exact pressure_value. Qed.
Print Assumptions C35_pressure.
Theorem C35_forecast_pressure :
  forall (s : string) (p : Pressure),
    Pressure_fromForecastString s = Ok (Some p) ->
    exists d v x, s = "QNH" ++ d ++ "INS" /\ numeral 4 d v
      /\ p = mkPressure (Some x) INCHES_HG /\ within (1 # 100000) x (parts v 100).
Proof. exact forecast_pressure_value. Qed.
Print Assumptions C35_forecast_pressure.
(** The last digits of the pressure are reported, in tenths; the hundreds are chosen to give a value
    from 950 to 1050. *)
Theorem C35_sea_level_pressure :
  forall (s : string) (p : Pressure),
    Pressure_fromSlpString s = Ok (Some p) ->
    exists d v x q, s = "SLP" ++ d /\ numeral 3 d v
      /\ p = mkPressure (Some x) HECTOPASCAL /\ within (1 # 10000) x q
      /\ (exists hundreds : Z, q == parts v 10 + (hundreds * 100 # 1))%Q /\ (950 <= q /\ q < 1050)%Q.
Proof. exact slp_value_ok. Qed.
Print Assumptions C35_sea_level_pressure.
Theorem C35_ground_pressure :
  forall (s : string) (p : Pressure),
    Pressure_fromQfeString s = Ok (Some p) ->
    exists d v rest x, s = "QFE" ++ d ++ rest /\ numeral 3 d v
      /\ p = mkPressure (Some x) MM_HG /\ is_exactly x (parts v 1)
      /\ (rest = "" \/ exists d2 v2, rest = "/" ++ d2 /\ numeral 4 d2 v2).
Proof. exact qfe_value. Qed.
Print Assumptions C35_ground_pressure.
Theorem C35_pressure_tendency :
  forall (s : string) (p : Pressure),
    Pressure_fromTendencyString s = Ok (Some p) ->
    (s = "///" /\ p = mkPressure None HECTOPASCAL)
    \/ exists v x, numeral 3 s v /\ p = mkPressure (Some x) HECTOPASCAL /\ within (1 # 100000) x (parts v 10).
Proof. exact tendency_value. Qed.
Print Assumptions C35_pressure_tendency.
Example C35_nonvacuous :
  (exists p, Pressure_fromString "A2992" = Ok (Some p)) /\ (exists p, Pressure_fromForecastString "QNH2979INS" = Ok (Some p))
  /\ (exists p, Pressure_fromSlpString "SLP982" = Ok (Some p)) /\ (exists p, Pressure_fromQfeString "QFE755/1006" = Ok (Some p))
  /\ (exists p, Pressure_fromTendencyString "032" = Ok (Some p)).
Proof. repeat split; eexists; vm_compute; reflexivity. Qed.

(** ** C36 *)

Theorem C36_rainfall :
  forall (s : string) (p : Precipitation),
    Precipitation_fromRainfallString s = Ok (Some p) ->
    ((s = "///./" \/ s = "//./") /\ p = mkPrecip None MM)
    \/ exists i f a b x, s = i ++ "." ++ f /\ (numeral 2 i a \/ numeral 3 i a) /\ numeral 1 f b
       /\ p = mkPrecip (Some x) MM /\ within (1 # 10000) x (parts (10 * a + b) 10).
Proof. exact rainfall_value. Qed.
Print Assumptions C36_rainfall.
Theorem C36_runway_deposits :
  forall (s : string) (p : Precipitation),
    Precipitation_fromRunwayDeposits s = Ok (Some p) ->
    (s = "//" /\ p = mkPrecip None MM)
    \/ exists v, numeral 2 s v /\ v <> 91
       /\ match deposit_depth v with
          | None => p = mkPrecip None MM
          | Some mm => exists x, p = mkPrecip (Some x) MM /\ is_exactly x (parts mm 1)
          end.
Proof. exact deposits_value. Qed.
Print Assumptions C36_runway_deposits.
(** Amounts in remarks, with the scale and the unit that the group class uses for the type. *)
Theorem C36_amounts_in_remarks :
  forall (t : PcType) (s : string) (allowNotReported : bool) (p : Precipitation),
    Precipitation_fromRemarkString s (Precip_factorFromType t) (Precip_unitFromType t) allowNotReported = Ok (Some p) ->
    ((s = "///" \/ s = "////") /\ p = mkPrecip None (amount_unit t))
    \/ exists v x, (numeral 3 s v \/ numeral 4 s v)
       /\ p = mkPrecip (Some x) (amount_unit t) /\ within (1 # 10000) x (parts v (amount_step t)).
Proof. exact amount_value. Qed.
Print Assumptions C36_amounts_in_remarks.
Theorem C36_snow_increasing :
  forall (s : string) (r : Precipitation * Precipitation),
    Precipitation_fromSnincrString s = Ok (Some r) ->
    exists a b n m x y, s = a ++ "/" ++ b /\ short_numeral a n /\ short_numeral b m
      /\ r = (mkPrecip (Some x) INCHES, mkPrecip (Some y) INCHES)
      /\ is_exactly x (parts n 1) /\ is_exactly y (parts m 1).
Proof. exact snincr_value. Qed.
Print Assumptions C36_snow_increasing.
Example C36_nonvacuous :
  (exists p, Precipitation_fromRainfallString "012.5" = Ok (Some p)) /\ (exists p, Precipitation_fromRunwayDeposits "92" = Ok (Some p))
  /\ (exists p, Precipitation_fromRemarkString "0015" (Precip_factorFromType Pc_TOTAL_PRECIPITATION_HOURLY)
         (Precip_unitFromType Pc_TOTAL_PRECIPITATION_HOURLY) false = Ok (Some p))
  /\ (exists r, Precipitation_fromSnincrString "2/10" = Ok (Some r)).
Proof. repeat split; eexists; vm_compute; reflexivity. Qed.

(** ** C37 *)

Theorem C37_state_follows_height :
  forall (a b : N) (t u : WhType), a <= b ->
    (sea_rank (WaveHeight_stateOfSurface (mkWh t (Some a))) <= sea_rank (WaveHeight_stateOfSurface (mkWh u (Some b))))%nat.
Proof. exact sea_monotone. Qed.
Print Assumptions C37_state_follows_height.
Theorem C37_state_codes :
  forall (s : string) (st : StateOfSurface), In (s, st) sea_states ->
    exists w, WaveHeight_fromString s = Ok (Some w) /\ whType w = Wh_STATE_OF_SURFACE
      /\ WaveHeight_stateOfSurface w = st.
Proof. exact sea_codes. Qed.
Print Assumptions C37_state_codes.
Theorem C37_decoded :
  forall (s : string) (w : WaveHeight),
    WaveHeight_fromString s = Ok (Some w) ->
    (s = "S/" /\ w = mkWh Wh_STATE_OF_SURFACE None) \/ (s = "H///" /\ w = mkWh Wh_WAVE_HEIGHT None)
    \/ (exists st, In (s, st) sea_states /\ whType w = Wh_STATE_OF_SURFACE /\ WaveHeight_stateOfSurface w = st)
    \/ (exists d v x, s = "H" ++ d /\ (numeral 1 d v \/ numeral 2 d v \/ numeral 3 d v)
         /\ whType w = Wh_WAVE_HEIGHT /\ WaveHeight_waveHeight w = Some x /\ within (1 # 100000) x (parts v 10)).
Proof. exact wave_value. Qed.
Print Assumptions C37_decoded.
Example C37_nonvacuous :
  WaveHeight_fromString "H15" = Ok (Some (mkWh Wh_WAVE_HEIGHT (Some 15)))
  /\ WaveHeight_stateOfSurface (mkWh Wh_WAVE_HEIGHT (Some 15)) = SS_MODERATE.
Proof. split; vm_compute; reflexivity. Qed.

(** ** C38 *)

Theorem C38_braking_follows_friction :
  forall (a b : N) (t u : SfType), a <= b ->
    (t = Sf_SURFACE_FRICTION_REPORTED \/ t = Sf_BRAKING_ACTION_REPORTED) ->
    (u = Sf_SURFACE_FRICTION_REPORTED \/ u = Sf_BRAKING_ACTION_REPORTED) ->
    (braking_rank (SurfaceFriction_brakingAction (mkSf t a)) <= braking_rank (SurfaceFriction_brakingAction (mkSf u b)))%nat.
Proof. exact braking_monotone. Qed.
Print Assumptions C38_braking_follows_friction.
Theorem C38_decoded :
  forall (s : string) (f : SurfaceFriction),
    SurfaceFriction_fromString s = Ok (Some f) ->
    (s = "//" /\ SurfaceFriction_isReported f = false) \/ (s = "99" /\ SurfaceFriction_isUnreliable f = true)
    \/ (exists ba, In (s, ba) braking_codes /\ sfType f = Sf_BRAKING_ACTION_REPORTED
        /\ SurfaceFriction_brakingAction f = ba)
    \/ (exists v x, numeral 2 s v /\ v <= 90 /\ sfType f = Sf_SURFACE_FRICTION_REPORTED
         /\ SurfaceFriction_coefficient f = Some x /\ within (1 # 1000000) x (parts v 100)).
Proof. exact friction_value. Qed.
Print Assumptions C38_decoded.
Theorem C38_braking_codes :
  forall (s : string) (ba : BrakingAction), In (s, ba) braking_codes ->
    exists f, SurfaceFriction_fromString s = Ok (Some f) /\ SurfaceFriction_brakingAction f = ba.
Proof. exact braking_codes_accepted. Qed.
Print Assumptions C38_braking_codes.
Example C38_nonvacuous :
  SurfaceFriction_fromString "35" = Ok (Some (mkSf Sf_SURFACE_FRICTION_REPORTED 35))
  /\ SurfaceFriction_brakingAction (mkSf Sf_SURFACE_FRICTION_REPORTED 35) = BA_MEDIUM.
Proof. split; vm_compute; reflexivity. Qed.
