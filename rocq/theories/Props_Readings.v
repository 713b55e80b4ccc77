(** C53: groups of temperature, pressure, pressure tendency, sea surface and runway state. *)
From Verif Require Import Prim Regex Float Values Weather Groups1 Groups2 Groups3 Groups4 Parser.
From Verif Require Import SpecText SpecReal SpecNumeral SpecScale SpecMinMax SpecTexts SpecAssembled SpecReadings.
From Verif Require Import Pf_Temperatures Pf_Pressures Pf_Tendencies Pf_RunwayStates.
Local Open Scope string_scope.

(** Exactly the word sequences of [Temperatures] make a temperature group that no next word can
    invalidate, and the group tells what they say. *)
Theorem C53_temperature :
  forall (part : ReportPart) (now : option MetafTime) (words : list string) (tp : TgType) (t d : Temperature),
    (exists g, Assembled part now words (GTemperature g) /\ settled part (GTemperature g)
       /\ tg_tp g = tp /\ tg_t g = t /\ tg_dp g = d)
    <-> Temperatures part words tp t d.
Proof. exact temperature_words. Qed.
Print Assumptions C53_temperature.
(** Pressures are kept as binary numbers, so they are what the words say up to rounding. *)
Theorem C53_pressure :
  forall (part : ReportPart) (now : option MetafTime) (words : list string),
    (forall g, Assembled part now words (GPressure g) -> settled part (GPressure g) -> Pressures part words (pg_t g) (pg_p g))
    /\ (forall t p, Pressures part words t p ->
         exists g, Assembled part now words (GPressure g) /\ settled part (GPressure g) /\ pg_t g = t).
Proof. exact pressure_words. Qed.
Print Assumptions C53_pressure.
Theorem C53_tendency :
  forall (part : ReportPart) (now : option MetafTime) (words : list string),
    (forall g, Assembled part now words (GPressureTendency g) ->
       Tendency part words (pt_type g) (PressureTendency_trend (pt_type g)) (pt_difference g))
    /\ (forall t trend p, Tendency part words t trend p ->
         exists g, Assembled part now words (GPressureTendency g) /\ pt_type g = t /\ PressureTendency_trend (pt_type g) = trend).
Proof. exact tendency_words. Qed.
Print Assumptions C53_tendency.
Theorem C53_sea_surface :
  forall (part : ReportPart) (now : option MetafTime) (words : list string),
    (forall g, Assembled part now words (GSeaSurface g) -> Sea part words (ss_t g) (ss_wh g))
    /\ (forall t h, Sea part words t h -> exists g, Assembled part now words (GSeaSurface g) /\ ss_t g = t).
Proof. exact sea_words. Qed.
Print Assumptions C53_sea_surface.
Theorem C53_runway_state :
  forall (part : ReportPart) (now : option MetafTime) (words : list string),
    (forall g, Assembled part now words (GRunwayState g) -> Runway_state part words g)
    /\ (forall v, Runway_state part words v ->
         exists g, Assembled part now words (GRunwayState g)
           /\ rs_rw g = rs_rw v /\ rs_tp g = rs_tp v /\ rs_dp g = rs_dp v /\ rs_ext g = rs_ext v).
Proof. exact state_words. Qed.
Print Assumptions C53_runway_state.

(** In a report *)
Theorem C53_temperature_report :
  forall (char_signed : bool) (report : string) (limit : nat) (r : ParseResult),
    parse char_signed report limit = Ok r ->
    forall (g : TemperatureGroup) (part : ReportPart) (raw : string),
      In (mkGroupInfo (GTemperature g) part raw) (pr_groups r) -> raw <> "" ->
      Temperatures part (words_of raw) (tg_tp g) (tg_t g) (tg_dp g).
Proof. exact result_temperature. Qed.
Print Assumptions C53_temperature_report.
Theorem C53_pressure_report :
  forall (char_signed : bool) (report : string) (limit : nat) (r : ParseResult),
    parse char_signed report limit = Ok r ->
    forall (g : PressureGroup) (part : ReportPart) (raw : string),
      In (mkGroupInfo (GPressure g) part raw) (pr_groups r) -> raw <> "" -> Pressures part (words_of raw) (pg_t g) (pg_p g).
Proof. exact result_pressure. Qed.
Print Assumptions C53_pressure_report.
Theorem C53_tendency_report :
  forall (char_signed : bool) (report : string) (limit : nat) (r : ParseResult),
    parse char_signed report limit = Ok r ->
    forall (g : PressureTendencyGroup) (part : ReportPart) (raw : string),
      In (mkGroupInfo (GPressureTendency g) part raw) (pr_groups r) -> raw <> "" ->
      Tendency part (words_of raw) (pt_type g) (PressureTendency_trend (pt_type g)) (pt_difference g).
Proof. exact result_tendency. Qed.
Print Assumptions C53_tendency_report.
Theorem C53_sea_surface_report :
  forall (char_signed : bool) (report : string) (limit : nat) (r : ParseResult),
    parse char_signed report limit = Ok r ->
    forall (g : SeaSurfaceGroup) (part : ReportPart) (raw : string),
      In (mkGroupInfo (GSeaSurface g) part raw) (pr_groups r) -> raw <> "" -> Sea part (words_of raw) (ss_t g) (ss_wh g).
Proof. exact result_sea. Qed.
Print Assumptions C53_sea_surface_report.
Theorem C53_runway_state_report :
  forall (char_signed : bool) (report : string) (limit : nat) (r : ParseResult),
    parse char_signed report limit = Ok r ->
    forall (g : RunwayStateGroup) (part : ReportPart) (raw : string),
      In (mkGroupInfo (GRunwayState g) part raw) (pr_groups r) -> raw <> "" -> Runway_state part (words_of raw) g.
Proof. exact result_state. Qed.
Print Assumptions C53_runway_state_report.

Example C53_nonvacuous : exists r t u p q v w s,
  parse true "METAR UUWW 280551Z 24010KT 9999 BKN012 M02/M11 Q1021 W19/S4 R14L/290595 RMK T MISG SLP982 52032=" 100 = Ok r
  /\ In (mkGroupInfo (GTemperature t) RP_METAR "M02/M11") (pr_groups r)
  /\ In (mkGroupInfo (GTemperature u) RP_RMK "T MISG") (pr_groups r)
  /\ In (mkGroupInfo (GPressure p) RP_METAR "Q1021") (pr_groups r)
  /\ In (mkGroupInfo (GPressure q) RP_RMK "SLP982") (pr_groups r)
  /\ In (mkGroupInfo (GSeaSurface v) RP_METAR "W19/S4") (pr_groups r)
  /\ In (mkGroupInfo (GPressureTendency w) RP_RMK "52032") (pr_groups r)
  /\ In (mkGroupInfo (GRunwayState s) RP_METAR "R14L/290595") (pr_groups r)
  /\ tg_dp t = mkTemp (Some (-11)%Z) true false
  /\ tg_tp u = Tg_T_MISG
  /\ pt_type w = Pt_INCREASING
  /\ (rs_dp s, rs_ext s) = (De_WET_AND_WATER_PATCHES, Ex_MORE_THAN_51_PERCENT).
Proof. exact readings_example. Qed.
