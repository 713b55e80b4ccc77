(** Specification for C54: what the words of precipitation, layer forecast and miscellaneous groups say
    (api_precipitationgroup.rst, api_layerforecastgroup.rst, api_miscgroup.rst). *)
From Coq Require Import NArith ZArith QArith List String.
From Verif Require Import Prim Float Values Groups1 Groups3 Groups4 Parser SpecReal SpecDecimal SpecNumeral SpecMiles SpecScale SpecTexts.
Import ListNotations.
Local Open Scope string_scope.
Local Open Scope N_scope.

(** ** Precipitation *)
Definition no_amount : Precipitation := mkPrecip None MM.
(** Rainfall in millimetres with one decimal *)
Definition Rain (digits : nat) (slashes : string) (s : string) (p : Precipitation) : Prop :=
  s = slashes ++ "./" /\ p = no_amount
  \/ exists i f a b x, s = i ++ "." ++ f /\ numeral digits i a /\ numeral 1 f b
       /\ p = mkPrecip (Some x) MM /\ within (1 # 10000) x (parts (10 * a + b) 10).
(** An amount in remarks, in the unit and the steps of its type *)
Definition Amount (digits : nat) (slashes : string) (t : PcType) (s : string) (p : Precipitation) : Prop :=
  s = slashes /\ p = mkPrecip None (amount_unit t)
  \/ exists v x, numeral digits s v /\ p = mkPrecip (Some x) (amount_unit t) /\ within (1 # 10000) x (parts v (amount_step t)).
(** The time of the report tells for how many hours code 6 is. *)
Definition frozen (now : option MetafTime) : PcType :=
  match now with
  | None => Pc_FROZEN_PRECIP_3_OR_6_HOURLY
  | Some t =>
    if in_dec N.eq_dec (hourValue t) [0; 6; 12; 18; 23; 5; 11; 17] then Pc_FROZEN_PRECIP_6_HOURLY
    else if in_dec N.eq_dec (hourValue t) [3; 9; 15; 21; 2; 8; 14; 20] then Pc_FROZEN_PRECIP_3_HOURLY
    else Pc_FROZEN_PRECIP_3_OR_6_HOURLY
  end.
Definition four_digit_codes (now : option MetafTime) : list (string * PcType) :=
  [("P", Pc_TOTAL_PRECIPITATION_HOURLY); ("6", frozen now); ("7", Pc_FROZEN_PRECIP_24_HOURLY)].
Definition three_digit_codes : list (string * PcType) :=
  [("4/", Pc_SNOW_DEPTH_ON_GROUND); ("931", Pc_SNOW_6_HOURLY); ("933", Pc_WATER_EQUIV_OF_SNOW_ON_GROUND);
   ("I1", Pc_ICE_ACCRETION_FOR_LAST_HOUR); ("I3", Pc_ICE_ACCRETION_FOR_LAST_3_HOURS);
   ("I6", Pc_ICE_ACCRETION_FOR_LAST_6_HOURS); ("PP", Pc_PRECIPITATION_ACCUMULATION_SINCE_LAST_REPORT)].
(** Words, type, total amount, recent change *)
Inductive Precipitations (part : ReportPart) (now : option MetafTime)
  : list string -> PcType -> Precipitation -> Precipitation -> Prop :=
| Precipitations_rain : forall a b recent total, part = RP_METAR -> Rain 2 "//" a recent -> Rain 3 "///" b total ->
    Precipitations part now ["RF" ++ a ++ "/" ++ b] Pc_RAINFALL_9AM_10MIN total recent
| Precipitations_four : forall c t d p, part = RP_RMK -> In (c, t) (four_digit_codes now) -> Amount 4 "////" t d p ->
    Precipitations part now [c ++ d] t p no_amount
| Precipitations_three : forall c t d p, part = RP_RMK -> In (c, t) three_digit_codes -> Amount 3 "///" t d p ->
    Precipitations part now [c ++ d] t p no_amount
| Precipitations_no_sensor : part = RP_RMK -> Precipitations part now ["PNO"] Pc_PNO no_amount no_amount
| Precipitations_no_freezing : part = RP_RMK -> Precipitations part now ["FZRANO"] Pc_FZRANO no_amount no_amount
| Precipitations_no_icing : part = RP_RMK -> Precipitations part now ["ICG"; "MISG"] Pc_ICG_MISG no_amount no_amount
| Precipitations_missing : part = RP_RMK -> Precipitations part now ["PCPN"; "MISG"] Pc_PCPN_MISG no_amount no_amount
| Precipitations_snow : part = RP_RMK -> Precipitations part now ["SNINCR"] Pc_SNOW_INCREASING_RAPIDLY no_amount no_amount
| Precipitations_snow_inches : forall a b n m x y, part = RP_RMK -> short_numeral a n -> short_numeral b m ->
    is_exactly x (parts n 1) -> is_exactly y (parts m 1) ->
    Precipitations part now ["SNINCR"; a ++ "/" ++ b] Pc_SNOW_INCREASING_RAPIDLY (mkPrecip (Some y) INCHES) (mkPrecip (Some x) INCHES).

(** ** Icing and turbulence *)
Definition layer_codes : list (string * LfType) :=
  [("60", Lf_ICING_TRACE_OR_NONE); ("61", Lf_ICING_LIGHT_MIXED); ("62", Lf_ICING_LIGHT_RIME_IN_CLOUD);
   ("63", Lf_ICING_LIGHT_CLEAR_IN_PRECIPITATION); ("64", Lf_ICING_MODERATE_MIXED); ("65", Lf_ICING_MODERATE_RIME_IN_CLOUD);
   ("66", Lf_ICING_MODERATE_CLEAR_IN_PRECIPITATION); ("67", Lf_ICING_SEVERE_MIXED); ("68", Lf_ICING_SEVERE_RIME_IN_CLOUD);
   ("69", Lf_ICING_SEVERE_CLEAR_IN_PRECIPITATION);
   ("50", Lf_TURBULENCE_NONE); ("51", Lf_TURBULENCE_LIGHT); ("52", Lf_TURBULENCE_MODERATE_IN_CLEAR_AIR_OCCASIONAL);
   ("53", Lf_TURBULENCE_MODERATE_IN_CLEAR_AIR_FREQUENT); ("54", Lf_TURBULENCE_MODERATE_IN_CLOUD_OCCASIONAL);
   ("55", Lf_TURBULENCE_MODERATE_IN_CLOUD_FREQUENT); ("56", Lf_TURBULENCE_SEVERE_IN_CLEAR_AIR_OCCASIONAL);
   ("57", Lf_TURBULENCE_SEVERE_IN_CLEAR_AIR_FREQUENT); ("58", Lf_TURBULENCE_SEVERE_IN_CLOUD_OCCASIONAL);
   ("59", Lf_TURBULENCE_SEVERE_IN_CLOUD_FREQUENT); ("5X", Lf_TURBULENCE_EXTREME)].
Inductive Layers (part : ReportPart) : list string -> LfType -> Distance -> Distance -> Prop :=
| Layers_word : forall c t s base top, part = RP_TAF -> In (c, t) layer_codes ->
    s = "////" /\ base = mkDist DM_NONE None METERS /\ top = base \/ Layer s base top ->
    Layers part [c ++ s] t base top.

(** ** Other data *)
Definition colours : list (string * MsType) :=
  [("BLU+", Ms_COLOUR_CODE_BLUE_PLUS); ("BLU", Ms_COLOUR_CODE_BLUE); ("WHT", Ms_COLOUR_CODE_WHITE); ("GRN", Ms_COLOUR_CODE_GREEN);
   ("YLO", Ms_COLOUR_CODE_YELLOW); ("YLO1", Ms_COLOUR_CODE_YELLOW1); ("YLO2", Ms_COLOUR_CODE_YELLOW2); ("AMB", Ms_COLOUR_CODE_AMBER);
   ("RED", Ms_COLOUR_CODE_RED);
   ("BLACKBLU+", Ms_COLOUR_CODE_BLACKBLUE_PLUS); ("BLACKBLU", Ms_COLOUR_CODE_BLACKBLUE); ("BLACKWHT", Ms_COLOUR_CODE_BLACKWHITE);
   ("BLACKGRN", Ms_COLOUR_CODE_BLACKGREEN); ("BLACKYLO", Ms_COLOUR_CODE_BLACKYELLOW); ("BLACKYLO1", Ms_COLOUR_CODE_BLACKYELLOW1);
   ("BLACKYLO2", Ms_COLOUR_CODE_BLACKYELLOW2); ("BLACKAMB", Ms_COLOUR_CODE_BLACKAMBER); ("BLACKRED", Ms_COLOUR_CODE_BLACKRED)].
Definition quarters : list (string * N) := [("1/4", 1); ("1/2", 2); ("2/4", 2); ("3/4", 3)].
Definition alphabet : string := "ABCDEFGHIJKLMNOPQRSTUVWXYZ".
Inductive Misc (part : ReportPart) : list string -> MsType -> option flt -> Prop :=
| Misc_colour : forall w t, part = RP_METAR \/ part = RP_RMK -> In (w, t) colours -> Misc part [w] t None
| Misc_issuer : forall l t d v x, part = RP_TAF -> In (l, t) [("N", Ms_ISSUER_ID_FN); ("S", Ms_ISSUER_ID_FS)] ->
    numeral 5 d v -> is_exactly x (parts v 1) -> Misc part ["F" ++ l ++ d] t (Some x)
| Misc_correction : forall n c x, part = RP_METAR -> String.get n alphabet = Some c -> is_exactly x (parts (N.of_nat n + 1) 1) ->
    Misc part ["CC" ++ String c ""] Ms_CORRECTED_WEATHER_OBSERVATION (Some x)
| Misc_sunshine : forall d v x, part = RP_RMK -> numeral 3 d v -> is_exactly x (parts v 1) ->
    Misc part ["98" ++ d] Ms_SUNSHINE_DURATION_MINUTES (Some x)
| Misc_frost : part = RP_RMK -> Misc part ["FROIN"] Ms_FROIN None
| Misc_no_density : part = RP_RMK -> Misc part ["DENSITY"; "ALT"; "MISG"] Ms_DENSITY_ALTITUDE None
(** Any number of digits is accepted; the altitude is exact up to 2^24 feet. *)
| Misc_density : forall d v x, part = RP_RMK -> d <> "" -> decimal d = Some v -> (v <= 16777216 -> is_exactly x (parts v 1)) ->
    Misc part ["DENSITY"; "ALT"; d ++ "FT"] Ms_DENSITY_ALTITUDE (Some x)
| Misc_hail_quarters : forall f q x, part = RP_RMK -> In (f, q) quarters -> is_exactly x (parts q 4) ->
    Misc part ["GR"; f] Ms_HAILSTONE_SIZE (Some x)
| Misc_hail : forall d n f q x, part = RP_RMK -> numeral 1 d n -> n <> 0 -> In (f, q) quarters -> is_exactly x (parts (4 * n + q) 4) ->
    Misc part ["GR"; d; f] Ms_HAILSTONE_SIZE (Some x).
