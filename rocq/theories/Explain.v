(** The explanation table of examples/explain.cpp: explain() and the visitor VisitorExplain with
    everything it calls. Left out are freeMemory() (3097-3099) and main() (3147-3151), which bind it
    to JavaScript. Definitions only.

    The text of an explanation is built through an output stream or by appending to a string; both
    are modelled as a list of pieces, put together in the order in which they are written ([say]).
    The numbers are turned into text by Format.v.

    The functions that take an enumeration return nothing after their switch statement; where the
    type of the model has values other than the named ones (the three enumerations of
    WeatherPhenomena, which are taken out of packed bits) that is undefined behaviour. *)

From Verif Require Import Prim Regex Float Values Weather Groups1 Groups2 Groups3 Groups4 Parser
  Summary Format.
Local Open Scope string_scope.

(** [result << s] *)
Definition put (s : string) : res string := Ok s.
(** [result << lineBreak << s] where lineBreak is "\n" *)
Definition line (s : string) : res string := Ok (String "010"%char s).
(** statements one after the other *)
Fixpoint say (l : list (res string)) : res string :=
  match l with
  | [] => Ok ""
  | r :: t => let! a := r in let! b := say t in Ok (a ++ b)
  end.
(** [if (b) ...] *)
Definition when (b : bool) (r : res string) : res string := if b then r else Ok "".
(** [o.value()]: throws on an empty optional *)
Definition opt_value {T} (o : option T) : res T :=
  match o with Some x => Ok x | None => Bad Throw end.
(** [static_cast<int>(x)], written to the stream *)
Definition int_of_flt (x : flt) : res string := let! z := trunc_to_int x in Ok (dec_Z z).

(** explain.cpp:22-23 *)
Definition groupNotValidMessage : string :=
  "Data in this group may be errorneous, incomplete or inconsistent".
(** [if (!group.isValid()) result << groupNotValidMessage << lineBreak;], the first statement of
    every visiting function *)
Definition validity (v : bool) : res string :=
  if v then Ok "" else Ok (groupNotValidMessage ++ String "010"%char "").

(** explain.cpp:1515-1523 *)
Definition reportTypeToString (x : ReportType) : string :=
  match x with
  | RT_UNKNOWN => "unable to detect"
  | RT_METAR => "METAR (weather observation)"
  | RT_TAF => "TAF (weather forecast)"
  end.
(** explain.cpp:1525-1571 *)
Definition reportErrorToString (x : ReportError) : string :=
  match x with
  | RE_NONE => "no error"
  | RE_EMPTY_REPORT => "report is empty"
  | RE_EXPECTED_REPORT_TYPE_OR_LOCATION => "expected report type or ICAO location at report start"
  | RE_EXPECTED_LOCATION => "expected ICAO location"
  | RE_EXPECTED_REPORT_TIME => "expected report time"
  | RE_EXPECTED_TIME_SPAN => "expected time span"
  | RE_UNEXPECTED_REPORT_END => "unexpected report end"
  | RE_UNEXPECTED_GROUP_AFTER_NIL => "unexpected group after NIL"
  | RE_UNEXPECTED_GROUP_AFTER_CNL => "unexpected group after CNL"
  | RE_UNEXPECTED_NIL_OR_CNL_IN_REPORT_BODY => "unexpected NIL or CNL in report body"
  | RE_AMD_ALLOWED_IN_TAF_ONLY => "AMD is allowed only in TAF reports"
  | RE_CNL_ALLOWED_IN_TAF_ONLY => "CNL is allowed only in TAF reports"
  | RE_MAINTENANCE_INDICATOR_ALLOWED_IN_METAR_ONLY => "Maintenance indicator is allowed only in METAR reports"
  | RE_REPORT_TOO_LARGE => "Report has too many groups"
  end.
(** explain.cpp:2042-2056 *)
Definition speedUnitToString (x : SpeedUnit) : string :=
  match x with
  | KNOTS => "knots"
  | METERS_PER_SECOND => "m/s"
  | KILOMETERS_PER_HOUR => "km/h"
  | MILES_PER_HOUR => "mph"
  end.
(** explain.cpp:2058-2071 *)
Definition distanceUnitToString (x : DistUnit) : string :=
  match x with
  | METERS => "meters"
  | STATUTE_MILES => "statute miles"
  | FEET => "feet"
  end.
(** explain.cpp:2073-2110 *)
Definition distanceMilesFractionToString (x : MilesFraction) : string :=
  match x with
  | F_NONE => ""
  | F_1_16 => "1/16"
  | F_1_8 => "1/8"
  | F_3_16 => "3/16"
  | F_1_4 => "1/4"
  | F_5_16 => "5/16"
  | F_3_8 => "3/8"
  | F_1_2 => "1/2"
  | F_5_8 => "5/8"
  | F_3_4 => "3/4"
  | F_7_8 => "7/8"
  end.
(** explain.cpp:2113-2171 *)
Definition cardinalDirectionToString (x : Cardinal) : string :=
  match x with
  | Cd_NOT_REPORTED => "not reported"
  | Cd_N => "north"
  | Cd_S => "south"
  | Cd_W => "west"
  | Cd_E => "east"
  | Cd_NW => "northwest"
  | Cd_NE => "northeast"
  | Cd_SW => "southwest"
  | Cd_SE => "southeast"
  | Cd_TRUE_N => "true north"
  | Cd_TRUE_W => "true west"
  | Cd_TRUE_S => "true south"
  | Cd_TRUE_E => "true east"
  | Cd_NDV => "no directional variations"
  | Cd_VRB => "variable"
  | Cd_OHD => "overhead"
  | Cd_ALQDS => "all quadrants (in all directions)"
  | Cd_UNKNOWN => "unknown direction"
  end.
(** explain.cpp:2173-2195 *)
Definition brakingActionToString (x : BrakingAction) : string :=
  match x with
  | BA_NONE => "not reported"
  | BA_POOR => "poor (friction coefficient 0.0 to 0.25)"
  | BA_MEDIUM_POOR => "medium/poor (friction coefficient 0.26 to 0.29)"
  | BA_MEDIUM => "medium (friction coefficient 0.30 to 0.35)"
  | BA_MEDIUM_GOOD => "medium/good (friction coefficient 0.36 to 0.40)"
  | BA_GOOD => "good (friction coefficient 0.40 to 1.00)"
  end.
(** explain.cpp:2197-2234 *)
Definition stateOfSeaSurfaceToString (x : StateOfSurface) : string :=
  match x with
  | SS_NOT_REPORTED => "not reported"
  | SS_CALM_GLASSY => "calm (glassy), no waves"
  | SS_CALM_RIPPLED => "calm (rippled), wave height &lt;0.1 meters / &lt;1/3 feet"
  | SS_SMOOTH => "smooth, wave height 0.1 to 0.5 meters / 1/3 to 1 1/2 feet"
  | SS_SLIGHT => "slight, wave height 0.5 to 1.25 meters / 1 1/2 to 4 feet"
  | SS_MODERATE => "moderate, wave height 1.25 to 2.5 meters / 4 to 8 feet"
  | SS_ROUGH => "rough, wave height 2.5 to 4 meters / 8 to 13 feet"
  | SS_VERY_ROUGH => "very rough, wave height 4 to 6 meters / 13 to 20 feet"
  | SS_HIGH => "high, wave height 6 to 9 meters / 20 to 30 feet"
  | SS_VERY_HIGH => "very high, wave height 9 to 14 meters / 30 to 46 feet"
  | SS_PHENOMENAL => "phenomenal, wave height >14 meters / &gt;46 feet"
  end.
(** explain.cpp:2236-2285 *)
Definition cloudAmountToString (x : ClAmount) : string :=
  match x with
  | Am_NOT_REPORTED => "Cloud amount not reported"
  | Am_NSC => 
      "No significant cloud: " ++
      "no cloud below 5000 feet (1500 meters), no cumulonimbus or towering " ++
      "cumulus clouds, no vertical visibility restriction"
  | Am_NCD => 
      "No cloud detected: automated weather station did not detect any clouds; " ++
      "this can happen due to either no clouds present or sensor error"
  | Am_NONE_CLR => 
      "Clear sky: " ++
      "no cloud layers are detected at or below 12000 feet (3700 meters) (US) " ++
      "or 25000 feet (7600 meters) (Canada); " ++
      "indicates that station is at least partly automated"
  | Am_NONE_SKC => 
      "Clear sky: " ++
      "In North America indicates report producted by human rather than " ++
      "automatic weather station"
  | Am_FEW => "Few clouds (1/8 to 2/8 sky covered)"
  | Am_SCATTERED => "Scattered clouds (3/8 to 4/8 sky covered)"
  | Am_BROKEN => "Broken clouds (5/8 to 7/8 sky covered)"
  | Am_OVERCAST => "Overcast (8/8 sky covered)"
  | Am_OBSCURED => "Sky obscured"
  | Am_VARIABLE_FEW_SCATTERED => "Sky cover variable between few and scattered clouds (sky coverage variable between 1/8 and 4/8)"
  | Am_VARIABLE_SCATTERED_BROKEN => "Sky cover variable between scattered and broken clouds (sky coverage variable between 3/8 and 7/8)"
  | Am_VARIABLE_BROKEN_OVERCAST => "Sky cover variable between broken clouds and overcast (sky coverage variable between 5/8 and 8/8)"
  end.
(** explain.cpp:2287-2303 *)
Definition convectiveTypeToString (x : ClConv) : string :=
  match x with
  | Cv_NONE => ""
  | Cv_NOT_REPORTED => "not reported"
  | Cv_TOWERING_CUMULUS => "towering cumulus"
  | Cv_CUMULONIMBUS => "cumulonimbus"
  end.
(** explain.cpp:2305-2327 *)
Definition weatherPhenomenaQualifierToString (x : WpQualifier) : res string :=
  match x with
  | Q_NONE => Ok ""
  | Q_RECENT => Ok ""
  | Q_VICINITY => Ok ""
  | Q_LIGHT => Ok "light"
  | Q_MODERATE => Ok "moderate"
  | Q_HEAVY => Ok "heavy"
  | Q_other _ => Bad UB
  end.
(** explain.cpp:2329-2360 *)
Definition weatherPhenomenaDescriptorToString (x : WpDescriptor) : res string :=
  match x with
  | D_NONE => Ok ""
  | D_SHALLOW => Ok "shallow"
  | D_PARTIAL => Ok "partial"
  | D_PATCHES => Ok "patches of "
  | D_LOW_DRIFTING => Ok "low drifting"
  | D_BLOWING => Ok "blowing"
  | D_SHOWERS => Ok ""
  | D_THUNDERSTORM => Ok ""
  | D_FREEZING => Ok "freezing"
  | D_other _ => Bad UB
  end.
(** explain.cpp:2362-2435 *)
Definition weatherPhenomenaWeatherToString (x : WpWeather) : res string :=
  match x with
  | W_NOT_REPORTED => Ok "not reported"
  | W_DRIZZLE => Ok "drizzle"
  | W_RAIN => Ok "rain"
  | W_SNOW => Ok "snow"
  | W_SNOW_GRAINS => Ok "snow grains"
  | W_ICE_CRYSTALS => Ok "ice crystals"
  | W_ICE_PELLETS => Ok "ice pellets"
  | W_HAIL => Ok "hail"
  | W_SMALL_HAIL => Ok "small hail (graupel)"
  | W_UNDETERMINED => Ok "undetermined precipitation"
  | W_MIST => Ok "mist"
  | W_FOG => Ok "fog"
  | W_SMOKE => Ok "smoke"
  | W_VOLCANIC_ASH => Ok "volcanic ash"
  | W_DUST => Ok "dust"
  | W_SAND => Ok "sand"
  | W_HAZE => Ok "haze"
  | W_SPRAY => Ok "spray"
  | W_DUST_WHIRLS => Ok "dust or sand whirls"
  | W_SQUALLS => Ok "squalls"
  | W_FUNNEL_CLOUD => Ok "funnel cloud"
  | W_SANDSTORM => Ok "sand storm"
  | W_DUSTSTORM => Ok "dust storm"
  | W_other _ => Bad UB
  end.
(** explain.cpp:2523-2536 *)
Definition probabilityToString (x : TrProb) : string :=
  match x with
  | Pr_30 => "Trend probability is 30 percent"
  | Pr_40 => "Trend probability is 40 percent"
  | Pr_NONE => ""
  end.
(** explain.cpp:2538-2557 *)
Definition visTrendToString (x : ViTrend) : string :=
  match x with
  | Vt_NONE => ""
  | Vt_NOT_REPORTED => "not reported"
  | Vt_UPWARD => "upward"
  | Vt_NEUTRAL => "neutral"
  | Vt_DOWNWARD => "downward"
  end.
(** explain.cpp:2559-2596 *)
Definition runwayStateDepositsToString (x : RsDeposits) : string :=
  match x with
  | De_NOT_REPORTED => "not reported"
  | De_CLEAR_AND_DRY => "clear and dry"
  | De_DAMP => "damp"
  | De_WET_AND_WATER_PATCHES => "wet and water patches"
  | De_RIME_AND_FROST_COVERED => "rime and frost covered"
  | De_DRY_SNOW => "dry snow"
  | De_WET_SNOW => "wet snow"
  | De_SLUSH => "slush"
  | De_ICE => "ice"
  | De_COMPACTED_OR_ROLLED_SNOW => "compacted or rolled snow"
  | De_FROZEN_RUTS_OR_RIDGES => "frozen ruts or ridges"
  end.
(** explain.cpp:2598-2635 *)
Definition runwayStateExtentToString (x : RsExtent) : string :=
  match x with
  | Ex_NOT_REPORTED => "not reported"
  | Ex_NONE => "none"
  | Ex_LESS_THAN_10_PERCENT => "&lt;10 percent"
  | Ex_FROM_11_TO_25_PERCENT => "11 to 25 percent"
  | Ex_FROM_26_TO_50_PERCENT => "26 to 50 percent"
  | Ex_MORE_THAN_51_PERCENT => "&gt;51 percent"
  | Ex_RESERVED_3 => "[reserved_extent_value 3]"
  | Ex_RESERVED_4 => "[reserved_extent_value 4]"
  | Ex_RESERVED_6 => "[reserved_extent_value 6]"
  | Ex_RESERVED_7 => "[reserved_extent_value 7]"
  | Ex_RESERVED_8 => "[reserved_extent_value 8]"
  end.
(** explain.cpp:2637-2715 *)
Definition layerForecastGroupTypeToString (x : LfType) : string :=
  match x with
  | Lf_ICING_TRACE_OR_NONE => "Trace icing or no icing"
  | Lf_ICING_LIGHT_MIXED => "Light mixed icing"
  | Lf_ICING_LIGHT_RIME_IN_CLOUD => "Light rime icing in cloud"
  | Lf_ICING_LIGHT_CLEAR_IN_PRECIPITATION => "Light clear icing in precipitation"
  | Lf_ICING_MODERATE_MIXED => "Moderate mixed icing"
  | Lf_ICING_MODERATE_RIME_IN_CLOUD => "Moderate rime icing in cloud"
  | Lf_ICING_MODERATE_CLEAR_IN_PRECIPITATION => "Moderate clear icing in precipitation"
  | Lf_ICING_SEVERE_MIXED => "Severe mixed icing"
  | Lf_ICING_SEVERE_RIME_IN_CLOUD => "Severe rime icing in cloud"
  | Lf_ICING_SEVERE_CLEAR_IN_PRECIPITATION => "Severe clear icing in precipitation"
  | Lf_TURBULENCE_NONE => "No turbulence"
  | Lf_TURBULENCE_LIGHT => "Light turbulence"
  | Lf_TURBULENCE_MODERATE_IN_CLEAR_AIR_OCCASIONAL => "Occasional moderate turbulence in clear air"
  | Lf_TURBULENCE_MODERATE_IN_CLEAR_AIR_FREQUENT => "Frequent moderate turbulence in clear air"
  | Lf_TURBULENCE_MODERATE_IN_CLOUD_OCCASIONAL => "Occasional moderate turbulence in cloud"
  | Lf_TURBULENCE_MODERATE_IN_CLOUD_FREQUENT => "Frequent moderate turbulence in cloud"
  | Lf_TURBULENCE_SEVERE_IN_CLEAR_AIR_OCCASIONAL => "Occasional severe turbulence in clear air"
  | Lf_TURBULENCE_SEVERE_IN_CLEAR_AIR_FREQUENT => "Frequent severe turbulence in clear air"
  | Lf_TURBULENCE_SEVERE_IN_CLOUD_OCCASIONAL => "Occasional severe turbulence in cloud"
  | Lf_TURBULENCE_SEVERE_IN_CLOUD_FREQUENT => "Frequent severe turbulence in cloud"
  | Lf_TURBULENCE_EXTREME => "Extreme turbulence"
  end.
(** explain.cpp:2718-2770 *)
Definition pressureTendencyTypeToString (x : PtType) : string :=
  match x with
  | Pt_INCREASING_THEN_DECREASING => "increasing, then decreasing"
  | Pt_INCREASING_MORE_SLOWLY => 
      "increasing, then steady, " ++
      "or increasing then increasing more slowly"
  | Pt_INCREASING => "increasing steadily or unsteadily"
  | Pt_INCREASING_MORE_RAPIDLY => 
      "decreasing or steady, then increasing; " ++
      "or increasing then increasing more rapidly"
  | Pt_STEADY => "steady"
  | Pt_DECREASING_THEN_INCREASING => "decreasing, then increasing"
  | Pt_DECREASING_MORE_SLOWLY => 
      "decreasing then steady; " ++
      "or decreasing then decreasing more slowly"
  | Pt_DECREASING => "decreasing steadily or unsteadily"
  | Pt_DECREASING_MORE_RAPIDLY => 
      "steady or increasing, then decreasing; " ++
      "or decreasing then decreasing more rapidly"
  | Pt_NOT_REPORTED => "not reported"
  | Pt_RISING_RAPIDLY => 
      "rising rapidly at a rate of " ++
      "at least 0.06 inch of mercury (2.03 hectopascal) per hour " ++
      "and the pressure change totals " ++
      "0.02 inch of mercury (0.68 hectopascal) or more " ++
      "at the time of the observation"
  | Pt_FALLING_RAPIDLY => 
      "falling rapidly at a rate of " ++
      "at least 0.06 inch of mercury (2.03 hectopascal) per hour " ++
      "and the pressure change totals " ++
      "0.02 inch of mercury (0.68 hectopascal) or more " ++
      "at the time of the observation"
  end.
(** explain.cpp:2772-2794 *)
Definition pressureTendencyTrendToString (x : PtTrend) : string :=
  match x with
  | Ptt_NOT_REPORTED => "not reported"
  | Ptt_HIGHER => "higher than"
  | Ptt_HIGHER_OR_SAME => "higher or the same as"
  | Ptt_SAME => "same as"
  | Ptt_LOWER_OR_SAME => "lower or the same as"
  | Ptt_LOWER => "lower than"
  end.
(** explain.cpp:2796-2884 *)
Definition cloudTypeToString (x : CtType) : string :=
  match x with
  | Ct_NOT_REPORTED => "cumulonimbus"
  | Ct_CUMULONIMBUS => "cumulonimbus"
  | Ct_TOWERING_CUMULUS => "towering cumulus"
  | Ct_CUMULUS => "cumulus"
  | Ct_CUMULUS_FRACTUS => "cumulus fractus"
  | Ct_STRATOCUMULUS => "stratocumulus"
  | Ct_NIMBOSTRATUS => "nimbostratus"
  | Ct_STRATUS => "stratus"
  | Ct_STRATUS_FRACTUS => "stratus fractus"
  | Ct_ALTOSTRATUS => "altostratus"
  | Ct_ALTOCUMULUS => "altocumulus"
  | Ct_ALTOCUMULUS_CASTELLANUS => "altocumulus castellanus"
  | Ct_CIRRUS => "cirrus"
  | Ct_CIRROSTRATUS => "cirrostratus"
  | Ct_CIRROCUMULUS => "cirrocumulus"
  | Ct_BLOWING_SNOW => "blowing snow"
  | Ct_BLOWING_DUST => "blowing dust"
  | Ct_BLOWING_SAND => "blowing sand"
  | Ct_ICE_CRYSTALS => "ice crystals"
  | Ct_RAIN => "rain"
  | Ct_DRIZZLE => "drizzle"
  | Ct_SNOW => "snow"
  | Ct_ICE_PELLETS => "ice pellets"
  | Ct_SMOKE => "smoke"
  | Ct_FOG => "fog"
  | Ct_MIST => "mist"
  | Ct_HAZE => "haze"
  | Ct_VOLCANIC_ASH => "volcanic ash"
  end.
(** explain.cpp:2886-2943 *)
Definition cloudLowLayerToString (x : LowLayer) : string :=
  match x with
  | Lo_NONE => "No low layer clouds"
  | Lo_CU_HU_CU_FR => 
      "Cumulus clouds showing little vertical extent " ++
      "(Cumulus humilis or Cumulus fractus of dry weather or both)"
  | Lo_CU_MED_CU_CON => 
      "Cumulus clouds showing moderate or significant vertical extent " ++
      "(Cumulus mediocris or Cumulus congestus, with or without Cumulus " ++
      "humilis or Cumulus fractus or stratocumulus, " ++
      "all having their bases on the same level)"
  | Lo_CB_CAL => 
      "Cumulonimbus clouds without fibrous or striated parts at " ++
      "summit (Cumulonimbus calvus with or without Cumulus, " ++
      "Stratocumulus or Stratus)"
  | Lo_SC_CUGEN => 
      "Stratocumulus clouds resulting from " ++
      "the spreading out of Cumulus (Stratocumulus cumulogenitus; " ++
      "Cumulus may also be present)"
  | Lo_SC_NON_CUGEN => 
      "Stratocumulus clouds not resulting from " ++
      "the spreading out of Cumulus (Stratocumulus non-cumulogenitus)"
  | Lo_ST_NEB_ST_FR => 
      "Stratus clouds which consist of a continuous " ++
      "single sheet or layer with a fairly uniform base, or " ++
      "transitory stage during the formation or " ++
      "the dissipation of such clouds " ++
      "(Stratus nebulosus or Stratus fractus of dry weather, or both)"
  | Lo_ST_FR_CU_FR_PANNUS => 
      "Ragged grey clouds which form below precipitating clouds " ++
      "(Stratus fractus or Cumulus fractus of wet weather, " ++
      "or both (pannus) )"
  | Lo_CU_SC_NON_CUGEN_DIFFERENT_LEVELS => 
      "Cumulus and Stratocumulus not formed by spreading of Cumulus " ++
      "with bases at different levels"
  | Lo_CB_CAP => 
      "Cumulonimbus clouds with fibrous or striated summits, " ++
      "often with an anvil (Cumulonimbus capillatus or " ++
      "Cumulonimbus capillatus incus)"
  | Lo_NOT_OBSERVABLE => 
      "Clouds are not observable due to fog, blowing dust or sand, " ++
      "or other similar phenomena"
  end.
(** explain.cpp:2945-3005 *)
Definition cloudMidLayerToString (x : MidLayer) : string :=
  match x with
  | Mi_NONE => "No mid-layer clouds"
  | Mi_AS_TR => 
      "A veil of greyish or bluish colour translucent enough " ++
      "to reveal the position of the Sun or Moon " ++
      "(Altostratus translucidus)"
  | Mi_AS_OP_NS => 
      "A veil of a darker grey or a darker bluish grey dense enough " ++
      "to completely mask the Sun or Moon " ++
      "(Altostratus opacus or Nimbostratus)"
  | Mi_AC_TR => 
      "Altocumulus (mackerel sky) clouds in patches or sheets at " ++
      "the same level or in a single layer " ++
      "(Altocumulus translucidus at a single level)"
  | Mi_AC_TR_LEN_PATCHES => 
      "Patches, often lenticular (lens or almond-shaped), " ++
      "of Altocumulus translucidus, continually changing and " ++
      "occurring at one or more levels"
  | Mi_AC_TR_AC_OP_SPREADING => 
      "Altocumulus translucidus in bands, or one or more layers of " ++
      "Altocumulus translucidus or Altocumulus opacus, " ++
      "progressively invading the sky"
  | Mi_AC_CUGEN_AC_CBGEN => 
      "Altocumulus resulting generally from the spreading " ++
      "out of the summits of Cumulus; or Alcocumulus clouds " ++
      "acompanying Cumulonimbus (Altocumulus cumulogenitus or " ++
      "Altocumulus cumulonimbogenitus)"
  | Mi_AC_DU_AC_OP_AC_WITH_AS_OR_NS => 
      "Altocumulus duplicatus, or Altocumulus opacus in a single " ++
      "layer, not progressively invading the sky, or Altocumulus " ++
      "with Altostratus or Nimbostratus."
  | Mi_AC_CAS_AC_FLO => 
      "Turrets at appear to be arranged in lines with a " ++
      "common horizontal base or scattered tufts with rounded and " ++
      "slightly bulging upper parts (Altocumulus castellanus or " ++
      "Altocumulus floccus)"
  | Mi_AC_OF_CHAOTIC_SKY => 
      "Sky of chaotic, heavy and stagnant appearance, " ++
      "which consists of superposed, more or less broken cloud sheets " ++
      "of ill-defined species or varieties"
  | Mi_NOT_OBSERVABLE => 
      "Clouds are not observable due to fog, blowing dust or sand, " ++
      "or other similar phenomena " ++
      "or because of a continuous layer of lower clouds"
  end.
(** explain.cpp:3007-3074 *)
Definition cloudHighLayerToString (x : HighLayer) : string :=
  match x with
  | Hi_NONE => "No high-layer clouds"
  | Hi_CI_FIB_CI_UNC => 
      "Nearly straight or more or less curved filaments; more rarely, " ++
      "they are shaped like commas topped with either a hook or a tuft " ++
      "that is not rounded " ++
      "(Cirrus fibratus and sometimes Cirrus uncinus, not " ++
      "progressively invading the sky)"
  | Hi_CI_SPI_CI_CAS_CI_FLO => 
      "Cirrus spissatus, in patches or entangled sheaves, " ++
      "that usually do not increase and sometimes appear to be " ++
      "the remains of the upper part of a Cumulonimbus; or " ++
      "Cirrus clouds with small fibrous turrets rising from common base; " ++
      "or more or less isolated tufts, often with trails " ++
      "(Cirrus spissatus or Cirrus castellanus or Cirrus floccus)"
  | Hi_CI_SPI_CBGEN => 
      "Cirrus clouds originated from a Cumulonimbus cloud(s) " ++
      "(Cirrus spissatus cumulonimbogenitus)"
  | Hi_CI_FIB_CI_UNC_SPREADING => 
      "Cirrus uncinus, Cirrus fibratus or both, " ++
      "progressively invading the sky; they generally thicken as a whole"
  | Hi_CI_CS_LOW_ABOVE_HORIZON => 
      "Cirrus (often in bands) and Cirrostratus, " ++
      "or Cirrostratus alone, progressively invading the sky; " ++
      "they generally thicken as a whole, " ++
      "but the continuous veil does not reach 45&deg; above the horizon"
  | Hi_CI_CS_HIGH_ABOVE_HORIZON => 
      "Cirrus (often in bands) and Cirrostratus, " ++
      "or Cirrostratus alone, progressively invading the sky; " ++
      "they generally thicken as a whole; " ++
      "the continuous veil extends more than 45&deg; above the horizon, " ++
      "without the sky being totally covered"
  | Hi_CS_NEB_CS_FIB_COVERING_ENTIRE_SKY => 
      "Light, uniform and nebulous veil showing no distinct details" ++
      "or a white and fibrous veil with more " ++
      "or less clear-cut striations, covering the whole sky" ++
      "(Cirrostratus nebulosus or " ++
      "Cirrostratus fibratus covering the whole sky)"
  | Hi_CS => 
      "A veil of Cirrostratus that is not (or no longer) " ++
      "invading the sky progressively " ++
      "and that does not completely cover the whole sky"
  | Hi_CC => 
      "Cirrocumulus alone, or " ++
      "predominant among the high-layer clouds; " ++
      "when alone, its elements are frequently grouped into more or less " ++
      "extensive patches with very characteristic small wavelets"
  | Hi_NOT_OBSERVABLE => 
      "Clouds are not observable due to fog, blowing dust or sand, " ++
      "or other similar phenomena " ++
      "or because of a continuous layer of lower clouds"
  end.

(** explain.cpp:3076-3092. std::to_string(float) converts to double and prints by "%f". *)
Definition roundTo (number : flt) (digitsAfterDecimalPoint : nat) : string :=
  let numStr := to_string_flt number in
  match sfind "."%char numStr 0 with
  | None => numStr
  | Some pos =>
    if Nat.ltb digitsAfterDecimalPoint (slen numStr - pos) then
      substring 0 (pos + digitsAfterDecimalPoint + 1) numStr
    else numStr
  end.
(** [if (const auto x = ...; x.has_value()) result << roundTo( *x, digits) << unit; else
    result << message;] *)
Definition rounded (o : option flt) (digits : nat) (unit message : string) : res string :=
  match o with
  | Some x => say [put (roundTo x digits); put unit]
  | None => put message
  end.

(** explain.cpp:1573-1590 *)
Definition explainRunway (r : Runway) : res string :=
  if Runway_isAllRunways r then put "all runways" else
  if Runway_isMessageRepetition r then put "same runway (repetition of last message)" else
  say [put "runway ";
       put (if (rNumber r <? 10)%N then "0" else "");
       put (dec_N (rNumber r));
       match rDesignator r with
       | Rw_NONE => put ""
       | Rw_LEFT => put " LEFT"
       | Rw_CENTER => put " CENTER"
       | Rw_RIGHT => put " RIGHT"
       end].
(** explain.cpp:1591-1603 *)
Definition explainMetafTime (t : MetafTime) : res string :=
  say [match dayValue t with
       | Some d => say [put "day "; put (dec_N d); put ", "]
       | None => put ""
       end;
       put (if (hourValue t <? 10)%N then "0" else ""); put (dec_N (hourValue t));
       put ":";
       put (if (minuteValue t <? 10)%N then "0" else ""); put (dec_N (minuteValue t));
       put " GMT"].
(** explain.cpp:1605-1630 *)
Definition explainTemperature (t : Temperature) : res string :=
  match Temperature_temperature t with
  | None => put "not reported"
  | Some v =>
    say [when (flt_is_zero v && negb (precise t))
           (say [when (freezing t) (put "slightly less than ");
                 when (negb (freezing t)) (put "slightly more than ")]);
         rounded (Temperature_toUnit t Temp_C) 1 " &deg;C" "[unable to convert temperature to &deg;C]";
         put " / ";
         rounded (Temperature_toUnit t Temp_F) 1 " &deg;F" "[unable to convert temperature to &deg;F]"]
  end.
(** explain.cpp:1632-1685 *)
Definition explainSpeed (s : Speed) : res string :=
  match speedValue s with
  | None => put "not reported"
  | Some v =>
    say [put (dec_N v); put " "; put (speedUnitToString (speedUnit s));
         put " (";
         when (negb (SpeedUnit_beq (speedUnit s) KNOTS))
           (say [rounded (Speed_toUnit s KNOTS) 1 (" " ++ speedUnitToString KNOTS)
                   "[unable to convert speed to knots]";
                 put " / "]);
         when (negb (SpeedUnit_beq (speedUnit s) METERS_PER_SECOND))
           (say [rounded (Speed_toUnit s METERS_PER_SECOND) 1 (" " ++ speedUnitToString METERS_PER_SECOND)
                   "[unable to convert speed to m/s]";
                 put " / "]);
         when (negb (SpeedUnit_beq (speedUnit s) KILOMETERS_PER_HOUR))
           (say [rounded (Speed_toUnit s KILOMETERS_PER_HOUR) 1
                   (" " ++ speedUnitToString KILOMETERS_PER_HOUR)
                   "[unable to convert speed to km/h]";
                 when (negb (SpeedUnit_beq (speedUnit s) MILES_PER_HOUR)) (put " / ")]);
         when (negb (SpeedUnit_beq (speedUnit s) MILES_PER_HOUR))
           (rounded (Speed_toUnit s MILES_PER_HOUR) 1 (" " ++ speedUnitToString MILES_PER_HOUR)
              "[unable to convert speed to mph]");
         put ")"]
  end.
(** explain.cpp:1720-1728, and the same at 1753-1761 *)
Definition explainMiles (d : N * MilesFraction) : res string :=
  let '(integer, fraction) := d in
  say [when (negb (integer =? 0)%N || MilesFraction_beq fraction F_NONE) (put (dec_N integer));
       when (negb (integer =? 0)%N && negb (MilesFraction_beq fraction F_NONE)) (put " ");
       when (negb (MilesFraction_beq fraction F_NONE)) (put (distanceMilesFractionToString fraction))].
(** explain.cpp:1692-1713 *)
Definition explainDistModifier (m : DistModifier) : res string :=
  match m with
  | DM_NONE => put ""
  | DM_LESS_THAN => put "&lt;"
  | DM_MORE_THAN => put "&gt;"
  | DM_DISTANT => say [put "10 to 30 nautical miles "; put "(19 to 55 km, 12 to 35 statue miles)"]
  | DM_VICINITY => say [put "5 to 10 nautical miles "; put "(9 to 19 km, 6 to 12 statue miles)"]
  end.
(** explain.cpp:1736-1779, the part in parentheses *)
Definition explainDistOtherUnits (d : Distance) : res string :=
  say [put " (";
       when (negb (DistUnit_beq (distUnit d) METERS))
         (say [match Distance_toUnit d METERS with
               | Some x => say [int_of_flt x; put " "; put (distanceUnitToString METERS)]
               | None => put "[unable to convert distance to meters]"
               end;
               put " / "]);
       when (negb (DistUnit_beq (distUnit d) STATUTE_MILES))
         (say [(let! m := Distance_miles d in
                match m with
                | Some x =>
                  say [explainMiles x; put " "; put (distanceUnitToString STATUTE_MILES)]
                | None => put "[unable to convert distance to statute miles]"
                end);
               when (negb (DistUnit_beq (distUnit d) FEET)) (put " / ")]);
       when (negb (DistUnit_beq (distUnit d) FEET))
         (match Distance_toUnit d FEET with
          | Some x => say [int_of_flt x; put " "; put (distanceUnitToString FEET)]
          | None => put "[unable to convert distance to feet]"
          end);
       put ")"].
(** explain.cpp:1689-1781. The two returns in the middle (1719, 1732) leave out what has been written
    to the stream before. *)
Definition explainDistance (d : Distance) : res string :=
  if negb (Distance_isReported d) then put "not reported" else
  let! modifier := explainDistModifier (distModifier d) in
  if negb (Distance_isValue d) then put modifier else
  if DistUnit_beq (distUnit d) STATUTE_MILES then
    let! m := Distance_miles d in
    match m with
    | None => put "[unable to get distance value in miles]"
    | Some x =>
      say [put modifier; explainMiles x; put " "; put (distanceUnitToString (distUnit d));
           explainDistOtherUnits d]
    end
  else
    match Distance_toUnit d (distUnit d) with
    | None => put "[unable to get distance's floating-point value]"
    | Some x =>
      say [put modifier; int_of_flt x; put " "; put (distanceUnitToString (distUnit d));
           explainDistOtherUnits d]
    end.
(** explain.cpp:1783-1833. The case VALUE_DEGREES has no break and continues with VALUE_CARDINAL. *)
Definition explainDirection (d : Direction) (trueCardinalDirections : bool) : res string :=
  let c := cardinalDirectionToString (Direction_cardinal d trueCardinalDirections) in
  match dirType d with
  | DT_NOT_REPORTED => put "not reported"
  | DT_VARIABLE => put "variable"
  | DT_NDV => put "no directional variation"
  | DT_VALUE_DEGREES =>
    say [match Direction_degrees d with
         | Some x => say [put (dec_N x); put " degrees"]
         | None => put "[unable to produce value in &deg;]"
         end;
         when (negb (sempty c)) (say [put "("; put c; put ")"])]
  | DT_VALUE_CARDINAL => when (negb (sempty c)) (put c)
  | DT_OVERHEAD => put "overhead"
  | DT_ALQDS => put "all quadrants (all directions)"
  | DT_UNKNOWN => put "unknown direction"
  end.
(** explain.cpp:1835-1862 *)
Definition explainPressure (p : Pressure) : res string :=
  match pressureValue p with
  | None => put "not reported"
  | Some _ =>
    say [rounded (Pressure_toUnit p HECTOPASCAL) 1 " hPa" "[unable to convert pressure to hPa]";
         put " / ";
         rounded (Pressure_toUnit p INCHES_HG) 2 " inHg" "[unable to convert pressure to inHg]";
         put " / ";
         rounded (Pressure_toUnit p MM_HG) 1 " mmHg" "[unable to convert pressure to mmHg]"]
  end.
(** explain.cpp:1864-1887 *)
Definition explainPrecipitation (p : Precipitation) : res string :=
  if negb (Precipitation_isReported p) then put "not reported" else
  if (match precipValue p with Some v => flt_is_zero v | None => false end) then put "trace amount" else
  say [rounded (Precipitation_toUnit p MM) 1 " mm" "[unable to convert precipitation to mm]";
       put " / ";
       rounded (Precipitation_toUnit p INCHES) 2 " inches"
         "[unable to convert precipitation to inches]"].
(** explain.cpp:1889-1909 *)
Definition explainSurfaceFriction (f : SurfaceFriction) : res string :=
  match sfType f with
  | Sf_NOT_REPORTED => put "not reported"
  | Sf_SURFACE_FRICTION_REPORTED =>
    match SurfaceFriction_coefficient f with
    | Some c => put ("friction coefficient " ++ roundTo c 2)
    | None => put "[unable to produce a friction coefficient]"
    end
  | Sf_BRAKING_ACTION_REPORTED =>
    put ("braking action " ++ brakingActionToString (SurfaceFriction_brakingAction f))
  | Sf_UNRELIABLE => put "unreliable or unmeasurable"
  end.
(** explain.cpp:1911-1944 *)
Definition explainWaveHeight (w : WaveHeight) : res string :=
  match whType w with
  | Wh_STATE_OF_SURFACE =>
    put ("state of sea surface: " ++ stateOfSeaSurfaceToString (WaveHeight_stateOfSurface w))
  | Wh_WAVE_HEIGHT =>
    if WaveHeight_isReported w then
      say [put "wave height: ";
           rounded (WaveHeight_toUnit w Wh_METERS) 1 " meters" "[unable to convert wave height to meters]";
           put " / ";
           rounded (WaveHeight_toUnit w Wh_FEET) 1 " feet" "[unable to convert wave height to feet]"]
    else put "wave height not reported"
  end.

(** [==] of std::vector<Weather> *)
Fixpoint weathers_beq (a b : list WpWeather) : bool :=
  match a, b with
  | [], [] => true
  | x :: a', y :: b' => WpWeather_beq x y && weathers_beq a' b'
  | _, _ => false
  end.
(** explain.cpp:2437-2508 *)
Definition specialWeatherPhenomena : list (WpQualifier * WpDescriptor * list WpWeather * string) :=
  [ (Q_VICINITY, D_SHOWERS, [], "precipitation in vicinity (up to 10 miles away)");
    (Q_NONE, D_NONE, [W_ICE_CRYSTALS], "ice crystals (diamond dust)");
    (Q_NONE, D_NONE, [W_DUST], "widespread dust");
    (Q_NONE, D_NONE, [W_UNDETERMINED],
     "undetermined precipitation " ++ "(automated system cannot identify precipitation)");
    (Q_NONE, D_SHALLOW, [W_FOG], "shallow fog (ground fog)");
    (Q_NONE, D_PARTIAL, [W_FOG], "fog covering part of the location");
    (Q_NONE, D_PATCHES, [W_FOG], "patches of fog randomly covering the location");
    (Q_NONE, D_FREEZING, [W_FOG], "fog at freezing temperture (may or may not deposit rime)");
    (Q_HEAVY, D_NONE, [W_FUNNEL_CLOUD], "tornado or waterspout");
    (Q_VICINITY, D_NONE, [W_FUNNEL_CLOUD], "tornadic activity in vicinity") ].
(** The loop 2510-2519. The std::string() returned at the end is a temporary whose text the
    std::string_view would outlive; as it is empty no character of it is read. *)
Fixpoint special_loop (wp : WeatherPhenomena)
  (l : list (WpQualifier * WpDescriptor * list WpWeather * string)) : string :=
  match l with
  | [] => ""
  | (q, d, ws, s) :: t =>
    if WpQualifier_beq (Wp_qualifier wp) q && WpDescriptor_beq (Wp_descriptor wp) d &&
       weathers_beq (Wp_weather wp) ws
    then s else special_loop wp t
  end.
(** explain.cpp:2437-2521 *)
Definition specialWeatherPhenomenaToString (wp : WeatherPhenomena) : string :=
  special_loop wp specialWeatherPhenomena.

(** The loop at explain.cpp:1977-1989 *)
Fixpoint explainWeathers (previous : WpWeather) (l : list WpWeather) : res string :=
  match l with
  | [] => Ok ""
  | w :: t =>
    let! s := weatherPhenomenaWeatherToString w in
    let s := if WpWeather_beq previous W_RAIN && WpWeather_beq w W_SNOW then "and snow mix" else s in
    let s := if WpWeather_beq previous W_SNOW && WpWeather_beq w W_RAIN then "and rain mix" else s in
    say [put s; put " "; explainWeathers w t]
  end.
(** [if (const auto q = ...; !q.empty()) result << q << " ";] *)
Definition with_space (r : res string) : res string :=
  let! q := r in when (negb (sempty q)) (say [put q; put " "]).
(** explain.cpp:1946-2016 *)
Definition explainWeatherPhenomena (wp : WeatherPhenomena) : res string :=
  let special := specialWeatherPhenomenaToString wp in
  if negb (sempty special) then put special else
  say [with_space (weatherPhenomenaQualifierToString (Wp_qualifier wp));
       with_space (weatherPhenomenaDescriptorToString (Wp_descriptor wp));
       explainWeathers W_NOT_REPORTED (Wp_weather wp);
       when (WpDescriptor_beq (Wp_descriptor wp) D_SHOWERS) (put "showers ");
       when (WpDescriptor_beq (Wp_descriptor wp) D_THUNDERSTORM)
         (say [when (negb (Nat.eqb (List.length (Wp_weather wp)) 0)) (put "with ");
               put "thunderstorm "]);
       when (WpQualifier_beq (Wp_qualifier wp) Q_VICINITY) (put "in vicinity (5 to 10 miles away)");
       match Wp_event wp with
       | Ev_BEGINNING =>
         match wpTm wp with None => put "" | Some t => say [put " began: "; explainMetafTime t] end
       | Ev_ENDING =>
         match wpTm wp with None => put "" | Some t => say [put " ended: "; explainMetafTime t] end
       | Ev_NONE | Ev_other _ => put ""
       end].

(** explain.cpp:2018-2027 *)
Fixpoint sector_loop (first : bool) (l : list Direction) : res string :=
  match l with
  | [] => put ""
  | d :: t =>
    say [when (negb first) (put ", "); put (cardinalDirectionToString (Direction_cardinal d false));
         sector_loop false t]
  end.
Definition explainDirectionSector (dir : list Direction) : res string := sector_loop true dir.
(** explain.cpp:2029-2040 *)
Definition explainCloudType (ct : CloudType) : res string :=
  say [put (cloudTypeToString (ctTp ct)); put " covering "; put (dec_N (ctOkt ct));
       put "/8 of the sky";
       when (Distance_isReported (ctHt ct))
         (say [put ", base height "; explainDistance (ctHt ct)])].

(** explain.cpp:1371-1372 *)
Definition colourCodeBlack : string :=
  "Colour code BLACK: " ++ "aerodrome closed due to snow accumulation or non-weather reasons".

(** explain.cpp:196-287 *)
Definition visit_Keyword (g : KeywordGroup) (part : ReportPart) (raw : string)
  : res string :=
  say [validity (KeywordGroup_isValid g);
    (match kw_t g with
      | Kw_METAR =>
        put "Report type: METAR (weather observation report)"
      | Kw_SPECI =>
        say [put "Report type: unscheduled METAR ";
          put "(weather observation report)";
          line "Unscheduled report is issued due to sudden changes in ";
          put "weather conditions: wind shift, visibility decrease, ";
          put "severe weather, clouds formed or dissipated, etc."]
      | Kw_TAF =>
        put "Report type: TAF (terminal aerodrome forecast)"
      | Kw_AMD =>
        put "Amended report"
      | Kw_NIL =>
        put "Missing report"
      | Kw_CNL =>
        put "Cancelled report"
      | Kw_COR =>
        put "Correctional report"
      | Kw_AUTO =>
        say [put "Fully automated report with no human intervention ";
          put "or oversight"]
      | Kw_CAVOK =>
        say [put "Ceiling and visibility OK";
          line "Visibility 10 km or more in all directions, ";
          put "no cloud below 5000 feet (1500 meters), ";
          put "no cumulonimbus or towering cumulus clouds, ";
          put "no significant weather phenomena"]
      | Kw_RMK =>
        put "The remarks are as follows"
      | Kw_MAINTENANCE_INDICATOR =>
        put "Automated station requires maintenance"
      | Kw_AO1 =>
        say [put "This automated station is not equipped with a ";
          put "precipitation discriminator"]
      | Kw_AO2 =>
        say [put "This automated station is equipped with a ";
          put "precipitation discriminator"]
      | Kw_AO1A =>
        say [put "This automated station is not equipped with a ";
          put "precipitation discriminator";
          line "Automated observation is augmented by a human observer"]
      | Kw_AO2A =>
        say [put "This automated station is equipped with a ";
          put "precipitation discriminator";
          line "Automated observation is augmented by a human observer"]
      | Kw_NOSPECI =>
        say [put "This manual station does not issue SPECI (unscheduled) ";
          put "reports"]
      end)].
(** explain.cpp:289-299 *)
Definition visit_Location (g : LocationGroup) (part : ReportPart) (raw : string)
  : res string :=
  say [validity (LocationGroup_isValid g);
    put "ICAO code of station: ";
    put (LocationGroup_toString g)].
(** explain.cpp:301-312 *)
Definition visit_ReportTime (g : ReportTimeGroup) (part : ReportPart) (raw : string)
  : res string :=
  say [validity (ReportTimeGroup_isValid g);
    put "Day and time of report release: ";
    explainMetafTime (rt_t g)].
(** explain.cpp:314-421 *)
Definition visit_Trend (g : TrendGroup) (part : ReportPart) (raw : string)
  : res string :=
  say [validity (TrendGroup_isValid g);
    (match tr_t g with
      | Tr_NOSIG =>
        put "No significant weather changes expected"
      | Tr_BECMG =>
        say [put "Weather conditions are expected to gradually change ";
          put "as follows";
          (match tr_from g with
            | Some t => say [line "From ";
                explainMetafTime t]
            | None => put ""
            end);
          (match tr_till g with
            | Some t => say [line "Until ";
                explainMetafTime t]
            | None => put ""
            end);
          (match tr_at g with
            | Some t => say [line "At ";
                explainMetafTime t]
            | None => put ""
            end)]
      | Tr_TEMPO =>
        say [put "The following temporary weather conditions may arise ";
          put " for less than 60 minutes";
          (match tr_from g with
            | Some t => say [line "From ";
                explainMetafTime t]
            | None => put ""
            end);
          (match tr_till g with
            | Some t => say [line "Until ";
                explainMetafTime t]
            | None => put ""
            end);
          (match tr_at g with
            | Some t => say [line "At ";
                explainMetafTime t]
            | None => put ""
            end);
          when (negb (TrProb_beq (tr_prob g) Pr_NONE))
          (say [line "";
              put (probabilityToString (tr_prob g))])]
      | Tr_INTER =>
        say [put "The following temporary weather conditions may arise ";
          put "for less than 30 minutes";
          (match tr_from g with
            | Some t => say [line "From ";
                explainMetafTime t]
            | None => put ""
            end);
          (match tr_till g with
            | Some t => say [line "Until ";
                explainMetafTime t]
            | None => put ""
            end);
          (match tr_at g with
            | Some t => say [line "At ";
                explainMetafTime t]
            | None => put ""
            end);
          when (negb (TrProb_beq (tr_prob g) Pr_NONE))
          (say [line "";
              put (probabilityToString (tr_prob g))])]
      | Tr_FROM =>
        say [put "Weather conditions are expected to change rapidly from ";
          (let! x := deref (tr_from g) in explainMetafTime x);
          line "All previous weather conditions are superseded by ";
          put "the following conditions"]
      | Tr_UNTIL =>
        say [put "The following weather conditions expected to last until ";
          (let! x := deref (tr_till g) in explainMetafTime x)]
      | Tr_AT =>
        say [put "The following weather conditions expected to occur at ";
          (let! x := deref (tr_at g) in explainMetafTime x)]
      | Tr_TIME_SPAN =>
        say [put "The following weather condition are expected within ";
          put "time span from ";
          (let! x := deref (tr_from g) in explainMetafTime x);
          put " until ";
          (let! x := deref (tr_till g) in explainMetafTime x);
          when (negb (TrProb_beq (tr_prob g) Pr_NONE))
          (say [line "";
              put (probabilityToString (tr_prob g))])]
      | Tr_PROB =>
        say [put "The weather conditions probability is as follows";
          line "";
          put (probabilityToString (tr_prob g))]
      end)].
(** explain.cpp:423-536 *)
Definition visit_Wind (g : WindGroup) (part : ReportPart) (raw : string)
  : res string :=
  say [validity (WindGroup_isValid g);
    (match wi_type g with
      | Wi_SURFACE_WIND_CALM =>
        put "No wind"
      | Wi_SURFACE_WIND =>
        say [put "Surface wind";
          line "Wind direction: ";
          explainDirection (wi_dir g) true;
          line "Wind speed: ";
          explainSpeed (wi_speed g);
          when (Speed_isReported (wi_gust g))
          (say [line "Gust speed: ";
              explainSpeed (wi_gust g)])]
      | Wi_VARIABLE_WIND_SECTOR =>
        say [put "Variable wind sector";
          line "Variable wind direction sector from ";
          explainDirection (wi_vsecBegin g) false;
          put " clockwise to ";
          explainDirection (wi_vsecEnd g) false]
      | Wi_SURFACE_WIND_WITH_VARIABLE_SECTOR =>
        say [put "Surface wind with variable with sector";
          line "Wind direction: ";
          explainDirection (wi_dir g) true;
          line "Wind speed: ";
          explainSpeed (wi_speed g);
          when (Speed_isReported (wi_gust g))
          (say [line "Gust speed: ";
              explainSpeed (wi_gust g)]);
          line "Variable wind direction sector from ";
          explainDirection (wi_vsecBegin g) false;
          put " clockwise to ";
          explainDirection (wi_vsecEnd g) false]
      | Wi_WIND_SHEAR =>
        say [put "Wind shear at height ";
          explainDistance (wi_height g);
          put ":";
          line "";
          put "Wind direction: ";
          explainDirection (wi_dir g) true;
          put "Wind speed: ";
          explainSpeed (wi_speed g);
          when (Speed_isReported (wi_gust g))
          (say [line "Gust speed: ";
              explainSpeed (wi_gust g)])]
      | Wi_WIND_SHIFT =>
        say [put "Wind direction changed 45&deg; or more in less than ";
          put "15 minutes with sustained wind speed of 10 knots";
          put " (5.1 m/s / 18.5 km/h / 11.5 mph)";
          when (has_value (wi_evTime g))
          (say [line "Wind shift began at ";
              (let! x := deref (wi_evTime g) in explainMetafTime x)])]
      | Wi_WIND_SHIFT_FROPA =>
        say [put "Wind direction changed 45&deg; or more in less than ";
          put "15 minutes with sustained wind speed of 10 knots";
          put " (5.1 m/s / 18.5 km/h / 11.5 mph)";
          when (has_value (wi_evTime g))
          (say [line "Wind shift began at ";
              (let! x := deref (wi_evTime g) in explainMetafTime x)]);
          line "This wind shift is associated with weather front passage"]
      | Wi_PEAK_WIND =>
        say [put "Peak wind was observed at ";
          (let! x := opt_value (wi_evTime g) in explainMetafTime x);
          line "Wind direction: ";
          explainDirection (wi_dir g) true;
          line "Wind speed: ";
          explainSpeed (wi_speed g)]
      | Wi_WIND_SHEAR_IN_LOWER_LAYERS =>
        say [put "Wind shear significant to aircraft operations ";
          put "is present along the take-off path or approach path ";
          put "between runway level and 500 metres (1 600 ft)";
          (match wi_rw g with
            | Some rw => say [put " at ";
                explainRunway rw]
            | None => put ""
            end)]
      | Wi_WSCONDS =>
        say [put "Potential wind shear conditions are present ";
          put "but there's not enough information to reliably forecast ";
          put "height, direction and speed of wind shear"]
      | Wi_WND_MISG =>
        put "Wind data is missing"
      end)].
(** explain.cpp:538-670 *)
Definition visit_Visibility (g : VisibilityGroup) (part : ReportPart) (raw : string)
  : res string :=
  say [validity (VisibilityGroup_isValid g);
    (match vi_type g with
      | Vi_PREVAILING =>
        say [put "Prevailing visibility is ";
          explainDistance (VisibilityGroup_visibility g)]
      | Vi_PREVAILING_NDV =>
        say [put "Prevailing visibility is ";
          explainDistance (VisibilityGroup_visibility g);
          line "This station cannot differentiate the directional ";
          put "variation of visibility"]
      | Vi_DIRECTIONAL =>
        say [put "Directional visibility toward ";
          (let! x := opt_value (vi_dir g) in explainDirection x false);
          put " is ";
          explainDistance (VisibilityGroup_visibility g)]
      | Vi_RUNWAY =>
        say [put "Visibility for ";
          (let! x := opt_value (vi_rw g) in explainRunway x);
          put " is ";
          explainDistance (VisibilityGroup_visibility g)]
      | Vi_RVR =>
        (if negb (has_value (vi_rw g)) then put "Runway visual range not reported " else
          say [put "Runway visual range for ";
            (let! x := opt_value (vi_rw g) in explainRunway x);
            put " is ";
            explainDistance (VisibilityGroup_visibility g);
            when (negb (ViTrend_beq (vi_trend g) Vt_NONE))
            (say [put ", and the trend is ";
                put (visTrendToString (vi_trend g))])])
      | Vi_SURFACE =>
        say [put "Visibility at surface level is ";
          explainDistance (VisibilityGroup_visibility g)]
      | Vi_TOWER =>
        say [put "Visibility from air traffic control tower is ";
          explainDistance (VisibilityGroup_visibility g)]
      | Vi_SECTOR =>
        say [put "Sector visibility is ";
          explainDistance (VisibilityGroup_visibility g);
          line "In the following directions: ";
          (let! x := VisibilityGroup_sectorDirections g in explainDirectionSector x)]
      | Vi_VARIABLE_PREVAILING =>
        say [put "Prevailing visibility is variable from ";
          explainDistance (VisibilityGroup_minVisibility g);
          put " to ";
          explainDistance (VisibilityGroup_maxVisibility g)]
      | Vi_VARIABLE_DIRECTIONAL =>
        say [put "Directional visibility toward ";
          (let! x := opt_value (vi_dir g) in explainDirection x false);
          put " is variable from ";
          explainDistance (VisibilityGroup_minVisibility g);
          put " to ";
          explainDistance (VisibilityGroup_maxVisibility g)]
      | Vi_VARIABLE_RUNWAY =>
        say [put "Visibility for ";
          (let! x := opt_value (vi_rw g) in explainRunway x);
          put " is variable from ";
          explainDistance (VisibilityGroup_minVisibility g);
          put " to ";
          explainDistance (VisibilityGroup_maxVisibility g)]
      | Vi_VARIABLE_RVR =>
        say [put "Runway visual range for ";
          (let! x := opt_value (vi_rw g) in explainRunway x);
          put " is variable from ";
          explainDistance (VisibilityGroup_minVisibility g);
          put " to ";
          explainDistance (VisibilityGroup_maxVisibility g);
          when (negb (ViTrend_beq (vi_trend g) Vt_NONE))
          (say [put ", and the trend is ";
              put (visTrendToString (vi_trend g))])]
      | Vi_VARIABLE_SECTOR =>
        say [put "Sector visibility is variable from ";
          explainDistance (VisibilityGroup_minVisibility g);
          put " to ";
          explainDistance (VisibilityGroup_maxVisibility g);
          line "In the following directions: ";
          (let! x := VisibilityGroup_sectorDirections g in explainDirectionSector x)]
      | Vi_VIS_MISG =>
        put "Visibility data missing"
      | Vi_RVR_MISG =>
        put "Runway visual range data is missing"
      | Vi_RVRNO =>
        put "Runway visual range should be reported but is missing"
      | Vi_VISNO =>
        say [put "Visibility data not awailable";
          (match vi_rw g with
            | Some r => say [put " for ";
                explainRunway r]
            | None => put ""
            end);
          (match vi_dir g with
            | Some d => say [put " in the direction of ";
                explainDirection d false]
            | None => put ""
            end)]
      end)].
(** explain.cpp:672-753 *)
Definition visit_Cloud (g : CloudGroup) (part : ReportPart) (raw : string)
  : res string :=
  say [validity (CloudGroup_isValid g);
    (match cl_tp g with
      | Cl_NO_CLOUDS =>
        put (cloudAmountToString (cl_amnt g))
      | Cl_CLOUD_LAYER =>
        say [put "Cloud layer";
          line "";
          put (cloudAmountToString (cl_amnt g));
          line "Base height ";
          explainDistance (CloudGroup_height g);
          when (negb (ClConv_beq (cl_conv g) Cv_NONE))
          (say [line "Convective type: ";
              put (convectiveTypeToString (cl_conv g))])]
      | Cl_VERTICAL_VISIBILITY =>
        say [put "Sky is obscured, vertical visibility is ";
          explainDistance (CloudGroup_verticalVisibility g)]
      | Cl_CEILING =>
        say [put "Ceiling height ";
          explainDistance (CloudGroup_height g);
          (match cl_rw g with
            | Some rw => say [put " at ";
                explainRunway rw]
            | None => put ""
            end);
          (match cl_dir g with
            | Some d => say [put " towards ";
                explainDirection d false]
            | None => put ""
            end)]
      | Cl_VARIABLE_CEILING =>
        say [put "Ceiling height is variable between ";
          explainDistance (CloudGroup_minHeight g);
          put " and ";
          explainDistance (CloudGroup_maxHeight g);
          (match cl_rw g with
            | Some rw => say [put " at ";
                explainRunway rw]
            | None => put ""
            end);
          (match cl_dir g with
            | Some d => say [put " towards ";
                explainDirection d false]
            | None => put ""
            end)]
      | Cl_CHINO =>
        say [put "Ceiling data not awailable";
          (match cl_rw g with
            | Some rw => say [put " at ";
                explainRunway rw]
            | None => put ""
            end);
          (match cl_dir g with
            | Some d => say [put " towards ";
                explainDirection d false]
            | None => put ""
            end)]
      | Cl_CLD_MISG =>
        put "Sky condition data (cloud data) is missing"
      | Cl_OBSCURATION =>
        say [(match Distance_distance (CloudGroup_height g) with
            | Some h => (if flt_is_zero h
                then say [put "Ground-based obscuration";
                  line ""]
                else say [put "Aloft obscuration";
                  line ""])
            | None => put ""
            end);
          (match CloudGroup_cloudType g with
            | Some ct => explainCloudType ct
            | None => put ""
            end)]
      end)].
(** explain.cpp:755-814 *)
Definition visit_Weather (g : WeatherGroup) (part : ReportPart) (raw : string)
  : res string :=
  say [(let! v := WeatherGroup_isValid g in validity v);
    (match wx_t g with
      | Wx_CURRENT =>
        say [put "Weather phenomena:";
          say (map (fun p => say [line "";
                explainWeatherPhenomena p])
            (WeatherGroup_weatherPhenomena g))]
      | Wx_RECENT =>
        say [put "Recent weather:";
          say (map (fun p => say [line "";
                explainWeatherPhenomena p])
            (WeatherGroup_weatherPhenomena g))]
      | Wx_EVENT =>
        say [put "Precipitation beginning/ending time:";
          say (map (fun p => say [line "";
                explainWeatherPhenomena p])
            (WeatherGroup_weatherPhenomena g))]
      | Wx_NSW =>
        say [put "Nil significant weather";
          line "Indicates end of significant weather phenomena"]
      | Wx_PWINO =>
        say [put "This automated station is equipped with ";
          put "present weather identifier ";
          put "and this sensor is not operating"]
      | Wx_TSNO =>
        say [put "This automated station is equipped with lightning detector ";
          put "and this sensor is not operating"]
      | Wx_WX_MISG =>
        put "Weather phenomena data is missing"
      | Wx_TS_LTNG_TEMPO_UNAVBL =>
        put "Thunderstorm / lightning data is missing"
      end)].
(** explain.cpp:816-847 *)
Definition visit_Temperature (pow : flt -> flt -> flt) (g : TemperatureGroup) (part : ReportPart) (raw : string)
  : res string :=
  say [validity (TemperatureGroup_isValid g);
    (match tg_tp g with
      | Tg_TEMPERATURE_AND_DEW_POINT =>
        say [put "Ambient air temperature: ";
          explainTemperature (tg_t g);
          line "Dew point: ";
          explainTemperature (tg_dp g);
          (match TemperatureGroup_relativeHumidity pow g with
            | Some rh => say [line "Relative humidity: ";
                int_of_flt rh;
                put " percent"]
            | None => put ""
            end)]
      | Tg_T_MISG =>
        put "Temperature data is missing"
      | Tg_TD_MISG =>
        put "Dew point data is missing"
      end)].
(** explain.cpp:849-891 *)
Definition visit_Pressure (g : PressureGroup) (part : ReportPart) (raw : string)
  : res string :=
  say [validity (PressureGroup_isValid g);
    (match pg_t g with
      | Pg_OBSERVED_QNH =>
        say [put "Observed mean atmospheric pressure ";
          put "(normalised to sea level) / altimeter setting: ";
          explainPressure (pg_p g)]
      | Pg_FORECAST_LOWEST_QNH =>
        say [put "Forecast lowest sea level pressure: ";
          explainPressure (pg_p g)]
      | Pg_OBSERVED_QFE =>
        say [put "Observed actual atmospheric pressure: ";
          explainPressure (pg_p g)]
      | Pg_OBSERVED_SLP =>
        say [put "Observed atmospheric pressure normalised to sea level:";
          explainPressure (pg_p g);
          line "This is a value that might be more accurate for meteorological ";
          put "purposes and attempts to correct for non-standard temperatures."]
      | Pg_SLPNO =>
        put "Mean sea-level pressure information is not available"
      | Pg_PRES_MISG =>
        put "Atmospheric pressure (altimeter) data is missing"
      end)].
(** explain.cpp:893-938 *)
Definition visit_RunwayState (g : RunwayStateGroup) (part : ReportPart) (raw : string)
  : res string :=
  say [validity (RunwayStateGroup_isValid g);
    put "State of ";
    explainRunway (rs_rw g);
    put ":";
    line "";
    (match rs_tp g with
      | Rs_RUNWAY_STATE =>
        say [put (runwayStateDepositsToString (rs_dp g));
          when (negb (RsDeposits_beq (rs_dp g) De_CLEAR_AND_DRY))
          (say [line "Depth of deposits on runway: ";
              explainPrecipitation (rs_dDepth g);
              line "Runway contamination extent: ";
              put (runwayStateExtentToString (rs_ext g))]);
          line "Surface friction: ";
          explainSurfaceFriction (rs_sf g)]
      | Rs_RUNWAY_CLRD =>
        say [put "Deposits on runway were cleared or ceased to exist";
          line "Surface friction: ";
          explainSurfaceFriction (rs_sf g)]
      | Rs_RUNWAY_SNOCLO =>
        put "Runway closed due to snow accumulation"
      | Rs_AERODROME_SNOCLO =>
        put "Aerodrome closed due to snow accumulation"
      | Rs_RUNWAY_NOT_OPERATIONAL =>
        put "Runway is not operational"
      end)].
(** explain.cpp:940-952 *)
Definition visit_SeaSurface (g : SeaSurfaceGroup) (part : ReportPart) (raw : string)
  : res string :=
  say [validity (SeaSurfaceGroup_isValid g);
    put "Sea surface temperature ";
    explainTemperature (ss_t g);
    put ", ";
    explainWaveHeight (ss_wh g)].
(** explain.cpp:954-995 *)
Definition visit_MinMaxTemperature (g : MinMaxTemperatureGroup) (part : ReportPart) (raw : string)
  : res string :=
  say [validity (MinMaxTemperatureGroup_isValid g);
    (match mm_t g with
      | Mm_OBSERVED_6_HOURLY =>
        say [put "Observed 6-hourly minimum/maximum temperature: ";
          line "Minimum ambient air temperature: ";
          explainTemperature (mm_minTemp g);
          line "Maximum ambient air temperature: ";
          explainTemperature (mm_maxTemp g)]
      | Mm_OBSERVED_24_HOURLY =>
        say [put "Observed 24-hourly minimum/maximum temperature: ";
          line "Minimum ambient air temperature: ";
          explainTemperature (mm_minTemp g);
          line "Maximum ambient air temperature: ";
          explainTemperature (mm_maxTemp g)]
      | Mm_FORECAST =>
        say [put "Forecast minimum/maximum temperature";
          when (Temperature_isReported (mm_minTemp g))
          (say [line "Minimum ambient air temperature: ";
              explainTemperature (mm_minTemp g);
              put ", expected at ";
              (let! x := opt_value (mm_minTime g) in explainMetafTime x)]);
          when (Temperature_isReported (mm_maxTemp g))
          (say [line "Maximum ambient air temperature: ";
              explainTemperature (mm_maxTemp g);
              put ", expected at ";
              (let! x := opt_value (mm_maxTime g) in explainMetafTime x)])]
      end)].
(** explain.cpp:997-1108 *)
Definition visit_Precipitation (g : PrecipitationGroup) (part : ReportPart) (raw : string)
  : res string :=
  say [validity (PrecipitationGroup_isValid g);
    (match pc_type g with
      | Pc_TOTAL_PRECIPITATION_HOURLY =>
        say [put "Total precipitation for the past hour: ";
          explainPrecipitation (pc_amount g)]
      | Pc_SNOW_DEPTH_ON_GROUND =>
        say [put "Snow depth on ground: ";
          explainPrecipitation (pc_amount g)]
      | Pc_FROZEN_PRECIP_3_OR_6_HOURLY =>
        say [put "Water equivalent of frozen precipitation ";
          put "for the last 3 or 6 hours: ";
          explainPrecipitation (pc_amount g)]
      | Pc_FROZEN_PRECIP_3_HOURLY =>
        say [put "Water equivalent of frozen precipitation";
          put " for the last 3 hours: ";
          explainPrecipitation (pc_amount g)]
      | Pc_FROZEN_PRECIP_6_HOURLY =>
        say [put "Water equivalent of frozen precipitation";
          put "for the last 6 hours: ";
          explainPrecipitation (pc_amount g)]
      | Pc_FROZEN_PRECIP_24_HOURLY =>
        say [put "Water equivalent of frozen precipitation ";
          put "for the last 24 hours: ";
          explainPrecipitation (pc_amount g)]
      | Pc_SNOW_6_HOURLY =>
        say [put "Snowfall for the last 6 hours: ";
          explainPrecipitation (pc_amount g)]
      | Pc_WATER_EQUIV_OF_SNOW_ON_GROUND =>
        say [put "Water equivalent of snow on ground: ";
          explainPrecipitation (pc_amount g)]
      | Pc_ICE_ACCRETION_FOR_LAST_HOUR =>
        say [put "Ice accretion for the last hour: ";
          explainPrecipitation (pc_amount g)]
      | Pc_ICE_ACCRETION_FOR_LAST_3_HOURS =>
        say [put "Ice accretion for the last 3 hours: ";
          explainPrecipitation (pc_amount g)]
      | Pc_ICE_ACCRETION_FOR_LAST_6_HOURS =>
        say [put "Ice accretion for the last 6 hours: ";
          explainPrecipitation (pc_amount g)]
      | Pc_PRECIPITATION_ACCUMULATION_SINCE_LAST_REPORT =>
        say [put "Precipitation accumulation since last report: ";
          explainPrecipitation (pc_amount g)]
      | Pc_SNOW_INCREASING_RAPIDLY =>
        say [put "Snow increasing rapidly";
          line "For the last hour snow increased by ";
          explainPrecipitation (pc_change g);
          line "Total snowfall: ";
          explainPrecipitation (pc_amount g)]
      | Pc_RAINFALL_9AM_10MIN =>
        say [put "Rainfall for the last 10 minutes before ";
          put "report release time: ";
          explainPrecipitation (pc_change g);
          line "Rainfall since 9AM (9:00) local time: ";
          explainPrecipitation (pc_amount g)]
      | Pc_PNO =>
        say [put "This automated station is equipped with ";
          put "tipping bucket rain gauge ";
          put "and this sensor is not operating"]
      | Pc_FZRANO =>
        say [put "This automated station is equipped with ";
          put "freezing rain sensor ";
          put "and this sensor is not operating"]
      | Pc_ICG_MISG =>
        put "Icing data is missing"
      | Pc_PCPN_MISG =>
        put "Precipitation data is missing"
      end)].
(** explain.cpp:1110-1129 *)
Definition visit_LayerForecast (g : LayerForecastGroup) (part : ReportPart) (raw : string)
  : res string :=
  say [validity (LayerForecastGroup_isValid g);
    put (layerForecastGroupTypeToString (lf_type g));
    put " at ";
    (if negb (Distance_isReported (lf_base g)) && negb (Distance_isReported (lf_top g))
      then put "all heights"
      else say [put "heights from ";
        explainDistance (lf_base g);
        put " to ";
        explainDistance (lf_top g)])].
(** explain.cpp:1131-1166 *)
Definition visit_PressureTendency (g : PressureTendencyGroup) (part : ReportPart) (raw : string)
  : res string :=
  say [validity (PressureTendencyGroup_isValid g);
    (match pt_type g with
      | Pt_NOT_REPORTED =>
        say [put "3-hourly pressure tendency is not reported";
          line "Absolute pressure change is ";
          explainPressure (pt_difference g)]
      | Pt_RISING_RAPIDLY | Pt_FALLING_RAPIDLY =>
        say [put "Atmospheric pressure is ";
          put (pressureTendencyTypeToString (pt_type g))]
      | _ =>
        say [put "During last 3 hours the atmospheric pressure was ";
          put (pressureTendencyTypeToString (pt_type g));
          line "Now the atmospheric pressure is ";
          put (pressureTendencyTrendToString (PressureTendency_trend (pt_type g)));
          put " 3 hours ago";
          line "Absolute pressure change is ";
          explainPressure (pt_difference g)]
      end)].
(** explain.cpp:1168-1183 *)
Definition visit_CloudTypes (g : CloudTypesGroup) (part : ReportPart) (raw : string)
  : res string :=
  say [validity (CloudTypesGroup_isValid g);
    put "Obscuration / cloud layers: ";
    say (map (fun c => say [line "";
          explainCloudType c])
      (CloudTypesGroup_cloudTypes g))].
(** explain.cpp:1185-1200 *)
Definition visit_LowMidHighCloud (g : LowMidHighCloudGroup) (part : ReportPart) (raw : string)
  : res string :=
  say [validity (LowMidHighCloudGroup_isValid g);
    put "Low cloud layer:";
    line "";
    put (cloudLowLayerToString (lmh_low g));
    line "Mid cloud layer:";
    line "";
    put (cloudMidLayerToString (lmh_mid g));
    line "High cloud layer:";
    line "";
    put (cloudHighLayerToString (lmh_high g))].
(** explain.cpp:1202-1257 *)
Definition visit_Lightning (g : LightningGroup) (part : ReportPart) (raw : string)
  : res string :=
  say [validity (LightningGroup_isValid g);
    put "Lightning strikes observed";
    when (Distance_isReported (lt_dist g))
    (say [put " at distance ";
        explainDistance (lt_dist g)]);
    (match lt_freq g with
      | Lt_NONE =>
        put ""
      | Lt_OCCASIONAL =>
        line "Less than 1 strike per minute"
      | Lt_FREQUENT =>
        line "1 to 6 strikes per minute"
      | Lt_CONSTANT =>
        line "More than 6 strikes per minute"
      end);
    when (lt_cloudGround g || lt_inCloud g || lt_cloudCloud g || lt_cloudAir g)
    (say [line "The following lightning types are observed: ";
        when (lt_cloudGround g)
        (line "cloud-to-ground");
        when (lt_inCloud g)
        (line "in-cloud");
        when (lt_cloudCloud g)
        (line "cloud-to-cloud");
        when (lt_cloudAir g)
        (line "cloud-to-air without strike to ground")]);
    when (lt_unknown g)
    (say [line "Some lightning strike types specified in this group ";
        put "were not recognised by parser"]);
    (let! ds := LightningGroup_directions g in
      when (negb (Nat.eqb (List.length ds) 0))
      (say [line "Lightning strikes observed in the following directions: ";
          explainDirectionSector ds]))].
(** explain.cpp:1259-1361 *)
Definition visit_Vicinity (g : VicinityGroup) (part : ReportPart) (raw : string)
  : res string :=
  say [validity (VicinityGroup_isValid g);
    (match vc_t g with
      | Vc_THUNDERSTORM =>
        put "Thunderstorm"
      | Vc_CUMULONIMBUS =>
        put "Cumulonimbus cloud(s)"
      | Vc_CUMULONIMBUS_MAMMATUS =>
        put "Cumulonimbus cloud(s) with mammatus"
      | Vc_TOWERING_CUMULUS =>
        put "Towering cumulus cloud(s)"
      | Vc_ALTOCUMULUS_CASTELLANUS =>
        put "Altocumulus cloud(s)"
      | Vc_STRATOCUMULUS_STANDING_LENTICULAR =>
        put "Stratocumulus standing lenticular cloud(s)"
      | Vc_ALTOCUMULUS_STANDING_LENTICULAR =>
        put "Altocumulus standing lenticular cloud(s)"
      | Vc_CIRROCUMULUS_STANDING_LENTICULAR =>
        put "Cirrocumulus standing lenticular cloud(s)"
      | Vc_ROTOR_CLOUD =>
        put "Rotor cloud(s)"
      | Vc_VIRGA =>
        put "Virga"
      | Vc_PRECIPITATION_IN_VICINITY =>
        put "Precipitation"
      | Vc_FOG =>
        put "Fog"
      | Vc_FOG_SHALLOW =>
        put "Shallow fog"
      | Vc_FOG_PATCHES =>
        put "Patches of fog"
      | Vc_HAZE =>
        put "Haze"
      | Vc_SMOKE =>
        put "Smoke"
      | Vc_BLOWING_SNOW =>
        put "Blowing snow"
      | Vc_BLOWING_SAND =>
        put "Blowing sand"
      | Vc_BLOWING_DUST =>
        put "Blowing dust"
      end);
    put " observed";
    when (Distance_isReported (vc_dist g))
    (say [put " at distance ";
        explainDistance (vc_dist g)]);
    (let! ds := VicinityGroup_directions g in
      when (negb (Nat.eqb (List.length ds) 0))
      (say [line "Observed in the following directions: ";
          explainDirectionSector ds]));
    when (Direction_isReported (vc_movDir g))
    (say [line "Moving towards ";
        put (cardinalDirectionToString (Direction_cardinal (vc_movDir g) false))])].
(** explain.cpp:1363-1500 *)
Definition visit_Misc (g : MiscGroup) (part : ReportPart) (raw : string)
  : res string :=
  say [validity (MiscGroup_isValid g);
    (match ms_type g with
      | Ms_SUNSHINE_DURATION_MINUTES =>
        (let! duration := deref (ms_data g) in
          if negb (flt_is_zero duration)
          then say [put "Duration of sunshine ";
            put "that occurred the previous calendar day is ";
            put (stream_flt duration);
            put " minutes"]
          else put "No sunshine occurred the previous calendar day")
      | Ms_CORRECTED_WEATHER_OBSERVATION =>
        say [put "This report is the corrected weather observation, ";
          put "correction number is ";
          (let! x := deref (ms_data g) in int_of_flt x)]
      | Ms_DENSITY_ALTITUDE =>
        say [put "Density altitude ";
          (if negb (has_value (ms_data g))
            then put "data missing"
            else say [put " is ";
              (let! x := deref (ms_data g) in put (stream_flt x));
              put " feet"])]
      | Ms_HAILSTONE_SIZE =>
        say [put "Largest hailstone size is ";
          (let! x := deref (ms_data g) in put (stream_flt x));
          put " inches"]
      | Ms_COLOUR_CODE_BLACKBLUE_PLUS =>
        say [put colourCodeBlack;
          line "";
          put "Colour code BLUE+: ";
          put "visibility &gt;8000 m and ";
          put "lowest cloud base height &ge;20000 ft"]
      | Ms_COLOUR_CODE_BLUE_PLUS =>
        say [put "Colour code BLUE+: ";
          put "visibility &gt;8000 m and ";
          put "lowest cloud base height &ge;20000 ft"]
      | Ms_COLOUR_CODE_BLACKBLUE =>
        say [put colourCodeBlack;
          line "";
          put "Colour code BLUE: ";
          put "visibility &gt;8000 m and ";
          put "lowest cloud base height &gt;2500 ft"]
      | Ms_COLOUR_CODE_BLUE =>
        say [put "Colour code BLUE: ";
          put "visibility &gt;8000 m and ";
          put "lowest cloud base height &gt;2500 ft"]
      | Ms_COLOUR_CODE_BLACKWHITE =>
        say [put colourCodeBlack;
          line "";
          put "Colour code WHITE: ";
          put "visibility &gt;5000 m and ";
          put "lowest cloud base height &gt;1500 ft"]
      | Ms_COLOUR_CODE_WHITE =>
        say [put "Colour code WHITE: ";
          put "visibility &gt;5000 m and ";
          put "lowest cloud base height &gt;1500 ft"]
      | Ms_COLOUR_CODE_BLACKGREEN =>
        say [put colourCodeBlack;
          line "";
          put "Colour code GREEN: ";
          put "visibility &gt;3700 m and ";
          put "lowest cloud base height &gt;700 ft"]
      | Ms_COLOUR_CODE_GREEN =>
        say [put "Colour code GREEN: ";
          put "visibility &gt;3700 m and ";
          put "lowest cloud base height &gt;700 ft"]
      | Ms_COLOUR_CODE_BLACKYELLOW =>
        say [put colourCodeBlack;
          line "";
          put "Colour code YELLOW: ";
          put "visibility &gt;2500 m and ";
          put "lowest cloud base height &gt;500 ft"]
      | Ms_COLOUR_CODE_YELLOW =>
        say [put "Colour code YELLOW: ";
          put "visibility &gt;2500 m and ";
          put "lowest cloud base height &gt;500 ft"]
      | Ms_COLOUR_CODE_BLACKYELLOW1 =>
        say [put colourCodeBlack;
          line "";
          put "Colour code YELLOW 1: ";
          put "visibility &gt;2500 m and ";
          put "lowest cloud base height &gt;500 ft"]
      | Ms_COLOUR_CODE_YELLOW1 =>
        say [put "Colour code YELLOW 1: ";
          put "visibility &gt;2500 m and ";
          put "lowest cloud base height &gt;500 ft"]
      | Ms_COLOUR_CODE_BLACKYELLOW2 =>
        say [put colourCodeBlack;
          line "";
          put "Colour code YELLOW 2: ";
          put "visibility &gt;1600 m and ";
          put "lowest cloud base height &gt;300 ft"]
      | Ms_COLOUR_CODE_YELLOW2 =>
        say [put "Colour code YELLOW 2: ";
          put "visibility &gt;1600 m and ";
          put "lowest cloud base height &gt;300 ft"]
      | Ms_COLOUR_CODE_BLACKAMBER =>
        say [put colourCodeBlack;
          line "";
          put "Colour code AMBER: ";
          put "visibility &gt;800 m and ";
          put "lowest cloud base height &gt;200 ft"]
      | Ms_COLOUR_CODE_AMBER =>
        say [put "Colour code AMBER: ";
          put "visibility &gt;800 m and ";
          put "lowest cloud base height &gt;200 ft"]
      | Ms_COLOUR_CODE_BLACKRED =>
        say [put colourCodeBlack;
          line "";
          put "Colour code RED: ";
          put "either visibility &lt;800 m or ";
          put "lowest cloud base height &lt;200 ft ";
          put "or both"]
      | Ms_COLOUR_CODE_RED =>
        say [put "Colour code RED: ";
          put "either visibility &lt;800 m or ";
          put "lowest cloud base height &lt;200 ft ";
          put "or both"]
      | Ms_FROIN =>
        say [put "Frost on the instrument ";
          put "(e.g. due to freezing fog depositing rime)."]
      | Ms_ISSUER_ID_FN =>
        say [put "Report issuer identifier is ";
          (let! x := deref (ms_data g) in int_of_flt x);
          line "This forecast is issued at The Fleet Weather Center Norfolk, VA."]
      | Ms_ISSUER_ID_FS =>
        say [put "Report issuer identifier is ";
          (let! x := deref (ms_data g) in int_of_flt x);
          line "This forecast is issued at The Fleet Weather Center San Diego, CA (FS)."]
      end)].
(** explain.cpp:1503-1513 *)
Definition visit_Unknown (g : UnknownGroup) (part : ReportPart) (raw : string)
  : res string :=
  say [validity (UnknownGroup_isValid g);
    put "Not recognised by parser: ";
    put raw].

(** class VisitorExplain *)
Definition VisitorExplain (pow : flt -> flt -> flt) : Visitor (res string) :=
  mkVisitor _ visit_Keyword visit_Location visit_ReportTime visit_Trend visit_Wind visit_Visibility
    visit_Cloud visit_Weather (visit_Temperature pow) visit_Pressure visit_RunwayState
    visit_SeaSurface visit_MinMaxTemperature visit_Precipitation visit_LayerForecast
    visit_PressureTendency visit_CloudTypes visit_LowMidHighCloud visit_Lightning visit_Vicinity
    visit_Misc visit_Unknown.

(** str.replace(pos, 1, "<br>") *)
Definition put_br (s : string) (pos : nat) : string := substring 0 pos s ++ "<br>" ++ sdrop (S pos) s.
(** The loop explain.cpp:3134-3138: after a replacement the search goes on from position 4. The bound
    [fuel] of the model is not in the program; it is never reached (see Pf_ExBreaks.v). *)
Fixpoint br_loop (fuel : nat) (str : string) (from : nat) : res string :=
  match sfind "010"%char str from with
  | None => Ok str
  | Some pos =>
    match fuel with
    | O => Bad Fuel
    | S f => br_loop f (put_br str pos) 4
    end
  end.
Definition line_breaks (str : string) : res string := br_loop (S (slen str)) str 0.

(** explain.cpp:3123-3141 *)
Fixpoint explain_rows (pow : flt -> flt -> flt) (l : list GroupInfo) : res string :=
  match l with
  | [] => Ok ""
  | i :: t =>
    say [put "<tr><td>"; put (gi_rawString i); put "</td><td>";
         (let! str := Visitor_visit (Ok "") (VisitorExplain pow) (gi_group i) (gi_reportPart i)
                        (gi_rawString i) in
          line_breaks str);
         put "</td></tr>"; explain_rows pow t]
  end.
(** explain.cpp:3101-3145. The text is returned through the static variable result, emptied by
    freeMemory() at the beginning; [input] is the text up to its terminating null character. *)
Definition explain (pow : flt -> flt -> flt) (sgn : bool) (input : string) : res string :=
  let! p := parse sgn input default_groupLimit in
  say [put "<thead><tr><th>Group</th>"; put "<th>Explanation</th></tr></thead>"; put "<tbody>";
       put "<tr><td>&nbsp;</td><td>"; put "Detected report type: ";
       put (reportTypeToString (md_type (pr_metadata p))); put "</td></tr>";
       when (negb (ReportError_beq (md_error (pr_metadata p)) RE_NONE))
         (say [put "<tr><td>&nbsp;</td><td>"; put "Parsing error: ";
               put (reportErrorToString (md_error (pr_metadata p))); put "</td></tr>"]);
       explain_rows pow (pr_groups p);
       put "</tbody>"].
