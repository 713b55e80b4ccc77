(** Specification for C72 and C73: the words by which the values of the enumerations, and the kinds of
    groups, are told. They are read off the meaning of each value, not off the texts of the program. *)
From Coq Require Import List String.
From Verif Require Import Prim Values Weather Groups1 Groups2 Groups3 Groups4 Parser SpecExplain.
Import ListNotations.
Local Open Scope string_scope.

Definition says_all (s : string) (ws : list string) : Prop := forall w, In w ws -> mentions w s = true.

(** ** Values *)
Definition point_words (x : Cardinal) : list string :=
  match x with
  | Cd_NOT_REPORTED => ["not reported"] | Cd_N => ["north"] | Cd_S => ["south"] | Cd_W => ["west"] | Cd_E => ["east"]
  | Cd_NW => ["northwest"] | Cd_NE => ["northeast"] | Cd_SW => ["southwest"] | Cd_SE => ["southeast"]
  | Cd_TRUE_N => ["true north"] | Cd_TRUE_W => ["true west"] | Cd_TRUE_S => ["true south"] | Cd_TRUE_E => ["true east"]
  | Cd_NDV => ["no directional variation"] | Cd_VRB => ["variable"] | Cd_OHD => ["overhead"]
  | Cd_ALQDS => ["all quadrants"] | Cd_UNKNOWN => ["unknown"]
  end.
(** with the bounds of the friction coefficient *)
Definition braking_words (x : BrakingAction) : list string :=
  match x with
  | BA_NONE => ["not reported"] | BA_POOR => ["poor ("; "0.0 to 0.25"] | BA_MEDIUM_POOR => ["medium/poor"; "0.26 to 0.29"]
  | BA_MEDIUM => ["medium ("; "0.30 to 0.35"] | BA_MEDIUM_GOOD => ["medium/good"; "0.36 to 0.40"]
  | BA_GOOD => ["good ("; "0.40 to 1.00"]
  end.
(** with the wave heights in metres *)
Definition sea_words (x : StateOfSurface) : list string :=
  match x with
  | SS_NOT_REPORTED => ["not reported"] | SS_CALM_GLASSY => ["calm"; "glassy"; "no waves"]
  | SS_CALM_RIPPLED => ["calm"; "rippled"; "0.1 meters"] | SS_SMOOTH => ["smooth"; "0.1 to 0.5 meters"]
  | SS_SLIGHT => ["slight"; "0.5 to 1.25 meters"] | SS_MODERATE => ["moderate"; "1.25 to 2.5 meters"]
  | SS_ROUGH => ["rough,"; "2.5 to 4 meters"] | SS_VERY_ROUGH => ["very rough"; "4 to 6 meters"]
  | SS_HIGH => ["high,"; "6 to 9 meters"] | SS_VERY_HIGH => ["very high"; "9 to 14 meters"]
  | SS_PHENOMENAL => ["phenomenal"; ">14 meters"]
  end.
(** with the eighths of the sky *)
Definition amount_words (x : ClAmount) : list string :=
  match x with
  | Am_NOT_REPORTED => ["not reported"] | Am_NCD => ["No cloud detected"] | Am_NSC => ["No significant cloud"]
  | Am_NONE_CLR => ["Clear sky"; "automated"] | Am_NONE_SKC => ["Clear sky"; "human"]
  | Am_FEW => ["Few clouds"; "1/8 to 2/8"] | Am_SCATTERED => ["Scattered clouds"; "3/8 to 4/8"]
  | Am_BROKEN => ["Broken clouds"; "5/8 to 7/8"] | Am_OVERCAST => ["Overcast"; "8/8"] | Am_OBSCURED => ["obscured"]
  | Am_VARIABLE_FEW_SCATTERED => ["variable between few and scattered"; "1/8 and 4/8"]
  | Am_VARIABLE_SCATTERED_BROKEN => ["variable between scattered and broken"; "3/8 and 7/8"]
  | Am_VARIABLE_BROKEN_OVERCAST => ["variable between broken clouds and overcast"; "5/8 and 8/8"]
  end.
Definition convective_words (x : ClConv) : list string :=
  match x with
  | Cv_NONE => [] | Cv_NOT_REPORTED => ["not reported"] | Cv_TOWERING_CUMULUS => ["towering cumulus"]
  | Cv_CUMULONIMBUS => ["cumulonimbus"]
  end.
(** The qualifiers recent and vicinity and the descriptors showers and thunderstorm are told elsewhere. *)
Definition qualifier_words (x : WpQualifier) : list string :=
  match x with
  | Q_LIGHT => ["light"] | Q_MODERATE => ["moderate"] | Q_HEAVY => ["heavy"] | _ => []
  end.
Definition descriptor_words (x : WpDescriptor) : list string :=
  match x with
  | D_SHALLOW => ["shallow"] | D_PARTIAL => ["part"] | D_PATCHES => ["patches"] | D_LOW_DRIFTING => ["low drifting"]
  | D_BLOWING => ["blowing"] | D_FREEZING => ["freezing"] | _ => []
  end.
Definition weather_words (x : WpWeather) : list string :=
  match x with
  | W_NOT_REPORTED => ["not reported"] | W_DRIZZLE => ["drizzle"] | W_RAIN => ["rain"] | W_SNOW => ["snow"]
  | W_SNOW_GRAINS => ["snow grains"] | W_ICE_CRYSTALS => ["ice crystals"] | W_ICE_PELLETS => ["ice pellets"]
  | W_HAIL => ["hail"] | W_SMALL_HAIL => ["small hail"] | W_UNDETERMINED => ["undetermined"] | W_MIST => ["mist"]
  | W_FOG => ["fog"] | W_SMOKE => ["smoke"] | W_VOLCANIC_ASH => ["volcanic ash"] | W_DUST => ["dust"] | W_SAND => ["sand"]
  | W_HAZE => ["haze"] | W_SPRAY => ["spray"] | W_DUST_WHIRLS => ["dust"; "whirls"] | W_SQUALLS => ["squalls"]
  | W_FUNNEL_CLOUD => ["funnel cloud"] | W_SANDSTORM => ["sand"; "storm"] | W_DUSTSTORM => ["dust"; "storm"] | W_other _ => []
  end.
Definition trend_words (x : ViTrend) : list string :=
  match x with
  | Vt_NONE => [] | Vt_NOT_REPORTED => ["not reported"] | Vt_UPWARD => ["upward"] | Vt_NEUTRAL => ["neutral"]
  | Vt_DOWNWARD => ["downward"]
  end.
Definition probability_words (x : TrProb) : list string :=
  match x with Pr_NONE => [] | Pr_30 => ["probability"; "30 percent"] | Pr_40 => ["probability"; "40 percent"] end.
Definition deposit_words (x : RsDeposits) : list string :=
  match x with
  | De_NOT_REPORTED => ["not reported"] | De_CLEAR_AND_DRY => ["clear and dry"] | De_DAMP => ["damp"]
  | De_WET_AND_WATER_PATCHES => ["wet"; "water patches"] | De_RIME_AND_FROST_COVERED => ["rime"; "frost"]
  | De_DRY_SNOW => ["dry snow"] | De_WET_SNOW => ["wet snow"] | De_SLUSH => ["slush"] | De_ICE => ["ice"]
  | De_COMPACTED_OR_ROLLED_SNOW => ["compacted"; "rolled snow"] | De_FROZEN_RUTS_OR_RIDGES => ["frozen ruts"; "ridges"]
  end.
Definition extent_words (x : RsExtent) : list string :=
  match x with
  | Ex_NOT_REPORTED => ["not reported"] | Ex_NONE => ["none"] | Ex_LESS_THAN_10_PERCENT => ["&lt;10 percent"]
  | Ex_FROM_11_TO_25_PERCENT => ["11 to 25 percent"] | Ex_FROM_26_TO_50_PERCENT => ["26 to 50 percent"]
  | Ex_MORE_THAN_51_PERCENT => ["&gt;51 percent"]
  | Ex_RESERVED_3 => ["reserved"; "3"] | Ex_RESERVED_4 => ["reserved"; "4"] | Ex_RESERVED_6 => ["reserved"; "6"]
  | Ex_RESERVED_7 => ["reserved"; "7"] | Ex_RESERVED_8 => ["reserved"; "8"]
  end.
Definition tendency_words (x : PtType) : list string :=
  match x with
  | Pt_NOT_REPORTED => ["not reported"] | Pt_INCREASING_THEN_DECREASING => ["increasing, then decreasing"]
  | Pt_INCREASING_MORE_SLOWLY => ["increasing more slowly"] | Pt_INCREASING => ["increasing steadily"]
  | Pt_INCREASING_MORE_RAPIDLY => ["increasing more rapidly"] | Pt_STEADY => ["steady"]
  | Pt_DECREASING_THEN_INCREASING => ["decreasing, then increasing"] | Pt_DECREASING_MORE_SLOWLY => ["decreasing more slowly"]
  | Pt_DECREASING => ["decreasing steadily"] | Pt_DECREASING_MORE_RAPIDLY => ["decreasing more rapidly"]
  | Pt_RISING_RAPIDLY => ["rising rapidly"] | Pt_FALLING_RAPIDLY => ["falling rapidly"]
  end.
Definition change_words (x : PtTrend) : list string :=
  match x with
  | Ptt_NOT_REPORTED => ["not reported"] | Ptt_HIGHER => ["higher than"] | Ptt_HIGHER_OR_SAME => ["higher or the same"]
  | Ptt_SAME => ["same as"] | Ptt_LOWER_OR_SAME => ["lower or the same"] | Ptt_LOWER => ["lower than"]
  end.
Definition cloud_words (x : CtType) : list string :=
  match x with
  | Ct_NOT_REPORTED => ["not reported"] | Ct_CUMULONIMBUS => ["cumulonimbus"] | Ct_TOWERING_CUMULUS => ["towering cumulus"]
  | Ct_CUMULUS => ["cumulus"] | Ct_CUMULUS_FRACTUS => ["cumulus fractus"] | Ct_STRATOCUMULUS => ["stratocumulus"]
  | Ct_NIMBOSTRATUS => ["nimbostratus"] | Ct_STRATUS => ["stratus"] | Ct_STRATUS_FRACTUS => ["stratus fractus"]
  | Ct_ALTOSTRATUS => ["altostratus"] | Ct_ALTOCUMULUS => ["altocumulus"]
  | Ct_ALTOCUMULUS_CASTELLANUS => ["altocumulus castellanus"] | Ct_CIRRUS => ["cirrus"] | Ct_CIRROSTRATUS => ["cirrostratus"]
  | Ct_CIRROCUMULUS => ["cirrocumulus"] | Ct_BLOWING_SNOW => ["blowing snow"] | Ct_BLOWING_DUST => ["blowing dust"]
  | Ct_BLOWING_SAND => ["blowing sand"] | Ct_ICE_CRYSTALS => ["ice crystals"] | Ct_RAIN => ["rain"] | Ct_DRIZZLE => ["drizzle"]
  | Ct_SNOW => ["snow"] | Ct_ICE_PELLETS => ["ice pellets"] | Ct_SMOKE => ["smoke"] | Ct_FOG => ["fog"] | Ct_MIST => ["mist"]
  | Ct_HAZE => ["haze"] | Ct_VOLCANIC_ASH => ["volcanic ash"]
  end.
(** genera and species *)
Definition low_words (x : LowLayer) : list string :=
  match x with
  | Lo_NONE => ["No low layer clouds"] | Lo_CU_HU_CU_FR => ["Cumulus humilis"; "Cumulus fractus of dry weather"]
  | Lo_CU_MED_CU_CON => ["Cumulus mediocris"; "Cumulus congestus"] | Lo_CB_CAL => ["Cumulonimbus calvus"]
  | Lo_SC_CUGEN => ["Stratocumulus cumulogenitus"] | Lo_SC_NON_CUGEN => ["Stratocumulus non-cumulogenitus"]
  | Lo_ST_NEB_ST_FR => ["Stratus nebulosus"; "Stratus fractus of dry weather"]
  | Lo_ST_FR_CU_FR_PANNUS => ["Stratus fractus"; "Cumulus fractus of wet weather"; "pannus"]
  | Lo_CU_SC_NON_CUGEN_DIFFERENT_LEVELS => ["Cumulus and Stratocumulus"; "different levels"]
  | Lo_CB_CAP => ["Cumulonimbus capillatus"] | Lo_NOT_OBSERVABLE => ["not observable"]
  end.
Definition mid_words (x : MidLayer) : list string :=
  match x with
  | Mi_NONE => ["No mid-layer clouds"] | Mi_AS_TR => ["Altostratus translucidus"]
  | Mi_AS_OP_NS => ["Altostratus opacus"; "Nimbostratus"] | Mi_AC_TR => ["Altocumulus translucidus at a single level"]
  | Mi_AC_TR_LEN_PATCHES => ["Patches"; "lenticular"; "Altocumulus translucidus"]
  | Mi_AC_TR_AC_OP_SPREADING => ["Altocumulus translucidus"; "Altocumulus opacus"; "progressively invading the sky"]
  | Mi_AC_CUGEN_AC_CBGEN => ["Altocumulus cumulogenitus"; "Altocumulus cumulonimbogenitus"]
  | Mi_AC_DU_AC_OP_AC_WITH_AS_OR_NS => ["Altocumulus duplicatus"; "Altocumulus opacus"; "with Altostratus or Nimbostratus"]
  | Mi_AC_CAS_AC_FLO => ["Altocumulus castellanus"; "Altocumulus floccus"] | Mi_AC_OF_CHAOTIC_SKY => ["Sky of chaotic"]
  | Mi_NOT_OBSERVABLE => ["not observable"]
  end.
Definition high_words (x : HighLayer) : list string :=
  match x with
  | Hi_NONE => ["No high-layer clouds"] | Hi_CI_FIB_CI_UNC => ["Cirrus fibratus"; "Cirrus uncinus"; "progressively invading the sky"]
  | Hi_CI_SPI_CI_CAS_CI_FLO => ["Cirrus spissatus"; "Cirrus castellanus"; "Cirrus floccus"]
  | Hi_CI_SPI_CBGEN => ["Cirrus spissatus cumulonimbogenitus"]
  | Hi_CI_FIB_CI_UNC_SPREADING => ["Cirrus fibratus"; "Cirrus uncinus"; "progressively invading the sky; they generally thicken"]
  | Hi_CI_CS_LOW_ABOVE_HORIZON => ["Cirrus"; "Cirrostratus"; "does not reach 45&deg; above the horizon"]
  | Hi_CI_CS_HIGH_ABOVE_HORIZON => ["Cirrus"; "Cirrostratus"; "more than 45&deg; above the horizon"]
  | Hi_CS_NEB_CS_FIB_COVERING_ENTIRE_SKY => ["Cirrostratus nebulosus"; "Cirrostratus fibratus"; "covering the whole sky"]
  | Hi_CS => ["Cirrostratus"; "does not completely cover the whole sky"] | Hi_CC => ["Cirrocumulus"]
  | Hi_NOT_OBSERVABLE => ["not observable"]
  end.
Definition frequency_words (x : LtFreq) : list string :=
  match x with
  | Lt_NONE => [] | Lt_OCCASIONAL => ["Less than 1 strike per minute"] | Lt_FREQUENT => ["1 to 6 strikes per minute"]
  | Lt_CONSTANT => ["More than 6 strikes per minute"]
  end.

(** ** Kinds of groups *)
Definition keyword_kind (x : KwType) : list string :=
  match x with
  | Kw_METAR => ["Report type: METAR"] | Kw_SPECI => ["Report type: unscheduled METAR"] | Kw_TAF => ["Report type: TAF"]
  | Kw_AMD => ["Amended report"] | Kw_NIL => ["Missing report"] | Kw_CNL => ["Cancelled report"] | Kw_COR => ["Correctional report"]
  | Kw_AUTO => ["Fully automated report"] | Kw_CAVOK => ["Ceiling and visibility OK"] | Kw_RMK => ["remarks"]
  | Kw_MAINTENANCE_INDICATOR => ["maintenance"]
  | Kw_AO1 => ["automated station is not equipped"; "precipitation discriminator"]
  | Kw_AO2 => ["automated station is equipped"; "precipitation discriminator"]
  | Kw_AO1A => ["automated station is not equipped"; "precipitation discriminator"; "augmented by a human observer"]
  | Kw_AO2A => ["automated station is equipped"; "precipitation discriminator"; "augmented by a human observer"]
  | Kw_NOSPECI => ["does not issue SPECI"]
  end.
Definition trend_kind (x : TrType) : list string :=
  match x with
  | Tr_NOSIG => ["No significant weather changes"] | Tr_BECMG => ["expected to gradually change"]
  | Tr_TEMPO => ["temporary weather conditions"; "less than 60 minutes"] | Tr_INTER => ["temporary weather conditions"; "less than 30 minutes"]
  | Tr_FROM => ["expected to change rapidly from"] | Tr_UNTIL => ["expected to last until"] | Tr_AT => ["expected to occur at"]
  | Tr_TIME_SPAN => ["time span"] | Tr_PROB => ["probability"]
  end.
Definition wind_kind (x : WiType) : list string :=
  match x with
  | Wi_SURFACE_WIND => ["Surface wind"] | Wi_SURFACE_WIND_CALM => ["No wind"] | Wi_VARIABLE_WIND_SECTOR => ["Variable wind sector"]
  | Wi_SURFACE_WIND_WITH_VARIABLE_SECTOR => ["Surface wind"; "Variable wind direction sector"] | Wi_WIND_SHEAR => ["Wind shear at height"]
  | Wi_WIND_SHEAR_IN_LOWER_LAYERS => ["Wind shear"; "along the take-off path or approach path"]
  | Wi_WIND_SHIFT => ["Wind direction changed 45&deg; or more"] | Wi_WIND_SHIFT_FROPA => ["Wind direction changed 45&deg; or more"; "front passage"]
  | Wi_PEAK_WIND => ["Peak wind"] | Wi_WSCONDS => ["Potential wind shear conditions"] | Wi_WND_MISG => ["Wind data is missing"]
  end.
Definition visibility_kind (x : ViType) : list string :=
  match x with
  | Vi_PREVAILING => ["Prevailing visibility is"] | Vi_PREVAILING_NDV => ["Prevailing visibility is"; "cannot differentiate the directional"]
  | Vi_DIRECTIONAL => ["Directional visibility"] | Vi_RUNWAY => ["Visibility for"] | Vi_RVR => ["Runway visual range"]
  | Vi_SURFACE => ["Visibility at surface level"] | Vi_TOWER => ["Visibility from air traffic control tower"] | Vi_SECTOR => ["Sector visibility"]
  | Vi_VARIABLE_PREVAILING => ["Prevailing visibility"; "variable"] | Vi_VARIABLE_DIRECTIONAL => ["Directional visibility"; "variable"]
  | Vi_VARIABLE_RUNWAY => ["Visibility for"; "variable"] | Vi_VARIABLE_RVR => ["Runway visual range"; "variable"]
  | Vi_VARIABLE_SECTOR => ["Sector visibility"; "variable"] | Vi_VIS_MISG => ["Visibility data missing"]
  | Vi_RVR_MISG => ["Runway visual range data is missing"] | Vi_RVRNO => ["Runway visual range should be reported"]
  | Vi_VISNO => ["Visibility data not awailable"]
  end.
Definition cloud_kind (x : ClType) : list string :=
  match x with
  | Cl_NO_CLOUDS => [] (* by the amount *) | Cl_CLOUD_LAYER => ["Cloud layer"] | Cl_VERTICAL_VISIBILITY => ["Sky is obscured"; "vertical visibility"]
  | Cl_CEILING => ["Ceiling height"] | Cl_VARIABLE_CEILING => ["Ceiling height"; "variable"] | Cl_CHINO => ["Ceiling data not awailable"]
  | Cl_CLD_MISG => ["cloud data"; "missing"] | Cl_OBSCURATION => [] (* by its height and cloud type *)
  end.
Definition weather_kind (x : WxType) : list string :=
  match x with
  | Wx_CURRENT => ["Weather phenomena:"] | Wx_RECENT => ["Recent weather"] | Wx_EVENT => ["beginning/ending time"] | Wx_NSW => ["Nil significant weather"]
  | Wx_PWINO => ["present weather identifier"; "not operating"] | Wx_WX_MISG => ["Weather phenomena data is missing"]
  | Wx_TSNO => ["lightning detector"; "not operating"] | Wx_TS_LTNG_TEMPO_UNAVBL => ["Thunderstorm / lightning data is missing"]
  end.
Definition temperature_kind (x : TgType) : list string :=
  match x with
  | Tg_TEMPERATURE_AND_DEW_POINT => ["Ambient air temperature"; "Dew point"] | Tg_T_MISG => ["Temperature data is missing"]
  | Tg_TD_MISG => ["Dew point data is missing"]
  end.
Definition pressure_kind (x : PgType) : list string :=
  match x with
  | Pg_OBSERVED_QNH => ["altimeter setting"] | Pg_FORECAST_LOWEST_QNH => ["Forecast lowest"] | Pg_OBSERVED_QFE => ["Observed actual atmospheric pressure"]
  | Pg_OBSERVED_SLP => ["Observed atmospheric pressure normalised to sea level"] | Pg_SLPNO => ["sea-level pressure"; "not available"]
  | Pg_PRES_MISG => ["pressure"; "data is missing"]
  end.
Definition state_kind (x : RsType) : list string :=
  match x with
  | Rs_RUNWAY_STATE => ["Surface friction"] | Rs_RUNWAY_CLRD => ["cleared or ceased to exist"] | Rs_RUNWAY_SNOCLO => ["Runway closed due to snow"]
  | Rs_RUNWAY_NOT_OPERATIONAL => ["Runway is not operational"] | Rs_AERODROME_SNOCLO => ["Aerodrome closed due to snow"]
  end.
Definition minmax_kind (x : MmType) : list string :=
  match x with
  | Mm_OBSERVED_6_HOURLY => ["Observed 6-hourly"] | Mm_OBSERVED_24_HOURLY => ["Observed 24-hourly"] | Mm_FORECAST => ["Forecast minimum/maximum temperature"]
  end.
Definition precipitation_kind (x : PcType) : list string :=
  match x with
  | Pc_TOTAL_PRECIPITATION_HOURLY => ["Total precipitation for the past hour"] | Pc_SNOW_DEPTH_ON_GROUND => ["Snow depth on ground"]
  | Pc_FROZEN_PRECIP_3_OR_6_HOURLY => ["frozen precipitation"; "last 3 or 6 hours"] | Pc_FROZEN_PRECIP_3_HOURLY => ["frozen precipitation"; "last 3 hours"]
  | Pc_FROZEN_PRECIP_6_HOURLY => ["frozen precipitation"; "last 6 hours"] | Pc_FROZEN_PRECIP_24_HOURLY => ["frozen precipitation"; "last 24 hours"]
  | Pc_SNOW_6_HOURLY => ["Snowfall for the last 6 hours"] | Pc_WATER_EQUIV_OF_SNOW_ON_GROUND => ["Water equivalent of snow on ground"]
  | Pc_ICE_ACCRETION_FOR_LAST_HOUR => ["Ice accretion for the last hour"] | Pc_ICE_ACCRETION_FOR_LAST_3_HOURS => ["Ice accretion for the last 3 hours"]
  | Pc_ICE_ACCRETION_FOR_LAST_6_HOURS => ["Ice accretion for the last 6 hours"]
  | Pc_PRECIPITATION_ACCUMULATION_SINCE_LAST_REPORT => ["Precipitation accumulation since last report"]
  | Pc_SNOW_INCREASING_RAPIDLY => ["Snow increasing rapidly"] | Pc_RAINFALL_9AM_10MIN => ["Rainfall for the last 10 minutes"; "Rainfall since 9AM"]
  | Pc_PNO => ["tipping bucket rain gauge"; "not operating"] | Pc_FZRANO => ["freezing rain sensor"; "not operating"]
  | Pc_ICG_MISG => ["Icing data is missing"] | Pc_PCPN_MISG => ["Precipitation data is missing"]
  end.
Definition layer_kind (x : LfType) : list string :=
  match x with
  | Lf_ICING_TRACE_OR_NONE => ["Trace icing or no icing"] | Lf_ICING_LIGHT_MIXED => ["Light"; "mixed icing"]
  | Lf_ICING_LIGHT_RIME_IN_CLOUD => ["Light"; "rime icing in cloud"] | Lf_ICING_LIGHT_CLEAR_IN_PRECIPITATION => ["Light"; "clear icing in precipitation"]
  | Lf_ICING_MODERATE_MIXED => ["Moderate"; "mixed icing"] | Lf_ICING_MODERATE_RIME_IN_CLOUD => ["Moderate"; "rime icing in cloud"]
  | Lf_ICING_MODERATE_CLEAR_IN_PRECIPITATION => ["Moderate"; "clear icing in precipitation"]
  | Lf_ICING_SEVERE_MIXED => ["Severe"; "mixed icing"] | Lf_ICING_SEVERE_RIME_IN_CLOUD => ["Severe"; "rime icing in cloud"]
  | Lf_ICING_SEVERE_CLEAR_IN_PRECIPITATION => ["Severe"; "clear icing in precipitation"]
  | Lf_TURBULENCE_NONE => ["No turbulence"] | Lf_TURBULENCE_LIGHT => ["Light turbulence"]
  | Lf_TURBULENCE_MODERATE_IN_CLEAR_AIR_OCCASIONAL => ["Occasional"; "moderate turbulence in clear air"]
  | Lf_TURBULENCE_MODERATE_IN_CLEAR_AIR_FREQUENT => ["Frequent"; "moderate turbulence in clear air"]
  | Lf_TURBULENCE_MODERATE_IN_CLOUD_OCCASIONAL => ["Occasional"; "moderate turbulence in cloud"]
  | Lf_TURBULENCE_MODERATE_IN_CLOUD_FREQUENT => ["Frequent"; "moderate turbulence in cloud"]
  | Lf_TURBULENCE_SEVERE_IN_CLEAR_AIR_OCCASIONAL => ["Occasional"; "severe turbulence in clear air"]
  | Lf_TURBULENCE_SEVERE_IN_CLEAR_AIR_FREQUENT => ["Frequent"; "severe turbulence in clear air"]
  | Lf_TURBULENCE_SEVERE_IN_CLOUD_OCCASIONAL => ["Occasional"; "severe turbulence in cloud"]
  | Lf_TURBULENCE_SEVERE_IN_CLOUD_FREQUENT => ["Frequent"; "severe turbulence in cloud"]
  | Lf_TURBULENCE_EXTREME => ["Extreme turbulence"]
  end.
(** For a tendency: what the pressure did, and how it is now compared to three hours ago. *)
Definition now_and_then (x : PtType) : list string :=
  match x with
  | Pt_INCREASING_THEN_DECREASING => ["higher or the same"] | Pt_INCREASING_MORE_SLOWLY | Pt_INCREASING | Pt_INCREASING_MORE_RAPIDLY => ["higher than"]
  | Pt_STEADY => ["same as"] | Pt_DECREASING_THEN_INCREASING => ["lower or the same"]
  | Pt_DECREASING_MORE_SLOWLY | Pt_DECREASING | Pt_DECREASING_MORE_RAPIDLY => ["lower than"]
  | Pt_NOT_REPORTED | Pt_RISING_RAPIDLY | Pt_FALLING_RAPIDLY => []
  end.
Definition vicinity_kind (x : VcType) : list string :=
  match x with
  | Vc_THUNDERSTORM => ["Thunderstorm"] | Vc_CUMULONIMBUS => ["Cumulonimbus"] | Vc_CUMULONIMBUS_MAMMATUS => ["Cumulonimbus"; "mammatus"]
  | Vc_TOWERING_CUMULUS => ["Towering cumulus"] | Vc_ALTOCUMULUS_CASTELLANUS => ["Altocumulus"; "castellanus"]
  | Vc_STRATOCUMULUS_STANDING_LENTICULAR => ["Stratocumulus standing lenticular"]
  | Vc_ALTOCUMULUS_STANDING_LENTICULAR => ["Altocumulus standing lenticular"]
  | Vc_CIRROCUMULUS_STANDING_LENTICULAR => ["Cirrocumulus standing lenticular"] | Vc_ROTOR_CLOUD => ["Rotor cloud"] | Vc_VIRGA => ["Virga"]
  | Vc_PRECIPITATION_IN_VICINITY => ["Precipitation"] | Vc_FOG => ["Fog"] | Vc_FOG_SHALLOW => ["Shallow fog"] | Vc_FOG_PATCHES => ["Patches of fog"]
  | Vc_HAZE => ["Haze"] | Vc_SMOKE => ["Smoke"] | Vc_BLOWING_SNOW => ["Blowing snow"] | Vc_BLOWING_SAND => ["Blowing sand"]
  | Vc_BLOWING_DUST => ["Blowing dust"]
  end.
(** colour codes with the least visibility and cloud base *)
Definition misc_kind (x : MsType) : list string :=
  match x with
  | Ms_SUNSHINE_DURATION_MINUTES => ["sunshine"; "previous calendar day"] | Ms_CORRECTED_WEATHER_OBSERVATION => ["corrected weather observation"]
  | Ms_DENSITY_ALTITUDE => ["Density altitude"] | Ms_HAILSTONE_SIZE => ["hailstone size"; "inches"]
  | Ms_COLOUR_CODE_BLUE_PLUS => ["code BLUE+:"; "8000 m"; "20000 ft"] | Ms_COLOUR_CODE_BLUE => ["code BLUE:"; "8000 m"; "2500 ft"]
  | Ms_COLOUR_CODE_WHITE => ["code WHITE:"; "5000 m"; "1500 ft"] | Ms_COLOUR_CODE_GREEN => ["code GREEN:"; "3700 m"; "700 ft"]
  | Ms_COLOUR_CODE_YELLOW => ["code YELLOW:"; "2500 m"; "500 ft"] | Ms_COLOUR_CODE_YELLOW1 => ["code YELLOW 1:"; "2500 m"; "500 ft"]
  | Ms_COLOUR_CODE_YELLOW2 => ["code YELLOW 2:"; "1600 m"; "300 ft"] | Ms_COLOUR_CODE_AMBER => ["code AMBER:"; "800 m"; "200 ft"]
  | Ms_COLOUR_CODE_RED => ["code RED:"; "800 m"; "200 ft"]
  | Ms_COLOUR_CODE_BLACKBLUE_PLUS => ["code BLACK:"; "aerodrome closed"; "code BLUE+:"; "8000 m"; "20000 ft"]
  | Ms_COLOUR_CODE_BLACKBLUE => ["code BLACK:"; "aerodrome closed"; "code BLUE:"; "8000 m"; "2500 ft"]
  | Ms_COLOUR_CODE_BLACKWHITE => ["code BLACK:"; "aerodrome closed"; "code WHITE:"; "5000 m"; "1500 ft"]
  | Ms_COLOUR_CODE_BLACKGREEN => ["code BLACK:"; "aerodrome closed"; "code GREEN:"; "3700 m"; "700 ft"]
  | Ms_COLOUR_CODE_BLACKYELLOW => ["code BLACK:"; "aerodrome closed"; "code YELLOW:"; "2500 m"; "500 ft"]
  | Ms_COLOUR_CODE_BLACKYELLOW1 => ["code BLACK:"; "aerodrome closed"; "code YELLOW 1:"; "2500 m"; "500 ft"]
  | Ms_COLOUR_CODE_BLACKYELLOW2 => ["code BLACK:"; "aerodrome closed"; "code YELLOW 2:"; "1600 m"; "300 ft"]
  | Ms_COLOUR_CODE_BLACKAMBER => ["code BLACK:"; "aerodrome closed"; "code AMBER:"; "800 m"; "200 ft"]
  | Ms_COLOUR_CODE_BLACKRED => ["code BLACK:"; "aerodrome closed"; "code RED:"; "800 m"; "200 ft"]
  | Ms_FROIN => ["Frost on the instrument"] | Ms_ISSUER_ID_FN => ["issuer identifier"; "Norfolk"] | Ms_ISSUER_ID_FS => ["issuer identifier"; "San Diego"]
  end.
Definition kind_words (g : Group) : list string :=
  match g with
  | GKeyword g => keyword_kind (kw_t g)
  | GLocation _ => ["ICAO code of station"]
  | GReportTime _ => ["report release"]
  | GTrend g => trend_kind (tr_t g)
  | GWind g => wind_kind (wi_type g)
  | GVisibility g => visibility_kind (vi_type g)
  | GCloud g => cloud_kind (cl_tp g)
  | GWeather g => weather_kind (wx_t g)
  | GTemperature g => temperature_kind (tg_tp g)
  | GPressure g => pressure_kind (pg_t g)
  | GRunwayState g => "State of" :: state_kind (rs_tp g)
  | GSeaSurface _ => ["Sea surface temperature"]
  | GMinMaxTemperature g => minmax_kind (mm_t g)
  | GPrecipitation g => precipitation_kind (pc_type g)
  | GLayerForecast g => layer_kind (lf_type g)
  | GPressureTendency g => "pressure" :: (tendency_words (pt_type g) ++ now_and_then (pt_type g))
  | GCloudTypes _ => ["cloud layers"]
  | GLowMidHighCloud _ => ["Low cloud layer"; "Mid cloud layer"; "High cloud layer"]
  | GLightning _ => ["Lightning strikes observed"]
  | GVicinity g => vicinity_kind (vc_t g)
  | GMisc g => misc_kind (ms_type g)
  | GUnknown _ => ["Not recognised"]
  end%list.

(** altocumulus castellanus clouds in the vicinity *)
Definition castellanus (g : Group) : bool :=
  match g with GVicinity v => VcType_beq (vc_t v) Vc_ALTOCUMULUS_CASTELLANUS | _ => false end.

(** ** Weather *)
(** A heavy funnel cloud is a tornado or waterspout, one in the vicinity is tornadic activity, and showers in the vicinity
    are precipitation there. All other phenomena are told by strength, descriptor and kinds of weather. That weather is
    recent is told by the group. *)
Definition phenomenon_words (q : WpQualifier) (d : WpDescriptor) (ws : list WpWeather) : list string :=
  match q, d, ws with
  | Q_HEAVY, D_NONE, [W_FUNNEL_CLOUD] => ["tornado"; "waterspout"]
  | Q_VICINITY, D_NONE, [W_FUNNEL_CLOUD] => ["tornadic"; "vicinity"]
  | Q_VICINITY, D_SHOWERS, [] => ["precipitation"; "vicinity"]
  | _, _, _ => qualifier_words q ++ match q with Q_VICINITY => ["vicinity"] | _ => [] end
      ++ descriptor_words d ++ match d with D_SHOWERS => ["showers"] | D_THUNDERSTORM => ["thunderstorm"] | _ => [] end
      ++ flat_map weather_words ws
  end%list.
