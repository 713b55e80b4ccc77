(** Specification for C72: the values which a group reports, and how each is written. *)
From Coq Require Import List String.
From Verif Require Import Prim Float Values Weather Groups1 Groups2 Groups3 Groups4 Parser
  Format Explain SpecExplain SpecKinds.
Import ListNotations.
Local Open Scope string_scope.

(** One reported value *)
Inductive fact : Type :=
| Time (t : MetafTime)
| Velocity (v : Speed)
| Bearing (d : Direction)
| Point (d : Direction)             (* one of a list of directions: only the compass point is told *)
| Length (d : Distance)
| Heat (t : Temperature)
| HeatAt (t : Temperature) (at_time : MetafTime)
| Press (p : Pressure)
| Fall (p : Precipitation)
| Strip (r : Runway)
| Grip (f : SurfaceFriction)
| Waves (w : WaveHeight)
| Clouds (c : CloudType)
| Weather (w : WeatherPhenomena)
| Number (x : flt)
| Code (s : string)
| Words (ws : list string).         (* a value of an enumeration: a line which has all these words *)

Definition one_line (s : string) : bool := negb (mentions (String "010"%char "") s).
(** [t] tells the value. What the texts of times, speeds, ... contain is stated by C68, C70, C71, C73. *)
Definition told_as (x : fact) (t : string) : Prop :=
  match x with
  | Time v => explainMetafTime v = Ok t
  | Velocity v => explainSpeed v = Ok t
  | Bearing v => exists names, explainDirection v names = Ok t
  | Point v => t = cardinalDirectionToString (Direction_cardinal v false)
  | Length v => explainDistance v = Ok t
  | Heat v => explainTemperature v = Ok t
  | HeatAt v u => exists a b, explainTemperature v = Ok a /\ explainMetafTime u = Ok b /\ t = a ++ ", expected at " ++ b
  | Press v => explainPressure v = Ok t
  | Fall v => explainPrecipitation v = Ok t
  | Strip v => explainRunway v = Ok t
  | Grip v => explainSurfaceFriction v = Ok t
  | Waves v => explainWaveHeight v = Ok t
  | Clouds v => explainCloudType v = Ok t
  | Weather v => explainWeatherPhenomena v = Ok t
  | Number v => t = stream_flt v \/ int_of_flt v = Ok t
  | Code s => t = s
  | Words ws => one_line t = true /\ says_all t ws
  end.
(** the value is told somewhere, *)
Definition tells (s : string) (x : fact) : Prop := exists t, told_as x t /\ mentions t s = true.
(** and right after one of the labels *)
Definition tells_as (s : string) (labels : list string) (x : fact) : Prop :=
  exists l t, In l labels /\ told_as x t /\ mentions (l ++ t) s = true.

(** ** The values which are reported *)
Definition given {T} (f : T -> fact) (reported : T -> bool) (v : T) : list fact :=
  if reported v then [f v] else [].
Definition time := given Time (fun _ => true).
Definition any {T} (f : T -> list fact) (o : option T) : list fact :=
  match o with Some v => f v | None => [] end.
Definition some {T} (o : option T) : bool := match o with Some _ => true | None => false end.
Definition speed := given Velocity (fun v => some (speedValue v)).
Definition bearing := given Bearing (fun v => match dirType v with DT_NOT_REPORTED => false | _ => true end).
(** a distance is reported if it has a value, or is said to be distant or in the vicinity *)
Definition distance := given Length (fun v =>
  some (dist v) || match distModifier v with DM_DISTANT | DM_VICINITY => true | _ => false end).
Definition heat := given Heat (fun v => some (tempValue v)).
(** a temperature, with its time if there is one *)
Definition extreme (t : Temperature) (o : option MetafTime) : list fact :=
  match o with Some u => [HeatAt t u] | None => heat t end.
Definition press := given Press (fun v => some (pressureValue v)).
Definition fall := given Fall (fun v => some (precipValue v)).
Definition strip := given Strip (fun _ => true).
Definition grip := given Grip (fun f => match sfType f with Sf_NOT_REPORTED => false | _ => true end).
Definition points (r : res (list Direction)) : list fact :=
  match r with Ok l => map Point l | Bad _ => [] end.
Definition in_words (b : bool) (ws : list string) : list fact := if b then [Words ws] else [].

(** Each value comes with the labels one of which is to stand before it. *)
Definition label (labels : list string) (xs : list fact) : list (list string * fact) := map (pair labels) xs.
Notation "labels '!' xs" := (label labels xs) (at level 50).
Definition event_label (e : WpEvent) : list string :=
  match e with Ev_BEGINNING => [" began: "] | Ev_ENDING => [" ended: "] | _ => [] end.
Definition amount_label (t : PcType) : list string :=
  match t with
  | Pc_TOTAL_PRECIPITATION_HOURLY => ["past hour: "] | Pc_SNOW_DEPTH_ON_GROUND => ["Snow depth on ground: "]
  | Pc_FROZEN_PRECIP_3_OR_6_HOURLY => ["3 or 6 hours: "] | Pc_FROZEN_PRECIP_3_HOURLY => ["last 3 hours: "]
  | Pc_FROZEN_PRECIP_6_HOURLY => ["last 6 hours: "] | Pc_FROZEN_PRECIP_24_HOURLY => ["last 24 hours: "]
  | Pc_SNOW_6_HOURLY => ["Snowfall for the last 6 hours: "] | Pc_WATER_EQUIV_OF_SNOW_ON_GROUND => ["Water equivalent of snow on ground: "]
  | Pc_ICE_ACCRETION_FOR_LAST_HOUR => ["last hour: "] | Pc_ICE_ACCRETION_FOR_LAST_3_HOURS => ["last 3 hours: "]
  | Pc_ICE_ACCRETION_FOR_LAST_6_HOURS => ["last 6 hours: "]
  | Pc_PRECIPITATION_ACCUMULATION_SINCE_LAST_REPORT => ["since last report: "]
  | Pc_SNOW_INCREASING_RAPIDLY => ["Total snowfall: "] | Pc_RAINFALL_9AM_10MIN => ["since 9AM (9:00) local time: "]
  | Pc_PNO | Pc_FZRANO | Pc_ICG_MISG | Pc_PCPN_MISG => []
  end.
Definition in_directions : list string := ["directions: "; ", "].
Definition newline : string := String "010"%char "".
Definition below (title : string) : string := title ++ newline.

(** All the values which the accessors of a group return, apart from its type: each value which is
    reported, whatever the type. *)
Definition facts (g : Group) : list (list string * fact) :=
  match g with
  | GKeyword _ | GUnknown _ => []
  | GLocation g => ["station: "] ! [Code (LocationGroup_toString g)]
  | GReportTime g => ["report release: "] ! time (rt_t g)
  | GTrend g => [""] ! in_words (negb (TrProb_beq (tr_prob g) Pr_NONE)) (probability_words (tr_prob g))
      ++ ["From "; "from "] ! any time (tr_from g) ++ ["Until "; "until "] ! any time (tr_till g)
      ++ ["At "; "at "] ! any time (tr_at g)
  | GWind g => ["Wind direction: "] ! bearing (wi_dir g) ++ ["Wind speed: "] ! speed (wi_speed g)
      ++ ["Gust speed: "] ! speed (wi_gust g) ++ ["at height "] ! distance (wi_height g)
      ++ ["sector from "] ! bearing (wi_vsecBegin g) ++ ["clockwise to "] ! bearing (wi_vsecEnd g)
      ++ ["began at "; "observed at "] ! any time (wi_evTime g) ++ [" at "] ! any strip (wi_rw g)
  | GVisibility g => [" is "] ! distance (VisibilityGroup_visibility g) ++ ["from "] ! distance (VisibilityGroup_minVisibility g)
      ++ [" to "] ! distance (VisibilityGroup_maxVisibility g) ++ [" toward "; "direction of "] ! any bearing (vi_dir g)
      ++ [" for "] ! any strip (vi_rw g) ++ in_directions ! points (VisibilityGroup_sectorDirections g)
      ++ ["trend is "] ! in_words (negb (ViTrend_beq (vi_trend g) Vt_NONE)) (trend_words (vi_trend g))
  | GCloud g => [""] ! in_words (negb (ClAmount_beq (cl_amnt g) Am_NOT_REPORTED)) (amount_words (cl_amnt g))
      ++ ["height "] ! distance (CloudGroup_height g) ++ ["between "] ! distance (CloudGroup_minHeight g)
      ++ [" and "] ! distance (CloudGroup_maxHeight g) ++ ["vertical visibility is "] ! distance (CloudGroup_verticalVisibility g)
      ++ ["Convective type: "] ! in_words (negb (ClConv_beq (cl_conv g) Cv_NONE)) (convective_words (cl_conv g))
      ++ [" at "] ! any strip (cl_rw g) ++ [" towards "] ! any bearing (cl_dir g)
      ++ [""] ! any (fun c => [Clouds c]) (CloudGroup_cloudType g)
  | GWeather g => [newline] ! map Weather (WeatherGroup_weatherPhenomena g)
      ++ flat_map (fun p => event_label (Wp_event p) ! any time (wpTm p)) (WeatherGroup_weatherPhenomena g)
  | GTemperature g => ["Ambient air temperature: "] ! heat (tg_t g) ++ ["Dew point: "] ! heat (tg_dp g)
  | GPressure g => ["setting: "; "pressure: "; "normalised to sea level:"] ! press (pg_p g)
  | GRunwayState g => ["State of "] ! strip (rs_rw g)
      ++ [below ":"] ! in_words (negb (RsDeposits_beq (rs_dp g) De_NOT_REPORTED)) (deposit_words (rs_dp g))
      ++ ["contamination extent: "] ! in_words (negb (RsExtent_beq (rs_ext g) Ex_NOT_REPORTED)) (extent_words (rs_ext g))
      ++ ["Depth of deposits on runway: "] ! fall (rs_dDepth g) ++ ["Surface friction: "] ! grip (rs_sf g)
  | GSeaSurface g => ["Sea surface temperature "] ! heat (ss_t g) ++ [", "] ! [Waves (ss_wh g)]
  | GMinMaxTemperature g => ["Minimum ambient air temperature: "] ! extreme (mm_minTemp g) (mm_minTime g)
      ++ ["Maximum ambient air temperature: "] ! extreme (mm_maxTemp g) (mm_maxTime g)
  | GPrecipitation g => amount_label (pc_type g) ! fall (pc_amount g)
      ++ ["snow increased by "; "report release time: "] ! fall (pc_change g)
  | GLayerForecast g => ["heights from "] ! distance (lf_base g) ++ [" to "] ! distance (lf_top g)
  | GPressureTendency g => ["pressure change is "] ! press (pt_difference g)
  | GCloudTypes g => [newline] ! map Clouds (CloudTypesGroup_cloudTypes g)
  | GLowMidHighCloud g => [below "Low cloud layer:"] ! [Words (low_words (lmh_low g))]
      ++ [below "Mid cloud layer:"] ! [Words (mid_words (lmh_mid g))]
      ++ [below "High cloud layer:"] ! [Words (high_words (lmh_high g))]
  | GLightning g => ["at distance "] ! distance (lt_dist g)
      ++ [newline] ! in_words (negb (LtFreq_beq (lt_freq g) Lt_NONE)) (frequency_words (lt_freq g))
      ++ [newline] ! in_words (lt_cloudGround g) ["cloud-to-ground"] ++ [newline] ! in_words (lt_inCloud g) ["in-cloud"]
      ++ [newline] ! in_words (lt_cloudCloud g) ["cloud-to-cloud"] ++ [newline] ! in_words (lt_cloudAir g) ["cloud-to-air"]
      ++ [""] ! in_words (lt_unknown g) ["not recognised"]
      ++ in_directions ! points (LightningGroup_directions g)
  | GVicinity g => ["at distance "] ! distance (vc_dist g) ++ in_directions ! points (VicinityGroup_directions g)
      ++ ["Moving towards "] ! (if Direction_isReported (vc_movDir g) then [Point (vc_movDir g)] else [])
  | GMisc g => [" is "] ! any (fun x => [Number x]) (ms_data g)
  end%list.

(** ** What is said in another way *)
(** Calm wind: no wind, instead of a speed of 0. Visibility without directional variation: what that
    means. An obscured sky: said by the vertical visibility, and the amount of an obscuration by its
    oktas. The cloud type of a layer and of a ceiling is made up of amount, height and convective type.
    No sunshine, instead of 0 minutes. *)
Definition said_otherwise (g : Group) (x : fact) : Prop :=
  match g, x with
  | GWind g, Velocity v => wi_type g = Wi_SURFACE_WIND_CALM /\ speedValue v = Some 0%N
  | GVisibility g, Bearing d => vi_type g = Vi_PREVAILING_NDV /\ dirType d = DT_NDV
  | GCloud g, Words _ => cl_tp g = Cl_VERTICAL_VISIBILITY \/ cl_tp g = Cl_OBSCURATION
  | GCloud g, Clouds _ => cl_tp g = Cl_CLOUD_LAYER \/ cl_tp g = Cl_CEILING \/ cl_tp g = Cl_VARIABLE_CEILING
  | GMisc g, Number x => ms_type g = Ms_SUNSHINE_DURATION_MINUTES /\ flt_is_zero x = true
  | _, _ => False
  end.

(** ** What is left out *)
Definition left_out (g : Group) (x : fact) : Prop :=
  match g, x with
  (* the sector for which there is no visibility *)
  | GVisibility g, Point _ => vi_type g = Vi_VISNO
  (* the trend of a runway visual range which names no runway *)
  | GVisibility g, Words _ => vi_type g = Vi_RVR /\ vi_rw g = None
  (* times of phenomena which have a text of their own *)
  | GWeather g, Time t => exists p, In p (WeatherGroup_weatherPhenomena g) /\ wpTm p = Some t
                                    /\ specialWeatherPhenomenaToString p <> ""
  (* depth and extent of deposits on a runway which is clear and dry *)
  | GRunwayState g, Fall _ => rs_tp g = Rs_RUNWAY_STATE /\ rs_dp g = De_CLEAR_AND_DRY \/ rs_tp g = Rs_RUNWAY_NOT_OPERATIONAL
  | GRunwayState g, Words ws => rs_tp g = Rs_RUNWAY_STATE /\ rs_dp g = De_CLEAR_AND_DRY /\ ws = extent_words (rs_ext g)
                               \/ rs_tp g = Rs_RUNWAY_NOT_OPERATIONAL
  (* and all that is told about a runway which is not operational *)
  | GRunwayState g, Grip _ => rs_tp g = Rs_RUNWAY_NOT_OPERATIONAL
  | _, _ => False
  end.

(** The group [raw] of [report] reports [x], and its explanation does not tell it. *)
Definition omits (report raw : string) (x : fact) : Prop :=
  exists r g part, parse true report default_groupLimit = Ok r /\ In (mkGroupInfo g part raw) (pr_groups r)
    /\ In x (map snd (facts g)) /\ ~ said_otherwise g x
    /\ forall pow s, Visitor_visit (Ok "") (VisitorExplain pow) g part raw = Ok s -> ~ tells s x.
