(** Specification for C60: the texts of groups, by kind. The relations are those of C40, C41, C48,
    C50 to C54 and C58. *)
From Coq Require Import String List.
From Verif Require Import Prim Values Weather Groups1 Groups2 Groups3 Groups4 Parser.
From Verif Require SpecTrend SpecWind SpecVisibility SpecClouds SpecWeatherGroup SpecReadings SpecMinMax SpecAmounts SpecNearby SpecMeta SpecNumeral.
Import ListNotations.

(** [words] are the text of the group [g], in the part [part] of a report whose time is [now], if known;
    [g] tells what they say. Only the header has locations and times of issue. *)
Definition Said (part : ReportPart) (now : option MetafTime) (words : list string) (g : Group) : Prop :=
  match g with
  | GKeyword k => words = [SpecMeta.keyword_text (kw_t k)] /\ In part (SpecMeta.keyword_parts (kw_t k))
  | GLocation _ | GReportTime _ => False
  | GTrend g => SpecTrend.Trend part words (SpecTrend.shown_by g)
  | GWind g => SpecWind.Wind part now words (SpecWind.told_by g)
  | GVisibility g => SpecVisibility.Visibility part words (SpecVisibility.seen_by g)
  | GCloud g => SpecClouds.Clouds part words (SpecClouds.sky_of g)
  | GWeather g => SpecWeatherGroup.WeatherTold part now words (SpecWeatherGroup.weather_told g)
  | GTemperature g => SpecReadings.Temperatures part words (tg_tp g) (tg_t g) (tg_dp g)
  | GPressure g => SpecReadings.Pressures part words (pg_t g) (pg_p g)
  | GRunwayState g => SpecReadings.Runway_state part words g
  | GSeaSurface g => SpecReadings.Sea part words (ss_t g) (ss_wh g)
  | GMinMaxTemperature g => SpecMinMax.MinMax part words (SpecMinMax.extremes_of g)
  | GPrecipitation g => SpecAmounts.Precipitations part now words (pc_type g) (pc_amount g) (pc_change g)
  | GLayerForecast g => SpecAmounts.Layers part words (lf_type g) (lf_base g) (lf_top g)
  | GPressureTendency g => SpecReadings.Tendency part words (pt_type g) (PressureTendency_trend (pt_type g)) (pt_difference g)
  | GCloudTypes g => SpecClouds.Cloud_types part words (CloudTypesGroup_cloudTypes g)
  | GLowMidHighCloud g => SpecClouds.Sky_codes part words g
  | GLightning g => part = RP_RMK /\ exists v, SpecNearby.Lightning_said words v /\ SpecNearby.tells g v
  | GVicinity g => part = RP_RMK /\ exists v, SpecNearby.Vicinity_said words v /\ SpecNearby.shows g v
  | GMisc g => SpecAmounts.Misc part words (ms_type g) (ms_data g)
  | GUnknown _ => False
  end.
(** The texts of one kind of group *)
Definition Text (part : ReportPart) (now : option MetafTime) (kind : nat) (words : list string) : Prop :=
  exists g, Group_index g = kind /\ Said part now words g.
(** and how they begin *)
Definition Begins (part : ReportPart) (now : option MetafTime) (kind : nat) (words : list string) : Prop :=
  words <> [] /\ exists more, Text part now kind (words ++ more).
(** Words which are taken for the beginning of a group: also OVC in remarks, with or without a height and V,
    although no amount of clouds is above it *)
Definition Overcast (part : ReportPart) (kind : nat) (words : list string) : Prop :=
  part = RP_RMK /\ kind = 6 /\ exists h, (h = ""%string \/ exists v, SpecNumeral.numeral 3 h v)
    /\ (words = [append "OVC" h] \/ words = [append "OVC" h; "V"%string]).
Definition Opens (part : ReportPart) (now : option MetafTime) (kind : nat) (words : list string) : Prop :=
  Begins part now kind words \/ Overcast part kind words.
