(** Specification for C42: which method of a visitor is meant to be called for a group. *)
From Verif Require Import Prim Regex Float Values Weather Groups1 Groups2 Groups3 Groups4 Parser.

(** One method per alternative of the variant. *)
Definition method_for {T : Type} (v : Visitor T) (g : Group) : ReportPart -> string -> T :=
  match g with
  | GKeyword x => visitKeywordGroup v x
  | GLocation x => visitLocationGroup v x
  | GReportTime x => visitReportTimeGroup v x
  | GTrend x => visitTrendGroup v x
  | GWind x => visitWindGroup v x
  | GVisibility x => visitVisibilityGroup v x
  | GCloud x => visitCloudGroup v x
  | GWeather x => visitWeatherGroup v x
  | GTemperature x => visitTemperatureGroup v x
  | GPressure x => visitPressureGroup v x
  | GRunwayState x => visitRunwayStateGroup v x
  | GSeaSurface x => visitSeaSurfaceGroup v x
  | GMinMaxTemperature x => visitMinMaxTemperatureGroup v x
  | GPrecipitation x => visitPrecipitationGroup v x
  | GLayerForecast x => visitLayerForecastGroup v x
  | GPressureTendency x => visitPressureTendencyGroup v x
  | GCloudTypes x => visitCloudTypesGroup v x
  | GLowMidHighCloud x => visitLowMidHighCloudGroup v x
  | GLightning x => visitLightningGroup v x
  | GVicinity x => visitVicinityGroup v x
  | GMisc x => visitMiscGroup v x
  | GUnknown x => visitUnknownGroup v x
  end.

(** A visitor that reports which of its methods was called and with what. *)
Definition recorder : Visitor (nat * Group * ReportPart * string) :=
  mkVisitor _
    (fun x p s => (0, GKeyword x, p, s)) (fun x p s => (1, GLocation x, p, s))
    (fun x p s => (2, GReportTime x, p, s)) (fun x p s => (3, GTrend x, p, s))
    (fun x p s => (4, GWind x, p, s)) (fun x p s => (5, GVisibility x, p, s))
    (fun x p s => (6, GCloud x, p, s)) (fun x p s => (7, GWeather x, p, s))
    (fun x p s => (8, GTemperature x, p, s)) (fun x p s => (9, GPressure x, p, s))
    (fun x p s => (10, GRunwayState x, p, s)) (fun x p s => (11, GSeaSurface x, p, s))
    (fun x p s => (12, GMinMaxTemperature x, p, s)) (fun x p s => (13, GPrecipitation x, p, s))
    (fun x p s => (14, GLayerForecast x, p, s)) (fun x p s => (15, GPressureTendency x, p, s))
    (fun x p s => (16, GCloudTypes x, p, s)) (fun x p s => (17, GLowMidHighCloud x, p, s))
    (fun x p s => (18, GLightning x, p, s)) (fun x p s => (19, GVicinity x, p, s))
    (fun x p s => (20, GMisc x, p, s)) (fun x p s => (21, GUnknown x, p, s)).
