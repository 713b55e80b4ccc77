(** Specification for C57: which groups of a result are valid, in terms of what their accessors
    return (the notes on isValid() in docs/sphinx/api_*.rst). *)
From Coq Require Import NArith ZArith List String.
From Verif Require Import Prim Float Values Weather Groups1 Groups2 Groups3 Groups4 Parser.
Import ListNotations.
Local Open Scope N_scope.

(** What is there, if anything is, has the property. *)
Definition if_any {A : Type} (P : A -> Prop) (o : option A) : Prop := forall x, o = Some x -> P x.
Definition proper_time (t : MetafTime) : Prop :=
  if_any (fun d => 1 <= d <= 31) (dayValue t) /\ hourValue t <= 24 /\ minuteValue t <= 59.
(** 88: all runways, 99: the last message repeated *)
Definition proper_runway (r : Runway) : Prop :=
  rNumber r <= 36 \/ (rNumber r = 88 \/ rNumber r = 99) /\ rDesignator r = Rw_NONE.
Definition proper_direction (d : Direction) : Prop := if_any (fun v => v <= 360) (Direction_degrees d).
(** Something is told, and freezing goes with drizzle, rain, fog or undetermined precipitation. *)
Definition proper_phenomenon (p : WeatherPhenomena) : Prop :=
  (Wp_qualifier p <> Q_NONE \/ Wp_descriptor p <> D_NONE \/ Wp_weather p <> [])
  /\ if_any proper_time (wpTm p)
  /\ (Wp_descriptor p = D_FREEZING -> exists w, In w (Wp_weather p) /\ In w [W_DRIZZLE; W_RAIN; W_UNDETERMINED; W_FOG]).
(** Distances in the same unit: in metres, feet or 1/10000 of a mile *)
Definition not_above (low high : Distance) : Prop :=
  exists a b, dist low = Some a /\ dist high = Some b /\ distUnit low = distUnit high /\ a <= b.
(** In tenths of a degree *)
Definition in_tenths (t : Temperature) : option Z :=
  match tempValue t with Some v => Some (if precise t then v else 10 * v)%Z | None => None end.
(** Of two temperatures, if both are known, the first is below the second. *)
Definition below (s t : Temperature) : Prop := forall x y, in_tenths s = Some x -> in_tenths t = Some y -> (x < y)%Z.
(** Not higher; M00 is below 00. *)
Definition not_higher (s t : Temperature) : Prop :=
  forall x y, in_tenths s = Some x -> in_tenths t = Some y -> (x < y)%Z \/ (x = y)%Z /\ ~ (x = 0%Z /\ freezing s = false /\ freezing t = true).
Definition reserved_extents : list RsExtent := [Ex_RESERVED_3; Ex_RESERVED_4; Ex_RESERVED_6; Ex_RESERVED_7; Ex_RESERVED_8].

Definition valid_wind (g : WindGroup) : Prop :=
  if_any (fun gust => gust <> 0 /\ if_any (fun speed => speed < gust) (speedValue (wi_speed g))) (speedValue (wi_gust g))
  /\ if_any (fun h => h <> 0) (dist (wi_height g))
  /\ proper_direction (wi_dir g) /\ proper_direction (wi_vsecBegin g) /\ proper_direction (wi_vsecEnd g)
  /\ if_any proper_time (wi_evTime g) /\ if_any proper_runway (wi_rw g).
Definition valid_visibility (g : VisibilityGroup) : Prop :=
  (Distance_isReported (VisibilityGroup_maxVisibility g) = true ->
   not_above (VisibilityGroup_minVisibility g) (VisibilityGroup_maxVisibility g))
  /\ if_any proper_direction (vi_dir g) /\ if_any proper_runway (vi_rw g).
Definition valid_group (g : Group) : Prop :=
  match g with
  | GReportTime k => proper_time (rt_t k)
  | GTrend k => tr_t k <> Tr_PROB /\ if_any proper_time (tr_from k) /\ if_any proper_time (tr_till k) /\ if_any proper_time (tr_at k)
  | GWind k => valid_wind k
  | GVisibility k => valid_visibility k
  | GCloud k => if_any proper_direction (cl_dir k) /\ if_any proper_runway (cl_rw k)
  | GWeather k => Forall proper_phenomenon (wx_w k)
  | GTemperature k => not_higher (tg_dp k) (tg_t k)
  | GRunwayState k => proper_runway (rs_rw k) /\ ~ In (rs_ext k) reserved_extents
  | GMinMaxTemperature k =>
    below (mm_minTemp k) (mm_maxTemp k) /\ if_any proper_time (mm_minTime k) /\ if_any proper_time (mm_maxTime k)
  | GCloudTypes k => Forall (fun c => 1 <= ctOkt c <= 8) (cty_cldTp k)
  | GLowMidHighCloud k =>
    (lmh_low k = Lo_NOT_OBSERVABLE -> lmh_mid k = Mi_NOT_OBSERVABLE)
    /\ (lmh_mid k = Mi_NOT_OBSERVABLE -> lmh_high k = Hi_NOT_OBSERVABLE)
  | GLightning k => lt_unknown k = false
  | _ => True
  end.
(** Wind of 999 units without gusts *)
Definition very_strong_wind (g : Group) : Prop :=
  match g with GWind k => speedValue (wi_gust k) = None /\ speedValue (wi_speed k) = Some 999 | _ => False end.

(** The texts of the groups of a result, and whether they are valid *)
Definition verdicts (report : string) : option (list (string * bool)) :=
  match parse true report 100 with
  | Ok r => Some (map (fun i => (gi_rawString i, match Group_isValid (gi_group i) with Ok b => b | Bad _ => false end)) (pr_groups r))
  | Bad _ => None
  end.
