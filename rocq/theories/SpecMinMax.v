(** Specification for C41: what the words of a group of minimum and maximum temperatures say. *)
From Coq Require Import String List NArith ZArith.
From Verif Require Import Prim Float Values Groups1 Groups3 Parser SpecNumeral SpecTrend.
Import ListNotations.
Local Open Scope string_scope.

(** Temperatures: in whole degrees (a leading M means below zero, even M00), in tenths of a degree *)
Definition whole_degrees (s : string) (t : Temperature) : Prop :=
  exists (minus : bool) d v, s = (if minus then "M" else "") ++ d /\ numeral 2 d v
    /\ t = mkTemp (Some (if minus then - Z.of_N v else Z.of_N v)%Z) minus false.
Definition tenths_of_degree (s : string) (t : Temperature) : Prop :=
  exists (minus : bool) d v, s = (if minus then "1" else "0") ++ d /\ numeral 3 d v
    /\ t = mkTemp (Some (if minus then - Z.of_N v else Z.of_N v)%Z) (minus && negb (N.eqb v 0)) true.
Definition no_temperature : Temperature := mkTemp None false false.
Definition given (o : option Temperature) : Temperature := match o with Some t => t | None => no_temperature end.

(** 1xxxx: maximum, 2xxxx: minimum, 1//// and 2////: not observed. Nothing is appended when both are
    known. *)
Inductive Six_hourly : list string -> option Temperature -> option Temperature -> Prop :=
| Six_begin : Six_hourly [] None None
| Six_missing : forall ws w lo hi, Six_hourly ws lo hi -> lo = None \/ hi = None ->
    w = "1////" \/ w = "2////" -> Six_hourly (ws ++ [w]) lo hi
| Six_max : forall ws s lo t, Six_hourly ws lo None -> tenths_of_degree s t -> Six_hourly (ws ++ ["1" ++ s]) lo (Some t)
| Six_min : forall ws s hi t, Six_hourly ws None hi -> tenths_of_degree s t -> Six_hourly (ws ++ ["2" ++ s]) (Some t) hi.

(** T, a label, whole degrees, the day and the hour *)
Definition forecast_word (label w : string) (t : Temperature) (time : MetafTime) : Prop :=
  exists a b, w = "T" ++ label ++ a ++ "/" ++ b ++ "Z" /\ whole_degrees a t /\ day_hour b time.
(** Of two temperatures the first is not the higher one; M00 is below 00. *)
Definition in_order (s t : Temperature) : Prop :=
  exists x y, tempValue s = Some x /\ tempValue t = Some y /\ (x < y \/ x = y /\ (freezing t = true -> freezing s = true))%Z.

Record extremes := Extremes { e_type : MmType; e_min : Temperature; e_max : Temperature;
                              e_min_time : option MetafTime; e_max_time : option MetafTime }.
Definition extremes_of (g : MinMaxTemperatureGroup) : extremes :=
  Extremes (mm_t g) (mm_minTemp g) (mm_maxTemp g) (mm_minTime g) (mm_maxTime g).

Inductive MinMax (part : ReportPart) : list string -> extremes -> Prop :=
| MinMax_6 : forall ws lo hi, part = RP_RMK -> Six_hourly ws lo hi -> ws <> [] ->
    MinMax part ws (Extremes Mm_OBSERVED_6_HOURLY (given lo) (given hi) None None)
| MinMax_24 : forall a b lo hi, part = RP_RMK -> tenths_of_degree a hi -> tenths_of_degree b lo ->
    MinMax part ["4" ++ a ++ b] (Extremes Mm_OBSERVED_24_HOURLY lo hi None None)
| MinMax_max : forall w t time, part = RP_TAF -> forecast_word "X" w t time ->
    MinMax part [w] (Extremes Mm_FORECAST no_temperature t None (Some time))
| MinMax_min : forall w t time, part = RP_TAF -> forecast_word "N" w t time ->
    MinMax part [w] (Extremes Mm_FORECAST t no_temperature (Some time) None)
| MinMax_max_min : forall w v t time u time', part = RP_TAF -> forecast_word "X" w t time -> forecast_word "N" v u time' ->
    MinMax part [w; v] (Extremes Mm_FORECAST u t (Some time') (Some time))
| MinMax_min_max : forall w v t time u time', part = RP_TAF -> forecast_word "N" w t time -> forecast_word "X" v u time' ->
    MinMax part [w; v] (Extremes Mm_FORECAST t u (Some time) (Some time'))
(* without labels: an incomplete group, or two temperatures in either order *)
| MinMax_either : forall w t time, part = RP_TAF -> forecast_word "" w t time ->
    MinMax part [w] (Extremes Mm_FORECAST t t (Some time) (Some time))
| MinMax_pair : forall w v t time u time', part = RP_TAF -> forecast_word "" w t time -> forecast_word "" v u time' ->
    in_order t u -> MinMax part [w; v] (Extremes Mm_FORECAST t u (Some time) (Some time'))
| MinMax_swapped : forall w v t time u time', part = RP_TAF -> forecast_word "" w t time -> forecast_word "" v u time' ->
    ~ in_order t u -> MinMax part [w; v] (Extremes Mm_FORECAST u t (Some time') (Some time)).

(** The words of a group, put together by parse and append *)
Inductive MinMax_assembled (part : ReportPart) : list string -> MinMaxTemperatureGroup -> Prop :=
| MinMax_begun : forall w md g, MinMaxTemperatureGroup_parse w part md = Ok (Some g) -> MinMax_assembled part [w] g
| MinMax_continued : forall ws w md g g', MinMax_assembled part ws g ->
    MinMaxTemperatureGroup_append g w part md = Ok (g', APPENDED) -> MinMax_assembled part (ws ++ [w]) g'.
