(** C73: explanations name the kind of the group and the values of enumerations by the right words. *)
From Coq Require Import List String.
From Verif Require Import Prim Float Values Weather Groups1 Groups2 Groups3 Groups4 Parser Format Explain SpecExplain SpecKinds.
From Verif Require Import Pf_ExOmits Pf_ExKinds.
Import ListNotations.
Local Open Scope string_scope.

(** Every explanation has the words for the type of its group, but for altocumulus castellanus clouds. *)
Theorem C73_kind_told_partial :
  forall (pow : flt -> flt -> flt) (g : Group) (part : ReportPart) (raw s : string), castellanus g = false ->
    Visitor_visit (Ok "") (VisitorExplain pow) g part raw = Ok s -> says_all s (kind_words g).
Proof. exact kind_told. Qed.
Print Assumptions C73_kind_told_partial.
Example C73_nonvacuous : forall pow, exists g, castellanus g = false
  /\ nth_group 3 "METAR EGLL 170950Z 24012KT" = Some (mkGroupInfo g RP_METAR "24012KT") /\ kind_words g = ["Surface wind"]
  /\ exists s, Visitor_visit (Ok "") (VisitorExplain pow) g RP_METAR "24012KT" = Ok s.
Proof. intros pow. eexists. split; [|split; [vm_compute; reflexivity|]]; [reflexivity|]. split; [reflexivity|]. eexists. vm_compute. reflexivity. Qed.
(** These are told as altocumulus only. *)
Theorem C73_kind_refuted :
  exists r g part, parse true "METAR EGLL 170950Z RMK ACC NW" default_groupLimit = Ok r /\ In (mkGroupInfo g part "ACC NW") (pr_groups r)
    /\ forall (pow : flt -> flt -> flt) (s : string), Visitor_visit (Ok "") (VisitorExplain pow) g part "ACC NW" = Ok s -> ~ says_all s (kind_words g).
Proof. exact castellanus_untold. Qed.
Print Assumptions C73_kind_refuted.

(** The texts of the values of the enumerations *)
Theorem C73_values_told :
  (forall x, says_all (cardinalDirectionToString x) (point_words x))
  /\ (forall x, says_all (brakingActionToString x) (braking_words x))
  /\ (forall x, says_all (stateOfSeaSurfaceToString x) (sea_words x))
  /\ (forall x, says_all (cloudAmountToString x) (amount_words x))
  /\ (forall x, says_all (convectiveTypeToString x) (convective_words x))
  /\ (forall x, says_all (visTrendToString x) (trend_words x))
  /\ (forall x, says_all (probabilityToString x) (probability_words x))
  /\ (forall x, says_all (runwayStateDepositsToString x) (deposit_words x))
  /\ (forall x, says_all (runwayStateExtentToString x) (extent_words x))
  /\ (forall x, says_all (layerForecastGroupTypeToString x) (layer_kind x))
  /\ (forall x, says_all (pressureTendencyTypeToString x) (tendency_words x))
  /\ (forall x, says_all (pressureTendencyTrendToString x) (change_words x))
  /\ (forall x, says_all (cloudLowLayerToString x) (low_words x))
  /\ (forall x, says_all (cloudMidLayerToString x) (mid_words x))
  /\ (forall x, says_all (cloudHighLayerToString x) (high_words x)).
Proof.
  exact (conj point_told (conj braking_told (conj sea_told (conj amount_told (conj convective_told (conj trend_told (conj probability_told
    (conj deposit_told (conj extent_told (conj layer_told (conj tendency_told (conj change_told (conj low_told (conj mid_told high_told)))))))))))))).
Qed.
Print Assumptions C73_values_told.
Theorem C73_cloud_type_told_partial : forall (x : CtType), x <> Ct_NOT_REPORTED -> says_all (cloudTypeToString x) (cloud_words x).
Proof. exact cloud_told. Qed.
Print Assumptions C73_cloud_type_told_partial.
(** A cloud type which is not reported is told as cumulonimbus. *)
Theorem C73_cloud_type_refuted : cloudTypeToString Ct_NOT_REPORTED = "cumulonimbus".
Proof. exact not_reported_told. Qed.
Print Assumptions C73_cloud_type_refuted.

(** Weather phenomena are told by strength, descriptor, and all kinds of weather. *)
Theorem C73_weather_told :
  forall (p : WeatherPhenomena) (s : string), explainWeatherPhenomena p = Ok s ->
    says_all s (phenomenon_words (Wp_qualifier p) (Wp_descriptor p) (Wp_weather p)).
Proof. exact phenomenon_told. Qed.
Print Assumptions C73_weather_told.
Example C73_weather_nonvacuous : exists p s, Wp_fromString "+TSRASN" true = Ok (Some p) /\ explainWeatherPhenomena p = Ok s
  /\ phenomenon_words (Wp_qualifier p) (Wp_descriptor p) (Wp_weather p) = ["heavy"; "thunderstorm"; "rain"; "snow"].
Proof. do 2 eexists. split; [vm_compute; reflexivity|]. split; vm_compute; reflexivity. Qed.
