(** C41: minimum and maximum temperatures. *)
From Verif Require Import Prim Regex Float Values Weather Groups1 Groups2 Groups3 Groups4 Parser.
From Verif Require Import SpecText SpecNumeral SpecTrend SpecMinMax.
From Verif Require Import Pf_MinMax.
Local Open Scope string_scope.

(** Exactly the word sequences of [MinMax] are put together to a group, with the values it gives. *)
Theorem C41_words :
  forall (part : ReportPart) (words : list string) (v : extremes),
    (exists g, MinMax_assembled part words g /\ extremes_of g = v) <-> MinMax part words v.
Proof. exact minmax_iff. Qed.
Print Assumptions C41_words.
Theorem C41_report :
  forall (char_signed : bool) (report : string) (limit : nat) (r : ParseResult),
    parse char_signed report limit = Ok r ->
    forall (g : MinMaxTemperatureGroup) (part : ReportPart) (raw : string),
      In (mkGroupInfo (GMinMaxTemperature g) part raw) (pr_groups r) -> raw <> "" ->
      MinMax part (words_of raw) (extremes_of g).
Proof. exact result_minmax. Qed.
Print Assumptions C41_report.
(** Two forecasts without labels: each keeps its time, and the minimum is not above the maximum. *)
Theorem C41_unlabelled_pair :
  forall (part : ReportPart) (w v : string) (g : MinMaxTemperatureGroup) (t : Temperature) (time : MetafTime)
         (u : Temperature) (time' : MetafTime),
    MinMax_assembled part [w; v] g ->
    forecast_word "" w t time -> forecast_word "" v u time' ->
    exists lo hi, Temperature_temperature (mm_minTemp g) = Some lo
      /\ Temperature_temperature (mm_maxTemp g) = Some hi
      /\ flt_ltb hi lo = false
      /\ (freezing (mm_maxTemp g) = true -> freezing (mm_minTemp g) = true)
      /\ (mm_minTemp g = t /\ mm_minTime g = Some time /\ mm_maxTemp g = u /\ mm_maxTime g = Some time'
          \/ mm_minTemp g = u /\ mm_minTime g = Some time' /\ mm_maxTemp g = t /\ mm_maxTime g = Some time).
Proof. exact unlabelled. Qed.
Print Assumptions C41_unlabelled_pair.
Theorem C41_refused :
  forall (part : ReportPart) (words : list string) (g : MinMaxTemperatureGroup) (word : string) (part' : ReportPart)
         (md : ReportMetadata) (g' : MinMaxTemperatureGroup),
    MinMax_assembled part words g ->
    MinMaxTemperatureGroup_append g word part' md = Ok (g', NOT_APPENDED) -> g' = g.
Proof. exact minmax_refused. Qed.
Print Assumptions C41_refused.

Example C41_nonvacuous : exists r g,
  parse true "TAF EGLL 280500Z 2806/2912 24010KT 9999 T12/2815Z TM03/2906Z=" 100 = Ok r
  /\ In (mkGroupInfo (GMinMaxTemperature g) RP_TAF "T12/2815Z TM03/2906Z") (pr_groups r)
  /\ mm_minTemp g = mkTemp (Some (-3)%Z) true false /\ mm_maxTemp g = mkTemp (Some 12%Z) false false
  /\ mm_minTime g = Some (mkTime (Some 29%N) 6 0) /\ mm_maxTime g = Some (mkTime (Some 28%N) 15 0).
Proof.
  eexists. eexists (mkMinMax _ (mkTemp (Some (-3)%Z) true false) (mkTemp (Some 12%Z) false false) (Some (mkTime (Some 29%N) 6 0)) (Some (mkTime (Some 28%N) 15 0)) _).
  split; [vm_compute; reflexivity|]. split; [|auto]. cbn. repeat (try (left; reflexivity); right).
Qed.
Example C41_nonvacuous_6 : exists r g,
  parse true "METAR KJFK 280551Z 24010KT 10SM CLR 12/03 A3000 RMK AO2 10128 21005=" 100 = Ok r
  /\ In (mkGroupInfo (GMinMaxTemperature g) RP_RMK "10128 21005") (pr_groups r)
  /\ mm_minTemp g = mkTemp (Some (-5)%Z) true true /\ mm_maxTemp g = mkTemp (Some 128%Z) false true.
Proof.
  eexists. eexists (mkMinMax _ (mkTemp (Some (-5)%Z) true true) (mkTemp (Some 128%Z) false true) None None _).
  split; [vm_compute; reflexivity|]. split; [|auto]. cbn. repeat (try (left; reflexivity); right).
Qed.
