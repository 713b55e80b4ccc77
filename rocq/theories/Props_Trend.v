(** C40: trend groups. *)
From Verif Require Import Prim Regex Float Values Weather Groups1 Groups2 Groups3 Groups4 Parser.
From Verif Require Import SpecText SpecNumeral SpecTrend.
From Verif Require Import Pf_Trend.
Local Open Scope string_scope.

(** Exactly the word sequences of [Trend] are put together to a trend group, with the values it gives. *)
Theorem C40_combinations :
  forall (part : ReportPart) (words : list string) (v : shown),
    (exists g, Trend_assembled part words g /\ shown_by g = v) <-> Trend part words v.
Proof. exact trend_iff. Qed.
Print Assumptions C40_combinations.
(** So it is with every trend group of a report. *)
Theorem C40_report :
  forall (char_signed : bool) (report : string) (limit : nat) (r : ParseResult),
    parse char_signed report limit = Ok r ->
    forall (g : TrendGroup) (part : ReportPart) (raw : string),
      In (mkGroupInfo (GTrend g) part raw) (pr_groups r) -> raw <> "" ->
      Trend part (words_of raw) (shown_by g).
Proof. exact result_trend. Qed.
Print Assumptions C40_report.
Theorem C40_times_kept :
  forall (part : ReportPart) (words : list string) (word : string) (md : ReportMetadata) (g g' : TrendGroup),
    Trend_assembled part words g ->
    TrendGroup_append g word part md = Ok (g', APPENDED) ->
    (forall t, tr_from g = Some t -> tr_from g' = Some t)
    /\ (forall t, tr_till g = Some t -> tr_till g' = Some t)
    /\ (forall t, tr_at g = Some t -> tr_at g' = Some t).
Proof. exact times_kept. Qed.
Print Assumptions C40_times_kept.
(** A word that is not appended changes nothing. *)
Theorem C40_refused :
  forall (g : TrendGroup) (word : string) (part : ReportPart) (md : ReportMetadata) (g' : TrendGroup),
    TrendGroup_append g word part md = Ok (g', NOT_APPENDED) -> g' = g.
Proof. exact trend_refused. Qed.
Print Assumptions C40_refused.

Example C40_nonvacuous : exists r g,
  parse true "TAF EGLL 280500Z 2806/2912 24010KT 9999 PROB30 TEMPO 2812/2818 SHRA=" 100 = Ok r
  /\ In (mkGroupInfo (GTrend g) RP_TAF "PROB30 TEMPO 2812/2818") (pr_groups r)
  /\ shown_by g = Show Tr_TEMPO Pr_30 (Some (mkTime (Some 28%N) 12 0)) (Some (mkTime (Some 28%N) 18 0)) None.
Proof.
  eexists. exists (mkTrend Tr_TEMPO Pr_30 false (Some (mkTime (Some 28%N) 12 0)) (Some (mkTime (Some 28%N) 18 0)) None).
  split; [vm_compute; reflexivity|]. split; [cbn; tauto|reflexivity].
Qed.
