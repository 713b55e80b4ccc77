(** Specification for C40: what the words of a trend group say (api_trendgroup.rst). *)
From Coq Require Import String List NArith.
From Verif Require Import Prim Values Groups1 Parser SpecNumeral.
Import ListNotations.
Local Open Scope string_scope.

(** hhmm, ddhh and ddhhmm *)
Definition hour_minute (s : string) (t : MetafTime) : Prop :=
  exists h m hour minute, s = h ++ m /\ numeral 2 h hour /\ numeral 2 m minute /\ t = mkTime None hour minute.
Definition day_hour (s : string) (t : MetafTime) : Prop :=
  exists d h day hour, s = d ++ h /\ numeral 2 d day /\ numeral 2 h hour /\ t = mkTime (Some day) hour 0.
Definition day_hour_minute (s : string) (t : MetafTime) : Prop :=
  exists d h m day hour minute, s = d ++ h ++ m
    /\ numeral 2 d day /\ numeral 2 h hour /\ numeral 2 m minute /\ t = mkTime (Some day) hour minute.

(** What a trend group shows: type, probability, begin time, end time, time of event *)
Record shown := Show { s_type : TrType; s_prob : TrProb; s_from : option MetafTime;
                       s_until : option MetafTime; s_at : option MetafTime }.
Definition shown_by (g : TrendGroup) : shown := Show (tr_t g) (tr_prob g) (tr_from g) (tr_till g) (tr_at g).

Definition change_word (w : string) (t : TrType) : Prop :=
  In (w, t) [("BECMG", Tr_BECMG); ("TEMPO", Tr_TEMPO); ("INTER", Tr_INTER)].
Definition prob_word (w : string) (p : TrProb) : Prop := In (w, p) [("PROB30", Pr_30); ("PROB40", Pr_40)].

(** Times: hhmm in METAR, ddhh and ddhhmm in TAF. The time span for which a TAF is issued is in the
    header of the report. *)
Definition from_word (part : ReportPart) (w : string) (t : MetafTime) : Prop :=
  exists s, w = "FM" ++ s
    /\ (part = RP_METAR /\ hour_minute s t \/ part = RP_TAF /\ day_hour_minute s t).
Definition until_word (part : ReportPart) (w : string) (t : MetafTime) : Prop :=
  exists s, w = "TL" ++ s /\ part = RP_METAR /\ hour_minute s t.
Definition at_word (part : ReportPart) (w : string) (t : MetafTime) : Prop :=
  exists s, w = "AT" ++ s /\ part = RP_METAR /\ hour_minute s t.
Definition span_word (part : ReportPart) (w : string) (f u : MetafTime) : Prop :=
  exists a b, w = a ++ "/" ++ b
    /\ (part = RP_METAR /\ hour_minute a f /\ hour_minute b u
        \/ (part = RP_TAF \/ part = RP_HEADER) /\ day_hour a f /\ day_hour b u).

(** The sequences of words which make up one trend group, and what the group shows *)
Inductive Trend (part : ReportPart) : list string -> shown -> Prop :=
| Trend_nosig : part = RP_METAR ->
    Trend part ["NOSIG"] (Show Tr_NOSIG Pr_NONE None None None)
| Trend_change : forall w t, part = RP_METAR \/ part = RP_TAF -> change_word w t ->
    Trend part [w] (Show t Pr_NONE None None None)
| Trend_from : forall x f, from_word part x f ->
    Trend part [x] (Show Tr_FROM Pr_NONE (Some f) None None)
| Trend_until : forall x u, until_word part x u ->
    Trend part [x] (Show Tr_UNTIL Pr_NONE None (Some u) None)
| Trend_at : forall x a, at_word part x a ->
    Trend part [x] (Show Tr_AT Pr_NONE None None (Some a))
| Trend_span : forall x f u, span_word part x f u ->
    Trend part [x] (Show Tr_TIME_SPAN Pr_NONE (Some f) (Some u) None)
(* BECMG, TEMPO or INTER, and times *)
| Trend_change_from : forall w t x f, change_word w t -> from_word part x f ->
    Trend part [w; x] (Show t Pr_NONE (Some f) None None)
| Trend_change_until : forall w t x u, change_word w t -> until_word part x u ->
    Trend part [w; x] (Show t Pr_NONE None (Some u) None)
| Trend_change_at : forall w t x a, change_word w t -> at_word part x a ->
    Trend part [w; x] (Show t Pr_NONE None None (Some a))
| Trend_change_span : forall w t x f u, part <> RP_HEADER -> change_word w t -> span_word part x f u ->
    Trend part [w; x] (Show t Pr_NONE (Some f) (Some u) None)
| Trend_change_from_until : forall w t x y f u, change_word w t -> from_word part x f -> until_word part y u ->
    Trend part [w; x; y] (Show t Pr_NONE (Some f) (Some u) None)
| Trend_change_until_from : forall w t x y f u, change_word w t -> until_word part x u -> from_word part y f ->
    Trend part [w; x; y] (Show t Pr_NONE (Some f) (Some u) None)
(* begin and end of a time span in two words *)
| Trend_from_until : forall x y f u, from_word part x f -> until_word part y u ->
    Trend part [x; y] (Show Tr_TIME_SPAN Pr_NONE (Some f) (Some u) None)
(* PROB30 or PROB40, only in TAF *)
| Trend_prob : forall w p, part = RP_TAF -> prob_word w p ->
    Trend part [w] (Show Tr_PROB p None None None)
| Trend_prob_span : forall w p x f u, part = RP_TAF -> prob_word w p -> span_word part x f u ->
    Trend part [w; x] (Show Tr_TIME_SPAN p (Some f) (Some u) None)
| Trend_prob_change : forall w p v t, part = RP_TAF -> prob_word w p -> change_word v t -> t <> Tr_BECMG ->
    Trend part [w; v] (Show t p None None None)
| Trend_prob_change_from : forall w p v t x f, part = RP_TAF -> prob_word w p -> change_word v t -> t <> Tr_BECMG ->
    from_word part x f -> Trend part [w; v; x] (Show t p (Some f) None None)
| Trend_prob_change_span : forall w p v t x f u, part = RP_TAF -> prob_word w p -> change_word v t -> t <> Tr_BECMG ->
    span_word part x f u -> Trend part [w; v; x] (Show t p (Some f) (Some u) None).

(** The words of a group, put together by TrendGroup::parse and TrendGroup::append *)
Inductive Trend_assembled (part : ReportPart) : list string -> TrendGroup -> Prop :=
| Trend_begun : forall w md g, TrendGroup_parse w part md = Ok (Some g) -> Trend_assembled part [w] g
| Trend_continued : forall ws w md g g', Trend_assembled part ws g ->
    TrendGroup_append g w part md = Ok (g', APPENDED) -> Trend_assembled part (ws ++ [w]) g'.
