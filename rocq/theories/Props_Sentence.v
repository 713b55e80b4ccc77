(** C56: a report is read group by group. *)
From Coq Require Import List.
From Verif Require Import Prim Regex Float Values Weather Groups1 Groups2 Groups3 Groups4 Parser SpecTokens SpecReads SpecText SpecNumeral SpecTrend
  SpecAssembled SpecOpenings SpecSentence Pf_Reading Pf_SentenceExample.
Import ListNotations.
Local Open Scope string_scope.

(** A report which consists of a header, groups of the body and, after RMK, groups of the remarks, is
    read without error as exactly these groups, in this order, each with its part of the report and its text. *)
Theorem C56_read :
  forall (sgn : bool) (report : string) (limit : nat) type now header body remarks,
    report_groups sgn report = (map fst header ++ text_of body ++ remark_words remarks)%list ->
    Header type now header -> well_formed type now body remarks ->
    length (report_groups sgn report) < limit ->
    exists r, parse sgn report limit = Ok r
      /\ read_as r type now (header_groups header ++ merged (map (shown_as (body_part type)) body)
                             ++ remark_groups type remarks).
Proof. exact read_report. Qed.
Print Assumptions C56_read.
(** The same for a METAR report which begins with the location; its first word is counted twice. *)
Theorem C56_read_no_type :
  forall (sgn : bool) (report : string) (limit : nat) loc time t body remarks,
    report_groups sgn report = ([fst loc; fst time] ++ text_of body ++ remark_words remarks)%list ->
    location loc -> issued time t -> well_formed RT_METAR (Some t) body remarks ->
    (forall w, hd_error (text_of body) = Some w -> w <> "NIL" /\ ~ matches "(\d\d\d\d)/(\d\d\d\d)" w) ->
    S (length (report_groups sgn report)) < limit ->
    exists r, parse sgn report limit = Ok r
      /\ read_as r RT_METAR (Some t) (header_groups [loc; time] ++ merged (map (shown_as RP_METAR) body)
                                      ++ remark_groups RT_METAR remarks).
Proof. exact read_report_untyped. Qed.
Print Assumptions C56_read_no_type.
(** Two ways to divide the words of a report into groups give the same groups. *)
Theorem C56_one_way :
  forall (sgn : bool) (report : string) type now header body remarks type' now' header' body' remarks',
    report_groups sgn report = (map fst header ++ text_of body ++ remark_words remarks)%list ->
    Header type now header -> well_formed type now body remarks ->
    report_groups sgn report = (map fst header' ++ text_of body' ++ remark_words remarks')%list ->
    Header type' now' header' -> well_formed type' now' body' remarks' ->
    type = type' /\ now = now'
    /\ (header_groups header ++ merged (map (shown_as (body_part type)) body) ++ remark_groups type remarks
        = header_groups header' ++ merged (map (shown_as (body_part type')) body') ++ remark_groups type' remarks')%list.
Proof. exact read_one_way. Qed.
Print Assumptions C56_one_way.

(** A corrected METAR with wind in two words, visibility, weather, clouds, temperature and pressure, and
    remarks with an incomplete peak wind, an unknown word and fog to the south-east *)
Example C56_nonvacuous :
  (Header RT_METAR (Some issue_time) e_header /\ well_formed RT_METAR (Some issue_time) e_body (Some e_remarks)
   /\ report_groups true e_report = (map fst e_header ++ text_of e_body ++ remark_words (Some e_remarks))%list)
  /\ map (fun i => (Group_index (gi_group i), gi_rawString i)) (merged (map (shown_as RP_RMK) e_remarks))
     = [(0, "AO2"); (21, "PK WND XYZ"); (19, "FG DSNT SE")].
Proof. split; [exact e_read|vm_compute; reflexivity]. Qed.
