(** C60: every report is read as the longest texts of groups, one after another. *)
From Coq Require Import List.
From Verif Require Import Prim Regex Float Values Weather Groups1 Groups2 Groups3 Groups4 Parser SpecTokens SpecReads SpecText SpecNumeral SpecTrend
  SpecAssembled SpecOpenings SpecSentence SpecWhole SpecSaid SpecLongest Pf_Pieces.
Import ListNotations.
Local Open Scope string_scope.

(** The groups of a result without error are told by the words of the report. *)
Theorem C60_told :
  forall (sgn : bool) (report : string) (limit : nat) r type now groups,
    parse sgn report limit = Ok r -> read_as r type now groups ->
    exists n, Told_report (report_groups sgn report) type now groups n /\ n < limit.
Proof. exact told_sound. Qed.
Print Assumptions C60_told.
(** Words which tell the groups of a report are read so: the result has the same kinds of groups with the same texts,
    and what these tell is told by the words. *)
Theorem C60_read :
  forall (sgn : bool) (report : string) (limit : nat) type now groups n,
    Told_report (report_groups sgn report) type now groups n -> n < limit ->
    exists r groups', parse sgn report limit = Ok r /\ read_as r type now groups' /\ Forall2 alike groups groups'
      /\ Told_report (report_groups sgn report) type now groups' n.
Proof. exact told_complete. Qed.
Print Assumptions C60_read.
(** There is an error exactly if the words tell no report, or there are too many. *)
Theorem C60_no_error :
  forall (sgn : bool) (report : string) (limit : nat) r, parse sgn report limit = Ok r ->
    (md_error (pr_metadata r) = RE_NONE
     <-> exists type now groups n, Told_report (report_groups sgn report) type now groups n /\ n < limit).
Proof. exact told_no_error. Qed.
Print Assumptions C60_no_error.
(** Words are divided into groups in one way at most. *)
Theorem C60_one_way :
  forall (sgn : bool) (report : string) type now groups n type' now' groups' n',
    Told_report (report_groups sgn report) type now groups n -> Told_report (report_groups sgn report) type' now' groups' n' ->
    type = type' /\ now = now' /\ Forall2 alike groups groups' /\ n = n'.
Proof. exact told_one_way. Qed.
Print Assumptions C60_one_way.

(** FG before a layer is clouds, FU before a place is not; TWR VIS takes no range; overcast is the most there is. *)
Example C60_nonvacuous :
  exists t groups n, Told_report (report_groups true l_report) RT_METAR (Some t) groups n
    /\ map (fun i => (Group_index (gi_group i), gi_rawString i)) groups
       = [(0, "METAR"); (1, "YUDO"); (2, "091130Z"); (4, "24008KT"); (5, "2 1/2SM"); (6, "FEW020"); (0, "RMK");
          (6, "FG FEW001"); (19, "FU DSNT SE"); (5, "SFC VIS 2 1/2"); (21, "TWR VIS 2 1/2V3 OVC V"); (13, "SNINCR 1/10")].
Proof. exact longest_example. Qed.
