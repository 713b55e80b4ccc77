(** C57: which groups of a result are valid. *)
From Coq Require Import String List NArith.
From Verif Require Import Prim Regex Float Values Weather Groups1 Groups2 Groups3 Groups4 Parser SpecValid.
From Verif Require Import Pf_Validity.
Import ListNotations.
Local Open Scope string_scope.

(** A group of a result is valid exactly if what its accessors return fulfils the conditions, with
    one exception: wind of 999 units without gusts is not valid. *)
Theorem C57_valid :
  forall (char_signed : bool) (report : string) (limit : nat) (r : ParseResult),
    parse char_signed report limit = Ok r ->
    forall (g : Group) (part : ReportPart) (raw : string),
      In (mkGroupInfo g part raw) (pr_groups r) -> raw <> "" ->
      (Group_isValid g = Ok true <-> valid_group g /\ ~ very_strong_wind g).
Proof. exact result_valid. Qed.
Print Assumptions C57_valid.
(** Without the exception this is not so. *)
Theorem C57_refuted :
  ~ (forall (char_signed : bool) (report : string) (limit : nat) (r : ParseResult),
      parse char_signed report limit = Ok r ->
      forall (g : Group) (part : ReportPart) (raw : string),
        In (mkGroupInfo g part raw) (pr_groups r) -> raw <> "" -> valid_group g -> Group_isValid g = Ok true).
Proof. exact strong_wind_invalid. Qed.
Print Assumptions C57_refuted.
(** A group of cloud types is documented to be always valid; it is not. *)
Theorem C57_cloud_types_refuted :
  ~ (forall (char_signed : bool) (report : string) (limit : nat) (r : ParseResult),
      parse char_signed report limit = Ok r ->
      forall (g : CloudTypesGroup) (part : ReportPart) (raw : string),
        In (mkGroupInfo (GCloudTypes g) part raw) (pr_groups r) -> raw <> "" -> CloudTypesGroup_isValid g = true).
Proof. exact cloud_types_invalid. Qed.
Print Assumptions C57_cloud_types_refuted.
(** A group of minimum and maximum temperature is documented to be valid if the minimum is "greater
    or equal to maximum". Neither that nor its converse holds: equal ones are not valid. *)
Theorem C57_minmax_refuted :
  (exists (char_signed : bool) (report : string) (limit : nat) (r : ParseResult) (g : MinMaxTemperatureGroup) (part : ReportPart) (raw : string),
     parse char_signed report limit = Ok r /\ In (mkGroupInfo (GMinMaxTemperature g) part raw) (pr_groups r) /\ raw <> ""
     /\ in_tenths (mm_minTemp g) = in_tenths (mm_maxTemp g) /\ in_tenths (mm_minTemp g) <> None /\ mm_isIncomplete g = false
     /\ MinMaxTemperatureGroup_isValid g = false)
  /\ (exists (char_signed : bool) (report : string) (limit : nat) (r : ParseResult) (g : MinMaxTemperatureGroup) (part : ReportPart) (raw : string),
     parse char_signed report limit = Ok r /\ In (mkGroupInfo (GMinMaxTemperature g) part raw) (pr_groups r) /\ raw <> ""
     /\ (exists x y, in_tenths (mm_minTemp g) = Some x /\ in_tenths (mm_maxTemp g) = Some y /\ x < y)%Z
     /\ MinMaxTemperatureGroup_isValid g = true).
Proof. exact minmax_documented. Qed.
Print Assumptions C57_minmax_refuted.
Example C57_nonvacuous :
  verdicts "METAR EGLL 321520Z 27015G10KT 270999KT 1/4SM R27/1000V0600 R54/1000 FZRA FZFG 10/12 M00/00 00/M00 RMK VIS 1 1/2V1 3/4 VIS 2V1 1/2 CIG 005 RWY57 8/6// 8//6/ 401001098 410100020 CU0 CU1SC8"
  = Some [("METAR", true); ("EGLL", true); ("321520Z", false); ("27015G10KT", false); ("270999KT", false); ("1/4SM", true);
          ("R27/1000V0600", false); ("R54/1000", false); ("FZRA FZFG", true); ("10/12", false); ("M00/00", false); ("00/M00", true);
          ("RMK", true); ("VIS 1 1/2V1 3/4", true); ("VIS 2V1 1/2", false); ("CIG 005 RWY57", false); ("8/6//", true); ("8//6/", false);
          ("401001098", true); ("410100020", false); ("CU0", false); ("CU1SC8", true)].
Proof. vm_compute. reflexivity. Qed.
