(** C16, C17, C18: words appended to groups. *)
From Verif Require Import Prim Regex Float Values Weather Groups1 Groups2 Groups3 Groups4 Parser.
From Verif Require Import SpecText SpecReach SpecNumeral SpecMinMax SpecAppend.
From Verif Require Import Pf_Keywords Pf_Waits Pf_Same.
Local Open Scope string_scope.

(** Keywords are never appended, whatever the group. *)
Theorem C16_keyword_not_appended :
  forall (g : Group) (word : string) (part : ReportPart) (md : ReportMetadata) (g' : Group) (a : AppendResult),
    In word keywords -> is_fallback g = false ->
    Group_append g word part md = Ok (g', a) -> a <> APPENDED.
Proof. exact keyword_not_appended. Qed.
Print Assumptions C16_keyword_not_appended.
(** In the result, only unknown text has keywords after its first word. *)
Theorem C16_report :
  forall (char_signed : bool) (report : string) (limit : nat) (r : ParseResult),
    parse char_signed report limit = Ok r ->
    forall (g : Group) (part : ReportPart) (raw : string),
      In (mkGroupInfo g part raw) (pr_groups r) -> raw <> "" -> is_fallback g = false ->
      forall word, In word keywords -> ~ In word (tl (words_of raw)).
Proof. exact result_keywords. Qed.
Print Assumptions C16_report.
Definition kinds_and_texts (r : res ParseResult) : list (nat * string) :=
  match r with Ok r => map (fun i => (Group_index (gi_group i), gi_rawString i)) (pr_groups r) | Bad _ => [] end.
Example C16_nonvacuous :
  kinds_and_texts (parse true "METAR ZZZZ 010000Z 2 RMK PK WND $=" 100)
  = [(0, "METAR"); (1, "ZZZZ"); (2, "010000Z"); (21, "2"); (0, "RMK"); (21, "PK WND"); (0, "$")].
Proof. vm_compute. reflexivity. Qed.

(** Which groups of the result may be incomplete. *)
Theorem C17_complete_partial :
  forall (char_signed : bool) (report : string) (limit : nat) (r : ParseResult),
    parse char_signed report limit = Ok r ->
    forall (g : Group) (part : ReportPart) (raw : string),
      In (mkGroupInfo g part raw) (pr_groups r) -> raw <> "" -> waiting g = true ->
      left_open (words_of raw)
      \/ part = RP_TAF /\ exists w t time, words_of raw = [w] /\ forecast_word "" w t time.
Proof. exact left_incomplete. Qed.
Print Assumptions C17_complete_partial.
(** A group that has the text of one of the beginnings is an unknown group. *)
Theorem C17_beginnings_are_unknown :
  forall (char_signed : bool) (report : string) (limit : nat) (r : ParseResult),
    parse char_signed report limit = Ok r ->
    forall (g : Group) (part : ReportPart) (raw : string),
      In (mkGroupInfo g part raw) (pr_groups r) -> In (part, words_of raw) beginnings ->
      is_fallback g = true.
Proof. exact beginnings_unknown. Qed.
Print Assumptions C17_beginnings_are_unknown.
(** Not all groups are complete: each of these reports has an incomplete one. *)
Definition incomplete_texts (r : res ParseResult) : list string :=
  match r with Ok r => map gi_rawString (filter (fun i => waiting (gi_group i)) (pr_groups r)) | Bad _ => [] end.
Theorem C17_refuted :
  incomplete_texts (parse true "TAF ZZZZ 010000Z 0100/0124 36010KT PROB30 9999=" 100) = ["PROB30"]
  /\ incomplete_texts (parse true "TAF ZZZZ 010000Z 0100/0124 36010KT T05/0112Z=" 100) = ["T05/0112Z"]
  /\ incomplete_texts (parse true "METAR ZZZZ 010000Z 36010KT RMK WSHFT SNINCR=" 100) = ["WSHFT"; "SNINCR"].
Proof. vm_compute. repeat split. Qed.
Print Assumptions C17_refuted.
Example C17_nonvacuous :
  kinds_and_texts (parse true "METAR ZZZZ 010000Z 36010KT WS ALL RMK TWR VIS CIG DENSITY ALT=" 100)
  = [(0, "METAR"); (1, "ZZZZ"); (2, "010000Z"); (4, "36010KT"); (21, "WS ALL"); (0, "RMK"); (21, "TWR VIS CIG DENSITY ALT")].
Proof. vm_compute. reflexivity. Qed.

(** A group that does not take a word keeps its values. *)
Theorem C18_values_kept_partial :
  forall (g : Group) (word : string) (part : ReportPart) (md : ReportMetadata) (g' : Group),
    Reachable g -> Group_append g word part md = Ok (g', NOT_APPENDED) -> same_values g g'.
Proof. exact refused_same. Qed.
Print Assumptions C18_values_kept_partial.
(** And its validity, except for visibility and phenomena in the vicinity. *)
Theorem C18_validity_kept_partial :
  forall (g : Group) (word : string) (part : ReportPart) (md : ReportMetadata) (g' : Group),
    Reachable g -> Group_append g word part md = Ok (g', NOT_APPENDED) ->
    match g with GVisibility _ | GVicinity _ => True | _ => Group_isValid g' = Group_isValid g end.
Proof. exact refused_valid. Qed.
Print Assumptions C18_validity_kept_partial.
(** Visibility "VIS 1/2V1" is not valid, and is valid after it did not take the next word. *)
Theorem C18_validity_refuted :
  exists g g', Reachable g /\ Group_append g "X" RP_RMK md_default = Ok (g', NOT_APPENDED)
    /\ Group_isValid g = Ok false /\ Group_isValid g' = Ok true.
Proof. exact refusal_validates. Qed.
Print Assumptions C18_validity_refuted.
Definition chino : Group :=
  match alternative GCloud CloudGroup_parse "CHINO" RP_RMK md_default with Ok (Some g) => g | _ => GUnknown mkUnknown end.
Example C18_nonvacuous :
  match Group_append chino "X" RP_RMK md_default with
  | Ok (GCloud g, NOT_APPENDED) => (cl_tp g, waiting chino, waiting (GCloud g)) = (Cl_CHINO, true, false)
  | _ => False
  end.
Proof. vm_compute. reflexivity. Qed.
