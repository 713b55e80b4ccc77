(** C79: the same words mean the same wherever they stand. *)
From Verif Require Import Prim Regex Float Values Weather Groups1 Groups2 Groups3 Groups4 Parser.
From Verif Require Import Pf_Context.
Local Open Scope string_scope.

(** Two reports which were issued at the same time; groups without text are the subject of C06. *)
Theorem C79_same_words_same_group :
  forall (sgn : bool) (report : string) (limit : nat) (r : ParseResult)
         (sgn' : bool) (report' : string) (limit' : nat) (r' : ParseResult),
    parse sgn report limit = Ok r -> parse sgn' report' limit' = Ok r' ->
    md_reportTime (pr_metadata r) = md_reportTime (pr_metadata r') ->
    forall g g' part raw,
      In (mkGroupInfo g part raw) (pr_groups r) -> In (mkGroupInfo g' part raw) (pr_groups r') -> raw <> "" -> g = g'.
Proof. exact same_text. Qed.
Print Assumptions C79_same_words_same_group.

(** The time matters: rain began in the hour of the report; the visibility of the first report has a group after it, that of
    the second has not. *)
Definition groups_of (r : res ParseResult) (raw : string) : list Group :=
  match r with Ok r => map gi_group (filter (fun i => seqb (gi_rawString i) raw) (pr_groups r)) | Bad _ => [] end.
Example C79_nonvacuous :
  let one := parse true "METAR ZZZZ 010400Z 36010KT RMK VIS 1/2V1 RAB15" 100 in
  let two := parse false "SPECI YYYY 010400Z 9999 RMK RAB15 XYZ VIS 1/2V1" 50 in
  let late := parse true "METAR ZZZZ 010500Z 36010KT RMK VIS 1/2V1 RAB15" 100 in
  groups_of one "VIS 1/2V1" = groups_of two "VIS 1/2V1" /\ groups_of one "RAB15" = groups_of two "RAB15"
  /\ map Group_index (groups_of one "VIS 1/2V1" ++ groups_of one "RAB15") = [5; 7]
  /\ groups_of one "RAB15" <> groups_of late "RAB15"
  /\ groups_of one "XYZ" = [] /\ groups_of two "XYZ" = [GUnknown mkUnknown].
Proof. vm_compute. repeat split. discriminate. Qed.
