(** C55: no word opens groups of two kinds, except five words of the remarks. *)
From Coq Require Import Permutation.
From Verif Require Import Prim Regex Float Values Weather Groups1 Groups2 Groups3 Groups4 Parser SpecOpenings Pf_OneKind.
Local Open Scope string_scope.

(** Two kinds of group that recognise the same word are the same kind, with the same value. *)
Theorem C55_one_kind :
  forall p q (word : string) (part : ReportPart) (md : ReportMetadata) (g h : Group),
    In p alternatives -> In q alternatives ->
    p word part md = Ok (Some g) -> q word part md = Ok (Some h) ->
    ~ shared part word -> g = h.
Proof. exact one_kind. Qed.
Print Assumptions C55_one_kind.
(** So it does not matter in which order the kinds of group are tried. *)
Theorem C55_any_order :
  forall l (word : string) (part : ReportPart) (md : ReportMetadata),
    Permutation l alternatives -> ~ shared part word ->
    parseAlternatives l word part md = GroupParser_parse word part md.
Proof. exact any_order. Qed.
Print Assumptions C55_any_order.
(** The first word of a group that a later word invalidates is not taken for another kind of group. *)
Theorem C55_invalidated :
  forall (word : string) (part : ReportPart) (md : ReportMetadata) (g : Group),
    ~ shared part word -> GroupParser_parse word part md = Ok g ->
    GroupParser_reparse word part md g = Ok (GUnknown mkUnknown).
Proof. exact no_other_kind. Qed.
Print Assumptions C55_invalidated.
(** The exceptions: only cloud and vicinity groups recognise them, *)
Theorem C55_shared :
  forall p (word : string) (part : ReportPart) (md : ReportMetadata) (g : Group),
    shared part word -> In p alternatives -> p word part md = Ok (Some g) ->
    (exists c, g = GCloud c) \/ (exists v, g = GVicinity v).
Proof. exact two_kinds. Qed.
Print Assumptions C55_shared.
(** and both do; such a word is first taken for a cloud group, and for a vicinity group once that
    is invalidated. *)
Theorem C55_shared_order :
  forall (word : string) (part : ReportPart) (md : ReportMetadata), shared part word ->
    (exists c, CloudGroup_parse word part md = Ok (Some c) /\ GroupParser_parse word part md = Ok (GCloud c))
    /\ (exists v, VicinityGroup_parse word part md = Ok (Some v)
          /\ forall c, GroupParser_reparse word part md (GCloud c) = Ok (GVicinity v)).
Proof. exact both_kinds_read. Qed.
Print Assumptions C55_shared_order.

Example C55_nonvacuous :
  (exists g, alternative GWind WindGroup_parse "24010KT" RP_METAR md_default = Ok (Some g))
  /\ In (alternative GWind WindGroup_parse) alternatives /\ ~ shared RP_METAR "24010KT"
  /\ Permutation (rev alternatives) alternatives
  /\ shared RP_RMK "FG".
Proof.
  split; [eexists; vm_compute; reflexivity|]. split; [right; right; right; right; left; reflexivity|].
  split; [intros [E _]; discriminate E|]. split; [apply Permutation_sym, Permutation_rev|]. split; [reflexivity|left; reflexivity].
Qed.
