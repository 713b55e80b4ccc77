(** C77: a group which waits for more words is not valid. *)
From Coq Require Import List String.
From Verif Require Import Prim Values Weather Groups1 Groups2 Groups3 Groups4 Parser SpecWaiting Pf_Waiting.
Local Open Scope string_scope.

(** If any word, or the end of the report (the empty word), shows that the group is not what it seemed to be, then the group was
    not valid before. *)
Theorem C77_waiting_is_not_valid_partial :
  forall (g : Group) (word : string) (part : ReportPart) (md : ReportMetadata) (g' : Group),
    Group_append g word part md = Ok (g', GROUP_INVALIDATED) -> clouds_or_lightning g = false ->
    Group_isValid g = Ok false.
Proof. exact waiting_invalid. Qed.
Print Assumptions C77_waiting_is_not_valid_partial.

(** Missing: groups of clouds and lightning, which are valid while they wait. *)
Theorem C77_waiting_is_not_valid_refuted : waits_but_valid "CLD" /\ waits_but_valid "CIG" /\ waits_but_valid "OCNL".
Proof. exact waiting_refuted. Qed.
Print Assumptions C77_waiting_is_not_valid_refuted.

(** A case of the hypotheses for each kind of group which may wait. *)
Example C77_nonvacuous :
  Forall (fun word => exists g g', GroupParser_parse word RP_RMK md_default = Ok g
      /\ Group_append g "" RP_RMK md_default = Ok (g', GROUP_INVALIDATED) /\ clouds_or_lightning g = false)
    ("PK" :: "VIS" :: "WX" :: "T" :: "PRES" :: "PCPN" :: "TCU" :: "GR" :: nil).
Proof. repeat (apply Forall_cons; [eexists _, _; repeat split; vm_compute; reflexivity|]); apply Forall_nil. Qed.
