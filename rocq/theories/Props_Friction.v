(** C38: friction which is not reported or unreliable. *)
From Coq Require Import List String NArith.
From Verif Require Import Prim Values Pf_Friction.
Import ListNotations.
Local Open Scope string_scope.

(** ** C38 *)

(** Friction which is not reported or unreliable has no coefficient and no braking action. *)
Theorem C38_none :
  forall (s : string) (f : SurfaceFriction),
    SurfaceFriction_fromString s = Ok (Some f) -> s = "//" \/ s = "99" ->
    SurfaceFriction_coefficient f = None /\ SurfaceFriction_brakingAction f = BA_NONE.
Proof. exact friction_none. Qed.
Print Assumptions C38_none.
Example C38_none_nonvacuous :
  SurfaceFriction_fromString "99" = Ok (Some (mkSf Sf_UNRELIABLE 0)) /\ SurfaceFriction_fromString "//" = Ok (Some (mkSf Sf_NOT_REPORTED 0)).
Proof. split; vm_compute; reflexivity. Qed.
