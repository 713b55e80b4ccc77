(** Proof of C38: no coefficient of friction. *)
From Coq Require Import List String NArith.
From Verif Require Import Prim Values.
Import ListNotations.
Local Open Scope string_scope.

Lemma friction_none : forall s f, SurfaceFriction_fromString s = Ok (Some f) -> s = "//" \/ s = "99" ->
  SurfaceFriction_coefficient f = None /\ SurfaceFriction_brakingAction f = BA_NONE.
Proof. intros s f H [-> | ->]; vm_compute in H; injection H as <-; split; reflexivity. Qed.
