(** Specification for C77: the kinds of groups whose validity does not depend on further words. *)
From Coq Require Import List String.
From Verif Require Import Prim Values Weather Groups1 Groups2 Groups3 Groups4 Parser.

(** Groups of clouds and of lightning *)
Definition clouds_or_lightning (g : Group) : bool :=
  match g with GCloud _ | GLightning _ => true | _ => false end.

(** The word begins a group in remarks which is valid although it does not stay if the report ends there *)
Definition waits_but_valid (word : string) : Prop :=
  exists g g', GroupParser_parse word RP_RMK md_default = Ok g /\ Group_isValid g = Ok true
    /\ Group_append g ""%string RP_RMK md_default = Ok (g', GROUP_INVALIDATED).
