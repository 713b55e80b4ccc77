(** Specification for C55: words of the remarks that open groups of two kinds. *)
From Verif Require Import Prim Groups1.
Local Open Scope string_scope.

(** An obscuration, followed by the amount and height of its layer, or a phenomenon in the vicinity,
    followed by its distance or direction. *)
Definition shared_words : list string := ["FG"; "FU"; "BLSN"; "BLDU"; "BLSA"].
Definition shared (part : ReportPart) (word : string) : Prop := part = RP_RMK /\ In word shared_words.
