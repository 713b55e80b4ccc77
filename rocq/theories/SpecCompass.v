(** Specification for the texts of directions (C73): the points of the compass and their names. *)
From Coq Require Import NArith List String Bool.
From Verif Require Import Values SpecDirection.
Import ListNotations.
Local Open Scope string_scope.
Local Open Scope N_scope.

(** The directions in the middle of the octants, and their names *)
Definition compass : list (N * string) :=
  [(360, "north"); (45, "northeast"); (90, "east"); (135, "southeast"); (180, "south"); (225, "southwest"); (270, "west");
   (315, "northwest")].
(** The four points told apart from their octants *)
Definition main_point (d : N) : bool := (d =? 360) || (d =? 90) || (d =? 180) || (d =? 270).
(** The name of the octant of a direction, with "true" for exactly north, east, south or west where it is asked for *)
Definition named (exactly : bool) (degrees : N) (name : string) : Prop :=
  exists d n, In (d, n) compass /\ 2 * angle degrees d < 45
    /\ name = if exactly && main_point degrees then "true " ++ n else n.
