(** Specification for C28 and C29: the eight octants of the compass rose, clockwise from north. *)
From Coq Require Import NArith List Arith String.
From Verif Require Import Values.
Import ListNotations.
Local Open Scope N_scope.

Definition octants : list (Cardinal * N) :=
  [(Cd_N, 360); (Cd_NE, 45); (Cd_E, 90); (Cd_SE, 135); (Cd_S, 180); (Cd_SW, 225); (Cd_W, 270); (Cd_NW, 315)].
(** The angle between two directions in degrees, 0 to 180 *)
Definition angle (a b : N) : N :=
  let d := if a <=? b then b - a else a - b in
  let r := d mod 360 in if r <=? 180 then r else 360 - r.
(** Octant number [i] clockwise from north *)
Definition octant (i : nat) : Cardinal * N := nth (i mod 8) octants (Cd_N, 360).
(** The octants passed when turning clockwise from number [i] to number [j], both included *)
Definition clockwise (i j : nat) : list (Cardinal * N) :=
  map (fun k => octant (i + k)) (seq 0 (S ((j + 8 - i) mod 8))).
(** The names of the octants in reports *)
Definition octant_names : list (String.string * (Cardinal * N)) :=
  [("N", (Cd_N, 360)); ("NE", (Cd_NE, 45)); ("E", (Cd_E, 90)); ("SE", (Cd_SE, 135)); ("S", (Cd_S, 180));
   ("SW", (Cd_SW, 225)); ("W", (Cd_W, 270)); ("NW", (Cd_NW, 315))]%string.
