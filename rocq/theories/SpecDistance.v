(** Vocabulary of C102: distances on a sphere. *)
From Coq Require Import Reals.
Local Open Scope R_scope.

(** The point of the unit sphere at a latitude and longitude in degrees *)
Definition radians (degrees : R) : R := degrees * PI / 180.
Definition px (p : R * R) : R := cos (radians (fst p)) * cos (radians (snd p)).
Definition py (p : R * R) : R := cos (radians (fst p)) * sin (radians (snd p)).
Definition pz (p : R * R) : R := sin (radians (fst p)).
(** The angle between two points, seen from the centre *)
Definition central_angle (p q : R * R) (a : R) : Prop :=
  0 <= a <= PI /\ cos a = px p * px q + py p * py q + pz p * pz q.
(** The mean radius of the earth in kilometers, and the great-circle distance of two points *)
Definition earth_radius : R := 63710088 / 10000.
Definition great_circle (p q : R * R) (km : R) : Prop := exists a, central_angle p q a /\ km = earth_radius * a.
(** A mile in kilometers *)
Definition mile : R := 1609344 / 1000000.
