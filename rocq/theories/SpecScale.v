(** Specification for C36-C38: how amounts in remarks are scaled, and how classes are ordered. *)
From Coq Require Import NArith PArith String List.
From Verif Require Import Values Groups3.
Import ListNotations.
Local Open Scope string_scope.

(** What part of the unit one step of the reported amount is: a tenth for snowfall, water equivalent
    and accumulated precipitation; a hundredth for other precipitation and for ice; otherwise one. *)
Definition amount_step (t : PcType) : positive :=
  match t with
  | Pc_WATER_EQUIV_OF_SNOW_ON_GROUND | Pc_SNOW_6_HOURLY | Pc_PRECIPITATION_ACCUMULATION_SINCE_LAST_REPORT => 10
  | Pc_TOTAL_PRECIPITATION_HOURLY | Pc_FROZEN_PRECIP_3_OR_6_HOURLY | Pc_FROZEN_PRECIP_3_HOURLY
  | Pc_FROZEN_PRECIP_6_HOURLY | Pc_FROZEN_PRECIP_24_HOURLY | Pc_ICE_ACCRETION_FOR_LAST_HOUR
  | Pc_ICE_ACCRETION_FOR_LAST_3_HOURS | Pc_ICE_ACCRETION_FOR_LAST_6_HOURS => 100
  | _ => 1
  end.
(** Millimetres are used for the accumulated precipitation only. *)
Definition amount_unit (t : PcType) : PrecipUnit :=
  match t with Pc_PRECIPITATION_ACCUMULATION_SINCE_LAST_REPORT => MM | _ => INCHES end.

(** Depth of deposits on a runway in mm by code: 00 to 90 as is, 92 to 98 for 10 to 40 cm *)
Definition deposit_depth (code : N) : option N :=
  match code with
  | 92 => Some 100 | 93 => Some 150 | 94 => Some 200 | 95 => Some 250 | 96 => Some 300 | 97 => Some 350
  | 98 => Some 400 | 99 => None
  | v => Some v
  end%N.

(** Sea states from calm to phenomenal *)
Definition sea_states : list (string * StateOfSurface) :=
  [("S0", SS_CALM_GLASSY); ("S1", SS_CALM_RIPPLED); ("S2", SS_SMOOTH); ("S3", SS_SLIGHT); ("S4", SS_MODERATE);
   ("S5", SS_ROUGH); ("S6", SS_VERY_ROUGH); ("S7", SS_HIGH); ("S8", SS_VERY_HIGH); ("S9", SS_PHENOMENAL)].
Definition sea_rank (s : StateOfSurface) : nat :=
  match s with
  | SS_NOT_REPORTED => 0 | SS_CALM_GLASSY => 1 | SS_CALM_RIPPLED => 2 | SS_SMOOTH => 3 | SS_SLIGHT => 4
  | SS_MODERATE => 5 | SS_ROUGH => 6 | SS_VERY_ROUGH => 7 | SS_HIGH => 8 | SS_VERY_HIGH => 9 | SS_PHENOMENAL => 10
  end.
(** Braking action from poor to good *)
Definition braking_codes : list (string * BrakingAction) :=
  [("91", BA_POOR); ("92", BA_MEDIUM_POOR); ("93", BA_MEDIUM); ("94", BA_MEDIUM_GOOD); ("95", BA_GOOD)].
Definition braking_rank (b : BrakingAction) : nat :=
  match b with
  | BA_NONE => 0 | BA_POOR => 1 | BA_MEDIUM_POOR => 2 | BA_MEDIUM => 3 | BA_MEDIUM_GOOD => 4 | BA_GOOD => 5
  end.
