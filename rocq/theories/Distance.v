(** The distances of aerodromes on the page examples/shellfiles/summary_shell.html. Simplified: numbers of JavaScript are real numbers
    here, so that the errors of rounding are left out. *)
From Coq Require Import String ZArith Reals.
From Verif Require Import Prim Page.
Local Open Scope string_scope.
Local Open Scope R_scope.

(** The operators == and > on numbers *)
Definition js_equal (a b : R) : bool := if Req_EM_T a b then true else false.
Definition js_greater (a b : R) : bool := if Rgt_dec a b then true else false.
(** summary_shell.html:85-107, on numbers *)
Definition distance_of_numbers (lat1 lon1 lat2 lon2 : R) : R :=
  if js_equal lat1 lat2 && js_equal lon1 lon2 then 0 else
  let radlat1 := PI * lat1 / 180 in
  let radlat2 := PI * lat2 / 180 in
  let theta := lon1 - lon2 in
  let radtheta := PI * theta / 180 in
  let dist := sin radlat1 * sin radlat2 + cos radlat1 * cos radlat2 * cos radtheta in
  let dist := if js_greater dist 1 then 1 else dist in
  let kmPerMile := 1609344 / 1000000 in
  let dist := acos dist in
  let dist := dist * 180 / PI in
  dist * 60 * (11515 / 10000) * kmPerMile.

(** The same for the texts of the elements latitude and longitude, or undefined, and the position, as it is called in lines 1018-1046;
    [None] is NaN. [number] is the conversion of texts to numbers, which the operators do. A NaN makes the result a NaN. *)
Definition station_distance (number : string -> option R) (pos : R * R) (lat lon : option string) : option R :=
  match lat, lon with
  | Some lat, Some lon =>
    match number lat, number lon with
    | Some lat1, Some lon1 => Some (distance_of_numbers lat1 lon1 (fst pos) (snd pos))
    | _, _ => None
    end
  | _, _ => None
  end.

(** Math.round: the nearest whole number, the greater one of two *)
Definition Math_round (x : R) : Z := Int_part (x + / 2).
(** summary_shell.html:912-915 *)
Definition distance_text (imperialUnits : bool) (distKm : option R) : string :=
  let milesPerKm := 1609344 / 1000000 in
  match distKm with
  | Some d => if imperialUnits then js_int (Math_round (d / milesPerKm)) ++ " miles" else js_int (Math_round d) ++ " km"
  | None => if imperialUnits then "NaN miles" else "NaN km"
  end.
(** summary_shell.html:1113-1114: the position, to a hundredth of a degree *)
Definition rounded_position (pos : R * R) : R * R :=
  (IZR (Math_round (fst pos * 100)) / 100, IZR (Math_round (snd pos * 100)) / 100).
