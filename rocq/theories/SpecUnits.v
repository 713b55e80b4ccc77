(** Specification for C27, C43 and C44: units of measurement and the conversions between them. *)
From Coq Require Import ZArith NArith QArith Qabs.
From Verif Require Import Float Values SpecReal.

(** The value is within the fraction [eps] of [q] *)
Definition close_to (eps : Q) (x : flt) (q : Q) : Prop :=
  exists v, flt_value x = Some v /\ (Qabs (v - q) <= eps * Qabs q)%Q.
(** One number is not above the other *)
Definition not_above (x y : flt) : Prop :=
  exists a b, flt_value x = Some a /\ flt_value y = Some b /\ (a <= b)%Q.
(** A number of type float, neither very small nor very large *)
Definition plain_float (x : flt) : Prop :=
  valid_binary 24 128 x = true
  /\ exists q, flt_value x = Some q
     /\ (q == 0 \/ 1 # 1000000000 <= Qabs q <= 1000000000 # 1)%Q.

Local Open Scope Q_scope.
(** Metres in a unit of length: a statute mile is 1609.344 m, a foot is 0.3048 m *)
Definition metres_in (u : DistUnit) : Q :=
  match u with METERS => 1 | STATUTE_MILES => 1609344 # 1000 | FEET => 3048 # 10000 end.
Definition wave_metres_in (u : WhUnit) : Q :=
  match u with Wh_METERS => 1 | Wh_FEET => 3048 # 10000 end.
(** Metres per hour in a unit of speed; a nautical mile is 1852 m *)
Definition metres_per_hour_in (u : SpeedUnit) : Q :=
  match u with
  | KNOTS => 1852 # 1
  | METERS_PER_SECOND => 3600 # 1
  | KILOMETERS_PER_HOUR => 1000 # 1
  | MILES_PER_HOUR => 1609344 # 1000
  end.
(** Pascals in a unit of pressure *)
Definition pascals_in (u : PressureUnit) : Q :=
  match u with
  | HECTOPASCAL => 100 # 1
  | INCHES_HG => 3386389 # 1000
  | MM_HG => 133322387 # 1000000
  end.
(** Millimetres in a unit of depth *)
Definition millimetres_in (u : PrecipUnit) : Q :=
  match u with MM => 1 | INCHES => 254 # 10 end.

(** A quantity [q] of a unit that is [a] of something, in the unit that is [b] of the same *)
Definition converted (q a b : Q) : Q := q * a / b.

(** A distance is stored as a number of metres, of feet or of 1/10000 of a mile *)
Definition stored (n : N) (u : DistUnit) : Q :=
  match u with STATUTE_MILES => parts n 10000 | _ => parts n 1 end.
(** A temperature is stored as a number of degrees Celsius, or of tenths of a degree if it is precise *)
Definition degrees_of (t : Temperature) (z : Z) : Q := z # (if precise t then 10 else 1).
(** A temperature given in degrees Celsius, in either scale *)
Definition in_scale (u : TempUnit) (q : Q) : Q :=
  match u with Temp_C => q | Temp_F => q * (9 # 5) + 32 end.

(** *** Miles as whole miles and a fraction *)
Definition sixteenths_of (f : MilesFraction) : N :=
  match f with
  | F_NONE => 0 | F_1_16 => 1 | F_1_8 => 2 | F_3_16 => 3 | F_1_4 => 4 | F_5_16 => 5 | F_3_8 => 6
  | F_1_2 => 8 | F_5_8 => 10 | F_3_4 => 12 | F_7_8 => 14
  end%N.
(** A stored distance in sixteenths of a mile *)
Definition sixteenths (n : N) (u : DistUnit) : Q :=
  16 * converted (stored n u) (metres_in u) (metres_in STATUTE_MILES).
(** The values documented for miles(), in sixteenths of a mile: by 1/16 up to 3/8, by 1/8 from 1/2
    to 1 7/8, by 1/4 from 2 to 2 3/4, by 1 from 3 to 15, and by 5 above. *)
Definition reportable (r : N) : Prop :=
  (r <= 6 \/ 8 <= r < 32 /\ N.divide 2 r \/ 32 <= r < 48 /\ N.divide 4 r
   \/ 48 <= r <= 240 /\ N.divide 16 r \/ 240 <= r /\ N.divide 80 r)%N.
(** [r] sixteenths of a mile present a distance of [q] sixteenths: [r] is the highest reportable
    value not above the number of sixteenths nearest to the distance. *)
Definition presents (r : N) (q : Q) : Prop :=
  reportable r
  /\ exists k, Qabs (parts k 1 - q) <= (1 # 2) + q * (1 # 50000)
     /\ (r <= k)%N /\ forall r', reportable r' -> (r' <= k)%N -> (r' <= r)%N.

(** *** Heat index and wind chill *)
(** What is asked of the C library function pow: finite results of a moderate size where the code
    uses it. *)
Definition pow_sane (pow : flt -> flt -> flt) : Prop :=
  (forall x a, valid_binary 53 1024 x = true -> flt_value x = Some a -> 1 <= a <= 20000 # 1 ->
     exists b, valid_binary 53 1024 (pow x (dlit 16 100)) = true
       /\ flt_value (pow x (dlit 16 100)) = Some b /\ 0 <= b <= 20000 # 1)
  /\ (forall y c, valid_binary 53 1024 y = true -> flt_value y = Some c -> -10 # 1 <= c <= 10 # 1 ->
     exists b, valid_binary 53 1024 (pow (f64_of_Z 10) y) = true
       /\ flt_value (pow (f64_of_Z 10) y) = Some b /\ 1 # 100000000000 <= b <= 100000000000 # 1).

(** A temperature read from the text of a report *)
Definition temperature_text (s : String.string) (t : Temperature) : Prop :=
  Temperature_fromString s = Prim.Ok (Some t) \/ Temperature_fromRemarkString s = Prim.Ok (Some t).
