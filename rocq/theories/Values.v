(** Value classes of metaf.hpp: Runway, MetafTime, Temperature, Speed, Distance, Direction,
    Pressure, Precipitation, SurfaceFriction, WaveHeight. Definitions only. *)

From Verif Require Import Prim Regex Float.
Local Open Scope string_scope.
Local Open Scope N_scope.

(* ------------------------------------------------------------------ *)
(** ** Runway (metaf.hpp 89-127, 2557-2585) *)

Inductive RwDesignator := Rw_NONE | Rw_LEFT | Rw_CENTER | Rw_RIGHT.
Scheme Equality for RwDesignator.

(** 89-127 *)
Record Runway := mkRunway { rNumber : N; rDesignator : RwDesignator }.
Definition Runway_default : Runway := mkRunway 0 Rw_NONE.                (* 111, 122-123 *)
Definition Runway_makeAllRunways : Runway := mkRunway 88 Rw_NONE.        (* 113-117 *)
Definition Runway_isAllRunways (r : Runway) : bool :=                    (* 104-106 *)
  (rNumber r =? 88) && RwDesignator_beq (rDesignator r) Rw_NONE.
Definition Runway_isMessageRepetition (r : Runway) : bool :=             (* 107-109 *)
  (rNumber r =? 99) && RwDesignator_beq (rDesignator r) Rw_NONE.
Definition Runway_isValid (r : Runway) : bool :=                         (* 99-103 *)
  (rNumber r <=? 36) || Runway_isAllRunways r || Runway_isMessageRepetition r.

(** 2578-2585 *)
Definition Runway_designatorFromChar (c : ascii) : option RwDesignator :=
  if Ascii.eqb c "R" then Some Rw_RIGHT
  else if Ascii.eqb c "C" then Some Rw_CENTER
  else if Ascii.eqb c "L" then Some Rw_LEFT
  else None.

(** 2557-2576 *)
Definition Runway_fromString (s : string) (enableRwy : bool) : res (option Runway) :=
  if Nat.ltb (slen s) 3 then Ok None else
  let! c0 := sget s 0 in
  if negb (Ascii.eqb c0 "R") then Ok None else
  let! c1 := sget s 1 in
  let! c2 := sget s 2 in
  let numPos := if enableRwy && Ascii.eqb c1 "W" && Ascii.eqb c2 "Y" then 3%nat else 1%nat in
  let? rwyNum := strToUint s numPos 2 in
  let dsgPos := (numPos + 2)%nat in
  if Nat.ltb (dsgPos + 1) (slen s) then Ok None else
  if Nat.ltb dsgPos (slen s) then
    let! d := sget s dsgPos in
    match Runway_designatorFromChar d with
    | None => Ok None
    | Some dsg => Ok (Some (mkRunway rwyNum dsg))
    end
  else Ok (Some (mkRunway rwyNum Rw_NONE)).

(* ------------------------------------------------------------------ *)
(** ** MetafTime (129-165, 2589-2664) *)

Record MetafTime := mkTime { dayValue : option N; hourValue : N; minuteValue : N }.
Definition MetafTime_default : MetafTime := mkTime None 0 0.             (* 146, 157-159 *)

Record Date := mkDate { date_year : N; date_month : N; date_day : N }.   (* 131-137 *)

(** 2589-2594 *)
Definition MetafTime_is3hourlyReportTime (t : MetafTime) : bool :=
  existsb (N.eqb (hourValue t)) [2; 3; 8; 9; 14; 15; 20; 21].
(** 2596-2601 *)
Definition MetafTime_is6hourlyReportTime (t : MetafTime) : bool :=
  existsb (N.eqb (hourValue t)) [0; 5; 6; 11; 12; 17; 18; 23].

(** 2603-2618; unsigned decrement wraps modulo 2^32 *)
Definition u32_dec (x : N) : N := u32 (x + 4294967295).
Definition MetafTime_dateBeforeRef (t : MetafTime) (ref : Date) : Date :=
  match dayValue t with
  | None => ref
  | Some d =>
    if date_day ref <? d then
      if date_month ref =? 1
      then mkDate (u32_dec (date_year ref)) 12 d
      else mkDate (date_year ref) (u32_dec (date_month ref)) d
    else mkDate (date_year ref) (date_month ref) d
  end.

(** 2620-2644 *)
Definition MetafTime_fromStringDDHHMM (s : string) : res (option MetafTime) :=
  if Nat.eqb (slen s) 4 then
    let! hour := strToUint s 0 2 in
    let! minute := strToUint s 2 2 in
    match hour, minute with
    | Some h, Some m => Ok (Some (mkTime None h m))
    | _, _ => Ok None
    end
  else if Nat.eqb (slen s) 6 then
    let! day := strToUint s 0 2 in
    let! hour := strToUint s 2 2 in
    let! minute := strToUint s 4 2 in
    match day, hour, minute with
    | Some d, Some h, Some m => Ok (Some (mkTime (Some d) h m))
    | _, _, _ => Ok None
    end
  else Ok None.

(** 2646-2657 *)
Definition MetafTime_fromStringDDHH (s : string) : res (option MetafTime) :=
  if negb (Nat.eqb (slen s) 4) then Ok None else
  let! day := strToUint s 0 2 in
  let! hour := strToUint s 2 2 in
  match day, hour with
  | Some d, Some h => Ok (Some (mkTime (Some d) h 0))
  | _, _ => Ok None
  end.

(** 2659-2664 *)
Definition MetafTime_isValid (t : MetafTime) : bool :=
  let d := match dayValue t with Some d => d | None => 31 end in
  if (31 <? d) || (d =? 0) then false
  else if 24 <? hourValue t then false
  else if 59 <? minuteValue t then false
  else true.

(* ------------------------------------------------------------------ *)
(** ** Speed (208-233, 2794-2864) *)

Inductive SpeedUnit := KNOTS | METERS_PER_SECOND | KILOMETERS_PER_HOUR | MILES_PER_HOUR.
Scheme Equality for SpeedUnit.

Record Speed := mkSpeed { speedValue : option N; speedUnit : SpeedUnit }.
Definition Speed_default : Speed := mkSpeed None KNOTS.                  (* 221, 226-227 *)
Definition Speed_isReported (s : Speed) : bool := has_value (speedValue s).  (* 219 *)

(** 2794-2806 *)
Definition Speed_fromString (s : string) (unit : SpeedUnit) : res (option Speed) :=
  if sempty s || seqb s "//" then Ok (Some Speed_default) else
  if negb (Nat.eqb (slen s) 2) && negb (Nat.eqb (slen s) 3) then Ok None else
  let! c0 := sget s 0 in
  if Nat.eqb (slen s) 3 && Ascii.eqb c0 "0" then Ok None else
  let? spd := strToUint s 0 (slen s) in
  Ok (Some (mkSpeed (Some spd) unit)).

(** 2819-2824 *)
Definition Speed_unitFromString (s : string) : option SpeedUnit :=
  if seqb s "KT" then Some KNOTS
  else if seqb s "MPS" then Some METERS_PER_SECOND
  else if seqb s "KMH" then Some KILOMETERS_PER_HOUR
  else None.

(** float parameter times/divided by a double literal, returned as float *)
Definition fmul_d (v lit : flt) : flt := to32 (f64_mul (to64 v) lit).
Definition fdiv_d (v lit : flt) : flt := to32 (f64_div (to64 v) lit).

(** 2826-2834 *)
Definition Speed_knotsToUnit (v : flt) (u : SpeedUnit) : option flt :=
  match u with
  | KNOTS => Some v
  | METERS_PER_SECOND => Some (fmul_d v (dlit 514444 1000000))
  | KILOMETERS_PER_HOUR => Some (fmul_d v (dlit 1852 1000))
  | MILES_PER_HOUR => Some (fmul_d v (dlit 1150779 1000000))
  end.
(** 2836-2844 *)
Definition Speed_mpsToUnit (v : flt) (u : SpeedUnit) : option flt :=
  match u with
  | KNOTS => Some (fmul_d v (dlit 1943844 1000000))
  | METERS_PER_SECOND => Some v
  | KILOMETERS_PER_HOUR => Some (fmul_d v (dlit 36 10))
  | MILES_PER_HOUR => Some (fmul_d v (dlit 2236936 1000000))
  end.
(** 2846-2854 *)
Definition Speed_kmhToUnit (v : flt) (u : SpeedUnit) : option flt :=
  match u with
  | KNOTS => Some (fdiv_d v (dlit 1852 1000))
  | METERS_PER_SECOND => Some (fdiv_d v (dlit 36 10))
  | KILOMETERS_PER_HOUR => Some v
  | MILES_PER_HOUR => Some (fmul_d v (dlit 621371 1000000))
  end.
(** 2856-2864 *)
Definition Speed_mphToUnit (v : flt) (u : SpeedUnit) : option flt :=
  match u with
  | KNOTS => Some (fmul_d v (dlit 868976 1000000))
  | METERS_PER_SECOND => Some (fmul_d v (dlit 44704 100000))
  | KILOMETERS_PER_HOUR => Some (fmul_d v (dlit 1609344 1000000))
  | MILES_PER_HOUR => Some v
  end.
(** 2808-2817 *)
Definition Speed_toUnit (s : Speed) (u : SpeedUnit) : option flt :=
  match speedValue s with
  | None => None
  | Some v =>
    let f := f32_of_N v in
    match speedUnit s with
    | KNOTS => Speed_knotsToUnit f u
    | METERS_PER_SECOND => Speed_mpsToUnit f u
    | KILOMETERS_PER_HOUR => Speed_kmhToUnit f u
    | MILES_PER_HOUR => Speed_mphToUnit f u
    end
  end.

(* ------------------------------------------------------------------ *)
(** ** Temperature (169-206, 2668-2790) *)

Inductive TempUnit := Temp_C | Temp_F.

Record Temperature := mkTemp { tempValue : option Z; freezing : bool; precise : bool }.
Definition Temperature_default : Temperature := mkTemp None false false.  (* 195, 201-204 *)
Definition Temperature_isReported (t : Temperature) : bool := has_value (tempValue t). (* 184 *)

(** 175-179, preciseValuePrecision (float) 0.1 at 205 *)
Definition Temperature_temperature (t : Temperature) : option flt :=
  match tempValue t with
  | None => None
  | Some v => Some (if precise t then f32_mul (f32_of_Z v) (flit 1 10) else f32_of_Z v)
  end.

(** 2668-2669: Temperature(float value); float -> int conversion may be undefined behaviour *)
Definition Temperature_ofFloat (value : flt) : res Temperature :=
  let! z := round_to_int (f64_mul (to64 value) (f64_of_Z 10)) in
  Ok (mkTemp (Some z) (flt_ltb value (S754_zero false)) true).

(** 2747-2768 *)
Definition Temperature_fromString (s : string) : res (option Temperature) :=
  if seqb s "//" then Ok (Some Temperature_default) else
  if Nat.eqb (slen s) 3 then
    let! c0 := sget s 0 in
    if negb (Ascii.eqb c0 "M") then Ok None else
    let? t := strToUint s 1 2 in
    Ok (Some (mkTemp (Some (i32_of_u32 (u32_neg t))) true false))
  else if Nat.eqb (slen s) 2 then
    let? t := strToUint s 0 2 in
    Ok (Some (mkTemp (Some (i32_of_u32 t)) false false))
  else Ok None.

(** 2770-2780 *)
Definition Temperature_fromRemarkString (s : string) : res (option Temperature) :=
  if negb (Nat.eqb (slen s) 4) then Ok None else
  let! c0 := sget s 0 in
  if negb (Ascii.eqb c0 "0") && negb (Ascii.eqb c0 "1") then Ok None else
  let? t := strToUint s 1 3 in
  let tv := i32_of_u32 t in
  let tValueSigned := if Ascii.eqb c0 "1" then Z.opp tv else tv in
  let! r := Temperature_ofFloat (to32 (f64_div (f64_of_Z tValueSigned) (f64_of_Z 10))) in
  Ok (Some r).

(** 2782-2790; tempUnit is always C *)
Definition Temperature_toUnit (t : Temperature) (u : TempUnit) : option flt :=
  match Temperature_temperature t with
  | None => None
  | Some v =>
    match u with
    | Temp_C => Some v
    | Temp_F => Some (to32 (f64_add (f64_mul (to64 v) (dlit 18 10)) (f64_of_Z 32)))
    end
  end.

(** The C library function pow is a parameter [pow] : double -> double -> double. *)
(** 2671-2686 *)
Definition Temperature_relativeHumidity (pow : flt -> flt -> flt)
  (air dew : Temperature) : option flt :=
  match Temperature_toUnit air Temp_C, Temperature_toUnit dew Temp_C with
  | Some t, Some d =>
    if flt_ltb t d then Some (f32_of_Z 100) else
    let svp x := f64_mul (dlit 611 100)
                   (pow (f64_of_Z 10)
                        (f64_div (f64_mul (dlit 75 10) (to64 x))
                                 (f64_add (dlit 2377 10) (to64 x)))) in
    Some (to32 (f64_div (f64_mul (f64_of_Z 100) (svp d)) (svp t)))
  | _, _ => None
  end.

(** 2688-2717 *)
Definition Temperature_heatIndexRH (air : Temperature) (rh : flt) : res Temperature :=
  match Temperature_toUnit air Temp_C with
  | None => Ok Temperature_default
  | Some tc =>
    if flt_ltb tc (f64_of_Z 27) then Ok Temperature_default else
    if flt_ltb (f64_of_Z 100) rh || flt_ltb rh (f64_of_Z 40) then Ok Temperature_default else
    let c1 := dlit (-878469475556) 100000000000 in
    let c2 := dlit 161139411 100000000 in
    let c3 := dlit 233854883889 100000000000 in
    let c4 := dlit (-14611605) 100000000 in
    let c5 := dlit (-12308094) 1000000000 in
    let c6 := dlit (-164248277778) 10000000000000 in
    let c7 := dlit 2211732 1000000000 in
    let c8 := dlit 72546 100000000 in
    let c9 := dlit (-3582) 1000000000 in
    let t := to64 tc in
    let r := to64 rh in
    let m := f64_mul in
    let p := f64_add in
    let sum := p (p (p (p (p (p (p (p c1 (m c2 t)) (m c3 r)) (m (m c4 t) r))
                 (m (m c5 t) t)) (m (m c6 r) r)) (m (m (m c7 t) t) r))
                 (m (m (m c8 t) r) r)) (m (m (m (m c9 t) t) r) r) in
    Temperature_ofFloat (to32 sum)
  end.

(** 2719-2726 *)
Definition Temperature_heatIndexDP (pow : flt -> flt -> flt) (air dew : Temperature)
  : res Temperature :=
  match Temperature_relativeHumidity pow air dew with
  | None => Ok Temperature_default
  | Some rh => Temperature_heatIndexRH air rh
  end.

(** 2728-2745 *)
Definition Temperature_windChill (pow : flt -> flt -> flt) (air : Temperature) (wind : Speed)
  : res Temperature :=
  match Temperature_toUnit air Temp_C with
  | None => Ok Temperature_default
  | Some tc =>
    if flt_ltb (f64_of_Z 10) tc then Ok Temperature_default else
    match Speed_toUnit wind KILOMETERS_PER_HOUR with
    | None => Ok Temperature_default
    | Some wk =>
      if flt_ltb wk (dlit 48 10) then Ok Temperature_default else
      let t := to64 tc in
      let pw := pow (to64 wk) (dlit 16 100) in
      let sum := f64_add
                   (f64_sub
                     (f64_add (dlit 1312 100) (f64_mul (dlit 6215 10000) t))
                     (f64_mul (dlit 1137 100) pw))
                   (f64_mul (f64_mul (dlit 3965 10000) t) pw) in
      Temperature_ofFloat (to32 sum)
    end
  end.

(* ------------------------------------------------------------------ *)
(** ** Distance (235-319, 2868-3177) *)

Inductive DistUnit := METERS | STATUTE_MILES | FEET.
Scheme Equality for DistUnit.
Inductive DistModifier := DM_NONE | DM_LESS_THAN | DM_MORE_THAN | DM_DISTANT | DM_VICINITY.
Scheme Equality for DistModifier.
Inductive MilesFraction := F_NONE | F_1_16 | F_1_8 | F_3_16 | F_1_4 | F_5_16 | F_3_8 | F_1_2
| F_5_8 | F_3_4 | F_7_8.
Scheme Equality for MilesFraction.

Record Distance := mkDist { distModifier : DistModifier; dist : option N; distUnit : DistUnit }.
Definition Distance_default : Distance := mkDist DM_NONE None METERS.    (* 276, 299-301 *)
Definition statuteMileFactor : N := 10000.                               (* 305 *)
Definition heightFactor : N := 100.                                      (* 307 *)
Definition layerDepthFactor : N := 1000.                                 (* 313 *)

(** 277-278 *)
Definition Distance_of (d : N) (u : DistUnit) : Distance :=
  mkDist DM_NONE
    (Some (u32 (d * (if DistUnit_beq u STATUTE_MILES then statuteMileFactor else 1)))) u.
(** 279-283 *)
Definition Distance_ofFraction (numerator denominator : N) : Distance :=
  if denominator =? 0 then Distance_default
  else mkDist DM_NONE (Some (u32 (numerator * statuteMileFactor) / denominator)) STATUTE_MILES.
(** 284 *)
Definition Distance_ofUnit (u : DistUnit) : Distance := mkDist DM_NONE None u.

Definition Distance_isValue (d : Distance) : bool := has_value (dist d). (* 265 *)
Definition Distance_isReported (d : Distance) : bool :=                  (* 266-270 *)
  Distance_isValue d || DistModifier_beq (distModifier d) DM_DISTANT
  || DistModifier_beq (distModifier d) DM_VICINITY.

(** 3125-3129 *)
Definition Distance_modifierFromChar (c : ascii) : option DistModifier :=
  if Ascii.eqb c "M" then Some DM_LESS_THAN
  else if Ascii.eqb c "P" then Some DM_MORE_THAN
  else None.

(** 2868-2885 *)
Definition Distance_fromMeterString (s : string) : res (option Distance) :=
  if negb (Nat.eqb (slen s) 4) then Ok None else
  if seqb s "////" then Ok (Some (mkDist DM_NONE None METERS)) else
  let? d := strToUint s 0 4 in
  if d =? 9999 then Ok (Some (mkDist DM_MORE_THAN (Some 10000) METERS))
  else Ok (Some (mkDist DM_NONE (Some d) METERS)).

(** 2887-2945 *)
Definition Distance_fromMileString (s : string) (remarkFormat : bool) : res (option Distance) :=
  let! early :=
    if negb remarkFormat then
      if Nat.ltb (slen s) 3 then Ok (Some None) else
      if seqb s "////SM" then Ok (Some (Some (mkDist DM_NONE None STATUTE_MILES))) else
      let! tail := substr s (slen s - 2) 2 in
      if negb (seqb tail "SM") then Ok (Some None) else Ok None
    else if Nat.ltb (slen s) 1 then Ok (Some None) else Ok None in
  match early with
  | Some r => Ok r
  | None =>
    let! c0 := sget s 0 in
    let modifier := Distance_modifierFromChar c0 in
    let dmod := match modifier with Some m => m | None => DM_NONE end in
    let skip := if has_value modifier then 1%nat else 0%nat in
    let bodyLength := (Z.of_nat (slen s) - (if remarkFormat then 0 else 2) - Z.of_nat skip)%Z in
    match sfind "/" s 0 with
    | None =>
      if (bodyLength <? 1)%Z || (2 <? bodyLength)%Z then Ok None else
      let? d := strToUint s skip (Z.to_nat bodyLength) in
      Ok (Some (mkDist dmod (Some (u32 (d * statuteMileFactor))) STATUTE_MILES))
    | Some _ =>
      let? fraction := fractionStrToUint s skip (Z.to_nat bodyLength) in
      let numerator := fst fraction in
      let denominator := snd fraction in
      if (numerator =? 0) || (denominator =? 0) then Ok None else
      let integer := if denominator <=? numerator then numerator / 10 else 0 in
      let numerator' := if denominator <=? numerator then numerator mod 10 else numerator in
      if numerator' =? 0 then Ok None else
      Ok (Some (mkDist dmod
        (Some (u32 (integer * statuteMileFactor + u32 (numerator' * statuteMileFactor) / denominator)))
        STATUTE_MILES))
    end
  end.

(** 2947-2958 *)
Definition Distance_fromHeightString (s : string) : res (option Distance) :=
  if negb (Nat.eqb (slen s) 3) then Ok None else
  if seqb s "///" then Ok (Some (mkDist DM_NONE None FEET)) else
  let? h := strToUint s 0 3 in
  Ok (Some (mkDist DM_NONE (Some (u32 (h * heightFactor))) FEET)).

(** 2960-2982 *)
Definition Distance_fromRvrString (s : string) (unitFeet : bool) : res (option Distance) :=
  let u := if unitFeet then FEET else METERS in
  if Nat.eqb (slen s) 4 then
    if seqb s "////" then Ok (Some (mkDist DM_NONE None u)) else
    let? d := strToUint s 0 4 in
    Ok (Some (mkDist DM_NONE (Some d) u))
  else if Nat.eqb (slen s) 5 then
    let! c0 := sget s 0 in
    match Distance_modifierFromChar c0 with
    | None => Ok None
    | Some m =>
      let? d := strToUint s 1 4 in
      Ok (Some (mkDist m (Some d) u))
    end
  else Ok None.

(** 2984-3000 *)
Definition Distance_fromLayerString (s : string) : res (option (Distance * Distance)) :=
  if negb (Nat.eqb (slen s) 4) then Ok None else
  let? h := strToUint s 0 3 in
  let? d := strToUint s 3 1 in
  Ok (Some (mkDist DM_NONE (Some (u32 (h * heightFactor))) FEET,
            mkDist DM_NONE (Some (u32 (h * heightFactor + d * layerDepthFactor))) FEET)).

(** 3002-3021 *)
Definition Distance_fromKmString (s : string) : res (option Distance) :=
  if negb (Nat.eqb (slen s) 3) && negb (Nat.eqb (slen s) 4) then Ok None else
  let numLen := (slen s - 2)%nat in
  let! tail := substr_from s numLen in
  if negb (seqb tail "KM") then Ok None else
  let? d := strToUint s 0 numLen in
  Ok (Some (mkDist DM_NONE (Some (u32 (d * 1000))) METERS)).

(** 3023-3044; Distance::isValid() is constantly true (274) *)
Definition Distance_fromIntegerAndFraction (integer fraction : Distance) : res (option Distance) :=
  if negb (DistModifier_beq (distModifier integer) DM_NONE) &&
     negb (DistModifier_beq (distModifier integer) DM_LESS_THAN) &&
     negb (DistModifier_beq (distModifier integer) DM_MORE_THAN) then Ok None else
  if negb (DistModifier_beq (distModifier fraction) DM_NONE) ||
     negb (DistUnit_beq (distUnit integer) STATUTE_MILES) ||
     negb (DistUnit_beq (distUnit fraction) STATUTE_MILES) ||
     negb (has_value (dist integer)) || negb (has_value (dist fraction)) then Ok None else
  let! i := deref (dist integer) in
  let! f := deref (dist fraction) in
  if negb (i mod statuteMileFactor =? 0) || (f mod statuteMileFactor =? 0) then Ok None else
  Ok (Some (mkDist (distModifier integer) (Some (u32 (i + f))) STATUTE_MILES)).

(** 3056-3061 *)
Definition Distance_distance (d : Distance) : option flt :=
  match dist d with
  | None => None
  | Some v => Some (if DistUnit_beq (distUnit d) STATUTE_MILES
                    then f32_div (f32_of_N v) (f32_of_N statuteMileFactor)
                    else f32_of_N v)
  end.

(** 3131-3137 *)
Definition Distance_metersToUnit (v : flt) (u : DistUnit) : flt :=
  match u with
  | METERS => v
  | STATUTE_MILES => fdiv_d v (dlit 1609347 1000)
  | FEET => fdiv_d v (dlit 3048 10000)
  end.
(** 3139-3145 *)
Definition Distance_milesToUnit (v : flt) (u : DistUnit) : flt :=
  match u with
  | METERS => fmul_d v (dlit 1609347 1000)
  | STATUTE_MILES => v
  | FEET => fmul_d v (f64_of_Z 5280)
  end.
(** 3147-3153 *)
Definition Distance_feetToUnit (v : flt) (u : DistUnit) : flt :=
  match u with
  | METERS => fmul_d v (dlit 3048 10000)
  | STATUTE_MILES => fdiv_d v (f64_of_Z 5280)
  | FEET => v
  end.
(** 3046-3054 *)
Definition Distance_toUnit (d : Distance) (u : DistUnit) : option flt :=
  match Distance_distance d with
  | None => None
  | Some v =>
    Some (match distUnit d with
          | METERS => Distance_metersToUnit v u
          | STATUTE_MILES => Distance_milesToUnit v u
          | FEET => Distance_feetToUnit v u
          end)
  end.

(** 3069-3119: the switch on sixteenths of a mile, cases 0..47 *)
Definition miles_table : list (N * MilesFraction) :=
  [(0, F_NONE); (0, F_1_16); (0, F_1_8); (0, F_3_16); (0, F_1_4); (0, F_5_16);
   (0, F_3_8); (0, F_3_8); (0, F_1_2); (0, F_1_2); (0, F_5_8); (0, F_5_8);
   (0, F_3_4); (0, F_3_4); (0, F_7_8); (0, F_7_8);
   (1, F_NONE); (1, F_NONE); (1, F_1_8); (1, F_1_8); (1, F_1_4); (1, F_1_4);
   (1, F_3_8); (1, F_3_8); (1, F_1_2); (1, F_1_2); (1, F_5_8); (1, F_5_8);
   (1, F_3_4); (1, F_3_4); (1, F_7_8); (1, F_7_8);
   (2, F_NONE); (2, F_NONE); (2, F_NONE); (2, F_NONE);
   (2, F_1_4); (2, F_1_4); (2, F_1_4); (2, F_1_4);
   (2, F_1_2); (2, F_1_2); (2, F_1_2); (2, F_1_2);
   (2, F_3_4); (2, F_3_4); (2, F_3_4); (2, F_3_4)].
(** 3069-3122 *)
Definition Distance_milesFromSixteenths (topHeavyNumerator : N) : N * MilesFraction :=
  match nth_error miles_table (N.to_nat (N.min topHeavyNumerator 48)) with
  | Some r => r
  | None =>
    let integer := topHeavyNumerator / 16 in
    ((if 15 <? integer then 5 * (integer / 5) else integer), F_NONE)
  end.
(** 3063-3123 *)
Definition Distance_miles (d : Distance) : res (option (N * MilesFraction)) :=
  match Distance_toUnit d STATUTE_MILES with
  | None => Ok None
  | Some m =>
    let! n := round_to_uint (f32_mul m (f32_of_N 16)) in
    Ok (Some (Distance_milesFromSixteenths n))
  end.

(** 3155-3165 *)
Definition Distance_cavokVisibility (unitMiles : bool) : Distance :=
  if unitMiles then mkDist DM_MORE_THAN (Some (6 * statuteMileFactor)) STATUTE_MILES
  else mkDist DM_MORE_THAN (Some 10000) METERS.
(** 3167-3171 *)
Definition Distance_makeDistant : Distance := mkDist DM_DISTANT None METERS.
(** 3173-3177 *)
Definition Distance_makeVicinity : Distance := mkDist DM_VICINITY None METERS.

(* ------------------------------------------------------------------ *)
(** ** Direction (321-396, 3181-3366) *)

Inductive DirType := DT_NOT_REPORTED | DT_VARIABLE | DT_NDV | DT_VALUE_DEGREES | DT_VALUE_CARDINAL
| DT_OVERHEAD | DT_ALQDS | DT_UNKNOWN.
Scheme Equality for DirType.
Inductive Cardinal := Cd_NOT_REPORTED | Cd_VRB | Cd_NDV | Cd_N | Cd_S | Cd_W | Cd_E | Cd_NW | Cd_NE
| Cd_SW | Cd_SE | Cd_TRUE_N | Cd_TRUE_W | Cd_TRUE_S | Cd_TRUE_E | Cd_OHD | Cd_ALQDS | Cd_UNKNOWN.
Scheme Equality for Cardinal.

Record Direction := mkDir { dirDegrees : N; dirType : DirType }.
Definition Direction_default : Direction := mkDir 0 DT_NOT_REPORTED.     (* 372, 381-382 *)
Definition Direction_isValue (d : Direction) : bool :=                   (* 359-361 *)
  DirType_beq (dirType d) DT_VALUE_DEGREES || DirType_beq (dirType d) DT_VALUE_CARDINAL.
Definition Direction_isReported (d : Direction) : bool :=                (* 362 *)
  negb (DirType_beq (dirType d) DT_NOT_REPORTED).
Definition Direction_degrees (d : Direction) : option N :=               (* 355-358 *)
  if negb (Direction_isValue d) then None else Some (dirDegrees d).
Definition Direction_isValid (d : Direction) : bool :=                   (* 366-369 *)
  if Direction_isValue d && (360 <? dirDegrees d) then false else true.

(** 3181-3222 *)
Definition Direction_fromCardinalString (s : string) (enableOhdAlqds enableUnknown : bool)
  : option Direction :=
  if sempty s then None else
  if seqb s "NDV" then Some (mkDir 0 DT_NDV) else
  if enableOhdAlqds && seqb s "OHD" then Some (mkDir 0 DT_OVERHEAD) else
  if enableOhdAlqds && seqb s "ALQDS" then Some (mkDir 0 DT_ALQDS) else
  if enableUnknown && seqb s "UNKNOWN" then Some (mkDir 0 DT_UNKNOWN) else
  let cardinalDegrees : N :=
    if seqb s "SE" then 135 else
    if seqb s "SW" then 225 else
    if seqb s "NE" then 45 else
    if seqb s "NW" then 315 else
    if seqb s "E" then 90 else
    if seqb s "S" then 180 else
    if seqb s "W" then 270 else
    if seqb s "N" then 360 else 0 in
  if cardinalDegrees =? 0 then None
  else Some (mkDir cardinalDegrees DT_VALUE_CARDINAL).

(** 3224-3243 *)
Definition Direction_fromDegreesString (s : string) : res (option Direction) :=
  if negb (Nat.eqb (slen s) 3) then Ok None else
  if seqb s "///" then Ok (Some (mkDir 0 DT_NOT_REPORTED)) else
  if seqb s "VRB" then Ok (Some (mkDir 0 DT_VARIABLE)) else
  let! c2 := sget s 2 in
  if negb (Ascii.eqb c2 "0") then Ok None else
  let? d := strToUint s 0 3 in
  Ok (Some (mkDir d DT_VALUE_DEGREES)).

(** 3245-3273 *)
Definition Direction_cardinal (d : Direction) (trueDirections : bool) : Cardinal :=
  match dirType d with
  | DT_NOT_REPORTED => Cd_NOT_REPORTED
  | DT_VARIABLE => Cd_VRB
  | DT_NDV => Cd_NDV
  | DT_OVERHEAD => Cd_OHD
  | DT_ALQDS => Cd_ALQDS
  | DT_UNKNOWN => Cd_UNKNOWN
  | DT_VALUE_DEGREES | DT_VALUE_CARDINAL =>
    let g := dirDegrees d in
    if trueDirections && (g =? 360) then Cd_TRUE_N else
    if trueDirections && (g =? 180) then Cd_TRUE_S else
    if trueDirections && (g =? 270) then Cd_TRUE_W else
    if trueDirections && (g =? 90) then Cd_TRUE_E else
    if g <=? 45 / 2 then Cd_N else
    if g <=? 45 + 45 / 2 then Cd_NE else
    if g <=? 90 + 45 / 2 then Cd_E else
    if g <=? 135 + 45 / 2 then Cd_SE else
    if g <=? 180 + 45 / 2 then Cd_S else
    if g <=? 225 + 45 / 2 then Cd_SW else
    if g <=? 270 + 45 / 2 then Cd_W else
    if g <=? 315 + 45 / 2 then Cd_NW else
    if g <=? 360 then Cd_N else
    Cd_NOT_REPORTED
  end.

(** 3279-3280 *)
Definition rgx_sector : re :=
  Eval vm_compute in rx "([NSWE][WE]?)(?:-[NSWE]|-[NS][WE])*-([NSWE][WE]?)".
(** 3275-3289 *)
Definition Direction_fromSectorString (s : string) : option (Direction * Direction) :=
  match regex_match rgx_sector s with
  | None => None
  | Some m =>
    match Direction_fromCardinalString (mstr m 1) false false with
    | None => None
    | Some dirBegin =>
      match Direction_fromCardinalString (mstr m 2) false false with
      | None => None
      | Some dirEnd => Some (dirBegin, dirEnd)
      end
    end
  end.

(** 3326-3342 *)
Definition Direction_rotateOctantClockwise (c : Cardinal) : Cardinal :=
  match c with
  | Cd_TRUE_N => Cd_NE
  | Cd_TRUE_E => Cd_SE
  | Cd_TRUE_S => Cd_SW
  | Cd_TRUE_W => Cd_NW
  | Cd_N => Cd_NE
  | Cd_NE => Cd_E
  | Cd_E => Cd_SE
  | Cd_SE => Cd_S
  | Cd_S => Cd_SW
  | Cd_SW => Cd_W
  | Cd_W => Cd_NW
  | Cd_NW => Cd_N
  | _ => Cd_NOT_REPORTED
  end.

(** 3344-3366; note TRUE_W / TRUE_S are swapped in the source *)
Definition Direction_ofCardinal (c : Cardinal) : Direction :=
  match c with
  | Cd_NOT_REPORTED => mkDir 0 DT_NOT_REPORTED
  | Cd_VRB => mkDir 0 DT_VARIABLE
  | Cd_NDV => mkDir 0 DT_NDV
  | Cd_N => mkDir 360 DT_VALUE_CARDINAL
  | Cd_S => mkDir 180 DT_VALUE_CARDINAL
  | Cd_W => mkDir 270 DT_VALUE_CARDINAL
  | Cd_E => mkDir 90 DT_VALUE_CARDINAL
  | Cd_NW => mkDir 315 DT_VALUE_CARDINAL
  | Cd_NE => mkDir 45 DT_VALUE_CARDINAL
  | Cd_SW => mkDir 225 DT_VALUE_CARDINAL
  | Cd_SE => mkDir 135 DT_VALUE_CARDINAL
  | Cd_TRUE_N => mkDir 360 DT_VALUE_CARDINAL
  | Cd_TRUE_W => mkDir 180 DT_VALUE_CARDINAL
  | Cd_TRUE_S => mkDir 270 DT_VALUE_CARDINAL
  | Cd_TRUE_E => mkDir 90 DT_VALUE_CARDINAL
  | Cd_OHD => mkDir 0 DT_OVERHEAD
  | Cd_ALQDS => mkDir 0 DT_ALQDS
  | Cd_UNKNOWN => mkDir 0 DT_UNKNOWN
  end.

(** 3316-3322: the while loop; [fuel] bounds the number of iterations *)
Fixpoint sector_loop (fuel : nat) (curr to : Cardinal) : res (list Direction) :=
  if Cardinal_beq curr to then Ok [Direction_ofCardinal to] else
  match fuel with
  | O => Bad Fuel
  | S k =>
    let! rest := sector_loop k (Direction_rotateOctantClockwise curr) to in
    Ok (Direction_ofCardinal curr :: rest)
  end.
(** 3298-3307: cardinal values which do not delimit a sector *)
Definition not_sector_end (c : Cardinal) : bool :=
  match c with
  | Cd_NOT_REPORTED | Cd_VRB | Cd_NDV | Cd_OHD | Cd_ALQDS => true
  | _ => false
  end.
(** 3291-3324, with the while loop bounded by [fuel] iterations *)
Definition sectorCardinalDirToVector_fuel (fuel : nat) (dirFrom dirTo : Direction)
  : res (list Direction) :=
  let cardinalFrom := Direction_cardinal dirFrom false in
  let cardinalTo := Direction_cardinal dirTo false in
  if not_sector_end cardinalFrom || not_sector_end cardinalTo then
    Ok ((if Cardinal_beq cardinalFrom Cd_NOT_REPORTED then []
         else [Direction_ofCardinal cardinalFrom])
        ++ (if Cardinal_beq cardinalTo Cd_NOT_REPORTED then []
            else [Direction_ofCardinal cardinalTo]))%list
  else sector_loop fuel cardinalFrom cardinalTo.
(** 3291-3324: a loop still running after 16 iterations is reported as [Fuel]; Props_Direction.v
    shows that it then runs forever. *)
Definition Direction_sectorCardinalDirToVector (dirFrom dirTo : Direction) : res (list Direction) :=
  sectorCardinalDirToVector_fuel 16 dirFrom dirTo.

(* ------------------------------------------------------------------ *)
(** ** Pressure (398-423, 3371-3489) *)

Inductive PressureUnit := HECTOPASCAL | INCHES_HG | MM_HG.
Scheme Equality for PressureUnit.
Record Pressure := mkPressure { pressureValue : option flt; pressureUnit : PressureUnit }.
Definition Pressure_default : Pressure := mkPressure None HECTOPASCAL.   (* 410, 418-419 *)
Definition Pressure_isReported (p : Pressure) : bool := has_value (pressureValue p). (* 408 *)
Definition inHgDecimalPointShift : flt := flit 1 100.                    (* 421 *)
Definition tendencyDecimalPointShift : flt := flit 1 10.                 (* 422 *)

(** 3371-3398 *)
Definition Pressure_fromString (s : string) : res (option Pressure) :=
  if negb (Nat.eqb (slen s) 5) then Ok None else
  if seqb s "A////" then Ok (Some (mkPressure None INCHES_HG)) else
  if seqb s "Q////" then Ok (Some (mkPressure None HECTOPASCAL)) else
  let? pr := strToUint s 1 4 in
  let! c0 := sget s 0 in
  if Ascii.eqb c0 "A" then
    Ok (Some (mkPressure (Some (f32_mul (f32_of_N pr) inHgDecimalPointShift)) INCHES_HG))
  else if Ascii.eqb c0 "Q" then
    Ok (Some (mkPressure (Some (f32_of_N pr)) HECTOPASCAL))
  else Ok None.

(** [s[i] != a || s[i+1] != b || s[i+2] != c] *)
Definition three_at (s : string) (i : nat) (a b c : ascii) : res bool :=
  let! x := sget s i in
  if negb (Ascii.eqb x a) then Ok false else
  let! y := sget s (i + 1) in
  if negb (Ascii.eqb y b) then Ok false else
  let! z := sget s (i + 2) in
  Ok (Ascii.eqb z c).

(** 3400-3412 *)
Definition Pressure_fromForecastString (s : string) : res (option Pressure) :=
  if negb (Nat.eqb (slen s) 10) then Ok None else
  let! a := three_at s 0 "Q" "N" "H" in
  if negb a then Ok None else
  let! b := three_at s 7 "I" "N" "S" in
  if negb b then Ok None else
  let? pr := strToUint s 3 4 in
  Ok (Some (mkPressure (Some (f32_mul (f32_of_N pr) inHgDecimalPointShift)) INCHES_HG)).

(** 3414-3428; unsigned * double + int is computed in double, then stored as float *)
Definition Pressure_fromSlpString (s : string) : res (option Pressure) :=
  if negb (Nat.eqb (slen s) 6) then Ok None else
  let! a := three_at s 0 "S" "L" "P" in
  if negb a then Ok None else
  let? pr := strToUint s 3 3 in
  let base := if pr <? 500 then 1000%Z else 900%Z in
  Ok (Some (mkPressure
    (Some (to32 (f64_add (f64_mul (f64_of_N pr) (dlit 1 10)) (f64_of_Z base)))) HECTOPASCAL)).

(** 3430-3446 *)
Definition Pressure_fromQfeString (s : string) : res (option Pressure) :=
  if negb (Nat.eqb (slen s) 6) && negb (Nat.eqb (slen s) 11) then Ok None else
  let! a := three_at s 0 "Q" "F" "E" in
  if negb a then Ok None else
  let? mmHg := strToUint s 3 3 in
  let r := Ok (Some (mkPressure (Some (f32_of_N mmHg)) MM_HG)) in
  if Nat.eqb (slen s) 11 then
    let? _hPa := strToUint s 7 4 in
    let! c6 := sget s 6 in
    if negb (Ascii.eqb c6 "/") then Ok None else r
  else r.

(** 3448-3459 *)
Definition Pressure_fromTendencyString (s : string) : res (option Pressure) :=
  if negb (Nat.eqb (slen s) 3) then Ok None else
  if seqb s "///" then Ok (Some Pressure_default) else
  let? hPa := strToUint s 0 3 in
  Ok (Some (mkPressure (Some (f32_mul (f32_of_N hPa) tendencyDecimalPointShift)) HECTOPASCAL)).

(** 3461-3489 *)
Definition Pressure_toUnit (p : Pressure) (u : PressureUnit) : option flt :=
  match pressureValue p with
  | None => None
  | Some v =>
    let hpaPerInHg := dlit 338639 10000 in
    let hpaPerMmHg := dlit 13332 10000 in
    let mmPerInch := dlit 254 10 in
    Some (match pressureUnit p, u with
          | HECTOPASCAL, HECTOPASCAL => v
          | HECTOPASCAL, INCHES_HG => fdiv_d v hpaPerInHg
          | HECTOPASCAL, MM_HG => fdiv_d v hpaPerMmHg
          | INCHES_HG, HECTOPASCAL => fmul_d v hpaPerInHg
          | INCHES_HG, INCHES_HG => v
          | INCHES_HG, MM_HG => fmul_d v mmPerInch
          | MM_HG, HECTOPASCAL => fmul_d v hpaPerMmHg
          | MM_HG, INCHES_HG => fdiv_d v mmPerInch
          | MM_HG, MM_HG => v
          end)
  end.

(* ------------------------------------------------------------------ *)
(** ** Precipitation (425-462, 3493-3590) *)

Inductive PrecipUnit := MM | INCHES.
Scheme Equality for PrecipUnit.
Record Precipitation := mkPrecip { precipValue : option flt; precipUnit : PrecipUnit }.
Definition Precipitation_default : Precipitation := mkPrecip None MM.    (* 436, 447-448 *)
Definition Precipitation_isReported (p : Precipitation) : bool := has_value (precipValue p).

(** 3493-3506 *)
Definition Precipitation_fromRainfallString (s : string) : res (option Precipitation) :=
  if seqb s "///./" || seqb s "//./" then Ok (Some Precipitation_default) else
  if negb (Nat.eqb (slen s) 4) && negb (Nat.eqb (slen s) 5) then Ok None else
  let! dot := sget s (slen s - 2) in
  if negb (Ascii.eqb dot ".") then Ok None else
  let? fractPart := strToUint s (slen s - 1) 1 in
  let? intPart := strToUint s 0 (slen s - 2) in
  Ok (Some (mkPrecip
    (Some (to32 (f64_add (f64_of_N intPart) (f64_mul (dlit 1 10) (f64_of_N fractPart))))) MM)).

(** 3508-3537 *)
Definition Precipitation_fromRunwayDeposits (s : string) : res (option Precipitation) :=
  if negb (Nat.eqb (slen s) 2) then Ok None else
  if seqb s "//" then Ok (Some Precipitation_default) else
  let? depth := strToUint s 0 2 in
  let mm (z : Z) := Ok (Some (mkPrecip (Some (f32_of_Z z)) MM)) in
  if depth =? 91 then Ok None else
  if depth =? 92 then mm 100%Z else
  if depth =? 93 then mm 150%Z else
  if depth =? 94 then mm 200%Z else
  if depth =? 95 then mm 250%Z else
  if depth =? 96 then mm 300%Z else
  if depth =? 97 then mm 350%Z else
  if depth =? 98 then mm 400%Z else
  if depth =? 99 then Ok (Some (mkPrecip None MM)) else
  mm (Z.of_N depth).

(** 3539-3557 *)
Definition Precipitation_fromRemarkString (s : string) (factor : flt) (unit : PrecipUnit)
  (allowNotReported : bool) : res (option Precipitation) :=
  if negb (Nat.eqb (slen s) 3) && negb (Nat.eqb (slen s) 4) then Ok None else
  if seqb s "///" || seqb s "////" then
    if negb allowNotReported then Ok None else Ok (Some (mkPrecip None unit))
  else
  let? pr := strToUint s 0 (slen s) in
  Ok (Some (mkPrecip (Some (f32_mul (f32_of_N pr) factor)) unit)).

(** 3559-3576: first component is named total in the source, second change *)
Definition Precipitation_fromSnincrString (s : string)
  : res (option (Precipitation * Precipitation)) :=
  let? fraction := fractionStrToUint s 0 (slen s) in
  Ok (Some (mkPrecip (Some (f32_of_N (fst fraction))) INCHES,
            mkPrecip (Some (f32_of_N (snd fraction))) INCHES)).

(** 3578-3590 *)
Definition Precipitation_toUnit (p : Precipitation) (u : PrecipUnit) : option flt :=
  match precipValue p with
  | None => None
  | Some v =>
    match precipUnit p, u with
    | MM, MM => Some v
    | INCHES, INCHES => Some v
    | MM, INCHES => Some (fdiv_d v (dlit 254 10))
    | INCHES, MM => Some (fmul_d v (dlit 254 10))
    end
  end.

(* ------------------------------------------------------------------ *)
(** ** SurfaceFriction (464-515, 3594-3655) *)

Inductive SfType := Sf_NOT_REPORTED | Sf_SURFACE_FRICTION_REPORTED | Sf_BRAKING_ACTION_REPORTED
| Sf_UNRELIABLE.
Scheme Equality for SfType.
Inductive BrakingAction := BA_NONE | BA_POOR | BA_MEDIUM_POOR | BA_MEDIUM | BA_MEDIUM_GOOD | BA_GOOD.
Scheme Equality for BrakingAction.
Record SurfaceFriction := mkSf { sfType : SfType; sfCoefficient : N }.
Definition SurfaceFriction_default : SurfaceFriction := mkSf Sf_NOT_REPORTED 0. (* 490-495 *)
Definition SurfaceFriction_isReported (f : SurfaceFriction) : bool :=    (* 487 *)
  negb (SfType_beq (sfType f) Sf_NOT_REPORTED).
Definition SurfaceFriction_isUnreliable (f : SurfaceFriction) : bool :=  (* 488 *)
  SfType_beq (sfType f) Sf_UNRELIABLE.
(** 481-485: unsigned * double, returned as float *)
Definition SurfaceFriction_coefficient (f : SurfaceFriction) : option flt :=
  match sfType f with
  | Sf_NOT_REPORTED | Sf_UNRELIABLE => None
  | _ => Some (to32 (f64_mul (f64_of_N (sfCoefficient f)) (dlit 1 100)))
  end.

(** 3594-3645 *)
Definition SurfaceFriction_fromString (s : string) : res (option SurfaceFriction) :=
  if negb (Nat.eqb (slen s) 2) then Ok None else
  if seqb s "//" then Ok (Some SurfaceFriction_default) else
  let? v := strToUint s 0 2 in
  if v =? 91 then Ok (Some (mkSf Sf_BRAKING_ACTION_REPORTED 0)) else
  if v =? 92 then Ok (Some (mkSf Sf_BRAKING_ACTION_REPORTED 26)) else
  if v =? 93 then Ok (Some (mkSf Sf_BRAKING_ACTION_REPORTED 30)) else
  if v =? 94 then Ok (Some (mkSf Sf_BRAKING_ACTION_REPORTED 36)) else
  if v =? 95 then Ok (Some (mkSf Sf_BRAKING_ACTION_REPORTED 40)) else
  if (v =? 96) || (v =? 97) || (v =? 98) then Ok None else
  if v =? 99 then Ok (Some (mkSf Sf_UNRELIABLE 0)) else
  Ok (Some (mkSf Sf_SURFACE_FRICTION_REPORTED v)).

(** 3647-3655 *)
Definition SurfaceFriction_brakingAction (f : SurfaceFriction) : BrakingAction :=
  match sfType f with
  | Sf_NOT_REPORTED | Sf_UNRELIABLE => BA_NONE
  | _ =>
    if sfCoefficient f <? 26 then BA_POOR else
    if sfCoefficient f <? 30 then BA_MEDIUM_POOR else
    if sfCoefficient f <? 36 then BA_MEDIUM else
    if sfCoefficient f <? 40 then BA_MEDIUM_GOOD else
    BA_GOOD
  end.

(* ------------------------------------------------------------------ *)
(** ** WaveHeight (517-573, 3659-3729) *)

Inductive WhType := Wh_STATE_OF_SURFACE | Wh_WAVE_HEIGHT.
Scheme Equality for WhType.
Inductive WhUnit := Wh_METERS | Wh_FEET.
Inductive StateOfSurface := SS_NOT_REPORTED | SS_CALM_GLASSY | SS_CALM_RIPPLED | SS_SMOOTH
| SS_SLIGHT | SS_MODERATE | SS_ROUGH | SS_VERY_ROUGH | SS_HIGH | SS_VERY_HIGH | SS_PHENOMENAL.
Scheme Equality for StateOfSurface.
Record WaveHeight := mkWh { whType : WhType; whValue : option N }.
Definition WaveHeight_default : WaveHeight := mkWh Wh_STATE_OF_SURFACE None. (* 551, 555-556 *)
Definition WaveHeight_isReported (w : WaveHeight) : bool := has_value (whValue w). (* 548 *)

(** 3715-3729, constants 563-572 *)
Definition WaveHeight_fromStateOfSurfaceChar (c : ascii) : option N :=
  if Ascii.eqb c "0" then Some 0 else
  if Ascii.eqb c "1" then Some 1 else
  if Ascii.eqb c "2" then Some 5 else
  if Ascii.eqb c "3" then Some 12 else
  if Ascii.eqb c "4" then Some 25 else
  if Ascii.eqb c "5" then Some 40 else
  if Ascii.eqb c "6" then Some 60 else
  if Ascii.eqb c "7" then Some 90 else
  if Ascii.eqb c "8" then Some 140 else
  if Ascii.eqb c "9" then Some 141 else
  None.

(** 3659-3688 *)
Definition WaveHeight_fromString (s : string) : res (option WaveHeight) :=
  if Nat.ltb (slen s) 2 || Nat.ltb 4 (slen s) then Ok None else
  if seqb s "H///" then Ok (Some (mkWh Wh_WAVE_HEIGHT None)) else
  if seqb s "S/" then Ok (Some (mkWh Wh_STATE_OF_SURFACE None)) else
  let! c0 := sget s 0 in
  if Ascii.eqb c0 "S" then
    if negb (Nat.eqb (slen s) 2) then Ok None else
    let! c1 := sget s 1 in
    match WaveHeight_fromStateOfSurfaceChar c1 with
    | None => Ok None
    | Some h => Ok (Some (mkWh Wh_STATE_OF_SURFACE (Some h)))
    end
  else if Ascii.eqb c0 "H" then
    let? h := strToUint s 1 (slen s - 1) in
    Ok (Some (mkWh Wh_WAVE_HEIGHT (Some h)))
  else Ok None.

(** 544-547: unsigned * double, returned as float *)
Definition WaveHeight_waveHeight (w : WaveHeight) : option flt :=
  match whValue w with
  | None => None
  | Some v => Some (to32 (f64_mul (f64_of_N v) (dlit 1 10)))
  end.
(** 3690-3697 *)
Definition WaveHeight_toUnit (w : WaveHeight) (u : WhUnit) : option flt :=
  match WaveHeight_waveHeight w with
  | None => None
  | Some v => match u with
              | Wh_METERS => Some v
              | Wh_FEET => Some (fdiv_d v (dlit 3048 10000))
              end
  end.

(** 3699-3713 *)
Definition WaveHeight_stateOfSurface (w : WaveHeight) : StateOfSurface :=
  match whValue w with
  | None => SS_NOT_REPORTED
  | Some h =>
    if h =? 0 then SS_CALM_GLASSY else
    if h <=? 1 then SS_CALM_RIPPLED else
    if h <=? 5 then SS_SMOOTH else
    if h <=? 12 then SS_SLIGHT else
    if h <=? 25 then SS_MODERATE else
    if h <=? 40 then SS_ROUGH else
    if h <=? 60 then SS_VERY_ROUGH else
    if h <=? 90 then SS_HIGH else
    if h <=? 140 then SS_VERY_HIGH else
    SS_PHENOMENAL
  end.
