(** Decimal text of numbers, as the C++ standard library writes it in the "C" locale:
    std::to_string and operator<< of std::ostream with the default format flags.
    Used by the model of examples/explain.cpp. Definitions only. *)

From Coq Require Import DecimalString.
From Verif Require Import Prim Float.
Local Open Scope string_scope.

(** [stream << n] for unsigned int, [std::to_string(n)]: the decimal digits without leading zeros *)
Definition dec_N (n : N) : string := NilEmpty.string_of_uint (N.to_uint n).
(** [stream << n] for int *)
Definition dec_Z (z : Z) : string :=
  if (z <? 0)%Z then "-" ++ dec_N (Z.to_N (- z)) else dec_N (Z.to_N z).

(** The integer nearest to num / den (den > 0, num >= 0); of two equally near, the even one:
    how printf rounds the exact value of a double in the default rounding mode *)
Definition div_nearest_even (num den : Z) : Z :=
  let q := (num / den)%Z in
  let r := (num mod den)%Z in
  if (2 * r <? den)%Z then q else
  if (den <? 2 * r)%Z then (q + 1)%Z else
  if Z.even q then q else (q + 1)%Z.

(** [k] decimal digits of [n], with leading zeros; the higher digits are dropped *)
Fixpoint dec_digits (k : nat) (n : Z) : string :=
  match k with
  | O => ""
  | S k' => dec_digits k' (n / 10) ++ dec_N (Z.to_N (n mod 10))
  end.

(** The digits of [n] with a decimal point before the last [k] of them *)
Definition dec_point (k : nat) (n : Z) : string :=
  dec_N (Z.to_N (n / 10 ^ Z.of_nat k)) ++
  match k with O => "" | S _ => "." ++ dec_digits k n end.

(** The exact value of a finite number is num / den *)
Definition flt_num (m : positive) (e : Z) : Z := if (0 <=? e)%Z then (Zpos m * 2 ^ e)%Z else Zpos m.
Definition flt_den (e : Z) : Z := if (0 <=? e)%Z then 1%Z else (2 ^ (- e))%Z.

Definition sign_text (s : bool) : string := if s then "-" else "".

(** [std::to_string(float)]: the number, promoted to double, printed by "%f", i.e. with six decimals.
    The sign printed for a NaN depends on the implementation and is left out. *)
Definition to_string_flt (x : flt) : string :=
  match x with
  | S754_zero s => sign_text s ++ "0.000000"
  | S754_infinity s => sign_text s ++ "inf"
  | S754_nan => "nan"
  | S754_finite s m e =>
    sign_text s ++ dec_point 6 (div_nearest_even (flt_num m e * 1000000) (flt_den e))
  end.

(** The exponent of the decimal representation with one digit before the point: the number of
    steps needed to bring num / den into [1, 10) by multiplying ([up]) or dividing ([down]) by ten.
    A float is below 10^39 and not below 10^-46. *)
Fixpoint exp10_up (fuel : nat) (num den : Z) : Z :=
  match fuel with
  | O => 0
  | S f => if (den <=? num)%Z then 0 else (exp10_up f (num * 10) den - 1)%Z
  end.
Fixpoint exp10_down (fuel : nat) (num den : Z) : Z :=
  match fuel with
  | O => 0
  | S f => if (num <? den * 10)%Z then 0 else (exp10_down f num (den * 10) + 1)%Z
  end.
Definition exp10 (num den : Z) : Z :=
  if (num <? den)%Z then exp10_up 50 num den else exp10_down 50 num den.

(** num / den * 10^k rounded to an integer *)
Definition scaled (num den k : Z) : Z :=
  if (0 <=? k)%Z then div_nearest_even (num * 10 ^ k) den
  else div_nearest_even num (den * 10 ^ (- k)).

Fixpoint drop_zeros (s : string) : string :=
  match s with
  | String "0"%char t => drop_zeros t
  | _ => s
  end.
Fixpoint srev (s acc : string) : string :=
  match s with EmptyString => acc | String c t => srev t (String c acc) end.
(** "%g" without the flag "#": the trailing zeros of the fraction are left out, and the point when
    nothing follows it *)
Definition trim_fraction (s : string) : string :=
  match drop_zeros (srev s "") with
  | String "."%char t => srev t ""
  | t => srev t ""
  end.

(** [stream << x] for float, with the default precision of six: printed by "%g" *)
Definition stream_flt (x : flt) : string :=
  match x with
  | S754_zero s => sign_text s ++ "0"
  | S754_infinity s => sign_text s ++ "inf"
  | S754_nan => "nan"
  | S754_finite s m e =>
    let num := flt_num m e in
    let den := flt_den e in
    let x0 := exp10 num den in
    let d0 := scaled num den (5 - x0) in
    let carry := (1000000 <=? d0)%Z in
    let d := if carry then 100000%Z else d0 in
    let ex := if carry then (x0 + 1)%Z else x0 in
    sign_text s ++
    if (-4 <=? ex)%Z && (ex <? 6)%Z then
      if (ex =? 5)%Z then dec_N (Z.to_N d) else trim_fraction (dec_point (Z.to_nat (5 - ex)) d)
    else
      trim_fraction (dec_point 5 d) ++ (if (ex <? 0)%Z then "e-" else "e+") ++
      (if (Z.abs ex <? 10)%Z then "0" else "") ++ dec_N (Z.to_N (Z.abs ex))
  end.
