(** IEEE-754 single (float) and double precision arithmetic, from Coq's SpecFloat
    (plain Z computations, no axioms), as C++ uses it on a platform with FLT_EVAL_METHOD = 0. *)

From Coq Require Export SpecFloat.
From Verif Require Import Prim.
Local Open Scope Z_scope.

(** A float or double value. Which of the two formats it is in is a matter of which operations
    produced it; [to32]/[to64] are the conversions. *)
Definition flt := spec_float.

Definition normalize32 (m e : Z) (szero : bool) : flt := binary_normalize 24 128 m e szero.
Definition normalize64 (m e : Z) (szero : bool) : flt := binary_normalize 53 1024 m e szero.

(** Integer -> floating conversions (round to nearest even). *)
Definition f32_of_Z (z : Z) : flt := normalize32 z 0 false.
Definition f64_of_Z (z : Z) : flt := normalize64 z 0 false.
Definition f32_of_N (n : N) : flt := f32_of_Z (Z.of_N n).
Definition f64_of_N (n : N) : flt := f64_of_Z (Z.of_N n).

Definition to32 (x : flt) : flt :=
  match x with
  | S754_finite s m e => normalize32 (cond_Zopp s (Zpos m)) e s
  | _ => x
  end.
Definition to64 (x : flt) : flt :=
  match x with
  | S754_finite s m e => normalize64 (cond_Zopp s (Zpos m)) e s
  | _ => x
  end.

Definition f32_mul := SFmul 24 128.
Definition f32_div := SFdiv 24 128.
Definition f32_add := SFadd 24 128.
Definition f64_mul := SFmul 53 1024.
Definition f64_div := SFdiv 53 1024.
Definition f64_add := SFadd 53 1024.
Definition f64_sub := SFsub 53 1024.

(** Decimal literal num/den as a double (both below 2^53, so the quotient is the correctly
    rounded literal), and as a float initialised from a double literal. *)
Definition dlit (num den : Z) : flt := f64_div (f64_of_Z num) (f64_of_Z den).
Definition flit (num den : Z) : flt := to32 (dlit num den).

(** Comparisons, in double precision (a float operand is promoted, exactly). SpecFloat's
    comparison expects both operands in the same format. *)
Definition flt_ltb (x y : flt) : bool := SFltb (to64 x) (to64 y).
Definition flt_eqb (x y : flt) : bool := SFeqb (to64 x) (to64 y).
Definition flt_leb (x y : flt) : bool := SFleb (to64 x) (to64 y).

(** std::round: nearest integer, halfway cases away from zero; None for NaN and infinities. *)
Definition round_half_away (x : flt) : option Z :=
  match x with
  | S754_zero _ => Some 0
  | S754_infinity _ => None
  | S754_nan => None
  | S754_finite s m e =>
    let a := if 0 <=? e then Zpos m * 2 ^ e
             else let d := 2 ^ (- e) in (2 * Zpos m + d) / (2 * d) in
    Some (cond_Zopp s a)
  end.

(** Conversion of a rounded floating value to int / unsigned int: undefined behaviour when the
    value does not fit. *)
Definition round_to_int (x : flt) : res Z :=
  match round_half_away x with
  | Some z => if (-2147483648 <=? z) && (z <=? 2147483647) then Ok z else Bad UB
  | None => Bad UB
  end.
Definition round_to_uint (x : flt) : res N :=
  match round_half_away x with
  | Some z => if (0 <=? z) && (z <=? 4294967295) then Ok (Z.to_N z) else Bad UB
  | None => Bad UB
  end.

(** Truncating conversion float -> unsigned int ([reportMetadata.correctionNumber = *misc->data()]). *)
Definition trunc_flt (x : flt) : option Z :=
  match x with
  | S754_zero _ => Some 0
  | S754_infinity _ => None
  | S754_nan => None
  | S754_finite s m e =>
    Some (cond_Zopp s (if 0 <=? e then Zpos m * 2 ^ e else Zpos m / 2 ^ (- e)))
  end.
Definition trunc_to_uint (x : flt) : res N :=
  match trunc_flt x with
  | Some z => if (0 <=? z) && (z <=? 4294967295) then Ok (Z.to_N z) else Bad UB
  | None => Bad UB
  end.

(** [!x] / contextual conversion to bool of a floating value. *)
Definition flt_is_zero (x : flt) : bool :=
  match x with S754_zero _ => true | _ => false end.
