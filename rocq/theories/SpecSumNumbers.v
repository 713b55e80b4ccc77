(** Specification for C61 to C64: the numbers in the weather summary of examples/summary.cpp. *)
From Coq Require Import ZArith NArith QArith Qabs List String.
From Verif Require Import Prim Float Values.
From Verif Require Import SpecReal SpecUnits.

(** A number without its fraction *)
Definition whole_part (q : Q) : Z := Z.quot (Qnum q) (Zpos (Qden q)).
(** The whole part of a number within the fraction [eps] of [q] *)
Definition about (eps q : Q) (z : Z) : Prop :=
  exists v, (Qabs (v - q) <= eps * Qabs q)%Q /\ z = whole_part v.
(** The whole part of a floating-point value *)
Definition whole_of (o : option flt) (z : Z) : Prop :=
  exists x v, o = Some x /\ flt_value x = Some v /\ z = whole_part v.
(** What is asked of the C library function pow, beyond moderate results: with an exponent larger by
    at most one, ten to that exponent is larger at most about tenfold (20 is granted). *)
Definition pow_tame (pow : flt -> flt -> flt) : Prop :=
  pow_sane pow
  /\ forall y y' c c' b b', valid_binary 53 1024 y = true -> valid_binary 53 1024 y' = true ->
       flt_value y = Some c -> flt_value y' = Some c' ->
       (-10 # 1 <= c <= 10 # 1)%Q -> (-10 # 1 <= c' <= 10 # 1)%Q -> (c <= c' + 1)%Q ->
       flt_value (pow (f64_of_Z 10) y) = Some b -> flt_value (pow (f64_of_Z 10) y') = Some b' ->
       (b <= 20 * b')%Q.
(** The unit in which the summary gives the pressure, in pascals: a hectopascal, or a hundredth of an
    inch of mercury *)
Definition shown_pascals (imperial : bool) : Q :=
  if imperial then pascals_in INCHES_HG / 100 else pascals_in HECTOPASCAL.
