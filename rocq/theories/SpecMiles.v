(** Specification for C26: distances in statute miles as they are written. *)
From Coq Require Import String NArith.
From Verif Require Import SpecDecimal SpecNumeral.
Local Open Scope string_scope.
Local Open Scope N_scope.

(** One or two digits *)
Definition short_numeral (s : string) (v : N) : Prop := numeral 1 s v \/ numeral 2 s v.

(** [MileText s w n d]: the text denotes [w + n/d] miles. A fraction has a numerator and a
    denominator other than zero. A mixed number is written with the whole miles and the fraction
    run together, like 11/2 for one and a half; a numerator of two digits less than the denominator,
    like in 15/16, is just a numerator. *)
Inductive MileText : string -> N -> N -> N -> Prop :=
| Miles_whole : forall s v, short_numeral s v -> MileText s v 0 1
| Miles_fraction : forall s1 s2 n d, short_numeral s1 n -> short_numeral s2 d ->
    0 < n -> 0 < d -> n < d \/ numeral 1 s1 n ->
    MileText (s1 ++ "/" ++ s2) 0 n d
| Miles_mixed : forall s0 s1 s2 w n d, numeral 1 s0 w -> numeral 1 s1 n -> short_numeral s2 d ->
    0 < n -> 0 < d -> d <= 10 * w + n ->
    MileText (s0 ++ s1 ++ "/" ++ s2) w n d.

(** Texts that look like a fraction of miles but denote none: the numerator or the denominator is
    zero, or the whole miles are run together with a numerator of zero, like in 20/2. *)
Definition improper_miles (ending s : string) : Prop :=
  exists p s1 s2 n d, (p = "" \/ p = "P" \/ p = "M") /\ s = p ++ s1 ++ "/" ++ s2 ++ ending
    /\ short_numeral s1 n /\ short_numeral s2 d
    /\ (n = 0 \/ d = 0 \/ numeral 2 s1 n /\ n mod 10 = 0 /\ d <= n).
