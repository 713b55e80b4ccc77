(** Decimal notation, used by the specifications of C20 and later. *)
From Coq Require Import String Ascii NArith.
Local Open Scope string_scope.
Local Open Scope N_scope.

Definition digit_of (c : ascii) : option N :=
  match c with
  | "0" => Some 0 | "1" => Some 1 | "2" => Some 2 | "3" => Some 3 | "4" => Some 4
  | "5" => Some 5 | "6" => Some 6 | "7" => Some 7 | "8" => Some 8 | "9" => Some 9
  | _ => None
  end%char.

(** The number a string of decimal digits denotes: each digit counts for the power of ten given by
    the number of digits after it. *)
Fixpoint decimal (s : string) : option N :=
  match s with
  | "" => Some 0
  | String c s' =>
    match digit_of c, decimal s' with
    | Some d, Some v => Some (d * 10 ^ N.of_nat (String.length s') + v)
    | _, _ => None
    end
  end.
