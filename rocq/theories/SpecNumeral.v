(** Numbers of a given width in a text, and texts that match a regular expression, for the
    specifications of the value classes (C21 and later). *)
From Coq Require Import String Ascii NArith.
From Verif Require Import Prim Regex SpecRegex SpecDecimal.
Local Open Scope string_scope.

(** [n] decimal digits which denote [v] *)
Definition numeral (n : nat) (s : string) (v : N) : Prop := String.length s = n /\ decimal s = Some v.

(** The whole text is in the language of the regular expression. *)
Definition matches (pattern s : string) : Prop := Lang (rx pattern) s.

(** The parser recognises the text. *)
Definition accepted {A : Type} (outcome : res (option A)) : Prop := exists v, outcome = Ok (Some v).
