(** Texts of a fixed form, for the specifications: each character of the text must be one of those
    allowed at its place. *)
From Coq Require Import String Ascii List Bool.
Import ListNotations.
Local Open Scope string_scope.

(** The character occurs in the given string. *)
Fixpoint one_of (allowed : string) (c : ascii) : bool :=
  match allowed with
  | "" => false
  | String a rest => Ascii.eqb c a || one_of rest c
  end.
Definition digit : ascii -> bool := one_of "0123456789".
Definition letter : ascii -> bool := one_of "ABCDEFGHIJKLMNOPQRSTUVWXYZ".
Definition letter_or_digit : ascii -> bool := one_of "ABCDEFGHIJKLMNOPQRSTUVWXYZ0123456789".
Definition just (c : ascii) : ascii -> bool := Ascii.eqb c.

Fixpoint fits (form : list (ascii -> bool)) (s : string) : bool :=
  match form, s with
  | [], "" => true
  | p :: form', String c s' => p c && fits form' s'
  | _, _ => false
  end.

(** The location code of four characters, the report time DDHHMMZ, the time span DDHH/DDHH *)
Definition location_form : list (ascii -> bool) := [letter; letter_or_digit; letter_or_digit; letter_or_digit].
Definition report_time_form : list (ascii -> bool) := [digit; digit; digit; digit; digit; digit; just "Z"].
Definition time_span_form : list (ascii -> bool) :=
  [digit; digit; digit; digit; just "/"; digit; digit; digit; digit].
