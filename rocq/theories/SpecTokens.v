(** Specification for C02-C04: how the text of a report is cut into groups. *)
From Verif Require Import Prim.
Local Open Scope string_scope.

(** A character that separates groups: a control character or a space, including the NUL at the
    end of the text. Where plain char is signed, bytes above 127 compare as negative numbers and
    are delimiters as well. *)
Definition delimiter (char_signed : bool) (c : ascii) : bool :=
  Nat.leb (nat_of_ascii c) 32 || (char_signed && Nat.leb 128 (nat_of_ascii c)).

(** The part of the text before the first '='. *)
Fixpoint before_end_indicator (s : string) : string :=
  match s with
  | "" => ""
  | String c s' => if Ascii.eqb c "=" then "" else String c (before_end_indicator s')
  end.

Definition nonempty_piece (s : string) : list string := match s with "" => [] | _ => [s] end.

(** [piece] is the group being collected: it is complete at a delimiter, at the end of the text,
    or right after a '+' that is not its first character. *)
Fixpoint cut (char_signed : bool) (piece text : string) : list string :=
  match text with
  | "" => nonempty_piece piece
  | String c text' =>
    if delimiter char_signed c then nonempty_piece piece ++ cut char_signed "" text'
    else if Ascii.eqb c "+" && negb (String.eqb piece "")
    then (piece ++ "+")%string :: cut char_signed "" text'
    else cut char_signed (piece ++ String c "")%string text'
  end%list.

Definition report_groups (char_signed : bool) (report : string) : list string :=
  cut char_signed "" (before_end_indicator report).
