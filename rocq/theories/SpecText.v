(** Specification for C05-C08: what the raw strings of the result say about the report. *)
From Verif Require Import Prim Values Weather Groups1 Groups2 Groups3 Groups4 Parser.
Local Open Scope string_scope.

(** The words of a text: its maximal non-empty pieces without spaces. *)
Definition nonempty_word (s : string) : list string := match s with "" => [] | _ => [s] end.
Fixpoint words_from (piece text : string) : list string :=
  match text with
  | "" => nonempty_word piece
  | String c text' =>
    if Ascii.eqb c " " then nonempty_word piece ++ words_from "" text'
    else words_from (piece ++ String c "")%string text'
  end%list.
Definition words_of (text : string) : list string := words_from "" text.

(** All words of the result, in order. *)
Definition words_of_result (r : ParseResult) : list string :=
  flat_map (fun i => words_of (gi_rawString i)) (pr_groups r).

(** Words joined by single spaces. *)
Fixpoint join_words (l : list string) : string :=
  match l with
  | [] => ""
  | [w] => w
  | w :: l' => w ++ " " ++ join_words l'
  end.

Definition is_unknown (i : GroupInfo) : bool :=
  match gi_group i with GUnknown _ => true | _ => false end.
(** No two neighbours in the list satisfy [p]. *)
Fixpoint no_two_adjacent {A : Type} (p : A -> bool) (l : list A) : Prop :=
  match l with
  | x :: ((y :: _) as l') => ~ (p x = true /\ p y = true) /\ no_two_adjacent p l'
  | _ => True
  end.
