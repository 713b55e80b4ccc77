(** Specification for C02-C04, C19: what reading all groups of a report means, and reports put
    together from given groups and delimiters. *)
From Verif Require Import Prim Regex Float Values Weather Groups1 Groups2 Groups3 Groups4 Parser.
From Verif Require Import SpecTokens.
Local Open Scope string_scope.

(** Reading groups until there are none left, as Parser::parse does *)
Inductive Reads (sgn : bool) (report : string) : ReportInput -> list string -> Prop :=
| Reads_end : forall i i', getNextGroup sgn report i = Ok ("", i') -> Reads sgn report i []
| Reads_group : forall i s i' l, getNextGroup sgn report i = Ok (s, i') -> s <> "" ->
    Reads sgn report i' l -> Reads sgn report i (s :: l).


(** The loop of Parser::parse over a list of groups *)
Fixpoint step_all (groupLimit : nat) (toks : list string) (p : ParserState) : res ParserState :=
  match toks with
  | [] => Ok p
  | s :: l =>
    if isError (ps_status p) then Ok p
    else let! p' := parse_step groupLimit s p in step_all groupLimit l p'
  end.
Definition parse_groups (groupLimit : nat) (toks : list string) : res ParseResult :=
  let! p := step_all groupLimit toks ps_init in parse_end p.

(** Every character of a string satisfies [P]. *)
Fixpoint all_chars (P : ascii -> Prop) (s : string) : Prop :=
  match s with "" => True | String c s' => P c /\ all_chars P s' end.

(** A group as it can appear in a report: not empty, no delimiter and no '=' in it, a '+' at most as
    its first and as its last character. *)
Definition inner (char_signed : bool) (c : ascii) : Prop :=
  delimiter char_signed c = false /\ c <> "="%char /\ c <> "+"%char.
Definition group_text (char_signed : bool) (s : string) : Prop :=
  exists (first : ascii) (middle last : string),
    s = String first (middle ++ last) /\ (last = "" \/ last = "+") /\
    delimiter char_signed first = false /\ first <> "="%char /\
    all_chars (inner char_signed) middle.

(** A string of delimiters. *)
Definition blank (char_signed : bool) (s : string) : Prop :=
  all_chars (fun c => delimiter char_signed c = true) s.

(** The report consisting of the given groups, each followed by its delimiters; [ds0] comes first. *)
Fixpoint assemble (gs : list (string * string)) : string :=
  match gs with
  | [] => ""
  | (g, d) :: gs' => g ++ d ++ assemble gs'
  end.
(** There are delimiters after every group but possibly the last. *)
Fixpoint separated (gs : list (string * string)) : Prop :=
  match gs with
  | [] => True
  | [_] => True
  | (_, d) :: gs' => d <> "" /\ separated gs'
  end.

Definition seven_bit (s : string) : Prop := all_chars (fun c => nat_of_ascii c < 128) s.

(** The text with all delimiters removed. *)
Fixpoint without_delimiters (char_signed : bool) (s : string) : string :=
  match s with
  | "" => ""
  | String c s' =>
    if delimiter char_signed c then without_delimiters char_signed s'
    else String c (without_delimiters char_signed s')
  end.
Fixpoint joined (l : list string) : string :=
  match l with [] => "" | s :: l' => s ++ joined l' end.
