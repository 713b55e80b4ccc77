(** Specification for C78: the characters of which groups are made up. *)
From Coq Require Import Ascii String List Bool NArith.
From Verif Require Import Prim Values Weather Groups1 Groups2 Groups3 Groups4 Parser.
Import ListNotations.
Local Open Scope string_scope.

(** Capital letters, digits and a few signs *)
Definition metar_char (c : ascii) : bool :=
  let n := N_of_ascii c in
  (N.leb 65 n && N.leb n 90) || (N.leb 48 n && N.leb n 57) || existsb (Ascii.eqb c) ["+"; "-"; "."; "/"; "$"]%char.
Definition metar_word (w : string) : Prop := forall a c b, w = a ++ String c b -> metar_char c = true.
(** A word which begins with LTG *)
Definition lightning_word (w : string) : Prop := exists t, w = "LTG" ++ t.
(** Groups of words which were not understood, and groups about lightning *)
Definition not_understood (g : Group) : Prop := match g with GUnknown _ => True | _ => False end.
Definition about_lightning (g : Group) : Prop := match g with GLightning _ => True | _ => False end.
