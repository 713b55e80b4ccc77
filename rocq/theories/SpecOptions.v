(** What the properties of the options of the summary page are stated with. *)
From Coq Require Import List NArith String Ascii.
From Verif Require Import Prim ExplainPage SpecLink Options.
Import ListNotations.
Local Open Scope N_scope.

(** What is known of numbers in JavaScript: the text of a number consists of letters, digits, points and signs and is read as this
    number. *)
Definition numeric_character (c : N) : Prop :=
  In (ascii_of_N c) (list_ascii_of_string "0123456789.+-eInfity") /\ c < 128.
Definition numbers_are_read_back (other : jstring -> Number) : Prop :=
  forall q, match other q with
            | NaN => True
            | d => Forall numeric_character (number_text d) /\ toNumber other (Some (number_text d)) = d
            end.
(** The options: the units, and the distance within which stations are shown *)
Record Choice := mkChoice { imperial : bool; distance : Number }.
Definition in_effect (other : jstring -> Number) (query : jstring) (c : Choice) : Prop :=
  shownUnitImperial query = Ok (imperial c) /\ requestDistance other query = Ok (distance c).
Definition offered : list N := [3; 10; 30; 75; 140; 320; 500].
Definition choose (k : Click) (c : Choice) : Choice :=
  match k with
  | Metric => mkChoice false (distance c)
  | Imperial => mkChoice true (distance c)
  | Within n => mkChoice (imperial c) (Whole n)
  end.
Definition is_offered (k : Click) : Prop := match k with Within n => In n offered | _ => True end.

(** A query with these parameters, as name and value, the values encoded *)
Inductive query_with : list (jstring * jstring) -> jstring -> Prop :=
| query_one : forall n v f, encodeURIComponent v = Some f -> query_with [(n, v)] (n ++ 61 :: f)
| query_more : forall n v f ps q, encodeURIComponent v = Some f -> query_with ps q ->
    query_with ((n, v) :: ps) (n ++ 61 :: f ++ 38 :: q).
(** The name has no ampersand and no equals sign, and the value is a text. *)
Definition proper_parameter (p : jstring * jstring) : Prop :=
  ~ In 38 (fst p) /\ ~ In 61 (fst p) /\ exists vs, text_of vs (snd p).
(** The last value with this name *)
Inductive last_value (name : jstring) : list (jstring * jstring) -> option jstring -> Prop :=
| no_value : forall ps, (forall v, ~ In (name, v) ps) -> last_value name ps None
| some_value : forall ps v rest, (forall w, ~ In (name, w) rest) -> last_value name (ps ++ (name, v) :: rest) (Some v).
