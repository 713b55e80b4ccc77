(** What the properties of the requests of the summary page are stated with. *)
From Coq Require Import List String NArith ZArith.
From Verif Require Import Prim Format Page PageFlow.
Import ListNotations.
Local Open Scope string_scope.

(** No document comes of the request. *)
Definition failed (r : FetchResult) : Prop := r = NetworkError \/ exists offset, r = Response offset None.
(** The messages in the elements errors of a document, in order *)
Definition messages (d : XMLDocument) : list string :=
  flat_map (fun v => match v with Some m => [m] | None => [] end) (List.concat (doc_errors d)).
(** The sentence about the number of aerodromes *)
Definition count_words (n : N) : string :=
  match n with
  | 0%N => "No aerodromes within selected range"
  | 1%N => "1 aerodrome within selected range"
  | _ => dec_N n ++ " aerodromes within selected range"
  end.
(** The item for the messages of a document, if there are any: each ends a line *)
Definition errors_item (caption : string) (d : XMLDocument) : string :=
  match messages d with
  | [] => ""
  | ms => "<div class=""weatherdataitem"">" ++ js_newline 5 ++ "<div class=""weatherstation"">" ++ caption ++ "</div>" ++
      js_newline 5 ++ String.concat "" (map (fun m => m ++ "<br>") ms) ++ js_newline 4 ++ "</div>"
  end.
Definition count_item (n : N) : string := "<div class=""weatherdataitem"">" ++ count_words n ++ "</div>".
