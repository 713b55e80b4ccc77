(** The options of the page of the program examples/summary.cpp: examples/shellfiles/summary_shell.html. Definitions only.

    Strings of JavaScript as in ExplainPage.v. *)
From Coq Require Import List String Ascii NArith Bool.
From Verif Require Import Prim Format ExplainPage.
Import ListNotations.
Local Open Scope N_scope.

Fixpoint js_eqb (a b : jstring) : bool :=
  match a, b with
  | [], [] => true
  | x :: a', y :: b' => (x =? y) && js_eqb a' b'
  | _, _ => false
  end.
(** String.prototype.split with one character *)
Fixpoint js_split (c : N) (s : jstring) : list jstring :=
  match s with
  | [] => [[]]
  | x :: r =>
    if x =? c then [] :: js_split c r
    else match js_split c r with h :: t => (x :: h) :: t | [] => [[x]] end
  end.

(** A number of JavaScript: not a number, a whole number that is not negative, or another one with its text *)
Inductive Number := NaN | Whole (n : N) | Other (text : jstring).
Definition digit_value (c : N) : option N := if (48 <=? c) && (c <=? 57) then Some (c - 48) else None.
Fixpoint digits_value (acc : N) (s : jstring) : option N :=
  match s with
  | [] => Some acc
  | c :: r => match digit_value c with Some d => digits_value (acc * 10 + d) r | None => None end
  end.
(** Number(): null and the empty string give zero, digits their value. What it gives for other strings, and for numbers that
    are not exact, is the parameter [other]. *)
Definition toNumber (other : jstring -> Number) (v : option jstring) : Number :=
  match v with
  | None => Whole 0
  | Some [] => Whole 0
  | Some s =>
    match digits_value 0 s with
    | Some n => if n <? 9007199254740992 then Whole n else other s
    | None => other s
    end
  end.
Definition number_text (d : Number) : jstring :=
  match d with NaN => js "NaN" | Whole n => js (dec_N n) | Other t => t end.

(** summary_shell.html:946-956; [query] is location.search without the question mark. [Bad Throw]: URIError. An item without equals
    sign has no second part, and decodeURIComponent(undefined) is "undefined". *)
Fixpoint find_loop (name : jstring) (items : list jstring) (result : option jstring) : res (option jstring) :=
  match items with
  | [] => Ok result
  | item :: r =>
    match js_split 61 item with
    | first :: rest =>
      if js_eqb first name then
        match rest with
        | [] => find_loop name r (Some (js "undefined"))
        | second :: _ =>
          match decodeURIComponent second with
          | Some v => find_loop name r (Some v)
          | None => Bad Throw
          end
        end
      else find_loop name r result
    | [] => find_loop name r result
    end
  end.
Definition findGetParameter (query : jstring) (name : string) : res (option jstring) :=
  find_loop (js name) (js_split 38 query) None.

Definition unitIsImperial (query : jstring) : res bool :=
  let! v := findGetParameter query "unit" in
  Ok (match v with Some u => js_eqb u (js "imperial") | None => false end).
(** The value of a number as a condition *)
Definition falsy (d : Number) : bool := match d with NaN => true | Whole n => n =? 0 | Other _ => false end.
Definition isNaN (d : Number) : bool := match d with NaN => true | _ => false end.

(** An entry of a list of options: whether it is marked as being on, and the query of its link without the question mark *)
Record OptionEntry := mkOptionEntry { entry_on : bool; entry_query : jstring }.
(** summary_shell.html:958-968: metric and imperial. The text around the links is left out. *)
Definition displayUnitOptions (imperialUnits : bool) (distance : Number) : OptionEntry * OptionEntry :=
  (mkOptionEntry (if imperialUnits then false else true) (js "distance=" ++ number_text distance),
   mkOptionEntry (if imperialUnits then true else false) (js "distance=" ++ number_text distance ++ js "&unit=imperial"))%list.
Definition same_number (d : Number) (n : N) : bool := match d with Whole m => m =? n | _ => false end.
(** summary_shell.html:970-991 *)
Definition displayDistanceOptions (imperialUnits : bool) (distance : Number) : list (N * OptionEntry) :=
  let unitParam := if imperialUnits then js "&unit=imperial" else [] in
  [(3, mkOptionEntry (same_number distance 3) (js "distance=3" ++ unitParam));
   (10, mkOptionEntry (same_number distance 10) (js "distance=10" ++ unitParam));
   (30, mkOptionEntry (same_number distance 30) (js "distance=30" ++ unitParam));
   (75, mkOptionEntry (same_number distance 75) (js "distance=75" ++ unitParam));
   (140, mkOptionEntry (same_number distance 140) (js "distance=140" ++ unitParam));
   (320, mkOptionEntry (same_number distance 320) (js "distance=320" ++ unitParam));
   (500, mkOptionEntry (same_number distance 500) (js "distance=500" ++ unitParam))]%list.
(** summary_shell.html:1141-1147 *)
Definition updateOptions (other : jstring -> Number) (query : jstring)
  : res ((OptionEntry * OptionEntry) * list (N * OptionEntry)) :=
  let! paramUnit := unitIsImperial query in
  let! v := findGetParameter query "distance" in
  let paramDistance := toNumber other v in
  let paramDistance := if falsy paramDistance || isNaN paramDistance then Whole 30 else paramDistance in
  Ok (displayUnitOptions paramUnit paramDistance, displayDistanceOptions paramUnit paramDistance).
(** summary_shell.html:1112-1121: the distance with which weather data are requested (1065-1069) *)
Definition requestDistance (other : jstring -> Number) (query : jstring) : res Number :=
  let! v := findGetParameter query "distance" in
  let distance := toNumber other v in
  Ok (if isNaN distance || falsy distance then Whole 30 else distance).
(** summary_shell.html:1093: the units in which they are shown *)
Definition shownUnitImperial (query : jstring) : res bool := unitIsImperial query.

(** What the user clicks *)
Inductive Click := Metric | Imperial | Within (miles : N).
(** The link of an option *)
Definition link_of (c : Click) (p : (OptionEntry * OptionEntry) * list (N * OptionEntry)) : option jstring :=
  match c with
  | Metric => Some (entry_query (fst (fst p)))
  | Imperial => Some (entry_query (snd (fst p)))
  | Within n => option_map (fun e => entry_query (snd e)) (find (fun e => fst e =? n) (snd p))
  end.
(** The query after the clicks; there is no link for a distance that is not offered. *)
Fixpoint follow (other : jstring -> Number) (cs : list Click) (query : jstring) : res jstring :=
  match cs with
  | [] => Ok query
  | c :: r =>
    let! p := updateOptions other query in
    match link_of c p with
    | Some q => follow other r q
    | None => follow other r query
    end
  end.
