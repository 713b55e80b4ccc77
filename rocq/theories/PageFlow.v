(** How the page of the program examples/summary.cpp, examples/shellfiles/summary_shell.html, gets its data. Definitions only. *)
From Coq Require Import List String Ascii ZArith NArith Bool.
From Verif Require Import Prim Float Format Summary Page.
Import ListNotations.
Local Open Scope string_scope.

(** ** Promises *)

(** What has become of a promise *)
Inductive Settled (A : Type) := Fulfilled (a : A) | Rejected.
Arguments Fulfilled {A}. Arguments Rejected {A}.
Definition then_ {A B : Type} (p : Settled A) (f : A -> Settled B) : Settled B :=
  match p with Fulfilled a => f a | Rejected => Rejected end.
Definition catch_ {A : Type} (p h : Settled A) : Settled A :=
  match p with Fulfilled a => Fulfilled a | Rejected => h end.

(** ** A request *)

(** An XML document: the child nodes of its elements METAR, TAF and Station, and the inner HTML of the child nodes of its elements
    errors, [None] if it is undefined or null *)
Record XMLDocument := mkXMLDocument
  { doc_metars : list (list js_node); doc_tafs : list (list js_node); doc_stations : list (list js_node);
    doc_errors : list (list (option string)) }.
(** What comes of fetch: it is rejected, or there is a response; of this the offset of its date from the local time in minutes
    (summary_shell.html:79-83) and the document; the body may fail to arrive ([None]). The parser for XML gives a document for every
    text. *)
Inductive FetchResult := NetworkError | Response (offset : Z) (body : option XMLDocument).
(** summary_shell.html:108-125. undefined is [None]. *)
Definition fetchAndParseXML (r : FetchResult) : Settled (option (XMLDocument * Z)) :=
  let fetched := match r with NetworkError => Rejected | Response o b => Fulfilled (Some (o, b)) end in
  let fetched := catch_ fetched (Fulfilled None) in
  let response := then_ fetched (fun r => match r with Some r => Fulfilled r | None => Rejected end) in
  let text := then_ response (fun r =>
    match snd r with Some d => Fulfilled (Some (d, fst r)) | None => Rejected end) in
  catch_ text (Fulfilled None).

(** ** The display *)

(** summary_shell.html:895-900 *)
Definition displayAerodromeCount (count : N) : string :=
  let aerodromes := if (count =? 1)%N then "aerodrome" else "aerodromes" in
  let c := if (0 <? count)%N then dec_N count else "No" in
  "<div class=""weatherdataitem"">" ++ c ++ " " ++ aerodromes ++ " within selected range</div>".
(** summary_shell.html:993-1014 *)
Definition displayErrors (caption : string) (errors : list (list (option string))) : string :=
  let (result, displayResult) :=
    fold_left (fun (acc : string * bool) (e : list (option string)) =>
      fold_left (fun (acc : string * bool) (value : option string) =>
        match value with Some m => (fst acc ++ m ++ "<br>", true) | None => acc end) e acc)
    errors ("", false) in
  if displayResult then
    "<div class=""weatherdataitem"">" ++ js_newline 5 ++ "<div class=""weatherstation"">" ++ caption ++ "</div>" ++
    js_newline 5 ++ result ++ js_newline 4 ++ "</div>"
  else "".

(** ** The page *)

Inductive Source := Metars | Tafs | Stations.
(** What happens: the position of the user is found or not, an answer arrives *)
Inductive FlowEvent (P : Type) := PositionFound (pos : P) | PositionFailed | Arrived (s : Source) (r : FetchResult).
Arguments PositionFound {P}. Arguments PositionFailed {P}. Arguments Arrived {P}.
(** The three promises given to Promise.all, in their order; [None] is pending *)
Definition Slot := option (Settled (option (XMLDocument * Z))).
Inductive Phase (P : Type) := Locating | Requesting (pos : P) (metars tafs stations : Slot) | Finished.
Arguments Locating {P}. Arguments Requesting {P}. Arguments Finished {P}.
(** [html] is the inner HTML of the element weatherdataid. *)
Record FlowState (P : Type) := mkFlowState { html : string; phase : Phase P }.
Arguments mkFlowState {P}. Arguments html {P}. Arguments phase {P}.

(** summary_shell.html:1078-1109: the page after the data have been processed; [old] is the page before. An element of the answers
    which is undefined makes an exception, which is caught; so is an exception at a station. [clock] depends on the offset of the
    answer with the METARs. *)
Definition processData {P D : Type} (pow : flt -> flt -> flt) (sgn : bool)
  (clock : Z -> Z -> Z -> Z -> Z -> Z -> Z * Z * Z) (distanceKm : P -> option string -> option string -> D)
  (distStr : D -> string) (year month day : Z) (imperialUnits : bool) (pos : P)
  (metars tafs stations : option (XMLDocument * Z)) (old : string) : string :=
  match metars, tafs, stations with
  | Some (m, timeOffset), Some (t, _), Some (s, _) =>
    let weatherData := addStationNames (AWCdataToMap (distanceKm pos) (doc_metars m) (doc_tafs t)) (doc_stations s) in
    displayErrors "METAR errors" (doc_errors m) ++ displayErrors "TAF errors" (doc_errors t) ++
    displayErrors "Station data errors" (doc_errors s) ++
    displayAerodromeCount (N.of_nat (List.length weatherData)) ++
    String.concat "" (fst (displayStations (clock timeOffset) pow sgn distStr year month day imperialUnits weatherData))
  | _, _, _ => old
  end.

Definition fill (s : Source) (v : Slot) (m t st : Slot) : Slot * Slot * Slot :=
  match s with Metars => (v, t, st) | Tafs => (m, v, st) | Stations => (m, t, v) end.
Definition slot (s : Source) (m t st : Slot) : Slot := match s with Metars => m | Tafs => t | Stations => st end.
(** summary_shell.html:1065-1110 and 1112-1139. Promise.all is rejected with the first promise that is, and fulfilled as soon as all
    three are. If it is rejected, the first handler shows a message and the second one gets undefined, which makes another
    exception, which is caught. *)
Definition on_flow {P D : Type} (pow : flt -> flt -> flt) (sgn : bool)
  (clock : Z -> Z -> Z -> Z -> Z -> Z -> Z * Z * Z) (distanceKm : P -> option string -> option string -> D)
  (distStr : D -> string) (year month day : Z) (imperialUnits : bool) (st : FlowState P) (e : FlowEvent P) : FlowState P :=
  match phase st, e with
  | Locating, PositionFound pos => mkFlowState "Retreiving weather data..." (Requesting pos None None None)
  | Locating, PositionFailed => mkFlowState "Unable to acquire position" Finished
  | Requesting pos m t s, Arrived src r =>
    match slot src m t s with
    | Some _ => st
    | None =>
      let '(m, t, s) := fill src (Some (fetchAndParseXML r)) m t s in
      match m, t, s with
      | Some Rejected, _, _ | _, Some Rejected, _ | _, _, Some Rejected =>
        mkFlowState "Unable to retreive weather data" Finished
      | Some (Fulfilled m), Some (Fulfilled t), Some (Fulfilled s) =>
        mkFlowState (processData pow sgn clock distanceKm distStr year month day imperialUnits pos m t s (html st)) Finished
      | _, _, _ => mkFlowState (html st) (Requesting pos m t s)
      end
    end
  | _, _ => st
  end.
(** The page after the program has started (1149-1153) and these events. *)
Definition flow {P D : Type} (pow : flt -> flt -> flt) (sgn : bool)
  (clock : Z -> Z -> Z -> Z -> Z -> Z -> Z * Z * Z) (distanceKm : P -> option string -> option string -> D)
  (distStr : D -> string) (year month day : Z) (imperialUnits : bool) (es : list (FlowEvent P)) : FlowState P :=
  fold_left (on_flow pow sgn clock distanceKm distStr year month day imperialUnits) es
    (mkFlowState "Geolocating..." Locating).
