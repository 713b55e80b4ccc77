(** Specification of the data of the stations on the page of the summary (C86, C87). *)
From Coq Require Import String List ZArith.
From Verif Require Import Prim Float Summary Page SpecPage.
Import ListNotations.
Local Open Scope string_scope.

(** ** Elements of the answers *)
(** The last and the first element of a list with some property *)
Definition last_of {A : Type} (P : A -> Prop) (l : list A) (o : option A) : Prop :=
  match o with
  | Some x => exists before after, l = (before ++ x :: after)%list /\ P x /\ forall y, In y after -> ~ P y
  | None => forall y, In y l -> ~ P y
  end.
Definition first_of {A : Type} (P : A -> Prop) (l : list A) (o : option A) : Prop :=
  match o with
  | Some x => exists before after, l = (before ++ x :: after)%list /\ P x /\ forall y, In y before -> ~ P y
  | None => forall y, In y l -> ~ P y
  end.

(** The content of the child of that name; of the last one if there are many *)
Definition content (name : string) (element : list (string * string)) (v : option string) : Prop :=
  exists child, last_of (fun c => fst c = name) element child /\ v = option_map snd child.
Definition about (id : option string) (element : list (string * string)) : Prop := content "station_id" element id.

(** What is known of a station from an element of an answer; nothing is known if there is none *)
Definition told (element : option (list (string * string))) (name : string) (v : option string) : Prop :=
  match element with
  | Some e => content name e v
  | None => v = Some ""
  end.

(** The data of a station: METAR, TAF and name from the last elements about it, the position from its METAR, or from its first TAF
    if it has no METAR *)
Definition station_data {D : Type} (distance : option string -> option string -> D)
  (metars tafs stations : list (list (string * string))) (id : option string) (d : StationData D) : Prop :=
  exists metar taf station place,
    last_of (about id) metars metar /\ last_of (about id) tafs taf /\ last_of (about id) stations station
    /\ (metar = Some place \/ metar = None /\ first_of (about id) tafs (Some place))
    /\ told metar "raw_text" (sd_metar d) /\ told taf "raw_text" (sd_taf d) /\ told station "site" (sd_name d)
    /\ content "latitude" place (sd_lat d) /\ content "longitude" place (sd_lon d)
    /\ sd_distKm d = distance (sd_lat d) (sd_lon d).

(** The elements of a list in the order of their first occurrences *)
Inductive first_occurrences {A : Type} : list A -> list A -> Prop :=
| fo_nil : first_occurrences [] []
| fo_again : forall l k x, first_occurrences l k -> In x k -> first_occurrences (l ++ [x])%list k
| fo_new : forall l k x, first_occurrences l k -> ~ In x k -> first_occurrences (l ++ [x])%list (k ++ [x])%list.

(** ** The stations on the page *)
Definition complete {D : Type} (d : StationData D) : Prop := sd_metar d <> None /\ sd_taf d <> None.

(** The text of a station: its name, its distance, its widget and its text *)
Definition station_item {D : Type} (clock : Z -> Z -> Z -> Z -> Z -> Z * Z * Z) (pow : flt -> flt -> flt) (sgn : bool)
  (distance_text : D -> string) (year month day : Z) (imperial : bool) (d : StationData D) (item : string) : Prop :=
  exists metar taf w widget text,
    sd_metar d = Some metar /\ sd_taf d = Some taf
    /\ getCurrentWeather pow sgn metar taf year month day imperial = Ok w
    /\ makeWeatherWidget (adaptCurrentWeather w js_valueNotSpecified) imperial = Ok widget
    /\ currentWeatherToHTML clock (adaptCurrentWeather w js_valueNotSpecified) imperial "<br>" = Ok text
    /\ contains (element "div" "widget" widget) item /\ contains (element "div" "weathertext" text) item
    /\ (forall name, sd_name d = Some name -> name <> "" ->
        contains (element "div" "weatherstation" (name ++ " (" ++ distance_text (sd_distKm d) ++ " away)")) item)
    /\ (sd_name d = Some "" ->
        contains (element "div" "weatherstation" ("NAME UNKNOWN" ++ " (" ++ distance_text (sd_distKm d) ++ " away)")) item).
