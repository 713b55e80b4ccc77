(** C86 and C87: the stations on the web page of the summary. *)
From Coq Require Import String List ZArith.
From Verif Require Import Prim Float Values Summary Page SpecSumNumbers SpecPage SpecStations.
From Verif Require Import Pf_SumRefuted Pf_Stations.
Import ListNotations.
Local Open Scope string_scope.

(** *** C86: the data of the stations *)
(** There is exactly one entry for each station named in a METAR or TAF, *)
Theorem C86_stations :
  forall (D : Type) (distance : option string -> option string -> D) metars tafs stations,
    NoDup (map fst (addStationNames (AWCdataToMap distance metars tafs) stations))
    /\ forall id, In id (map fst (addStationNames (AWCdataToMap distance metars tafs) stations))
       <-> exists e, In e (metars ++ tafs)%list /\ about id e.
Proof. exact station_once. Qed.
Print Assumptions C86_stations.
(** in the order in which they are named first, *)
Theorem C86_order :
  forall (D : Type) (distance : option string -> option string -> D) metars tafs stations, exists ids,
    Forall2 about ids (metars ++ tafs)%list
    /\ first_occurrences ids (map fst (addStationNames (AWCdataToMap distance metars tafs) stations)).
Proof. exact station_ids. Qed.
Print Assumptions C86_order.
(** and it has the last METAR, the last TAF and the last name of that station, and the position from its METAR, or else from its
    first TAF. *)
Theorem C86_data :
  forall (D : Type) (distance : option string -> option string -> D) metars tafs stations id d,
    In (id, d) (addStationNames (AWCdataToMap distance metars tafs) stations) -> station_data distance metars tafs stations id d.
Proof. exact stations_told. Qed.
Print Assumptions C86_data.
Example C86_nonvacuous :
  let m := [[("raw_text", "METAR ZZZZ 010000Z 9999="); ("station_id", "ZZZZ"); ("latitude", "1")]; [("station_id", "YYYY"); ("raw_text", "METAR YYYY 010000Z 2000=")]] in
  let t := [[("station_id", "XXXX"); ("latitude", "2"); ("longitude", "3"); ("raw_text", "TAF XXXX 010000Z NIL=")]; [("station_id", "ZZZZ"); ("raw_text", "TAF ZZZZ 010000Z NIL="); ("latitude", "9")]] in
  let s := [[("station_id", "WWWW"); ("site", "W")]; [("site", "Z"); ("station_id", "ZZZZ")]] in
  addStationNames (AWCdataToMap (fun _ _ => tt) m t) s =
  [(Some "ZZZZ", mkStationData (Some "Z") (Some "1") None tt (Some "METAR ZZZZ 010000Z 9999=") (Some "TAF ZZZZ 010000Z NIL="));
   (Some "YYYY", mkStationData (Some "") None None tt (Some "METAR YYYY 010000Z 2000=") (Some ""));
   (Some "XXXX", mkStationData (Some "") (Some "2") (Some "3") tt (Some "") (Some "TAF XXXX 010000Z NIL="))]
  /\ forall e, In e (m ++ t)%list -> exists text, content "raw_text" e (Some text).
Proof. exact stations_example. Qed.

(** *** C87: all stations are displayed *)
(** If each METAR and TAF comes with the text of the report, all stations are displayed in their order, with name, distance, widget
    and text. The full property has no such condition; and nothing is said here of names which are undefined. *)
Theorem C87_displayed_partial :
  forall (pow : flt -> flt -> flt), pow_tame pow ->
  forall (D : Type) clock sgn (distance : option string -> option string -> D) (distance_text : D -> string) year month day imperial metars tafs stations,
    (forall e, In e (metars ++ tafs)%list -> exists text, content "raw_text" e (Some text)) ->
    exists items, displayStations clock pow sgn distance_text year month day imperial (addStationNames (AWCdataToMap distance metars tafs) stations) = (items, None)
      /\ Forall2 (fun kd item => station_item clock pow sgn distance_text year month day imperial (snd kd) item)
           (addStationNames (AWCdataToMap distance metars tafs) stations) items.
Proof. exact page_shown. Qed.
Print Assumptions C87_displayed_partial.
(** Otherwise the stations up to the first one without text are displayed, *)
Theorem C87_first_partial :
  forall (pow : flt -> flt -> flt), pow_tame pow ->
  forall (D : Type) clock sgn (distance_text : D -> string) year month day imperial (data after : list (option string * StationData D)) id d,
    Forall (fun kd => complete (snd kd)) data -> ~ complete d ->
    exists items, displayStations clock pow sgn distance_text year month day imperial (data ++ (id, d) :: after)%list = (items, Some Throw)
      /\ Forall2 (fun kd item => station_item clock pow sgn distance_text year month day imperial (snd kd) item) data items.
Proof. exact first_stations_shown. Qed.
Print Assumptions C87_first_partial.
(** so that one such station hides another one whose report is known; *)
Theorem C87_hidden_refuted :
  exists metars, (exists e report, In e metars /\ about (Some "YYYY") e /\ content "raw_text" e (Some report)) /\
  forall (D : Type) pow clock sgn (distance : option string -> option string -> D) (distance_text : D -> string) year month day imperial,
    displayStations clock pow sgn distance_text year month day imperial (addStationNames (AWCdataToMap distance metars []) []) = ([], Some Throw).
Proof. exact display_stops. Qed.
Print Assumptions C87_hidden_refuted.
(** and a station listed without name is displayed as "undefined", not as "NAME UNKNOWN". *)
Theorem C87_name_refuted :
  exists metars stations, (exists e, In e stations /\ about (Some "ZZZZ") e) /\
  forall (pow : flt -> flt -> flt), pow_tame pow ->
  forall (D : Type) clock sgn (distance : option string -> option string -> D) (distance_text : D -> string) year month day imperial,
    exists d item, addStationNames (AWCdataToMap distance metars []) stations = [(Some "ZZZZ", d)]
      /\ displayStations clock pow sgn distance_text year month day imperial [(Some "ZZZZ", d)] = ([item], None)
      /\ contains (element "div" "weatherstation" ("undefined (" ++ distance_text (sd_distKm d) ++ " away)")) item.
Proof. exact name_undefined. Qed.
Print Assumptions C87_name_refuted.
(** The condition on [pow], and one station which is not complete between two which are. *)
Example C87_nonvacuous :
  pow_tame pow_one
  /\ map (fun kd => (fst kd, sd_metar (snd kd)))
       (AWCdataToMap (fun _ _ => tt) [[("station_id", "ZZZZ"); ("raw_text", "METAR ZZZZ=")]; [("station_id", "YYYY")]; [("station_id", "XXXX"); ("raw_text", "METAR XXXX=")]] [])
     = [(Some "ZZZZ", Some "METAR ZZZZ="); (Some "YYYY", None); (Some "XXXX", Some "METAR XXXX=")].
Proof. split; [exact pow_one_tame|reflexivity]. Qed.
