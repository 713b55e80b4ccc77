(** C100: the requests of the page examples/shellfiles/summary_shell.html. *)
From Coq Require Import List String ZArith NArith Permutation.
From Verif Require Import Prim Float Format Summary Page Pf_SumRefuted PageFlow SpecFlow Pf_Flow.
Import ListNotations.
Local Open Scope string_scope.

(** *** C100: the page tells what has become of the requests *)
(** When the three answers have come, in whatever order, the page has the messages of their errors, the number of aerodromes and the
    items of the stations (C86, C87). *)
Theorem C100_shown :
  forall (P D : Type) (pow : flt -> flt -> flt) (sgn : bool) (clock : Z -> Z -> Z -> Z -> Z -> Z -> Z * Z * Z)
    (distance : P -> option string -> option string -> D) (distStr : D -> string) (year month day : Z) (imperial : bool)
    (pos : P) (om : Z) (m : XMLDocument) (ot : Z) (t : XMLDocument) (os : Z) (s : XMLDocument)
    (data : list (option string * StationData D)) (items : list string) (e : option err) (l : list (FlowEvent P)),
    Permutation l [Arrived Metars (Response om (Some m)); Arrived Tafs (Response ot (Some t)); Arrived Stations (Response os (Some s))] ->
    data = addStationNames (AWCdataToMap (distance pos) (doc_metars m) (doc_tafs t)) (doc_stations s) ->
    displayStations (clock om) pow sgn distStr year month day imperial data = (items, e) ->
    html (flow pow sgn clock distance distStr year month day imperial (PositionFound pos :: l)) =
    errors_item "METAR errors" m ++ errors_item "TAF errors" t ++ errors_item "Station data errors" s ++
    count_item (N.of_nat (List.length data)) ++ String.concat "" items.
Proof. exact @all_shown. Qed.
Print Assumptions C100_shown.
(** As long as an answer is missing, the page says that it is waiting for data. *)
Theorem C100_waiting :
  forall (P D : Type) (pow : flt -> flt -> flt) (sgn : bool) (clock : Z -> Z -> Z -> Z -> Z -> Z -> Z * Z * Z)
    (distance : P -> option string -> option string -> D) (distStr : D -> string) (year month day : Z) (imperial : bool)
    (pos : P) (src : Source) (l : list (FlowEvent P)),
    (forall r, ~ In (Arrived src r) l) ->
    html (flow pow sgn clock distance distStr year month day imperial (PositionFound pos :: l)) = "Retreiving weather data...".
Proof. exact @waiting. Qed.
Print Assumptions C100_waiting.
(** If the position is not found, the page says so. *)
Theorem C100_position :
  forall (P D : Type) (pow : flt -> flt -> flt) (sgn : bool) (clock : Z -> Z -> Z -> Z -> Z -> Z -> Z * Z * Z)
    (distance : P -> option string -> option string -> D) (distStr : D -> string) (year month day : Z) (imperial : bool)
    (l l' : list (FlowEvent P)),
    (forall p, ~ In (PositionFound p) l) ->
    html (flow pow sgn clock distance distStr year month day imperial (l ++ PositionFailed :: l')%list) = "Unable to acquire position".
Proof. exact @position_failed. Qed.
Print Assumptions C100_position.
Example C100_nonvacuous :
  let none := mkXMLDocument [] [] [] [] in
  let wrong := mkXMLDocument [] [] [] [[None; Some "no such field"]] in
  html (flow pow_one true (fun _ _ _ _ _ _ => (0, 0, 0)%Z) (fun (_ : unit) _ _ => tt) (fun _ => "1 km") 2020 1 1 false
    [PositionFound tt; Arrived Stations (Response 0 (Some none)); Arrived Metars (Response 0 (Some wrong));
     Arrived Tafs (Response 0 (Some none))])
  = "<div class=""weatherdataitem"">" ++ js_newline 5 ++ "<div class=""weatherstation"">METAR errors</div>" ++
    js_newline 5 ++ "no such field<br>" ++ js_newline 4 ++ "</div>" ++
    "<div class=""weatherdataitem"">No aerodromes within selected range</div>".
Proof. vm_compute. reflexivity. Qed.
(** But if a request fails, the page goes on to say that it is waiting, whatever comes after; *)
Theorem C100_failure_refuted :
  forall (P D : Type) (pow : flt -> flt -> flt) (sgn : bool) (clock : Z -> Z -> Z -> Z -> Z -> Z -> Z * Z * Z)
    (distance : P -> option string -> option string -> D) (distStr : D -> string) (year month day : Z) (imperial : bool)
    (pos : P) (m t s : FetchResult) (l l' : list (FlowEvent P)),
    Permutation l [Arrived Metars m; Arrived Tafs t; Arrived Stations s] -> failed m \/ failed t \/ failed s ->
    html (flow pow sgn clock distance distStr year month day imperial (PositionFound pos :: l ++ l')%list) = "Retreiving weather data...".
Proof. exact @data_lost. Qed.
Print Assumptions C100_failure_refuted.
(** the message for this case is never shown. *)
Theorem C100_message_refuted :
  forall (P D : Type) (pow : flt -> flt -> flt) (sgn : bool) (clock : Z -> Z -> Z -> Z -> Z -> Z -> Z * Z * Z)
    (distance : P -> option string -> option string -> D) (distStr : D -> string) (year month day : Z) (imperial : bool)
    (es : list (FlowEvent P)),
    html (flow pow sgn clock distance distStr year month day imperial es) <> "Unable to retreive weather data".
Proof. exact @never_told. Qed.
Print Assumptions C100_message_refuted.
