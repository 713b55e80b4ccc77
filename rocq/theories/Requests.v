(** The addresses from which the page examples/shellfiles/summary_shell.html requests weather data. Definitions only. *)
From Coq Require Import List String NArith ZArith.
From Verif Require Import Prim Page ExplainPage Options.
Import ListNotations.
Local Open Scope string_scope.

(** summary_shell.html:1066-1068: ${distance};${longitude},${latitude}. The coordinates, which 1113-1114 round, are given in hundredths
    of a degree. *)
Definition radialDistance (distance : Number) (latitude longitude : Z) : jstring :=
  (number_text distance ++ js ";" ++ js (js_quotient 2 longitude) ++ js "," ++ js (js_quotient 2 latitude))%list.
(** summary_shell.html:1066 *)
Definition metarUrl (distance : Number) (latitude longitude : Z) : jstring :=
  (js "https://cors-anywhere.herokuapp.com/https://www.aviationweather.gov/adds/dataserver_current/httpparam?dataSource=metars&requestType=retrieve&format=xml&radialDistance="
   ++ radialDistance distance latitude longitude ++ js "&hoursBeforeNow=3&mostRecentForEachStation=true")%list.
(** summary_shell.html:1067 *)
Definition tafUrl (distance : Number) (latitude longitude : Z) : jstring :=
  (js "https://cors-anywhere.herokuapp.com/https://www.aviationweather.gov/adds/dataserver_current/httpparam?dataSource=tafs&requestType=retrieve&format=xml&radialDistance="
   ++ radialDistance distance latitude longitude ++ js "&hoursBeforeNow=24&mostRecentForEachStation=true")%list.
(** summary_shell.html:1068 *)
Definition stationUrl (distance : Number) (latitude longitude : Z) : jstring :=
  (js "https://cors-anywhere.herokuapp.com/https://www.aviationweather.gov/adds/dataserver_current/httpparam?dataSource=stations&requestType=retrieve&format=xml&radialDistance="
   ++ radialDistance distance latitude longitude ++ js "&fields=station_id,site")%list.
(** summary_shell.html:1112-1121 and 1065-1073: the addresses requested when the position is found on the page with this query *)
Definition requestAddresses (other : jstring -> Number) (query : jstring) (latitude longitude : Z) : res (list jstring) :=
  let! distance := requestDistance other query in
  Ok [metarUrl distance latitude longitude; tafUrl distance latitude longitude; stationUrl distance latitude longitude].
