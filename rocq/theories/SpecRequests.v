(** Vocabulary of C103: how a server reads the address of a request. *)
From Coq Require Import List String NArith ZArith.
From Verif Require Import Prim ExplainPage Options.
Import ListNotations.
Local Open Scope N_scope.

(** Names and values as they are written: without ampersand, equals sign, percent sign and number sign *)
Definition written (s : jstring) : Prop := forall c, In c s -> ~ In c (js "&=%#").
(** and as they are read: a plus sign stands for a space *)
Definition spaces (s : jstring) : jstring := map (fun c => if c =? 43 then 32 else c) s.
Definition assignment (p : jstring * jstring) : jstring := fst p ++ js "=" ++ snd p.
Fixpoint assignments (ps : list (jstring * jstring)) : jstring :=
  match ps with
  | [] => []
  | [p] => assignment p
  | p :: rest => assignment p ++ js "&" ++ assignments rest
  end.
(** The address of a service, and the parameters it reads *)
Definition reads (address service : jstring) (ps : list (jstring * jstring)) : Prop :=
  exists raw, address = service ++ js "?" ++ assignments raw /\ raw <> []
    /\ Forall (fun p => written (fst p) /\ written (snd p)) raw /\ ps = map (fun p => (spaces (fst p), spaces (snd p))) raw.
(** The data server, which is asked through another one *)
Definition data_server : jstring :=
  js "https://cors-anywhere.herokuapp.com/https://www.aviationweather.gov/adds/dataserver_current/httpparam".
(** What is asked: reports of one kind that are not older than some hours, or stations, around a place *)
Definition ask_reports (kind hours : string) (place : jstring) : list (jstring * jstring) :=
  [(js "dataSource", js kind); (js "requestType", js "retrieve"); (js "format", js "xml"); (js "radialDistance", place);
   (js "hoursBeforeNow", js hours); (js "mostRecentForEachStation", js "true")].
Definition ask_stations (place : jstring) : list (jstring * jstring) :=
  [(js "dataSource", js "stations"); (js "requestType", js "retrieve"); (js "format", js "xml"); (js "radialDistance", place);
   (js "fields", js "station_id,site")].
