(** C103: the requests of the page examples/shellfiles/summary_shell.html. *)
From Coq Require Import List String NArith ZArith.
From Verif Require Import Prim SpecDecimal ExplainPage Options SpecPage SpecLink SpecOptions Pf_Link Pf_Options Requests SpecRequests Pf_Requests.
Import ListNotations.
Local Open Scope N_scope.

(** *** C103: the requests *)
(** The data server is asked for the last METAR reports of three hours, the last TAF reports of 24 hours and the stations, all
    within the distance in effect of the position, longitude first. Missing: distances whose text has a plus sign. *)
Theorem C103_requests_partial :
  forall (other : jstring -> Number) (query : jstring) (latitude longitude : Z) (c : Choice),
    numbers_are_read_back other -> in_effect other query c -> ~ In 43 (number_text (distance c)) ->
    exists la lo metars tafs stations, divided 2 la latitude /\ divided 2 lo longitude
      /\ requestAddresses other query latitude longitude = Ok [metars; tafs; stations]
      /\ let place := (number_text (distance c) ++ js ";" ++ js lo ++ js "," ++ js la)%list in
         reads metars data_server (ask_reports "metars" "3" place)
         /\ reads tafs data_server (ask_reports "tafs" "24" place)
         /\ reads stations data_server (ask_stations place).
Proof. exact addresses_read. Qed.
Print Assumptions C103_requests_partial.
Example C103_nonvacuous : numbers_are_read_back other_example
  /\ in_effect other_example (js "unit=imperial&distance=2.50") (mkChoice true (Other (js "2.5"))) /\ ~ In 43 (js "2.5")
  /\ divided 2 "51.5" 5150 /\ divided 2 "-0.46" (-46)
  /\ option_map (hd []) (match requestAddresses other_example (js "unit=imperial&distance=2.50") 5150 (-46) with Ok l => Some l | _ => None end)
     = Some (data_server ++ js "?dataSource=metars&requestType=retrieve&format=xml&radialDistance=2.5;-0.46,51.5&hoursBeforeNow=3&mostRecentForEachStation=true")%list.
Proof.
  split; [exact other_example_reads|]. split; [split; reflexivity|]. split; [vm_compute; intuition discriminate|].
  split; [exact (Pf_PageLines.quotient_shown 2 5150)|]. split; [exact (Pf_PageLines.quotient_shown 2 (-46))|]. vm_compute. reflexivity.
Qed.
(** So for every address of the page without distance, or with one that is a whole number below 2^53 *)
Theorem C103_parameter :
  forall (other : jstring -> Number) (ps : list (jstring * jstring)) (query : jstring) (v : option jstring) (latitude longitude : Z) (n : N),
    query_with ps query -> Forall proper_parameter ps -> last_value (js "distance") ps v ->
    (v = None /\ n = 30 \/ exists s, v = Some (js s) /\ s <> ""%string /\ decimal s = Some n /\ 0 < n < 9007199254740992) ->
    exists t la lo metars tafs stations, decimal t = Some n /\ divided 2 la latitude /\ divided 2 lo longitude
      /\ requestAddresses other query latitude longitude = Ok [metars; tafs; stations]
      /\ let place := (js t ++ js ";" ++ js lo ++ js "," ++ js la)%list in
         reads metars data_server (ask_reports "metars" "3" place)
         /\ reads tafs data_server (ask_reports "tafs" "24" place)
         /\ reads stations data_server (ask_stations place).
Proof. exact parameter_requested. Qed.
Print Assumptions C103_parameter.
Example C103_parameter_nonvacuous : query_with [(js "distance", js "0140")] (js "distance=0140") /\ decimal "0140" = Some 140
  /\ last_value (js "distance") [(js "distance", js "0140")] (Some (js "0140"))
  /\ Forall proper_parameter [(js "distance", js "0140")].
Proof.
  split; [exact (query_one (js "distance") (js "0140") (js "0140") eq_refl)|]. split; [reflexivity|].
  split; [exact (some_value (js "distance") [] (js "0140") [] (fun w H => H))|].
  apply Forall_cons; [|apply Forall_nil]. split; [vm_compute; intuition discriminate|]. split; [vm_compute; intuition discriminate|].
  exists (js "0140"). exact (utf16_text (js "0140") ltac:(repeat constructor; left; reflexivity)).
Qed.
(** An address can be read in one way only. *)
Theorem C103_one_reading :
  forall (address service : jstring) (ps ps' : list (jstring * jstring)),
    reads address service ps -> reads address service ps' -> ps = ps'.
Proof. exact reading_unique. Qed.
Print Assumptions C103_one_reading.
(** The distance 1e21, which the page writes 1e+21, is read with a space. *)
Theorem C103_plus_refuted :
  exists (other : jstring -> Number) (query : jstring) (c : Choice) (address : jstring) (rest : list jstring),
    numbers_are_read_back other /\ in_effect other query c /\ number_text (distance c) = js "1e+21"
    /\ requestAddresses other query 5150 (-46) = Ok (address :: rest)
    /\ reads address data_server (ask_reports "metars" "3" (js "1e 21;-0.46,51.5")).
Proof. exact plus_sign. Qed.
Print Assumptions C103_plus_refuted.
