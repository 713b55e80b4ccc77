(** C31, C32: weather phenomena. *)
From Verif Require Import Prim Regex Float Values Weather Groups1 Groups2 Groups3 Groups4 Parser.
From Verif Require Import SpecTokens SpecReads SpecText SpecWeather SpecNumeral SpecPhenomena.
From Verif Require Import Pf_Weather Pf_Phenomena Pf_Events Pf_WeatherWords.
Local Open Scope string_scope.

(** ** C31 *)

(** [proper] leaves out bit patterns that are not enumerators. *)
Theorem C31_packing :
  forall (q : WpQualifier) (d : WpDescriptor) (ws : list WpWeather) (e : WpEvent) (tm : option MetafTime),
    proper_q q -> proper_d d -> Forall proper_w ws -> proper_e e -> (List.length ws <= 3)%nat ->
    exists x, Wp_packv q d ws e = Ok x /\ shows (mkWp x tm) q d ws e.
Proof. exact packing. Qed.
Print Assumptions C31_packing.
(** A longer list keeps its first three phenomena. *)
Theorem C31_packing_longer :
  forall (q : WpQualifier) (d : WpDescriptor) (ws : list WpWeather) (e : WpEvent) (tm : option MetafTime),
    proper_q q -> proper_d d -> Forall proper_w ws -> proper_e e ->
    exists x, Wp_packv q d ws e = Ok x /\ shows (mkWp x tm) q d (firstn 3 ws) e.
Proof. exact packv_shows. Qed.
Print Assumptions C31_packing_longer.
Example C31_nonvacuous :
  exists x, Wp_packv Q_HEAVY D_THUNDERSTORM [W_HAIL; W_SNOW; W_RAIN] Ev_ENDING = Ok x
    /\ Wp_weather (mkWp x None) = [W_HAIL; W_SNOW; W_RAIN] /\ Wp_event (mkWp x None) = Ev_ENDING.
Proof. eexists. vm_compute. repeat split. Qed.

(** ** C32 *)

(** [b] tells whether qualifiers may be written. *)
Theorem C32_only_well_formed :
  forall (s : string) (b : bool) (p : WeatherPhenomena),
    Wp_fromString s b = Ok (Some p) ->
    exists q d ws, recognised b q d ws /\ s = written q d ws /\ shows p q d ws Ev_NONE /\ wpTm p = None.
Proof. exact weather_sound. Qed.
Print Assumptions C32_only_well_formed.
Theorem C32_at_most_three_distinct :
  forall (b : bool) (q : WpQualifier) (d : WpDescriptor) (ws : list WpWeather),
    recognised b q d ws -> (List.length ws <= 3)%nat /\ NoDup ws.
Proof. exact recognised_shape. Qed.
Print Assumptions C32_at_most_three_distinct.
Theorem C32_all_well_formed :
  forall (b : bool) (q : WpQualifier) (d : WpDescriptor) (ws : list WpWeather),
    recognised b q d ws ->
    exists p, Wp_fromString (written q d ws) b = Ok (Some p) /\ shows p q d ws Ev_NONE /\ wpTm p = None.
Proof. exact weather_complete. Qed.
Print Assumptions C32_all_well_formed.
(** Times at which weather began and ended, in a report of the time [t] *)
Theorem C32_events :
  forall (s : string) (t : MetafTime) (g : WeatherGroup),
    Weather_parseWeatherEvent s t = Ok (Some g) ->
    exists ss ps, ss <> [] /\ s = concatenated ss /\ events t WeatherPhenomena_default ss ps
      /\ g = mkWeather Wx_EVENT (firstn 20 ps) WxI_NONE.
Proof. exact events_sound. Qed.
Print Assumptions C32_events.
(** In the result of parsing a report, every weather group says what its words say. *)
Theorem C32_in_the_result :
  forall (sgn : bool) (report : string) (groupLimit : nat) (r : ParseResult),
    parse sgn report groupLimit = Ok r ->
    forall g part raw, In (mkGroupInfo (GWeather g) part raw) (pr_groups r) -> raw <> "" ->
    weather_words part (words_of raw) g.
Proof. exact result_weather. Qed.
Print Assumptions C32_in_the_result.

Definition seen (o : res (option WeatherPhenomena)) :=
  match o with Ok (Some p) => Some (Wp_qualifier p, Wp_descriptor p, Wp_weather p) | _ => None end.
Example C32_nonvacuous :
  seen (Wp_fromString "+TSGRSNRA" true) = Some (Q_HEAVY, D_THUNDERSTORM, [W_HAIL; W_SNOW; W_RAIN])
  /\ written Q_HEAVY D_THUNDERSTORM [W_HAIL; W_SNOW; W_RAIN] = "+TSGRSNRA"
  /\ Wp_fromString "-FZSN" true = Ok None /\ Wp_fromString "RARA" true = Ok None.
Proof. vm_compute. repeat split. Qed.
Definition weather_of (r : res ParseResult) :=
  match r with
  | Ok r => flat_map (fun i => match gi_group i with
      | GWeather g => [(gi_rawString i, map (fun p => (Wp_qualifier p, Wp_weather p, Wp_event p, wpTm p)) (wx_w g))]
      | _ => [] end) (pr_groups r)
  | Bad _ => []
  end.
Example C32_nonvacuous_report :
  weather_of (parse true "METAR ZZZZ 010000Z -RA BR RMK RAB05E30SNB20=" 100)
  = [("-RA BR", [(Q_LIGHT, [W_RAIN], Ev_NONE, None); (Q_NONE, [W_MIST], Ev_NONE, None)]);
     ("RAB05E30SNB20", [(Q_NONE, [W_RAIN], Ev_BEGINNING, Some (mkTime None 0 5));
                        (Q_NONE, [W_RAIN], Ev_ENDING, Some (mkTime None 0 30));
                        (Q_NONE, [W_SNOW], Ev_BEGINNING, Some (mkTime None 0 20))])].
Proof. vm_compute. reflexivity. Qed.
