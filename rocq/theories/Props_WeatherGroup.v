(** C58: weather groups. *)
From Verif Require Import Prim Regex Float Values Weather Groups1 Groups2 Groups3 Groups4 Parser.
From Verif Require Import SpecText SpecNumeral SpecPhenomena SpecAssembled SpecWeatherGroup.
From Verif Require Import Pf_WeatherGroup.
Local Open Scope string_scope.

(** Exactly the word sequences of [WeatherTold] make a weather group that does not wait for more
    words, and the group tells what they say. *)
Theorem C58_weather :
  forall (part : ReportPart) (now : option MetafTime) (words : list string),
    (forall g, Assembled part now words (GWeather g) -> settled part (GWeather g) -> WeatherTold part now words (weather_told g))
    /\ (forall v, WeatherTold part now words v ->
         exists g, Assembled part now words (GWeather g) /\ settled part (GWeather g) /\ weather_told g = v).
Proof. exact weather_group_words. Qed.
Print Assumptions C58_weather.
(** In a report, with the report time of its metadata *)
Theorem C58_weather_report :
  forall (char_signed : bool) (report : string) (limit : nat) (r : ParseResult),
    parse char_signed report limit = Ok r ->
    forall (g : WeatherGroup) (part : ReportPart) (raw : string),
      In (mkGroupInfo (GWeather g) part raw) (pr_groups r) -> raw <> "" ->
      WeatherTold part (md_reportTime (pr_metadata r)) (words_of raw) (weather_told g).
Proof. exact result_weather_group. Qed.
Print Assumptions C58_weather_report.
(** The events of one word *)
Theorem C58_events :
  forall (t : MetafTime) (texts : list string) (ps : list phenomenon),
    texts <> [] -> Events t None texts ps ->
    exists l, Weather_parseWeatherEvent (concatenated texts) t = Ok (Some (mkWeather Wx_EVENT (firstn 20 l) WxI_NONE)) /\ map seen l = ps.
Proof. exact events_made. Qed.
Print Assumptions C58_events.

Definition weather_in (r : res ParseResult) : list (string * (WxType * list phenomenon)) :=
  match r with
  | Ok r => flat_map (fun i => match gi_group i with GWeather g => [(gi_rawString i, weather_told g)] | _ => [] end) (pr_groups r)
  | Bad _ => []
  end.
Example C58_nonvacuous :
  weather_in (parse true "METAR KJFK 280551Z 24010KT 1/2SM +TSRA FZFG RERASN RMK RAB05E30SNB20 FZRAB99E05 TS/LTNG TEMPO UNAVBL=" 100)
  = [("+TSRA FZFG", (Wx_CURRENT, [mkPhenomenon Q_HEAVY D_THUNDERSTORM [W_RAIN] Ev_NONE None; mkPhenomenon Q_NONE D_FREEZING [W_FOG] Ev_NONE None]));
     ("RERASN", (Wx_RECENT, [mkPhenomenon Q_RECENT D_NONE [W_RAIN; W_SNOW] Ev_NONE None]));
     ("RAB05E30SNB20", (Wx_EVENT, [mkPhenomenon Q_NONE D_NONE [W_RAIN] Ev_BEGINNING (Some (mkTime None 5 5));
                                  mkPhenomenon Q_NONE D_NONE [W_RAIN] Ev_ENDING (Some (mkTime None 5 30));
                                  mkPhenomenon Q_NONE D_NONE [W_SNOW] Ev_BEGINNING (Some (mkTime None 5 20))]));
     ("TS/LTNG TEMPO UNAVBL", (Wx_TS_LTNG_TEMPO_UNAVBL, []))].
Proof. vm_compute. reflexivity. Qed.
Example C58_nonvacuous_events : exists ps, Events (mkTime None 5 51) None ["RAB05"; "E0430"; "SNB20"] ps /\ List.length ps = 3%nat.
Proof.
  eexists. split; [eapply Events_one; [|eapply Events_one; [|eapply Events_one; [|apply Events_none]]]|reflexivity].
  - apply (Event_text _ _ "RA" D_NONE [W_RAIN] Ev_BEGINNING "" 5%N "05" 5%N); auto; [|split; reflexivity].
    left. split; [|reflexivity]. apply rec_precipitation; cbn; try discriminate; auto; repeat constructor; cbn; tauto.
  - apply (Event_text _ _ "" D_NONE [W_RAIN] Ev_ENDING "04" 4%N "30" 30%N); auto; [|right|]; try (split; reflexivity).
    right. split; [reflexivity|]. exists Ev_BEGINNING, 5%N, 5%N. split; [reflexivity|]. split; discriminate.
  - apply (Event_text _ _ "SN" D_NONE [W_SNOW] Ev_BEGINNING "" 5%N "20" 20%N); auto; [|split; reflexivity].
    left. split; [|reflexivity]. apply rec_precipitation; cbn; try discriminate; auto; repeat constructor; cbn; tauto.
Qed.
