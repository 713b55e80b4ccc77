(** C55: what a kind of group accepts as its first word is among the words that can open it. *)
From Coq Require Import Lia ZifyBool ZifyN ZifyNat.
From Verif Require Import Prim Lib Regex Float Values Weather Groups1 Groups2 Groups3 Groups4 Parser SpecRegex SpecNumeral SpecPhenomena SpecCloud SpecClouds SpecVisibility SpecAmounts.
From Verif Require Import Pf_Ok Pf_Caps Pf_Regex Pf_Kinds Pf_Decode Pf_Numeral Pf_Form Pf_Shapes Pf_Layout Pf_Formats Pf_Cloud Pf_Clouds Pf_CloudTypes Pf_Phenomena Pf_Events Pf_Visibility Pf_RunwayRange Pf_Openings.
Local Open Scope string_scope.

(** A word equal to a given text *)
Ltac given := match goal with E : seqb ?w _ = true |- _ => apply seqb_eq in E; subst w; apply closed_lang; vm_compute; reflexivity end.
Ltac words_of H := repeat (match type of H with (if seqb ?w ?t then _ else _) = _ => destruct (seqb w t) eqn:?; [given|] end).
Ltac among r L := apply (any_lang _ r); [cbn [In]; tauto|exact L].
Ltac parts part H := destruct part; cbn [is_part ReportPart_beq orb andb negb] in H; try discriminate H.
Lemma accepts : forall A (e : res (option A)) v, e = Ok (Some v) -> accepted e.
Proof. intros A e v E. exists v. exact E. Qed.

Lemma opens_keyword : forall w part md g, KeywordGroup_parse w part md = Ok (Some g) -> Lang (opening part 0) w.
Proof. intros w part md g H. unfold KeywordGroup_parse in H. cbv zeta in H. parts part H; words_of H; discriminate H. Qed.
Lemma opens_location : forall w part md g, LocationGroup_parse w part md = Ok (Some g) -> Lang (opening part 1) w.
Proof.
  intros w part md g H. unfold LocationGroup_parse in H. parts part H. destruct (is_match rgx_location w) eqn:E; [|discriminate H]. apply is_match_lang. exact E.
Qed.
Lemma opens_reporttime : forall w part md g, ReportTimeGroup_parse w part md = Ok (Some g) -> Lang (opening part 2) w.
Proof.
  intros w part md g H. unfold ReportTimeGroup_parse in H. parts part H. destruct (is_match rgx_reporttime w) eqn:E; [|discriminate H]. apply is_match_lang. exact E.
Qed.
Lemma span_lang : forall w g, Trend_fromTimeSpan w = Ok (Some g) -> Lang rgx_timespan w.
Proof. intros w g H. unfold Trend_fromTimeSpan in H. destruct (regex_match rgx_timespan w) eqn:R; [|discriminate H]. exact (match_lang _ _ _ R). Qed.
Lemma opens_trend : forall w part md g, TrendGroup_parse w part md = Ok (Some g) -> Lang (opening part 3) w.
Proof.
  intros w part md g H. unfold TrendGroup_parse in H. cbv zeta in H. parts part H.
  - exact (span_lang _ _ H).
  - words_of H. cbn [or_else bind] in H. words_of H. apply or_else_some in H. destruct H as [H|[_ H]].
    + unfold Trend_fromTrendTime in H. destruct (regex_match rgx_trendtime w) eqn:R; [|discriminate H]. among rgx_trendtime (match_lang _ _ _ R).
    + apply or_else_some in H. destruct H as [H|[_ H]]; [|discriminate H].
      unfold Trend_fromTimeSpanHHMM in H. destruct (regex_match rgx_timespan w) eqn:R; [|discriminate H]. among rgx_timespan (match_lang _ _ _ R).
  - words_of H. apply or_else_some in H. destruct H as [H|[_ H]]; [among rgx_timespan (span_lang _ _ H)|].
    apply or_else_some in H. destruct H as [H|[_ H]].
    + unfold Trend_fromFm in H. destruct (is_match rgx_fm w) eqn:E; [|discriminate H]. apply is_match_lang in E. among rgx_fm E.
    + cbn [or_else bind] in H. among rgx_timespan (span_lang _ _ H).
Qed.
Lemma opens_wind : forall w part md g, WindGroup_parse w part md = Ok (Some g) -> Lang (opening part 4) w.
Proof.
  intros w part md g H. unfold WindGroup_parse in H. cbv zeta in H.
  assert (K : or_else (Wind_parseVariableSector w) (Wind_parseSurfaceOrShear w) = Ok (Some g) -> Lang rgx_varwind w \/ Lang rgx_wind w).
  { intros K. apply or_else_some in K. destruct K as [K|[_ K]].
    - unfold Wind_parseVariableSector in K. destruct (regex_match rgx_varwind w) eqn:R; [|discriminate K]. left. exact (match_lang _ _ _ R).
    - unfold Wind_parseSurfaceOrShear in K. destruct (regex_match rgx_wind w) eqn:R; [|discriminate K]. right. exact (match_lang _ _ _ R). }
  parts part H; words_of H; try discriminate H; (destruct (K H) as [L|L]; [among rgx_varwind L|among rgx_wind L]).
Qed.
Lemma opens_visibility : forall w part md g, VisibilityGroup_parse w part md = Ok (Some g) -> Lang (opening part 5) w.
Proof.
  intros w part md g H. unfold VisibilityGroup_parse in H. cbv zeta in H.
  assert (K : or_else (Vis_fromIncompleteInteger w) (or_else (Vis_fromMeters w) (let? v := Distance_fromMileString w false in Ok (Some (Vis_setVis Vis_default v)))) = Ok (Some g) ->
    exists r, In r Pf_Openings.visibility_words /\ Lang r w).
  { intros K. unfold Pf_Openings.visibility_words. apply or_else_some in K. destruct K as [K|[_ K]].
    - apply incomplete_words in K. destruct K as (a & (prefix & m & n & v & -> & I & N & ->) & E & _).
      cbn [distModifier] in E. subst m. cbn in I. destruct I as [I|[I|[I|[]]]]; try discriminate I. injection I as <-. cbn [append].
      destruct N as [N|N]; eexists; [split; [left; reflexivity|]|split; [right; left; reflexivity|]]; apply (numeral_lang _ _ _ _ N); reflexivity.
    - apply or_else_some in K. destruct K as [K|[_ K]].
      + unfold Vis_fromMeters in K. destruct (regex_match rgx_vismeters w) eqn:R; [|discriminate K]. eexists. split; [right; right; left; reflexivity|exact (match_lang _ _ _ R)].
      + apply bind_some in K. destruct K as (v & K & _). eexists. split; [right; right; right; left; reflexivity|exact (mile_format _ (accepts _ _ _ K))]. }
  parts part H; words_of H; try discriminate H; (apply or_else_some in H; destruct H as [H|[_ H]]; try discriminate H).
  - destruct (K H) as (r & I & L). exact (any_lang (rgx_rvr :: Pf_Openings.visibility_words) r _ (or_intror I) L).
  - unfold Vis_fromRvr in H. destruct (regex_match rgx_rvr w) eqn:R; [|discriminate H]. exact (any_lang (rgx_rvr :: Pf_Openings.visibility_words) rgx_rvr _ (or_introl eq_refl) (match_lang _ _ _ R)).
  - destruct (K H) as (r & I & L). exact (any_lang Pf_Openings.visibility_words r _ I L).
Qed.

Lemma in_texts : forall A (l : list (string * A)) s v, In (s, v) l -> Lang (texts (map fst l)) s.
Proof. intros A l s v I. apply texts_lang. apply in_map_iff. exists (s, v). auto. Qed.
Lemma opens_cloud : forall w part md g, CloudGroup_parse w part md = Ok (Some g) -> Lang (opening part 6) w.
Proof.
  intros w part md g H. unfold CloudGroup_parse in H.
  assert (K : Cloud_parseCloudLayerOrVertVis w = Ok (Some g) -> Lang (any [texts ["NCD"; "NSC"; "CLR"; "SKC"]; Pf_Openings.sky_words]) w).
  { intros K. unfold Cloud_parseCloudLayerOrVertVis in K. cbv zeta in K. words_of K.
    destruct (regex_match rgx_cloud w) as [m|] eqn:R; [|discriminate K]. apply cloud_match in R. destruct R as (a & h & c & -> & -> & A & Hh & C).
    assert (M : mstr (some_cap 3 c ++ [(2, h); (1, a)])%nat%list 1 = a) by (destruct c; reflexivity). rewrite M in K.
    destruct (Cloud_amountFromString a) as [x|] eqn:X; [|discriminate K].
    apply (any_lang _ Pf_Openings.sky_words); [right; left; reflexivity|]. unfold Pf_Openings.sky_words. apply L_seq.
    - unfold Cloud_amountFromString in X. apply lookup_codes in X. exact (in_texts _ _ _ _ X).
    - vm_compute. apply L_seq; [apply L_grp; exact Hh|]. destruct c as [c|]; [apply L_opt1; apply L_grp; exact C|apply L_opt0]. }
  parts part H; [exact (K H)|exact (K H)|]. words_of H. destruct (CloudType_fromStringObscuration w) as [t|] eqn:E.
  - unfold CloudType_fromStringObscuration in E. destruct (lookup w _) eqn:X in E; [|discriminate E]. apply lookup_codes in X. cbn [In] in X.
    repeat (destruct X as [X|X]; [injection X as <- _; apply closed_lang; vm_compute; reflexivity|]). destruct X.
  - unfold Cloud_parseVariableCloudLayer in H. destruct (regex_match rgx_varcloud w) as [m|] eqn:R; [|discriminate H]. apply amount_match in R. destruct R as (a & h & -> & -> & A & Hh).
    assert (M : mstr (some_cap 2 h ++ [(1, a)])%nat%list 1 = a) by (destruct h; reflexivity). rewrite M in H.
    destruct (Cloud_amountFromString a) as [x|] eqn:X; [|discriminate H].
    apply (any_lang _ remark_sky_words); [right; left; reflexivity|]. unfold remark_sky_words. apply L_seq.
    + unfold Cloud_amountFromString in X. apply lookup_codes in X. cbn [In] in X.
      repeat (destruct X as [X|X]; [injection X as <- _; first [apply closed_lang; vm_compute; reflexivity|exfalso; revert A; clear; intros A; apply lang_minlen in A; vm_compute in A; lia|exfalso; apply is_match_lang in A; vm_compute in A; discriminate A]|]). destruct X.
    + destruct h as [h|]; [destruct Hh as (v & N)|]; vm_compute; [apply L_opt1; apply L_grp; apply (numeral_lang _ _ _ _ N); reflexivity|apply L_opt0].
Qed.
Definition weather_word (w : WpWeather) : Prop := In (weather_letters w) weather_kinds.
Lemma precipitation_words : forall ws, Forall (fun w => In w precipitation) ws -> Forall weather_word ws.
Proof.
  intros ws F. apply (Forall_impl (P := fun w => In w precipitation)); [|exact F]. intros w I. unfold weather_word. cbn in I.
  repeat (destruct I as [<-|I]; [vm_compute; tauto|]). destruct I.
Qed.
Definition combination_ok (c : WpDescriptor * list WpWeather) : bool :=
  existsb (String.eqb (descriptor_letters (fst c))) [""; "MI"; "PR"; "BC"; "DR"; "BL"; "SH"; "TS"; "FZ"]
  && forallb (fun w => existsb (String.eqb (weather_letters w)) weather_kinds) (snd c).
Lemma listed : forall s l, existsb (String.eqb s) l = true -> In s l.
Proof. intros s l H. apply existsb_exists in H. destruct H as (x & I & E). apply String.eqb_eq in E. subst. exact I. Qed.
Lemma combination_words : forall d ws, combination_ok (d, ws) = true -> In (descriptor_letters d) [""; "MI"; "PR"; "BC"; "DR"; "BL"; "SH"; "TS"; "FZ"] /\ Forall weather_word ws.
Proof.
  intros d ws H. apply andb_true_iff in H. destruct H as [D W]. split; [exact (listed _ _ D)|]. apply Forall_forall. intros w I. cbn [snd] in W. rewrite forallb_forall in W. exact (listed _ _ (W _ I)).
Qed.
Lemma listed_combination : forall l d ws, forallb combination_ok l = true -> In (d, ws) l -> combination_ok (d, ws) = true.
Proof. intros l d ws F I. rewrite forallb_forall in F. exact (F _ I). Qed.
Lemma recognised_words : forall b q d ws, recognised b q d ws ->
  In (qualifier_letters q) (if b then [""; "RE"; "VC"; "-"; "+"] else [""])
  /\ In (descriptor_letters d) [""; "MI"; "PR"; "BC"; "DR"; "BL"; "SH"; "TS"; "FZ"] /\ Forall weather_word ws.
Proof.
  intros b q d ws H. destruct H as [b q d ws Q D _ _ _ P _ _|b d ws I|d ws I|ws I|].
  - split; [destruct b; cbn in Q; repeat (destruct Q as [<-|Q]; [cbn; tauto|]); destruct Q|]. split; [|exact (precipitation_words _ P)].
    cbn in D. repeat (destruct D as [<-|D]; [cbn; tauto|]). destruct D.
  - split; [destruct b; cbn; tauto|]. apply combination_words. apply (listed_combination SpecPhenomena.obscurations); [vm_compute; reflexivity|exact I].
  - split; [cbn; tauto|]. apply combination_words. apply (listed_combination in_vicinity); [vm_compute; reflexivity|exact I].
  - split; [cbn; tauto|]. apply combination_words. apply (listed_combination (map (pair D_NONE) heavy_only)); [vm_compute; reflexivity|apply in_map; exact I].
  - split; [cbn; tauto|]. split; [cbn; tauto|constructor].
Qed.
Lemma optional_text : forall l s, In s ("" :: l) -> Lang (ROpt (texts l)) s.
Proof. intros l s [<-|I]; [apply L_opt0|apply L_opt1; exact (texts_lang _ _ I)]. Qed.
Lemma letters_lang : forall ws, Forall weather_word ws -> Lang (RStar (texts weather_kinds)) (all_letters ws).
Proof. induction 1 as [|w ws W _ IH]; [apply L_star0|]. cbn [all_letters]. apply L_star1; [exact (texts_lang _ _ W)|exact IH]. Qed.
Lemma written_lang : forall q d ws, recognised true q d ws -> Lang phenomena_words (written q d ws).
Proof.
  intros q d ws H. apply recognised_words in H. destruct H as (Q & D & W). unfold phenomena_words, written.
  apply L_seq; [exact (optional_text _ _ Q)|]. apply L_seq; [exact (optional_text _ _ D)|exact (letters_lang _ W)].
Qed.
Lemma event_lang : forall t prev s p, event_text t prev s p -> Lang event_words s.
Proof.
  intros t prev s p (ph & ev & h & m & q & d & ws & hour & minute & -> & E & Hh & M & P & _).
  assert (B : Lang (rx "[BE](?:\d\d)?\d\d") (event_letter ev ++ h ++ m)).
  { apply L_seq; [apply closed_lang; destruct E as [-> | ->]; vm_compute; reflexivity|]. apply L_seq.
    - destruct Hh as [[-> _]|N]; [apply L_opt0|apply L_opt1; apply (numeral_lang _ _ _ _ N); reflexivity].
    - apply (numeral_lang _ _ _ _ M); reflexivity. }
  unfold event_words. destruct P as [(-> & _)|(R & ->)].
  - change ("" ++ event_letter ev ++ h ++ m) with ("" ++ "" ++ event_letter ev ++ h ++ m). apply L_seq; [apply L_opt0|]. apply L_seq; [apply L_star0|exact B].
  - apply recognised_words in R. destruct R as (Q & D & W). unfold written. destruct Q as [<-|[]]. cbn [append].
    rewrite <- sapp_assoc. apply L_seq; [exact (optional_text _ _ D)|]. apply L_seq; [exact (letters_lang _ W)|exact B].
Qed.
Lemma events_lang : forall t prev ss ps, events t prev ss ps -> Lang (RStar event_words) (concatenated ss).
Proof. induction 1 as [|prev s p ss ps E _ IH]; [apply L_star0|]. cbn [concatenated fold_right]. apply L_star1; [exact (event_lang _ _ _ _ E)|exact IH]. Qed.
Lemma opens_weather : forall w part md g, WeatherGroup_parse w part md = Ok (Some g) -> Lang (opening part 7) w.
Proof.
  intros w part md g H. unfold WeatherGroup_parse in H. parts part H.
  - apply or_else_some in H. destruct H as [H|[_ H]]; [|discriminate H]. words_of H. apply bind_some in H. destruct H as (x & X & _).
    unfold Weather_parseWeatherWithoutEvent in X. cbn [is_part ReportPart_beq orb andb negb] in X. words_of X. apply bind_some in X. destruct X as (y & Y & _).
    apply weather_sound in Y. destruct Y as (q & d & ws & R & -> & _). apply (any_lang _ phenomena_words); [right; left; reflexivity|exact (written_lang _ _ _ R)].
  - apply or_else_some in H. destruct H as [H|[_ H]]; [|discriminate H]. words_of H. apply bind_some in H. destruct H as (x & X & _).
    unfold Weather_parseWeatherWithoutEvent in X. cbn [is_part ReportPart_beq orb andb negb] in X. apply bind_some in X. destruct X as (y & Y & _).
    apply weather_sound in Y. destruct Y as (q & d & ws & R & -> & _). apply (any_lang _ phenomena_words); [right; left; reflexivity|exact (written_lang _ _ _ R)].
  - cbn [or_else bind] in H. words_of H. destruct (md_reportTime md) as [t|]; [|discriminate H]. apply events_sound in H. destruct H as (ss & ps & N & -> & E & _).
    apply (any_lang _ (RSeq event_words (RStar event_words))); [right; left; reflexivity|]. destruct E as [|prev s p ss ps E F]; [contradiction|].
    cbn [concatenated fold_right]. apply L_seq; [exact (event_lang _ _ _ _ E)|exact (events_lang _ _ _ _ F)].
Qed.
Ltac matched H r := destruct (regex_match r _) eqn:?R in H; [|discriminate H]; match goal with R : regex_match r _ = Some _ |- _ => apply match_lang in R end.
Lemma opens_temperature : forall w part md g, TemperatureGroup_parse w part md = Ok (Some g) -> Lang (opening part 8) w.
Proof.
  intros w part md g H. unfold TemperatureGroup_parse in H. parts part H.
  - matched H rgx_temperature. assumption.
  - words_of H. matched H rgx_temperature_rmk. among rgx_temperature_rmk R.
Qed.
Lemma opens_pressure : forall w part md g, PressureGroup_parse w part md = Ok (Some g) -> Lang (opening part 9) w.
Proof.
  intros w part md g H. unfold PressureGroup_parse in H. cbv zeta in H. parts part H.
  - apply bind_some in H. destruct H as (v & H & _). exact (proj1 (pressure_format _) (accepts _ _ _ H)).
  - apply bind_some in H. destruct H as (v & H & _). exact (proj1 (forecast_pressure_format _) (accepts _ _ _ H)).
  - apply or_else_some in H. destruct H as [H|[_ H]].
    { apply bind_some in H. destruct H as (v & H & _). among pressure_words (proj1 (pressure_format _) (accepts _ _ _ H)). }
    words_of H. apply or_else_some in H. destruct H as [H|[_ H]]; apply bind_some in H; destruct H as (v & H & _).
    + among slp_words (proj1 (slp_format _) (accepts _ _ _ H)).
    + among qfe_words (proj1 (qfe_format _) (accepts _ _ _ H)).
Qed.
Lemma opens_runwaystate : forall w part md g, RunwayStateGroup_parse w part md = Ok (Some g) -> Lang (opening part 10) w.
Proof.
  intros w part md g H. unfold RunwayStateGroup_parse in H. parts part H.
  destruct (seqb w "SNOCLO") eqn:E1; [given|]. destruct (seqb w "R/SNOCLO") eqn:E2; [given|]. cbn [orb] in H.
  destruct (regex_match rgx_runwaystate w) as [m|] eqn:R; [|discriminate H]. pose proof (match_lang _ _ _ R) as L.
  apply (any_lang _ runway_state_words); [right; left; reflexivity|]. unfold rgx_runwaystate in L. inversion L; subst; [assumption|].
  match goal with X : Lang REps _ |- _ => inversion X; subst end. exfalso. vm_compute in R. injection R as <-. discriminate H.
Qed.
Lemma opens_seasurface : forall w part md g, SeaSurfaceGroup_parse w part md = Ok (Some g) -> Lang (opening part 11) w.
Proof. intros w part md g H. unfold SeaSurfaceGroup_parse in H. parts part H. matched H rgx_seasurface. assumption. Qed.
Lemma opens_minmax : forall w part md g, MinMaxTemperatureGroup_parse w part md = Ok (Some g) -> Lang (opening part 12) w.
Proof.
  intros w part md g H. unfold MinMaxTemperatureGroup_parse in H. parts part H.
  - unfold MinMax_fromForecast in H. matched H rgx_forecastminmax. assumption.
  - apply or_else_some in H. destruct H as [H|[_ H]].
    + unfold MinMax_from6hourly in H. matched H rgx_6hourly. among rgx_6hourly R.
    + unfold MinMax_from24hourly in H. matched H rgx_24hourly. among rgx_24hourly R.
Qed.
Lemma opens_precipitation : forall w part md g, PrecipitationGroup_parse w part md = Ok (Some g) -> Lang (opening part 13) w.
Proof.
  intros w part md g H. unfold PrecipitationGroup_parse in H. parts part H.
  - matched H rgx_rainfall. assumption.
  - words_of H. matched H rgx_precip. among rgx_precip R.
Qed.
Lemma opens_layer : forall w part md g, LayerForecastGroup_parse w part md = Ok (Some g) -> Lang (opening part 14) w.
Proof. intros w part md g H. unfold LayerForecastGroup_parse in H. parts part H. matched H rgx_layer. assumption. Qed.
Lemma opens_tendency : forall w part md g, PressureTendencyGroup_parse w part md = Ok (Some g) -> Lang (opening part 15) w.
Proof. intros w part md g H. unfold PressureTendencyGroup_parse in H. parts part H. words_of H. matched H rgx_tendency. among rgx_tendency R. Qed.
Lemma opens_codes : forall w part md g, LowMidHighCloudGroup_parse w part md = Ok (Some g) -> Lang (opening part 17) w.
Proof. intros w part md g H. unfold LowMidHighCloudGroup_parse in H. parts part H. matched H rgx_lmh. assumption. Qed.
Lemma opens_vicinity : forall w part md g, VicinityGroup_parse w part md = Ok (Some g) -> Lang (opening part 19) w.
Proof. intros w part md g H. unfold VicinityGroup_parse in H. parts part H. destruct (lookup w vc_table) eqn:E; [|discriminate H]. apply lookup_codes in E. exact (in_texts _ _ _ _ E). Qed.
Lemma opens_lightning : forall w part md g, LightningGroup_parse w part md = Ok (Some g) -> Lang (opening part 18) w.
Proof.
  intros w part md g H. unfold LightningGroup_parse in H. parts part H. words_of H. unfold Lightning_fromLtgGroup in H. words_of H.
  destruct (Nat.ltb (slen w) 3); [discriminate H|]. apply bind_ok in H. destruct H as (p & P & H). destruct (seqb p "LTG") eqn:E; [|discriminate H]. apply seqb_eq in E. subst p.
  apply (any_lang _ (RSeq (lit "LTG") anything)); [right; left; reflexivity|].
  assert (X : exists t, w = "LTG" ++ t).
  { destruct w as [|a [|b [|c w]]]; try discriminate P. exists w. cbn in P. injection P as -> -> ->. reflexivity. }
  destruct X as (t & ->). apply L_seq; [apply lit_lang|apply anything_lang].
Qed.
Lemma colour_lang : forall w c, Misc_parseColourCode w = Some c -> In w colour_words.
Proof. intros w c H. unfold Misc_parseColourCode in H. apply lookup_codes in H. apply (in_map fst) in H. exact H. Qed.
Lemma opens_misc : forall w part md g, MiscGroup_parse w part md = Ok (Some g) -> Lang (opening part 20) w.
Proof.
  intros w part md g H. unfold MiscGroup_parse in H. cbv zeta in H. parts part H.
  - apply or_else_some in H. destruct H as [H|[_ H]].
    { destruct (Misc_parseColourCode w) eqn:E; [|discriminate H]. apply (any_lang _ (texts colour_words)); [left; reflexivity|]. exact (texts_lang _ _ (colour_lang _ _ E)). }
    cbn [or_else bind] in H. apply or_else_some in H. destruct H as [H|[_ H]]; [|discriminate H]. matched H rgx_correction. apply (any_lang _ rgx_correction); [right; left; reflexivity|assumption].
  - cbn [or_else bind] in H. apply or_else_some in H. destruct H as [H|[_ H]]; [|discriminate H]. matched H rgx_issuer. assumption.
  - apply or_else_some in H. destruct H as [H|[_ H]].
    { destruct (Misc_parseColourCode w) eqn:E; [|discriminate H]. apply (any_lang _ (texts ("GR" :: "DENSITY" :: "FROIN" :: colour_words))); [left; reflexivity|].
      apply texts_lang. right. right. right. exact (colour_lang _ _ E). }
    cbn [or_else bind] in H. words_of H. destruct (regex_match rgx_sunshine w) eqn:R; [apply match_lang in R; apply (any_lang _ rgx_sunshine); [right; left; reflexivity|exact R]|].
    words_of H. discriminate H.
Qed.
Lemma pieces_lang : forall l, Forall (Lang piece) l -> Lang (RStar piece) (String.concat "" l).
Proof. intros l F. apply star_pieces. exists l. auto. Qed.
Lemma letters_only : forall c t, In (c, t) cloud_codes -> Lang (rx "[A-Z]{2,3}") c.
Proof. intros c t I. cbn in I. repeat (destruct I as [I|I]; [injection I as <- _; apply closed_lang; vm_compute; reflexivity|]). destruct I. Qed.
Lemma run_lang : forall p c, CloudText p c -> Lang piece p -> exists k o v, p = k ++ o /\ In k cloud_kinds /\ numeral 1 o v.
Proof.
  intros p c C P. destruct C as [o k h t okta v O I N|k o t okta I O].
  - exfalso. destruct (numeral_digit _ _ O) as (d & -> & D & _). destruct (piece_letter _ P) as (a & r & E & A). cbn in E. injection E as -> _.
    revert D A. clear. intros D A. destruct a as [[] [] [] [] [] [] [] []]; vm_compute in D; vm_compute in A; discriminate.
  - exists k, o, okta. split; [reflexivity|]. split; [|exact O]. unfold cloud_kinds. apply in_map_iff. exists (k, t). auto.
Qed.
Lemma opens_cloudtypes : forall w part md g, CloudTypesGroup_parse w part md = Ok (Some g) -> Lang (opening part 16) w.
Proof.
  intros w part md g H. apply types_first in H. inversion H as [ws l P N B F E1 E2|pieces l P N F C E1 E2]; subst part.
  - subst ws l. inversion F as [|x c xs cs [C R] F' Ex Ec]; subst. apply (any_lang _ cloud_height_words); [left; reflexivity|].
    destruct C as [o k h t okta v O I Nh|k o t okta I O]; [|discriminate R]. unfold cloud_height_words.
    change (Lang (rx "\d[A-Z]{2,3}\d\d\d") (o ++ k ++ h)). apply L_seq; [apply (numeral_lang _ _ _ _ O); reflexivity|]. apply L_seq; [exact (letters_only _ _ I)|apply (numeral_lang _ _ _ _ Nh); reflexivity].
  - apply (any_lang _ cloud_run_words); [right; left; reflexivity|]. apply pieces_all in F. destruct pieces as [|p ps]; [contradiction|].
    inversion F as [|y ys P Ps]; subst. change (firstn SpecClouds.places (p :: ps)) with (p :: firstn (pred SpecClouds.places) ps) in C. inversion C as [|y c ys cs C1 C2]; subst.
    destruct (run_lang _ _ C1 P) as (k & o & v & -> & I & O). rewrite concat_cons. unfold cloud_run_words. rewrite <- sapp_assoc. apply L_seq; [exact (texts_lang _ _ I)|].
    change (Lang (rx "\d(?:[A-Z]{2,4}\d)*") (o ++ String.concat "" ps)). apply L_seq; [apply (numeral_lang _ _ _ _ O); reflexivity|exact (pieces_lang _ Ps)].
Qed.
Lemma opens : forall g w part md, parsed_as g w part md -> Lang (opening part (Group_index g)) w.
Proof.
  intros g w part md H; destruct g; cbn [parsed_as Group_index] in *.
  - exact (opens_keyword _ _ _ _ H).
  - exact (opens_location _ _ _ _ H).
  - exact (opens_reporttime _ _ _ _ H).
  - exact (opens_trend _ _ _ _ H).
  - exact (opens_wind _ _ _ _ H).
  - exact (opens_visibility _ _ _ _ H).
  - exact (opens_cloud _ _ _ _ H).
  - exact (opens_weather _ _ _ _ H).
  - exact (opens_temperature _ _ _ _ H).
  - exact (opens_pressure _ _ _ _ H).
  - exact (opens_runwaystate _ _ _ _ H).
  - exact (opens_seasurface _ _ _ _ H).
  - exact (opens_minmax _ _ _ _ H).
  - exact (opens_precipitation _ _ _ _ H).
  - exact (opens_layer _ _ _ _ H).
  - exact (opens_tendency _ _ _ _ H).
  - exact (opens_cloudtypes _ _ _ _ H).
  - exact (opens_codes _ _ _ _ H).
  - exact (opens_lightning _ _ _ _ H).
  - exact (opens_vicinity _ _ _ _ H).
  - exact (opens_misc _ _ _ _ H).
  - destruct H.
Qed.
