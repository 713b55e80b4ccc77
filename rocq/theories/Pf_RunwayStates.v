(** C53: runway state groups. *)
From Coq Require Import Lia ZifyBool ZifyN ZifyNat.
From Verif Require Import Prim Lib Regex Float Values Weather Groups1 Groups2 Groups3 Groups4 Parser SpecRegex SpecTokens SpecReads SpecText SpecForm
  SpecReach SpecBuilt SpecAssembled SpecAppend SpecDecimal SpecNumeral SpecMiles SpecDirection SpecNearby SpecTexts.
From Verif Require Import Pf_Ok Pf_OkValues Pf_OkGroups2 Pf_Caps Pf_Regex Pf_Total Pf_Steps Pf_Kinds Pf_View Pf_Decimal Pf_Numeral Pf_Form Pf_Shapes Pf_Decode Pf_Layout
  Pf_Values1 Pf_Values3 Pf_Values5 Pf_Values8 Pf_Texts Pf_Assembled Pf_Grown Pf_Waits Pf_RunwayRange Pf_Visibility.
From Verif Require Import SpecReal SpecScale SpecMinMax SpecReadings.
From Verif Require Import Pf_Temperatures.
Local Open Scope string_scope.

Definition re_rwy : re := Eval vm_compute in rx "R\d\d[RCL]?".
Definition re_two : re := Eval vm_compute in rx "\d\d".
Definition re_two_or_not : re := Eval vm_compute in rx "\d\d|//".
Definition re_one : re := Eval vm_compute in rx "[0-9/]".
Inductive Matched : string -> caps -> Prop :=
| Matched_closed : forall w, Lang re_rwy w -> Matched (w ++ "/SNOCLO") [(2, "SNOCLO"); (1, w)]%nat
| Matched_cleared : forall w, Lang re_rwy w -> Matched (w ++ "/D") [(3, "D"); (1, w)]%nat
| Matched_friction : forall w d, Lang re_rwy w -> Lang re_two d -> Matched (w ++ "/" ++ d ++ "D") [(3, d ++ "D"); (4, d); (1, w)]%nat
| Matched_clrd : forall w d, Lang re_rwy w -> Lang re_two_or_not d -> Matched (w ++ "/CLRD" ++ d) [(9, d); (8, "CLRD"); (1, w)]%nat
| Matched_state : forall w a b c d, Lang re_rwy w -> Lang re_one a -> Lang re_one b -> Lang re_two_or_not c -> Lang re_two_or_not d ->
    Matched (w ++ "/" ++ a ++ b ++ c ++ d) [(9, d); (7, c); (6, b); (5, a); (1, w)]%nat
| Matched_empty : Matched "" [].
Lemma state_matched : forall s m, regex_match rgx_runwaystate s = Some m -> Matched s m.
Proof.
  intros s m R. apply regex_match_captures in R. unfold rgx_runwaystate in R. captures R.
  - in_words L0 X. destruct X as [<-|[]]. in_words L1 X. destruct X as [<-|[]]. apply Matched_closed. exact L.
  - in_words L0 X. destruct X as [<-|[]]. in_words L1 X. destruct X as [<-|[]]. apply Matched_cleared. exact L.
  - in_words L0 X. destruct X as [<-|[]]. in_words L2 X. destruct X as [<-|[]]. apply Matched_friction; assumption.
  - in_words L0 X. destruct X as [<-|[]]. 
    match goal with |- Matched (?w ++ ?sl ++ (?a ++ ?b ++ ?c) ++ ?d) _ => replace (w ++ sl ++ (a ++ b ++ c) ++ d) with (w ++ sl ++ a ++ b ++ c ++ d) by (rewrite !sapp_assoc; reflexivity) end.
    apply Matched_state; assumption.
  - in_words L0 X. destruct X as [<-|[]]. in_words L1 X. destruct X as [<-|[]]. apply Matched_clrd; assumption.
  - inversion L; subst. apply Matched_empty.
Qed.
Lemma matched_state : forall s m, Matched s m -> regex_match rgx_runwaystate s = Some m.
Proof.
  intros s m [w W|w W|w d W D|w d W D|w a b c d W A B C D|]; [..|reflexivity];
    (eapply captured_as; [vm_compute; reflexivity|unfold rgx_runwaystate; apply K_alt1|]).
  - eapply K_seq; [cap|]. change "/SNOCLO" with ("/" ++ "SNOCLO"). eapply K_seq; [cap|]. apply K_alt1. cap.
  - reflexivity.
  - eapply K_seq; [cap|]. change "/D" with ("/" ++ "D"). eapply K_seq; [cap|]. apply K_alt2, K_alt1. apply K_grp. change "D" with ("" ++ "D"). cap.
  - reflexivity.
  - eapply K_seq; [cap|]. eapply K_seq; [cap|]. apply K_alt2, K_alt1. cap.
  - reflexivity.
  - eapply K_seq; [cap|]. change ("/CLRD" ++ d) with ("/" ++ "CLRD" ++ d). eapply K_seq; [cap|]. apply K_alt2, K_alt2. eapply K_seq; [apply K_alt2; cap|cap].
  - reflexivity.
  - eapply K_seq; [cap|]. eapply K_seq; [cap|]. apply K_alt2, K_alt2. replace (a ++ b ++ c ++ d) with ((a ++ b ++ c) ++ d) by (rewrite !sapp_assoc; reflexivity).
    eapply K_seq; [apply K_alt1; cap|cap].
  - reflexivity.
Qed.
Lemma runway_lang : forall w r, Runway_text false w r -> Lang re_rwy w.
Proof.
  intros w r R. destruct (runway_short_lang _ _ R) as [L N]. unfold re_rw in L. inversion L as [| | |a b p Lp|a b p Lp| | | | |]; subst; [exact Lp|].
  in_words Lp X. destruct X as [<-|[]]. destruct N. reflexivity.
Qed.
Lemma one_words : forall x, Lang re_one x -> In x ["0"; "1"; "2"; "3"; "4"; "5"; "6"; "7"; "8"; "9"; "/"].
Proof. intros x L. in_words L X. cbn in X. intuition (subst; cbn; auto 20). Qed.
Lemma deposits_code : forall x d, Lang re_one x -> (RunwayState_depositsFromString x = Ok (Some d) <-> In (x, d) deposit_codes).
Proof.
  intros x d L. apply one_words in L. cbn [In] in L. repeat (destruct L as [<-|L]; [|]); try contradiction;
    (split; [intros E; injection E as <-; cbn; tauto|cbn; intuition congruence]).
Qed.
Lemma extent_code : forall x d, Lang re_one x -> (RunwayState_extentFromString x = Ok (Some d) <-> In (x, d) extent_codes).
Proof.
  intros x d L. apply one_words in L. cbn [In] in L. repeat (destruct L as [<-|L]; [|]); try contradiction;
    (split; [intros E; injection E as <-; cbn; tauto|cbn; intuition congruence]).
Qed.
Lemma deposits_lang : forall x d, In (x, d) deposit_codes -> Lang re_one x.
Proof. intros x d H. cbn [In deposit_codes] in H. repeat (destruct H as [H|H]; [injection H as <- <-; apply closed_lang; reflexivity|]). contradiction. Qed.
Lemma extent_lang : forall x d, In (x, d) extent_codes -> Lang re_one x.
Proof. intros x d H. cbn [In extent_codes] in H. repeat (destruct H as [H|H]; [injection H as <- <-; apply closed_lang; reflexivity|]). contradiction. Qed.
Lemma two_lang : forall s v, numeral 2 s v -> Lang re_two_or_not s.
Proof. intros s v N. apply L_alt1. apply (numeral_lang _ _ _ _ N). reflexivity. Qed.
Lemma depth_read : forall s p, Depth s p -> Lang re_two_or_not s /\ exists q, Precipitation_fromRunwayDeposits s = Ok (Some q).
Proof.
  intros s p [[-> _]|(v & N & Z & _)].
  - split; [apply closed_lang; reflexivity|]. eexists. apply deposits_parse. auto.
  - split; [exact (two_lang _ _ N)|]. eexists. apply deposits_parse. right. exists v. auto.
Qed.
Lemma friction_read : forall s p, Friction s p -> Lang re_two_or_not s /\ exists q, SurfaceFriction_fromString s = Ok (Some q).
Proof.
  intros s p [[-> _]|[[-> _]|[(ba & I & _)|(v & x & N & B & _)]]].
  - split; [apply closed_lang; reflexivity|]. eexists. apply friction_parse. auto.
  - split; [apply closed_lang; reflexivity|]. eexists. apply friction_parse. auto.
  - split; [|destruct (braking_codes_accepted _ _ I) as (f & F & _); eauto].
    cbn [In braking_codes] in I. repeat (destruct I as [I|I]; [injection I as <- _; apply closed_lang; reflexivity|]). contradiction.
  - split; [exact (two_lang _ _ N)|]. eexists. apply friction_parse. right; right; right. exists v. auto.
Qed.
Lemma two_not_slashes : forall s, Lang re_two s -> s <> "//".
Proof. intros s L ->. apply is_match_lang in L. discriminate L. Qed.
Lemma two_length : forall s, Lang re_two s -> Nat.eqb (slen s) 0 = false.
Proof. intros [|c s] L; [apply is_match_lang in L; discriminate L|reflexivity]. Qed.
Lemma two_of : forall s, Lang re_two_or_not s -> s <> "//" -> Lang re_two s.
Proof. intros s L N. inversion L as [| | |a b p Lp|a b p Lp| | | | |]; subst; [exact Lp|]. in_words Lp X. destruct X as [<-|[]]. destruct N. reflexivity. Qed.
Lemma state_first : forall w part md g, RunwayStateGroup_parse w part md = Ok (Some g) -> Runway_state part [w] g.
Proof.
  intros w part md g H. unfold RunwayStateGroup_parse in H.
  destruct (is_part part RP_METAR) eqn:P; [|discriminate H]. cbn [negb] in H. assert (part = RP_METAR) by (destruct part; discriminate P || reflexivity). subst part.
  destruct (seqb w "SNOCLO" || seqb w "R/SNOCLO") eqn:E.
  { injection H as <-. apply Runway_aerodrome; [reflexivity|]. apply orb_prop in E. destruct E as [E|E]; apply seqb_eq in E; auto. }
  destruct (regex_match rgx_runwaystate w) as [m|] eqn:R; [|discriminate H]. apply state_matched in R.
  destruct R as [w W|w W|w d W D|w d W D|w a b c d W A B C D|]; unfold mlen in H; cbn [mstr find fst snd Nat.eqb slen negb] in H; [..|discriminate H];
    (apply bind_some in H; destruct H as (r & R & H); apply runway_text in R).
  - injection H as <-. apply Runway_closed; auto.
  - injection H as <-. change "/D" with ("/" ++ "" ++ "D"). apply Runway_cleared; auto.
  - rewrite slen_app, Nat.add_comm in H. cbn [slen Nat.add Nat.eqb negb] in H. rewrite (two_length _ D) in H. cbn [negb] in H.
    apply bind_some in H. destruct H as (f & F & H). injection H as <-. apply Runway_cleared; auto. right. split; [exact (two_not_slashes _ D)|exact (friction_value _ _ F)].
  - apply bind_some in H. destruct H as (f & F & H). injection H as <-. apply Runway_clrd; auto. exact (friction_value _ _ F).
  - apply bind_some in H. destruct H as (f & F & H). apply bind_some in H. destruct H as (dp & Dp & H). apply bind_some in H. destruct H as (ex & Ex & H).
    apply bind_some in H. destruct H as (de & De & H).
    replace (if seqb c "99" then Rs_RUNWAY_NOT_OPERATIONAL else Rs_RUNWAY_STATE) with (if string_dec c "99" then Rs_RUNWAY_NOT_OPERATIONAL else Rs_RUNWAY_STATE) in H
      by (destruct (string_dec c "99") as [->|N]; [reflexivity|destruct (seqb c "99") eqn:Z; [apply seqb_eq in Z; contradiction|reflexivity]]).
    injection H as <-. apply Runway_covered; auto; [apply (deposits_code _ _ A); exact Dp|apply (extent_code _ _ B); exact Ex|exact (deposits_value _ _ De)|exact (friction_value _ _ F)].
Qed.
Lemma not_aerodrome : forall w r x, Runway_text false w r -> seqb (w ++ x) "SNOCLO" || seqb (w ++ x) "R/SNOCLO" = false.
Proof.
  intros w r x (p & d & y & -> & P & N & _). destruct P as [-> |[_ P]]; [|discriminate P]. destruct N as [L D]. change String.length with slen in L.
  destruct d as [|c [|c2 [|]]]; try discriminate L. destruct (seqb _ "SNOCLO") eqn:E; [apply seqb_eq in E; discriminate E|].
  destruct (seqb _ "R/SNOCLO") eqn:F; [|reflexivity]. apply seqb_eq in F. cbn in F. injection F as -> -> F. discriminate D.
Qed.
(** What is said of the runway, but for the depth and the friction *)
Lemma state_made : forall part now ws g, Runway_state part ws g ->
  exists d f, Assembled part now ws (GRunwayState (mkRunwayState (rs_rw g) (rs_tp g) (rs_dp g) (rs_ext g) d f)).
Proof.
  intros part now ws g [w P E|w r P R|w r d f P R F|w r d f P R F|w r a dp b ex c de d f P R A B C F]; subst part; cbn [rs_rw rs_tp rs_dp rs_ext].
  - exists no_depth, no_friction. apply (assembled_first RP_METAR now _ (GRunwayState _)). destruct E as [-> | ->]; reflexivity.
  - exists no_depth, no_friction. apply (assembled_first RP_METAR now _ (GRunwayState _)). cbn [parsed_as]. unfold RunwayStateGroup_parse. cbn [is_part negb].
    rewrite (not_aerodrome _ _ _ R), (matched_state _ _ (Matched_closed _ (runway_lang _ _ R))). unfold mlen. cbn [mstr find fst snd Nat.eqb slen negb].
    apply runway_text in R. rewrite R. reflexivity.
  - destruct F as [[-> ->]|[N F]].
    + exists no_depth, no_friction. apply (assembled_first RP_METAR now _ (GRunwayState _)). cbn [parsed_as]. unfold RunwayStateGroup_parse. cbn [is_part negb].
      rewrite (not_aerodrome _ _ _ R). change ("/" ++ "" ++ "D") with "/D". rewrite (matched_state _ _ (Matched_cleared _ (runway_lang _ _ R))). unfold mlen. cbn [mstr find fst snd Nat.eqb slen negb].
      apply runway_text in R. rewrite R. reflexivity.
    + destruct (friction_read _ _ F) as (L & q & Q). apply two_of in L; [|exact N]. exists no_depth, q.
      apply (assembled_first RP_METAR now _ (GRunwayState _)). cbn [parsed_as]. unfold RunwayStateGroup_parse. cbn [is_part negb].
      rewrite (not_aerodrome _ _ _ R), (matched_state _ _ (Matched_friction _ _ (runway_lang _ _ R) L)). unfold mlen. cbn [mstr find fst snd Nat.eqb slen negb].
      apply runway_text in R. rewrite R. cbn [bind]. rewrite slen_app, Nat.add_comm. cbn [slen Nat.add Nat.eqb negb]. rewrite (two_length _ L). cbn [negb]. rewrite Q. reflexivity.
  - destruct (friction_read _ _ F) as (L & q & Q). exists no_depth, q.
    apply (assembled_first RP_METAR now _ (GRunwayState _)). cbn [parsed_as]. unfold RunwayStateGroup_parse. cbn [is_part negb].
    rewrite (not_aerodrome _ _ _ R), (matched_state _ _ (Matched_clrd _ _ (runway_lang _ _ R) L)). unfold mlen. cbn [mstr find fst snd Nat.eqb slen negb].
    apply runway_text in R. rewrite R. cbn [bind]. rewrite Q. reflexivity.
  - destruct (friction_read _ _ F) as (L & q & Q). destruct (depth_read _ _ C) as (L' & q' & Q'). exists q', q.
    apply (assembled_first RP_METAR now _ (GRunwayState _)). cbn [parsed_as]. unfold RunwayStateGroup_parse. cbn [is_part negb].
    pose proof (deposits_lang _ _ A) as La. pose proof (extent_lang _ _ B) as Lb.
    rewrite (not_aerodrome _ _ _ R), (matched_state _ _ (Matched_state _ _ _ _ _ (runway_lang _ _ R) La Lb L' L)). unfold mlen. cbn [mstr find fst snd Nat.eqb slen negb].
    apply runway_text in R. rewrite R. cbn [bind]. rewrite Q. cbn [bind]. rewrite (proj2 (deposits_code _ _ La) A). cbn [bind]. rewrite (proj2 (extent_code _ _ Lb) B). cbn [bind]. rewrite Q'. cbn [bind].
    destruct (string_dec c "99") as [->|N]; [reflexivity|]. destruct (seqb c "99") eqn:Z; [apply seqb_eq in Z; contradiction|reflexivity].
Qed.

Lemma state_assembled : forall part now words g, Assembled part now words (GRunwayState g) -> Runway_state part words g.
Proof.
  intros part now words g H.
  refine (assembled_kind part now (fun words k => match k with GRunwayState g => Runway_state part words g | _ => True end) _ _ words (GRunwayState g) H).
  - intros w md [] _ Q; try exact I. exact (state_first _ _ _ _ Q).
  - intros ws' w md [] [] _ IH T A; try exact I; try contradiction. discriminate A.
Qed.
Theorem result_state : forall sgn report limit r, parse sgn report limit = Ok r ->
  forall g part raw, In (mkGroupInfo (GRunwayState g) part raw) (pr_groups r) -> raw <> "" -> Runway_state part (words_of raw) g.
Proof.
  intros sgn report limit r E g part raw Hi N.
  refine (Pf_WeatherWords.built_kind part (fun words k => match k with GRunwayState g => Runway_state part words g | _ => True end) _ _ _ _ _ (GRunwayState g) (Pf_Built.built_from_words _ _ _ _ E _ _ _ Hi N)).
  - exact (fun _ => I).
  - intros w md [] Q; try exact I. exact (state_first _ _ _ _ Q).
  - intros ws' w md [] [] _ IH A; try exact I; try contradiction. discriminate A.
  - intros ws' w part' md [] [] _ IH A; try exact I; try contradiction. injection A as <-. exact IH.
Qed.
Theorem state_words : forall part now words,
  (forall g, Assembled part now words (GRunwayState g) -> Runway_state part words g)
  /\ (forall v, Runway_state part words v -> exists g, Assembled part now words (GRunwayState g)
       /\ rs_rw g = rs_rw v /\ rs_tp g = rs_tp v /\ rs_dp g = rs_dp v /\ rs_ext g = rs_ext v).
Proof.
  intros part now words. split; [intros g; apply state_assembled|].
  intros v V. destruct (state_made _ now _ _ V) as (d & f & M). eexists. split; [exact M|]. auto.
Qed.
Theorem readings_example : exists r t u p q v w s,
  parse true "METAR UUWW 280551Z 24010KT 9999 BKN012 M02/M11 Q1021 W19/S4 R14L/290595 RMK T MISG SLP982 52032=" 100 = Ok r
  /\ In (mkGroupInfo (GTemperature t) RP_METAR "M02/M11") (pr_groups r)
  /\ In (mkGroupInfo (GTemperature u) RP_RMK "T MISG") (pr_groups r)
  /\ In (mkGroupInfo (GPressure p) RP_METAR "Q1021") (pr_groups r)
  /\ In (mkGroupInfo (GPressure q) RP_RMK "SLP982") (pr_groups r)
  /\ In (mkGroupInfo (GSeaSurface v) RP_METAR "W19/S4") (pr_groups r)
  /\ In (mkGroupInfo (GPressureTendency w) RP_RMK "52032") (pr_groups r)
  /\ In (mkGroupInfo (GRunwayState s) RP_METAR "R14L/290595") (pr_groups r)
  /\ tg_dp t = mkTemp (Some (-11)%Z) true false
  /\ tg_tp u = Tg_T_MISG
  /\ pt_type w = Pt_INCREASING
  /\ (rs_dp s, rs_ext s) = (De_WET_AND_WATER_PATCHES, Ex_MORE_THAN_51_PERCENT).
Proof.
  eexists.
  exists (mkTempGroup Tg_TEMPERATURE_AND_DEW_POINT (mkTemp (Some (-2)%Z) true false) (mkTemp (Some (-11)%Z) true false) false).
  exists (mkTempGroup Tg_T_MISG no_temperature no_temperature false).
  exists (mkPressureGroup Pg_OBSERVED_QNH (mkPressure (Some (SpecFloat.S754_finite false 16728064 (-14))) HECTOPASCAL) false).
  exists (mkPressureGroup Pg_OBSERVED_SLP (mkPressure (Some (SpecFloat.S754_finite false 16354509 (-14))) HECTOPASCAL) false).
  exists (mkSeaSurface (mkTemp (Some 19%Z) false false) (mkWh Wh_STATE_OF_SURFACE (Some 25%N))).
  exists (mkPressureTendency Pt_INCREASING (mkPressure (Some (SpecFloat.S754_finite false 13421773 (-22))) HECTOPASCAL)).
  exists (mkRunwayState (mkRunway 14 Rw_LEFT) Rs_RUNWAY_STATE De_WET_AND_WATER_PATCHES Ex_MORE_THAN_51_PERCENT
           (mkPrecip (Some (SpecFloat.S754_finite false 10485760 (-21))) MM) (mkSf Sf_BRAKING_ACTION_REPORTED 40)).
  split; [vm_compute; reflexivity|]. do 7 (split; [cbn; repeat (try (left; reflexivity); right)|]). repeat split.
Qed.
