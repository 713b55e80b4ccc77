(** The words of a weather group of the result. *)
From Coq Require Import Lia.
From Verif Require Import Prim Lib Regex Float Values Weather Groups1 Groups2 Groups3 Groups4 Parser.
From Verif Require Import SpecTokens SpecReads SpecText SpecReach SpecBuilt SpecWeather SpecNumeral SpecPhenomena.
From Verif Require Import Pf_Ok Pf_Kinds Pf_Weather Pf_Phenomena Pf_Events Pf_Built.
Local Open Scope string_scope.

(** Induction on the words of a group, by what its own kind's parse and append do *)
Lemma built_kind : forall part (P : list string -> Group -> Prop),
  (forall ws, P ws (GUnknown mkUnknown)) ->
  (forall w md g, parsed_as g w part md -> P [w] g) ->
  (forall ws w md g g', Built part ws g -> P ws g -> appended_as g w part md g' APPENDED -> P (ws ++ [w])%list g') ->
  (forall ws w part' md g g', Built part ws g -> P ws g -> appended_as g w part' md g' NOT_APPENDED -> P ws g') ->
  forall ws g, Built part ws g -> P ws g.
Proof.
  intros part P U F M N ws g H; induction H as [w md g G|w md g g' B IH G|ws w md g g' B IH A|ws w part' md g g' B IH A|ws].
  - apply GroupParser_parse_inv in G. destruct G as [[-> |G] _]; [apply U|eapply F; exact G].
  - apply GroupParser_reparse_inv in G. destruct G as [-> |[G _]]; [apply U|eapply F; exact G].
  - eapply M; [exact B|exact IH|]. apply appended_inv. exact A.
  - eapply N; [exact B|exact IH|]. apply appended_inv. exact A.
  - apply U.
Qed.

Lemma is_part_true : forall p q, is_part p q = true -> p = q.
Proof. intros [] []; cbn; congruence. Qed.
Lemma body_word : forall s part p, Weather_parseWeatherWithoutEvent s part = Ok (Some p) -> body_weather part s p.
Proof.
  intros s part p H. unfold Weather_parseWeatherWithoutEvent in H.
  destruct (negb (is_part part RP_METAR) && negb (is_part part RP_TAF)) eqn:Ep; [discriminate|].
  destruct (is_part part RP_METAR && seqb s "RE//") eqn:E1.
  { apply andb_prop in E1. destruct E1 as [A B]. apply is_part_true in A. apply seqb_eq in B. injection H as <-.
    left. split; [exact A|]. split; [exact B|]. split; [repeat split|reflexivity]. }
  destruct (is_part part RP_METAR && seqb s "//") eqn:E2.
  { apply andb_prop in E2. destruct E2 as [A B]. apply is_part_true in A. apply seqb_eq in B. injection H as <-.
    right; left. split; [exact A|]. split; [exact B|]. split; [repeat split|reflexivity]. }
  right; right. apply bind_ok in H. destruct H as ([w|] & Hw & H); [|discriminate].
  destruct (weather_sound _ _ _ Hw) as (q & d & ws & R & W & Sh & T).
  destruct (is_part part RP_TAF && WpQualifier_beq (Wp_qualifier w) Q_RECENT) eqn:E3; [discriminate|].
  injection H as <-. exists q, d, ws. split; [|auto].
  destruct part; cbn in Ep; try discriminate; [left; reflexivity|right]. split; [reflexivity|]. intros ->.
  destruct Sh as (Sq & _). cbn in E3. rewrite Sq in E3. discriminate.
Qed.
Definition weather_state (part : ReportPart) (words : list string) (g : WeatherGroup) : Prop :=
  weather_words part words g
  /\ match wx_t g with
     | Wx_WX_MISG => wx_inc g = WxI_WX /\ words = ["WX"] \/ wx_inc g = WxI_NONE /\ words = ["WX"; "MISG"]
     | Wx_TS_LTNG_TEMPO_UNAVBL => wx_inc g = WxI_TSLTNG /\ words = ["TS/LTNG"]
         \/ wx_inc g = WxI_TSLTNG_TEMPO /\ words = ["TS/LTNG"; "TEMPO"]
         \/ wx_inc g = WxI_NONE /\ words = ["TS/LTNG"; "TEMPO"; "UNAVBL"]
     | _ => wx_inc g = WxI_NONE
     end.
Lemma recent_true : forall q, WpQualifier_beq q Q_RECENT = true -> q = Q_RECENT.
Proof. intros q H. destruct q; cbn in H; congruence. Qed.
Lemma recent_false : forall q, WpQualifier_beq q Q_RECENT = false -> q <> Q_RECENT.
Proof. intros q H ->. discriminate. Qed.
Lemma weather_first : forall s part md g, WeatherGroup_parse s part md = Ok (Some g) -> weather_state part [s] g.
Proof.
  intros s part md g H. unfold WeatherGroup_parse, or_else in H. apply bind_ok in H. destruct H as (o & H1 & H).
  destruct (is_part part RP_METAR || is_part part RP_TAF) eqn:Ep.
  - assert (P : part = RP_METAR \/ part = RP_TAF) by (destruct part; cbn in Ep; try discriminate; auto).
    destruct (seqb s "NSW") eqn:En.
    { injection H1 as <-. injection H as <-. apply seqb_eq in En. subst s. split; [cbn; auto|reflexivity]. }
    apply bind_ok in H1. destruct H1 as ([p|] & Hp & H1).
    2:{ injection H1 as <-. destruct P as [-> | ->]; discriminate H. }
    injection H1 as <-. injection H as <-. apply body_word in Hp. unfold weather_state, weather_words. cbn [wx_t].
    destruct (WpQualifier_beq (Wp_qualifier p) Q_RECENT) eqn:Q; (split; [|reflexivity]); split.
    + constructor; [exact Hp|constructor].
    + constructor; [exact (recent_true _ Q)|constructor].
    + constructor; [exact Hp|constructor].
    + constructor; [exact (recent_false _ Q)|constructor].
  - injection H1 as <-. destruct (is_part part RP_RMK) eqn:Er; [|discriminate]. apply is_part_true in Er.
    destruct (seqb s "PWINO") eqn:E1; [injection H as <-; apply seqb_eq in E1; subst s; split; [cbn; auto|reflexivity]|].
    destruct (seqb s "TSNO") eqn:E2; [injection H as <-; apply seqb_eq in E2; subst s; split; [cbn; auto|reflexivity]|].
    destruct (seqb s "WX") eqn:E3; [injection H as <-; apply seqb_eq in E3; subst s; split; [cbn; repeat split; [exact Er|discriminate]|left; cbn; auto]|].
    destruct (seqb s "TS/LTNG") eqn:E4; [injection H as <-; apply seqb_eq in E4; subst s; split; [cbn; repeat split; [exact Er|discriminate]|left; cbn; auto]|].
    destruct (md_reportTime md) as [t|]; [|discriminate].
    destruct (events_sound _ _ _ H) as (ss & ps & N & Es & Ev & ->). split; [|reflexivity].
    cbn. split; [exact Er|]. exists t, ss, ps. rewrite <- Es. auto.
Qed.
Lemma weather_next : forall words s part md g g' a, weather_state part words g ->
  WeatherGroup_append g s part md = Ok (g', a) ->
  (a = APPENDED -> weather_state part (words ++ [s])%list g') /\ (a = NOT_APPENDED -> g' = g).
Proof.
  intros words s part md [t w inc] g' a [W I] H. unfold WeatherGroup_append in H. cbn [wx_inc wx_t] in H.
  unfold weather_words in W. cbn [wx_t wx_inc] in *.
  destruct inc.
  - destruct (negb (WxType_beq t Wx_CURRENT) && negb (WxType_beq t Wx_RECENT)) eqn:T.
    { injection H as <- <-. split; [discriminate|reflexivity]. }
    apply bind_ok in H. destruct H as ([p|] & Hp & H); [|injection H as <- <-; split; [discriminate|reflexivity]].
    apply body_word in Hp. cbv zeta in H.
    destruct (WxType_beq t Wx_CURRENT && _) eqn:C1; [injection H as <- <-; split; [discriminate|reflexivity]|].
    destruct (WxType_beq t Wx_RECENT && _) eqn:C2; [injection H as <- <-; split; [discriminate|reflexivity]|].
    apply bind_ok in H. destruct H as ([k|] & Hk & H); injection H as <- <-; [|split; [discriminate|reflexivity]].
    split; [intros _|discriminate]. unfold Weather_addWeatherPhenomena in Hk.
    destruct (Nat.leb _ _); [discriminate|]. apply bind_ok in Hk. destruct Hk as (l & Hl & Hk). injection Hk as <-.
    unfold array_push in Hl. destruct (Nat.ltb _ _); [|discriminate]. injection Hl as <-. cbn [wx_w wx_t wx_inc].
    split; [|destruct t; try discriminate T; reflexivity]. unfold weather_words. cbn [wx_t].
    destruct t; try discriminate T; destruct W as [W1 W2]; split.
    + apply Forall2_app; [exact W1|constructor; [exact Hp|constructor]].
    + cbn in C1. apply Forall_app. split; [exact W2|]. constructor; [exact (recent_false _ C1)|constructor].
    + apply Forall2_app; [exact W1|constructor; [exact Hp|constructor]].
    + cbn in C2. apply Bool.negb_false_iff in C2. apply Forall_app. split; [exact W2|].
      constructor; [exact (recent_true _ C2)|constructor].
  - destruct (seqb s "MISG") eqn:E; cbn [negb] in H; injection H as <- <-; (split; [|discriminate]); [intros _|discriminate].
    apply seqb_eq in E. subst s. destruct t; try discriminate I; [|exfalso; intuition discriminate].
    destruct I as [[_ ->]|I]; [|exfalso; intuition discriminate]. split; [cbn; tauto|right; auto].
  - destruct (seqb s "TEMPO") eqn:E; cbn [negb] in H; injection H as <- <-; (split; [|discriminate]); [intros _|discriminate].
    apply seqb_eq in E. subst s. destruct t; try discriminate I; [exfalso; intuition discriminate|].
    destruct I as [[_ ->]|I]; [|exfalso; intuition discriminate].
    split; [cbn; repeat split; [apply W|apply W|discriminate]|right; left; auto].
  - destruct (seqb s "UNAVBL") eqn:E; cbn [negb] in H; injection H as <- <-; (split; [|discriminate]); [intros _|discriminate].
    apply seqb_eq in E. subst s. destruct t; try discriminate I; [exfalso; intuition discriminate|].
    destruct I as [[X _]|[[_ ->]|[X _]]]; try discriminate X.
    split; [cbn; tauto|right; right; auto].
Qed.
Lemma built_weather : forall part words g, Built part words (GWeather g) -> weather_state part words g.
Proof.
  intros part words g B.
  refine (built_kind part (fun ws k => match k with GWeather x => weather_state part ws x | _ => True end) _ _ _ _ words (GWeather g) B).
  - exact (fun _ => I).
  - intros w md [] P; try exact I. exact (weather_first _ _ _ _ P).
  - intros ws w md [] [] _ IH A; try exact I; try contradiction. exact (proj1 (weather_next _ _ _ _ _ _ _ IH A) eq_refl).
  - intros ws w part' md [] [] _ IH A; try exact I; try contradiction. cbn [appended_as] in A.
    (* a refused word leaves the group as it was, whatever the part *)
    unfold WeatherGroup_append in A. destruct (wx_inc g0); repeat match type of A with
    | context [if ?b then _ else _] => destruct b; try discriminate A
    | bind _ _ = Ok _ => apply bind_ok in A; destruct A as ([?|] & _ & A); cbv zeta in A; try discriminate A
    end; injection A as <-; exact IH.
Qed.
Theorem result_weather : forall sgn report limit r, parse sgn report limit = Ok r ->
  forall g part raw, In (mkGroupInfo (GWeather g) part raw) (pr_groups r) -> raw <> "" ->
  weather_words part (words_of raw) g.
Proof.
  intros sgn report limit r E g part raw Hi N. destruct (result_built _ _ _ _ E _ Hi) as [X|B]; [contradiction|].
  exact (proj1 (built_weather _ _ _ B)).
Qed.
Theorem packing : forall q d ws e tm, proper_q q -> proper_d d -> Forall proper_w ws -> proper_e e -> List.length ws <= 3 ->
  exists x, Wp_packv q d ws e = Ok x /\ shows (mkWp x tm) q d ws e.
Proof.
  intros q d ws e tm Pq Pd Pw Pe L. destruct (packv_shows q d ws e tm Pq Pd Pw Pe) as (x & Hx & S).
  exists x. split; [exact Hx|]. rewrite firstn_all2 in S by exact L. exact S.
Qed.
