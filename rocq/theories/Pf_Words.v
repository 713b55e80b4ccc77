(** No group is recognised from a text with a space in it, except that anything may follow LTG. *)
From Coq Require Import Lia.
From Verif Require Import Prim Lib Regex Float Values Weather Groups1 Groups2 Groups3 Groups4 Parser
  SpecRegex SpecDecimal SpecWeather SpecNumeral SpecPhenomena SpecCloud SpecReach.
From Verif Require Import Pf_Regex Pf_Ok Pf_Caps Pf_Numeral Pf_Formats Pf_Cloud Pf_Weather Pf_Phenomena Pf_Decode Pf_Events Pf_Kinds Pf_View.
Local Open Scope string_scope.

Definition plain (s : string) : Prop := str_all not_space s = true.
Lemma spaced_plain : forall s, spaced s -> plain s -> False.
Proof. intros s H P; unfold plain in P; rewrite spaced_all in P by exact H; discriminate. Qed.
Lemma plain_app : forall a b, plain a -> plain b -> plain (a ++ b).
Proof. intros a b A B; unfold plain in *; rewrite str_all_app, A, B; reflexivity. Qed.
Lemma matches_plain : forall p s, matches p s -> cls_all not_space (rx p) = true -> plain s.
Proof. intros p s M C; exact (lang_cls_all not_space _ _ M C). Qed.
Lemma numeral_plain : forall n s v, numeral n s v -> plain s.
Proof.
  intros n s v [_ D]. revert v D. unfold plain. induction s as [|c s IH]; intros v D; [reflexivity|].
  cbn [decimal] in D. destruct (digit_of c) as [d|] eqn:E; [|discriminate]. destruct (decimal s) as [w|]; [|discriminate].
  cbn [str_all]. rewrite (IH w eq_refl), andb_true_r.
  unfold not_space. destruct (Ascii.eqb_spec c " "); [subst; discriminate|reflexivity].
Qed.

Lemma letters_plain : forall q d ws, proper_q q -> proper_d d -> Forall proper_w ws -> plain (written q d ws).
Proof.
  intros q d ws Q D W. unfold written. apply plain_app; [destruct q; try contradiction; reflexivity|].
  apply plain_app; [destruct d; try contradiction; reflexivity|].
  induction W as [|w ws P W IH]; [reflexivity|]. cbn [all_letters]. 
  apply plain_app; [destruct w; try contradiction; reflexivity|exact IH].
Qed.
Lemma weather_plain : forall s b p, Wp_fromString s b = Ok (Some p) -> plain s.
Proof.
  intros s b p H. apply weather_sound in H. destruct H as (q & d & ws & R & -> & _).
  apply recognised_proper in R. apply letters_plain; apply R.
Qed.
Lemma event_plain : forall t prev s p, event_text t prev s p -> plain s.
Proof.
  intros t prev s p (ph & ev & h & m & q & d & ws & hour & minute & -> & K & Hh & Hm & P & _).
  apply plain_app.
  - destruct P as [(-> & _)|(R & ->)]; [reflexivity|]. apply recognised_proper in R. apply letters_plain; apply R.
  - apply plain_app; [destruct K as [-> | ->]; reflexivity|].
    apply plain_app; [|exact (numeral_plain _ _ _ Hm)]. destruct Hh as [(-> & _)|Hh]; [reflexivity|exact (numeral_plain _ _ _ Hh)].
Qed.
Lemma events_plain : forall t prev ss ps, events t prev ss ps -> plain (concatenated ss).
Proof.
  intros t prev ss ps E; induction E as [|prev s p ss ps X E IH]; [reflexivity|].
  cbn [concatenated fold_right]. apply plain_app; [exact (event_plain _ _ _ _ X)|exact IH].
Qed.
Lemma cloud_plain : forall s c, CloudType_fromString s = Ok (Some c) -> plain s.
Proof.
  intros s c H. assert (A : accepted (CloudType_fromString s)) by (eexists; exact H).
  apply cloud_format in A. destruct A as [A|A]; (eapply matches_plain; [exact A|vm_compute; reflexivity]).
Qed.

Ltac sp H s :=
  repeat match goal with
  | |- context [seqb s ?t] => rewrite (spaced_seqb s t H) by no_space
  | |- context [regex_match ?r s] => rewrite (spaced_match s r H) by no_space
  | |- context [is_match ?r s] => rewrite (spaced_is_match s r H) by no_space
  end; rewrite ?andb_false_r; cbn [andb orb bind or_else].
Ltac by_regex f := intros s part md H; unfold f; cbv beta zeta; sp H s; destruct part; reflexivity.
Lemma spaced_wind : forall s part md, spaced s -> WindGroup_parse s part md = Ok None.
Proof. intros s part md H; unfold WindGroup_parse, Wind_parseVariableSector, Wind_parseSurfaceOrShear; cbv beta zeta; sp H s; destruct part; reflexivity. Qed.
Lemma spaced_cloud : forall s part md, spaced s -> CloudGroup_parse s part md = Ok None.
Proof.
  intros s part md H; unfold CloudGroup_parse, Cloud_parseCloudLayerOrVertVis, CloudType_fromStringObscuration, Cloud_parseVariableCloudLayer;
    cbv beta zeta; cbn [lookup]; sp H s; destruct part; reflexivity.
Qed.
Lemma spaced_temperature : forall s part md, spaced s -> TemperatureGroup_parse s part md = Ok None.
Proof. by_regex TemperatureGroup_parse. Qed.
Lemma spaced_runwaystate : forall s part md, spaced s -> RunwayStateGroup_parse s part md = Ok None.
Proof. by_regex RunwayStateGroup_parse. Qed.
Lemma spaced_seasurface : forall s part md, spaced s -> SeaSurfaceGroup_parse s part md = Ok None.
Proof. by_regex SeaSurfaceGroup_parse. Qed.
Lemma spaced_minmax : forall s part md, spaced s -> MinMaxTemperatureGroup_parse s part md = Ok None.
Proof. intros s part md H; unfold MinMaxTemperatureGroup_parse, MinMax_fromForecast, MinMax_from6hourly, MinMax_from24hourly; cbv beta zeta; sp H s; destruct part; reflexivity. Qed.
Lemma spaced_precipitation : forall s part md, spaced s -> PrecipitationGroup_parse s part md = Ok None.
Proof. by_regex PrecipitationGroup_parse. Qed.
Lemma spaced_layer : forall s part md, spaced s -> LayerForecastGroup_parse s part md = Ok None.
Proof. by_regex LayerForecastGroup_parse. Qed.
Lemma spaced_tendency : forall s part md, spaced s -> PressureTendencyGroup_parse s part md = Ok None.
Proof. by_regex PressureTendencyGroup_parse. Qed.
Lemma spaced_lowmidhigh : forall s part md, spaced s -> LowMidHighCloudGroup_parse s part md = Ok None.
Proof. by_regex LowMidHighCloudGroup_parse. Qed.
Lemma spaced_vicinity : forall s part md, spaced s -> VicinityGroup_parse s part md = Ok None.
Proof. intros s part md H; unfold VicinityGroup_parse, vc_table; cbn [lookup]; sp H s; destruct part; reflexivity. Qed.
Lemma spaced_misc : forall s part md, spaced s -> MiscGroup_parse s part md = Ok None.
Proof. intros s part md H; unfold MiscGroup_parse, Misc_parseColourCode; cbv beta zeta; cbn [lookup]; sp H s; destruct part; reflexivity. Qed.


Lemma plain_or_spaced : forall s, plain s \/ spaced s.
Proof.
  induction s as [|c s IH]; [left; reflexivity|].
  destruct (Ascii.eqb_spec c " ") as [->|N]; [right; exists "", s; reflexivity|].
  destruct IH as [P|(a & b & ->)]; [left|right; exists (String c a), b; reflexivity].
  unfold plain in *; cbn [str_all]; rewrite P, andb_true_r; unfold not_space; destruct (Ascii.eqb_spec c " "); [contradiction|reflexivity].
Qed.
Lemma plain_of : forall (A : Type) (x : string -> res (option A)), (forall s, spaced s -> x s = Ok None) ->
  forall s v, x s = Ok (Some v) -> plain s.
Proof. intros A x H s v E; destruct (plain_or_spaced s) as [P|P]; [exact P|]; rewrite (H s P) in E; discriminate. Qed.
Lemma or_else_inv : forall (A : Type) (x y : res (option A)) v, or_else x y = Ok (Some v) ->
  x = Ok (Some v) \/ x = Ok None /\ y = Ok (Some v).
Proof. intros A x y v H; unfold or_else in H; apply bind_ok in H; destruct H as ([w|] & E & H); [left; congruence|right; auto]. Qed.
Lemma may_inv : forall (A B : Type) (x : res (option A)) (f : A -> res (option B)) v,
  bind x (fun o => match o with Some a => f a | None => Ok None end) = Ok (Some v) -> exists a, x = Ok (Some a) /\ f a = Ok (Some v).
Proof. intros A B x f v H; apply bind_ok in H; destruct H as ([a|] & E & H); [eauto|discriminate]. Qed.

Lemma miles_plain : forall s b v, Distance_fromMileString s b = Ok (Some v) -> plain s.
Proof.
  intros s b v H. assert (A : accepted (Distance_fromMileString s b)) by (eexists; exact H).
  destruct b; [apply remark_mile_format in A|apply mile_format in A]; (eapply matches_plain; [exact A|vm_compute; reflexivity]).
Qed.
Lemma pressure_plain : forall s v, Pressure_fromString s = Ok (Some v) -> plain s.
Proof. intros s v H; eapply matches_plain; [apply pressure_format; eexists; exact H|vm_compute; reflexivity]. Qed.
Lemma forecast_plain : forall s v, Pressure_fromForecastString s = Ok (Some v) -> plain s.
Proof. intros s v H; eapply matches_plain; [apply forecast_pressure_format; eexists; exact H|vm_compute; reflexivity]. Qed.
Lemma slp_plain : forall s v, Pressure_fromSlpString s = Ok (Some v) -> plain s.
Proof. intros s v H; eapply matches_plain; [apply slp_format; eexists; exact H|vm_compute; reflexivity]. Qed.
Lemma qfe_plain : forall s v, Pressure_fromQfeString s = Ok (Some v) -> plain s.
Proof. intros s v H; eapply matches_plain; [apply qfe_format; eexists; exact H|vm_compute; reflexivity]. Qed.
Lemma seqb_plain : forall s t, seqb s t = true -> plain t -> plain s.
Proof. intros s t H P; apply seqb_eq in H; subst; exact P. Qed.
Lemma match_plain : forall r s m, regex_match r s = Some m -> cls_all not_space r = true -> plain s.
Proof. intros r s m H C; eapply lang_cls_all; [eapply match_lang; exact H|exact C]. Qed.
Lemma is_match_plain : forall r s, is_match r s = true -> cls_all not_space r = true -> plain s.
Proof. intros r s H C; eapply lang_cls_all; [apply is_match_lang; exact H|exact C]. Qed.

Ltac plain_leaf :=
  match goal with
  | E : seqb ?s ?t = true |- plain ?s => apply (seqb_plain _ _ E); reflexivity
  | E : regex_match _ ?s = Some _ |- plain ?s => apply (match_plain _ _ _ E); vm_compute; reflexivity
  | E : is_match _ ?s = true |- plain ?s => apply (is_match_plain _ _ E); vm_compute; reflexivity
  | E : Distance_fromMileString ?s _ = Ok (Some _) |- plain ?s => exact (miles_plain _ _ _ E)
  | E : Pressure_fromString ?s = Ok (Some _) |- plain ?s => exact (pressure_plain _ _ E)
  | E : Pressure_fromForecastString ?s = Ok (Some _) |- plain ?s => exact (forecast_plain _ _ E)
  | E : Pressure_fromSlpString ?s = Ok (Some _) |- plain ?s => exact (slp_plain _ _ E)
  | E : Pressure_fromQfeString ?s = Ok (Some _) |- plain ?s => exact (qfe_plain _ _ E)
  | E : CloudType_fromString ?s = Ok (Some _) |- plain ?s => exact (cloud_plain _ _ E)
  | E : Wp_fromString ?s _ = Ok (Some _) |- plain ?s => exact (weather_plain _ _ _ E)
  end.
Ltac plain_step H :=
  match type of H with
  | or_else _ _ = Ok (Some _) => apply or_else_inv in H; destruct H as [H|[_ H]]
  | bind _ (fun o => match o with Some _ => _ | None => Ok None end) = Ok (Some _) =>
      let a := fresh "a" in let E := fresh "E" in apply may_inv in H; destruct H as (a & E & H)
  | bind _ _ = Ok (Some _) => let a := fresh "a" in let E := fresh "E" in apply bind_ok in H; destruct H as (a & E & H)
  | (if ?b then _ else _) = Ok (Some _) => let E := fresh "E" in destruct b eqn:E
  | match ?b with _ => _ end = Ok (Some _) => let E := fresh "E" in destruct b eqn:E
  | Ok None = Ok (Some _) => discriminate H
  | Bad _ = Ok (Some _) => discriminate H
  end.
Ltac plain_all :=
  repeat first
  [ plain_leaf
  | match goal with
    | E : _ && _ = true |- _ => apply andb_prop in E; destruct E
    | H : _ = Ok (Some _) |- _ => plain_step H; cbv beta zeta in *
    end ].
Lemma visibility_plain : forall s part md g, VisibilityGroup_parse s part md = Ok (Some g) -> plain s.
Proof.
  intros s part md g H; unfold VisibilityGroup_parse, Vis_fromIncompleteInteger, Vis_fromMeters, Vis_fromRvr, Vis_appendInteger in H; cbv beta zeta in H.
  plain_all.
Qed.
Lemma pressure_group_plain : forall s part md g, PressureGroup_parse s part md = Ok (Some g) -> plain s.
Proof. intros s part md g H; unfold PressureGroup_parse in H; cbv beta zeta in H. plain_all. Qed.
Lemma cloudtypes_plain : forall s part md g, CloudTypesGroup_parse s part md = Ok (Some g) -> plain s.
Proof. intros s part md g H; unfold CloudTypesGroup_parse in H; cbv beta zeta in H. plain_all. Qed.
Lemma weather_group_plain : forall s part md g, WeatherGroup_parse s part md = Ok (Some g) -> plain s.
Proof.
  intros s part md g H; unfold WeatherGroup_parse, Weather_parseWeatherWithoutEvent in H; cbv beta zeta in H. plain_all.
  apply events_sound in H. destruct H as (ss & ps & _ & -> & V & _). exact (events_plain _ _ _ _ V).
Qed.

(** *** Texts that start with LTG *)
Fixpoint can_start (c : ascii) (r : re) : bool :=
  match r with
  | REps => false
  | RCls l => in_cls c l
  | RSeq a b => can_start c a || (Nat.eqb (minlen a) 0 && can_start c b)
  | RAlt a b => can_start c a || can_start c b
  | ROpt a | RStar a | RGrp _ a => can_start c a
  end.
Lemma starts : forall r s, Lang r s -> forall c t, s = String c t -> can_start c r = true.
Proof.
  induction 1 as [|rs x I|a b p q A IA B IB|a b p A IA|a b p B IB|a|a p A IA|a|a p q A IA B IB|n a p A IA];
    intros c0 t0 E; cbn [can_start]; try discriminate; eauto.
  - injection E as <- _; assumption.
  - pose proof (lang_minlen _ _ A) as M. destruct p as [|x p].
    + rewrite (IB _ _ E). cbn in M. replace (minlen a) with 0 by lia. apply orb_true_r.
    + injection E as -> _. rewrite (IA _ _ eq_refl). reflexivity.
  - rewrite (IA _ _ E); reflexivity.
  - rewrite (IB _ _ E); apply orb_true_r.
  - destruct p as [|x p]; [eauto|]. injection E as -> _. eauto.
Qed.
Definition ltg (s : string) : Prop := exists t, s = "LTG" ++ t.
Lemma ltg_seqb : forall s t, seqb s t = true -> ltg s -> substring 0 3 t = "LTG".
Proof. intros s t H (x & ->); apply seqb_eq in H; subst t. destruct x; reflexivity. Qed.
Lemma ltg_lang : forall r s, Lang r s -> can_start "L" r = false -> ltg s -> False.
Proof. intros r s L C (t & ->). rewrite (starts _ _ L "L"%char ("TG" ++ t) eq_refl) in C; discriminate. Qed.
Lemma ltg_event : forall t prev s p, event_text t prev s p -> exists c x, s = String c x /\ c <> "L"%char.
Proof.
  intros t prev s p (ph & ev & h & m & q & d & ws & hour & minute & -> & K & _ & _ & P & _).
  destruct P as [(-> & _)|(R & ->)]; [destruct K as [-> | ->]; cbn; eexists _, _; (split; [reflexivity|discriminate])|].
  pose proof (recognised_proper _ _ _ _ R) as (Q & D & W). unfold written.
  destruct q; try contradiction; cbn [qualifier_letters String.append]; try (eexists _, _; split; [reflexivity|discriminate]);
  destruct d; try contradiction; cbn [descriptor_letters String.append]; try (eexists _, _; split; [reflexivity|discriminate]);
  (destruct ws as [|w ws]; [cbn [all_letters String.append]; destruct K as [-> | ->]; cbn; eexists _, _; (split; [reflexivity|discriminate])|]);
  (pose proof (Forall_inv W) as Pw; destruct w; try contradiction; cbn [all_letters weather_letters String.append];
   try (eexists _, _; split; [reflexivity|discriminate])).
Qed.

Ltac ltg_leaf L :=
  match goal with
  | E : seqb ?s ?t = true |- _ => exfalso; pose proof (ltg_seqb _ _ E L) as X; vm_compute in X; discriminate X
  | E : regex_match _ ?s = Some _ |- _ => exfalso; apply match_lang in E; apply (ltg_lang _ _ E); [vm_compute; reflexivity|exact L]
  | E : is_match _ ?s = true |- _ => exfalso; apply is_match_lang in E; apply (ltg_lang _ _ E); [vm_compute; reflexivity|exact L]
  | E : Pressure_fromString ?s = Ok (Some _) |- _ => exfalso; assert (M : accepted (Pressure_fromString s)) by (eexists; exact E);
      apply pressure_format in M; apply (ltg_lang _ _ M); [vm_compute; reflexivity|exact L]
  | E : Pressure_fromSlpString ?s = Ok (Some _) |- _ => exfalso; assert (M : accepted (Pressure_fromSlpString s)) by (eexists; exact E);
      apply slp_format in M; apply (ltg_lang _ _ M); [vm_compute; reflexivity|exact L]
  | E : Pressure_fromQfeString ?s = Ok (Some _) |- _ => exfalso; assert (M : accepted (Pressure_fromQfeString s)) by (eexists; exact E);
      apply qfe_format in M; apply (ltg_lang _ _ M); [vm_compute; reflexivity|exact L]
  end.
Ltac ltg_all L :=
  repeat first
  [ ltg_leaf L
  | match goal with
    | E : _ && _ = true |- _ => apply andb_prop in E; destruct E
    | H : _ = Ok (Some _) |- _ => plain_step H; cbv beta zeta in *
    end ].
Ltac ltg_by f := intros s md g H L; unfold f in H; cbv beta zeta in H; cbn [is_part ReportPart_beq orb andb negb] in H; ltg_all L.
Lemma ltg_wind : forall s md g, WindGroup_parse s RP_RMK md = Ok (Some g) -> ltg s -> False.
Proof. ltg_by WindGroup_parse. Qed.
Lemma ltg_visibility : forall s md g, VisibilityGroup_parse s RP_RMK md = Ok (Some g) -> ltg s -> False.
Proof. ltg_by VisibilityGroup_parse. Qed.
Lemma ltg_obscuration : forall s c, CloudType_fromStringObscuration s = Some c -> ltg s -> False.
Proof.
  intros s c H L. unfold CloudType_fromStringObscuration in H. cbv zeta in H. cbn [lookup] in H.
  repeat match type of H with context [seqb s ?t] => let E := fresh "E" in destruct (seqb s t) eqn:E; [ltg_leaf L|] end.
  discriminate.
Qed.
Lemma ltg_variable_layer : forall s g, Cloud_parseVariableCloudLayer s = Ok (Some g) -> ltg s -> False.
Proof.
  intros s g H (t & ->). unfold Cloud_parseVariableCloudLayer in H.
  destruct (regex_match rgx_varcloud ("LTG" ++ t)) as [m|] eqn:R; [|discriminate].
  apply regex_match_captures in R. unfold rgx_varcloud in R. remember ("LTG" ++ t) as s eqn:Es.
  assert (M : mstr m 1 = "LTG").
  { clear H. captures R; cbn [app mstr find fst Nat.eqb snd];
      (match goal with X : Lang (RSeq (RCls [("A"%char, "Z"%char)]) (RSeq _ _)) ?p |- _ =>
        pose proof (lang_minlen _ _ X) as Mi; pose proof (lang_maxlen _ _ X _ eq_refl) as Ma; vm_compute (minlen _) in Mi;
        destruct p as [|a [|b [|c [|]]]]; cbn in Mi, Ma; try lia; cbn in Es; injection Es as -> -> -> _; reflexivity end). }
  rewrite M in H. discriminate.
Qed.
Lemma ltg_cloud : forall s md g, CloudGroup_parse s RP_RMK md = Ok (Some g) -> ltg s -> False.
Proof.
  ltg_by CloudGroup_parse.
  - exact (ltg_obscuration _ _ E2 L).
  - exact (ltg_variable_layer _ _ H L).
Qed.
Lemma ltg_temperature : forall s md g, TemperatureGroup_parse s RP_RMK md = Ok (Some g) -> ltg s -> False.
Proof. ltg_by TemperatureGroup_parse. Qed.
Lemma ltg_pressure : forall s md g, PressureGroup_parse s RP_RMK md = Ok (Some g) -> ltg s -> False.
Proof. ltg_by PressureGroup_parse. Qed.
Lemma ltg_runwaystate : forall s md g, RunwayStateGroup_parse s RP_RMK md = Ok (Some g) -> ltg s -> False.
Proof. ltg_by RunwayStateGroup_parse. Qed.
Lemma ltg_seasurface : forall s md g, SeaSurfaceGroup_parse s RP_RMK md = Ok (Some g) -> ltg s -> False.
Proof. ltg_by SeaSurfaceGroup_parse. Qed.
Lemma ltg_minmax : forall s md g, MinMaxTemperatureGroup_parse s RP_RMK md = Ok (Some g) -> ltg s -> False.
Proof. intros s md g H L; unfold MinMaxTemperatureGroup_parse, MinMax_fromForecast, MinMax_from6hourly, MinMax_from24hourly in H; cbv beta zeta in H; cbn [is_part ReportPart_beq orb andb negb] in H; ltg_all L. Qed.
Lemma ltg_precipitation : forall s md g, PrecipitationGroup_parse s RP_RMK md = Ok (Some g) -> ltg s -> False.
Proof. ltg_by PrecipitationGroup_parse. Qed.
Lemma ltg_layer : forall s md g, LayerForecastGroup_parse s RP_RMK md = Ok (Some g) -> ltg s -> False.
Proof. ltg_by LayerForecastGroup_parse. Qed.
Lemma ltg_tendency : forall s md g, PressureTendencyGroup_parse s RP_RMK md = Ok (Some g) -> ltg s -> False.
Proof. ltg_by PressureTendencyGroup_parse. Qed.
Lemma ltg_lowmidhigh : forall s md g, LowMidHighCloudGroup_parse s RP_RMK md = Ok (Some g) -> ltg s -> False.
Proof. ltg_by LowMidHighCloudGroup_parse. Qed.
Lemma ltg_vicinity : forall s md g, VicinityGroup_parse s RP_RMK md = Ok (Some g) -> ltg s -> False.
Proof. intros s md g H L; unfold VicinityGroup_parse, vc_table in H; cbn [is_part ReportPart_beq negb lookup] in H.
  repeat match type of H with context [seqb s ?t] => let E := fresh "E" in destruct (seqb s t) eqn:E; [ltg_leaf L|] end.
  discriminate.
Qed.
Lemma ltg_misc : forall s md g, MiscGroup_parse s RP_RMK md = Ok (Some g) -> ltg s -> False.
Proof. intros s md g H L; unfold MiscGroup_parse, Misc_parseColourCode in H; cbv beta zeta in H; cbn [is_part ReportPart_beq orb andb negb lookup] in H.
  repeat match type of H with context [seqb s ?t] => let E := fresh "E" in destruct (seqb s t) eqn:E; [ltg_leaf L|] end.
  cbn [or_else bind] in H. ltg_all L.
Qed.
Lemma ltg_weather : forall s md g, WeatherGroup_parse s RP_RMK md = Ok (Some g) -> ltg s -> False.
Proof.
  ltg_by WeatherGroup_parse. apply events_sound in H. destruct H as (ss & ps & N & Es & V & _).
  destruct V as [|prev x p ss ps X V]; [congruence|]. apply ltg_event in X. destruct X as (c & y & -> & C).
  destruct L as (t & L). rewrite L in Es. cbn in Es. injection Es as Es _. congruence.
Qed.

(** *** Together *)
Lemma parsed_plain : forall g s part md, parsed_as g s part md -> Group_index g <> 18 -> plain s.
Proof.
  intros g s part md P N. destruct g; cbn in P, N; try contradiction.
  - exact (plain_of _ (fun s => KeywordGroup_parse s part md) (fun s => spaced_keyword s part md) _ _ P).
  - exact (plain_of _ (fun s => LocationGroup_parse s part md) (fun s => spaced_location s part md) _ _ P).
  - exact (plain_of _ (fun s => ReportTimeGroup_parse s part md) (fun s => spaced_reporttime s part md) _ _ P).
  - exact (plain_of _ (fun s => TrendGroup_parse s part md) (fun s => spaced_trend s part md) _ _ P).
  - exact (plain_of _ (fun s => WindGroup_parse s part md) (fun s => spaced_wind s part md) _ _ P).
  - exact (visibility_plain _ _ _ _ P).
  - exact (plain_of _ (fun s => CloudGroup_parse s part md) (fun s => spaced_cloud s part md) _ _ P).
  - exact (weather_group_plain _ _ _ _ P).
  - exact (plain_of _ (fun s => TemperatureGroup_parse s part md) (fun s => spaced_temperature s part md) _ _ P).
  - exact (pressure_group_plain _ _ _ _ P).
  - exact (plain_of _ (fun s => RunwayStateGroup_parse s part md) (fun s => spaced_runwaystate s part md) _ _ P).
  - exact (plain_of _ (fun s => SeaSurfaceGroup_parse s part md) (fun s => spaced_seasurface s part md) _ _ P).
  - exact (plain_of _ (fun s => MinMaxTemperatureGroup_parse s part md) (fun s => spaced_minmax s part md) _ _ P).
  - exact (plain_of _ (fun s => PrecipitationGroup_parse s part md) (fun s => spaced_precipitation s part md) _ _ P).
  - exact (plain_of _ (fun s => LayerForecastGroup_parse s part md) (fun s => spaced_layer s part md) _ _ P).
  - exact (plain_of _ (fun s => PressureTendencyGroup_parse s part md) (fun s => spaced_tendency s part md) _ _ P).
  - exact (cloudtypes_plain _ _ _ _ P).
  - exact (plain_of _ (fun s => LowMidHighCloudGroup_parse s part md) (fun s => spaced_lowmidhigh s part md) _ _ P).
  - exact (plain_of _ (fun s => VicinityGroup_parse s part md) (fun s => spaced_vicinity s part md) _ _ P).
  - exact (plain_of _ (fun s => MiscGroup_parse s part md) (fun s => spaced_misc s part md) _ _ P).
Qed.
Lemma parsed_lightning : forall g s part md, LightningGroup_parse s part md = Ok (Some g) -> spaced s -> part = RP_RMK /\ ltg s.
Proof.
  intros g s part md H S. unfold LightningGroup_parse, Lightning_fromLtgGroup in H.
  repeat match type of H with context [seqb s ?t] => rewrite (spaced_seqb s t S) in H by no_space end.
  destruct part; try discriminate. split; [reflexivity|]. cbn [is_part ReportPart_beq negb] in H.
  destruct (Nat.ltb (slen s) 3); [discriminate|]. apply bind_ok in H. destruct H as (p & Hp & H). cbn in Hp. injection Hp as <-.
  destruct (seqb (substring 0 3 s) "LTG") eqn:E; [|discriminate]. apply seqb_eq in E.
  exists (sdrop 3 s). rewrite <- E. symmetry. apply substring0_sdrop_app.
Qed.
Lemma parsed_ltg : forall g s md, parsed_as g s RP_RMK md -> 4 <= Group_index g -> Group_index g <> 16 -> Group_index g <> 18 -> ltg s -> False.
Proof.
  intros g s md P I N M L. destruct g; cbn [parsed_as Group_index] in P, I, N, M; try contradiction; try lia.
  - exact (ltg_wind _ _ _ P L).
  - exact (ltg_visibility _ _ _ P L).
  - exact (ltg_cloud _ _ _ P L).
  - exact (ltg_weather _ _ _ P L).
  - exact (ltg_temperature _ _ _ P L).
  - exact (ltg_pressure _ _ _ P L).
  - exact (ltg_runwaystate _ _ _ P L).
  - exact (ltg_seasurface _ _ _ P L).
  - exact (ltg_minmax _ _ _ P L).
  - exact (ltg_precipitation _ _ _ P L).
  - exact (ltg_layer _ _ _ P L).
  - exact (ltg_tendency _ _ _ P L).
  - exact (ltg_lowmidhigh _ _ _ P L).
  - exact (ltg_vicinity _ _ _ P L).
  - exact (ltg_misc _ _ _ P L).
Qed.
