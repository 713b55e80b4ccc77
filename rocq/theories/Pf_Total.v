(** Parsing returns normally on every text. *)
From Verif Require Import Prim Regex Float Values Weather Groups1 Groups2 Groups3 Groups4 Parser Lib
  Pf_Ok Pf_OkValues Pf_Weather Pf_OkGroups1 Pf_OkGroups2 Pf_OkGroups3 Pf_OkGroups4 SpecReach
  SpecTokens SpecReads Pf_Tokens.
Local Open Scope string_scope.

Definition group_inv (g : Group) : Prop :=
  match g with
  | GWeather g => wx_inv g
  | GMinMaxTemperature g => mm_inv g
  | GCloudTypes g => cty_inv g
  | GMisc g => ms_inv g
  | _ => True
  end.

Lemma ok_alternative : forall (A : Type) (mk : A -> Group) p s part md (P : A -> Prop) (Q : Group -> Prop),
  ok (p s part md) (some_ok P) -> (forall a, P a -> Q (mk a)) ->
  ok (alternative mk p s part md) (some_ok Q).
Proof.
  intros A mk p s part md P Q H HQ; unfold alternative; apply ok_bind.
  eapply ok_mono; [exact H|]; intros [a|] Ha; cbn [ok].
  - apply some_ok_some, HQ, Ha; reflexivity.
  - exact (some_ok_none _ _).
Qed.
Lemma ok_weaken : forall (A : Type) (m : res (option A)),
  ok m (fun _ => True) -> ok m (some_ok (fun _ => True)).
Proof. intros A m H; eapply ok_mono; [exact H|]; intros a _ b _; exact I. Qed.

Lemma alternatives_ok : forall p, In p alternatives ->
  forall s part md, ok (p s part md) (some_ok group_inv).
Proof.
  intros p H s part md; unfold alternatives in H.
  repeat (destruct H as [<- |H];
    [first
      [ refine (ok_alternative _ _ _ _ _ _ wx_inv _ (ok_WeatherGroup_parse _ _ _) _); intros a Ha; exact Ha
      | refine (ok_alternative _ _ _ _ _ _ mm_inv _ (ok_MinMaxTemperatureGroup_parse _ _ _) _);
        intros a Ha; exact Ha
      | refine (ok_alternative _ _ _ _ _ _ cty_inv _ (ok_CloudTypesGroup_parse _ _ _) _);
        intros a Ha; exact Ha
      | refine (ok_alternative _ _ _ _ _ _ ms_inv _ (ok_MiscGroup_parse _ _ _) _);
        intros a Ha; exact Ha
      | eapply ok_alternative;
        [ apply ok_weaken;
          first [ apply ok_KeywordGroup_parse | apply ok_LocationGroup_parse
                | apply ok_ReportTimeGroup_parse | apply ok_TrendGroup_parse | apply ok_WindGroup_parse
                | apply ok_VisibilityGroup_parse | apply ok_CloudGroup_parse
                | apply ok_TemperatureGroup_parse | apply ok_PressureGroup_parse
                | apply ok_RunwayStateGroup_parse | apply ok_SeaSurfaceGroup_parse
                | apply ok_PrecipitationGroup_parse | apply ok_LayerForecastGroup_parse
                | apply ok_PressureTendencyGroup_parse | apply ok_LowMidHighCloudGroup_parse
                | apply ok_LightningGroup_parse | apply ok_VicinityGroup_parse ]
        | intros a Ha; exact I ] ] |]).
  contradiction.
Qed.

Lemma ok_wrap : forall (A : Type) (mk : A -> Group) (r : res (A * AppendResult)) (P : A -> Prop) (Q : Group -> Prop),
  ok r (fun x => P (fst x)) -> (forall a, P a -> Q (mk a)) -> ok (wrap mk r) (fun x => Q (fst x)).
Proof.
  intros A mk r P Q H HQ; unfold wrap; apply ok_bind; eapply ok_mono; [exact H|].
  intros [a x] Ha; cbn in *; auto.
Qed.

Lemma ok_Group_append : forall g s part md, group_inv g ->
  ok (Group_append g s part md) (fun x => group_inv (fst x)).
Proof.
  intros g s part md G; destruct g; cbn [Group_append];
    first
    [ eapply (ok_wrap _ _ _ (fun _ => True)); [|intros; exact I];
      first [ solve [apply (ok_KeywordGroup_append g)] | solve [apply (ok_LocationGroup_append g)]
            | solve [apply (ok_ReportTimeGroup_append g)] | solve [apply (ok_TrendGroup_append g)] | solve [apply (ok_WindGroup_append g)]
            | solve [apply (ok_VisibilityGroup_append g)] | solve [apply (ok_CloudGroup_append g)]
            | solve [apply (ok_TemperatureGroup_append g)] | solve [apply (ok_PressureGroup_append g)]
            | solve [apply (ok_RunwayStateGroup_append g)] | solve [apply (ok_SeaSurfaceGroup_append g)]
            | solve [apply (ok_PrecipitationGroup_append g)] | solve [apply (ok_LayerForecastGroup_append g)]
            | solve [apply (ok_PressureTendencyGroup_append g)] | solve [apply (ok_LowMidHighCloudGroup_append g)]
            | solve [apply (ok_LightningGroup_append g)] | solve [apply (ok_VicinityGroup_append g)]
            | solve [apply (ok_UnknownGroup_append g)] ]
    | eapply ok_wrap;
      [ first [ apply (ok_WeatherGroup_append g) | apply (ok_MinMaxTemperatureGroup_append g)
              | apply (ok_CloudTypesGroup_append g) | apply (ok_MiscGroup_append g) ]; exact G
      | intros a Ha; exact Ha ] ].
Qed.

Lemma reachable_inv : forall g, Reachable g -> group_inv g.
Proof.
  intros g H; induction H as [|p s part md g Hp E|g s part md g' a H IH E]; [exact I|..].
  - pose proof (alternatives_ok p Hp s part md) as O; rewrite E in O; apply O; reflexivity.
  - pose proof (ok_Group_append g s part md IH) as O; rewrite E in O; exact O.
Qed.

Lemma ok_Group_append_reach : forall g s part md, Reachable g ->
  ok (Group_append g s part md) (fun x => Reachable (fst x)).
Proof.
  intros g s part md R; eapply ok_mono_eq; [apply ok_Group_append, reachable_inv; exact R|].
  intros [g' a] E _; eapply Reach_append; eassumption.
Qed.
Lemma ok_alternative_reach : forall p s part md, In p alternatives ->
  ok (p s part md) (some_ok Reachable).
Proof.
  intros p s part md H; eapply ok_mono_eq; [apply alternatives_ok; exact H|].
  intros o E _ g ->; eapply Reach_parse; eassumption.
Qed.
Lemma ok_parseAlternatives : forall l s part md, incl l alternatives ->
  ok (parseAlternatives l s part md) Reachable.
Proof.
  induction l as [|p l IH]; intros s part md H; cbn [parseAlternatives]; [constructor|].
  apply ok_bind; eapply ok_mono; [apply ok_alternative_reach, H; left; reflexivity|].
  intros [g|] Hg; [apply Hg; reflexivity | apply IH; intros x Hx; apply H; right; exact Hx].
Qed.
Lemma ok_reparseAlternatives : forall l i s part md k, incl l alternatives ->
  ok (reparseAlternatives l i s part md k) Reachable.
Proof.
  induction l as [|p l IH]; intros i s part md k H; cbn [reparseAlternatives]; [constructor|].
  assert (incl l alternatives) as H' by (intros x Hx; apply H; right; exact Hx).
  destruct (Nat.eqb i k); [apply IH; exact H'|].
  apply ok_bind; eapply ok_mono; [apply ok_alternative_reach, H; left; reflexivity|].
  intros [g|] Hg; [apply Hg; reflexivity | apply IH; exact H'].
Qed.
Lemma ok_GroupParser_parse : forall s part md, ok (GroupParser_parse s part md) Reachable.
Proof. intros; apply ok_parseAlternatives, incl_refl. Qed.
Lemma ok_GroupParser_reparse : forall s part md g, ok (GroupParser_reparse s part md g) Reachable.
Proof. intros; apply ok_reparseAlternatives, incl_refl. Qed.

Definition all_reachable (l : list GroupInfo) : Prop := Forall (fun i => Reachable (gi_group i)) l.

Lemma addGroup_reach : forall l g part s, all_reachable l -> Reachable g ->
  all_reachable (addGroupToResult l g part s).
Proof.
  intros l g part s L G; destruct l as [|i l]; cbn [addGroupToResult].
  - constructor; [exact G | constructor].
  - inv L; destruct (is_fallback g && is_fallback (gi_group i)); constructor; auto.
Qed.
Lemma addGroup_nonempty : forall l g part s, addGroupToResult l g part s <> [].
Proof.
  intros [|i l] g part s; cbn [addGroupToResult]; [discriminate|].
  destruct (is_fallback g && is_fallback (gi_group i)); discriminate.
Qed.

Lemma ok_append_noReparse : forall l s part md, all_reachable l ->
  ok (appendToLastResultGroup_noReparse l s part md)
     (fun x => all_reachable (fst x) /\ (l <> [] -> fst x <> [])).
Proof.
  intros [|i l] s part md L; cbn [appendToLastResultGroup_noReparse]; [split; auto|].
  inv L; destruct (is_fallback (gi_group i)); [split; cbn; auto; constructor; auto|].
  apply ok_bind; eapply ok_mono; [apply ok_Group_append_reach; assumption|].
  intros [g a] G; cbn [fst] in G; destruct a; cbn [ok fst]; split; try discriminate;
    try (constructor; assumption).
  - apply addGroup_reach; [constructor; assumption | constructor].
  - intros _; apply addGroup_nonempty.
Qed.
Lemma ok_appendToLast : forall l s part md, all_reachable l ->
  ok (appendToLastResultGroup l s part md)
     (fun x => all_reachable (fst x) /\ (l <> [] -> fst x <> [])).
Proof.
  intros [|i l] s part md L; cbn [appendToLastResultGroup]; [split; auto|].
  inv L; destruct (is_fallback (gi_group i)); [split; cbn; auto; constructor; auto|].
  apply ok_bind; eapply ok_mono; [apply ok_Group_append_reach; assumption|].
  intros [g a] G; cbn [fst] in G; destruct a; try (cbn [ok fst]; split; try discriminate;
    constructor; assumption).
  apply ok_bind; eapply ok_mono; [apply ok_GroupParser_reparse|]; intros g' G'; cbv zeta.
  pose proof (addGroup_reach l g' (gi_reportPart i) (gi_rawString i) H2 G') as A.
  pose proof (addGroup_nonempty l g' (gi_reportPart i) (gi_rawString i)) as B.
  destruct (is_fallback g'); [cbn [ok fst]; split; auto|].
  eapply ok_mono; [apply ok_append_noReparse; exact A|].
  intros x [X Y]; split; auto.
Qed.

Lemma ok_updateMetadata : forall g md, Reachable g -> ok (updateMetadata g md) (fun _ => True).
Proof.
  intros g md R; apply reachable_inv in R; destruct g; cbn [updateMetadata]; ok_auto.
  - cbn in R; b2p; destruct E as [E E2]; apply internal_MsType_dec_bl in E.
    destruct (R E) as [_ (k & K & D)]; rewrite D; cbn [deref ok].
    apply ok_bind; eapply ok_mono; [apply correction_number; exact K|]; intros; exact I.
Qed.

Lemma not_repeat_after_repeat : forall st g, isReparseRequired st = true ->
  isReparseRequired (transition st g) = false.
Proof.
  intros [s t e] g H; unfold isReparseRequired in *; cbn [st_state] in H.
  apply internal_State_dec_bl in H; subst; destruct g; reflexivity.
Qed.
Lemma count_group_repeat : forall limit n st,
  isReparseRequired (snd (count_group limit n st)) = true -> isReparseRequired st = true.
Proof.
  intros limit n st; unfold count_group; cbn [snd]; destruct (Nat.leb _ _); [discriminate | auto].
Qed.
Lemma ok_parse_group_loop : forall limit s md n st,
  ok (parse_group_loop 3 limit s md n st) (fun x => Reachable (fst (fst (fst x)))).
Proof.
  assert (Last : forall f limit s md n st, isReparseRequired st = true ->
    ok (parse_group_loop (S f) limit s md n st) (fun x => Reachable (fst (fst (fst x))))).
  { intros f limit s md n st H; cbn [parse_group_loop].
    apply ok_bind; eapply ok_mono; [apply ok_GroupParser_parse|]; intros g G; cbv zeta.
    destruct (count_group limit n (transition st (getSyntaxGroup g))) as [n' st'] eqn:C.
    destruct (isReparseRequired st' && negb (isError st')) eqn:E; [|exact G].
    apply andb_prop in E; destruct E as [E _].
    assert (isReparseRequired (transition st (getSyntaxGroup g)) = true) as X.
    { apply (count_group_repeat limit n); rewrite C; exact E. }
    rewrite not_repeat_after_repeat in X by exact H; discriminate. }
  intros limit s md n st; remember 2%nat as f eqn:Ef; cbn [parse_group_loop].
  apply ok_bind; eapply ok_mono; [apply ok_GroupParser_parse|]; intros g G; cbv zeta.
  destruct (count_group limit n (transition st (getSyntaxGroup g))) as [n' st'] eqn:C.
  destruct (isReparseRequired st' && negb (isError st')) eqn:E; [|exact G].
  apply andb_prop in E; destruct E as [E _]; subst f; apply Last; exact E.
Qed.

Lemma ok_parse_step : forall limit s p, all_reachable (ps_groups p) ->
  ok (parse_step limit s p) (fun q => all_reachable (ps_groups q)).
Proof.
  intros limit s p H; unfold parse_step; cbv zeta.
  apply ok_bind; eapply ok_mono; [apply ok_appendToLast; exact H|].
  intros [l b] [L _]; cbn [fst] in L; destruct b; cbn [negb].
  - destruct (count_group limit (ps_count p) (ps_status p)) as [n st]; exact L.
  - apply ok_bind; eapply ok_mono; [apply ok_parse_group_loop|].
    intros [[[g part] n] st] G; cbn [fst] in G.
    apply ok_bind; eapply ok_mono; [apply ok_updateMetadata; exact G|]; intros md _.
    cbn [ok ps_groups]; apply addGroup_reach; assumption.
Qed.
Lemma ok_step_all : forall limit toks p, all_reachable (ps_groups p) ->
  ok (step_all limit toks p) (fun q => all_reachable (ps_groups q)).
Proof.
  induction toks as [|s toks IH]; intros p H; cbn [step_all]; [exact H|].
  destruct (isError (ps_status p)); [exact H|].
  apply ok_bind; eapply ok_mono; [apply ok_parse_step; exact H|]; intros q Q; apply IH; exact Q.
Qed.
Lemma all_reachable_rev : forall l, all_reachable l -> all_reachable (rev l).
Proof.
  intros l H; unfold all_reachable in *; rewrite Forall_forall in *; intros x Hx.
  apply H, in_rev; exact Hx.
Qed.
Lemma ok_parse_end : forall p, all_reachable (ps_groups p) ->
  ok (parse_end p) (fun r => all_reachable (pr_groups r)).
Proof.
  intros p H; unfold parse_end; apply ok_bind.
  eapply (ok_mono _ _ all_reachable); [|intros l L; cbn [ok pr_groups]; apply all_reachable_rev; exact L].
  destruct (ps_groups p) as [|i l] eqn:E; [constructor|]; rewrite <- E in *.
  apply ok_bind; eapply ok_mono; [apply ok_appendToLast; exact H|].
  intros [l' b] [L N]; cbn [fst] in *.
  destruct l' as [|j l']; [exfalso; apply N; congruence|].
  cbn [ok]; destruct (sempty _); [inv L; assumption | exact L].
Qed.
Lemma ok_parse_groups : forall limit toks,
  ok (parse_groups limit toks) (fun r => all_reachable (pr_groups r)).
Proof.
  intros limit toks; unfold parse_groups; apply ok_bind.
  eapply ok_mono; [apply ok_step_all; constructor|]; intros p P; apply ok_parse_end; exact P.
Qed.

Lemma parse_returns : forall sgn report limit, exists r, parse sgn report limit = Ok r.
Proof.
  intros; rewrite parse_eq_parse_groups.
  destruct (ok_elim _ _ _ (ok_parse_groups limit (report_groups sgn report))) as (r & E & _).
  exists r; exact E.
Qed.
Lemma parse_reachable : forall sgn report limit r i,
  parse sgn report limit = Ok r -> In i (pr_groups r) -> Reachable (gi_group i).
Proof.
  intros sgn report limit r i E H; rewrite parse_eq_parse_groups in E.
  pose proof (ok_parse_groups limit (report_groups sgn report)) as O; rewrite E in O.
  unfold all_reachable in O; cbn [ok] in O; rewrite Forall_forall in O; apply O; exact H.
Qed.
Lemma isValid_returns : forall g, Reachable g -> exists b, Group_isValid g = Ok b.
Proof.
  intros g R; apply reachable_inv in R; destruct g; cbn [Group_isValid]; eauto.
  destruct (ok_elim _ _ _ (ok_WeatherGroup_isValid g R)) as (b & E & _); eauto.
Qed.

Lemma obtainable_wf : forall p, WpObtainable p -> wp_wf p.
Proof.
  intros p H; induction H as [|b|s b p E|s t q p Hq IH E|g p R I].
  - exact wp_wf_default.
  - apply wp_wf_notReported.
  - pose proof (ok_Wp_fromString s b) as O; rewrite E in O; apply O; reflexivity.
  - pose proof (ok_fromWeatherBeginEndString s t q IH) as O; rewrite E in O; apply O; reflexivity.
  - apply reachable_inv in R; destruct R as [F _]; rewrite Forall_forall in F; apply F, I.
Qed.
Lemma wp_isValid_returns : forall p, WpObtainable p -> exists b, Wp_isValid p = Ok b.
Proof.
  intros p H; destruct (ok_elim _ _ _ (wp_isValid_ok p (obtainable_wf p H))) as (b & E & _); eauto.
Qed.
Lemma wp_at_most_three : forall p, WpObtainable p -> (length (Wp_weather p) <= 3)%nat.
Proof.
  intros p H; destruct (obtainable_wf p H) as (q & d & w & e & (_ & _ & Sw & _) & _ & _ & _ & _ & L & _).
  rewrite Sw; exact L.
Qed.
Lemma weather_capacity : forall g, Reachable (GWeather g) -> (length (wx_w g) <= 20)%nat.
Proof. intros g R; apply reachable_inv in R; apply R. Qed.
Lemma cloud_types_capacity : forall g, Reachable (GCloudTypes g) -> (1 <= length (cty_cldTp g) <= 8)%nat.
Proof. intros g R; apply reachable_inv in R; exact R. Qed.
Lemma append_returns : forall g s part md, Reachable g ->
  exists g' a, Group_append g s part md = Ok (g', a).
Proof.
  intros g s part md R.
  destruct (ok_elim _ _ _ (ok_Group_append g s part md (reachable_inv g R))) as ([g' a] & E & _); eauto.
Qed.
Lemma alternative_returns : forall p s part md, In p alternatives -> exists o, p s part md = Ok o.
Proof.
  intros p s part md H.
  destruct (ok_elim _ _ _ (alternatives_ok p H s part md)) as (o & E & _); eauto.
Qed.
