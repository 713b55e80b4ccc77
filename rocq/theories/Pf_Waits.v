(** Which groups of the result are incomplete. *)
From Coq Require Import Lia.
From Verif Require Import Prim Lib Regex Float Values Weather Groups1 Groups2 Groups3 Groups4 Parser SpecTokens SpecReads SpecText.
From Verif Require Import SpecNumeral SpecReach SpecBuilt SpecAppend SpecTrend SpecMinMax
  Pf_Ok Pf_Kinds Pf_Decode Pf_WeatherWords Pf_Built Pf_Refuse Pf_Settled Pf_Trend Pf_MinMax Pf_Keywords.
Local Open Scope string_scope.

(** ** Keywords in the text of groups *)
Lemma built_keywords : forall part ws g, Built part ws g -> is_fallback g = false ->
  forall k, In k keywords -> ~ In k (tl ws).
Proof.
  intros part ws g B. induction B; intros F k K Hk; cbn [tl] in Hk; try contradiction.
  - assert (F' : is_fallback g = false).
    { apply appended_inv in H. destruct g, g'; try contradiction; try discriminate F; reflexivity. }
    destruct words as [|w words]; cbn [app tl] in Hk; [contradiction|].
    apply in_app_iff in Hk. destruct Hk as [Hk|[Hk|[]]]; [exact (IHB F' k K Hk)|]. subst k.
    exact (keyword_not_appended g _ _ _ _ _ K F' H eq_refl).
  - assert (F' : is_fallback g = false).
    { apply appended_inv in H. destruct g, g'; try contradiction; try discriminate F; reflexivity. }
    exact (IHB F' k K Hk).
  - discriminate F.
Qed.
Theorem result_keywords : forall sgn report limit r, parse sgn report limit = Ok r ->
  forall g part raw, In (mkGroupInfo g part raw) (pr_groups r) -> raw <> "" -> is_fallback g = false ->
  forall k, In k keywords -> ~ In k (tl (words_of raw)).
Proof. intros sgn report limit r E g part raw Hi N F. exact (built_keywords _ _ _ (built_from_words _ _ _ _ E _ _ _ Hi N) F). Qed.

(** ** Wind shifts and rapidly increasing snow *)
Lemma surface_type : forall s g, or_else (Wind_parseVariableSector s) (Wind_parseSurfaceOrShear s) = Ok (Some g) -> wi_type g <> Wi_WIND_SHIFT.
Proof.
  intros s g P. unfold or_else, Wind_parseVariableSector, Wind_parseSurfaceOrShear in P. cbv zeta in P.
  peel P; repeat match goal with H : Ok (Some _) = Ok (Some _) |- _ => injection H; clear H; intros; subst | H : _ = Ok (Some _) |- _ => progress peel H end; cbn in *; try discriminate.
  all: repeat match goal with |- context [if ?b then _ else _] => destruct b end; discriminate.
Qed.
Lemma built_wshft : forall part ws g, Built part ws (GWind g) -> wi_type g = Wi_WIND_SHIFT -> wi_inc g = WiI_NONE /\ (wi_evTime g = None -> ws = ["WSHFT"]).
Proof.
  intros part ws g B.
  refine (built_kind part (fun ws k => match k with GWind x => wi_type x = Wi_WIND_SHIFT -> wi_inc x = WiI_NONE /\ (wi_evTime x = None -> ws = ["WSHFT"]) | _ => True end) _ _ _ _ ws (GWind g) B).
  - exact (fun _ => I).
  - intros w md [] P; try exact I. intros T. cbn [parsed_as] in P. unfold WindGroup_parse in P. cbv zeta in P.
    repeat match type of P with (if (?a && seqb ?x ?y)%bool then _ else _) = _ => let E := fresh "E" in destruct (a && seqb x y)%bool eqn:E end.
    all: try (injection P; clear P; intros; subst; cbn in T |- *; try discriminate).
    { apply andb_prop in E1. destruct E1 as [_ E1]. apply seqb_eq in E1. rewrite E1. auto. }
    match type of P with (if ?b then _ else _) = _ => destruct b; [discriminate P|] end.
    destruct (surface_type _ _ P T).
  - intros l w md [] [] _ IH A; try exact I; try contradiction. cbn [appended_as] in A. intros T.
    unfold WindGroup_append, Wind_appendVariableSector, Wind_appendWindShift, Wind_appendPeakWind in A.
    peel A; cbn in *; try discriminate T; try (destruct (IH T) as [X _]; congruence); split; try assumption; discriminate.
  - intros l w part' md [] [] _ IH A; try exact I; try contradiction. cbn [appended_as] in A. intros T.
    unfold WindGroup_append, Wind_appendVariableSector, Wind_appendWindShift, Wind_appendPeakWind in A.
    peel A; first [congruence | split; [assumption|]; intros; apply IH; congruence].
Qed.
Lemma built_snincr : forall part ws g, Built part ws (GPrecipitation g) -> pc_type g = Pc_SNOW_INCREASING_RAPIDLY ->
  Precipitation_isReported (pc_amount g) = false -> Precipitation_isReported (pc_change g) = false -> ws = ["SNINCR"].
Proof.
  intros part ws g B.
  refine (built_kind part (fun ws k => match k with GPrecipitation x => pc_type x = Pc_SNOW_INCREASING_RAPIDLY ->
    Precipitation_isReported (pc_amount x) = false -> Precipitation_isReported (pc_change x) = false -> ws = ["SNINCR"] | _ => True end) _ _ _ _ ws (GPrecipitation g) B).
  - exact (fun _ => I).
  - intros w md [] P; try exact I. intros T _ _. cbn [parsed_as] in P. unfold PrecipitationGroup_parse in P. cbv zeta in P.
    match goal with |- [?x] = _ => destruct (seqb x "SNINCR") eqn:E; [apply seqb_eq in E; rewrite E; reflexivity|exfalso] end.
    peel P; repeat match goal with H : Ok (Some _) = Ok (Some _) |- _ => injection H; clear H; intros; subst end; cbn in *; try discriminate.
    unfold Precip_typeFromString in T. repeat match type of T with (if ?b then _ else _) = _ => destruct b | (match ?b with _ => _ end) = _ => destruct b end; discriminate.
  - intros l w md [] [] _ IH A; try exact I; try contradiction. cbn [appended_as] in A. intros T R1 R2.
    unfold PrecipitationGroup_append in A.
    peel A; cbn in *; try (rewrite T in *; discriminate).
    all: match goal with H : Precipitation_fromSnincrString _ = Ok (Some _) |- _ => unfold Precipitation_fromSnincrString in H; apply bind_ok in H; destruct H as ([?|] & _ & H); [|discriminate H]; injection H; intros; subst end; discriminate.
  - intros l w part' md [] [] _ IH A; try exact I; try contradiction. cbn [appended_as] in A. intros T R1 R2.
    unfold PrecipitationGroup_append in A. peel A; apply IH; congruence.
Qed.

(** ** Groups left incomplete *)
Theorem left_incomplete : forall sgn report limit r, parse sgn report limit = Ok r ->
  forall g part raw, In (mkGroupInfo g part raw) (pr_groups r) -> raw <> "" -> waiting g = true ->
  left_open (words_of raw) \/ part = RP_TAF /\ exists w t time, words_of raw = [w] /\ forecast_word "" w t time.
Proof.
  intros sgn report limit r E g part raw Hi N W.
  pose proof (proj1 (Forall_forall _ _) (result_settled _ _ _ _ E) _ Hi) as S.
  pose proof (built_from_words _ _ _ _ E _ _ _ Hi N) as B.
  destruct S as [S|[S|(g0 & s & p & md & R & A)]]; cbn [gi_rawString gi_group] in *.
  - contradiction.
  - destruct g; discriminate.
  - assert (F : is_fallback g0 = false).
    { apply appended_inv in A. destruct g0, g; try contradiction; try discriminate W; reflexivity. }
    pose proof (refused _ _ _ _ _ R F A W) as M. destruct g; try contradiction; cbn [may_stay] in M.
    + left. apply built_trend, assembled_sound in B. unfold shown_by in B. rewrite M in B.
      inv B; unfold left_open; repeat match goal with
        | H : change_word _ _ |- _ => unfold change_word in H; cbn [In] in H
        | H : prob_word _ _ |- _ => unfold prob_word in H; cbn [In] in H end; intuition congruence.
    + left. destruct M as (_ & T & V). unfold left_open. right; right; left. apply (built_wshft _ _ _ B); assumption.
    + right. destruct M as (_ & I). apply built_minmax in B.
      apply assembled_state in B. inv B; cbn in I; try discriminate I.
      match goal with H : In _ _ |- _ => destruct H as [<-|[<-|[<-|[]]]] end; cbn in I; try discriminate I.
      split; [reflexivity|]. eauto.
    + left. destruct M as (_ & T & V1 & V2). unfold left_open. right; right; right. apply (built_snincr _ _ _ B); assumption.
Qed.

(** ** Beginnings of groups *)
Definition first_group (part : ReportPart) (w : string) : res Group := GroupParser_parse w part md_default.
Definition begun (part : ReportPart) (ws : list string) : res Group :=
  match ws with
  | [w] => first_group part w
  | [w; v] => let! g := first_group part w in let! p := Group_append g v part md_default in Ok (fst p)
  | _ => Bad UB
  end.
Ltac open_md md := let rt := fresh "rt" in destruct md as [? ? rt]; destruct rt.
Ltac enumerate H := cbn [beginnings map app In] in H;
  repeat (destruct H as [H|H]; [injection H; clear H; intros; try discriminate; subst|]); try contradiction.
Lemma beginning_first : forall part w md g, In (part, [w]) beginnings -> GroupParser_parse w part md = Ok g -> Ok g = begun part [w].
Proof.
  intros part w md g H E. rewrite <- E. clear E. open_md md; enumerate H; vm_compute; reflexivity.
Qed.
Lemma fallback_only : forall g, is_fallback g = true -> g = GUnknown mkUnknown.
Proof. intros [] H; try discriminate H. destruct g. reflexivity. Qed.
Lemma beginning_again : forall part w md g g', In (part, [w]) beginnings -> is_fallback g = true \/ Ok g = begun part [w] ->
  GroupParser_reparse w part md g = Ok g' -> is_fallback g' = true \/ Ok g' = begun part [w].
Proof.
  intros part w md g g' H [F|F] E.
  - right. apply fallback_only in F. subst g. rewrite <- E. clear E. open_md md; enumerate H; vm_compute; reflexivity.
  - left. assert (X : Ok g' = Ok (GUnknown mkUnknown)); [rewrite <- E|injection X as ->; reflexivity].
    clear E. open_md md; enumerate H; vm_compute in F; injection F as ->; vm_compute; reflexivity.
Qed.
Lemma beginning_prefix : forall part ws w, In (part, ws ++ [w])%list beginnings -> ws <> [] -> In (part, ws) beginnings.
Proof.
  intros part ws w H N. destruct ws as [|a [|b l]]; [congruence| |].
  - enumerate H; cbn; tauto.
  - exfalso. cbn [beginnings map app In] in H. repeat (destruct H as [H|H]; [injection H; clear H; intros; destruct l; discriminate|]). contradiction.
Qed.
Lemma beginning_more : forall part ws w md g g', In (part, ws ++ [w])%list beginnings -> ws <> [] -> Ok g = begun part ws ->
  Group_append g w part md = Ok (g', APPENDED) -> Ok g' = begun part (ws ++ [w])%list.
Proof.
  intros part ws w md g g' H N E A. destruct ws as [|a [|b l]]; [congruence| |].
  - cbn [app] in *. open_md md;
    enumerate H; vm_compute in E; injection E as ->; vm_compute in A; injection A as <-; vm_compute; reflexivity.
  - exfalso. cbn [beginnings map app In] in H. repeat (destruct H as [H|H]; [injection H; clear H; intros; destruct l; discriminate|]). contradiction.
Qed.
Lemma beginning_refused : forall part ws w part' md g g', In (part, ws) beginnings -> Ok g = begun part ws ->
  Group_append g w part' md <> Ok (g', NOT_APPENDED).
Proof.
  intros part ws w part' md g g' H E A. apply appended_inv in A.
  enumerate H; vm_compute in E; injection E as ->; destruct g'; try contradiction; cbn [appended_as] in A.
  all: unfold WindGroup_append, Wind_appendPeakWind, VisibilityGroup_append, try_append, CloudGroup_append, Cloud_appendVariableCloudAmount, Cloud_appendCeiling,
    Cloud_appendObscuration, WeatherGroup_append, TemperatureGroup_append, PressureGroup_append, PrecipitationGroup_append,
    LightningGroup_append, MiscGroup_append, VicinityGroup_append in A; cbn -[append seqb Misc_appendHailstoneFraction bind flt_ltb f32_of_N N.leb slen Nat.eqb regex_match] in A; peel A.
Qed.
Lemma built_no_words : forall part ws g, Built part ws g -> ws = [] -> is_fallback g = true.
Proof.
  intros part ws g B. induction B; intros H'; try discriminate H'; try reflexivity.
  - destruct words; discriminate H'.
  - specialize (IHB H'). apply appended_inv in H. destruct g; try discriminate IHB. destruct g'; try contradiction. reflexivity.
Qed.
Lemma built_beginning : forall part ws g, Built part ws g -> In (part, ws) beginnings -> is_fallback g = true \/ Ok g = begun part ws.
Proof.
  intros part ws g B. induction B; intros H'.
  - right. eapply beginning_first; eauto.
  - eapply beginning_again; eauto.
  - assert (X : is_fallback g = true \/ words <> [] /\ Ok g = begun part words).
    { destruct words as [|a l] eqn:Ew; [left; exact (built_no_words _ _ _ B eq_refl)|].
      assert (N : a :: l <> []) by discriminate. destruct (IHB (beginning_prefix _ _ _ H' N)); auto. }
    destruct X as [F|[N F]].
    + left. apply appended_inv in H. destruct g; try discriminate F. destruct g'; try contradiction. reflexivity.
    + right. eapply beginning_more; eauto.
  - destruct (IHB H') as [F|F].
    + left. apply appended_inv in H. destruct g; try discriminate F. destruct g'; try contradiction. reflexivity.
    + exfalso. eapply beginning_refused; eauto.
  - left. reflexivity.
Qed.
Lemma begun_waits : forall part ws g, In (part, ws) beginnings -> Ok g = begun part ws -> waiting g = true.
Proof. intros part ws g H E. enumerate H; vm_compute in E; injection E as ->; vm_compute; reflexivity. Qed.
Theorem beginnings_unknown : forall sgn report limit r, parse sgn report limit = Ok r ->
  forall g part raw, In (mkGroupInfo g part raw) (pr_groups r) -> In (part, words_of raw) beginnings ->
  is_fallback g = true.
Proof.
  intros sgn report limit r E g part raw Hi Hb.
  assert (N : raw <> "") by (intros ->; cbn in Hb; intuition congruence).
  destruct (built_beginning _ _ _ (built_from_words _ _ _ _ E _ _ _ Hi N) Hb) as [F|F]; [exact F|exfalso].
  pose proof (begun_waits _ _ _ Hb F) as W.
  destruct (left_incomplete _ _ _ _ E _ _ _ Hi N W) as [X|[-> _]].
  - destruct X as [X|[X|[X|X]]]; rewrite X in Hb; cbn in Hb; intuition congruence.
  - cbn in Hb; intuition congruence.
Qed.
