(** The metadata in terms of the groups. *)
From Verif Require Import Prim Regex Float Values Weather Groups1 Groups2 Groups3 Groups4 Parser Lib
  SpecTokens SpecReads Pf_Tokens SpecText SpecLimit SpecGrammar SpecMeta Pf_Ok SpecReach Pf_Total Pf_Steps Pf_Kinds
  Pf_View Pf_Fresh Pf_Shape Pf_Limit Pf_Grammar Pf_Grammar2.
Local Open Scope string_scope.

(** ** Questions to the view, whose head is the latest group *)
Fixpoint latest {A} (f : Group -> option A) (v : list item) : option A :=
  match v with
  | [] => None
  | (_, Some g) :: v' => match f g with Some x => Some x | None => latest f v' end
  | (_, None) :: v' => latest f v'
  end.
Fixpoint earliest {A} (f : Group -> option A) (v : list item) : option A :=
  match v with
  | [] => None
  | (_, o) :: v' => match earliest f v' with
                    | Some x => Some x
                    | None => match o with Some g => f g | None => None end
                    end
  end.
Definition silent {A} (f : Group -> option A) : Prop := forall g, active g = false -> f g = None.

Lemma latest_push : forall A (f : Group -> option A) p o v,
  latest f (push (p, o) v) = match o with
                             | Some g => match f g with Some x => Some x | None => latest f v end
                             | None => latest f v end.
Proof.
  intros A f p [g|] v; [reflexivity|]; destruct v as [|[p' [g|]] v]; try reflexivity.
  cbn; destruct (ReportPart_beq p p'); reflexivity.
Qed.
Lemma earliest_push : forall A (f : Group -> option A) p o v,
  earliest f (push (p, o) v) = match earliest f v with
                               | Some x => Some x
                               | None => match o with Some g => f g | None => None end end.
Proof.
  intros A f p [g|] v; [reflexivity|]; destruct v as [|[p' [g|]] v]; try reflexivity.
  cbn; destruct (ReportPart_beq p p'); cbn; [|reflexivity]; destruct (earliest f v); reflexivity.
Qed.
Lemma av_says : forall A (f : Group -> option A) g, silent f -> match av g with Some g => f g | None => None end = f g.
Proof. intros A f g S; unfold av; destruct (active g) eqn:E; [reflexivity | rewrite S; auto]. Qed.
Lemma latest_V : forall A (f : Group -> option A) l, silent f ->
  latest f (V l) = fold_right (fun i acc => match f (gi_group i) with Some x => Some x | None => acc end) None l.
Proof.
  intros A f l S; induction l as [|i l IH]; [reflexivity|]; rewrite V_cons; unfold view; rewrite latest_push.
  cbn [fold_right]; rewrite <- IH, <- (av_says _ f (gi_group i) S); destruct (av (gi_group i)); reflexivity.
Qed.
Lemma earliest_V : forall A (f : Group -> option A) l, silent f ->
  earliest f (V l) = fold_right (fun i acc => match acc with Some x => Some x | None => f (gi_group i) end) None l.
Proof.
  intros A f l S; induction l as [|i l IH]; [reflexivity|]; rewrite V_cons; unfold view; rewrite earliest_push.
  cbn [fold_right]; rewrite <- IH, <- (av_says _ f (gi_group i) S); destruct (earliest f (V l)), (av (gi_group i)); reflexivity.
Qed.
Lemma last_latest : forall A (f : Group -> option A) r, silent f -> last_saying f r = latest f (V (rev (pr_groups r))).
Proof. intros A f r S; rewrite latest_V by exact S; unfold last_saying; rewrite <- fold_left_rev_right; reflexivity. Qed.
Lemma first_earliest : forall A (f : Group -> option A) r, silent f -> first_saying f r = earliest f (V (rev (pr_groups r))).
Proof.
  intros A f r S; rewrite earliest_V by exact S; unfold first_saying.
  induction (pr_groups r) as [|i l IH]; [reflexivity|]; cbn [fold_right rev]; rewrite IH, fold_right_app; cbn [fold_right].
  clear IH; destruct (f (gi_group i)) as [x|]; [|induction (rev l) as [|j m IHm]; [reflexivity|]; cbn [fold_right]; reflexivity].
  induction (rev l) as [|j m IHm]; [reflexivity|]; cbn [fold_right]; rewrite <- IHm; reflexivity.
Qed.

(** ** The questions *)
Definition kw_is (k : KwType) (g : Group) : option unit :=
  match g with GKeyword x => if KwType_beq k (kw_t x) then Some tt else None | _ => None end.
Lemma silent_kw : forall k, silent (kw_is k).
Proof. intros k g; destruct g; try reflexivity; discriminate. Qed.
Lemma silent_loc : silent location_text.
Proof. intros g; destruct g; try reflexivity; discriminate. Qed.
Lemma silent_time : silent time_of_report.
Proof. intros g; destruct g; try reflexivity; discriminate. Qed.
Lemma silent_corr : silent correction_of.
Proof. intros g; destruct g; try reflexivity; cbn; intros ->; reflexivity. Qed.
Lemma silent_span : silent span_of.
Proof. intros g; destruct g; try reflexivity; cbn; intros ->; reflexivity. Qed.

Definition said {A} (o : option A) : bool := match o with Some _ => true | None => false end.
Definition number (f : spec_float) : option N := match trunc_to_uint f with Ok n => Some n | Bad _ => None end.

Definition kw (k : KwType) (v : list item) : bool := said (latest (kw_is k) v).
Definition md_view (v : list item) : ReportMetadata :=
  mkMetadata RT_UNKNOWN RE_NONE (latest time_of_report v)
    (match latest location_text v with Some s => s | None => "" end)
    (kw Kw_SPECI v) (kw Kw_NOSPECI v) (kw Kw_AUTO v) (kw Kw_AO1 v) (kw Kw_AO1A v) (kw Kw_AO2 v) (kw Kw_AO2A v)
    (kw Kw_NIL v) (kw Kw_CNL v) (kw Kw_AMD v) (kw Kw_COR v || said (latest correction_of v))
    (match latest correction_of v with Some d => number d | None => Some 0%N end)
    (kw Kw_MAINTENANCE_INDICATOR v)
    (match earliest span_of v with Some (f, _) => f | None => None end)
    (match earliest span_of v with Some (_, u) => u | None => None end).

(** A freshly parsed trend of type TIME_SPAN is a time span group. *)
Lemma fresh_span : forall s part md t, TrendGroup_parse s part md = Ok (Some t) ->
  tr_t t = Tr_TIME_SPAN -> Trend_isTimeSpanGroup t = true.
Proof.
  intros s part md t E T; unfold TrendGroup_parse, or_else in E; cbv zeta in E.
  repeat match type of E with
    | (if ?b then _ else _) = _ => destruct b
    | bind ?m _ = _ => let x := fresh "x" in apply bind_ok in E; destruct E as (x & ? & E)
    | match ?o with Some _ => _ | None => _ end = _ => destruct o
    | Ok (Some _) = _ => injection E as <-
    | Ok None = _ => discriminate E
    end; try discriminate T.
  all: repeat match goal with
    | H : (if ?b then _ else _) = Ok (Some _) |- _ => destruct b; [|discriminate H]
    end.
  all: try rename E into H.
  all: match goal with
    | H : Trend_fromTimeSpan _ = Ok (Some _) |- _ => unfold Trend_fromTimeSpan in H
    | H : Trend_fromTimeSpanHHMM _ = Ok (Some _) |- _ => unfold Trend_fromTimeSpanHHMM in H
    | H : Trend_fromFm _ = Ok (Some _) |- _ => unfold Trend_fromFm in H
    | H : Trend_fromTrendTime _ = Ok (Some _) |- _ => unfold Trend_fromTrendTime in H
    end.
  all: repeat match goal with
    | H : (if ?b then _ else _) = Ok (Some _) |- _ => destruct b
    | H : bind ?m _ = Ok (Some _) |- _ => let x := fresh "x" in apply bind_ok in H; destruct H as (x & ? & H)
    | H : match ?o with Some _ => _ | None => _ end = Ok (Some _) |- _ => destruct o
    | H : Ok (Some _) = Ok (Some _) |- _ => injection H as <-
    | H : Ok None = Ok (Some _) |- _ => discriminate H
    end; try discriminate T; reflexivity.
Qed.

Lemma kw_push : forall k p o v, kw k (push (p, o) v)
  = kw k v || match o with Some (GKeyword x) => KwType_beq k (kw_t x) | _ => false end.
Proof.
  intros k p o v; unfold kw; rewrite latest_push; destruct o as [[]|]; cbn; rewrite ?orb_false_r; try reflexivity.
  match goal with |- context [KwType_beq k ?b] => destruct (KwType_beq k b) end; rewrite ?orb_true_r, ?orb_false_r; reflexivity.
Qed.
Lemma kw_sym : forall a b, KwType_beq a b = KwType_beq b a.
Proof. intros [] []; reflexivity. Qed.

Lemma spans_present : forall v, (forall p t, In (p, Some (GTrend t)) v -> True) ->
  match earliest span_of v with Some (f, u) => has_value f = true /\ has_value u = true | None => True end.
Proof.
  induction v as [|[p o] v IH]; intros _; cbn; [exact I|].
  specialize (IH (fun _ _ _ => I)); destruct (earliest span_of v) as [[f u]|]; [exact IH|].
  destruct o as [g|]; [|exact I]; destruct g; try exact I; cbn.
  match goal with |- context [Trend_isTimeSpanGroup ?x] => destruct (Trend_isTimeSpanGroup x) eqn:E end; [|exact I].
  unfold Trend_isTimeSpanGroup in E; repeat (apply andb_prop in E; destruct E as [E ?]); auto.
Qed.

Definition letter_number (s : string) : N := N_of_ascii (nth 2 (list_ascii_of_string s) "000"%char) - 64.
Lemma correction_data : forall s part md m, MiscGroup_parse s part md = Ok (Some m) ->
  ms_type m = Ms_CORRECTED_WEATHER_OBSERVATION ->
  In s corrections /\ exists d, ms_data m = Some d /\ trunc_to_uint d = Ok (letter_number s).
Proof.
  intros s part md m E T; destruct (misc_corrected _ _ _ _ E T) as [-> L]; apply correction_words in L; split; [exact L|].
  assert (K : match MiscGroup_parse s RP_METAR md with
              | Ok (Some m) => match ms_data m with
                               | Some d => match trunc_to_uint d with Ok n => N.eqb n (letter_number s) | Bad _ => false end
                               | None => false end
              | _ => false end = true).
  { clear E T m; unfold corrections in L; vm_compute in L.
    repeat (destruct L as [<- |L]; [vm_compute; reflexivity|]); contradiction. }
  rewrite E in K; destruct (ms_data m) as [d|]; [|discriminate K]; exists d; split; [reflexivity|].
  destruct (trunc_to_uint d) as [n|]; [|discriminate K]; apply N.eqb_eq in K; rewrite K; reflexivity.
Qed.

Lemma md_step : forall s g part md v m,
  g = GUnknown mkUnknown \/ parsed_as g s part md -> Reachable g ->
  updateMetadata g (md_view v) = Ok m -> m = md_view (push (part, av g) v).
Proof.
  intros s g part md v m P R E.
  assert (Same : m = md_view v -> active g = false -> m = md_view (push (part, av g) v)).
  { intros -> A; unfold av; rewrite A; unfold md_view; rewrite !latest_push, !earliest_push, !kw_push, !orb_false_r.
    destruct (earliest span_of v) as [[]|]; reflexivity. }
  destruct P as [-> |P]; [injection E as <-; apply Same; reflexivity|].
  destruct g; cbn [updateMetadata] in E; try (injection E as <-; apply Same; reflexivity).
  - (* keyword *)
    injection E as <-; unfold av; cbn [active]; unfold md_set_flag, md_view; cbn [md_type md_error md_reportTime
      md_icaoLocation md_isSpeci md_isNospeci md_isAutomated md_isAo1 md_isAo1a md_isAo2 md_isAo2a md_isNil
      md_isCancelled md_isAmended md_isCorrectional md_correctionNumber md_maintenanceIndicator md_timeSpanFrom md_timeSpanUntil].
    rewrite !latest_push, !earliest_push, !kw_push; cbn [time_of_report location_text correction_of span_of].
    rewrite !(kw_sym (kw_t g)).
    rewrite <- !orb_assoc, (orb_comm (said _)).
    destruct (earliest span_of v) as [[]|]; reflexivity.
  - (* location *)
    injection E as <-; unfold av; cbn [active]; unfold md_set_icaoLocation, md_view; cbn [md_type md_error md_reportTime
      md_icaoLocation md_isSpeci md_isNospeci md_isAutomated md_isAo1 md_isAo1a md_isAo2 md_isAo2a md_isNil
      md_isCancelled md_isAmended md_isCorrectional md_correctionNumber md_maintenanceIndicator md_timeSpanFrom md_timeSpanUntil].
    rewrite !latest_push, !earliest_push, !kw_push, !orb_false_r; cbn [time_of_report location_text correction_of span_of].
    destruct (earliest span_of v) as [[]|]; reflexivity.
  - (* report time *)
    injection E as <-; unfold av; cbn [active]; unfold md_set_reportTime, md_view; cbn [md_type md_error md_reportTime
      md_icaoLocation md_isSpeci md_isNospeci md_isAutomated md_isAo1 md_isAo1a md_isAo2 md_isAo2a md_isNil
      md_isCancelled md_isAmended md_isCorrectional md_correctionNumber md_maintenanceIndicator md_timeSpanFrom md_timeSpanUntil].
    rewrite !latest_push, !earliest_push, !kw_push, !orb_false_r; cbn [time_of_report location_text correction_of span_of].
    destruct (earliest span_of v) as [[]|]; reflexivity.
  - (* trend *) rename g into t.
    cbn [parsed_as] in P.
    destruct (Trend_isTimeSpanGroup t) eqn:Ts.
    + assert (Tt : tr_t t = Tr_TIME_SPAN).
      { unfold Trend_isTimeSpanGroup in Ts; repeat (apply andb_prop in Ts; destruct Ts as [Ts ?]).
        apply internal_TrType_dec_bl in Ts; exact Ts. }
      rewrite Tt in E; cbn [md_view md_type ReportType_beq TrType_beq negb andb] in E.
      unfold av; cbn [active]; rewrite Ts; unfold md_view at 1.
      rewrite !latest_push, !earliest_push, !kw_push, !orb_false_r; cbn [time_of_report location_text correction_of span_of].
      rewrite Ts.
      pose proof (spans_present v (fun _ _ _ => I)) as Sp.
      replace (md_timeSpanFrom (md_view v)) with (match earliest span_of v with Some (f, _) => f | None => None end) in E by reflexivity.
      replace (md_timeSpanUntil (md_view v)) with (match earliest span_of v with Some (_, u) => u | None => None end) in E by reflexivity.
      destruct (earliest span_of v) as [[f u]|] eqn:Es.
      * destruct Sp as [Sf Su]; rewrite Sf in E; cbn [negb andb] in E; injection E as <-; unfold md_view; rewrite Es; reflexivity.
      * injection E as <-; unfold md_view; rewrite ?Es; reflexivity.
    + destruct (TrType_beq (tr_t t) Tr_TIME_SPAN) eqn:Tt.
      * apply internal_TrType_dec_bl in Tt; pose proof (fresh_span _ _ _ _ P Tt) as X; congruence.
      * rewrite andb_false_r in E; cbn [andb] in E; injection E as <-; apply Same; [reflexivity | exact Ts].
  - (* misc *) rename g into m0.
    destruct (MsType_beq (ms_type m0) Ms_CORRECTED_WEATHER_OBSERVATION) eqn:C.
    + pose proof C as C'; apply internal_MsType_dec_bl in C'.
      unfold av; cbn [active]; rewrite C; unfold md_view at 1.
      rewrite !latest_push, !earliest_push, !kw_push, !orb_false_r; cbn [time_of_report location_text correction_of span_of].
      rewrite C.
      cbn [parsed_as] in P; destruct (correction_data _ _ _ _ P C') as (_ & d & Dd & Nd); rewrite Dd in E |- *.
      cbn [has_value andb deref bind] in E; apply bind_ok in E; destruct E as (n & En & E); injection E as <-.
      unfold md_set_correction, md_view, number; cbn; rewrite En, orb_true_r.
      destruct (earliest span_of v) as [[]|]; reflexivity.
    + cbn [andb] in E; injection E as <-; apply Same; [reflexivity | exact C].
Qed.

Lemma md_steps : forall limit used p, Steps limit used p -> ps_md p = md_view (V (ps_groups p)).
Proof.
  intros limit; apply (steps_induction limit (fun used p => ps_md p = md_view (V (ps_groups p)))).
  - reflexivity.
  - intros used p s q _ Ip Er Eq St Iq IH; destruct St as [Ev Em Ec|g part st n F Ec U Ev R Gq].
    + rewrite Ev, Em; exact IH.
    + rewrite Ev; rewrite IH in U; pose proof (fresh_parse _ _ _ _ _ _ _ F) as G.
      apply GroupParser_parse_inv in G; destruct G as [G _].
      eapply md_step; eassumption.
Qed.

Lemma metadata_view : forall sgn report limit r, parse sgn report limit = Ok r ->
  pr_metadata r = md_set_typeError (md_view (V (rev (pr_groups r)))) (md_type (pr_metadata r)) (md_error (pr_metadata r)).
Proof.
  intros sgn report limit r E; destruct (parse_counted _ _ _ _ E) as (rest & p & T & S & R & Ty & Er & Ee & F).
  destruct (end_shape _ _ _ _ S F Ee) as [_ Vr]; rewrite Vr, <- (md_steps _ _ _ S).
  apply parse_end_inv in Ee; destruct Ee as (l & _ & -> & _); reflexivity.
Qed.
