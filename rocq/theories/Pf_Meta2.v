(** C13-C15 from the view of the metadata and the grammar. *)
From Verif Require Import Prim Regex Float Values Weather Groups1 Groups2 Groups3 Groups4 Parser Lib
  SpecTokens SpecReads Pf_Tokens SpecText SpecLimit SpecGrammar SpecMeta Pf_Ok SpecReach Pf_Total Pf_Steps Pf_Kinds
  Pf_View Pf_Fresh Pf_Shape Pf_Active Pf_Limit Pf_Grammar Pf_Grammar2 Pf_Meta.
Local Open Scope string_scope.

(** ** Keywords *)
Lemma keyword_parse_iff : forall s part md k,
  KeywordGroup_parse s part md = Ok (Some (mkKeyword k)) <-> (s = keyword_text k /\ In part (keyword_parts k)).
Proof.
  intros s part md k; split.
  - intros E; unfold KeywordGroup_parse in E; cbv zeta in E.
    repeat match type of E with
    | (if ?a && seqb s ?t then _ else _) = _ =>
      destruct (a && seqb s t) eqn:B;
        [ apply andb_prop in B; let B1 := fresh in let B2 := fresh in destruct B as [B1 B2];
          apply seqb_eq in B2; injection E as <-; split; [exact B2|];
          destruct part; try discriminate B1; cbn; auto 6
        | clear B ]
    | (if seqb s ?t then _ else _) = _ => destruct (seqb s t) eqn:B;
        [apply seqb_eq in B; injection E as <-; split; [exact B | destruct part; cbn; auto 6] | discriminate E]
    end.
  - intros [-> P]; destruct k; cbn in P; repeat (destruct P as [<- |P]; [reflexivity|]); destruct P.
Qed.

Lemma result_active : forall sgn report limit r i, parse sgn report limit = Ok r ->
  In i (pr_groups r) -> active (gi_group i) = true ->
  parsed_from i /\ In (gi_rawString i) (words_of_result r).
Proof.
  intros sgn report limit r i E Hi A; destruct (parse_counted _ _ _ _ E) as (rest & p & T & S & R & Ty & Er & Ee & F).
  apply (acts_steps _ _ _ S); rewrite <- (acts_end _ _ _ _ S F Ee).
  apply filter_In; split; [apply in_rev in Hi; exact Hi | exact A].
Qed.
Lemma result_keyword : forall sgn report limit r i k, parse sgn report limit = Ok r ->
  In i (pr_groups r) -> gi_group i = GKeyword (mkKeyword k) ->
  gi_rawString i = keyword_text k /\ In (gi_reportPart i) (keyword_parts k).
Proof.
  intros sgn report limit r i k E Hi G; destruct (result_active _ _ _ _ _ E Hi) as [[md P] _]; [rewrite G; reflexivity|].
  rewrite G in P; apply GroupParser_parse_inv in P; destruct P as [[P|P] _]; [discriminate P|].
  apply keyword_parse_iff in P; exact P.
Qed.

(** ** C14 *)
Lemma says_kw : forall k l,
  said (fold_right (fun i acc => match kw_is k (gi_group i) with Some x => Some x | None => acc end) None l) = true
  <-> exists i, In i l /\ gi_group i = GKeyword (mkKeyword k).
Proof.
  intros k l; induction l as [|i l IH]; cbn [fold_right].
  - split; [discriminate | intros (i & [] & _)].
  - destruct (kw_is k (gi_group i)) as [u|] eqn:K.
    + split; [intros _; exists i; split; [left; reflexivity|] | reflexivity].
      destruct (gi_group i); try discriminate K; cbn in K.
      destruct (KwType_beq k (kw_t g)) eqn:B; [|discriminate K]; apply internal_KwType_dec_bl in B; subst k; destruct g; reflexivity.
    + rewrite IH; split; [intros (j & H & G); exists j; split; [right; exact H | exact G]|].
      intros (j & [<- |H] & G); [|exists j; auto].
      exfalso; rewrite G in K; cbn in K; rewrite internal_KwType_dec_lb in K by reflexivity; discriminate K.
Qed.
Lemma kw_iff : forall k r, kw k (V (rev (pr_groups r))) = true <-> has_keyword k r.
Proof.
  intros k r; unfold kw; rewrite latest_V by apply silent_kw; rewrite says_kw; unfold has_keyword.
  split; intros (i & H & G); exists i; split; auto; apply in_rev; rewrite ?rev_involutive; exact H.
Qed.
Lemma keyword_flags : forall sgn report limit r, parse sgn report limit = Ok r ->
  forall k attribute, In (k, attribute) keyword_attributes ->
  (attribute (pr_metadata r) = true <-> has_keyword k r).
Proof.
  intros sgn report limit r E k a H; rewrite (metadata_view _ _ _ _ E), <- kw_iff.
  repeat (destruct H as [H|H]; [injection H as <- <-; reflexivity|]); destruct H.
Qed.

Lemma all_corrections : forall sgn report limit r i m, parse sgn report limit = Ok r ->
  In i (pr_groups r) -> gi_group i = GMisc m -> ms_type m = Ms_CORRECTED_WEATHER_OBSERVATION ->
  In (gi_rawString i) corrections /\ exists d, ms_data m = Some d /\ trunc_to_uint d = Ok (letter_number (gi_rawString i)).
Proof.
  intros sgn report limit r i m E Hi G T; destruct (result_active _ _ _ _ _ E Hi) as [[md P] _].
  { rewrite G; cbn; rewrite T; reflexivity. }
  rewrite G in P; apply GroupParser_parse_inv in P; destruct P as [[P|P] _]; [discriminate P|].
  cbn [parsed_as] in P; exact (correction_data _ _ _ _ P T).
Qed.
Definition has_data (i : GroupInfo) : Prop :=
  forall m, gi_group i = GMisc m -> ms_type m = Ms_CORRECTED_WEATHER_OBSERVATION -> ms_data m <> None.
Lemma latest_correction : forall l, Forall has_data l ->
  fold_right (fun i acc => match correction_of (gi_group i) with Some x => Some x | None => acc end) None l
  = match find is_correction l with Some i => correction_of (gi_group i) | None => None end.
Proof.
  induction l as [|i l IH]; intros F; [reflexivity|]; cbn [fold_right find].
  specialize (IH (Forall_inv_tail F)); apply Forall_inv in F; unfold is_correction at 1.
  destruct (gi_group i) eqn:G; try exact IH; cbn [correction_of].
  destruct (MsType_beq (ms_type g) Ms_CORRECTED_WEATHER_OBSERVATION) eqn:B; [|exact IH].
  rewrite G; cbn; rewrite B; apply internal_MsType_dec_bl in B; specialize (F _ G B); destruct (ms_data g); [reflexivity | congruence].
Qed.
Lemma result_has_data : forall sgn report limit r, parse sgn report limit = Ok r -> Forall has_data (rev (pr_groups r)).
Proof.
  intros sgn report limit r E; apply Forall_forall; intros i Hi m G T; apply in_rev in Hi.
  destruct (all_corrections _ _ _ _ _ _ E Hi G T) as (_ & d & D & _); congruence.
Qed.
Lemma find_correction : forall l i, find is_correction l = Some i ->
  In i l /\ exists m, gi_group i = GMisc m /\ ms_type m = Ms_CORRECTED_WEATHER_OBSERVATION.
Proof.
  intros l i H; apply find_some in H; destruct H as [H K]; split; [exact H|]; unfold is_correction in K.
  destruct (gi_group i) eqn:G; try discriminate K; exists g; split; [reflexivity | apply internal_MsType_dec_bl; exact K].
Qed.
Lemma correctional : forall sgn report limit r, parse sgn report limit = Ok r ->
  (md_isCorrectional (pr_metadata r) = true <-> (has_keyword Kw_COR r \/ has_correction r)).
Proof.
  intros sgn report limit r E; rewrite (metadata_view _ _ _ _ E), <- kw_iff; cbn [md_set_typeError md_isCorrectional md_view].
  rewrite orb_true_iff, latest_V by apply silent_corr; rewrite (latest_correction _ (result_has_data _ _ _ _ E)).
  split; (intros [H|H]; [left; exact H | right]).
  - destruct (find is_correction (rev (pr_groups r))) as [i|] eqn:Fi; [|discriminate H].
    apply find_correction in Fi; destruct Fi as (Hi & m & G & T); exists i, m; apply in_rev in Hi; auto.
  - destruct H as (i & m & Hi & G & T).
    destruct (find is_correction (rev (pr_groups r))) as [j|] eqn:Fi.
    + apply find_correction in Fi; destruct Fi as (Hj & m' & G' & T'); apply in_rev in Hj.
      destruct (all_corrections _ _ _ _ _ _ E Hj G' T') as (_ & d & D & _).
      rewrite G'; cbn; rewrite T', D; reflexivity.
    + apply in_rev in Hi; pose proof (find_none _ _ Fi _ Hi) as X; unfold is_correction in X; rewrite G, T in X; discriminate X.
Qed.
Lemma correction_letters : forall s, In s corrections ->
  exists n, (1 <= n <= 26)%nat /\ s = "CC" ++ String (ascii_of_nat (64 + n)) "" /\ letter_number s = N.of_nat n.
Proof.
  intros s H; unfold corrections in H; apply in_map_iff in H; destruct H as (n & <- & H); apply in_seq in H.
  exists (S n); split; [lia|]; split; [rewrite Nat.add_succ_r; reflexivity|].
  do 26 (destruct n as [|n]; [reflexivity|]); lia.
Qed.
Lemma correction_number : forall sgn report limit r, parse sgn report limit = Ok r ->
  match last_correction r with
  | Some i => exists n, (1 <= n <= 26)%nat
      /\ gi_rawString i = "CC" ++ String (ascii_of_nat (64 + n)) ""
      /\ md_correctionNumber (pr_metadata r) = Some (N.of_nat n)
  | None => md_correctionNumber (pr_metadata r) = Some 0%N
  end.
Proof.
  intros sgn report limit r E; rewrite (metadata_view _ _ _ _ E); cbn [md_set_typeError md_correctionNumber md_view].
  rewrite latest_V by apply silent_corr; rewrite (latest_correction _ (result_has_data _ _ _ _ E)); unfold last_correction.
  destruct (find is_correction (rev (pr_groups r))) as [i|] eqn:Fi; [|reflexivity].
  apply find_correction in Fi; destruct Fi as (Hi & m & G & T); apply in_rev in Hi.
  destruct (all_corrections _ _ _ _ _ _ E Hi G T) as (C & d & D & N).
  destruct (correction_letters _ C) as (n & Hn & Hs & Hl); exists n; split; [exact Hn|]; split; [exact Hs|].
  rewrite G; cbn; rewrite T; cbn; rewrite D; unfold number; rewrite N, Hl; reflexivity.
Qed.
Lemma metadata_location : forall sgn report limit r, parse sgn report limit = Ok r ->
  md_icaoLocation (pr_metadata r) = match last_saying location_text r with Some s => s | None => "" end
  /\ md_reportTime (pr_metadata r) = last_saying time_of_report r.
Proof.
  intros sgn report limit r E; rewrite (metadata_view _ _ _ _ E), !last_latest by (apply silent_loc || apply silent_time).
  split; reflexivity.
Qed.
Lemma metadata_span : forall sgn report limit r, parse sgn report limit = Ok r ->
  (md_timeSpanFrom (pr_metadata r), md_timeSpanUntil (pr_metadata r))
  = match first_saying span_of r with Some x => x | None => (None, None) end.
Proof.
  intros sgn report limit r E; rewrite (metadata_view _ _ _ _ E), !first_earliest by apply silent_span.
  cbn; destruct (earliest span_of (V (rev (pr_groups r)))) as [[]|]; reflexivity.
Qed.

(** ** C13 *)
Lemma in_part : forall p ex l q x, part_without p ex l -> In (q, x) l -> q = p /\ ~ In x ex.
Proof. intros p ex l q x H I; unfold part_without in H; rewrite Forall_forall in H; exact (H _ I). Qed.
Lemma metar_nil : forall l p x, MetarContent l -> In (p, x) l -> p <> RP_RMK -> x = SG_NIL \/ x = SG_CNL ->
  l = [(RP_METAR, SG_NIL)] /\ x = SG_NIL.
Proof.
  intros l p x H I N X; inversion H as [|b m Hb Hm _ El]; subst.
  - destruct I as [I|[]]; injection I as <- <-; auto.
  - exfalso; apply in_app_or in I; destruct I as [I|I].
    + apply (in_part _ _ _ _ _ Hb) in I; destruct I as [_ I]; apply I; destruct X as [-> | ->]; cbn; auto.
    + destruct Hm as [|l Hl]; [destruct I|]; destruct I as [I|I].
      * injection I as <- <-; destruct X; discriminate.
      * apply (in_part _ _ _ _ _ Hl) in I; destruct I as [-> _]; apply N; reflexivity.
Qed.
Lemma taf_nil : forall l p x, TafContent l -> In (p, x) l -> p <> RP_RMK -> x = SG_NIL \/ x = SG_CNL ->
  l = [(RP_TAF, x)].
Proof.
  intros l p x H I N X; inversion H as [| |b m Hb Hm _ El]; subst.
  - destruct I as [I|[]]; injection I as <- <-; auto.
  - destruct I as [I|[]]; injection I as <- <-; auto.
  - exfalso; apply in_app_or in I; destruct I as [I|I].
    + apply (in_part _ _ _ _ _ Hb) in I; destruct I as [_ I]; apply I; destruct X as [-> | ->]; cbn; auto.
    + destruct Hm as [|l Hl]; [destruct I|]; destruct I as [I|I].
      * injection I as <- <-; destruct X; discriminate.
      * apply (in_part _ _ _ _ _ Hl) in I; destruct I as [-> _]; apply N; reflexivity.
Qed.
(** NIL or CNL outside the remarks ends the report, and only the header precedes it. *)
Lemma nil_last : forall t l p x, WellFormed t l -> In (p, x) l -> p <> RP_RMK -> x = SG_NIL \/ x = SG_CNL ->
  exists h, l = (h ++ [(p, x)])%list /\ Forall (fun y => fst y = RP_HEADER) h
    /\ (x = SG_CNL -> t = RT_TAF /\ In (head SG_TIME_SPAN) h).
Proof.
  intros t l p x W I N X.
  assert (K : forall t b l, AfterLocation t b l -> In (p, x) l ->
    exists h, l = (h ++ [(p, x)])%list /\ Forall (fun y => fst y = RP_HEADER) h
      /\ (x = SG_CNL -> t = RT_TAF /\ In (head SG_TIME_SPAN) h)).
  { clear t l W I; intros t b l A I; inversion A as [|l' H|  | |l' H|l' H| | |l' H|l' H]; subst.
    all: try (repeat (destruct I as [I|I]; [injection I as <- <-; first [destruct X; discriminate |
           first [exists []; split; [reflexivity|]; split; [constructor | discriminate]
                 |exists [head SG_REPORT_TIME]; split; [reflexivity|]; split; [repeat constructor | discriminate]]]|]);
         destruct I; fail).
    - destruct I as [I|I]; [injection I as <- <-; destruct X; discriminate|].
      destruct (metar_nil _ _ _ H I N X) as [-> ->]; destruct I as [I|[]]; injection I as <-.
      exists [head SG_REPORT_TIME]; split; [reflexivity|]; split; [repeat constructor | discriminate].
    - destruct I as [I|I]; [injection I as <- <-; destruct X; discriminate|].
      destruct I as [I|I]; [injection I as <- <-; destruct X; discriminate|].
      pose proof (taf_nil _ _ _ H I N X) as Z; subst l'; destruct I as [I|[]]; injection I as <-.
      exists [head SG_REPORT_TIME; head SG_TIME_SPAN]; split; [reflexivity|]; split; [repeat constructor | cbn; auto].
    - destruct I as [I|I]; [injection I as <- <-; destruct X; discriminate|].
      pose proof (taf_nil _ _ _ H I N X) as Z; subst l'; destruct I as [I|[]]; injection I as <-.
      exists [head SG_TIME_SPAN]; split; [reflexivity|]; split; [repeat constructor | cbn; auto].
    - destruct I as [I|I]; [injection I as <- <-; destruct X; discriminate|].
      destruct (metar_nil _ _ _ H I N X) as [-> ->]; destruct I as [I|[]]; injection I as <-.
      exists [head SG_REPORT_TIME]; split; [reflexivity|]; split; [repeat constructor | discriminate].
    - destruct I as [I|I]; [injection I as <- <-; destruct X; discriminate|].
      destruct I as [I|I]; [injection I as <- <-; destruct X; discriminate|].
      pose proof (taf_nil _ _ _ H I N X) as Z; subst l'; destruct I as [I|[]]; injection I as <-.
      exists [head SG_REPORT_TIME; head SG_TIME_SPAN]; split; [reflexivity|]; split; [repeat constructor | cbn; auto]. }
  destruct W as [t h l Ht A|t l A].
  - assert (Hh : Forall (fun y => fst y = RP_HEADER) h) by (destruct Ht; repeat constructor).
    assert (I' : In (p, x) l).
    { apply in_app_or in I; destruct I as [I|[I|I]]; [|injection I as <- <-; destruct X; discriminate | exact I].
      exfalso; destruct Ht; cbn in I; repeat (destruct I as [I|I]; [injection I as <- <-; destruct X; discriminate|]); destruct I. }
    destruct (K _ _ _ A I') as (h' & -> & F & C).
    exists (h ++ head SG_LOCATION :: h')%list; split; [rewrite <- app_assoc; reflexivity|].
    split; [apply Forall_app; split; [exact Hh | constructor; [reflexivity | exact F]]|].
    intros Xc; specialize (C Xc); destruct C as [C1 C2]; split; [exact C1 | apply in_or_app; right; right; exact C2].
  - destruct I as [I|I]; [injection I as <- <-; destruct X; discriminate|].
    destruct (K _ _ _ A I) as (h' & -> & F & C).
    exists (head SG_LOCATION :: h')%list; split; [reflexivity|]; split; [constructor; [reflexivity | exact F]|].
    intros Xc; specialize (C Xc); destruct C as [C1 C2]; split; [exact C1 | right; exact C2].
Qed.
Lemma map_snoc : forall (A B : Type) (f : A -> B) l h x, map f l = (h ++ [x])%list ->
  exists l' y, l = (l' ++ [y])%list /\ map f l' = h /\ f y = x.
Proof.
  intros A B f l h x H; destruct l as [|a l] using rev_ind; [destruct h; discriminate H|]; clear IHl.
  rewrite map_app in H; apply app_inj_tail in H; destruct H as [H1 H2]; exists l, a; auto.
Qed.
Lemma keyword_syntax : forall k g, k = SG_NIL \/ k = SG_CNL -> syntax_of g = k ->
  g = GKeyword (mkKeyword (match k with SG_NIL => Kw_NIL | _ => Kw_CNL end)).
Proof.
  intros k g K H; destruct g; cbn in H; try (destruct K; subst; discriminate).
  - destruct g as [[]]; cbn in H; destruct K as [K|K]; subst k; try discriminate H; reflexivity.
  - destruct (Trend_isTimeSpanGroup g); destruct K; subst; discriminate.
Qed.
Lemma nil_or_cnl : forall sgn report limit r k, parse sgn report limit = Ok r ->
  md_error (pr_metadata r) = RE_NONE -> k = Kw_NIL \/ k = Kw_CNL -> has_keyword k r ->
  exists l i, pr_groups r = (l ++ [i])%list /\ gi_group i = GKeyword (mkKeyword k)
    /\ Forall (fun j => gi_reportPart j = RP_HEADER) l
    /\ (k = Kw_CNL -> md_type (pr_metadata r) = RT_TAF
          /\ exists j t, In j l /\ gi_group j = GTrend t /\ Trend_isTimeSpanGroup t = true).
Proof.
  intros sgn report limit r k E Ne K (i & Hi & G).
  apply (error_free_iff _ _ _ _ E) in Ne; destruct Ne as [W _].
  destruct (result_keyword _ _ _ _ _ _ E Hi G) as [_ Hp].
  set (x := match k with Kw_NIL => SG_NIL | _ => SG_CNL end).
  assert (Hx : x = SG_NIL \/ x = SG_CNL) by (destruct K as [-> | ->]; cbn; auto).
  assert (Hl : label_of i = (gi_reportPart i, x)) by (unfold label_of; rewrite G; destruct K as [-> | ->]; reflexivity).
  assert (Hn : gi_reportPart i <> RP_RMK).
  { intros X; rewrite X in Hp; destruct K as [-> | ->]; cbn in Hp; repeat (destruct Hp as [Hp|Hp]; [discriminate Hp|]); destruct Hp. }
  assert (In (gi_reportPart i, x) (labels r)) as Il by (rewrite <- Hl; apply in_map; exact Hi).
  destruct (nil_last _ _ _ _ W Il Hn Hx) as (h & El & Fh & C).
  unfold labels in El; apply map_snoc in El; destruct El as (l & j & El & Eh & Ej).
  exists l, j; split; [exact El|].
  assert (Gj : gi_group j = GKeyword (mkKeyword k)).
  { unfold label_of in Ej; injection Ej as _ Ej; apply (keyword_syntax x) in Ej; [|exact Hx].
    rewrite Ej; unfold x; destruct K as [-> | ->]; reflexivity. }
  split; [exact Gj|]; split.
  - subst h; rewrite Forall_map in Fh; exact Fh.
  - intros ->; destruct (C eq_refl) as [C1 C2]; split; [exact C1|]; subst h.
    apply in_map_iff in C2; destruct C2 as (y & Ey & Iy); unfold label_of in Ey; injection Ey as _ Ey.
    destruct (gi_group y) eqn:Gy; cbn in Ey; try discriminate Ey; [destruct (kw_t g); discriminate Ey|].
    exists y, g; split; [exact Iy|]; split; [exact Gy|].
    destruct (Trend_isTimeSpanGroup g); [reflexivity | discriminate Ey].
Qed.

(** ** C15 *)
Lemma taf_span : forall t l, WellFormed t l -> t = RT_TAF -> ~ (exists p, p <> RP_RMK /\ In (p, SG_NIL) l) ->
  exists h m, l = (h ++ head SG_TIME_SPAN :: m)%list /\ Forall (fun y => fst y = RP_HEADER /\ snd y <> SG_TIME_SPAN) h
    /\ Forall (fun y => fst y <> RP_HEADER) m.
Proof.
  intros t l W Ht N.
  assert (Tc : forall l, TafContent l -> Forall (fun y : label => fst y <> RP_HEADER) l).
  { clear; intros l H; destruct H as [| |b m Hb Hm _].
    - repeat constructor; discriminate.
    - repeat constructor; discriminate.
    - apply Forall_app; split.
      + eapply Forall_impl; [|exact Hb]; cbn; intros y [-> _]; discriminate.
      + destruct Hm as [|m Hm]; constructor; [discriminate|].
        eapply Forall_impl; [|exact Hm]; cbn; intros y [-> _]; discriminate. }
  assert (K : forall b l, AfterLocation RT_TAF b l -> ~ (exists p, p <> RP_RMK /\ In (p, SG_NIL) l) ->
    exists h m, l = (h ++ head SG_TIME_SPAN :: m)%list /\ Forall (fun y => fst y = RP_HEADER /\ snd y <> SG_TIME_SPAN) h
      /\ Forall (fun y => fst y <> RP_HEADER) m).
  { clear t l W Ht N; intros b l A N; inversion A as [|l' H|  | |l' H|l' H| | |l' H|l' H]; subst.
    - exfalso; apply N; exists RP_HEADER; split; [discriminate | left; reflexivity].
    - exfalso; apply N; exists RP_HEADER; split; [discriminate | right; left; reflexivity].
    - exists [head SG_REPORT_TIME], l'; split; [reflexivity|]; split; [repeat constructor; discriminate | auto].
    - exists [], l'; split; [reflexivity|]; split; [constructor | auto].
    - exists [head SG_REPORT_TIME], l'; split; [reflexivity|]; split; [repeat constructor; discriminate | auto]. }
  destruct W as [t h l Hh A|t l A]; subst t.
  - destruct (K _ _ A) as (h' & m & -> & F1 & F2).
    { intros (p & Np & Ip); apply N; exists p; split; [exact Np | apply in_or_app; right; right; exact Ip]. }
    exists (h ++ head SG_LOCATION :: h')%list, m; split; [rewrite <- app_assoc; reflexivity|]; split; [|exact F2].
    apply Forall_app; split; [inversion Hh; subst; repeat constructor; discriminate|].
    constructor; [split; [reflexivity | discriminate] | exact F1].
  - destruct (K _ _ A) as (h' & m & -> & F1 & F2).
    { intros (p & Np & Ip); apply N; exists p; split; [exact Np | right; exact Ip]. }
    exists (head SG_LOCATION :: h')%list, m; split; [reflexivity|]; split; [|exact F2].
    constructor; [split; [reflexivity | discriminate] | exact F1].
Qed.
Lemma span_syntax : forall g, syntax_of g = SG_TIME_SPAN <-> span_of g <> None.
Proof.
  intros g; destruct g; cbn; try (split; [discriminate | congruence]).
  - destruct (kw_t g); split; try discriminate; congruence.
  - destruct (Trend_isTimeSpanGroup g); split; try discriminate; try congruence; reflexivity.
Qed.
Lemma first_after : forall (A : Type) (f : Group -> option A) h i m x, Forall (fun j => f (gi_group j) = None) h -> f (gi_group i) = Some x ->
  fold_right (fun i acc => match f (gi_group i) with Some x => Some x | None => acc end) None (h ++ i :: m)%list = Some x.
Proof.
  intros A f h i m x F H; induction F as [|j h Hj F IH]; cbn [app fold_right]; [rewrite H; reflexivity | rewrite Hj; exact IH].
Qed.
Lemma taf_header_span : forall sgn report limit r, parse sgn report limit = Ok r ->
  md_error (pr_metadata r) = RE_NONE -> md_type (pr_metadata r) = RT_TAF -> md_isNil (pr_metadata r) = false ->
  exists h i m t f u, pr_groups r = (h ++ i :: m)%list
    /\ Forall (fun j => gi_reportPart j = RP_HEADER) (h ++ [i])%list /\ Forall (fun j => gi_reportPart j <> RP_HEADER) m
    /\ gi_group i = GTrend t /\ tr_t t = Tr_TIME_SPAN /\ tr_from t = Some f /\ tr_till t = Some u
    /\ md_timeSpanFrom (pr_metadata r) = Some f /\ md_timeSpanUntil (pr_metadata r) = Some u.
Proof.
  intros sgn report limit r E Ne Ty Nil.
  pose proof Ne as W; apply (error_free_iff _ _ _ _ E) in W; destruct W as [W _].
  destruct (taf_span _ _ W Ty) as (h & m & El & Fh & Fm).
  { intros (p & _ & Ip); unfold labels in Ip; apply in_map_iff in Ip; destruct Ip as (i & Ei & Ii).
    unfold label_of in Ei; injection Ei as _ Ei; apply (keyword_syntax SG_NIL) in Ei; [|auto].
    assert (K : has_keyword Kw_NIL r) by (exists i; auto).
    apply (keyword_flags _ _ _ _ E Kw_NIL md_isNil) in K; [congruence | cbn; auto 12]. }
  unfold labels in El; apply map_eq_app in El; destruct El as (h' & m' & Eg & <- & El).
  apply map_eq_cons in El; destruct El as (i & m0 & -> & Ei & <-).
  rewrite Forall_map in Fh, Fm.
  assert (Ei1 : gi_reportPart i = RP_HEADER) by (unfold label_of, head in Ei; injection Ei as Ei _; exact Ei).
  assert (Ei2 : syntax_of (gi_group i) = SG_TIME_SPAN) by (unfold label_of, head in Ei; injection Ei as _ Ei; exact Ei).
  pose proof (metadata_span _ _ _ _ E) as Sp; unfold first_saying in Sp; rewrite Eg in Sp.
  assert (Ht : exists t, gi_group i = GTrend t /\ Trend_isTimeSpanGroup t = true).
  { destruct (gi_group i); cbn in Ei2; try discriminate Ei2; [destruct (kw_t g); discriminate Ei2|].
    destruct (Trend_isTimeSpanGroup g) eqn:X; [eauto | discriminate Ei2]. }
  destruct Ht as (t & Gt & Ts).
  rewrite (first_after _ span_of h' i m0 (tr_from t, tr_till t)) in Sp.
  - pose proof Ts as Ts'; unfold Trend_isTimeSpanGroup in Ts'; repeat (apply andb_prop in Ts'; destruct Ts' as [Ts' ?]).
    apply internal_TrType_dec_bl in Ts'.
    destruct (tr_from t) as [f|] eqn:Ef; [|discriminate]; destruct (tr_till t) as [u|] eqn:Eu; [|discriminate].
    injection Sp as S1 S2; exists h', i, m0, t, f, u; rewrite S1, S2; repeat split; auto.
    apply Forall_app; split; [eapply Forall_impl; [|exact Fh]; cbn; intros a [X _]; exact X | repeat constructor; exact Ei1].
  - eapply Forall_impl; [|exact Fh]; cbn; intros a [_ X]; destruct (span_of (gi_group a)) eqn:Y; [|reflexivity].
    exfalso; apply X, span_syntax; congruence.
  - rewrite Gt; cbn; rewrite Ts; reflexivity.
Qed.
