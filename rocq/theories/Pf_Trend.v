(** Trend groups: what their words say. *)
From Coq Require Import Lia.
From Verif Require Import Prim Lib Regex Float Values Weather Groups1 Groups2 Groups3 Groups4 Parser.
From Verif Require Import SpecTokens SpecText SpecReach SpecBuilt SpecRegex SpecForm SpecDecimal SpecNumeral SpecTrend.
From Verif Require Import Pf_Ok Pf_Regex Pf_Caps Pf_Decimal Pf_Form Pf_Numeral Pf_Values1 Pf_Decode Pf_Kinds Pf_Built Pf_WeatherWords.
Local Open Scope string_scope.

(** ** Matching texts of fixed form *)
Lemma numeral_fits : forall n s v, numeral n s v -> fits (repeat digit n) s = true.
Proof.
  induction n as [|n IH]; intros s v [L D]; destruct s as [|c s]; try discriminate L; [reflexivity|].
  injection L as L. cbn [decimal] in D. destruct (digit_of c) as [d|] eqn:E; [|discriminate].
  destruct (decimal s) as [x|] eqn:X; [|discriminate]. cbn [repeat fits]. rewrite (IH s x (conj L X)), andb_true_r.
  clear - E. destruct c as [[] [] [] [] [] [] [] []]; vm_compute in E; try discriminate E; reflexivity.
Qed.
Lemma match_flat : forall r l s, Pf_Form.flat r = Some l -> is_match r s = true ->
  regex_match r s = Some (map (fun x => (fst x, substring (fst (snd x)) (snd (snd x)) s)) (places r 0)).
Proof.
  intros r l s F M. unfold is_match in M. destruct (regex_match r s) as [m|] eqn:E; [|discriminate].
  rewrite (flat_captures _ _ _ _ F E). reflexivity.
Qed.
Definition is_char (c x : ascii) : bool := Ascii.eqb x c.
Lemma span_form : forall s, is_match rgx_timespan s = fits (repeat digit 4 ++ [is_char "/"] ++ repeat digit 4)%list s.
Proof. flat_tac. Qed.
Lemma fm_form : forall s, is_match rgx_fm s = fits ([is_char "F"; is_char "M"] ++ repeat digit 6)%list s.
Proof. flat_tac. Qed.
Definition one_of (l : list ascii) (x : ascii) : bool := existsb (Ascii.eqb x) l.
Lemma trendtime_form : forall s, is_match rgx_trendtime s
  = fits ([one_of ["F"; "T"; "A"]%char; one_of ["M"; "L"; "T"]%char] ++ repeat digit 4)%list s.
Proof. flat_tac. Qed.

Lemma digits4 : forall s, fits (repeat digit 4) s = true -> exists a b x y, s = a ++ b /\ numeral 2 a x /\ numeral 2 b y.
Proof.
  intros s F. pose proof (fits_length _ _ F) as L. cbn in L.
  change (repeat digit 4) with (repeat digit 2 ++ repeat digit 2)%list in F. apply fits_split in F.
  destruct F as (a & b & -> & A & B).
  destruct (digits_decimal 2 _ A) as [x X], (digits_decimal 2 _ B) as [y Y]. exists a, b, x, y.
  repeat split; auto; [exact (fits_length _ _ A)|exact (fits_length _ _ B)].
Qed.

Lemma numeral_len : forall n s v, numeral n s v -> slen s = n.
Proof. intros n s v [L _]. exact L. Qed.
Lemma hm_len : forall s t, hour_minute s t -> slen s = 4%nat /\ fits (repeat digit 4) s = true.
Proof.
  intros s t (h & m & x & y & -> & H & M & _). rewrite slen_app, (numeral_len _ _ _ H), (numeral_len _ _ _ M). split; [reflexivity|].
  exact (fits_app (repeat digit 2) (repeat digit 2) _ _ (numeral_fits _ _ _ H) (numeral_fits _ _ _ M)).
Qed.
Lemma dh_len : forall s t, day_hour s t -> slen s = 4%nat /\ fits (repeat digit 4) s = true.
Proof.
  intros s t (h & m & x & y & -> & H & M & _). rewrite slen_app, (numeral_len _ _ _ H), (numeral_len _ _ _ M). split; [reflexivity|].
  exact (fits_app (repeat digit 2) (repeat digit 2) _ _ (numeral_fits _ _ _ H) (numeral_fits _ _ _ M)).
Qed.
Lemma dhm_len : forall s t, day_hour_minute s t -> slen s = 6%nat /\ fits (repeat digit 6) s = true.
Proof.
  intros s t (d & h & m & x & y & z & -> & D & H & M & _).
  rewrite !slen_app, (numeral_len _ _ _ D), (numeral_len _ _ _ H), (numeral_len _ _ _ M). split; [reflexivity|].
  refine (fits_app (repeat digit 2) (repeat digit 2 ++ repeat digit 2)%list _ _ (numeral_fits _ _ _ D) _).
  exact (fits_app (repeat digit 2) (repeat digit 2) _ _ (numeral_fits _ _ _ H) (numeral_fits _ _ _ M)).
Qed.
Lemma hm_parse : forall s t, slen s = 4%nat -> (MetafTime_fromStringDDHHMM s = Ok (Some t) <-> hour_minute s t).
Proof.
  intros s t L. rewrite time_parse. split; [intros [H|H]|intros H]; [exact H| |left; exact H].
  exfalso. pose proof (proj1 (dhm_len _ _ H)). lia.
Qed.
Lemma dhm_parse : forall s t, slen s = 6%nat -> (MetafTime_fromStringDDHHMM s = Ok (Some t) <-> day_hour_minute s t).
Proof.
  intros s t L. rewrite time_parse. split; [intros [H|H]|intros H]; [|exact H|right; exact H].
  exfalso. pose proof (proj1 (hm_len _ _ H)). lia.
Qed.

(** A word a/b with four digits before and after the slash *)
Lemma span_match : forall s m, regex_match rgx_timespan s = Some m ->
  exists a b, s = a ++ "/" ++ b /\ slen a = 4%nat /\ slen b = 4%nat /\ mstr m 1 = a /\ mstr m 2 = b.
Proof.
  intros s m H. assert (M : is_match rgx_timespan s = true) by (unfold is_match; rewrite H; reflexivity).
  rewrite span_form in M. apply fits_split in M. destruct M as (a & q & -> & A & Q).
  apply fits_split in Q. destruct Q as (x & b & -> & X & B).
  destruct x as [|c [|]]; try discriminate X; [|cbn in X; rewrite andb_false_r in X; discriminate X].
  cbn in X. rewrite andb_true_r in X. apply Ascii.eqb_eq in X. subst c.
  assert (La : slen a = 4%nat) by exact (fits_length _ _ A). assert (Lb : slen b = 4%nat) by exact (fits_length _ _ B).
  rewrite (flat_captures rgx_timespan _ _ _ eq_refl H). exists a, b. repeat split; auto; explode; reflexivity.
Qed.
Lemma span_matches : forall a b, fits (repeat digit 4) a = true -> fits (repeat digit 4) b = true ->
  exists m, regex_match rgx_timespan (a ++ "/" ++ b) = Some m /\ mstr m 1 = a /\ mstr m 2 = b.
Proof.
  intros a b A B. assert (M : is_match rgx_timespan (a ++ "/" ++ b) = true).
  { rewrite span_form. apply fits_app; [exact A|]. apply fits_app; [reflexivity|exact B]. }
  rewrite (match_flat rgx_timespan _ _ eq_refl M). eexists. split; [reflexivity|].
  assert (La : slen a = 4%nat) by exact (fits_length _ _ A). assert (Lb : slen b = 4%nat) by exact (fits_length _ _ B).
  split; explode; reflexivity.
Qed.
Definition span_group (f u : MetafTime) : TrendGroup := mkTrend Tr_TIME_SPAN Pr_NONE true (Some f) (Some u) None.
Lemma span_taf : forall s g, Trend_fromTimeSpan s = Ok (Some g) <->
  exists a b f u, s = a ++ "/" ++ b /\ day_hour a f /\ day_hour b u /\ g = span_group f u.
Proof.
  intros s g. unfold Trend_fromTimeSpan. split.
  - destruct (regex_match rgx_timespan s) as [m|] eqn:M; [|discriminate]. intros H.
    destruct (span_match _ _ M) as (a & b & -> & La & Lb & E1 & E2). rewrite E1, E2 in H.
    apply bind_ok in H. destruct H as ([f|] & F & H); apply bind_ok in H; destruct H as ([u|] & U & H); try discriminate H.
    injection H as <-. exists a, b, f, u. apply day_hour_parse in F, U. auto.
  - intros (a & b & f & u & -> & F & U & ->).
    destruct (span_matches a b (proj2 (dh_len _ _ F)) (proj2 (dh_len _ _ U))) as (m & -> & -> & ->).
    apply day_hour_parse in F, U. rewrite F, U. reflexivity.
Qed.
Lemma span_metar : forall s g, Trend_fromTimeSpanHHMM s = Ok (Some g) <->
  exists a b f u, s = a ++ "/" ++ b /\ hour_minute a f /\ hour_minute b u /\ g = span_group f u.
Proof.
  intros s g. unfold Trend_fromTimeSpanHHMM. split.
  - destruct (regex_match rgx_timespan s) as [m|] eqn:M; [|discriminate]. intros H.
    destruct (span_match _ _ M) as (a & b & -> & La & Lb & E1 & E2). rewrite E1, E2 in H.
    apply bind_ok in H. destruct H as ([f|] & F & H); apply bind_ok in H; destruct H as ([u|] & U & H); try discriminate H.
    injection H as <-. exists a, b, f, u. apply hm_parse in F; [|exact La]. apply hm_parse in U; [|exact Lb]. auto.
  - intros (a & b & f & u & -> & F & U & ->).
    pose proof (hm_len _ _ F) as [La Fa]. pose proof (hm_len _ _ U) as [Lb Fb].
    destruct (span_matches a b Fa Fb) as (m & -> & -> & ->).
    apply hm_parse in F; [|exact La]. apply hm_parse in U; [|exact Lb]. rewrite F, U. reflexivity.
Qed.
Definition from_group (f : MetafTime) : TrendGroup := mkTrend Tr_FROM Pr_NONE false (Some f) None None.
Definition until_group (u : MetafTime) : TrendGroup := mkTrend Tr_UNTIL Pr_NONE false None (Some u) None.
Definition at_group (a : MetafTime) : TrendGroup := mkTrend Tr_AT Pr_NONE false None None (Some a).
Lemma fm_taf : forall s g, Trend_fromFm s = Ok (Some g) <->
  exists a f, s = "FM" ++ a /\ day_hour_minute a f /\ g = from_group f.
Proof.
  intros s g. unfold Trend_fromFm. rewrite fm_form. split.
  - destruct (fits _ s) eqn:M; [|discriminate]. cbn [negb]. intros H. apply fits_split in M.
    destruct M as (p & a & -> & P & A). assert (La : slen a = 6%nat) by exact (fits_length _ _ A).
    destruct p as [|c [|d [|]]]; cbn in P; rewrite ?andb_false_r in P; try discriminate P.
    rewrite andb_true_r in P. apply andb_prop in P. destruct P as [P1 P2]. apply Ascii.eqb_eq in P1, P2. subst c d.
    apply bind_ok in H. destruct H as (ts & T & H). assert (E : ts = a) by (explode; cbn in T; injection T as <-; reflexivity).
    subst ts. apply bind_ok in H. destruct H as ([f|] & F & H); [|discriminate]. injection H as <-.
    exists a, f. apply dhm_parse in F; [|exact La]. auto.
  - intros (a & f & -> & F & ->). pose proof (dhm_len _ _ F) as [La Fa].
    rewrite (fits_app [is_char "F"; is_char "M"] _ "FM" a eq_refl Fa). cbn [negb]. apply dhm_parse in F; [|exact La].
    assert (E : substr ("FM" ++ a) 2 6 = Ok a) by (explode; reflexivity). rewrite E. cbn [bind]. rewrite F. reflexivity.
Qed.
Lemma time_metar : forall s g, Trend_fromTrendTime s = Ok (Some g) <->
  exists a t, hour_minute a t
    /\ (s = "FM" ++ a /\ g = from_group t \/ s = "TL" ++ a /\ g = until_group t \/ s = "AT" ++ a /\ g = at_group t).
Proof.
  intros s g. unfold Trend_fromTrendTime. split.
  - destruct (regex_match rgx_trendtime s) as [m|] eqn:H; [|discriminate]. intros R.
    assert (M : is_match rgx_trendtime s = true) by (unfold is_match; rewrite H; reflexivity).
    rewrite trendtime_form in M. apply fits_split in M. destruct M as (p & a & -> & P & A).
    assert (La : slen a = 4%nat) by exact (fits_length _ _ A). assert (Lp : slen p = 2%nat) by exact (fits_length _ _ P).
    assert (E : mstr m 1 = p /\ mstr m 2 = a) by (rewrite (flat_captures rgx_trendtime _ _ _ eq_refl H); split; explode; reflexivity).
    destruct E as [-> ->] in R. apply bind_ok in R. destruct R as ([t|] & T & R); [|discriminate].
    apply hm_parse in T; [|exact La]. exists a, t. split; [exact T|].
    destruct (seqb p "FM") eqn:E1; [apply seqb_eq in E1; injection R as <-; subst p; auto|].
    destruct (seqb p "TL") eqn:E2; [apply seqb_eq in E2; injection R as <-; subst p; auto|].
    destruct (seqb p "AT") eqn:E3; [apply seqb_eq in E3; injection R as <-; subst p; auto|discriminate R].
  - intros (a & t & T & C). pose proof (hm_len _ _ T) as [La Fa]. apply hm_parse in T; [|exact La].
    assert (X : forall p, fits [one_of ["F"; "T"; "A"]%char; one_of ["M"; "L"; "T"]%char] p = true ->
      regex_match rgx_trendtime (p ++ a) = Some [(2%nat, a); (1%nat, p)]).
    { intros p P. assert (M : is_match rgx_trendtime (p ++ a) = true) by (rewrite trendtime_form; apply fits_app; assumption).
      rewrite (match_flat rgx_trendtime _ _ eq_refl M). assert (Lp : slen p = 2%nat) by exact (fits_length _ _ P). explode. reflexivity. }
    destruct C as [[-> ->]|[[-> ->]|[-> ->]]]; rewrite X by reflexivity; unfold mstr; cbn [find fst snd Nat.eqb];
      rewrite T; reflexivity.
Qed.


(** ** The first word *)
Lemma or_else_some : forall (A : Type) (e k : res (option A)) a, or_else e k = Ok (Some a) ->
  e = Ok (Some a) \/ (e = Ok None /\ k = Ok (Some a)).
Proof. intros A e k a H. unfold or_else in H. apply bind_ok in H. destruct H as ([x|] & E & H); [left; congruence|right; auto]. Qed.
Lemma seqb_len : forall s t, slen s <> slen t -> seqb s t = false.
Proof. intros s t N. destruct (seqb s t) eqn:E; [|reflexivity]. apply seqb_eq in E. subst. contradiction. Qed.
Lemma no_match_len : forall r n s, (forall t, is_match r t = true -> slen t = n) -> slen s <> n -> regex_match r s = None.
Proof.
  intros r n s F N. destruct (regex_match r s) as [m|] eqn:E; [|reflexivity]. exfalso. apply N, F. unfold is_match. rewrite E. reflexivity.
Qed.
Lemma no_span : forall s, slen s <> 9%nat -> Trend_fromTimeSpan s = Ok None /\ Trend_fromTimeSpanHHMM s = Ok None.
Proof.
  intros s N. unfold Trend_fromTimeSpan, Trend_fromTimeSpanHHMM. rewrite (no_match_len _ 9%nat); auto.
  intros t M. rewrite span_form in M. exact (fits_length _ _ M).
Qed.
Lemma no_fm : forall s, slen s <> 8%nat -> Trend_fromFm s = Ok None.
Proof.
  intros s N. unfold Trend_fromFm. destruct (is_match rgx_fm s) eqn:M; [|reflexivity].
  rewrite fm_form in M. apply fits_length in M. contradiction.
Qed.
Lemma no_time : forall s, slen s <> 6%nat -> Trend_fromTrendTime s = Ok None.
Proof.
  intros s N. unfold Trend_fromTrendTime. rewrite (no_match_len _ 6%nat); auto.
  intros t M. rewrite trendtime_form in M. exact (fits_length _ _ M).
Qed.

Inductive single (part : ReportPart) : string -> TrendGroup -> Prop :=
| single_nosig : part = RP_METAR -> single part "NOSIG" (Trend_ofType Tr_NOSIG)
| single_change : forall w t, part = RP_METAR \/ part = RP_TAF -> change_word w t -> single part w (Trend_ofType t)
| single_prob : forall w p, part = RP_TAF -> prob_word w p -> single part w (Trend_ofProb p)
| single_from : forall x f, from_word part x f -> single part x (from_group f)
| single_until : forall x u, until_word part x u -> single part x (until_group u)
| single_at : forall x a, at_word part x a -> single part x (at_group a)
| single_span : forall x f u, span_word part x f u -> single part x (span_group f u).

Lemma single_sound : forall part w md g, TrendGroup_parse w part md = Ok (Some g) -> single part w g.
Proof.
  intros part w md g H. unfold TrendGroup_parse in H. cbv zeta in H.
  assert (SpanM : Trend_fromTimeSpanHHMM w = Ok (Some g) -> part = RP_METAR -> single part w g).
  { intros X P. apply span_metar in X. destruct X as (a & b & f & u & -> & F & U & ->). constructor. exists a, b. auto. }
  assert (SpanT : Trend_fromTimeSpan w = Ok (Some g) -> part = RP_TAF \/ part = RP_HEADER -> single part w g).
  { intros X P. apply span_taf in X. destruct X as (a & b & f & u & -> & F & U & ->). constructor. exists a, b. auto. }
  destruct part; cbn [is_part ReportPart_beq orb andb] in H; unfold or_else in H; cbn [bind] in H; try discriminate H.
  - apply SpanT; auto.
  - destruct (seqb w "BECMG") eqn:E1; [injection H as <-; apply seqb_eq in E1; subst w; apply single_change; cbn; auto|].
    destruct (seqb w "TEMPO") eqn:E2; [injection H as <-; apply seqb_eq in E2; subst w; apply single_change; cbn; auto|].
    destruct (seqb w "INTER") eqn:E3; [injection H as <-; apply seqb_eq in E3; subst w; apply single_change; cbn; auto|].
    destruct (seqb w "NOSIG") eqn:E4; [injection H as <-; apply seqb_eq in E4; subst w; constructor; auto|].
    apply bind_ok in H. destruct H as ([x|] & X & H).
    { injection H as ->. apply time_metar in X. destruct X as (a & t & T & [[-> ->]|[[-> ->]|[-> ->]]]);
        [apply single_from|apply single_until|apply single_at]; exists a; auto. }
    apply bind_ok in H. destruct H as ([y|] & Y & H); [|discriminate]. injection H as ->. auto.
  - destruct (seqb w "BECMG") eqn:E1; [injection H as <-; apply seqb_eq in E1; subst w; apply single_change; cbn; auto|].
    destruct (seqb w "TEMPO") eqn:E2; [injection H as <-; apply seqb_eq in E2; subst w; apply single_change; cbn; auto|].
    destruct (seqb w "INTER") eqn:E3; [injection H as <-; apply seqb_eq in E3; subst w; apply single_change; cbn; auto|].
    destruct (seqb w "PROB30") eqn:E4; [injection H as <-; apply seqb_eq in E4; subst w; apply single_prob; cbn; auto|].
    destruct (seqb w "PROB40") eqn:E5; [injection H as <-; apply seqb_eq in E5; subst w; apply single_prob; cbn; auto|].
    apply bind_ok in H. destruct H as ([x|] & X & H); [injection H as ->; auto|].
    apply bind_ok in H. destruct H as ([y|] & Y & H); [|auto]. injection H as ->.
    apply fm_taf in Y. destruct Y as (a & f & -> & F & ->). apply single_from. exists a. auto.
Qed.
Lemma single_complete : forall part w md g, single part w g -> TrendGroup_parse w part md = Ok (Some g).
Proof.
  intros part w md g H. unfold TrendGroup_parse. cbv zeta.
  destruct H as [->|w t P C|w p -> C|x f (s & -> & [[-> F]|[-> F]])|x u (s & -> & -> & F)|x a (s & -> & -> & F)|x f u (a & b & -> & [(-> & F & U)|(P & F & U)])].
  - reflexivity.
  - cbn in C. destruct P as [-> | ->]; destruct C as [C|[C|[C|[]]]]; injection C as <- <-; reflexivity.
  - cbn in C. destruct C as [C|[C|[]]]; injection C as <- <-; reflexivity.
  - pose proof (proj1 (hm_len _ _ F)) as L. cbn [is_part ReportPart_beq orb andb or_else bind].
    assert (T : Trend_fromTrendTime ("FM" ++ s) = Ok (Some (from_group f))) by (apply time_metar; exists s, f; auto).
    unfold or_else. cbn [bind]. rewrite T. reflexivity.
  - pose proof (proj1 (dhm_len _ _ F)) as L. cbn [is_part ReportPart_beq orb andb or_else bind].
    assert (L8 : slen ("FM" ++ s) = 8%nat) by (rewrite slen_app, L; reflexivity).
    assert (T : Trend_fromFm ("FM" ++ s) = Ok (Some (from_group f))) by (apply fm_taf; exists s, f; auto).
    rewrite !seqb_len by (rewrite L8; discriminate). unfold or_else. rewrite (proj1 (no_span _ ltac:(rewrite L8; discriminate))).
    cbn [bind]. rewrite T. reflexivity.
  - assert (T : Trend_fromTrendTime ("TL" ++ s) = Ok (Some (until_group u))) by (apply time_metar; exists s, u; auto).
    cbn [is_part ReportPart_beq orb andb]. unfold or_else. cbn [bind]. rewrite T. reflexivity.
  - assert (T : Trend_fromTrendTime ("AT" ++ s) = Ok (Some (at_group a))) by (apply time_metar; exists s, a; auto).
    cbn [is_part ReportPart_beq orb andb]. unfold or_else. cbn [bind]. rewrite T. reflexivity.
  - pose proof (proj1 (hm_len _ _ F)) as La. pose proof (proj1 (hm_len _ _ U)) as Lb.
    assert (L9 : slen (a ++ "/" ++ b) = 9%nat) by (rewrite !slen_app, La, Lb; reflexivity).
    assert (T : Trend_fromTimeSpanHHMM (a ++ "/" ++ b) = Ok (Some (span_group f u))) by (apply span_metar; exists a, b, f, u; auto).
    cbn [is_part ReportPart_beq orb andb]. rewrite !seqb_len by (rewrite L9; discriminate). unfold or_else. cbn [bind].
    rewrite no_time by (rewrite L9; discriminate). cbn [bind]. rewrite T. reflexivity.
  - pose proof (proj1 (dh_len _ _ F)) as La. pose proof (proj1 (dh_len _ _ U)) as Lb.
    assert (L9 : slen (a ++ "/" ++ b) = 9%nat) by (rewrite !slen_app, La, Lb; reflexivity).
    assert (T : Trend_fromTimeSpan (a ++ "/" ++ b) = Ok (Some (span_group f u))) by (apply span_taf; exists a, b, f, u; auto).
    destruct P as [-> | ->]; cbn [is_part ReportPart_beq orb andb]; rewrite ?seqb_len by (rewrite L9; discriminate);
      unfold or_else; cbn [bind]; rewrite T; reflexivity.
Qed.

(** ** Further words *)
Definition trend_state (part : ReportPart) (ws : list string) (g : TrendGroup) : Prop := Trend part ws (shown_by g).
Lemma trend_first : forall part w md g, TrendGroup_parse w part md = Ok (Some g) -> trend_state part [w] g.
Proof.
  intros part w md g H. apply single_sound in H.
  destruct H; unfold trend_state, shown_by; cbn [tr_t tr_prob tr_from tr_till tr_at Trend_ofType Trend_ofProb from_group until_group at_group span_group];
    constructor; assumption.
Qed.
Lemma change_types : forall w t, change_word w t -> Trend_isBecmgTempoInter t = true /\ t <> Tr_NOSIG /\ t <> Tr_FROM /\ t <> Tr_PROB.
Proof. intros w t C. cbn in C. destruct C as [C|[C|[C|[]]]]; injection C as <- <-; repeat split; discriminate. Qed.
Lemma prob_types : forall w p, prob_word w p -> p <> Pr_NONE.
Proof. intros w p C. cbn in C. destruct C as [C|[C|[]]]; injection C as <- <-; discriminate. Qed.
Lemma until_metar : forall part w u, until_word part w u -> part = RP_METAR.
Proof. intros part w u (s & _ & P & _). exact P. Qed.
Lemma at_metar : forall part w u, at_word part w u -> part = RP_METAR.
Proof. intros part w u (s & _ & P & _). exact P. Qed.

Lemma trend_next : forall part ws w md g g', trend_state part ws g ->
  TrendGroup_append g w part md = Ok (g', APPENDED) -> trend_state part (ws ++ [w])%list g'.
Proof.
  intros part ws w md g g' W H. unfold TrendGroup_append in H.
  destruct (TrType_beq (tr_t g) Tr_NOSIG); [discriminate|].
  apply bind_ok in H. destruct H as ([n|] & Hn & H); [|discriminate]. apply single_sound in Hn.
  destruct g as [t p b f u a]. unfold trend_state, shown_by in *. cbn [tr_t tr_prob tr_from tr_till tr_at] in *.
  remember part as q eqn:Q.
  inversion W; subst t p f u a; clear W; inversion Hn; subst n; clear Hn; cbn [app];
    repeat match goal with C : change_word ?w ?t |- _ => is_var t;
      let D := fresh "D" in pose proof C as D; destruct D as [D|[D|[D|[]]]]; injection D as ? ?; subst end;
    repeat match goal with C : prob_word ?w ?t |- _ => is_var t;
      let D := fresh "D" in pose proof C as D; destruct D as [D|[D|[]]]; injection D as ? ?; subst end;
    try discriminate H; cbn in H; try discriminate H; injection H as <-; cbn [tr_t tr_prob tr_from tr_till tr_at];
    repeat match goal with U : until_word _ _ _ |- _ => generalize (until_metar _ _ _ U); revert U | U : at_word _ _ _ |- _ => generalize (at_metar _ _ _ U); revert U end;
    intros; try (exfalso; congruence); subst;
    first [ eapply Trend_change_from; eassumption | eapply Trend_change_until; eassumption | eapply Trend_change_at; eassumption
          | eapply Trend_change_span; [|eassumption|eassumption]; intuition congruence
          | eapply Trend_change_from_until; eassumption | eapply Trend_change_until_from; eassumption
          | eapply Trend_from_until; eassumption
          | eapply Trend_prob_span; [reflexivity|eassumption..]
          | eapply Trend_prob_change; [reflexivity|eassumption|eassumption|discriminate]
          | eapply Trend_prob_change_from; [reflexivity|eassumption|eassumption|discriminate|eassumption]
          | eapply Trend_prob_change_span; [reflexivity|eassumption|eassumption|discriminate|eassumption]
          | idtac ].
Qed.
Lemma trend_refused : forall g w part md g', TrendGroup_append g w part md = Ok (g', NOT_APPENDED) -> g' = g.
Proof.
  intros g w part md g' H. unfold TrendGroup_append in H. destruct (TrType_beq _ _); [congruence|].
  apply bind_ok in H. destruct H as ([n|] & _ & H); [|congruence].
  repeat match type of H with match ?x with _ => _ end = _ => destruct x; try discriminate H end. congruence.
Qed.
Theorem assembled_sound : forall part ws g, Trend_assembled part ws g -> Trend part ws (shown_by g).
Proof.
  intros part ws g H. induction H as [w md g H|ws w md g g' _ IH H]; [exact (trend_first _ _ _ _ H)|].
  exact (trend_next _ _ _ _ _ _ IH H).
Qed.
Lemma change_single : forall part w t x g, change_word w t -> single part x g -> part <> RP_HEADER -> part <> RP_RMK -> part <> RP_UNKNOWN ->
  single part w (Trend_ofType t).
Proof. intros part w t x g C _ A B D. apply single_change; [destruct part; auto; contradiction|exact C]. Qed.
Lemma span_parts : forall part x f u, span_word part x f u -> part = RP_METAR \/ part = RP_TAF \/ part = RP_HEADER.
Proof. intros part x f u (a & b & _ & [[-> _]|[[-> | ->] _]]); auto. Qed.
Lemma from_parts : forall part x f, from_word part x f -> part = RP_METAR \/ part = RP_TAF.
Proof. intros part x f (a & _ & [[-> _]|[-> _]]); auto. Qed.
Definition any_md : ReportMetadata := md_default.
Lemma assembled_1 : forall part w g, single part w g -> Trend_assembled part [w] g.
Proof. intros part w g H. apply (Trend_begun _ _ any_md), single_complete, H. Qed.
Lemma assembled_more : forall part ws w g n g', Trend_assembled part ws g -> single part w n ->
  (forall md, TrendGroup_parse w part md = Ok (Some n) -> TrendGroup_append g w part md = Ok (g', APPENDED)) ->
  Trend_assembled part (ws ++ [w]) g'.
Proof. intros part ws w g n g' A N H. exact (Trend_continued _ _ _ any_md _ _ A (H any_md (single_complete _ _ _ _ N))). Qed.
Ltac appends := intros md E; unfold TrendGroup_append; cbn [tr_t TrType_beq]; rewrite E; reflexivity.
Theorem assembled_complete : forall part ws v, Trend part ws v -> exists g, Trend_assembled part ws g /\ shown_by g = v.
Proof.
  intros part ws v H.
  assert (C1 : forall w t, part = RP_METAR \/ part = RP_TAF -> change_word w t -> Trend_assembled part [w] (Trend_ofType t)).
  { intros w t P C. apply assembled_1, single_change; assumption. }
  assert (CF : forall w t x f, change_word w t -> from_word part x f -> Trend_assembled part [w; x] (mkTrend t Pr_NONE false (Some f) None None)).
  { intros w t x f C F. apply (assembled_more _ [w] _ (Trend_ofType t) (from_group f)); [apply C1; [exact (from_parts _ _ _ F)|exact C]|constructor; exact F|].
    destruct C as [C|[C|[C|[]]]]; injection C as <- <-; appends. }
  assert (CU : forall w t x f, change_word w t -> until_word part x f -> Trend_assembled part [w; x] (mkTrend t Pr_NONE false None (Some f) None)).
  { intros w t x f C F. apply (assembled_more _ [w] _ (Trend_ofType t) (until_group f)); [apply C1; [left; exact (until_metar _ _ _ F)|exact C]|constructor; exact F|].
    destruct C as [C|[C|[C|[]]]]; injection C as <- <-; appends. }
  assert (PC : forall w p v t, part = RP_TAF -> prob_word w p -> change_word v t -> t <> Tr_BECMG -> Trend_assembled part [w; v] (mkTrend t p false None None None)).
  { intros w p v0 t P W C B. apply (assembled_more _ [w] _ (Trend_ofProb p) (Trend_ofType t)); [apply assembled_1, single_prob; assumption|apply single_change; auto|].
    destruct W as [W|[W|[]]]; injection W as <- <-; (destruct C as [C|[C|[C|[]]]]; injection C as <- <-; [contradiction|appends|appends]). }
  destruct H as [P|w t P C|x f F|x u U|x a A|x f u F|w t x f C F|w t x u C U|w t x a C A|w t x f u P C F|w t x y f u C F U|w t x y f u C U F|x y f u F U
    |w p P W|w p x f u P W F|w p v t P W C B|w p v t x f P W C B F|w p v t x f u P W C B F].
  - exists (Trend_ofType Tr_NOSIG). split; [apply assembled_1; constructor; exact P|reflexivity].
  - exists (Trend_ofType t). split; [apply C1; assumption|reflexivity].
  - exists (from_group f). split; [apply assembled_1; constructor; exact F|reflexivity].
  - exists (until_group u). split; [apply assembled_1; constructor; exact U|reflexivity].
  - exists (at_group a). split; [apply assembled_1; constructor; exact A|reflexivity].
  - exists (span_group f u). split; [apply assembled_1; constructor; exact F|reflexivity].
  - eexists. split; [apply CF; eassumption|reflexivity].
  - eexists. split; [apply CU; eassumption|reflexivity].
  - exists (mkTrend t Pr_NONE false None None (Some a)). split; [|reflexivity].
    apply (assembled_more _ [w] _ (Trend_ofType t) (at_group a)); [apply C1; [left; exact (at_metar _ _ _ A)|exact C]|constructor; exact A|].
    destruct C as [C|[C|[C|[]]]]; injection C as <- <-; appends.
  - exists (mkTrend t Pr_NONE false (Some f) (Some u) None). split; [|reflexivity].
    apply (assembled_more _ [w] _ (Trend_ofType t) (span_group f u));
      [apply C1; [destruct (span_parts _ _ _ _ F) as [X|[X|X]]; [auto|auto|contradiction]|exact C]|constructor; exact F|].
    destruct C as [C|[C|[C|[]]]]; injection C as <- <-; appends.
  - exists (mkTrend t Pr_NONE false (Some f) (Some u) None). split; [|reflexivity].
    refine (assembled_more _ [w; x] _ _ (until_group u) _ (CF _ _ _ _ C F) _ _); [constructor; exact U|].
    destruct C as [C|[C|[C|[]]]]; injection C as <- <-; appends.
  - exists (mkTrend t Pr_NONE false (Some f) (Some u) None). split; [|reflexivity].
    refine (assembled_more _ [w; x] _ _ (from_group f) _ (CU _ _ _ _ C U) _ _); [constructor; exact F|].
    destruct C as [C|[C|[C|[]]]]; injection C as <- <-; appends.
  - exists (mkTrend Tr_TIME_SPAN Pr_NONE false (Some f) (Some u) None). split; [|reflexivity].
    apply (assembled_more _ [x] _ (from_group f) (until_group u)); [apply assembled_1; constructor; exact F|constructor; exact U|]. appends.
  - exists (Trend_ofProb p). split; [apply assembled_1; constructor; assumption|reflexivity].
  - exists (mkTrend Tr_TIME_SPAN p false (Some f) (Some u) None). split; [|reflexivity].
    apply (assembled_more _ [w] _ (Trend_ofProb p) (span_group f u)); [apply assembled_1; constructor; assumption|constructor; exact F|].
    destruct W as [W|[W|[]]]; injection W as <- <-; appends.
  - eexists. split; [apply PC; eassumption|reflexivity].
  - exists (mkTrend t p false (Some f) None None). split; [|reflexivity].
    refine (assembled_more _ [w; v] _ _ (from_group f) _ (PC _ _ _ _ P W C B) _ _); [constructor; exact F|].
    destruct C as [C|[C|[C|[]]]]; injection C as <- <-; appends.
  - exists (mkTrend t p false (Some f) (Some u) None). split; [|reflexivity].
    refine (assembled_more _ [w; v] _ _ (span_group f u) _ (PC _ _ _ _ P W C B) _ _); [constructor; exact F|].
    destruct C as [C|[C|[C|[]]]]; injection C as <- <-; appends.
Qed.
Theorem times_kept : forall part ws w md g g', Trend_assembled part ws g ->
  TrendGroup_append g w part md = Ok (g', APPENDED) ->
  (forall t, tr_from g = Some t -> tr_from g' = Some t) /\ (forall t, tr_till g = Some t -> tr_till g' = Some t)
  /\ (forall t, tr_at g = Some t -> tr_at g' = Some t).
Proof.
  intros part ws w md g g' A H. apply assembled_sound in A. unfold TrendGroup_append in H.
  destruct (TrType_beq (tr_t g) Tr_NOSIG); [discriminate|].
  apply bind_ok in H. destruct H as ([n|] & Hn & H); [|discriminate].
  unfold Trend_combineProbAndTrendTypeGroups, Trend_combineTrendTypeAndTimeGroup, Trend_combineProbAndTimeSpanGroups, Trend_combineIncompleteGroups in H.
  assert (K : tr_t g = Tr_FROM -> tr_till g = None).
  { intros E. destruct g as [t p b f u a]. unfold shown_by in A. cbn [tr_t tr_till tr_prob tr_from tr_at] in *. subst t.
    inversion A; subst; try reflexivity; match goal with C : change_word _ Tr_FROM |- _ => destruct (change_types _ _ C) as (_ & _ & X & _); contradiction end. }
  assert (C : forall x, tr_from (Trend_combineTime g x) = opt_or (tr_from g) (tr_from x) /\ tr_till (Trend_combineTime g x) = opt_or (tr_till g) (tr_till x)
    /\ tr_at (Trend_combineTime g x) = opt_or (tr_at g) (tr_at x)) by (intros x; auto).
  repeat match type of H with context [if ?b then _ else _] => destruct b eqn:? end; try discriminate H; injection H as <-;
    cbn [tr_from tr_till tr_at Trend_setType Trend_combineTime opt_or]; repeat split; intros t E; rewrite ?E; auto.
  all: exfalso; match goal with X : _ || _ = false |- _ => apply orb_false_elim in X; destruct X as [X _]; apply orb_false_elim in X; destruct X as [_ X] end;
    match goal with X : negb (TrType_beq (tr_t _) Tr_FROM) = false |- _ => apply Bool.negb_false_iff, internal_TrType_dec_bl in X; match goal with K : _ -> _ = None, E : _ = Some _ |- _ => rewrite (K X) in E; discriminate E end end.
Qed.

(** ** Groups of a report *)
Lemma built_trend : forall part ws g, Built part ws (GTrend g) -> Trend_assembled part ws g.
Proof.
  intros part ws g B.
  refine (built_kind part (fun ws k => match k with GTrend x => Trend_assembled part ws x | _ => True end) _ _ _ _ ws (GTrend g) B).
  - exact (fun _ => I).
  - intros w md [] P; try exact I. exact (Trend_begun _ _ _ _ P).
  - intros l w md [] [] _ IH A; try exact I; try contradiction. exact (Trend_continued _ _ _ _ _ _ IH A).
  - intros l w part' md [] [] _ IH A; try exact I; try contradiction. cbn [appended_as] in A.
    apply trend_refused in A. subst. exact IH.
Qed.
Theorem result_trend : forall sgn report limit r, parse sgn report limit = Ok r ->
  forall g part raw, In (mkGroupInfo (GTrend g) part raw) (pr_groups r) -> raw <> "" ->
  Trend part (words_of raw) (shown_by g).
Proof.
  intros sgn report limit r E g part raw Hi N. destruct (result_built _ _ _ _ E _ Hi) as [X|B]; [contradiction|].
  apply assembled_sound, built_trend. exact B.
Qed.
Lemma trend_iff : forall part ws v, (exists g, Trend_assembled part ws g /\ shown_by g = v) <-> Trend part ws v.
Proof.
  intros part ws v. split; [intros (g & A & <-); exact (assembled_sound _ _ _ A)|apply assembled_complete].
Qed.
