(** C54: precipitation groups. *)
From Coq Require Import Lia ZifyBool ZifyN ZifyNat.
From Verif Require Import Prim Lib Regex Float Values Weather Groups1 Groups2 Groups3 Groups4 Parser SpecRegex SpecTokens SpecReads SpecText SpecForm
  SpecReach SpecBuilt SpecAssembled SpecAppend SpecDecimal SpecNumeral SpecMiles SpecDirection SpecNearby SpecTexts.
From Verif Require Import Pf_Ok Pf_OkValues Pf_OkGroups2 Pf_Caps Pf_Regex Pf_Total Pf_Steps Pf_Kinds Pf_View Pf_Decimal Pf_Numeral Pf_Form Pf_Shapes Pf_Decode Pf_Layout
  Pf_Values1 Pf_Values3 Pf_Values5 Pf_Values8 Pf_Texts Pf_Assembled Pf_Grown Pf_Waits Pf_RunwayRange Pf_Visibility.
From Verif Require Import SpecReal SpecScale SpecMinMax SpecReadings SpecAmounts.
From Verif Require Import Pf_Temperatures Pf_Whole.
Local Open Scope string_scope.

Definition re_rf2 : re := Eval vm_compute in rx "\d\d\.\d|//\./".
Definition re_rf3 : re := Eval vm_compute in rx "\d\d\d\.\d|///\./".
Lemma rain_match : forall s m, regex_match rgx_rainfall s = Some m <->
  exists a b, s = "RF" ++ a ++ "/" ++ b /\ m = [(2, b); (1, a)]%nat /\ Lang re_rf2 a /\ Lang re_rf3 b.
Proof.
  intros s m. split.
  - intros R. apply regex_match_captures in R. unfold rgx_rainfall in R. captures R. in_words L X. destruct X as [<-|[]]. in_words L0 X. destruct X as [<-|[]]. in_words L2 X. destruct X as [<-|[]].
    eexists _, _. split; [reflexivity|]. split; [reflexivity|]. auto.
  - intros (a & b & -> & -> & A & B). change ("RF" ++ a ++ "/" ++ b) with ("R" ++ "F" ++ a ++ "/" ++ b). cap_match.
Qed.
Lemma rf2_length : forall s, Lang re_rf2 s -> slen s = 4%nat.
Proof. intros s L. apply (shapes_lang re_rf2 _ s eq_refl) in L. destruct L as (f & I & F). apply fits_length in F. cbn in I. destruct I as [<-|[<-|[]]]; exact F. Qed.
Lemma rf3_length : forall s, Lang re_rf3 s -> slen s = 5%nat.
Proof. intros s L. apply (shapes_lang re_rf3 _ s eq_refl) in L. destruct L as (f & I & F). apply shape_length in F. cbn in I. destruct I as [<-|[<-|[]]]; exact F. Qed.
Lemma numeral_length : forall n s v, numeral n s v -> slen s = n.
Proof. intros n s v [L _]. exact L. Qed.
Lemma rain2_value : forall s p, Lang re_rf2 s -> Precipitation_fromRainfallString s = Ok (Some p) -> Rain 2 "//" s p.
Proof.
  intros s p L H. apply rf2_length in L. apply rainfall_value in H. destruct H as [[E ->]|(i & f & a & b & x & -> & N & F & P & W)].
  - left. destruct E as [-> | ->]; [discriminate L|]. auto.
  - right. exists i, f, a, b, x. rewrite !slen_app, (numeral_length _ _ _ F) in L. destruct N as [N|N]; [auto 10|]. rewrite (numeral_length _ _ _ N) in L. discriminate L.
Qed.
Lemma rain3_value : forall s p, Lang re_rf3 s -> Precipitation_fromRainfallString s = Ok (Some p) -> Rain 3 "///" s p.
Proof.
  intros s p L H. apply rf3_length in L. apply rainfall_value in H. destruct H as [[E ->]|(i & f & a & b & x & -> & N & F & P & W)].
  - left. destruct E as [-> | ->]; [|discriminate L]. auto.
  - right. exists i, f, a, b, x. rewrite !slen_app, (numeral_length _ _ _ F) in L. destruct N as [N|N]; [|auto 10]. rewrite (numeral_length _ _ _ N) in L. discriminate L.
Qed.
Lemma rain2_read : forall s p, Rain 2 "//" s p -> Lang re_rf2 s /\ exists q, Precipitation_fromRainfallString s = Ok (Some q).
Proof.
  intros s p [[-> _]|(i & f & a & b & x & -> & N & F & _)].
  - split; [apply closed_lang; reflexivity|]. eexists. apply rainfall_parse. auto.
  - split; [|eexists; apply rainfall_parse; right; exists i, f, a, b; auto].
    eapply shapes_lang; [vm_compute; reflexivity|]. exists (repeat digit_cls 2 ++ [[(".", ".")]]%char ++ repeat digit_cls 1)%list. split; [cbn; auto|].
    apply shape_app; [exact (numeral_shape _ _ _ N)|]. apply shape_app; [reflexivity|exact (numeral_shape _ _ _ F)].
Qed.
Lemma rain3_read : forall s p, Rain 3 "///" s p -> Lang re_rf3 s /\ exists q, Precipitation_fromRainfallString s = Ok (Some q).
Proof.
  intros s p [[-> _]|(i & f & a & b & x & -> & N & F & _)].
  - split; [apply closed_lang; reflexivity|]. eexists. apply rainfall_parse. auto.
  - split; [|eexists; apply rainfall_parse; right; exists i, f, a, b; auto].
    eapply shapes_lang; [vm_compute; reflexivity|]. exists (repeat digit_cls 3 ++ [[(".", ".")]]%char ++ repeat digit_cls 1)%list. split; [cbn; auto|].
    apply shape_app; [exact (numeral_shape _ _ _ N)|]. apply shape_app; [reflexivity|exact (numeral_shape _ _ _ F)].
Qed.

(** ** Amounts in remarks *)
Definition re_code4 : re := Eval vm_compute in rx "[P67]".
Definition re_amount4 : re := Eval vm_compute in rx "\d\d\d\d|////".
Definition re_code3 : re := Eval vm_compute in rx "4/|93[13]|I[136]|PP".
Definition re_amount3 : re := Eval vm_compute in rx "\d\d\d|///".
Lemma precip_match : forall s m, regex_match rgx_precip s = Some m <->
  (exists c d, s = c ++ d /\ m = [(2, d); (1, c)]%nat /\ Lang re_code4 c /\ Lang re_amount4 d)
  \/ (exists c d, s = c ++ d /\ m = [(4, d); (3, c)]%nat /\ Lang re_code3 c /\ Lang re_amount3 d).
Proof.
  intros s m. split.
  - intros R. apply regex_match_captures in R. unfold rgx_precip in R. captures R; [left|right]; eexists _, _; (split; [reflexivity|]); (split; [reflexivity|]); auto.
  - intros [(c & d & -> & -> & C & D)|(c & d & -> & -> & C & D)]; (eapply captured_as; [vm_compute; reflexivity|unfold rgx_precip; first [apply K_alt1; solve [cap] | apply K_alt2; cap]|reflexivity]).
Qed.
Lemma frozen_type : forall now, Precip_typeFromString "6" now = frozen now.
Proof.
  intros [t|]; [|reflexivity]. unfold Precip_typeFromString, frozen. cbn [seqb String.eqb]. unfold MetafTime_is6hourlyReportTime, MetafTime_is3hourlyReportTime.
  assert (E : forall l k (x : N), (forall y, In y l <-> In y k) -> existsb (N.eqb x) l = if in_dec N.eq_dec x k then true else false).
  { intros l k x S. destruct (in_dec N.eq_dec x k) as [I|I].
    - apply existsb_exists. exists x. split; [apply S; exact I|apply N.eqb_refl].
    - destruct (existsb (N.eqb x) l) eqn:Z; [|reflexivity]. apply existsb_exists in Z. destruct Z as (y & Y & Q). apply N.eqb_eq in Q. subst y. apply S in Y. contradiction. }
  replace (seqb "6" "P") with false by reflexivity. replace (seqb "6" "4/") with false by reflexivity. replace (seqb "6" "6") with true by reflexivity.
  rewrite (E _ [0; 6; 12; 18; 23; 5; 11; 17]%N) by (intros y; cbn; tauto). rewrite (E _ [3; 9; 15; 21; 2; 8; 14; 20]%N) by (intros y; cbn; tauto).
  destruct (in_dec _ _ _); [reflexivity|]. destruct (in_dec _ _ _); reflexivity.
Qed.
Lemma code4_type : forall c now t, Lang re_code4 c -> (Precip_typeFromString c now = t <-> In (c, t) (four_digit_codes now)).
Proof.
  intros c now t L. in_words L X. unfold four_digit_codes. cbn [In]. destruct X as [<-|[<-|[<-|[]]]].
  - rewrite frozen_type. split; [intros <-; first [left; reflexivity | right; left; reflexivity | right; right; left; reflexivity]|]. intros [H|[H|[H|[]]]]; congruence.
  - change (Precip_typeFromString "7" now) with Pc_FROZEN_PRECIP_24_HOURLY. split; [intros <-; first [left; reflexivity | right; left; reflexivity | right; right; left; reflexivity]|]. intros [H|[H|[H|[]]]]; congruence.
  - change (Precip_typeFromString "P" now) with Pc_TOTAL_PRECIPITATION_HOURLY. split; [intros <-; first [left; reflexivity | right; left; reflexivity | right; right; left; reflexivity]|]. intros [H|[H|[H|[]]]]; congruence.
Qed.
Lemma code4_lang : forall c now t, In (c, t) (four_digit_codes now) -> Lang re_code4 c.
Proof. intros c now t [H|[H|[H|[]]]]; injection H as <- _; apply closed_lang; reflexivity. Qed.
Lemma code3_type : forall c now t, Lang re_code3 c -> (Precip_typeFromString c now = t <-> In (c, t) three_digit_codes).
Proof.
  intros c now t L. in_words L X. cbn [In] in X. repeat (destruct X as [<-|X]; [|]); try contradiction; cbn [In three_digit_codes];
    match goal with |- Precip_typeFromString ?s now = t <-> _ => let v := eval vm_compute in (Precip_typeFromString s None) in change (Precip_typeFromString s now) with v end;
    intuition congruence.
Qed.
Lemma code3_lang : forall c t, In (c, t) three_digit_codes -> Lang re_code3 c.
Proof. intros c t H. cbn [In three_digit_codes] in H. repeat (destruct H as [H|H]; [injection H as <- _; apply closed_lang; reflexivity|]). contradiction. Qed.
Lemma amount4_length : forall s, Lang re_amount4 s -> slen s = 4%nat.
Proof. intros s L. apply (shapes_lang re_amount4 _ s eq_refl) in L. destruct L as (f & I & F). apply shape_length in F. cbn in I. destruct I as [<-|[<-|[]]]; exact F. Qed.
Lemma amount3_length : forall s, Lang re_amount3 s -> slen s = 3%nat.
Proof. intros s L. apply (shapes_lang re_amount3 _ s eq_refl) in L. destruct L as (f & I & F). apply shape_length in F. cbn in I. destruct I as [<-|[<-|[]]]; exact F. Qed.
Lemma amount4_value : forall t s p, Lang re_amount4 s -> Precipitation_fromRemarkString s (Precip_factorFromType t) (Precip_unitFromType t) true = Ok (Some p) -> Amount 4 "////" t s p.
Proof.
  intros t s p L H. apply amount4_length in L. apply amount_value in H. destruct H as [[E ->]|(v & x & N & P & W)].
  - left. destruct E as [-> | ->]; [discriminate L|auto].
  - right. destruct N as [N|N]; [rewrite (numeral_length _ _ _ N) in L; discriminate L|]. eauto.
Qed.
Lemma amount3_value : forall t s p, Lang re_amount3 s -> Precipitation_fromRemarkString s (Precip_factorFromType t) (Precip_unitFromType t) true = Ok (Some p) -> Amount 3 "///" t s p.
Proof.
  intros t s p L H. apply amount3_length in L. apply amount_value in H. destruct H as [[E ->]|(v & x & N & P & W)].
  - left. destruct E as [-> | ->]; [auto|discriminate L].
  - right. destruct N as [N|N]; [eauto|rewrite (numeral_length _ _ _ N) in L; discriminate L].
Qed.
Lemma amount4_read : forall t s p, Amount 4 "////" t s p -> Lang re_amount4 s /\ exists q, Precipitation_fromRemarkString s (Precip_factorFromType t) (Precip_unitFromType t) true = Ok (Some q).
Proof.
  intros t s p [[-> _]|(v & x & N & _)].
  - split; [apply closed_lang; reflexivity|]. eexists. apply remark_precip_parse. auto.
  - split; [apply L_alt1; apply (numeral_lang _ _ _ _ N); reflexivity|]. eexists. apply remark_precip_parse. right. exists v. auto.
Qed.
Lemma amount3_read : forall t s p, Amount 3 "///" t s p -> Lang re_amount3 s /\ exists q, Precipitation_fromRemarkString s (Precip_factorFromType t) (Precip_unitFromType t) true = Ok (Some q).
Proof.
  intros t s p [[-> _]|(v & x & N & _)].
  - split; [apply closed_lang; reflexivity|]. eexists. apply remark_precip_parse. auto.
  - split; [apply L_alt1; apply (numeral_lang _ _ _ _ N); reflexivity|]. eexists. apply remark_precip_parse. right. exists v. auto.
Qed.

(** ** The group *)
Inductive AState (part : ReportPart) (now : option MetafTime) : list string -> PrecipitationGroup -> Prop :=
| ASt_told : forall ws t a c, Precipitations part now ws t a c -> AState part now ws (mkPrecipGroup t a c false)
| ASt_icing : part = RP_RMK -> AState part now ["ICG"] (Precip_of Pc_ICG_MISG true)
| ASt_missing : part = RP_RMK -> AState part now ["PCPN"] (Precip_of Pc_PCPN_MISG true).
Lemma told : forall part now ws g, AState part now ws g -> pc_isIncomplete g = false -> Precipitations part now ws (pc_type g) (pc_amount g) (pc_change g).
Proof. intros part now ws g [ws' t a c T|P|P] E; [exact T|discriminate E..]. Qed.
Lemma precip_first : forall w part md g, PrecipitationGroup_parse w part md = Ok (Some g) -> AState part (md_reportTime md) [w] g.
Proof.
  intros w part md g H. unfold PrecipitationGroup_parse in H. destruct (is_part part RP_METAR) eqn:P.
  { assert (part = RP_METAR) by (destruct part; discriminate P || reflexivity). subst part.
    destruct (regex_match rgx_rainfall w) as [m|] eqn:R; [|discriminate H]. apply rain_match in R. destruct R as (a & b & -> & -> & A & B).
    cbn [mstr find fst snd Nat.eqb] in H. apply bind_some in H. destruct H as (p & Hp & H). apply bind_some in H. destruct H as (q & Hq & H). injection H as <-.
    apply ASt_told, Precipitations_rain; [reflexivity|exact (rain2_value _ _ A Hp)|exact (rain3_value _ _ B Hq)]. }
  destruct (is_part part RP_RMK) eqn:Q; [|discriminate H]. assert (part = RP_RMK) by (destruct part; discriminate Q || reflexivity). subst part. cbn [negb] in H.
  destruct (seqb w "PNO") eqn:E1; [apply seqb_eq in E1; subst; injection H as <-; apply ASt_told, Precipitations_no_sensor; reflexivity|].
  destruct (seqb w "FZRANO") eqn:E2; [apply seqb_eq in E2; subst; injection H as <-; apply ASt_told, Precipitations_no_freezing; reflexivity|].
  destruct (seqb w "ICG") eqn:E3; [apply seqb_eq in E3; subst; injection H as <-; apply ASt_icing; reflexivity|].
  destruct (seqb w "PCPN") eqn:E4; [apply seqb_eq in E4; subst; injection H as <-; apply ASt_missing; reflexivity|].
  destruct (seqb w "SNINCR") eqn:E5; [apply seqb_eq in E5; subst; injection H as <-; apply ASt_told, Precipitations_snow; reflexivity|].
  destruct (regex_match rgx_precip w) as [m|] eqn:R; [|discriminate H]. apply precip_match in R. cbv zeta in H.
  destruct R as [(c & d & -> & -> & C & D)|(c & d & -> & -> & C & D)]; cbn [mstr find fst snd Nat.eqb append] in H; rewrite ?app_empty_r in H;
    apply bind_some in H; destruct H as (p & Hp & H); injection H as <-.
  - apply ASt_told, Precipitations_four; [reflexivity|apply code4_type; [exact C|reflexivity]|exact (amount4_value _ _ _ D Hp)].
  - apply ASt_told, Precipitations_three; [reflexivity|apply (code3_type _ (md_reportTime md)); [exact C|reflexivity]|exact (amount3_value _ _ _ D Hp)].
Qed.
Lemma snow_only : forall part now ws t a c, Precipitations part now ws t a c -> t = Pc_SNOW_INCREASING_RAPIDLY ->
  Precipitation_isReported a || Precipitation_isReported c = false -> part = RP_RMK /\ ws = ["SNINCR"] /\ a = no_amount /\ c = no_amount.
Proof.
  intros part now ws t a c H E R. destruct H as [x y r u P A B|x t' d p P C A|x t' d p P C A| | | | | |x y n m u v P A B U V]; try discriminate E; auto.
  - subst t'. cbn [In four_digit_codes] in C. destruct C as [C|[C|[C|[]]]]; try (inversion C; fail). unfold frozen in C.
    destruct now as [t|]; [destruct (in_dec _ _ _); [|destruct (in_dec _ _ _)]|]; inversion C.
  - subst t'. cbn [In three_digit_codes] in C. intuition congruence.
  - discriminate R.
Qed.
Lemma precip_next : forall part now ws g w md g', AState part now ws g -> PrecipitationGroup_append g w part md = Ok (g', APPENDED) -> AState part now (ws ++ [w])%list g'.
Proof.
  intros part now ws g w md g' H A. destruct H as [ws t a c T|P|P]; unfold PrecipitationGroup_append in A; cbn [pc_type pc_amount pc_change pc_isIncomplete] in A.
  - destruct (PcType_beq t Pc_PCPN_MISG || PcType_beq t Pc_ICG_MISG); [discriminate A|]. destruct (PcType_beq t Pc_SNOW_INCREASING_RAPIDLY) eqn:E; [|discriminate A].
    apply internal_PcType_dec_bl in E. cbn [negb] in A. destruct (_ || _) eqn:R in A; [discriminate A|].
    destruct (snow_only _ _ _ _ _ _ T E R) as (P & -> & -> & ->). destruct (Precipitation_fromSnincrString w) as [[[x y]|]|] eqn:Z; try discriminate A.
    cbn [bind] in A. injection A as <-. apply snincr_value in Z. destruct Z as (u & v & n & m & p & q & -> & U & V & Q & X & Y). injection Q as -> ->. cbn [fst snd app]. subst t.
    apply ASt_told. eapply Precipitations_snow_inches; eassumption.
  - cbn in A. destruct (seqb w "MISG") eqn:E; [|discriminate A]. apply seqb_eq in E. subst w. injection A as <-. apply ASt_told. constructor. exact P.
  - cbn in A. destruct (seqb w "MISG") eqn:E; [|discriminate A]. apply seqb_eq in E. subst w. injection A as <-. apply ASt_told. constructor. exact P.
Qed.
Lemma precip_refused : forall part now ws g w part' md g', AState part now ws g -> PrecipitationGroup_append g w part' md = Ok (g', NOT_APPENDED) -> AState part now ws g'.
Proof.
  intros part now ws g w part' md g' H A. unfold PrecipitationGroup_append in A.
  assert (E : g' = g); [|subst; exact H].
  repeat match type of A with context [if ?b then _ else _] => destruct b end; try (injection A as <-; reflexivity); try discriminate A.
  destruct (Precipitation_fromSnincrString w) as [[p|]|]; cbn [bind] in A; try discriminate A. injection A as <-. reflexivity.
Qed.
Lemma amounts_made : forall part now ws t a c, Precipitations part now ws t a c -> exists p q, Assembled part now ws (GPrecipitation (mkPrecipGroup t p q false)).
Proof.
  intros part now ws t a c [x y r u P A B|x t' d p P C A|x t' d p P C A|P|P|P|P|P|x y n m u v P A B U V]; subst part.
  - destruct (rain2_read _ _ A) as (La & p & Hp). destruct (rain3_read _ _ B) as (Lb & q & Hq). exists q, p.
    apply (assembled_first RP_METAR now _ (GPrecipitation _)). cbn [parsed_as]. unfold PrecipitationGroup_parse. cbn [is_part].
    rewrite (proj2 (rain_match ("RF" ++ x ++ "/" ++ y) [(2, y); (1, x)]%nat)) by eauto 10. cbn [mstr find fst snd Nat.eqb]. rewrite Hp. cbn [bind]. rewrite Hq. reflexivity.
  - destruct (amount4_read _ _ _ A) as (L & q & Q). exists q, no_amount. pose proof (code4_lang _ _ _ C) as Lc. 
    apply (assembled_first RP_RMK now _ (GPrecipitation _)). cbn [parsed_as]. unfold PrecipitationGroup_parse. cbn [is_part negb].
    assert (N : forall s, slen s <> 5%nat -> seqb (x ++ d) s = false).
    { intros s Z. destruct (seqb (x ++ d) s) eqn:E; [|reflexivity]. apply seqb_eq in E. destruct Z. rewrite <- E, slen_app, (amount4_length _ L).
      apply (shapes_lang re_code4 _ x eq_refl) in Lc. destruct Lc as (f & I & F). apply shape_length in F. cbn in I. destruct I as [<-|[]]. rewrite F. reflexivity. }
    rewrite !N by discriminate. rewrite (proj2 (precip_match (x ++ d) [(2, d); (1, x)]%nat)) by eauto 10. cbv zeta. cbn [mstr find fst snd Nat.eqb]. rewrite !app_empty_r.
    cbn [md_reportTime md_at]. rewrite (proj2 (code4_type x now t' Lc) C), Q. reflexivity.
  - destruct (amount3_read _ _ _ A) as (L & q & Q). exists q, no_amount. pose proof (code3_lang _ _ C) as Lc. 
    apply (assembled_first RP_RMK now _ (GPrecipitation _)). cbn [parsed_as]. unfold PrecipitationGroup_parse. cbn [is_part negb].
    assert (N : seqb (x ++ d) "PNO" = false /\ seqb (x ++ d) "FZRANO" = false /\ seqb (x ++ d) "ICG" = false /\ seqb (x ++ d) "PCPN" = false /\ seqb (x ++ d) "SNINCR" = false).
    { cbn [In three_digit_codes] in C. repeat (destruct C as [C|C]; [injection C as <- _; repeat split; reflexivity|]). contradiction. }
    destruct N as (-> & -> & -> & -> & ->). rewrite (proj2 (precip_match (x ++ d) [(4, d); (3, x)]%nat)) by eauto 10. cbv zeta. cbn [mstr find fst snd Nat.eqb append].
    cbn [md_reportTime md_at]. rewrite (proj2 (code3_type x now t' Lc) C), Q. reflexivity.
  - exists no_amount, no_amount. apply (assembled_first RP_RMK now _ (GPrecipitation _)). reflexivity.
  - exists no_amount, no_amount. apply (assembled_first RP_RMK now _ (GPrecipitation _)). reflexivity.
  - exists no_amount, no_amount. apply (assembled_more RP_RMK now ["ICG"] "MISG" (GPrecipitation (Precip_of Pc_ICG_MISG true)) (GPrecipitation _)); [apply (assembled_first RP_RMK now _ (GPrecipitation _)); reflexivity|reflexivity..].
  - exists no_amount, no_amount. apply (assembled_more RP_RMK now ["PCPN"] "MISG" (GPrecipitation (Precip_of Pc_PCPN_MISG true)) (GPrecipitation _)); [apply (assembled_first RP_RMK now _ (GPrecipitation _)); reflexivity|reflexivity..].
  - exists no_amount, no_amount. apply (assembled_first RP_RMK now _ (GPrecipitation _)). reflexivity.
  - assert (Z : exists p q, Precipitation_fromSnincrString (x ++ "/" ++ y) = Ok (Some (p, q))) by (eexists _, _; apply snincr_parse; exists x, y, n, m; auto).
    destruct Z as (p & q & Z). exists q, p.
    apply (assembled_more RP_RMK now ["SNINCR"] (x ++ "/" ++ y) (GPrecipitation (Precip_of Pc_SNOW_INCREASING_RAPIDLY false)) (GPrecipitation _)); [apply (assembled_first RP_RMK now _ (GPrecipitation _)); reflexivity|].
    cbn [appended_as]. unfold PrecipitationGroup_append. cbn [pc_type pc_amount pc_change pc_isIncomplete PcType_beq orb negb Precip_of]. change (Precipitation_isReported Precipitation_default) with false. cbn [orb]. rewrite Z. reflexivity.
Qed.
Lemma precip_assembled : forall part now ws g, Assembled part now ws (GPrecipitation g) -> AState part now ws g.
Proof.
  intros part now ws g H.
  refine (assembled_kind part now (fun ws k => match k with GPrecipitation x => AState part now ws x | _ => True end) _ _ ws (GPrecipitation g) H).
  - intros w md [] T P; try exact I. rewrite <- T. exact (precip_first _ _ _ _ P).
  - intros ws' w md [] [] _ IH T A; try exact I; try contradiction. exact (precip_next _ _ _ _ _ _ _ IH A).
Qed.
Lemma precip_grown : forall part now ws g, Grown part now ws (GPrecipitation g) -> AState part now ws g.
Proof.
  intros part now ws g H.
  refine (grown_kind part now (fun ws k => match k with GPrecipitation x => AState part now ws x | _ => True end) _ _ _ _ ws (GPrecipitation g) H).
  - exact (fun _ => I).
  - intros w md [] T P; try exact I. rewrite <- T. exact (precip_first _ _ _ _ P).
  - intros ws' w md [] [] _ IH T A; try exact I; try contradiction. exact (precip_next _ _ _ _ _ _ _ IH A).
  - intros ws' w part' md [] [] _ IH A; try exact I; try contradiction. exact (precip_refused _ _ _ _ _ _ _ _ IH A).
Qed.
Lemma settled_complete : forall part now ws g, AState part now ws g -> SpecAssembled.settled part (GPrecipitation g) -> pc_isIncomplete g = false.
Proof.
  intros part now ws g H T. destruct H; [reflexivity|exfalso..]; refine (T "" (md_at None) (GPrecipitation _) _); apply appended_iff; reflexivity.
Qed.
Lemma complete_settled : forall part g, pc_isIncomplete g = false -> SpecAssembled.settled part (GPrecipitation g).
Proof.
  intros part g C w md g' A. apply appended_inv in A. destruct g'; try contradiction. cbn [appended_as] in A. unfold PrecipitationGroup_append in A. rewrite C in A. cbn [negb] in A.
  repeat match type of A with context [if ?b then _ else _] => destruct b end; try discriminate A.
  destruct (Precipitation_fromSnincrString w) as [[p|]|]; discriminate A.
Qed.
Theorem precipitation_words : forall part now words,
  (forall g, Assembled part now words (GPrecipitation g) -> SpecAssembled.settled part (GPrecipitation g) -> Precipitations part now words (pc_type g) (pc_amount g) (pc_change g))
  /\ (forall t a c, Precipitations part now words t a c -> exists g, Assembled part now words (GPrecipitation g) /\ SpecAssembled.settled part (GPrecipitation g) /\ pc_type g = t).
Proof.
  intros part now words. split.
  - intros g A T. apply precip_assembled in A. exact (told _ _ _ _ A (settled_complete _ _ _ _ A T)).
  - intros t a c T. destruct (amounts_made _ _ _ _ _ _ T) as (p & q & M). exists (mkPrecipGroup t p q false). split; [exact M|]. split; [apply complete_settled; reflexivity|reflexivity].
Qed.
Theorem result_precipitation : forall sgn report limit r, parse sgn report limit = Ok r ->
  forall g part raw, In (mkGroupInfo (GPrecipitation g) part raw) (pr_groups r) -> raw <> "" ->
  Precipitations part (md_reportTime (pr_metadata r)) (words_of raw) (pc_type g) (pc_amount g) (pc_change g).
Proof.
  intros sgn report limit r E g part raw Hi N.
  assert (P : part <> RP_HEADER).
  { intros ->. pose proof (Pf_Built.built_from_words _ _ _ _ E _ _ _ Hi N) as B.
    refine (Pf_WeatherWords.built_kind RP_HEADER (fun _ k => match k with GPrecipitation x => False | _ => True end) _ _ _ _ _ _ B).
    - exact (fun _ => I).
    - intros w md [] X; try exact I. discriminate X.
    - intros ws w md [] [] _ IH A; try exact I; try contradiction.
    - intros ws w part' md [] [] _ IH A; try exact I; try contradiction. }
  pose proof (precip_grown _ _ _ _ (result_grown _ _ _ _ E _ _ _ Hi N P)) as B. apply (told _ _ _ _ B).
  destruct (waiting (GPrecipitation g)) eqn:W; [exact (proj1 (result_waits _ _ _ _ E _ _ _ Hi N W))|].
  cbn in W. destruct (pc_isIncomplete g); [discriminate W|reflexivity].
Qed.
