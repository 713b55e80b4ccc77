(** C54: icing and turbulence layers, and miscellaneous groups. *)
From Coq Require Import Lia ZifyBool ZifyN ZifyNat.
From Verif Require Import Prim Lib Regex Float Values Weather Groups1 Groups2 Groups3 Groups4 Parser SpecRegex SpecTokens SpecReads SpecText SpecForm
  SpecReach SpecBuilt SpecAssembled SpecAppend SpecDecimal SpecNumeral SpecMiles SpecDirection SpecNearby SpecTexts.
From Verif Require Import Pf_Ok Pf_OkValues Pf_OkGroups2 Pf_Caps Pf_Regex Pf_Total Pf_Steps Pf_Kinds Pf_View Pf_Decimal Pf_Numeral Pf_Form Pf_Shapes Pf_Decode Pf_Layout
  Pf_Values1 Pf_Values3 Pf_Values5 Pf_Values8 Pf_Texts Pf_Assembled Pf_Grown Pf_Waits Pf_RunwayRange Pf_Visibility.
From Verif Require Import SpecReal SpecScale SpecMinMax SpecReadings SpecAmounts.
From Verif Require Import Pf_WindWords Pf_Cloud Pf_Phenomena Pf_Values7 Pf_Temperatures Pf_Whole Pf_Amounts.
Local Open Scope string_scope.

Lemma table_lookup : forall A (l : list (string * A)), NoDup (map fst l) -> forall s v, In (s, v) l -> lookup s l = Some v.
Proof.
  intros A l. induction l as [|[k x] l IH]; intros D s v I; [destruct I|]. inversion D; subst. cbn [lookup]. destruct I as [I|I].
  - injection I as -> ->. rewrite seqb_refl. reflexivity.
  - destruct (seqb s k) eqn:E; [|exact (IH H2 _ _ I)]. apply seqb_eq in E. subst. destruct H1. apply in_map_iff. exists (k, v). auto.
Qed.
Ltac nodup := repeat constructor; cbn [In map fst]; intuition discriminate.

(** ** Layers *)
Definition re_layer_code : re := Eval vm_compute in rx "[65][\dX]".
Lemma layer_match : forall s m, regex_match rgx_layer s = Some m <->
  exists c d, s = c ++ d /\ m = [(2, d); (1, c)]%nat /\ Lang re_layer_code c /\ Lang re_amount4 d.
Proof.
  intros s m. split.
  - intros R. apply regex_match_captures in R. unfold rgx_layer in R. captures R. eexists _, _. split; [reflexivity|]. split; [reflexivity|]. auto.
  - intros (c & d & -> & -> & C & D). eapply captured_as; [vm_compute; reflexivity|unfold rgx_layer; cap|reflexivity].
Qed.
Lemma layer_type : forall c t, LayerForecast_typeFromStr c = Some t <-> In (c, t) layer_codes.
Proof.
  intros c t. split; [intros H; exact (lookup_codes _ _ _ _ H)|]. apply (table_lookup _ layer_codes). nodup.
Qed.
Lemma layer_lang : forall c t, In (c, t) layer_codes -> Lang re_layer_code c.
Proof. intros c t I. cbn [In layer_codes] in I. repeat (destruct I as [I|I]; [injection I as <- _; apply closed_lang; reflexivity|]). destruct I. Qed.
Lemma layer_first : forall w part md g, LayerForecastGroup_parse w part md = Ok (Some g) -> Layers part [w] (lf_type g) (lf_base g) (lf_top g).
Proof.
  intros w part md g H. unfold LayerForecastGroup_parse in H. destruct (is_part part RP_TAF) eqn:P; [|discriminate H]. assert (part = RP_TAF) by (destruct part; discriminate P || reflexivity). subst part. cbn [negb] in H.
  destruct (regex_match rgx_layer w) as [m|] eqn:R; [|discriminate H]. apply layer_match in R. destruct R as (c & d & -> & -> & C & D). cbn [mstr find fst snd Nat.eqb] in H.
  destruct (LayerForecast_typeFromStr c) as [t|] eqn:T; [|discriminate H]. apply layer_type in T.
  destruct (Distance_fromLayerString d) as [o|] eqn:E; [|discriminate H]. cbn [bind] in H. cbv zeta in H. destruct (seqb d "////") eqn:Z.
  - rewrite andb_false_r in H. injection H as <-. apply seqb_eq in Z. apply Layers_word; [reflexivity|exact T|left; auto].
  - destruct o as [[b u]|]; [|discriminate H]. injection H as <-. apply Layers_word; [reflexivity|exact T|right; apply layer_text; exact E].
Qed.
Lemma layers_made : forall part now ws t b u, Layers part ws t b u -> Assembled part now ws (GLayerForecast (mkLayerForecast t b u)).
Proof.
  intros part now ws t b u [c t' s b' u' P C W]. subst part. apply (assembled_first RP_TAF now _ (GLayerForecast _)). cbn [parsed_as]. unfold LayerForecastGroup_parse. cbn [is_part negb].
  assert (L : Lang re_amount4 s).
  { destruct W as [[-> _]|(h & x & v & w & -> & A & B & _)]; [apply closed_lang; reflexivity|]. eapply shapes_lang; [vm_compute; reflexivity|]. exists (repeat digit_cls 3 ++ repeat digit_cls 1)%list.
    split; [cbn; auto|]. apply shape_app; [exact (numeral_shape _ _ _ A)|exact (numeral_shape _ _ _ B)]. }
  rewrite (proj2 (layer_match (c ++ s) [(2, s); (1, c)]%nat)) by eauto 10 using layer_lang. cbn [mstr find fst snd Nat.eqb]. rewrite (proj2 (layer_type c t') C).
  destruct W as [(-> & -> & ->)|W].
  - pose proof (ok_Distance_fromLayerString "////") as O. destruct (Distance_fromLayerString "////") as [o|]; [|destruct O]. cbn [bind]. cbv zeta. change (seqb "////" "////") with true. rewrite andb_false_r. reflexivity.
  - assert (Z : seqb s "////" = false).
    { destruct (seqb s "////") eqn:Z; [|reflexivity]. apply seqb_eq in Z. subst. destruct W as (h & x & v & w & E & [A D] & _). destruct h; [discriminate A|]. injection E as <- _. discriminate D. }
    apply layer_text in W. rewrite W. cbn [bind]. cbv zeta. rewrite Z. reflexivity.
Qed.
Theorem layer_words : forall part now words t b u, Assembled part now words (GLayerForecast (mkLayerForecast t b u)) <-> Layers part words t b u.
Proof.
  intros part now words t b u. split; [|apply layers_made]. intros A.
  refine (assembled_kind part now (fun ws k => match k with GLayerForecast g => Layers part ws (lf_type g) (lf_base g) (lf_top g) | _ => True end) _ _ words (GLayerForecast _) A).
  - intros w md [] _ P; try exact I. exact (layer_first _ _ _ _ P).
  - intros ws' w md [] [] _ IH T B; try exact I; try contradiction. discriminate B.
Qed.
Theorem result_layer : forall sgn report limit r, parse sgn report limit = Ok r ->
  forall g part raw, In (mkGroupInfo (GLayerForecast g) part raw) (pr_groups r) -> raw <> "" -> Layers part (words_of raw) (lf_type g) (lf_base g) (lf_top g).
Proof.
  intros sgn report limit r E g part raw Hi N.
  refine (Pf_WeatherWords.built_kind part (fun words k => match k with GLayerForecast g => Layers part words (lf_type g) (lf_base g) (lf_top g) | _ => True end) _ _ _ _ _ (GLayerForecast g) (Pf_Built.built_from_words _ _ _ _ E _ _ _ Hi N)).
  - exact (fun _ => I).
  - intros w md [] Q; try exact I. exact (layer_first _ _ _ _ Q).
  - intros ws' w md [] [] _ IH A; try exact I; try contradiction. discriminate A.
  - intros ws' w part' md [] [] _ IH A; try exact I; try contradiction. injection A as <-. exact IH.
Qed.

(** ** Other data *)
Lemma colour_code : forall w t, Misc_parseColourCode w = Some t <-> In (w, t) colours.
Proof. intros w t. split; [intros H; exact (lookup_codes _ _ _ _ H)|]. apply (table_lookup _ colours). nodup. Qed.
Lemma issuer_match : forall s m, regex_match rgx_issuer s = Some m <-> exists l d v, s = "F" ++ l ++ d /\ m = [(2, d); (1, l)]%nat /\ (l = "N" \/ l = "S") /\ numeral 5 d v.
Proof.
  intros s m. split.
  - intros R. apply regex_match_captures in R. unfold rgx_issuer in R. captures R. in_words L X. destruct X as [<-|[]].
    in_words L0 X. destruct (digits_n _ 5 _ L1) as (v & N & _); [reflexivity..|lia|]. eexists _, _, v. split; [reflexivity|]. split; [reflexivity|]. intuition.
  - intros (l & d & v & -> & -> & C & D). assert (A : Lang (rx "[NS]") l) by (destruct C; subst; apply closed_lang; reflexivity).
    assert (B : Lang (rx "\d\d\d\d\d") d) by (apply (numeral_lang _ _ _ _ D); reflexivity).
    eapply captured_as; [vm_compute; reflexivity|unfold rgx_issuer; cap|reflexivity].
Qed.
Lemma sunshine_match : forall s m, regex_match rgx_sunshine s = Some m <-> exists d v, s = "98" ++ d /\ m = [(1, d)]%nat /\ numeral 3 d v.
Proof.
  intros s m. split.
  - intros R. apply regex_match_captures in R. unfold rgx_sunshine in R. captures R. in_words L X. destruct X as [<-|[]]. in_words L0 X. destruct X as [<-|[]].
    destruct (digits_n _ 3 _ L1) as (v & N & _); [reflexivity..|lia|]. eexists _, v. split; [reflexivity|]. split; [reflexivity|]. exact N.
  - intros (d & v & -> & -> & D). assert (B : Lang (rx "\d\d\d") d) by (apply (numeral_lang _ _ _ _ D); reflexivity). change ("98" ++ d) with ("9" ++ "8" ++ d).
    eapply captured_as; [vm_compute; reflexivity|unfold rgx_sunshine; cap|reflexivity].
Qed.
Lemma correction_match : forall s m, regex_match rgx_correction s = Some m <-> exists n c, s = "CC" ++ String c "" /\ m = [(1, String c "")]%nat /\ String.get n alphabet = Some c.
Proof.
  intros s m. split.
  - intros R. apply regex_match_captures in R. unfold rgx_correction in R. captures R. in_words L X. destruct X as [<-|[]]. in_words L0 X. destruct X as [<-|[]].
    match type of L1 with Lang _ ?p => assert (Z : exists n c, String.get n alphabet = Some c /\ p = String c "") end; [|destruct Z as (n & c & Z & ->); eexists n, c; split; [reflexivity|]; split; [reflexivity|]; exact Z].
    in_words L1 X. clear L L0. repeat (destruct X as [<-|X]; [|]); try contradiction;
      match goal with |- exists n c, _ /\ String ?a "" = _ => let k := eval vm_compute in (match index 0 (String a "") alphabet with Some k => k | None => 0%nat end) in exists k, a; split; reflexivity end.
  - intros (n & c & -> & -> & D). assert (B : Lang (rx "[A-Z]") (String c "")).
    { do 26 (destruct n as [|n]; [injection D as <-; apply closed_lang; reflexivity|]). destruct n; discriminate D. }
    change ("CC" ++ String c "") with ("C" ++ "C" ++ String c ""). eapply captured_as; [vm_compute; reflexivity|unfold rgx_correction; cap|reflexivity].
Qed.
Lemma correction_value : forall n c, String.get n alphabet = Some c -> is_exactly (f32_of_Z (Z.of_N (code c) - 65 + 1)%Z) (parts (N.of_nat n + 1) 1).
Proof. intros n c D. do 26 (destruct n as [|n]; [injection D as <-; apply exactb_exact; vm_compute; reflexivity|]). destruct n; discriminate D. Qed.
Lemma whole5 : forall n d v, numeral n d v -> (n <= 7)%nat -> is_exactly (f32_of_N v) (parts v 1).
Proof.
  intros n d v N B. apply of_N_exact. apply numeral_bound in N. assert (10 ^ N.of_nat n <= 10 ^ 7)%N by (apply N.pow_le_mono_r; lia). change (10 ^ 7)%N with 10000000%N in H. lia.
Qed.

Local Open Scope N_scope.
(** What has been read so far *)
Inductive MState (part : ReportPart) : list string -> MiscGroup -> Prop :=
| MSt_told : forall ws t d, Misc part ws t d -> MState part ws (mkMisc t d MsI_NONE)
| MSt_density : part = RP_RMK -> MState part ["DENSITY"] (mkMisc Ms_DENSITY_ALTITUDE None MsI_DENSITY)
| MSt_alt : part = RP_RMK -> MState part ["DENSITY"; "ALT"] (mkMisc Ms_DENSITY_ALTITUDE None MsI_DENSITY_ALT)
| MSt_gr : part = RP_RMK -> MState part ["GR"] (mkMisc Ms_HAILSTONE_SIZE None MsI_GR)
| MSt_int : forall d n, part = RP_RMK -> numeral 1 d n -> n <> 0 -> MState part ["GR"; d] (mkMisc Ms_HAILSTONE_SIZE (Some (f32_of_N n)) MsI_GR_INT).
Lemma misc_told : forall part ws g, MState part ws g -> ms_inc g = MsI_NONE -> Misc part ws (ms_type g) (ms_data g).
Proof. intros part ws g [ws' t d T|P|P|P|d n P] E; [exact T|discriminate E..]. Qed.
Lemma misc_first : forall w part md g, MiscGroup_parse w part md = Ok (Some g) -> MState part [w] g.
Proof.
  intros w part md g H. unfold MiscGroup_parse in H. cbv zeta in H. apply or_else_some in H. destruct H as [H|[_ H]].
  { destruct (is_part part RP_METAR || is_part part RP_RMK) eqn:P; [|discriminate H]. destruct (Misc_parseColourCode w) as [t|] eqn:T; [|discriminate H]. injection H as <-.
    apply MSt_told, Misc_colour; [destruct part; discriminate P || auto|apply colour_code; exact T]. }
  apply or_else_some in H. destruct H as [H|[_ H]].
  { destruct (is_part part RP_TAF) eqn:P; [|discriminate H]. assert (part = RP_TAF) by (destruct part; discriminate P || reflexivity). destruct (regex_match rgx_issuer w) as [m|] eqn:R; [|discriminate H].
    apply issuer_match in R. destruct R as (l & d & v & -> & -> & C & D). cbn [mstr find fst snd Nat.eqb] in H. rewrite (stoi_numeral _ _ _ D) in H by lia. injection H as <-.
    apply MSt_told. eapply Misc_issuer; [assumption| |exact D|apply (whole5 _ _ _ D); lia]. destruct C as [-> | ->]; cbn; auto. }
  apply or_else_some in H. destruct H as [H|[_ H]].
  { destruct (is_part part RP_METAR) eqn:P; [|discriminate H]. assert (part = RP_METAR) by (destruct part; discriminate P || reflexivity). destruct (regex_match rgx_correction w) as [m|] eqn:R; [|discriminate H].
    apply correction_match in R. destruct R as (n & c & -> & -> & D). cbn [mstr find fst snd Nat.eqb] in H. change (sget (String c "") 0) with (Ok c) in H. injection H as <-.
    apply MSt_told. eapply Misc_correction; [assumption|exact D|exact (correction_value _ _ D)]. }
  destruct (is_part part RP_RMK) eqn:P; [|discriminate H]. assert (part = RP_RMK) by (destruct part; discriminate P || reflexivity).
  destruct (seqb w "GR") eqn:E1; [apply seqb_eq in E1; subst; injection H as <-; apply MSt_gr; reflexivity|].
  destruct (seqb w "DENSITY") eqn:E2; [apply seqb_eq in E2; subst; injection H as <-; apply MSt_density; reflexivity|].
  destruct (regex_match rgx_sunshine w) as [m|] eqn:R.
  - apply sunshine_match in R. destruct R as (d & v & -> & -> & D). cbn [mstr find fst snd Nat.eqb] in H. rewrite (stoi_numeral _ _ _ D) in H by lia. injection H as <-.
    apply MSt_told. eapply Misc_sunshine; [assumption|exact D|apply (whole5 _ _ _ D); lia].
  - destruct (seqb w "FROIN") eqn:E3; [|discriminate H]. apply seqb_eq in E3. subst. injection H as <-. apply MSt_told, Misc_frost. reflexivity.
Qed.
Lemma quarter_exact : forall t d i w g n, Misc_appendHailstoneFraction (mkMisc t d i) w = Some g -> d = None /\ n = 0 \/ d = Some (f32_of_N n) /\ n < 10 ->
  exists q x, In (w, q) quarters /\ g = mkMisc t (Some x) MsI_NONE /\ is_exactly x (parts (4 * n + q) 4).
Proof.
  intros t d i w g n H D. unfold Misc_appendHailstoneFraction in H. cbv zeta in H. cbn [ms_data ms_type] in H.
  assert (V : opt_default d (f32_of_Z 0) = f32_of_N n) by (destruct D as [[-> ->]|[-> _]]; reflexivity). rewrite V in H.
  assert (B : n < 10) by lia. clear D V d i.
  assert (F : forall z q, (forallb (fun n => exactb (to32 (f64_add (to64 (f32_of_N n)) z)) (parts (4 * n + q) 4)) [0;1;2;3;4;5;6;7;8;9]%N) = true -> is_exactly (to32 (f64_add (to64 (f32_of_N n)) z)) (parts (4 * n + q) 4)).
  { intros z q A. apply exactb_exact. rewrite forallb_forall in A. apply A. cbn [In]. lia. }
  destruct (seqb w "1/4") eqn:E1; [apply seqb_eq in E1; subst; injection H as <-; exists 1, (to32 (f64_add (to64 (f32_of_N n)) (dlit 25 100))); split; [cbn; auto|]; split; [reflexivity|apply F; vm_compute; reflexivity]|].
  destruct (seqb w "1/2" || seqb w "2/4") eqn:E2; [apply orb_true_iff in E2; injection H as <-; exists 2, (to32 (f64_add (to64 (f32_of_N n)) (dlit 5 10))); split; [destruct E2 as [E2|E2]; apply seqb_eq in E2; subst; cbn; auto|]; split; [reflexivity|apply F; vm_compute; reflexivity]|].
  destruct (seqb w "3/4") eqn:E3; [apply seqb_eq in E3; subst; injection H as <-; exists 3, (to32 (f64_add (to64 (f32_of_N n)) (dlit 75 100))); split; [cbn; auto|]; split; [reflexivity|apply F; vm_compute; reflexivity]|].
  discriminate H.
Qed.
Lemma quarter_made : forall t d i w q, In (w, q) quarters -> exists x, Misc_appendHailstoneFraction (mkMisc t d i) w = Some (mkMisc t (Some x) MsI_NONE).
Proof. intros t d i w q I. cbn [In quarters] in I. destruct I as [I|[I|[I|[I|[]]]]]; injection I as <- _; eexists; reflexivity. Qed.
Lemma density_value : forall g w o, Misc_appendDensityAltitude g w = Ok (Some o) ->
  exists d v x, w = d ++ "FT" /\ d <> "" /\ decimal d = Some v /\ o = mkMisc (ms_type g) (Some x) MsI_NONE /\ (v <= 16777216 -> is_exactly x (parts v 1)).
Proof.
  intros g w o H. unfold Misc_appendDensityAltitude in H. destruct (Nat.ltb (slen w) 3) eqn:E; [discriminate H|].
  destruct (substr_from w (slen w - 2)) as [u|] eqn:U; [|discriminate H]. cbn [bind] in H. apply substr_app in U. destruct (seqb u "FT") eqn:F; [|discriminate H]. apply seqb_eq in F. subst u. cbn [negb] in H.
  rewrite strToUint_spec in H. destruct (Nat.eqb (slen w - 2) 0 || Nat.ltb (slen w) (0 + (slen w - 2))); [discriminate H|]. set (d := substring 0 (slen w - 2) w) in *.
  destruct (decimal d) as [v|] eqn:D; [|discriminate H]. cbn [bind] in H. injection H as <-. exists d, v, (f32_of_N (v mod 2 ^ 32)). split; [exact U|]. split.
  - intros Z. rewrite Z in U. rewrite U in E. discriminate E.
  - split; [exact D|]. split; [reflexivity|]. intros B. rewrite N.mod_small by (change (2 ^ 32) with 4294967296; lia). exact (of_N_exact _ B).
Qed.
Lemma density_made : forall g d v, d <> "" -> decimal d = Some v -> exists x, Misc_appendDensityAltitude g (d ++ "FT") = Ok (Some (mkMisc (ms_type g) (Some x) MsI_NONE)).
Proof.
  intros g d v Z D. unfold Misc_appendDensityAltitude. assert (L : slen (d ++ "FT") = (slen d + 2)%nat) by (rewrite slen_app; reflexivity).
  assert (0 < slen d)%nat by (destruct d; [contradiction|cbn; lia]). destruct (Nat.ltb (slen (d ++ "FT")) 3) eqn:E; [apply Nat.ltb_lt in E; lia|].
  replace (slen (d ++ "FT") - 2)%nat with (slen d) by lia. unfold substr_from, substr. destruct (Nat.leb (slen d) (slen (d ++ "FT"))) eqn:F; [|apply Nat.leb_gt in F; lia]. cbn [bind].
  replace (substring (slen d) (slen (d ++ "FT")) (d ++ "FT")) with "FT" by (rewrite substring_from, sdrop_app; reflexivity). cbn [seqb negb]. change (seqb "FT" "FT") with true. cbn [negb].
  rewrite strToUint_spec. replace (substring 0 (slen d) (d ++ "FT")) with d by (symmetry; apply (substring_mid "" d "FT")). rewrite D.
  destruct (Nat.eqb (slen d) 0) eqn:G; [apply Nat.eqb_eq in G; lia|]. destruct (Nat.ltb (slen (d ++ "FT")) (0 + slen d)) eqn:K; [apply Nat.ltb_lt in K; lia|]. cbn [orb bind]. eexists. reflexivity.
Qed.
Lemma misc_next : forall part ws g w md g', MState part ws g -> MiscGroup_append g w part md = Ok (g', APPENDED) -> MState part (ws ++ [w])%list g'.
Proof.
  intros part ws g w md g' H A. destruct H as [ws t d T|P|P|P|d n P D Z]; unfold MiscGroup_append in A; cbn [ms_inc ms_type ms_data] in A; cbv zeta in A.
  - discriminate A.
  - destruct (seqb w "ALT") eqn:E; [|discriminate A]. apply seqb_eq in E. subst w. injection A as <-. apply MSt_alt. exact P.
  - destruct (seqb w "MISG") eqn:E; [apply seqb_eq in E; subst w; injection A as <-; apply MSt_told, Misc_no_density; exact P|].
    destruct (Misc_appendDensityAltitude _ w) as [[o|]|] eqn:O; try discriminate A. cbn [bind] in A. injection A as <-. apply density_value in O. destruct O as (d & v & x & -> & N & D & -> & B).
    cbn [ms_type app]. apply MSt_told. eapply Misc_density; eassumption.
  - assert (Fr : match Misc_appendHailstoneFraction (mkMisc Ms_HAILSTONE_SIZE None MsI_GR) w with Some g' => Ok (g', APPENDED) | None => Ok (mkMisc Ms_HAILSTONE_SIZE None MsI_GR, GROUP_INVALIDATED) end = Ok (g', APPENDED) -> MState part ["GR"; w] g').
    { intros B. destruct (Misc_appendHailstoneFraction _ w) as [o|] eqn:O; [|discriminate B]. injection B as <-. destruct (quarter_exact _ _ _ _ _ 0 O) as (q & x & Q & -> & X); [auto|].
      apply MSt_told. exact (Misc_hail_quarters part w q x P Q X). }
    destruct (Nat.eqb (slen w) 1) eqn:L; [|exact (Fr A)]. apply Nat.eqb_eq in L. destruct w as [|c [|]]; try discriminate L. change (sget (String c "") 0) with (Ok c) in A. cbn [bind] in A.
    destruct ((49 <=? code c) && (code c <=? 57)) eqn:B; [|exact (Fr A)]. injection A as <-. cbn [app]. apply andb_true_iff in B. destruct B as [B1 B2]. apply N.leb_le in B1, B2.
    apply MSt_int; [exact P| |lia]. split; [reflexivity|]. cbn [decimal]. rewrite digit_of_spec. replace (is_digit c) with true by (unfold is_digit; symmetry; apply andb_true_iff; split; apply N.leb_le; lia). f_equal. change (slen "") with 0%nat. cbn. lia.
  - destruct (Misc_appendHailstoneFraction _ w) as [o|] eqn:O; [|discriminate A]. injection A as <-. assert (n < 10) by (apply numeral_bound in D; exact D). destruct (quarter_exact _ _ _ _ _ n O) as (q & x & Q & -> & X); [auto|].
    cbn [app]. apply MSt_told. exact (Misc_hail part d n w q x P D Z Q X).
Qed.
Lemma misc_refused : forall part ws g w part' md g', MState part ws g -> MiscGroup_append g w part' md = Ok (g', NOT_APPENDED) -> MState part ws g'.
Proof.
  intros part ws g w part' md g' H A. unfold MiscGroup_append in A. cbv zeta in A. destruct (ms_inc g).
  - injection A as <-. exact H.
  - destruct (seqb w "ALT"); discriminate A.
  - destruct (seqb w "MISG"); [discriminate A|]. destruct (Misc_appendDensityAltitude g w) as [[o|]|]; discriminate A.
  - destruct (Misc_appendHailstoneFraction g w); destruct (Nat.eqb (slen w) 1); try discriminate A; destruct (sget w 0) as [c|]; try discriminate A; cbn [bind] in A; destruct (_ && _); discriminate A.
  - destruct (Misc_appendHailstoneFraction g w); discriminate A.
Qed.
Lemma no_colour : forall w, (forall t, ~ In (w, t) colours) -> Misc_parseColourCode w = None.
Proof. intros w N. destruct (Misc_parseColourCode w) as [t|] eqn:E; [|reflexivity]. apply colour_code in E. destruct (N t E). Qed.
Lemma miscs_made : forall part now ws t d, Misc part ws t d -> exists d', Assembled part now ws (GMisc (mkMisc t d' MsI_NONE)) /\ (d = None <-> d' = None).
Proof.
  intros part now ws t d [w t' P C|l t' s v x P C D X|n c x P C X|s v x P D X|P|P|s v x P N D X|f q x P Q X|s n f q x P D Z Q X].
  - exists None. split; [|tauto]. apply (assembled_first part now _ (GMisc _)). cbn [parsed_as]. unfold MiscGroup_parse. cbv zeta. apply colour_code in C. rewrite C. destruct P as [-> | ->]; reflexivity.
  - subst part. eexists (Some _). split; [|split; discriminate]. apply (assembled_first RP_TAF now _ (GMisc _)). cbn [parsed_as]. unfold MiscGroup_parse. cbv zeta. cbn [is_part orb or_else bind].
    assert (C' : l = "N" \/ l = "S") by (destruct C as [C|[C|[]]]; injection C as <- _; auto).
    rewrite (proj2 (issuer_match ("F" ++ l ++ s) [(2, s); (1, l)]%nat)) by eauto 10. cbn [mstr find fst snd Nat.eqb]. rewrite (stoi_numeral _ _ _ D) by lia. cbn [bind].
    destruct C as [C|[C|[]]]; injection C as <- <-; reflexivity.
  - subst part. eexists (Some _). split; [|split; discriminate]. apply (assembled_first RP_METAR now _ (GMisc _)). cbn [parsed_as]. unfold MiscGroup_parse. cbv zeta. cbn [is_part orb].
    rewrite no_colour by (intros u I; cbn [In colours] in I; repeat (destruct I as [I|I]; [discriminate I|]); exact I). cbn [or_else bind].
    rewrite (proj2 (correction_match ("CC" ++ String c "") [(1, String c "")]%nat)) by eauto 10. cbn [mstr find fst snd Nat.eqb]. change (sget (String c "") 0) with (Ok c). reflexivity.
  - subst part. eexists (Some _). split; [|split; discriminate]. apply (assembled_first RP_RMK now _ (GMisc _)). cbn [parsed_as]. unfold MiscGroup_parse. cbv zeta. cbn [is_part orb].
    rewrite no_colour by (intros u I; cbn [In colours] in I; repeat (destruct I as [I|I]; [discriminate I|]); exact I). cbn [or_else bind].
    replace (seqb ("98" ++ s) "GR") with false by reflexivity. replace (seqb ("98" ++ s) "DENSITY") with false by reflexivity.
    rewrite (proj2 (sunshine_match ("98" ++ s) [(1, s)]%nat)) by eauto 10. cbn [mstr find fst snd Nat.eqb]. rewrite (stoi_numeral _ _ _ D) by lia. reflexivity.
  - subst part. exists None. split; [|tauto]. apply (assembled_first RP_RMK now _ (GMisc _)). reflexivity.
  - subst part. exists None. split; [|tauto].
    apply (assembled_more RP_RMK now ["DENSITY"; "ALT"] "MISG" (GMisc (mkMisc Ms_DENSITY_ALTITUDE None MsI_DENSITY_ALT)) (GMisc _)); [|reflexivity].
    apply (assembled_more RP_RMK now ["DENSITY"] "ALT" (GMisc (mkMisc Ms_DENSITY_ALTITUDE None MsI_DENSITY)) (GMisc _)); [|reflexivity].
    apply (assembled_first RP_RMK now _ (GMisc _)). reflexivity.
  - subst part. destruct (density_made (mkMisc Ms_DENSITY_ALTITUDE None MsI_DENSITY_ALT) s v N D) as (y & Y). exists (Some y). split; [|split; discriminate].
    apply (assembled_more RP_RMK now ["DENSITY"; "ALT"] (s ++ "FT") (GMisc (mkMisc Ms_DENSITY_ALTITUDE None MsI_DENSITY_ALT)) (GMisc _)).
    + apply (assembled_more RP_RMK now ["DENSITY"] "ALT" (GMisc (mkMisc Ms_DENSITY_ALTITUDE None MsI_DENSITY)) (GMisc _)); [|reflexivity].
      apply (assembled_first RP_RMK now _ (GMisc _)). reflexivity.
    + cbn [appended_as]. unfold MiscGroup_append. cbn [ms_inc]. cbv zeta. destruct (seqb (s ++ "FT") "MISG") eqn:E; [|rewrite Y; reflexivity].
      apply seqb_eq in E. exfalso. destruct s as [|a s]; [discriminate E|]. injection E as -> _. discriminate D.
  - subst part. destruct (quarter_made Ms_HAILSTONE_SIZE None MsI_GR f q Q) as (y & Y). exists (Some y). split; [|split; discriminate].
    apply (assembled_more RP_RMK now ["GR"] f (GMisc (mkMisc Ms_HAILSTONE_SIZE None MsI_GR)) (GMisc _)).
    + apply (assembled_first RP_RMK now _ (GMisc _)). reflexivity.
    + cbn [appended_as]. unfold MiscGroup_append. cbn [ms_inc]. cbv zeta. rewrite Y. replace (Nat.eqb (slen f) 1) with false; [reflexivity|].
      cbn [In quarters] in Q. destruct Q as [Q|[Q|[Q|[Q|[]]]]]; injection Q as <- _; reflexivity.
  - subst part. destruct (quarter_made Ms_HAILSTONE_SIZE (Some (f32_of_N n)) MsI_GR_INT f q Q) as (y & Y). exists (Some y). split; [|split; discriminate].
    apply (assembled_more RP_RMK now ["GR"; s] f (GMisc (mkMisc Ms_HAILSTONE_SIZE (Some (f32_of_N n)) MsI_GR_INT)) (GMisc _)).
    + apply (assembled_more RP_RMK now ["GR"] s (GMisc (mkMisc Ms_HAILSTONE_SIZE None MsI_GR)) (GMisc _)).
      * apply (assembled_first RP_RMK now _ (GMisc _)). reflexivity.
      * cbn [appended_as]. unfold MiscGroup_append. cbn [ms_inc]. cbv zeta. destruct D as [L D]. destruct s as [|c [|]]; try discriminate L. change (Nat.eqb (slen (String c "")) 1) with true. cbv iota.
        change (sget (String c "") 0) with (Ok c). cbn [bind]. cbn [decimal] in D. rewrite digit_of_spec in D. destruct (is_digit c) eqn:I; [|discriminate D].
        injection D as D. change (slen "") with 0%nat in D. cbn in D. unfold is_digit in I. apply andb_true_iff in I. destruct I as [I1 I2]. apply N.leb_le in I1, I2.
        replace ((49 <=? code c) && (code c <=? 57)) with true by (symmetry; apply andb_true_iff; split; apply N.leb_le; lia). cbn [ms_type]. replace (code c - 48) with n by lia. reflexivity.
    + cbn [appended_as]. unfold MiscGroup_append. cbn [ms_inc]. cbv zeta. rewrite Y. reflexivity.
Qed.
Lemma misc_assembled : forall part now ws g, Assembled part now ws (GMisc g) -> MState part ws g.
Proof.
  intros part now ws g H.
  refine (assembled_kind part now (fun ws k => match k with GMisc x => MState part ws x | _ => True end) _ _ ws (GMisc g) H).
  - intros w md [] _ P; try exact I. exact (misc_first _ _ _ _ P).
  - intros ws' w md [] [] _ IH T A; try exact I; try contradiction. exact (misc_next _ _ _ _ _ _ IH A).
Qed.
Lemma misc_built : forall part ws g, Built part ws (GMisc g) -> MState part ws g.
Proof.
  intros part ws g H.
  refine (Pf_WeatherWords.built_kind part (fun ws k => match k with GMisc x => MState part ws x | _ => True end) _ _ _ _ ws (GMisc g) H).
  - exact (fun _ => I).
  - intros w md [] P; try exact I. exact (misc_first _ _ _ _ P).
  - intros ws' w md [] [] _ IH A; try exact I; try contradiction. exact (misc_next _ _ _ _ _ _ IH A).
  - intros ws' w part' md [] [] _ IH A; try exact I; try contradiction. exact (misc_refused _ _ _ _ _ _ _ IH A).
Qed.
Lemma misc_settled : forall part ws g, MState part ws g -> SpecAssembled.settled part (GMisc g) -> ms_inc g = MsI_NONE.
Proof.
  intros part ws g H T. destruct H; [reflexivity|exfalso..]; refine (T "" (md_at None) (GMisc _) _); apply appended_iff; reflexivity.
Qed.
Lemma settled_misc : forall part g, ms_inc g = MsI_NONE -> SpecAssembled.settled part (GMisc g).
Proof.
  intros part g C w md g' A. apply appended_inv in A. destruct g'; try contradiction. cbn [appended_as] in A. unfold MiscGroup_append in A. rewrite C in A. discriminate A.
Qed.
Theorem misc_words : forall part now words,
  (forall g, Assembled part now words (GMisc g) -> SpecAssembled.settled part (GMisc g) -> Misc part words (ms_type g) (ms_data g))
  /\ (forall t d, Misc part words t d -> exists g, Assembled part now words (GMisc g) /\ SpecAssembled.settled part (GMisc g) /\ ms_type g = t).
Proof.
  intros part now words. split.
  - intros g A T. apply misc_assembled in A. exact (misc_told _ _ _ A (misc_settled _ _ _ A T)).
  - intros t d T. destruct (miscs_made _ now _ _ _ T) as (d' & M & _). exists (mkMisc t d' MsI_NONE). split; [exact M|]. split; [apply settled_misc; reflexivity|reflexivity].
Qed.
Theorem result_misc : forall sgn report limit r, parse sgn report limit = Ok r ->
  forall g part raw, In (mkGroupInfo (GMisc g) part raw) (pr_groups r) -> raw <> "" -> Misc part (words_of raw) (ms_type g) (ms_data g).
Proof.
  intros sgn report limit r E g part raw Hi N.
  pose proof (misc_built _ _ _ (Pf_Built.built_from_words _ _ _ _ E _ _ _ Hi N)) as B. apply (misc_told _ _ _ B).
  destruct (waiting (GMisc g)) eqn:W; [destruct (result_waits _ _ _ _ E _ _ _ Hi N W)|].
  cbn in W. destruct B; discriminate W || reflexivity.
Qed.
Theorem amounts_example : exists r s p q g h l i,
  parse true "METAR YXXX 280551Z 24010KT 9999 RF00.5/012.0 BLU RMK 60009 SNINCR 2/10 GR 1 3/4 DENSITY ALT 6500FT=" 100 = Ok r
  /\ parse true "TAF UUWW 280500Z 2806/2906 24010KT 9999 620304 FS80008=" 100 = Ok s
  /\ In (mkGroupInfo (GPrecipitation p) RP_RMK "60009") (pr_groups r)
  /\ In (mkGroupInfo (GPrecipitation q) RP_RMK "SNINCR 2/10") (pr_groups r)
  /\ In (mkGroupInfo (GMisc g) RP_RMK "GR 1 3/4") (pr_groups r)
  /\ In (mkGroupInfo (GMisc h) RP_RMK "DENSITY ALT 6500FT") (pr_groups r)
  /\ In (mkGroupInfo (GLayerForecast l) RP_TAF "620304") (pr_groups s)
  /\ In (mkGroupInfo (GMisc i) RP_TAF "FS80008") (pr_groups s)
  /\ pc_type p = Pc_FROZEN_PRECIP_6_HOURLY /\ precipValue (pc_amount q) = Some (f32_of_N 10) /\ precipValue (pc_change q) = Some (f32_of_N 2)
  /\ ms_data h = Some (f32_of_N 6500) /\ dist (lf_top l) = Some 7000 /\ ms_type i = Ms_ISSUER_ID_FS.
Proof.
  eexists. eexists.
  exists (mkPrecipGroup Pc_FROZEN_PRECIP_6_HOURLY (mkPrecip (Some (SpecFloat.S754_finite false 12079595 (-27))) INCHES) (mkPrecip None MM) false).
  exists (mkPrecipGroup Pc_SNOW_INCREASING_RAPIDLY (mkPrecip (Some (SpecFloat.S754_finite false 10485760 (-20))) INCHES) (mkPrecip (Some (SpecFloat.S754_finite false 8388608 (-22))) INCHES) false).
  exists (mkMisc Ms_HAILSTONE_SIZE (Some (SpecFloat.S754_finite false 14680064 (-23))) MsI_NONE).
  exists (mkMisc Ms_DENSITY_ALTITUDE (Some (SpecFloat.S754_finite false 13312000 (-11))) MsI_NONE).
  exists (mkLayerForecast Lf_ICING_LIGHT_RIME_IN_CLOUD (mkDist DM_NONE (Some 3000) FEET) (mkDist DM_NONE (Some 7000) FEET)).
  exists (mkMisc Ms_ISSUER_ID_FS (Some (SpecFloat.S754_finite false 10241024 (-7))) MsI_NONE).
  split; [vm_compute; reflexivity|]. split; [vm_compute; reflexivity|]. do 6 (split; [cbn; repeat (try (left; reflexivity); right)|]). repeat split.
Qed.
