(** C53: groups of pressure tendency and of sea surface. *)
From Coq Require Import Lia ZifyBool ZifyN ZifyNat.
From Verif Require Import Prim Lib Regex Float Values Weather Groups1 Groups2 Groups3 Groups4 Parser SpecRegex SpecTokens SpecReads SpecText SpecForm
  SpecReach SpecBuilt SpecAssembled SpecAppend SpecDecimal SpecNumeral SpecMiles SpecDirection SpecNearby SpecTexts.
From Verif Require Import Pf_Ok Pf_OkValues Pf_OkGroups2 Pf_Caps Pf_Regex Pf_Total Pf_Steps Pf_Kinds Pf_View Pf_Decimal Pf_Numeral Pf_Form Pf_Shapes Pf_Decode Pf_Layout
  Pf_Values1 Pf_Values3 Pf_Values5 Pf_Values8 Pf_Texts Pf_Assembled Pf_Grown Pf_Waits Pf_RunwayRange Pf_Visibility.
From Verif Require Import SpecReal SpecScale SpecMinMax SpecReadings.
From Verif Require Import Pf_Temperatures.
Local Open Scope string_scope.

(** ** Pressure tendency *)
Definition re_tend : re := Eval vm_compute in rx "[\d/]".
Definition re_diff : re := Eval vm_compute in rx "\d\d\d|///".
Lemma tendency_match : forall s m, regex_match rgx_tendency s = Some m <->
  exists a b, s = "5" ++ a ++ b /\ m = [(2, b); (1, a)]%nat /\ Lang re_tend a /\ Lang re_diff b.
Proof.
  intros s m. split.
  - intros R. apply regex_match_captures in R. unfold rgx_tendency in R. captures R. in_words L X. destruct X as [<-|[]].
    eexists _, _. split; [reflexivity|]. split; [reflexivity|]. auto.
  - intros (a & b & -> & -> & A & B). cap_match.
Qed.
Lemma tend_words : forall x, Lang re_tend x -> In x ["0"; "1"; "2"; "3"; "4"; "5"; "6"; "7"; "8"; "9"; "/"].
Proof. intros x L. in_words L X. cbn in X. intuition (subst; cbn; auto 20). Qed.
Lemma tend_read : forall x, Lang re_tend x -> exists c, sget x 0 = Ok c /\ forall t, PressureTendency_typeFromChar c = Some t <-> In (x, (t, PressureTendency_trend t)) tendencies.
Proof.
  intros x L. apply tend_words in L. cbn [In] in L. repeat (destruct L as [<-|L]; [|]); try contradiction;
    (eexists; split; [reflexivity|]); intros t; cbn; (split; [intros E; injection E as <-; cbn; tauto|intuition congruence]) || (split; [intros E; discriminate E|intuition congruence]).
Qed.
Lemma tend_lang : forall x t tr, In (x, (t, tr)) tendencies -> Lang re_tend x /\ tr = PressureTendency_trend t.
Proof.
  intros x t tr H. cbn [In tendencies] in H. repeat (destruct H as [H|H]; [injection H as <- <- <-; split; [apply closed_lang; reflexivity|reflexivity]|]). contradiction.
Qed.
Lemma difference_lang : forall s p, Difference s p -> Lang re_diff s /\ exists q, Pressure_fromTendencyString s = Ok (Some q).
Proof.
  intros s p [[-> _]|(v & x & N & _)].
  - split; [apply closed_lang; reflexivity|]. eexists. apply tendency_parse. auto.
  - split; [apply L_alt1; apply (numeral_lang _ _ _ _ N); reflexivity|]. eexists. apply tendency_parse. eauto.
Qed.
Lemma tendency_first : forall w part md g, PressureTendencyGroup_parse w part md = Ok (Some g) -> Tendency part [w] (pt_type g) (PressureTendency_trend (pt_type g)) (pt_difference g).
Proof.
  intros w part md g H. unfold PressureTendencyGroup_parse in H.
  destruct (is_part part RP_RMK) eqn:P; [|discriminate H]. cbn [negb] in H. assert (part = RP_RMK) by (destruct part; discriminate P || reflexivity). subst part.
  destruct (seqb w "PRESRR") eqn:E1; [apply seqb_eq in E1; subst; injection H as <-; apply Tendency_rising; reflexivity|].
  destruct (seqb w "PRESFR") eqn:E2; [apply seqb_eq in E2; subst; injection H as <-; apply Tendency_falling; reflexivity|].
  destruct (regex_match rgx_tendency w) as [m|] eqn:R; [|discriminate H]. apply tendency_match in R. destruct R as (a & b & -> & -> & A & B).
  cbn [mstr find fst snd Nat.eqb] in H. destruct (tend_read _ A) as (c & C & T). rewrite C in H. cbn [bind] in H.
  destruct (PressureTendency_typeFromChar c) as [t|] eqn:E; [|discriminate H]. apply bind_some in H. destruct H as (p & D & H). injection H as <-.
  apply Tendency_code; [reflexivity|apply T; reflexivity|exact (tendency_value _ _ D)].
Qed.
Lemma tendency_made : forall part now ws t tr p, Tendency part ws t tr p -> exists q, Assembled part now ws (GPressureTendency (mkPressureTendency t q)).
Proof.
  intros part now ws t tr p [P|P|c t' tr' d p' P C D]; subst part.
  - exists no_pressure. apply (assembled_first RP_RMK now _ (GPressureTendency _)). reflexivity.
  - exists no_pressure. apply (assembled_first RP_RMK now _ (GPressureTendency _)). reflexivity.
  - destruct (difference_lang _ _ D) as (L & q & Q). exists q. apply (assembled_first RP_RMK now _ (GPressureTendency _)). cbn [parsed_as]. unfold PressureTendencyGroup_parse. cbn [is_part negb].
    replace (seqb ("5" ++ c ++ d) "PRESRR") with false by reflexivity. replace (seqb ("5" ++ c ++ d) "PRESFR") with false by reflexivity.
    destruct (tend_lang _ _ _ C) as (Lc & ->). rewrite (proj2 (tendency_match ("5" ++ c ++ d) [(2, d); (1, c)]%nat)) by eauto 10. cbn [mstr find fst snd Nat.eqb].
    destruct (tend_read _ Lc) as (x & E & T). rewrite E. cbn [bind]. rewrite (proj2 (T t') C), Q. reflexivity.
Qed.

Lemma tendency_assembled : forall part now words g, Assembled part now words (GPressureTendency g) -> Tendency part words (pt_type g) (PressureTendency_trend (pt_type g)) (pt_difference g).
Proof.
  intros part now words g H.
  refine (assembled_kind part now (fun words k => match k with GPressureTendency g => Tendency part words (pt_type g) (PressureTendency_trend (pt_type g)) (pt_difference g) | _ => True end) _ _ words (GPressureTendency g) H).
  - intros w md [] _ Q; try exact I. exact (tendency_first _ _ _ _ Q).
  - intros ws' w md [] [] _ IH T A; try exact I; try contradiction. discriminate A.
Qed.
Theorem result_tendency : forall sgn report limit r, parse sgn report limit = Ok r ->
  forall g part raw, In (mkGroupInfo (GPressureTendency g) part raw) (pr_groups r) -> raw <> "" -> Tendency part (words_of raw) (pt_type g) (PressureTendency_trend (pt_type g)) (pt_difference g).
Proof.
  intros sgn report limit r E g part raw Hi N.
  refine (Pf_WeatherWords.built_kind part (fun words k => match k with GPressureTendency g => Tendency part words (pt_type g) (PressureTendency_trend (pt_type g)) (pt_difference g) | _ => True end) _ _ _ _ _ (GPressureTendency g) (Pf_Built.built_from_words _ _ _ _ E _ _ _ Hi N)).
  - exact (fun _ => I).
  - intros w md [] Q; try exact I. exact (tendency_first _ _ _ _ Q).
  - intros ws' w md [] [] _ IH A; try exact I; try contradiction. discriminate A.
  - intros ws' w part' md [] [] _ IH A; try exact I; try contradiction. injection A as <-. exact IH.
Qed.
Theorem tendency_words : forall part now words,
  (forall g, Assembled part now words (GPressureTendency g) -> Tendency part words (pt_type g) (PressureTendency_trend (pt_type g)) (pt_difference g))
  /\ (forall t tr p, Tendency part words t tr p -> exists g, Assembled part now words (GPressureTendency g) /\ pt_type g = t /\ PressureTendency_trend (pt_type g) = tr).
Proof.
  intros part now words. split.
  - intros g. apply tendency_assembled.
  - intros t tr p T. destruct (tendency_made _ now _ _ _ _ T) as (q & M). exists (mkPressureTendency t q). split; [exact M|]. split; [reflexivity|].
    destruct T as [P|P|c t' tr' d p' P C D]; [reflexivity..|]. destruct (tend_lang _ _ _ C) as (_ & ->). reflexivity.
Qed.

(** ** Sea surface *)
Definition re_sea : re := Eval vm_compute in rx "\d\d|//".
Definition re_wave : re := Eval vm_compute in rx "[HS](?:\d\d?\d?|///|/)".
Lemma sea_match : forall s m, regex_match rgx_seasurface s = Some m <->
  exists a b, s = "W" ++ a ++ "/" ++ b /\ m = [(2, b); (1, a)]%nat /\ Lang re_sea a /\ Lang re_wave b.
Proof.
  intros s m. split.
  - intros R. apply regex_match_captures in R. unfold rgx_seasurface in R. captures R. in_words L X. destruct X as [<-|[]]. in_words L1 X. destruct X as [<-|[]].
    eexists _, _. split; [reflexivity|]. split; [reflexivity|]. auto.
  - intros (a & b & -> & -> & A & B). cap_match.
Qed.
Lemma waves_lang : forall s w, Waves s w -> Lang re_wave s /\ exists q, WaveHeight_fromString s = Ok (Some q).
Proof.
  intros s w [[-> _]|[[-> _]|[(st & I & _)|(d & v & x & -> & N & _)]]].
  - split; [apply closed_lang; reflexivity|]. eexists. apply wave_parse. auto.
  - split; [apply closed_lang; reflexivity|]. eexists. apply wave_parse. auto.
  - split; [|destruct (sea_codes _ _ I) as (q & Q & _); eauto].
    cbn [In sea_states] in I. repeat (destruct I as [I|I]; [injection I as <- _; apply closed_lang; reflexivity|]). contradiction.
  - split.
    + assert (F : exists n, In n [1; 2; 3]%nat /\ numeral n d v) by (destruct N as [N|[N|N]]; eexists; (split; [|exact N]); cbn; auto).
      destruct F as (n & I & F). apply numeral_shape in F. apply L_seq; [apply closed_lang; reflexivity|]. apply L_alt1.
      eapply shapes_lang; [vm_compute; reflexivity|]. exists (repeat digit_cls n). split; [|exact F]. destruct I as [<-|[<-|[<-|[]]]]; cbn; auto.
    + destruct N as [N|[N|N]]; eexists; apply wave_parse; right; right; right; eexists d, _, v; (split; [reflexivity|]); (split; [|split; [exact N|reflexivity]]); cbn; auto.
Qed.
Definition Sea_temperature (a : string) (t : Temperature) : Prop :=
  a = "//" /\ t = no_temperature \/ (exists v, numeral 2 a v /\ t = mkTemp (Some (Z.of_N v)) false false).
Lemma sea_temperature : forall a t, Lang re_sea a -> (Temperature_fromString a = Ok (Some t) <-> Sea_temperature a t).
Proof.
  intros a t L. rewrite temperature_parse. unfold Sea_temperature. split; [|intuition]. intros [H|[H|(d & v & -> & _)]]; auto.
  exfalso. pose proof (shapes_lang re_sea _ ("M" ++ d) eq_refl) as K. apply K in L. destruct L as (f & I & F). cbn in I. destruct I as [<-|[<-|[]]]; discriminate F.
Qed.
Lemma sea_temperature_lang : forall a t, Sea_temperature a t -> Lang re_sea a.
Proof. intros a t [[-> _]|(v & N & _)]; [apply closed_lang; reflexivity|]. apply L_alt1. apply (numeral_lang _ _ _ _ N). reflexivity. Qed.
Lemma sea_first : forall w part md g, SeaSurfaceGroup_parse w part md = Ok (Some g) -> Sea part [w] (ss_t g) (ss_wh g).
Proof.
  intros w part md g H. unfold SeaSurfaceGroup_parse in H.
  destruct (is_part part RP_METAR) eqn:P; [|discriminate H]. cbn [negb] in H. assert (part = RP_METAR) by (destruct part; discriminate P || reflexivity). subst part.
  destruct (regex_match rgx_seasurface w) as [m|] eqn:R; [|discriminate H]. apply sea_match in R. destruct R as (a & b & -> & -> & A & B).
  cbn [mstr find fst snd Nat.eqb] in H. apply bind_some in H. destruct H as (t & T & H). apply bind_some in H. destruct H as (h & W & H). injection H as <-.
  apply Sea_word; [reflexivity|exact (proj1 (sea_temperature _ _ A) T)|exact (wave_value _ _ W)].
Qed.
Lemma sea_made : forall part now ws t h, Sea part ws t h -> exists q, Assembled part now ws (GSeaSurface (mkSeaSurface t q)).
Proof.
  intros part now ws t h [a b t' h' P T W]. subst part.
  destruct (waves_lang _ _ W) as (Lb & q & Q). exists q. pose proof (sea_temperature_lang _ _ T) as La.
  apply (assembled_first RP_METAR now _ (GSeaSurface _)). cbn [parsed_as]. unfold SeaSurfaceGroup_parse. cbn [is_part negb].
  rewrite (proj2 (sea_match ("W" ++ a ++ "/" ++ b) [(2, b); (1, a)]%nat)) by eauto 10. cbn [mstr find fst snd Nat.eqb].
  rewrite (proj2 (sea_temperature _ _ La) T). cbn [bind]. rewrite Q. reflexivity.
Qed.

Lemma sea_assembled : forall part now words g, Assembled part now words (GSeaSurface g) -> Sea part words (ss_t g) (ss_wh g).
Proof.
  intros part now words g H.
  refine (assembled_kind part now (fun words k => match k with GSeaSurface g => Sea part words (ss_t g) (ss_wh g) | _ => True end) _ _ words (GSeaSurface g) H).
  - intros w md [] _ Q; try exact I. exact (sea_first _ _ _ _ Q).
  - intros ws' w md [] [] _ IH T A; try exact I; try contradiction. discriminate A.
Qed.
Theorem result_sea : forall sgn report limit r, parse sgn report limit = Ok r ->
  forall g part raw, In (mkGroupInfo (GSeaSurface g) part raw) (pr_groups r) -> raw <> "" -> Sea part (words_of raw) (ss_t g) (ss_wh g).
Proof.
  intros sgn report limit r E g part raw Hi N.
  refine (Pf_WeatherWords.built_kind part (fun words k => match k with GSeaSurface g => Sea part words (ss_t g) (ss_wh g) | _ => True end) _ _ _ _ _ (GSeaSurface g) (Pf_Built.built_from_words _ _ _ _ E _ _ _ Hi N)).
  - exact (fun _ => I).
  - intros w md [] Q; try exact I. exact (sea_first _ _ _ _ Q).
  - intros ws' w md [] [] _ IH A; try exact I; try contradiction. discriminate A.
  - intros ws' w part' md [] [] _ IH A; try exact I; try contradiction. injection A as <-. exact IH.
Qed.
Theorem sea_words : forall part now words,
  (forall g, Assembled part now words (GSeaSurface g) -> Sea part words (ss_t g) (ss_wh g))
  /\ (forall t h, Sea part words t h -> exists g, Assembled part now words (GSeaSurface g) /\ ss_t g = t).
Proof.
  intros part now words. split; [intros g; apply sea_assembled|].
  intros t h T. destruct (sea_made _ now _ _ _ T) as (q & M). exists (mkSeaSurface t q). auto.
Qed.
