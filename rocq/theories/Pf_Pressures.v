(** C53: pressure groups. *)
From Coq Require Import Lia ZifyBool ZifyN ZifyNat.
From Verif Require Import Prim Lib Regex Float Values Weather Groups1 Groups2 Groups3 Groups4 Parser SpecRegex SpecTokens SpecReads SpecText SpecForm
  SpecReach SpecBuilt SpecAssembled SpecAppend SpecDecimal SpecNumeral SpecMiles SpecDirection SpecNearby SpecTexts.
From Verif Require Import Pf_Ok Pf_OkValues Pf_OkGroups2 Pf_Caps Pf_Regex Pf_Total Pf_Steps Pf_Kinds Pf_View Pf_Decimal Pf_Numeral Pf_Form Pf_Shapes Pf_Decode Pf_Layout
  Pf_Values1 Pf_Values3 Pf_Values5 Pf_Values8 Pf_Texts Pf_Assembled Pf_Grown Pf_Waits Pf_RunwayRange Pf_Visibility.
From Verif Require Import SpecReal SpecScale SpecMinMax SpecReadings.
From Verif Require Import Pf_Temperatures.
Local Open Scope string_scope.

Lemma qnh_read : forall s p, Qnh_text s p -> exists q, Pressure_fromString s = Ok (Some q).
Proof.
  intros s p [[-> _]|[[-> _]|[(d & v & x & -> & N & _)|(d & v & x & -> & N & _)]]]; eexists; apply pressure_parse; [auto|auto|right; right; left; eauto|right; right; right; eauto].
Qed.
Lemma lowest_read : forall s p, Lowest_qnh_text s p -> exists q, Pressure_fromForecastString s = Ok (Some q).
Proof. intros s p (d & v & x & -> & N & _). eexists. apply forecast_pressure_parse. eauto. Qed.
Lemma slp_read : forall s p, Slp_text s p -> exists q, Pressure_fromSlpString s = Ok (Some q).
Proof. intros s p (d & v & x & q & -> & N & _). eexists. apply slp_parse. eauto. Qed.
Lemma qfe_read : forall s p, Qfe_text s p -> exists q, Pressure_fromQfeString s = Ok (Some q).
Proof. intros s p (d & v & rest & x & -> & N & _ & _ & R). eexists. apply qfe_parse. eauto 10. Qed.

Inductive PState (part : ReportPart) : list string -> PressureGroup -> Prop :=
| PSt_told : forall ws t p, Pressures part ws t p -> PState part ws (mkPressureGroup t p false)
| PSt_pres : part = RP_RMK -> PState part ["PRES"] (mkPressureGroup Pg_PRES_MISG no_pressure true).
Lemma told : forall part ws g, PState part ws g -> pg_isIncomplete g = false -> Pressures part ws (pg_t g) (pg_p g).
Proof. intros part ws g [ws' t p T|P] E; [exact T|discriminate E]. Qed.
Lemma pressure_first : forall w part md g, PressureGroup_parse w part md = Ok (Some g) -> PState part [w] g.
Proof.
  intros w part md g H. unfold PressureGroup_parse in H. cbv zeta in H. destruct (is_part part RP_METAR) eqn:P.
  { assert (part = RP_METAR) by (destruct part; discriminate P || reflexivity). subst part.
    apply bind_some in H. destruct H as (p & T & H). injection H as <-. apply PSt_told, Pressures_qnh; [auto|exact (pressure_value _ _ T)]. }
  destruct (is_part part RP_TAF) eqn:Q.
  { assert (part = RP_TAF) by (destruct part; discriminate Q || reflexivity). subst part.
    apply bind_some in H. destruct H as (p & T & H). injection H as <-. apply PSt_told, Pressures_lowest; [auto|exact (forecast_pressure_value _ _ T)]. }
  destruct (is_part part RP_RMK) eqn:R; [|discriminate H]. assert (part = RP_RMK) by (destruct part; discriminate R || reflexivity). subst part.
  apply or_else_some in H. destruct H as [H|[_ H]].
  { apply bind_some in H. destruct H as (p & T & H). injection H as <-. apply PSt_told, Pressures_qnh; [auto|exact (pressure_value _ _ T)]. }
  destruct (seqb w "SLPNO") eqn:E1; [apply seqb_eq in E1; subst; injection H as <-; apply PSt_told, Pressures_no_slp; reflexivity|].
  destruct (seqb w "PRES") eqn:E2; [apply seqb_eq in E2; subst; injection H as <-; apply PSt_pres; reflexivity|].
  apply or_else_some in H. destruct H as [H|[_ H]].
  - apply bind_some in H. destruct H as (p & T & H). injection H as <-. apply PSt_told, Pressures_slp; [auto|exact (slp_value_ok _ _ T)].
  - apply bind_some in H. destruct H as (p & T & H). injection H as <-. apply PSt_told, Pressures_qfe; [auto|exact (qfe_value _ _ T)].
Qed.
Lemma pressure_next : forall part ws g w md g', PState part ws g -> PressureGroup_append g w part md = Ok (g', APPENDED) -> PState part (ws ++ [w])%list g'.
Proof.
  intros part ws g w md g' H A. destruct H as [ws t p T|P]; unfold PressureGroup_append in A; cbn in A; [discriminate A|].
  destruct (seqb w "MISG") eqn:E; [|discriminate A]. apply seqb_eq in E. subst. injection A as <-. apply PSt_told. constructor. reflexivity.
Qed.
Lemma pressure_refused : forall part ws g w part' md g', PState part ws g -> PressureGroup_append g w part' md = Ok (g', NOT_APPENDED) -> PState part ws g'.
Proof.
  intros part ws g w part' md g' H A. unfold PressureGroup_append in A.
  destruct (pg_isIncomplete g && _); [destruct (negb _); discriminate A|]. injection A as <-. exact H.
Qed.
(** No text is read in two ways. *)
Lemma or_else_right : forall A (a b : res (option A)) x, b = Ok (Some x) -> (exists y, a = Ok (Some y)) \/ a = Ok None -> exists y, or_else a b = Ok (Some y).
Proof. intros A a b x H [(y & ->)| ->]; cbn; eauto. Qed.
Lemma qnh_not : forall s, ~ (exists p, Qnh_text s p) -> Pressure_fromString s = Ok None.
Proof.
  intros s N. pose proof (ok_Pressure_fromString s) as O. destruct (Pressure_fromString s) as [[p|]|] eqn:E; [|reflexivity|destruct O]. destruct N. exists p. exact (pressure_value _ _ E).
Qed.
Lemma pressures_made : forall part now ws t p, Pressures part ws t p -> exists q, Assembled part now ws (GPressure (mkPressureGroup t q false)).
Proof.
  intros part now ws t p [w p' P T|w p' P T|w p' P T|w p' P T|P|P].
  - destruct (qnh_read _ _ T) as (q & Q). exists q. apply (assembled_first part now _ (GPressure _)). cbn [parsed_as]. unfold PressureGroup_parse. cbv zeta.
    destruct P as [-> | ->]; cbn [is_part]; rewrite Q; reflexivity.
  - subst part. destruct (lowest_read _ _ T) as (q & Q). exists q. apply (assembled_first RP_TAF now _ (GPressure _)). cbn [parsed_as]. unfold PressureGroup_parse. cbv zeta.
    cbn [is_part]; rewrite Q; reflexivity.
  - subst part. destruct (slp_read _ _ T) as (q & Q). exists q. apply (assembled_first RP_RMK now _ (GPressure _)). cbn [parsed_as]. unfold PressureGroup_parse. cbv zeta. cbn [is_part].
    destruct T as (d & v & x & u & -> & N & _). rewrite qnh_not.
    + cbn [bind or_else]. replace (seqb ("SLP" ++ d) "SLPNO") with false; [replace (seqb ("SLP" ++ d) "PRES") with false by reflexivity; rewrite Q; reflexivity|].
      symmetry. destruct (seqb ("SLP" ++ d) "SLPNO") eqn:E; [|reflexivity]. apply seqb_eq in E. injection E as ->. destruct N as [L _]. discriminate L.
    + intros (p0 & [[Z _]|[[Z _]|[(d0 & v0 & x0 & Z & _)|(d0 & v0 & x0 & Z & _)]]]); discriminate Z.
  - subst part. destruct (qfe_read _ _ T) as (q & Q). exists q. apply (assembled_first RP_RMK now _ (GPressure _)). cbn [parsed_as]. unfold PressureGroup_parse. cbv zeta. cbn [is_part].
    destruct T as (d & v & rest & x & -> & N & _). rewrite qnh_not.
    + cbn [bind or_else]. replace (seqb ("QFE" ++ d ++ rest) "SLPNO") with false by reflexivity. replace (seqb ("QFE" ++ d ++ rest) "PRES") with false by reflexivity.
      pose proof (ok_Pressure_fromSlpString ("QFE" ++ d ++ rest)) as O. destruct (Pressure_fromSlpString ("QFE" ++ d ++ rest)) as [[p0|]|] eqn:E; [| |destruct O].
      * exfalso. apply slp_parse in E. destruct E as (d0 & v0 & Z & _). discriminate Z.
      * cbn [bind or_else]. rewrite Q. reflexivity.
    + intros (p0 & [[Z _]|[[Z _]|[(d0 & v0 & x0 & Z & _)|(d0 & v0 & x0 & Z & M & _)]]]); try discriminate Z.
      injection Z as <-. destruct M as [_ M]. discriminate M.
  - subst part. exists no_pressure. apply (assembled_first RP_RMK now _ (GPressure _)). reflexivity.
  - subst part. exists no_pressure.
    apply (assembled_more RP_RMK now ["PRES"] "MISG" (GPressure (mkPressureGroup Pg_PRES_MISG no_pressure true)) (GPressure _)); [apply (assembled_first RP_RMK now _ (GPressure _)); reflexivity|reflexivity..].
Qed.

Lemma Passembled : forall part now ws g, Assembled part now ws (GPressure g) -> PState part ws g.
Proof.
  intros part now ws g H.
  refine (assembled_kind part now (fun ws k => match k with GPressure x => PState part ws x | _ => True end) _ _ ws (GPressure g) H).
  - intros w md [] _ P; try exact I. exact (pressure_first _ _ _ _ P).
  - intros ws' w md [] [] _ IH T A; try exact I; try contradiction. exact (pressure_next _ _ _ _ _ _ IH A).
Qed.
Lemma Pbuilt : forall part ws g, Built part ws (GPressure g) -> PState part ws g.
Proof.
  intros part ws g H.
  refine (Pf_WeatherWords.built_kind part (fun ws k => match k with GPressure x => PState part ws x | _ => True end) _ _ _ _ ws (GPressure g) H).
  - exact (fun _ => I).
  - intros w md [] P; try exact I. exact (pressure_first _ _ _ _ P).
  - intros ws' w md [] [] _ IH A; try exact I; try contradiction. exact (pressure_next _ _ _ _ _ _ IH A).
  - intros ws' w part' md [] [] _ IH A; try exact I; try contradiction. exact (pressure_refused _ _ _ _ _ _ _ IH A).
Qed.
Lemma settled_complete : forall part ws g, PState part ws g -> SpecAssembled.settled part (GPressure g) -> pg_isIncomplete g = false.
Proof.
  intros part ws g H T. destruct H; [reflexivity|exfalso]; refine (T "" (md_at None) (GPressure _) _); apply appended_iff; reflexivity.
Qed.
Lemma complete_settled : forall part g, pg_isIncomplete g = false -> SpecAssembled.settled part (GPressure g).
Proof.
  intros part g C w md g' A. apply appended_inv in A. destruct g'; try contradiction. cbn [appended_as] in A. unfold PressureGroup_append in A. rewrite C in A. discriminate A.
Qed.
Theorem pressure_words : forall part now words,
  (forall g, Assembled part now words (GPressure g) -> SpecAssembled.settled part (GPressure g) -> Pressures part words (pg_t g) (pg_p g))
  /\ (forall t p, Pressures part words t p -> exists g, Assembled part now words (GPressure g) /\ SpecAssembled.settled part (GPressure g) /\ pg_t g = t).
Proof.
  intros part now words. split.
  - intros g A T. apply Passembled in A. exact (told _ _ _ A (settled_complete _ _ _ A T)).
  - intros t p T. destruct (pressures_made _ now _ _ _ T) as (q & M). exists (mkPressureGroup t q false). split; [exact M|]. split; [apply complete_settled; reflexivity|reflexivity].
Qed.
Theorem result_pressure : forall sgn report limit r, parse sgn report limit = Ok r ->
  forall g part raw, In (mkGroupInfo (GPressure g) part raw) (pr_groups r) -> raw <> "" -> Pressures part (words_of raw) (pg_t g) (pg_p g).
Proof.
  intros sgn report limit r E g part raw Hi N.
  pose proof (Pbuilt _ _ _ (Pf_Built.built_from_words _ _ _ _ E _ _ _ Hi N)) as B. apply (told _ _ _ B).
  destruct (waiting (GPressure g)) eqn:W; [destruct (result_waits _ _ _ _ E _ _ _ Hi N W)|].
  cbn in W. destruct B; discriminate W || reflexivity.
Qed.
