(** C53: groups of temperature and dew point. *)
From Coq Require Import Lia ZifyBool ZifyN ZifyNat.
From Verif Require Import Prim Lib Regex Float Values Weather Groups1 Groups2 Groups3 Groups4 Parser SpecRegex SpecTokens SpecReads SpecText SpecForm
  SpecReach SpecBuilt SpecAssembled SpecAppend SpecDecimal SpecNumeral SpecMiles SpecDirection SpecNearby SpecTexts.
From Verif Require Import Pf_Ok Pf_OkValues Pf_OkGroups2 Pf_Caps Pf_Regex Pf_Total Pf_Steps Pf_Kinds Pf_View Pf_Decimal Pf_Numeral Pf_Form Pf_Shapes Pf_Decode Pf_Layout
  Pf_Values1 Pf_Values3 Pf_Texts Pf_Assembled Pf_Grown Pf_Waits Pf_RunwayRange Pf_Visibility.
From Verif Require Import SpecMinMax SpecReadings.
Local Open Scope string_scope.

Lemma degrees_text : forall s t, Temperature_fromString s = Ok (Some t) <-> Degrees_text s t.
Proof.
  intros s t. rewrite temperature_parse. unfold Degrees_text, whole_degrees, no_temperature. split.
  - intros [[-> ->]|[(v & N & ->)|(d & v & -> & N & ->)]]; [auto|right; exists false, s, v; auto|right; exists true, d, v; auto].
  - intros [[-> ->]|([] & d & v & -> & N & ->)]; [auto|right; right; exists d, v; auto|right; left; exists v; auto].
Qed.
Lemma tenths_text : forall s t, Temperature_fromRemarkString s = Ok (Some t) <-> tenths_of_degree s t.
Proof.
  intros s t. rewrite remark_temperature_parse. unfold tenths_of_degree. split.
  - intros [(d & v & -> & N & ->)|(d & v & -> & N & ->)]; [exists false, d, v; auto|exists true, d, v; auto].
  - intros ([] & d & v & -> & N & ->); [right; exists d, v; auto|left; exists d, v; auto].
Qed.
Definition re_deg : re := Eval vm_compute in rx "M?\d\d|//".
Definition re_tenths : re := Eval vm_compute in rx "[01]\d\d\d".
Definition like (r : re) (o : option string) : Prop := match o with Some x => Lang r x | None => True end.
Lemma degrees_lang : forall s t, Degrees_text s t -> Lang re_deg s.
Proof.
  intros s t [[-> _]|([] & d & v & -> & N & _)]; [apply closed_lang; reflexivity| |]; apply L_alt1.
  - apply L_seq; [apply closed_lang; reflexivity|apply (numeral_lang _ _ _ _ N); reflexivity].
  - apply L_seq; [apply closed_lang; reflexivity|apply (numeral_lang _ _ _ _ N); reflexivity].
Qed.
Lemma tenths_lang : forall s t, tenths_of_degree s t -> Lang re_tenths s.
Proof.
  intros s t ([] & d & v & -> & N & _); (apply L_seq; [apply closed_lang; reflexivity|apply (numeral_lang _ _ _ _ N); reflexivity]).
Qed.
Lemma temperature_match : forall s m, regex_match rgx_temperature s = Some m <->
  exists a o, s = a ++ "/" ++ some_text o /\ m = (some_cap 2 o ++ [(1, a)])%nat%list /\ Lang re_deg a /\ like re_deg o.
Proof.
  intros s m. split.
  - intros R. apply regex_match_captures in R. unfold rgx_temperature in R. captures R.
    + in_words L0 X. destruct X as [<-|[]]. eexists _, None. split; [reflexivity|]. split; [reflexivity|]. cbn [like]. auto.
    + in_words L0 X. destruct X as [<-|[]]. eexists _, (Some _). split; [reflexivity|]. split; [reflexivity|]. cbn [like]. auto.
  - intros (a & o & -> & -> & A & O). destruct o as [o|]; cbn [like some_text some_cap app] in *; cap_match.
Qed.
Lemma remark_match : forall s m, regex_match rgx_temperature_rmk s = Some m <->
  exists a o, s = "T" ++ a ++ some_text o /\ m = (some_cap 2 o ++ [(1, a)])%nat%list /\ Lang re_tenths a /\ like re_tenths o.
Proof.
  intros s m. split.
  - intros R. apply regex_match_captures in R. unfold rgx_temperature_rmk in R. captures R.
    + in_words L X. destruct X as [<-|[]]. eexists _, None. split; [reflexivity|]. split; [reflexivity|]. cbn [like]. auto.
    + in_words L X. destruct X as [<-|[]]. eexists _, (Some _). split; [reflexivity|]. split; [reflexivity|]. cbn [like]. auto.
  - intros (a & o & -> & -> & A & O). destruct o as [o|]; cbn [like some_text some_cap app] in *; cap_match.
Qed.

Inductive State (part : ReportPart) : list string -> TemperatureGroup -> Prop :=
| St_told : forall ws tp t d, Temperatures part ws tp t d -> State part ws (mkTempGroup tp t d false)
| St_t : part = RP_RMK -> State part ["T"] (Temp_of Tg_T_MISG true)
| St_td : part = RP_RMK -> State part ["TD"] (Temp_of Tg_TD_MISG true).
Lemma told : forall part ws g, State part ws g -> tg_isIncomplete g = false -> Temperatures part ws (tg_tp g) (tg_t g) (tg_dp g).
Proof. intros part ws g [ws' tp t d T|P|P] E; [exact T|discriminate E..]. Qed.
Lemma deg_nonempty : forall r x, Lang r x -> is_match r "" = false -> negb (Nat.eqb (slen x) 0) = true.
Proof. intros r [|c x] L E; [apply is_match_lang in L; congruence|reflexivity]. Qed.
Lemma temperature_first : forall w part md g, TemperatureGroup_parse w part md = Ok (Some g) -> State part [w] g.
Proof.
  intros w part md g H. unfold TemperatureGroup_parse in H. destruct (is_part part RP_METAR) eqn:P.
  - assert (part = RP_METAR) by (destruct part; discriminate P || reflexivity). subst part.
    destruct (regex_match rgx_temperature w) as [m|] eqn:R; [|discriminate H]. apply temperature_match in R. destruct R as (a & o & -> & -> & A & O).
    destruct o as [o|]; cbn [like some_text some_cap app mstr mlen find fst snd Nat.eqb] in *.
    + apply bind_some in H. destruct H as (t & T & H). unfold mlen in H. cbn [mstr find fst snd Nat.eqb] in H. rewrite (deg_nonempty _ _ O eq_refl) in H.
      apply bind_some in H. destruct H as (d & D & H). injection H as <-. apply degrees_text in T. apply degrees_text in D. apply St_told, Temperatures_whole; auto.
    + apply bind_some in H. destruct H as (t & T & H). unfold mlen in H. cbn in H. injection H as <-. apply degrees_text in T. apply St_told, Temperatures_whole; auto.
  - destruct (is_part part RP_RMK) eqn:Q; [|discriminate H]. assert (part = RP_RMK) by (destruct part; discriminate Q || reflexivity). subst part.
    destruct (seqb w "T") eqn:E1; [apply seqb_eq in E1; subst; injection H as <-; apply St_t; reflexivity|].
    destruct (seqb w "TD") eqn:E2; [apply seqb_eq in E2; subst; injection H as <-; apply St_td; reflexivity|].
    destruct (regex_match rgx_temperature_rmk w) as [m|] eqn:R; [|discriminate H]. apply remark_match in R. destruct R as (a & o & -> & -> & A & O).
    destruct o as [o|]; cbn [like some_text some_cap app mstr mlen find fst snd Nat.eqb] in *.
    + apply bind_some in H. destruct H as (t & T & H). unfold mlen in H. cbn [mstr find fst snd Nat.eqb] in H. rewrite (deg_nonempty _ _ O eq_refl) in H.
      apply bind_some in H. destruct H as (d & D & H). injection H as <-. apply tenths_text in T. apply tenths_text in D. apply St_told, Temperatures_tenths; auto.
    + apply bind_some in H. destruct H as (t & T & H). unfold mlen in H. cbn in H. injection H as <-. apply tenths_text in T. apply St_told, Temperatures_tenths; auto.
Qed.
Lemma temperature_next : forall part ws g w md g', State part ws g -> TemperatureGroup_append g w part md = Ok (g', APPENDED) -> State part (ws ++ [w])%list g'.
Proof.
  intros part ws g w md g' H A. destruct H as [ws tp t d T|P|P]; unfold TemperatureGroup_append in A; cbn in A; [discriminate A|..];
    (destruct (seqb w "MISG") eqn:E; [|discriminate A]; apply seqb_eq in E; subst; injection A as <-; apply St_told; constructor; reflexivity).
Qed.
Lemma temperature_refused : forall part ws g w part' md g', State part ws g -> TemperatureGroup_append g w part' md = Ok (g', NOT_APPENDED) -> State part ws g'.
Proof.
  intros part ws g w part' md g' H A. unfold TemperatureGroup_append in A.
  destruct (tg_isIncomplete g && _); [destruct (negb _); discriminate A|]. injection A as <-. exact H.
Qed.
Definition Made (part : ReportPart) (now : option MetafTime) (ws : list string) (g : TemperatureGroup) : Prop := Assembled part now ws (GTemperature g).
Lemma temperatures_made : forall part now ws tp t d, Temperatures part ws tp t d -> Made part now ws (mkTempGroup tp t d false).
Proof.
  intros part now ws tp t d [a b t' d' P A B|a b t' d' P A B|P|P]; subst part.
  - apply (assembled_first RP_METAR now _ (GTemperature _)). cbn [parsed_as]. unfold TemperatureGroup_parse. cbn [is_part].
    pose proof (degrees_lang _ _ A) as La. apply degrees_text in A. destruct B as [[-> ->]|B].
    + rewrite (proj2 (temperature_match _ [(1, a)]%nat)) by (exists a, None; cbn; auto). unfold mlen. cbn [mstr find fst snd Nat.eqb]. rewrite A. reflexivity.
    + pose proof (degrees_lang _ _ B) as Lb. apply degrees_text in B.
      rewrite (proj2 (temperature_match _ [(2, b); (1, a)]%nat)) by (exists a, (Some b); cbn; auto). unfold mlen. cbn [mstr find fst snd Nat.eqb]. rewrite A. cbn [bind].
      rewrite (deg_nonempty _ _ Lb eq_refl), B. reflexivity.
  - apply (assembled_first RP_RMK now _ (GTemperature _)). cbn [parsed_as]. unfold TemperatureGroup_parse. cbn [is_part].
    pose proof (tenths_lang _ _ A) as La.
    assert (N : seqb ("T" ++ a ++ b) "T" = false /\ seqb ("T" ++ a ++ b) "TD" = false).
    { destruct A as ([] & u & v & -> & _); split; reflexivity. }
    destruct N as [-> ->]. apply tenths_text in A. destruct B as [[-> ->]|B].
    + rewrite (proj2 (remark_match _ [(1, a)]%nat)) by (exists a, None; cbn; auto). unfold mlen. cbn [mstr find fst snd Nat.eqb]. rewrite A. reflexivity.
    + pose proof (tenths_lang _ _ B) as Lb. apply tenths_text in B.
      rewrite (proj2 (remark_match _ [(2, b); (1, a)]%nat)) by (exists a, (Some b); cbn; auto). unfold mlen. cbn [mstr find fst snd Nat.eqb]. rewrite A. cbn [bind].
      rewrite (deg_nonempty _ _ Lb eq_refl), B. reflexivity.
  - apply (assembled_more RP_RMK now ["T"] "MISG" (GTemperature (Temp_of Tg_T_MISG true)) (GTemperature _)); [apply (assembled_first RP_RMK now _ (GTemperature _)); reflexivity|reflexivity..].
  - apply (assembled_more RP_RMK now ["TD"] "MISG" (GTemperature (Temp_of Tg_TD_MISG true)) (GTemperature _)); [apply (assembled_first RP_RMK now _ (GTemperature _)); reflexivity|reflexivity..].
Qed.
Lemma assembled_state : forall part now ws g, Assembled part now ws (GTemperature g) -> State part ws g.
Proof.
  intros part now ws g H.
  refine (assembled_kind part now (fun ws k => match k with GTemperature x => State part ws x | _ => True end) _ _ ws (GTemperature g) H).
  - intros w md [] _ P; try exact I. exact (temperature_first _ _ _ _ P).
  - intros ws' w md [] [] _ IH T A; try exact I; try contradiction. exact (temperature_next _ _ _ _ _ _ IH A).
Qed.
Lemma built_state : forall part ws g, Built part ws (GTemperature g) -> State part ws g.
Proof.
  intros part ws g H.
  refine (Pf_WeatherWords.built_kind part (fun ws k => match k with GTemperature x => State part ws x | _ => True end) _ _ _ _ ws (GTemperature g) H).
  - exact (fun _ => I).
  - intros w md [] P; try exact I. exact (temperature_first _ _ _ _ P).
  - intros ws' w md [] [] _ IH A; try exact I; try contradiction. exact (temperature_next _ _ _ _ _ _ IH A).
  - intros ws' w part' md [] [] _ IH A; try exact I; try contradiction. exact (temperature_refused _ _ _ _ _ _ _ IH A).
Qed.
Lemma settled_complete : forall part ws g, State part ws g -> SpecAssembled.settled part (GTemperature g) -> tg_isIncomplete g = false.
Proof.
  intros part ws g H T. destruct H; [reflexivity|exfalso..]; refine (T "" (md_at None) (GTemperature _) _); apply appended_iff; reflexivity.
Qed.
Lemma complete_settled : forall part g, tg_isIncomplete g = false -> SpecAssembled.settled part (GTemperature g).
Proof.
  intros part g C w md g' A. apply appended_inv in A. destruct g'; try contradiction. cbn [appended_as] in A. unfold TemperatureGroup_append in A. rewrite C in A. discriminate A.
Qed.
Theorem temperature_words : forall part now words tp t d,
  (exists g, Assembled part now words (GTemperature g) /\ SpecAssembled.settled part (GTemperature g) /\ tg_tp g = tp /\ tg_t g = t /\ tg_dp g = d)
  <-> Temperatures part words tp t d.
Proof.
  intros part now words tp t d. split.
  - intros (g & A & S & <- & <- & <-). apply assembled_state in A. exact (told _ _ _ A (settled_complete _ _ _ A S)).
  - intros T. exists (mkTempGroup tp t d false). split; [exact (temperatures_made _ now _ _ _ _ T)|]. split; [apply complete_settled; reflexivity|auto].
Qed.
Theorem result_temperature : forall sgn report limit r, parse sgn report limit = Ok r ->
  forall g part raw, In (mkGroupInfo (GTemperature g) part raw) (pr_groups r) -> raw <> "" -> Temperatures part (words_of raw) (tg_tp g) (tg_t g) (tg_dp g).
Proof.
  intros sgn report limit r E g part raw Hi N.
  pose proof (built_state _ _ _ (Pf_Built.built_from_words _ _ _ _ E _ _ _ Hi N)) as B. apply (told _ _ _ B).
  destruct (waiting (GTemperature g)) eqn:W; [destruct (result_waits _ _ _ _ E _ _ _ Hi N W)|].
  cbn in W. destruct B; discriminate W || reflexivity.
Qed.
