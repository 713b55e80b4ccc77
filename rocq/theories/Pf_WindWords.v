(** C50: wind groups. *)
From Coq Require Import Lia.
From Verif Require Import Prim Lib Regex Float Values Weather Groups1 Groups2 Groups3 Groups4 Parser SpecRegex SpecTokens SpecReads SpecText SpecForm
  SpecReach SpecBuilt SpecAssembled SpecAppend SpecDecimal SpecNumeral SpecTrend SpecTexts SpecWind.
From Verif Require Import Pf_Tokens Pf_Ok Pf_Caps Pf_Regex Pf_Total Pf_Steps Pf_Kinds Pf_View Pf_Fresh Pf_Words Pf_Decimal Pf_Numeral Pf_Form Pf_Shapes
  Pf_Decode Pf_Layout Pf_Values1 Pf_Values2 Pf_Values5 Pf_Formats Pf_Texts Pf_Assembled Pf_Grown Pf_Waits.
Local Open Scope string_scope.

(** ** Texts *)
Definition re_bearing : re := Eval vm_compute in rx "\d\d0".
Definition re_speed : re := Eval vm_compute in rx "[1-9]?\d\d".
Lemma figures : forall s, Lang re_bearing s <-> exists v, numeral 3 s v /\ (v mod 10 = 0)%N.
Proof.
  intros s. split.
  - intros L. assert (A : accepted (Direction_fromDegreesString s)).
    { apply degrees_format. unfold matches. apply L_alt1. exact L. }
    destruct A as (d & A). apply degrees_text in A. destruct A as [[-> _]|[[-> _]|(v & N & M & _)]].
    + exfalso. apply is_match_lang in L. discriminate L.
    + exfalso. apply is_match_lang in L. discriminate L.
    + eauto.
  - intros (v & [L D] & M). explode. apply (last_digit3 _ _ _ _ D) in M. subst.
    pose proof (numeral_shape 3 (String c (String c0 "0")) v (conj eq_refl D)) as F.
    eapply Pf_Form.flat_lang; [reflexivity|]. unfold fits_shape in F. cbn [repeat in_form map fits] in *.
    unfold digit_cls in F. cbn [app map in_form fits]. apply andb_prop in F. destruct F as [-> F]. apply andb_prop in F. destruct F as [-> _]. reflexivity.
Qed.
Lemma bearing_degrees : forall s d, Bearing_figures s d <-> Lang re_bearing s /\ Direction_fromDegreesString s = Ok (Some d).
Proof.
  intros s d. rewrite figures, degrees_text. split.
  - intros (v & N & M & ->). split; [eauto|]. right. right. eauto.
  - intros [(v & N & M) [[-> _]|[[-> _]|H]]]; [destruct N as [_ N]; discriminate N|destruct N as [_ N]; discriminate N|exact H].
Qed.
Lemma speed_number : forall u s t, Speed_number u s t <-> Lang re_speed s /\ Speed_fromString s u = Ok (Some t).
Proof.
  intros u s t. rewrite speed_text. unfold Speed_number. split.
  - intros (T & N1 & N2). split; [|exact T].
    assert (A : accepted (Speed_fromString s u)) by (eexists; apply speed_text; exact T).
    apply speed_format in A. destruct A as [A|A]; [|contradiction]. unfold matches in A.
    change (Lang (RAlt (RGrp 1 re_speed) (rx "//")) s) in A. inversion A as [| | |a b p L|a b p L| | | | |]; subst; [inversion L; assumption|].
    exfalso. apply N2. change (rx "//") with (RSeq (RCls [("/", "/")]%char) (RCls [("/", "/")]%char)) in L.
    inversion L as [| |a b p q Lp Lq| | | | | | |]; subst. inversion Lp as [|rs c C| | | | | | | |]; subst. inversion Lq as [|rs c' C'| | | | | | | |]; subst.
    cbn in C, C'. clear -C C'. revert C C'. destruct c as [[] [] [] [] [] [] [] []]; intros C; try discriminate C; clear C.
    destruct c' as [[] [] [] [] [] [] [] []]; intros C; try discriminate C; reflexivity.
  - intros [L T]. split; [exact T|]. split; intros ->; apply is_match_lang in L; discriminate L.
Qed.
Lemma sector_parse : forall s v, Wind_parseVariableSector s = Ok (Some v) <->
  exists from till, Sector_text s from till
    /\ v = mkWind Wi_VARIABLE_WIND_SECTOR Direction_default Speed_default Speed_default Distance_default from till None None WiI_NONE.
Proof.
  intros s v. unfold Wind_parseVariableSector. split.
  - intros H. destruct (regex_match rgx_varwind s) as [m|] eqn:R; [|discriminate H].
    apply regex_match_captures in R. unfold rgx_varwind in R. captures R.
    in_words L0 X. cbn in X. destruct X as [<-|[]]. cbn [mstr find app fst snd Nat.eqb] in H.
    destruct (Direction_fromDegreesString p) as [[b|]|] eqn:B; try discriminate H.
    destruct (Direction_fromDegreesString q0) as [[e|]|] eqn:E; try discriminate H. cbn in H. injection H as <-.
    exists b, e. split; [|reflexivity]. exists p, q0. split; [reflexivity|]. rewrite !bearing_degrees. auto.
  - intros (b & e & (p & q & -> & B & E) & ->). apply bearing_degrees in B, E. destruct B as [L B], E as [L' E].
    assert (R : regex_match rgx_varwind (p ++ "V" ++ q) = Some [(2, q); (1, p)]%nat) by cap_match.
    rewrite R. cbn [mstr find fst snd Nat.eqb]. rewrite B. cbn. rewrite E. reflexivity.
Qed.
(** ** The word for the wind *)
Definition re_dir : re := Eval vm_compute in rx "\d\d0|VRB|///".
Definition re_spd : re := Eval vm_compute in rx "[1-9]?\d\d|//".
Definition re_unit : re := Eval vm_compute in rx "[KM][TMP][HS]?".
Lemma dir_lang : forall s d, Degrees s d -> Lang re_dir s.
Proof.
  intros s d [[-> _]|[[-> _]|(v & N & M & _)]]; [apply closed_lang; reflexivity|apply closed_lang; reflexivity|].
  apply L_alt1. apply figures. eauto.
Qed.
Lemma spd_lang : forall s u t, Speed_text u s t -> s <> "" -> Lang re_spd s.
Proof.
  intros s u t T N. destruct (string_dec s "//") as [-> |M]; [apply closed_lang; reflexivity|].
  apply L_alt1. eapply (proj1 (speed_number u s t)). split; auto.
Qed.
Lemma unit_lang : forall u unit, In (u, unit) speed_units -> Lang re_unit u.
Proof. intros u unit [H|[H|[H|[]]]]; injection H as <- <-; apply closed_lang; reflexivity. Qed.
Definition caps_wind (h g : option string) (d v u : string) : caps :=
  ((5, u) :: match g with Some n => [(4, n)] | None => [] end ++ [(3, v); (2, d)] ++ match h with Some x => [(1, x)] | None => [] end)%nat%list.
Definition text_wind (h g : option string) (d v u : string) : string :=
  match h with Some x => ("W" ++ "S" ++ x ++ "/") | None => "" end ++ d ++ v ++ match g with Some n => "G" ++ n | None => "" end ++ u.
Definition three (h : option string) : Prop := match h with Some x => exists n, numeral 3 x n | None => True end.
Definition gusty (g : option string) : Prop := match g with Some n => Lang re_speed n | None => True end.
Lemma wind_match : forall s m, regex_match rgx_wind s = Some m <->
  exists h g d v u, s = text_wind h g d v u /\ m = caps_wind h g d v u /\ three h /\ gusty g /\ Lang re_dir d /\ Lang re_spd v /\ Lang re_unit u.
Proof.
  intros s m. split.
  - intros R. apply regex_match_captures in R. unfold rgx_wind in R. 
    apply cap_seq in R. destruct R as (p & q & cp & cq & -> & -> & P & Q).
    assert (HP : exists h, three h /\ p = match h with Some x => ("W" ++ "S" ++ x ++ "/") | None => "" end /\ cp = match h with Some x => [(1%nat, x)] | None => [] end).
    { captures P; [exists None; cbn; auto|]. in_words L X. destruct X as [<-|[]]. in_words L0 X. destruct X as [<-|[]]. in_words L2 X. destruct X as [<-|[]].
      eexists (Some _). split; [|split; reflexivity]. cbn. destruct (digits_n _ 3 _ L1) as (n & N & _); [reflexivity..|lia|]. eauto. }
    destruct HP as (h & T & -> & ->). captures Q.
    + exists h, None. eexists. eexists. eexists. split; [reflexivity|]. split; [reflexivity|]. cbn [gusty]. auto 10.
    + in_words L1 X. destruct X as [<-|[]]. exists h, (Some q), p, p0, q0.
      split; [reflexivity|]. split; [reflexivity|]. cbn [gusty]. auto 10.
  - intros (h & g & d & v & u & -> & -> & T & G & D & V & U).
    destruct h as [h|]; [destruct T as (n & T)|]; destruct g as [g|]; unfold text_wind, caps_wind, gusty in *; cbn [app]; cap_match.
Qed.

Definition made (v : wind) : WindGroup :=
  mkWind (w_type v) (w_direction v) (w_speed v) (w_gust v) (w_height v) (w_begin v) (w_end v) (w_time v) (w_runway v) WiI_NONE.
Definition calm_wind (speed : Speed) : wind := Blows Wi_SURFACE_WIND_CALM no_direction speed no_speed no_height no_direction no_direction None None.
Definition surface_wind (dir : Direction) (speed gust : Speed) : wind := Blows Wi_SURFACE_WIND dir speed gust no_height no_direction no_direction None None.
Definition shear_wind (v : N) (dir : Direction) (speed gust : Speed) : wind :=
  Blows Wi_WIND_SHEAR dir speed gust (mkDist DM_NONE (Some (100 * v)%N) FEET) no_direction no_direction None None.
Lemma calm_match : forall u unit, In (u, unit) speed_units -> regex_match rgx_wind ("00000" ++ u) = Some (caps_wind None None "000" "00" u).
Proof.
  intros u unit U. apply wind_match. exists None, None, "000", "00", u. split; [reflexivity|]. split; [reflexivity|].
  repeat split; try (apply closed_lang; reflexivity). eapply unit_lang; exact U.
Qed.
Definition is_calm (h g : option string) (d v : string) : Prop := h = None /\ g = None /\ d = "000" /\ v = "00".
Lemma calm_text : forall h g d v u unit, three h -> gusty g -> Lang re_dir d -> Lang re_spd v -> In (u, unit) speed_units ->
  ((exists c, Calm (text_wind h g d v u) c) <-> is_calm h g d v).
Proof.
  intros h g d v u unit T G D V U. split.
  - intros (c & u' & unit' & E & U' & _).
    assert (R : regex_match rgx_wind (text_wind h g d v u) = Some (caps_wind h g d v u)).
    { apply wind_match. exists h, g, d, v, u. repeat (split; [assumption || reflexivity|]). eapply unit_lang; exact U. }
    rewrite E, (calm_match _ _ U') in R. unfold caps_wind in R.
    destruct h, g; cbn in R; try discriminate R. injection R; intros; subst; repeat split; assumption || reflexivity.
  - intros (-> & -> & -> & ->). eexists. exists u, unit. auto.
Qed.
Lemma height_none : Distance_fromHeightString "" = Ok None.
Proof. reflexivity. Qed.
Lemma surface_value : forall h g d v u, three h -> gusty g -> Lang re_dir d -> Lang re_spd v -> Lang re_unit u ->
  forall w, Wind_parseSurfaceOrShear (text_wind h g d v u) = Ok (Some w) <->
  exists unit dir speed gust, In (u, unit) speed_units /\ Degrees d dir /\ Speed_text unit v speed
    /\ match g with Some n => Speed_text unit n gust | None => gust = no_speed end
    /\ (is_calm h g d v /\ w = made (calm_wind speed)
        \/ ~ is_calm h g d v /\ w = made (match h with
             | None => surface_wind dir speed gust
             | Some x => match decimal x with Some n => shear_wind n dir speed gust | None => calm_wind speed end end)).
Proof.
  intros h g d v u T G D V U w. unfold Wind_parseSurfaceOrShear.
  rewrite (proj2 (wind_match (text_wind h g d v u) (caps_wind h g d v u))) by (exists h, g, d, v, u; auto 10).
  assert (M1 : mstr (caps_wind h g d v u) 1 = match h with Some x => x | None => "" end) by (destruct h, g; reflexivity).
  assert (M2 : mstr (caps_wind h g d v u) 2 = d) by (destruct h, g; reflexivity).
  assert (M3 : mstr (caps_wind h g d v u) 3 = v) by (destruct h, g; reflexivity).
  assert (M4 : mstr (caps_wind h g d v u) 4 = match g with Some x => x | None => "" end) by (destruct h, g; reflexivity).
  assert (M5 : mstr (caps_wind h g d v u) 5 = u) by (destruct h, g; reflexivity).
  unfold mlen. rewrite M1, M2, M3, M4, M5.
  assert (C : Nat.eqb (slen match h with Some x => x | None => "" end) 0 && Nat.eqb (slen match g with Some x => x | None => "" end) 0
              && seqb d "000" && seqb v "00" = true <-> is_calm h g d v).
  { unfold is_calm. split.
    - intros H. apply andb_prop in H. destruct H as [H A]. apply andb_prop in H. destruct H as [H B]. apply andb_prop in H. destruct H as [H1 H2].
      apply seqb_eq in A, B. split; [|split; [|auto]].
      + destruct h as [x|]; [|reflexivity]. destruct T as (n & [N _]). destruct x; [discriminate N|discriminate H1].
      + destruct g as [x|]; [|reflexivity]. destruct x; [|discriminate H2]. apply is_match_lang in G. discriminate G.
    - intros (-> & -> & -> & ->). reflexivity. }
  split.
  - intros H. destruct (Speed_unitFromString u) as [unit|] eqn:Eu; [|discriminate H]. apply speed_unit_text in Eu.
    destruct (Speed_fromString v unit) as [[speed|]|] eqn:Ev; try discriminate H. cbn [bind] in H.
    apply speed_text in Ev.
    assert (Dd : exists dir, Degrees d dir /\ Direction_fromDegreesString d = Ok (Some dir)).
    { assert (A : accepted (Direction_fromDegreesString d)).
      { apply degrees_format. change (Lang (RAlt re_bearing (RAlt (rx "///") (rx "VRB"))) d). 
        inversion D as [| | |a b p L|a b p L| | | | |]; subst; [apply L_alt1; exact L|apply L_alt2]. inversion L; subst; [apply L_alt2|apply L_alt1]; assumption. }
      destruct A as (dir & A). exists dir. split; [apply degrees_text; exact A|exact A]. }
    destruct Dd as (dir & Dd & Ed).
    assert (Gg : exists gust, Speed_fromString match g with Some x => x | None => "" end unit = Ok (Some gust)
                /\ match g with Some n => Speed_text unit n gust | None => gust = no_speed end).
    { destruct g as [n|]; [|exists no_speed; split; reflexivity].
      assert (A : accepted (Speed_fromString n unit)) by (apply speed_format; left; change (Lang (RAlt (RGrp 1 re_speed) (rx "//")) n); apply L_alt1, L_grp; exact G).
      destruct A as (gust & A). exists gust. split; [exact A|apply speed_text; exact A]. }
    destruct Gg as (gust & Eg & Gg).
    exists unit, dir, speed, gust. split; [exact Eu|]. split; [exact Dd|]. split; [exact Ev|]. split; [exact Gg|].
    cbn in H. 
    destruct (_ && _) eqn:Ec in H.
    + left. split; [apply C; exact Ec|]. injection H as <-. reflexivity.
    + right. split; [intros X; apply C in X; congruence|].
      rewrite Ed in H. cbn in H. rewrite Eg in H. cbn in H. destruct h as [x|].
      * destruct T as (n & T). rewrite (proj2 (height_text x _)) in H by (right; exists n; split; [exact T|reflexivity]). cbn in H. injection H as <-.
        rewrite (proj2 T). reflexivity.
      * rewrite height_none in H. cbn in H. injection H as <-. reflexivity.
  - intros (unit & dir & speed & gust & Eu & Dd & Ev & Gg & X).
    rewrite (proj2 (speed_unit_text u unit) Eu), (proj2 (speed_text v unit speed) Ev). cbn [bind].
    destruct (_ && _) eqn:Ec.
    + destruct X as [[X ->]|[X _]]; [reflexivity|]. destruct X. apply C. reflexivity.
    + destruct X as [[X _]|[_ ->]]; [apply C in X; congruence|].
      rewrite (proj2 (degrees_text d dir) Dd). cbn [bind].
      assert (Eg : Speed_fromString match g with Some x => x | None => "" end unit = Ok (Some gust)) by (destruct g; [apply speed_text; exact Gg|subst; reflexivity]).
      rewrite Eg. cbn [bind]. destruct h as [x|].
      * destruct T as (n & T). rewrite (proj2 (height_text x _)) by (right; exists n; split; [exact T|reflexivity]). rewrite (proj2 T). reflexivity.
      * reflexivity.
Qed.

Lemma blowing_text : forall s dir speed gust, Blowing s dir speed gust <->
  exists g d v u unit, s = text_wind None g d v u /\ gusty g /\ Lang re_dir d /\ Lang re_spd v /\ Lang re_unit u
    /\ In (u, unit) speed_units /\ Degrees d dir /\ Speed_text unit v speed
    /\ match g with Some n => Speed_text unit n gust | None => gust = no_speed end.
Proof.
  intros s dir speed gust. split.
  - intros (d & v & g & u & unit & -> & U & D & V & N & G).
    destruct G as [[-> ->]|(n & -> & G)].
    + exists None, d, v, u, unit. cbn [gusty]. repeat split; try assumption; [eapply dir_lang; exact D|eapply spd_lang; eassumption|eapply unit_lang; exact U].
    + exists (Some n), d, v, u, unit. pose proof (proj1 (speed_number _ _ _) G) as [L _]. destruct G as (G & _ & _). cbn [gusty].
      repeat split; try assumption; [eapply dir_lang; exact D|eapply spd_lang; eassumption|eapply unit_lang; exact U].
  - intros (g & d & v & u & unit & -> & Gl & Dl & Vl & Ul & U & D & V & G).
    exists d, v, (match g with Some n => "G" ++ n | None => "" end), u, unit. split; [reflexivity|]. split; [exact U|]. split; [exact D|]. split; [exact V|].
    split; [intros ->; apply is_match_lang in Vl; discriminate Vl|]. destruct g as [n|]; [right|left; auto].
    exists n. split; [reflexivity|]. split; [exact G|]. cbn [gusty] in Gl. split; intros ->; apply is_match_lang in Gl; discriminate Gl.
Qed.
Lemma surface_words : forall s w, Wind_parseSurfaceOrShear s = Ok (Some w) <->
  (exists speed, Calm s speed /\ w = made (calm_wind speed))
  \/ (exists dir speed gust, Blowing s dir speed gust /\ (forall c, ~ Calm s c) /\ w = made (surface_wind dir speed gust))
  \/ (exists h x n dir speed gust, s = "WS" ++ h ++ "/" ++ x /\ numeral 3 h n /\ Blowing x dir speed gust
        /\ w = made (shear_wind n dir speed gust)).
Proof.
  intros s w. split.
  - intros H. destruct (regex_match rgx_wind s) as [m|] eqn:R; [|unfold Wind_parseSurfaceOrShear in H; rewrite R in H; discriminate H].
    apply wind_match in R. destruct R as (h & g & d & v & u & -> & _ & T & G & D & V & U).
    apply surface_value in H; try assumption. destruct H as (unit & dir & speed & gust & Eu & Dd & Ev & Gg & X).
    pose proof (calm_text h g d v u unit T G D V Eu) as C.
    destruct X as [[X ->]|[X ->]].
    + left. exists speed. split; [|reflexivity]. destruct X as (-> & -> & -> & ->). exists u, unit. split; [reflexivity|]. split; [exact Eu|].
      destruct Ev as [[[Y|Y] _]|[(n & N & ->)|(n & [Y _] & _)]]; try discriminate Y. destruct N as [_ N]. injection N as <-. reflexivity.
    + right. destruct h as [h|].
      * right. destruct T as (n & T). rewrite (proj2 T). exists h, (text_wind None g d v u), n, dir, speed, gust.
        split; [unfold text_wind; cbn [append]; rewrite sapp_assoc; reflexivity|]. split; [exact T|]. split; [|reflexivity].
        apply blowing_text. exists g, d, v, u, unit. auto 12.
      * left. exists dir, speed, gust. split; [apply blowing_text; exists g, d, v, u, unit; auto 12|]. split; [|reflexivity].
        intros c Hc. apply X, C. eauto.
  - intros [(speed & (u & unit & -> & U & ->) & ->)|[(dir & speed & gust & B & C & ->)|(h & x & n & dir & speed & gust & -> & N & B & ->)]].
    + change ("00000" ++ u) with (text_wind None None "000" "00" u).
      apply surface_value; try exact I; try (apply closed_lang; reflexivity); [eapply unit_lang; exact U|].
      exists unit, (mkDir 0 DT_VALUE_DEGREES), (mkSpeed (Some 0%N) unit), no_speed. split; [exact U|].
      split; [right; right; exists 0%N; repeat split|]. split; [right; left; exists 0%N; repeat split|]. split; [reflexivity|].
      left. repeat split.
    + apply blowing_text in B. destruct B as (g & d & v & u & unit & -> & G & D & V & U & Eu & Dd & Ev & Gg).
      apply surface_value; try assumption; [exact I|]. exists unit, dir, speed, gust. split; [exact Eu|]. split; [exact Dd|]. split; [exact Ev|]. split; [exact Gg|].
      right. split; [|reflexivity]. intros X. apply (calm_text None g d v u unit I G D V Eu) in X. destruct X as (c & X). exact (C c X).
    + apply blowing_text in B. destruct B as (g & d & v & u & unit & -> & G & D & V & U & Eu & Dd & Ev & Gg).
      replace ("WS" ++ h ++ "/" ++ text_wind None g d v u) with (text_wind (Some h) g d v u) by (unfold text_wind; cbn [append]; rewrite sapp_assoc; reflexivity).
      apply surface_value; try assumption; [exists n; exact N|]. exists unit, dir, speed, gust. split; [exact Eu|]. split; [exact Dd|]. split; [exact Ev|]. split; [exact Gg|].
      right. split; [intros (X & _); discriminate X|]. rewrite (proj2 N). reflexivity.
Qed.
(** ** Times *)
Lemma decimal_split : forall a b, decimal (a ++ b) = match decimal a, decimal b with Some x, Some y => Some (x * 10 ^ N.of_nat (slen b) + y)%N | _, _ => None end.
Proof.
  induction a as [|c a IH]; intros b; cbn [append decimal].
  - destruct (decimal b); reflexivity.
  - destruct (digit_of c) as [d|]; [|reflexivity]. rewrite IH. destruct (decimal a) as [x|]; [|reflexivity]. destruct (decimal b) as [y|]; [|reflexivity].
    f_equal. change String.length with slen. rewrite slen_app, Nat2N.inj_add, N.pow_add_r. lia.
Qed.
Lemma hundreds : forall h m, (m < 100)%N -> ((h * 100 + m) / 100 = h /\ (h * 100 + m) mod 100 = m)%N.
Proof. intros h m B. split; symmetry; [apply (N.div_unique _ 100 h m)|apply (N.mod_unique _ 100 h m)]; lia. Qed.
Lemma minutes_of : forall s m, numeral 2 s m <-> slen s = 2%nat /\ strToUint s 0 2 = Ok (Some m).
Proof.
  intros s m. split.
  - intros [L D]. split; [exact L|]. explode. numbers. exact (f_equal _ D).
  - intros [L D]. split; [exact L|]. explode. numbers. congruence.
Qed.
Lemma hour_minute_of : forall s t, hour_minute s t <-> slen s = 4%nat /\ exists v, strToUint s 0 4 = Ok (Some v) /\ t = mkTime None (v / 100)%N (v mod 100)%N.
Proof.
  intros s t. split.
  - intros (h & m & hour & minute & -> & [Lh Dh] & [Lm Dm] & ->). change String.length with slen in *. split; [rewrite slen_app; lia|].
    exists (hour * 100 + minute)%N. split.
    + rewrite strToUint9 by (rewrite ?slen_app; lia). f_equal. replace 4%nat with (slen (h ++ m)) by (rewrite slen_app; lia). rewrite substring0_all.
      rewrite decimal_split, Dh, Dm, Lm. reflexivity.
    + destruct (hundreds hour minute) as [-> ->]; [|reflexivity]. apply (numeral_lt 2 100 _ _ Dm Lm). vm_compute. discriminate.
  - intros (L & v & E & ->). explode. numbers. injection E as E.
    change (decimal (String c (String c0 "") ++ String c1 (String c2 "")) = Some v) in E.
    rewrite decimal_split in E. destruct (decimal (String c (String c0 ""))) as [h|] eqn:Dh; [|discriminate E].
    destruct (decimal (String c1 (String c2 ""))) as [m|] eqn:Dm; [|discriminate E]. apply (f_equal (fun o => match o with Some x => x | None => 0%N end)) in E. cbv beta iota in E. subst v.
    exists (String c (String c0 "")), (String c1 (String c2 "")), h, m. split; [reflexivity|]. split; [split; [reflexivity|exact Dh]|]. split; [split; [reflexivity|exact Dm]|].
    replace (10 ^ N.of_nat (slen (String c1 (String c2 ""))))%N with 100%N by reflexivity.
    destruct (hundreds h m) as [-> ->]; [|reflexivity]. apply (numeral_lt 2 100 _ _ Dm eq_refl). vm_compute. discriminate.
Qed.
(** ** Peak wind *)
Definition caps_peak (h : option string) (d v m : string) : caps :=
  ((4, m) :: match h with Some x => [(3, x)] | None => [] end ++ [(2, v); (1, d)])%nat%list.
Definition two (h : option string) : Prop := match h with Some x => exists n, numeral 2 x n | None => True end.
Lemma peak_match : forall s m, regex_match rgx_pkwnd s = Some m <->
  exists h d v x, s = d ++ v ++ "/" ++ match h with Some y => y | None => "" end ++ x /\ m = caps_peak h d v x
    /\ two h /\ Lang re_bearing d /\ Lang re_speed v /\ exists n, numeral 2 x n.
Proof.
  intros s m. split.
  - intros R. apply regex_match_captures in R. unfold rgx_pkwnd in R. captures R.
    + in_words L1 X. destruct X as [<-|[]]. destruct (digits_n _ 2 _ L2) as (n & N & _); [reflexivity..|lia|].
      exists None. eexists. eexists. eexists. split; [reflexivity|]. split; [reflexivity|]. cbn [two]. eauto 10.
    + in_words L1 X. destruct X as [<-|[]]. destruct (digits_n _ 2 _ L2) as (n & N & _); [reflexivity..|lia|].
      destruct (digits_n _ 2 _ L3) as (n' & N' & _); [reflexivity..|lia|].
      eexists (Some _). eexists. eexists. eexists. split; [reflexivity|]. split; [reflexivity|]. cbn [two]. eauto 10.
  - intros (h & d & v & x & -> & -> & T & D & V & n & N). destruct h as [h|]; [destruct T as (n' & T)|]; unfold caps_peak; cbn [app]; cap_match.
Qed.
Lemma stoi_numeral : forall n s v, numeral n s v -> (0 < n <= 9)%nat -> stoi s = Ok v.
Proof.
  intros n s v [L D] B. pose proof (ok_stoi s) as K. assert (O : ok (stoi s) (fun v => decimal s = Some v)).
  { change String.length with slen in L. apply K; [intros ->; cbn in L; lia|apply decimal_all_digits; eauto|lia]. }
  unfold ok in O. destruct (stoi s) as [v'|]; [|contradiction]. congruence.
Qed.
Lemma hour_minute_split : forall h x n n', numeral 2 h n -> numeral 2 x n' -> hour_minute (h ++ x) (mkTime None n n').
Proof. intros h x n n' A B. exists h, x, n, n'. auto. Qed.
(** ** States *)
Definition pending (part : ReportPart) (ws : list string) (g : WindGroup) : Prop :=
  part = RP_METAR /\ (ws = ["WS"] /\ g = Wind_ofType Wi_WIND_SHEAR_IN_LOWER_LAYERS WiI_WS
                      \/ ws = ["WS"; "ALL"] /\ g = Wind_ofType Wi_WIND_SHEAR_IN_LOWER_LAYERS WiI_WS_ALL)
  \/ part = RP_RMK /\ (ws = ["PK"] /\ g = Wind_ofType Wi_PEAK_WIND WiI_PK
                       \/ ws = ["PK"; "WND"] /\ g = Wind_ofType Wi_PEAK_WIND WiI_PK_WND
                       \/ ws = ["WND"] /\ g = Wind_ofType Wi_WND_MISG WiI_WND).
Definition wind_state (part : ReportPart) (now : option MetafTime) (ws : list string) (g : WindGroup) : Prop :=
  (exists v, Wind part now ws v /\ g = made v) \/ pending part ws g.
Lemma wind_first : forall w part md g now, WindGroup_parse w part md = Ok (Some g) -> wind_state part now [w] g.
Proof.
  intros w part md g now H. unfold WindGroup_parse in H. cbv zeta in H.
  destruct (is_part part RP_METAR && seqb w "WS") eqn:E1.
  { apply andb_prop in E1. destruct E1 as [P E]. apply seqb_eq in E. subst. destruct part; try discriminate P. injection H as <-. right. left. auto. }
  destruct (is_part part RP_TAF && seqb w "WSCONDS") eqn:E2.
  { apply andb_prop in E2. destruct E2 as [P E]. apply seqb_eq in E. subst. destruct part; try discriminate P. injection H as <-. left.
    eexists. split; [apply Wind_conditions; reflexivity|reflexivity]. }
  destruct (is_part part RP_RMK && seqb w "WSHFT") eqn:E3.
  { apply andb_prop in E3. destruct E3 as [P E]. apply seqb_eq in E. subst. destruct part; try discriminate P. injection H as <-. left.
    eexists. split; [apply Wind_shift; reflexivity|reflexivity]. }
  destruct (is_part part RP_RMK && seqb w "PK") eqn:E4.
  { apply andb_prop in E4. destruct E4 as [P E]. apply seqb_eq in E. subst. destruct part; try discriminate P. injection H as <-. right. right. auto. }
  destruct (is_part part RP_RMK && seqb w "WND") eqn:E5.
  { apply andb_prop in E5. destruct E5 as [P E]. apply seqb_eq in E. subst. destruct part; try discriminate P. injection H as <-. right. right. auto. }
  clear E1 E2 E3 E4 E5.
  assert (P : part = RP_METAR \/ part = RP_TAF) by (destruct part; try discriminate H; auto).
  destruct (_ && _) in H; [discriminate H|]. left. unfold or_else in H.
  destruct (Wind_parseVariableSector w) as [[x|]|] eqn:S; try discriminate H.
  - injection H as <-. apply sector_parse in S. destruct S as (from & till & S & ->). eexists. split; [apply Wind_sector; eassumption|reflexivity].
  - apply surface_words in H. destruct H as [(speed & C & ->)|[(dir & speed & gust & B & C & ->)|(h & x & n & dir & speed & gust & -> & N & B & ->)]].
    + eexists. split; [apply Wind_calm; eassumption|reflexivity].
    + eexists. split; [apply Wind_surface; eassumption|reflexivity].
    + eexists. split; [eapply Wind_shear; eassumption|reflexivity].
Qed.
Lemma wind_refused : forall g w part md g', WindGroup_append g w part md = Ok (g', NOT_APPENDED) -> g' = g.
Proof.
  intros g w part md g' H. unfold WindGroup_append in H. destruct (wi_inc g).
  - destruct (wi_type g); try congruence.
    + unfold Wind_appendVariableSector in H. apply bind_ok in H. destruct H as ([v|] & _ & H); congruence.
    + unfold Wind_appendWindShift in H. destruct (seqb w "FROPA"); [discriminate H|]. destruct (has_value (wi_evTime g)); [congruence|].
      destruct (_ && _).
      * apply bind_ok in H. destruct H as (t & _ & H). apply bind_ok in H. destruct H as ([v|] & _ & H); congruence.
      * destruct (Nat.eqb _ _); [|congruence]. apply bind_ok in H. destruct H as ([v|] & _ & H); congruence.
  - destruct (negb _); congruence.
  - unfold Wind_appendPeakWind in H. destruct (regex_match rgx_pkwnd w); [|congruence].
    apply bind_ok in H. destruct H as ([d|] & _ & H); [|congruence]. apply bind_ok in H. destruct H as ([s|] & _ & H); [|congruence].
    destruct (_ && _); [congruence|]. apply bind_ok in H. destruct H as (h & _ & H). apply bind_ok in H. destruct H as (m & _ & H). congruence.
  - destruct (negb _); congruence.
  - destruct (seqb w "ALL"); [congruence|]. apply bind_ok in H. destruct H as ([r|] & _ & H); congruence.
  - destruct (negb _); congruence.
Qed.
Lemma wind_next : forall part md ws g w g', wind_state part (md_reportTime md) ws g ->
  WindGroup_append g w part md = Ok (g', APPENDED) -> wind_state part (md_reportTime md) (ws ++ [w]) g'.
Proof.
  intros part md ws g w g' S H. destruct S as [(v & S & ->)|S].
  - left. unfold WindGroup_append in H. cbn [made wi_inc] in H.
    inversion S; subst; cbn [w_type wi_type made only] in H; try discriminate H.
    + (* surface wind and sector *)
      unfold Wind_appendVariableSector in H. apply bind_ok in H. destruct H as ([x|] & X & H); [|discriminate H].
      apply sector_parse in X. destruct X as (from & till & X & ->). injection H as <-.
      eexists. split; [eapply Wind_surface_sector; eassumption|reflexivity].
    + unfold Wind_appendWindShift in H. destruct (seqb w "FROPA") eqn:F.
      { apply seqb_eq in F. subst w. injection H as <-. eexists. split; [apply Wind_shift_front; reflexivity|reflexivity]. }
      cbn [has_value wi_evTime made w_time only] in H.
      destruct (has_value (md_reportTime md) && Nat.eqb (slen w) 2) eqn:M.
      * apply andb_prop in M. destruct M as [M L]. apply Nat.eqb_eq in L.
        destruct (md_reportTime md) as [t|] eqn:T; [|discriminate M]. cbn in H.
        destruct (strToUint w 0 2) as [[m|]|] eqn:U; try discriminate H. cbn in H. injection H as <-.
        eexists. split; [eapply Wind_shift_time; [reflexivity|]|reflexivity]. left. exists t, m. split; [reflexivity|]. split; [apply minutes_of; auto|reflexivity].
      * destruct (Nat.eqb (slen w) 4) eqn:L; [|discriminate H]. apply Nat.eqb_eq in L.
        destruct (strToUint w 0 4) as [[m|]|] eqn:U; try discriminate H. cbn in H. injection H as <-.
        eexists. split; [eapply Wind_shift_time; [reflexivity|]|reflexivity]. right. apply hour_minute_of. eauto.
    + unfold Wind_appendWindShift in H. destruct (seqb w "FROPA") eqn:F; [|discriminate H].
      apply seqb_eq in F. subst w. injection H as <-. eexists. split; [eapply Wind_shift_time_front; [reflexivity|eassumption]|reflexivity].
  - destruct S as [[-> [[-> ->]|[-> ->]]]|[-> [[-> ->]|[[-> ->]|[-> ->]]]]]; unfold WindGroup_append in H; cbn [Wind_ofType wi_inc] in H.
    + destruct (seqb w "ALL") eqn:F; [apply seqb_eq in F; subst w; injection H as <-; right; left; auto|].
      apply bind_ok in H. destruct H as ([r|] & R & H); [|discriminate H]. apply runway_text in R. injection H as <-. left.
      eexists. split; [eapply Wind_runway; [reflexivity|exact R]|reflexivity].
    + destruct (seqb w "RWY") eqn:F; [|discriminate H]. apply seqb_eq in F. subst w. injection H as <-. left.
      eexists. split; [eapply Wind_all_runways; reflexivity|reflexivity].
    + destruct (seqb w "WND") eqn:F; [|discriminate H]. apply seqb_eq in F. subst w. injection H as <-. right. right. auto.
    + left. unfold Wind_appendPeakWind in H. destruct (regex_match rgx_pkwnd w) as [m|] eqn:R; [|discriminate H].
      apply peak_match in R. destruct R as (h & d & v & x & -> & -> & T & D & V & n & N).
      assert (M1 : mstr (caps_peak h d v x) 1 = d) by (destruct h; reflexivity).
      assert (M2 : mstr (caps_peak h d v x) 2 = v) by (destruct h; reflexivity).
      assert (M3 : mstr (caps_peak h d v x) 3 = match h with Some y => y | None => "" end) by (destruct h; reflexivity).
      assert (M4 : mstr (caps_peak h d v x) 4 = x) by (destruct h; reflexivity).
      rewrite M1, M2, M3, M4 in H.
      destruct (Direction_fromDegreesString d) as [[dir|]|] eqn:Ed; try discriminate H. cbn [bind] in H.
      destruct (Speed_fromString v KNOTS) as [[speed|]|] eqn:Ev; try discriminate H. cbn [bind] in H.
      destruct (_ && _) eqn:C in H; [discriminate H|].
      rewrite (stoi_numeral 2 x n N) in H by lia.
      destruct h as [h|].
      * destruct T as (n' & T). destruct h as [|c h]; [destruct T as [T _]; discriminate T|]. cbn [sempty] in H.
        rewrite (stoi_numeral 2 _ n' T) in H by lia. cbn in H. injection H as <-.
        eexists. split; [eapply Wind_peak; [reflexivity|apply bearing_degrees; eauto|apply speed_number; eauto|right; apply hour_minute_split; eassumption]|reflexivity].
      * cbn [sempty] in H. destruct (md_reportTime md) as [t|] eqn:Et; [|discriminate C]. cbn in H. injection H as <-.
        eexists. split; [eapply Wind_peak; [reflexivity|apply bearing_degrees; eauto|apply speed_number; eauto|left; exists t, n; eauto]|reflexivity].
    + destruct (seqb w "MISG") eqn:F; [|discriminate H]. apply seqb_eq in F. subst w. injection H as <-. left.
      eexists. split; [eapply Wind_missing; reflexivity|reflexivity].
Qed.
(** ** Groups put together from words *)
Lemma assembled_wind : forall part now ws g, Assembled part now ws (GWind g) -> wind_state part now ws g.
Proof.
  intros part now ws g H.
  refine (assembled_kind part now (fun ws k => match k with GWind x => wind_state part now ws x | _ => True end) _ _ ws (GWind g) H).
  - intros w md [] _ P; try exact I. exact (wind_first _ _ _ _ _ P).
  - intros ws' w md [] [] _ IH T A; try exact I; try contradiction. cbn [appended_as] in A. subst now. exact (wind_next _ _ _ _ _ _ IH A).
Qed.
Lemma grown_wind : forall part now ws g, Grown part now ws (GWind g) -> wind_state part now ws g.
Proof.
  intros part now ws g H.
  refine (grown_kind part now (fun ws k => match k with GWind x => wind_state part now ws x | _ => True end) _ _ _ _ ws (GWind g) H).
  - exact (fun _ => I).
  - intros w md [] _ P; try exact I. exact (wind_first _ _ _ _ _ P).
  - intros ws' w md [] [] _ IH T A; try exact I; try contradiction. cbn [appended_as] in A. subst now. exact (wind_next _ _ _ _ _ _ IH A).
  - intros ws' w part' md [] [] _ IH A; try exact I; try contradiction. cbn [appended_as] in A. rewrite (wind_refused _ _ _ _ _ A). exact IH.
Qed.
Lemma made_settled : forall part v, settled part (GWind (made v)).
Proof.
  intros part v w md g' H. apply appended_inv in H. destruct g'; try contradiction. cbn [appended_as] in H.
  unfold WindGroup_append in H. cbn [made wi_inc wi_type] in H. destruct (w_type v); try discriminate H.
  - unfold Wind_appendVariableSector in H. apply bind_ok in H. destruct H as ([x|] & _ & H); discriminate H.
  - unfold Wind_appendWindShift in H. destruct (seqb w "FROPA"); [discriminate H|]. destruct (has_value _); [discriminate H|].
    destruct (_ && _).
    + apply bind_ok in H. destruct H as (t & _ & H). apply bind_ok in H. destruct H as ([x|] & _ & H); discriminate H.
    + destruct (Nat.eqb _ _); [|discriminate H]. apply bind_ok in H. destruct H as ([x|] & _ & H); discriminate H.
Qed.
Lemma pending_open : forall part ws g, pending part ws g -> ~ settled part (GWind g).
Proof.
  intros part ws g H S.
  destruct H as [[-> [[-> ->]|[-> ->]]]|[-> [[-> ->]|[[-> ->]|[-> ->]]]]]; match type of S with settled _ ?k => refine (S "" (md_at None) k _) end; reflexivity.
Qed.
Lemma surface_assembled : forall part now w g, part = RP_METAR \/ part = RP_TAF -> Wind_parseSurfaceOrShear w = Ok (Some g) ->
  Assembled part now [w] (GWind g).
Proof.
  intros part now w g P X. apply assembled_first. cbn [parsed_as].
  assert (L : Lang rgx_wind w).
  { unfold Wind_parseSurfaceOrShear in X. destruct (regex_match rgx_wind w) as [m|] eqn:R; [|discriminate X]. exact (matched_lang _ _ _ R). }
  unfold WindGroup_parse. cbv zeta. rewrite (not_word rgx_wind w "WS" eq_refl L), (not_word rgx_wind w "WSCONDS" eq_refl L), (not_word rgx_wind w "WSHFT" eq_refl L), (not_word rgx_wind w "PK" eq_refl L), (not_word rgx_wind w "WND" eq_refl L).
  rewrite !Bool.andb_false_r. unfold Wind_parseVariableSector. rewrite (exclusive_match rgx_wind rgx_varwind w eq_refl L).
  destruct P as [-> | ->]; exact X.
Qed.
Lemma sector_assembled : forall part now w g, part = RP_METAR \/ part = RP_TAF -> Wind_parseVariableSector w = Ok (Some g) ->
  Assembled part now [w] (GWind g).
Proof.
  intros part now w g P X. apply assembled_first. cbn [parsed_as].
  assert (L : Lang rgx_varwind w).
  { unfold Wind_parseVariableSector in X. destruct (regex_match rgx_varwind w) as [m|] eqn:R; [|discriminate X]. exact (matched_lang _ _ _ R). }
  unfold WindGroup_parse. cbv zeta. rewrite (not_word rgx_varwind w "WS" eq_refl L), (not_word rgx_varwind w "WSCONDS" eq_refl L), (not_word rgx_varwind w "WSHFT" eq_refl L), (not_word rgx_varwind w "PK" eq_refl L), (not_word rgx_varwind w "WND" eq_refl L).
  rewrite !Bool.andb_false_r, X.
  destruct P as [-> | ->]; reflexivity.
Qed.
Lemma not_fropa : forall now x t, Event_time now x t -> seqb x "FROPA" = false.
Proof.
  intros now x t H. destruct (seqb x "FROPA") eqn:E; [exfalso|reflexivity]. apply seqb_eq in E. subst.
  destruct H as [(r & m & _ & [L _] & _)|H]; [discriminate L|]. apply hour_minute_of in H. destruct H as [L _]. discriminate L.
Qed.
Lemma shift_appended : forall now x t g, Event_time now x t -> wi_inc g = WiI_NONE -> wi_type g = Wi_WIND_SHIFT -> wi_evTime g = None ->
  WindGroup_append g x RP_RMK (md_at now) = Ok (Wind_setEvTime g t, APPENDED).
Proof.
  intros now x t g H Ei Et Ee. unfold WindGroup_append. rewrite Ei, Et. unfold Wind_appendWindShift. rewrite (not_fropa _ _ _ H), Ee.
  destruct H as [(r & m & -> & N & ->)|H].
  - apply minutes_of in N. destruct N as [L N]. cbn [has_value md_at md_reportTime andb]. rewrite L, N. reflexivity.
  - apply hour_minute_of in H. destruct H as (L & v & N & ->). cbn [has_value md_at md_reportTime]. rewrite L, N. cbn [Nat.eqb]. rewrite Bool.andb_false_r. reflexivity.
Qed.
Lemma peak_appended : forall now d v x dir speed t, Bearing_figures d dir -> Speed_number KNOTS v speed -> Event_time now x t ->
  WindGroup_append (Wind_ofType Wi_PEAK_WIND WiI_PK_WND) (d ++ v ++ "/" ++ x) RP_RMK (md_at now)
  = Ok (made (Blows Wi_PEAK_WIND dir speed no_speed no_height no_direction no_direction (Some t) None), APPENDED).
Proof.
  intros now d v x dir speed t D V T. apply bearing_degrees in D. apply speed_number in V. destruct D as [Ld D], V as [Lv V].
  unfold WindGroup_append. cbn [Wind_ofType wi_inc]. unfold Wind_appendPeakWind.
  assert (X : exists h y n hour, x = match h with Some z => z | None => "" end ++ y /\ numeral 2 y n /\ two h /\ t = mkTime None hour n
    /\ match h with Some z => numeral 2 z hour | None => exists r, now = Some r /\ hour = hourValue r end).
  { destruct T as [(r & m & -> & N & ->)|(h & m & hour & minute & -> & H & M & ->)].
    - exists None, x, m, (hourValue r). cbn [two]. eauto 10.
    - exists (Some h), m, minute, hour. cbn [two]. eauto 10. }
  destruct X as (h & y & n & hour & -> & N & T2 & -> & Hh).
  rewrite (proj2 (peak_match _ (caps_peak h d v y))) by (exists h, d, v, y; eauto 10).
  assert (M1 : mstr (caps_peak h d v y) 1 = d) by (destruct h; reflexivity).
  assert (M2 : mstr (caps_peak h d v y) 2 = v) by (destruct h; reflexivity).
  assert (M3 : mstr (caps_peak h d v y) 3 = match h with Some y => y | None => "" end) by (destruct h; reflexivity).
  assert (M4 : mstr (caps_peak h d v y) 4 = y) by (destruct h; reflexivity).
  rewrite M1, M2, M3, M4, D. cbn [bind]. rewrite V. cbn [bind]. rewrite (stoi_numeral 2 y n N) by lia.
  destruct h as [h|].
  - destruct h as [|c h]; [destruct Hh as [Hh _]; discriminate Hh|]. cbn [sempty]. rewrite (stoi_numeral 2 _ hour Hh) by lia. rewrite Bool.andb_false_r. reflexivity.
  - destruct Hh as (r & -> & ->). reflexivity.
Qed.
Lemma wind_assembled : forall part now ws v, Wind part now ws v -> Assembled part now ws (GWind (made v)).
Proof.
  assert (More : forall part now ws w g g', Assembled part now ws (GWind g) -> WindGroup_append g w part (md_at now) = Ok (g', APPENDED) ->
            Assembled part now (ws ++ [w]) (GWind g')) by (intros; eapply assembled_more; [eassumption|exact H0]).
  intros part now ws v H. destruct H.
  - apply surface_assembled; [assumption|]. apply surface_words. left. eauto.
  - apply surface_assembled; [assumption|]. apply surface_words. right. left. eauto 10.
  - apply surface_assembled; [assumption|]. apply surface_words. right. right. eauto 12.
  - apply sector_assembled; [assumption|]. apply sector_parse. eauto.
  - refine (More part now [w] x (made (surface_wind dir speed gust)) _ _ _).
    + apply surface_assembled; [assumption|]. apply surface_words. right. left. eauto 10.
    + unfold WindGroup_append. cbn [made wi_inc wi_type surface_wind w_type]. unfold Wind_appendVariableSector.
      rewrite (proj2 (sector_parse x _)) by eauto. reflexivity.
  - subst. refine (More RP_METAR now ["WS"] w (Wind_ofType Wi_WIND_SHEAR_IN_LOWER_LAYERS WiI_WS) _ _ _); [apply assembled_first; reflexivity|].
    unfold WindGroup_append. cbn [Wind_ofType wi_inc].
    destruct (seqb w "ALL") eqn:E.
    { apply seqb_eq in E. subst. apply runway_text in H0. discriminate H0. }
    rewrite (proj2 (runway_text w true r) H0). reflexivity.
  - subst. refine (More RP_METAR now ["WS"; "ALL"] "RWY" (Wind_ofType Wi_WIND_SHEAR_IN_LOWER_LAYERS WiI_WS_ALL) _ _ _); [|reflexivity].
    refine (More RP_METAR now ["WS"] "ALL" (Wind_ofType Wi_WIND_SHEAR_IN_LOWER_LAYERS WiI_WS) _ _ _); [apply assembled_first; reflexivity|reflexivity].
  - subst. apply assembled_first. reflexivity.
  - subst. refine (More RP_RMK now ["WND"] "MISG" (Wind_ofType Wi_WND_MISG WiI_WND) _ _ _); [apply assembled_first; reflexivity|reflexivity].
  - subst. refine (More RP_RMK now ["PK"; "WND"] _ (Wind_ofType Wi_PEAK_WIND WiI_PK_WND) _ _ _); [|apply peak_appended; assumption].
    refine (More RP_RMK now ["PK"] "WND" (Wind_ofType Wi_PEAK_WIND WiI_PK) _ _ _); [apply assembled_first; reflexivity|reflexivity].
  - subst. apply assembled_first. reflexivity.
  - subst. refine (More RP_RMK now ["WSHFT"] "FROPA" (made (only Wi_WIND_SHIFT)) _ _ _); [apply assembled_first; reflexivity|reflexivity].
  - subst. refine (More RP_RMK now ["WSHFT"] x (made (only Wi_WIND_SHIFT)) _ _ _); [apply assembled_first; reflexivity|].
    rewrite (shift_appended _ _ _ _ H0); reflexivity.
  - subst. refine (More RP_RMK now ["WSHFT"; x] "FROPA" (Wind_setEvTime (made (only Wi_WIND_SHIFT)) t) _ _ _); [|reflexivity].
    refine (More RP_RMK now ["WSHFT"] x (made (only Wi_WIND_SHIFT)) _ _ _); [apply assembled_first; reflexivity|].
    rewrite (shift_appended _ _ _ _ H0); reflexivity.
Qed.
Theorem wind_words : forall part now words,
  (forall g, Assembled part now words (GWind g) -> settled part (GWind g) -> Wind part now words (told_by g))
  /\ (forall v, Wind part now words v -> exists g, Assembled part now words (GWind g) /\ settled part (GWind g) /\ told_by g = v).
Proof.
  intros part now words. split.
  - intros g A S. destruct (assembled_wind _ _ _ _ A) as [(v & W & ->)|P]; [|destruct (pending_open _ _ _ P S)]. destruct v. exact W.
  - intros v W. exists (made v). split; [exact (wind_assembled _ _ _ _ W)|]. split; [apply made_settled|destruct v; reflexivity].
Qed.
Theorem result_wind : forall sgn report limit r, parse sgn report limit = Ok r ->
  forall g part raw, In (mkGroupInfo (GWind g) part raw) (pr_groups r) -> raw <> "" ->
  Wind part (md_reportTime (pr_metadata r)) (words_of raw) (told_by g).
Proof.
  intros sgn report limit r E g part raw Hi N.
  assert (P : part <> RP_HEADER).
  { intros ->. pose proof (Pf_Built.built_from_words _ _ _ _ E _ _ _ Hi N) as B.
    refine (Pf_WeatherWords.built_kind RP_HEADER (fun _ k => match k with GWind x => False | _ => True end) _ _ _ _ _ _ B).
    - exact (fun _ => I).
    - intros w md [] X; try exact I. discriminate X.
    - intros ws w md [] [] _ IH A; try exact I; try contradiction.
    - intros ws w part' md [] [] _ IH A; try exact I; try contradiction. }
  pose proof (result_grown _ _ _ _ E _ _ _ Hi N P) as B. destruct (grown_wind _ _ _ _ B) as [(v & W & ->)|Q]; [destruct v; exact W|exfalso].
  destruct (left_incomplete _ _ _ _ E (GWind g) _ _ Hi N) as [X|[X _]].
  - destruct Q as [[_ [[_ ->]|[_ ->]]]|[_ [[_ ->]|[[_ ->]|[_ ->]]]]]; reflexivity.
  - unfold left_open in X. destruct Q as [[_ [[Y _]|[Y _]]]|[_ [[Y _]|[[Y _]|[Y _]]]]]; rewrite Y in X; destruct X as [X|[X|[X|X]]]; discriminate X.
  - subst part. destruct Q as [[Q _]|[Q _]]; discriminate Q.
Qed.
