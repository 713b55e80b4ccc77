(** Groups of minimum and maximum temperatures: what their words say. *)
From Coq Require Import Lia.
From Verif Require Import Prim Lib Regex Float Values Weather Groups1 Groups2 Groups3 Groups4 Parser.
From Verif Require Import SpecTokens SpecText SpecReach SpecBuilt SpecRegex SpecForm SpecDecimal SpecNumeral SpecTrend SpecMinMax.
From Verif Require Import Pf_Ok Pf_Regex Pf_Caps Pf_Decimal Pf_Form Pf_Numeral Pf_Values1 Pf_Decode Pf_Kinds Pf_Built Pf_WeatherWords Pf_Shapes Pf_Trend.
Local Open Scope string_scope.

Lemma tenths_parse : forall s t, Temperature_fromRemarkString s = Ok (Some t) <-> tenths_of_degree s t.
Proof.
  intros s t. rewrite remark_temperature_parse. split.
  - intros [(d & v & -> & N & ->)|(d & v & -> & N & ->)]; [exists false|exists true]; exists d, v; auto.
  - intros ([|] & d & v & -> & N & ->); [right|left]; exists d, v; auto.
Qed.
Lemma whole_parse : forall s t, s <> "//" -> (Temperature_fromString s = Ok (Some t) <-> whole_degrees s t).
Proof.
  intros s t X. rewrite temperature_parse. split.
  - intros [[E _]|[(v & N & ->)|(d & v & -> & N & ->)]]; [contradiction| |]; [exists false, s, v|exists true, d, v]; auto.
  - intros ([|] & d & v & -> & N & ->); right; [right; exists d, v; auto|left; exists v; auto].
Qed.
Lemma tenths_shape : forall s t, tenths_of_degree s t -> exists c d v, s = String c d /\ numeral 3 d v /\ (c = "0" \/ c = "1")%char.
Proof. intros s t ([|] & d & v & -> & N & _); [exists "1"%char, d, v|exists "0"%char, d, v]; auto. Qed.

(** ** 1xxxx and 2xxxx *)
Ltac letters L := let H := fresh "W" in pose proof (lang_words _ _ L _ eq_refl) as H; cbn in H.
Ltac length_of L := let A := fresh "A" in let B := fresh "B" in
  pose proof (lang_minlen _ _ L) as A; pose proof (lang_maxlen _ _ L _ eq_refl) as B; cbn in A, B.
Lemma app_inj_len : forall a b c d : string, slen a = slen c -> a ++ b = c ++ d -> a = c /\ b = d.
Proof.
  induction a as [|x a IH]; intros b [|y c] d L E; try discriminate L; [auto|].
  cbn in E. injection E as -> E. injection L as L. destruct (IH _ _ _ L E) as [-> ->]. auto.
Qed.
Definition six (lo hi : Temperature) : MinMaxTemperatureGroup := mkMinMax Mm_OBSERVED_6_HOURLY lo hi None None false.
Lemma six_match : forall w m, regex_match rgx_6hourly w = Some m ->
  exists l s, w = l ++ s /\ (l = "1" \/ l = "2") /\ mstr m 1 = l /\ mstr m 2 = s /\ slen s = 4%nat.
Proof.
  intros w m M. apply regex_match_captures in M. unfold rgx_6hourly in M. captures M.
  exists p, q. letters L. length_of L0. repeat split; [intuition|lia].
Qed.
Lemma six_matches : forall l s, l = "1" \/ l = "2" -> s = "////" \/ (exists t, tenths_of_degree s t) ->
  exists m, regex_match rgx_6hourly (l ++ s) = Some m /\ mstr m 1 = l /\ mstr m 2 = s.
Proof.
  intros l s Hl Hs.
  assert (M : exists m, regex_match rgx_6hourly (l ++ s) = Some m).
  { destruct Hs as [-> |[t T]]; [destruct Hl as [-> | ->]; eexists; vm_compute; reflexivity|].
    destruct (tenths_shape _ _ T) as (c & d & v & -> & N & C). pose proof (numeral_shape _ _ _ N) as F.
    assert (E : exists f, shapes rgx_6hourly = Some (f :: tl (match shapes rgx_6hourly with Some l => l | None => [] end))
       /\ f = [[("1", "1"); ("2", "2")]; [("0", "0"); ("1", "1")]; [("0", "9")]; [("0", "9")]; [("0", "9")]]%char)
      by (eexists; vm_compute; split; reflexivity).
    destruct E as (f & E & Ef). destruct (shape_match _ _ f (l ++ String c d) E (or_introl eq_refl)) as (m & M & _); [|eauto].
    subst f.
    destruct Hl as [-> | ->], C as [-> | ->]; exact F. }
  destruct M as (m & M). exists m. split; [exact M|]. destruct (six_match _ _ M) as (l' & s' & E & Hl' & E1 & E2 & _).
  assert (L : slen l = slen l') by (destruct Hl as [-> | ->], Hl' as [-> | ->]; reflexivity).
  destruct (app_inj_len _ _ _ _ L E) as [-> ->]. auto.
Qed.
Inductive six_word : string -> MinMaxTemperatureGroup -> Prop :=
| six_missing : forall w, w = "1////" \/ w = "2////" -> six_word w (six no_temperature no_temperature)
| six_max : forall s t, tenths_of_degree s t -> six_word ("1" ++ s) (six no_temperature t)
| six_min : forall s t, tenths_of_degree s t -> six_word ("2" ++ s) (six t no_temperature).
Lemma six_parse : forall w g, MinMax_from6hourly w = Ok (Some g) <-> six_word w g.
Proof.
  intros w g. unfold MinMax_from6hourly. split.
  - destruct (regex_match rgx_6hourly w) as [m|] eqn:M; [|discriminate]. intros H.
    destruct (six_match _ _ M) as (l & s & -> & Hl & E1 & E2 & _). rewrite E1, E2 in H.
    destruct (seqb s "////") eqn:E.
    + apply seqb_eq in E. subst s. injection H as <-. apply six_missing. destruct Hl as [-> | ->]; auto.
    + apply bind_ok in H. destruct H as ([t|] & T & H); [|discriminate]. injection H as <-. apply tenths_parse in T.
      destruct Hl as [-> | ->]; [apply six_max|apply six_min]; exact T.
  - intros H. destruct H as [w [-> | ->]|s t T|s t T]; [reflexivity|reflexivity| |].
    + destruct (six_matches "1" s (or_introl eq_refl) (or_intror (ex_intro _ t T))) as (m & -> & -> & ->).
      destruct (tenths_shape _ _ T) as (c & d & v & E & _ & C).
      replace (seqb s "////") with false by (destruct C as [-> | ->]; subst s; reflexivity).
      apply tenths_parse in T. rewrite T. reflexivity.
    + destruct (six_matches "2" s (or_intror eq_refl) (or_intror (ex_intro _ t T))) as (m & -> & -> & ->).
      destruct (tenths_shape _ _ T) as (c & d & v & E & _ & C).
      replace (seqb s "////") with false by (destruct C as [-> | ->]; subst s; reflexivity).
      apply tenths_parse in T. rewrite T. reflexivity.
Qed.

(** ** 4xxxxxxxx *)
Lemma tenths_fits : forall s t, tenths_of_degree s t -> fits (one_of ["0"; "1"]%char :: repeat digit 3) s = true /\ slen s = 4%nat.
Proof.
  intros s t T. destruct (tenths_shape _ _ T) as (c & d & v & -> & N & C). split.
  - destruct C as [-> | ->]; exact (numeral_fits _ _ _ N).
  - change (slen (String c d)) with (S (slen d)). rewrite (numeral_len _ _ _ N). reflexivity.
Qed.
Lemma day_form : forall s, is_match rgx_24hourly s = fits ([is_char "4"] ++ (one_of ["0"; "1"]%char :: repeat digit 3) ++ (one_of ["0"; "1"]%char :: repeat digit 3))%list s.
Proof. flat_tac. Qed.
Definition day (lo hi : Temperature) : MinMaxTemperatureGroup := mkMinMax Mm_OBSERVED_24_HOURLY lo hi None None false.
Lemma day_parse : forall w g, MinMax_from24hourly w = Ok (Some g) <->
  exists a b lo hi, w = "4" ++ a ++ b /\ tenths_of_degree a hi /\ tenths_of_degree b lo /\ g = day lo hi.
Proof.
  intros w g. unfold MinMax_from24hourly. split.
  - destruct (regex_match rgx_24hourly w) as [m|] eqn:H; [|discriminate]. intros R.
    assert (M : is_match rgx_24hourly w = true) by (unfold is_match; rewrite H; reflexivity).
    rewrite day_form in M. apply fits_split in M. destruct M as (p & q & -> & P & Q). apply fits_split in Q. destruct Q as (a & b & -> & A & B).
    destruct p as [|c [|]]; cbn in P; rewrite ?andb_false_r in P; try discriminate P. rewrite andb_true_r in P. apply Ascii.eqb_eq in P. subst c.
    assert (La : slen a = 4%nat) by exact (fits_length _ _ A). assert (Lb : slen b = 4%nat) by exact (fits_length _ _ B).
    assert (E : mstr m 1 = a /\ mstr m 2 = b) by (rewrite (flat_captures rgx_24hourly _ _ _ eq_refl H); split; explode; reflexivity).
    destruct E as [E1 E2]. rewrite E1, E2 in R. apply bind_ok in R. destruct R as ([hi|] & T & R); [|discriminate].
    apply bind_ok in R. destruct R as ([lo|] & U & R); [|discriminate]. injection R as <-. apply tenths_parse in T, U.
    exists a, b, lo, hi. auto.
  - intros (a & b & lo & hi & -> & T & U & ->). destruct (tenths_fits _ _ T) as [Fa La]. destruct (tenths_fits _ _ U) as [Fb Lb].
    assert (M : is_match rgx_24hourly ("4" ++ a ++ b) = true).
    { rewrite day_form. refine (fits_app [is_char "4"] _ "4" _ eq_refl _). apply fits_app; assumption. }
    rewrite (match_flat rgx_24hourly _ _ eq_refl M). apply tenths_parse in T, U.
    match goal with |- (let! _ := Temperature_fromRemarkString ?x in _) = _ => assert (X : x = a) by (explode; reflexivity); rewrite X end.
    rewrite T. cbn [bind].
    match goal with |- (let! _ := Temperature_fromRemarkString ?x in _) = _ => assert (Y : x = b) by (explode; reflexivity); rewrite Y end.
    rewrite U. reflexivity.
Qed.

(** ** Forecasts *)
Definition forecast (label : string) (t : Temperature) (time : MetafTime) : MinMaxTemperatureGroup :=
  if seqb label "X" then mkMinMax Mm_FORECAST no_temperature t None (Some time) false
  else if seqb label "N" then mkMinMax Mm_FORECAST t no_temperature (Some time) None false
  else mkMinMax Mm_FORECAST t t (Some time) (Some time) true.
Lemma lang_seq : forall a b s, Lang (RSeq a b) s -> exists p q, s = p ++ q /\ Lang a p /\ Lang b q.
Proof. intros a b s L. inv L. eauto. Qed.
Lemma lang_opt : forall a s, Lang (ROpt a) s -> s = "" \/ Lang a s.
Proof. intros a s L. inv L; auto. Qed.
Lemma lang_char : forall c s, Lang (RCls [(c, c)]) s -> s = String c "".
Proof. intros c s L. inv L. rewrite (in_cls_one _ _ H0). reflexivity. Qed.
Lemma lang_whole : forall s, Lang (RSeq (ROpt (RCls [("M", "M")])) (RSeq (RCls [("0", "9")]) (RCls [("0", "9")])))%char s ->
  exists t, whole_degrees s t.
Proof.
  intros s L. apply lang_seq in L. destruct L as (p & d & -> & P & D).
  destruct (digits_n _ 2 d D eq_refl eq_refl eq_refl ltac:(lia)) as (v & N & _).
  apply lang_opt in P. destruct P as [-> |P]; [eexists; exists false, d, v; auto|].
  apply lang_char in P. subst p. eexists; exists true, d, v; auto.
Qed.
Lemma lang_day_hour : forall s, Lang (RSeq (RCls [("0", "9")]) (RSeq (RCls [("0", "9")]) (RSeq (RCls [("0", "9")]) (RCls [("0", "9")]))))%char s ->
  exists t, day_hour s t.
Proof.
  intros s L. destruct (digits_n _ 4 s L eq_refl eq_refl eq_refl ltac:(lia)) as (v & N & _).
  apply numeral_fits, digits4 in N. destruct N as (a & b & x & y & -> & A & B). eexists. exists a, b, x, y. auto.
Qed.
Lemma forecast_match : forall w m, regex_match rgx_forecastminmax w = Some m ->
  exists l a b, w = "T" ++ l ++ a ++ "/" ++ b ++ "Z" /\ In l [""; "X"; "N"] /\ mstr m 1 = l /\ mstr m 2 = a /\ mstr m 3 = b
   /\ (exists t, whole_degrees a t) /\ (exists time, day_hour b time).
Proof.
  intros w m M. apply regex_match_captures in M. unfold rgx_forecastminmax in M. captures M.
  - apply lang_char in L, L1, L3. subst p p1 q. exists "", p0, p2. repeat split; auto; [cbn; auto|exact (lang_whole _ L0)|exact (lang_day_hour _ L2)].
  - apply lang_char in L, L2, L4. subst p p2 q. letters L0. exists p0, p1, p3. repeat split; auto; [cbn; intuition|exact (lang_whole _ L1)|exact (lang_day_hour _ L3)].
Qed.
Lemma sapp_assoc : forall a b c : string, (a ++ b) ++ c = a ++ b ++ c.
Proof. induction a as [|x a IH]; intros b c; cbn; [reflexivity | rewrite IH; reflexivity]. Qed.
Lemma whole_first : forall a t, whole_degrees a t -> exists c s, a = String c s /\ c <> "X"%char /\ c <> "N"%char /\ c <> "/"%char.
Proof.
  intros a t ([|] & d & v & -> & [L D] & _); [exists "M"%char, d; repeat split; discriminate|].
  destruct d as [|c s]; [discriminate L|]. exists c, s. cbn [decimal] in D. split; [reflexivity|].
  repeat split; intros ->; discriminate D.
Qed.
Lemma whole_shape : forall a t, whole_degrees a t -> exists f, In f [repeat digit_cls 2; [("M", "M")]%char :: repeat digit_cls 2] /\ fits_shape f a = true.
Proof.
  intros a t ([|] & d & v & -> & N & _); apply numeral_shape in N.
  - exists ([("M", "M")]%char :: repeat digit_cls 2). split; [cbn; auto|]. exact N.
  - exists (repeat digit_cls 2). split; [cbn; auto|]. exact N.
Qed.
Lemma forecast_matches : forall l a b t time, In l [""; "X"; "N"] -> whole_degrees a t -> day_hour b time ->
  exists m, regex_match rgx_forecastminmax ("T" ++ l ++ a ++ "/" ++ b ++ "Z") = Some m /\ mstr m 1 = l /\ mstr m 2 = a /\ mstr m 3 = b.
Proof.
  intros l a b t time Hl A B.
  assert (M : exists m, regex_match rgx_forecastminmax ("T" ++ l ++ a ++ "/" ++ b ++ "Z") = Some m).
  { destruct (whole_shape _ _ A) as (f & If & Ff).
    destruct B as (d & h & x & y & -> & D & H & _). apply numeral_shape in D, H. pose proof (shape_app _ _ _ _ D H) as B.
    assert (Lf : exists lf, In lf [[]; [[("X", "X"); ("N", "N")]%char]] /\ fits_shape lf l = true).
    { cbn in Hl. destruct Hl as [<-|[<-|[<-|[]]]]; [exists []|exists [[("X", "X"); ("N", "N")]%char]..]; cbn; auto. }
    destruct Lf as (lf & Il & Fl).
    pose proof (shape_app [[("T", "T")]%char] _ "T" _ eq_refl (shape_app _ _ _ _ Fl (shape_app _ _ _ _ Ff
      (shape_app [[("/", "/")]%char] _ "/" _ eq_refl (shape_app _ [[("Z", "Z")]%char] _ "Z" B eq_refl))))) as F.
    match type of F with fits_shape ?g ?s = true =>
      assert (Ig : In g (match shapes rgx_forecastminmax with Some l => l | None => [] end));
      [|destruct (shape_match rgx_forecastminmax _ g s ltac:(vm_compute; reflexivity) Ig F) as (m & M & _); eauto] end.
    clear - If Il. cbn in If, Il. destruct If as [<-|[<-|[]]], Il as [<-|[<-|[]]]; vm_compute; tauto. }
  destruct M as (m & M). exists m. split; [exact M|]. destruct (forecast_match _ _ M) as (l' & a' & b' & E & Hl' & -> & -> & -> & (t' & A') & (time' & B')).
  apply (app_inj_len "T" _ "T" _ eq_refl) in E. destruct E as [_ E]. rewrite <- !sapp_assoc in E.
  pose proof (dh_len _ _ B) as [Lb _]. pose proof (dh_len _ _ B') as [Lb' _].
  assert (LL : slen (((l ++ a) ++ "/") ++ b) = slen (((l' ++ a') ++ "/") ++ b')).
  { apply (f_equal slen) in E. rewrite !slen_app in E. rewrite !slen_app. lia. }
  apply app_inj_len in E; [|exact LL]. destruct E as [E _]. rewrite !slen_app in LL.
  apply app_inj_len in E; [|rewrite !slen_app; lia]. destruct E as [E ->].
  apply app_inj_len in E; [|rewrite !slen_app; lia]. destruct E as [E _].
  destruct (whole_first _ _ A) as (c & s & -> & X1 & X2 & _), (whole_first _ _ A') as (c' & s' & -> & Y1 & Y2 & _).
  cbn in Hl, Hl'. destruct Hl as [<-|[<-|[<-|[]]]], Hl' as [<-|[<-|[<-|[]]]]; cbn in E; injection E; intros; subst; auto; try contradiction; try discriminate.
Qed.
Lemma forecast_parse : forall w g, MinMax_fromForecast w = Ok (Some g) <->
  exists l t time, In l [""; "X"; "N"] /\ forecast_word l w t time /\ g = forecast l t time.
Proof.
  intros w g. unfold MinMax_fromForecast. split.
  - destruct (regex_match rgx_forecastminmax w) as [m|] eqn:M; [|discriminate]. intros H.
    destruct (forecast_match _ _ M) as (l & a & b & -> & Hl & E1 & E2 & E3 & (t & A) & (time & B)). rewrite E2, E3 in H. unfold mlen in H. rewrite E1 in H.
    assert (Na : a <> "//") by (destruct (whole_first _ _ A) as (c & s & -> & _ & _ & N); congruence).
    pose proof A as A'. apply (whole_parse _ _ Na) in A'. pose proof B as B'. apply day_hour_parse in B'. rewrite A', B' in H. cbn [bind] in H.
    injection H as <-. exists l, t, time. split; [exact Hl|]. split; [exists a, b; auto|].
    cbn in Hl. destruct Hl as [<-|[<-|[<-|[]]]]; reflexivity.
  - intros (l & t & time & Hl & (a & b & -> & A & B) & ->). destruct (forecast_matches l a b t time Hl A B) as (m & -> & E1 & -> & ->).
    unfold mlen. rewrite E1.
    assert (Na : a <> "//") by (destruct (whole_first _ _ A) as (c & s & -> & _ & _ & N); congruence).
    apply (whole_parse _ _ Na) in A. apply day_hour_parse in B. rewrite A, B. cbn [bind].
    cbn in Hl. destruct Hl as [<-|[<-|[<-|[]]]]; reflexivity.
Qed.

(** ** Two forecasts in order *)
Definition hundred : list Z := map (fun n => Z.of_nat n - 99)%Z (seq 0 199).
Lemma in_hundred : forall x, (-99 <= x <= 99)%Z -> In x hundred.
Proof. intros x B. apply in_map_iff. exists (Z.to_nat (x + 99)). split; [lia|]. apply in_seq. lia. Qed.
Lemma compare_hundred : forallb (fun x => forallb (fun y => Bool.eqb (flt_ltb (f32_of_Z x) (f32_of_Z y)) (Z.ltb x y)) hundred) hundred = true.
Proof. vm_compute. reflexivity. Qed.
Lemma compare_whole : forall x y, (-99 <= x <= 99)%Z -> (-99 <= y <= 99)%Z -> flt_ltb (f32_of_Z x) (f32_of_Z y) = Z.ltb x y.
Proof.
  intros x y X Y. pose proof compare_hundred as H. rewrite forallb_forall in H. specialize (H x (in_hundred x X)).
  rewrite forallb_forall in H. specialize (H y (in_hundred y Y)). apply Bool.eqb_prop in H. exact H.
Qed.
Lemma whole_value : forall s t, whole_degrees s t -> exists x, tempValue t = Some x /\ precise t = false /\ (-99 <= x <= 99)%Z
  /\ (freezing t = true -> x <= 0)%Z /\ (freezing t = false -> 0 <= x)%Z.
Proof.
  intros s t (m & d & v & -> & N & ->). pose proof (numeral_bound _ _ _ N) as B. cbn in B.
  eexists. split; [reflexivity|]. split; [reflexivity|]. cbn [freezing]. destruct m; repeat split; intros; try discriminate; lia.
Qed.
Definition swapped (t u : Temperature) : res bool :=
  if negb (freezing t) && freezing u then Ok true else
  let! a := deref (Temperature_temperature t) in
  let! b := deref (Temperature_temperature u) in
  Ok (flt_ltb b a).
Lemma swapped_iff : forall r s t u, whole_degrees r t -> whole_degrees s u ->
  (in_order t u /\ swapped t u = Ok false) \/ (~ in_order t u /\ swapped t u = Ok true).
Proof.
  intros r s t u T U. destruct (whole_value _ _ T) as (x & Vx & Px & Bx & Fx & Gx), (whole_value _ _ U) as (y & Vy & Py & By & Fy & Gy).
  unfold swapped, Temperature_temperature. rewrite Vx, Vy, Px, Py. cbn [deref bind]. rewrite compare_whole by assumption.
  unfold in_order. rewrite Vx, Vy.
  destruct (freezing t), (freezing u); cbn [negb andb]; repeat match goal with H : true = true -> _ |- _ => specialize (H eq_refl) | H : false = false -> _ |- _ => specialize (H eq_refl) end.
  - destruct (Z.ltb_spec y x) as [L|L]; [right|left]; (split; [|reflexivity]).
    + intros (a & b & [= <-] & [= <-] & C). lia.
    + exists x, y. repeat split. lia.
  - destruct (Z.ltb_spec y x) as [L|L]; [right|left]; (split; [|reflexivity]).
    + intros (a & b & [= <-] & [= <-] & C). lia.
    + exists x, y. repeat split. destruct (Z.eq_dec x y); [right; split; [assumption|discriminate]|left; lia].
  - right. split; [|reflexivity]. intros (a & b & [= <-] & [= <-] & [C|[C D]]); [lia|]. discriminate (D eq_refl).
  - destruct (Z.ltb_spec y x) as [L|L]; [right|left]; (split; [|reflexivity]).
    + intros (a & b & [= <-] & [= <-] & C). lia.
    + exists x, y. repeat split. destruct (Z.eq_dec x y); [right; split; [assumption|discriminate]|left; lia].
Qed.

(** ** The words so far *)
Definition pair (lo hi : Temperature) (tl th : MetafTime) : MinMaxTemperatureGroup := mkMinMax Mm_FORECAST lo hi (Some tl) (Some th) false.
Inductive state (part : ReportPart) : list string -> MinMaxTemperatureGroup -> Prop :=
| state_6 : forall ws lo hi, part = RP_RMK -> Six_hourly ws lo hi -> ws <> [] -> state part ws (six (given lo) (given hi))
| state_24 : forall a b lo hi, part = RP_RMK -> tenths_of_degree a hi -> tenths_of_degree b lo -> state part ["4" ++ a ++ b] (day lo hi)
| state_label : forall l w t time, part = RP_TAF -> In l [""; "X"; "N"] -> forecast_word l w t time -> state part [w] (forecast l t time)
| state_xn : forall w v t time u time', part = RP_TAF -> forecast_word "X" w t time -> forecast_word "N" v u time' ->
    state part [w; v] (pair u t time' time)
| state_nx : forall w v t time u time', part = RP_TAF -> forecast_word "N" w t time -> forecast_word "X" v u time' ->
    state part [w; v] (pair t u time time')
| state_pair : forall w v t time u time', part = RP_TAF -> forecast_word "" w t time -> forecast_word "" v u time' ->
    in_order t u -> state part [w; v] (pair t u time time')
| state_swapped : forall w v t time u time', part = RP_TAF -> forecast_word "" w t time -> forecast_word "" v u time' ->
    ~ in_order t u -> state part [w; v] (pair u t time' time).
Lemma state_says : forall part ws g, state part ws g -> MinMax part ws (extremes_of g).
Proof.
  intros part ws g H. destruct H as [ws lo hi P X N|a b lo hi P A B|l w t time P Hl F|w v t time u time' P F G|w v t time u time' P F G|w v t time u time' P F G O|w v t time u time' P F G O].
  - constructor; assumption.
  - constructor; assumption.
  - cbn in Hl. destruct Hl as [<-|[<-|[<-|[]]]]; [apply MinMax_either|apply MinMax_max|apply MinMax_min]; assumption.
  - apply (MinMax_max_min part w v t time u time'); assumption.
  - apply (MinMax_min_max part w v t time u time'); assumption.
  - apply (MinMax_pair part w v t time u time'); assumption.
  - apply (MinMax_swapped part w v t time u time'); assumption.
Qed.
Lemma minmax_first : forall part w md g, MinMaxTemperatureGroup_parse w part md = Ok (Some g) -> state part [w] g.
Proof.
  intros part w md g H. unfold MinMaxTemperatureGroup_parse in H.
  destruct (is_part part RP_TAF) eqn:P.
  - apply is_part_true in P. apply forecast_parse in H. destruct H as (l & t & time & Hl & F & ->). apply state_label; assumption.
  - destruct (is_part part RP_RMK) eqn:Q; [|discriminate]. apply is_part_true in Q. apply or_else_some in H. destruct H as [H|[_ H]].
    + apply six_parse in H. destruct H as [w W|s t T|s t T].
      * apply (state_6 _ _ None None Q); [|discriminate]. apply (Six_missing []); [constructor|auto|exact W].
      * apply (state_6 _ _ None (Some t) Q); [|discriminate]. apply (Six_max []); [constructor|exact T].
      * apply (state_6 _ _ (Some t) None Q); [|discriminate]. apply (Six_min []); [constructor|exact T].
    + apply day_parse in H. destruct H as (a & b & lo & hi & -> & A & B & ->). apply state_24; assumption.
Qed.
Lemma tenths_reported : forall s t, tenths_of_degree s t -> Temperature_isReported t = true.
Proof. intros s t (m & d & v & _ & _ & ->). reflexivity. Qed.
Lemma whole_reported : forall s t, whole_degrees s t -> Temperature_isReported t = true.
Proof. intros s t (m & d & v & _ & _ & ->). reflexivity. Qed.
Lemma six_reported : forall ws lo hi, Six_hourly ws lo hi ->
  Temperature_isReported (given lo) = has_value lo /\ Temperature_isReported (given hi) = has_value hi.
Proof.
  intros ws lo hi H. induction H as [|ws w lo hi H IH|ws s lo t H IH T|ws s hi t H IH T]; try (split; reflexivity); try exact IH.
  - split; [apply IH|]. cbn. exact (tenths_reported _ _ T).
  - split; [|apply IH]. cbn. exact (tenths_reported _ _ T).
Qed.
Lemma forecast_reported : forall l w t time, forecast_word l w t time -> Temperature_isReported t = true.
Proof. intros l w t time (a & b & _ & A & _). exact (whole_reported _ _ A). Qed.
Lemma forecast_whole : forall l w t time, forecast_word l w t time -> exists s, whole_degrees s t.
Proof. intros l w t time (a & b & _ & A & _). eauto. Qed.

Lemma minmax_next : forall part ws w md g g' a, state part ws g ->
  MinMaxTemperatureGroup_append g w part md = Ok (g', a) ->
  (a = APPENDED /\ state part (ws ++ [w])%list g') \/ (a <> APPENDED /\ g' = g).
Proof.
  intros part ws w md g g' a W H.
  destruct W as [ws lo hi P X N|x b lo hi P A B|l v t time P Hl F|v v' t time u time' P F G|v v' t time u time' P F G|v v' t time u time' P F G O|v v' t time u time' P F G O].
  - cbn [MinMaxTemperatureGroup_append six mm_t] in H. unfold MinMax_append6hourly in H. cbn [six mm_minTemp mm_maxTemp] in H.
    destruct (six_reported _ _ _ X) as [Rl Rh]. rewrite Rl, Rh in H.
    destruct (has_value lo && has_value hi) eqn:Both; [right; injection H as <- <-; split; [discriminate|reflexivity]|].
    apply bind_ok in H. destruct H as ([n|] & Hn & H); [|right; injection H as <- <-; split; [discriminate|reflexivity]].
    apply six_parse in Hn. destruct Hn as [w Ww|s t T|s t T]; cbn [six mm_minTemp mm_maxTemp mm_t mm_minTime mm_maxTime mm_isIncomplete] in H;
      change (Temperature_isReported no_temperature) with false in H; rewrite ?(tenths_reported _ _ T) in H;
      destruct lo as [lo|], hi as [hi|]; cbn in Both, H; try discriminate Both;
      injection H as <- <-; try (right; split; [discriminate|reflexivity]); left; (split; [reflexivity|]).
    + apply (state_6 _ _ (Some lo) None P); [apply Six_missing; auto|destruct ws; discriminate].
    + apply (state_6 _ _ None (Some hi) P); [apply Six_missing; auto|destruct ws; discriminate].
    + apply (state_6 _ _ None None P); [apply Six_missing; auto|destruct ws; discriminate].
    + apply (state_6 _ _ (Some lo) (Some t) P); [apply Six_max; auto|destruct ws; discriminate].
    + apply (state_6 _ _ None (Some t) P); [apply Six_max; auto|destruct ws; discriminate].
    + apply (state_6 _ _ (Some t) (Some hi) P); [apply Six_min; auto|destruct ws; discriminate].
    + apply (state_6 _ _ (Some t) None P); [apply Six_min; auto|destruct ws; discriminate].
  - right. injection H as <- <-. split; [discriminate|reflexivity].
  - cbn in Hl. destruct Hl as [<-|[<-|[<-|[]]]]; cbn [MinMaxTemperatureGroup_append forecast seqb String.eqb Ascii.eqb Bool.eqb mm_t] in H;
      unfold MinMax_appendForecast in H; cbn [mm_minTemp mm_maxTemp mm_isIncomplete mm_minTime mm_maxTime mm_t negb andb] in H;
      change (Temperature_isReported no_temperature) with false in H; rewrite ?(forecast_reported _ _ _ _ F) in H; cbn [negb andb] in H;
      apply bind_ok in H; (destruct H as ([n|] & Hn & H); [|right; injection H as <- <-; split; [discriminate|reflexivity]]);
      apply forecast_parse in Hn; destruct Hn as (l & u & time' & Hl & G & ->); cbn in Hl; (destruct Hl as [<-|[<-|[<-|[]]]]);
      cbn [forecast seqb String.eqb Ascii.eqb Bool.eqb mm_minTemp mm_maxTemp mm_isIncomplete mm_minTime mm_maxTime mm_t negb andb] in H;
      change (Temperature_isReported no_temperature) with false in H; rewrite ?(forecast_reported _ _ _ _ F), ?(forecast_reported _ _ _ _ G) in H; cbn [negb andb orb] in H.
    + change (bind (swapped t u) (fun swap : bool => Ok ((if swap then pair u t time' time else pair t u time time'), APPENDED)) = Ok (g', a)) in H.
      destruct (forecast_whole _ _ _ _ F) as [r R], (forecast_whole _ _ _ _ G) as [s S].
      destruct (swapped_iff r s t u R S) as [[O E]|[O E]]; rewrite E in H; injection H as <- <-; left; (split; [reflexivity|]).
      * apply (state_pair part v w t time u time' P F G O).
      * apply (state_swapped part v w t time u time' P F G O).
    + right. injection H as <- <-. split; [discriminate|reflexivity].
    + right. injection H as <- <-. split; [discriminate|reflexivity].
    + right. injection H as <- <-. split; [discriminate|reflexivity].
    + right. injection H as <- <-. split; [discriminate|reflexivity].
    + left. injection H as <- <-. split; [reflexivity|]. apply (state_xn part v w t time u time' P F G).
    + right. injection H as <- <-. split; [discriminate|reflexivity].
    + left. injection H as <- <-. split; [reflexivity|]. apply (state_nx part v w t time u time' P F G).
    + right. injection H as <- <-. split; [discriminate|reflexivity].
  - right. cbn [MinMaxTemperatureGroup_append pair mm_t] in H. unfold MinMax_appendForecast in H. cbn [pair mm_minTemp mm_maxTemp mm_isIncomplete] in H.
    rewrite (forecast_reported _ _ _ _ F), (forecast_reported _ _ _ _ G) in H. injection H as <- <-. split; [discriminate|reflexivity].
  - right. cbn [MinMaxTemperatureGroup_append pair mm_t] in H. unfold MinMax_appendForecast in H. cbn [pair mm_minTemp mm_maxTemp mm_isIncomplete] in H.
    rewrite (forecast_reported _ _ _ _ F), (forecast_reported _ _ _ _ G) in H. injection H as <- <-. split; [discriminate|reflexivity].
  - right. cbn [MinMaxTemperatureGroup_append pair mm_t] in H. unfold MinMax_appendForecast in H. cbn [pair mm_minTemp mm_maxTemp mm_isIncomplete] in H.
    rewrite (forecast_reported _ _ _ _ F), (forecast_reported _ _ _ _ G) in H. injection H as <- <-. split; [discriminate|reflexivity].
  - right. cbn [MinMaxTemperatureGroup_append pair mm_t] in H. unfold MinMax_appendForecast in H. cbn [pair mm_minTemp mm_maxTemp mm_isIncomplete] in H.
    rewrite (forecast_reported _ _ _ _ F), (forecast_reported _ _ _ _ G) in H. injection H as <- <-. split; [discriminate|reflexivity].
Qed.

Lemma assembled_state : forall part ws g, MinMax_assembled part ws g -> state part ws g.
Proof.
  intros part ws g H. induction H as [w md g H|ws w md g g' _ IH H]; [exact (minmax_first _ _ _ _ H)|].
  destruct (minmax_next _ _ _ _ _ _ _ IH H) as [[_ X]|[X _]]; [exact X|contradiction].
Qed.
Lemma six_assembled : forall ws lo hi, Six_hourly ws lo hi -> ws <> [] -> MinMax_assembled RP_RMK ws (six (given lo) (given hi)).
Proof.
  assert (One : forall w g, six_word w g -> MinMax_assembled RP_RMK [w] g).
  { intros w g W. apply (MinMax_begun _ _ md_default). apply six_parse in W. unfold MinMaxTemperatureGroup_parse. cbn [is_part ReportPart_beq].
    unfold or_else. rewrite W. reflexivity. }
  assert (More : forall ws w lo hi n g', Six_hourly ws lo hi -> six_word w n -> (ws <> [] -> MinMax_assembled RP_RMK ws (six (given lo) (given hi))) -> ws <> [] ->
    (MinMax_from6hourly w = Ok (Some n) -> MinMaxTemperatureGroup_append (six (given lo) (given hi)) w RP_RMK md_default = Ok (g', APPENDED)) ->
    MinMax_assembled RP_RMK (ws ++ [w]) g').
  { intros ws w lo hi n g' _ Wn IH N A. apply (MinMax_continued _ _ _ md_default _ _ (IH N)). apply A, six_parse, Wn. }
  intros ws lo hi H. induction H as [|ws w lo hi H IH B W|ws s lo t H IH T|ws s hi t H IH T]; intros N; [contradiction| | |].
  - destruct ws as [|w0 ws]; [inversion H; subst; [apply One; constructor; exact W|destruct ws; discriminate..]|].
    apply (More _ _ lo hi _ _ H (six_missing w W) IH ltac:(discriminate)). intros E.
    cbn [MinMaxTemperatureGroup_append six mm_t]. unfold MinMax_append6hourly. cbn [six mm_minTemp mm_maxTemp].
    destruct (six_reported _ _ _ H) as [-> ->].
    replace (has_value lo && has_value hi) with false by (destruct B as [-> | ->]; [reflexivity|rewrite andb_false_r; reflexivity]).
    rewrite E. cbn [bind six mm_minTemp mm_maxTemp]. change (Temperature_isReported no_temperature) with false. rewrite !andb_false_r. reflexivity.
  - destruct ws as [|w0 ws]; [inversion H; subst; [apply One; apply six_max; exact T|destruct ws; discriminate..]|].
    apply (More _ _ lo None _ _ H (six_max s t T) IH ltac:(discriminate)). intros E.
    cbn [MinMaxTemperatureGroup_append six mm_t]. unfold MinMax_append6hourly. cbn [six mm_minTemp mm_maxTemp].
    destruct (six_reported _ _ _ H) as [-> ->]. cbn [has_value]. rewrite andb_false_r.
    rewrite E. cbn [bind six mm_minTemp mm_maxTemp]. change (Temperature_isReported no_temperature) with false. rewrite (tenths_reported _ _ T), !andb_false_r. reflexivity.
  - destruct ws as [|w0 ws]; [inversion H; subst; [apply One; apply six_min; exact T|destruct ws; discriminate..]|].
    apply (More _ _ None hi _ _ H (six_min s t T) IH ltac:(discriminate)). intros E.
    cbn [MinMaxTemperatureGroup_append six mm_t]. unfold MinMax_append6hourly. cbn [six mm_minTemp mm_maxTemp].
    destruct (six_reported _ _ _ H) as [-> ->]. cbn [has_value andb].
    rewrite E. cbn [bind six mm_minTemp mm_maxTemp]. change (Temperature_isReported no_temperature) with false. rewrite (tenths_reported _ _ T), !andb_false_r. reflexivity.
Qed.
Lemma not_six : forall s, MinMax_from6hourly ("4" ++ s) = Ok None.
Proof.
  intros s. unfold MinMax_from6hourly. destruct (regex_match rgx_6hourly ("4" ++ s)) as [m|] eqn:M; [|reflexivity].
  destruct (six_match _ _ M) as (l & q & E & [-> | ->] & _); discriminate E.
Qed.
Lemma state_assembled : forall part ws g, state part ws g -> MinMax_assembled part ws g.
Proof.
  assert (One : forall l w t time, In l [""; "X"; "N"] -> forecast_word l w t time -> MinMax_assembled RP_TAF [w] (forecast l t time)).
  { intros l w t time Hl F. apply (MinMax_begun _ _ md_default). apply forecast_parse. exists l, t, time. auto. }
  assert (Two : forall l w t time l' v u time' g', In l [""; "X"; "N"] -> In l' [""; "X"; "N"] -> forecast_word l w t time -> forecast_word l' v u time' ->
    (MinMax_fromForecast v = Ok (Some (forecast l' u time')) -> MinMaxTemperatureGroup_append (forecast l t time) v RP_TAF md_default = Ok (g', APPENDED)) ->
    MinMax_assembled RP_TAF [w; v] g').
  { intros l w t time l' v u time' g' Hl Hl' F G A. apply (MinMax_continued _ [w] _ md_default _ _ (One _ _ _ _ Hl F)). apply A. apply forecast_parse. exists l', u, time'. auto. }
  intros part ws g H. destruct H as [ws lo hi -> X N|x b lo hi -> A B|l w t time -> Hl F|w v t time u time' -> F G|w v t time u time' -> F G|w v t time u time' -> F G O|w v t time u time' -> F G O].
  - apply six_assembled; assumption.
  - apply (MinMax_begun _ _ md_default). unfold MinMaxTemperatureGroup_parse. cbn [is_part ReportPart_beq]. unfold or_else. rewrite not_six. cbn [bind].
    apply day_parse. exists x, b, lo, hi. auto.
  - apply One; assumption.
  - apply (Two "X" w t time "N" v u time'); [cbn; auto|cbn; auto|exact F|exact G|]. intros E.
    cbn [MinMaxTemperatureGroup_append forecast seqb String.eqb Ascii.eqb Bool.eqb mm_t]. unfold MinMax_appendForecast.
    cbn [mm_minTemp mm_maxTemp mm_isIncomplete mm_minTime mm_maxTime mm_t negb andb]. change (Temperature_isReported no_temperature) with false. cbn [andb].
    rewrite E. cbn [bind forecast seqb String.eqb Ascii.eqb Bool.eqb mm_minTemp mm_maxTemp mm_isIncomplete mm_minTime mm_maxTime mm_t negb andb].
    change (Temperature_isReported no_temperature) with false. rewrite (forecast_reported _ _ _ _ F), (forecast_reported _ _ _ _ G). cbn [negb andb].
    rewrite (forecast_reported _ _ _ _ F), (forecast_reported _ _ _ _ G). reflexivity.
  - apply (Two "N" w t time "X" v u time'); [cbn; auto|cbn; auto|exact F|exact G|]. intros E.
    cbn [MinMaxTemperatureGroup_append forecast seqb String.eqb Ascii.eqb Bool.eqb mm_t]. unfold MinMax_appendForecast.
    cbn [mm_minTemp mm_maxTemp mm_isIncomplete mm_minTime mm_maxTime mm_t negb andb]. change (Temperature_isReported no_temperature) with false. rewrite andb_false_r. cbn [andb].
    rewrite E. cbn [bind forecast seqb String.eqb Ascii.eqb Bool.eqb mm_minTemp mm_maxTemp mm_isIncomplete mm_minTime mm_maxTime mm_t negb andb].
    change (Temperature_isReported no_temperature) with false. rewrite (forecast_reported _ _ _ _ F), (forecast_reported _ _ _ _ G). cbn [negb andb].
    rewrite (forecast_reported _ _ _ _ F), (forecast_reported _ _ _ _ G). reflexivity.
  - apply (Two "" w t time "" v u time'); [cbn; auto|cbn; auto|exact F|exact G|]. intros E.
    cbn [MinMaxTemperatureGroup_append forecast seqb String.eqb mm_t]. unfold MinMax_appendForecast.
    cbn [mm_minTemp mm_maxTemp mm_isIncomplete mm_minTime mm_maxTime mm_t negb]. rewrite andb_false_r, E. cbn [bind forecast seqb String.eqb mm_isIncomplete Bool.eqb negb mm_maxTemp mm_maxTime].
    change (bind (swapped t u) (fun swap : bool => Ok ((if swap then pair u t time' time else pair t u time time'), APPENDED)) = Ok (pair t u time time', APPENDED)).
    destruct (forecast_whole _ _ _ _ F) as [r R], (forecast_whole _ _ _ _ G) as [s S].
    destruct (swapped_iff r s t u R S) as [[_ ->]|[X _]]; [reflexivity|contradiction].
  - apply (Two "" w t time "" v u time'); [cbn; auto|cbn; auto|exact F|exact G|]. intros E.
    cbn [MinMaxTemperatureGroup_append forecast seqb String.eqb mm_t]. unfold MinMax_appendForecast.
    cbn [mm_minTemp mm_maxTemp mm_isIncomplete mm_minTime mm_maxTime mm_t negb]. rewrite andb_false_r, E. cbn [bind forecast seqb String.eqb mm_isIncomplete Bool.eqb negb mm_maxTemp mm_maxTime].
    change (bind (swapped t u) (fun swap : bool => Ok ((if swap then pair u t time' time else pair t u time time'), APPENDED)) = Ok (pair u t time' time, APPENDED)).
    destruct (forecast_whole _ _ _ _ F) as [r R], (forecast_whole _ _ _ _ G) as [s S].
    destruct (swapped_iff r s t u R S) as [[X _]|[_ ->]]; [contradiction|reflexivity].
Qed.
Lemma says_state : forall part ws v, MinMax part ws v -> exists g, state part ws g /\ extremes_of g = v.
Proof.
  intros part ws v H.
  destruct H as [ws lo hi P X N|a b lo hi P A B|w t time P F|w t time P F|w v t time u time' P F G|w v t time u time' P F G|w t time P F|w v t time u time' P F G O|w v t time u time' P F G O].
  - exists (six (given lo) (given hi)). split; [constructor; assumption|reflexivity].
  - exists (day lo hi). split; [constructor; assumption|reflexivity].
  - exists (forecast "X" t time). split; [constructor; cbn; auto|reflexivity].
  - exists (forecast "N" t time). split; [constructor; cbn; auto|reflexivity].
  - exists (pair u t time' time). split; [apply (state_xn part w v t time u time'); assumption|reflexivity].
  - exists (pair t u time time'). split; [apply (state_nx part w v t time u time'); assumption|reflexivity].
  - exists (forecast "" t time). split; [constructor; cbn; auto|reflexivity].
  - exists (pair t u time time'). split; [apply (state_pair part w v t time u time'); assumption|reflexivity].
  - exists (pair u t time' time). split; [apply (state_swapped part w v t time u time'); assumption|reflexivity].
Qed.
Theorem minmax_iff : forall part ws v, (exists g, MinMax_assembled part ws g /\ extremes_of g = v) <-> MinMax part ws v.
Proof.
  intros part ws v. split.
  - intros (g & A & <-). apply state_says, assembled_state, A.
  - intros H. destruct (says_state _ _ _ H) as (g & A & E). exists g. split; [apply state_assembled; exact A|exact E].
Qed.
(** ** Groups of a report *)
Lemma built_minmax : forall part ws g, Built part ws (GMinMaxTemperature g) -> MinMax_assembled part ws g.
Proof.
  intros part ws g B.
  refine (built_kind part (fun ws k => match k with GMinMaxTemperature x => MinMax_assembled part ws x | _ => True end) _ _ _ _ ws (GMinMaxTemperature g) B).
  - exact (fun _ => I).
  - intros w md [] P; try exact I. exact (MinMax_begun _ _ _ _ P).
  - intros l w md [] [] _ IH A; try exact I; try contradiction. exact (MinMax_continued _ _ _ _ _ _ IH A).
  - intros l w part' md [] [] _ IH A; try exact I; try contradiction. cbn [appended_as] in A.
    destruct (minmax_next part _ w md _ _ _ (assembled_state _ _ _ IH) A) as [[X _]|[_ ->]]; [discriminate X|exact IH].
Qed.
Theorem result_minmax : forall sgn report limit r, parse sgn report limit = Ok r ->
  forall g part raw, In (mkGroupInfo (GMinMaxTemperature g) part raw) (pr_groups r) -> raw <> "" ->
  MinMax part (words_of raw) (extremes_of g).
Proof.
  intros sgn report limit r E g part raw Hi N. destruct (result_built _ _ _ _ E _ Hi) as [X|B]; [contradiction|].
  apply state_says, assembled_state, built_minmax. exact B.
Qed.
(** ** Unlabelled forecasts *)
Lemma label_unique : forall l l' w t time u time', In l [""; "X"; "N"] -> In l' [""; "X"; "N"] ->
  forecast_word l w t time -> forecast_word l' w u time' -> l = l'.
Proof.
  intros l l' w t time u time' Hl Hl' (a & b & -> & A & B) (a' & b' & E & A' & B').
  destruct (forecast_matches l a b t time Hl A B) as (m & M & E1 & _).
  rewrite E in M. destruct (forecast_matches l' a' b' u time' Hl' A' B') as (m' & M' & E1' & _). congruence.
Qed.
Theorem unlabelled : forall part w v g t time u time', MinMax_assembled part [w; v] g ->
  forecast_word "" w t time -> forecast_word "" v u time' ->
  exists lo hi, Temperature_temperature (mm_minTemp g) = Some lo /\ Temperature_temperature (mm_maxTemp g) = Some hi
    /\ flt_ltb hi lo = false /\ (freezing (mm_maxTemp g) = true -> freezing (mm_minTemp g) = true)
    /\ (mm_minTemp g = t /\ mm_minTime g = Some time /\ mm_maxTemp g = u /\ mm_maxTime g = Some time'
        \/ mm_minTemp g = u /\ mm_minTime g = Some time' /\ mm_maxTemp g = t /\ mm_maxTime g = Some time).
Proof.
  intros part w v g t time u time' H F G. apply assembled_state in H.
  assert (D : forall l w t time u time', In l ["X"; "N"] -> forecast_word l w t time -> forecast_word "" w u time' -> False).
  { intros l x p q p' q' Hl P Q. assert (l = "") by (eapply label_unique; [| |exact P|exact Q]; cbn in *; intuition). subst l. cbn in Hl. intuition discriminate. }
  assert (U : forall w t time t' time', forecast_word "" w t time -> forecast_word "" w t' time' -> t = t' /\ time = time').
  { intros x p q p' q' P Q. assert (X : MinMax_fromForecast x = Ok (Some (forecast "" p q))) by (apply forecast_parse; exists "", p, q; cbn; auto).
    assert (Y : MinMax_fromForecast x = Ok (Some (forecast "" p' q'))) by (apply forecast_parse; exists "", p', q'; cbn; auto).
    rewrite X in Y. unfold forecast in Y. cbn in Y. injection Y. intros. subst. auto. }
  assert (C : forall lo hi a b, whole_degrees a lo -> whole_degrees b hi -> (in_order lo hi \/ ~ in_order hi lo) ->
    exists x y, Temperature_temperature lo = Some x /\ Temperature_temperature hi = Some y /\ flt_ltb y x = false /\ (freezing hi = true -> freezing lo = true)).
  { intros lo hi a b A B O. destruct (whole_value _ _ A) as (x & Vx & Px & Bx & Fx & Gx), (whole_value _ _ B) as (y & Vy & Py & By & Fy & Gy).
    unfold Temperature_temperature. rewrite Vx, Vy, Px, Py. do 2 eexists. split; [reflexivity|]. split; [reflexivity|]. rewrite compare_whole by assumption.
    destruct O as [(p & q & E1 & E2 & O)|O].
    - rewrite Vx in E1. rewrite Vy in E2. injection E1 as <-. injection E2 as <-. split; [apply Z.ltb_ge; lia|].
      intros Z. destruct (freezing lo) eqn:L; [reflexivity|]. specialize (Gx eq_refl). specialize (Fy Z). destruct O as [O|[_ O]]; [lia|exact (O Z)].
    - unfold in_order in O. rewrite Vx, Vy in O. split.
      + apply Z.ltb_ge. destruct (Z.le_gt_cases x y) as [K|K]; [exact K|]. exfalso. apply O. exists y, x. repeat split. left. lia.
      + intros Z. destruct (freezing lo) eqn:L; [reflexivity|]. exfalso. apply O. specialize (Gx eq_refl). specialize (Fy Z).
        exists y, x. repeat split. destruct (Z.eq_dec y x); [right; split; [assumption|discriminate]|left; lia]. }
  inversion H as [ws lo hi P X N E1 E2| |l w0 t0 time0 P Hl F0|w0 v0 t0 time0 u0 time1 P F0 G0|w0 v0 t0 time0 u0 time1 P F0 G0|w0 v0 t0 time0 u0 time1 P F0 G0 O|w0 v0 t0 time0 u0 time1 P F0 G0 O]; subst.
  - exfalso. destruct F as (a & b & -> & _). clear - X. remember ["T" ++ "" ++ a ++ "/" ++ b ++ "Z"; v] as ws eqn:E.
    assert (Fst : forall x, In x ws -> exists c s, x = String c s /\ (c = "1" \/ c = "2")%char).
    { clear - X. induction X as [|ws w lo hi H IH B W|ws s lo t H IH T|ws s hi t H IH T]; intros x Hx; [contradiction| | |];
        apply in_app_or in Hx; (destruct Hx as [Hx|[<-|[]]]; [exact (IH _ Hx)|]); [destruct W as [-> | ->]| |]; do 2 eexists; (split; [reflexivity|auto]). }
    subst ws. destruct (Fst _ (or_introl eq_refl)) as (c & s & E & C). cbn in E. injection E as <- _. destruct C as [C|C]; discriminate C.
  - exfalso. exact (D "X" _ _ _ _ _ (or_introl eq_refl) F0 F).
  - exfalso. exact (D "N" _ _ _ _ _ (or_intror (or_introl eq_refl)) F0 F).
  - destruct (U _ _ _ _ _ F F0) as [-> ->], (U _ _ _ _ _ G G0) as [-> ->].
    destruct (forecast_whole _ _ _ _ F) as [r R], (forecast_whole _ _ _ _ G) as [s S].
    destruct (C _ _ _ _ R S (or_introl O)) as (x & y & Tx & Ty & Lt & Fr). exists x, y. cbn [pair mm_minTemp mm_maxTemp mm_minTime mm_maxTime]. auto 10.
  - destruct (U _ _ _ _ _ F F0) as [-> ->], (U _ _ _ _ _ G G0) as [-> ->].
    destruct (forecast_whole _ _ _ _ F) as [r R], (forecast_whole _ _ _ _ G) as [s S].
    destruct (C _ _ _ _ S R (or_intror O)) as (x & y & Tx & Ty & Lt & Fr). exists x, y. cbn [pair mm_minTemp mm_maxTemp mm_minTime mm_maxTime]. auto 10.
Qed.
Lemma minmax_refused : forall part ws g w part' md g', MinMax_assembled part ws g ->
  MinMaxTemperatureGroup_append g w part' md = Ok (g', NOT_APPENDED) -> g' = g.
Proof.
  intros part ws g w part' md g' A H. destruct (minmax_next part _ w md _ _ _ (assembled_state _ _ _ A) H) as [[X _]|[_ ->]]; [discriminate X|reflexivity].
Qed.
