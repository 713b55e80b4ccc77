(** Each value has its line in the text of the web page (C82). *)
From Coq Require Import Lia ZArith NArith List String Bool.
Import ListNotations.
From Verif Require Import Prim Lib Float Format Values Weather Summary Page.
From Verif Require Import SpecDecimal SpecNumeral SpecShown SpecFigures SpecStream SpecDirection SpecExplain SpecSummary SpecPage.
From Verif Require Import Pf_ExNumber Pf_ExShown Pf_ExText Pf_Page Pf_PageLines.
Local Open Scope string_scope.

(** *** Finding a line *)
Lemma free_app : forall op a b, no_line op a -> no_line op b -> no_line op (a ++ b)%list.
Proof. intros op a b A B l I. apply in_app_or in I. destruct I as [I|I]; [exact (A l I)|exact (B l I)]. Qed.
Lemma free_if : forall op b s, prefix op s = false -> no_line op (only_if b s).
Proof. intros op [] s H l I; cbn [only_if] in I; [destruct I as [<-|[]]; exact H|destruct I]. Qed.
Lemma free_opt : forall op o f, (forall v, prefix op (f v) = false) -> no_line op (opt o f).
Proof. intros op [v|] f H l I; cbn [opt] in I; [destruct I as [<-|[]]; apply H|destruct I]. Qed.
Lemma free_one : forall op s, prefix op s = false -> no_line op [s].
Proof. intros op s H l [<-|[]]. exact H. Qed.
Lemma free_nil : forall op, no_line op [].
Proof. intros op l []. Qed.
Definition openings : list string :=
  ["Hot"; "Cold"; "Windy"; "Gusty wind"; "Temperature "; "Feels like "; "Wind "; "RH "; "Visibility "; "Atmospheric pressure "; "Updated: "].
Lemma symbols_free : forallb (fun op => forallb (fun s => negb (prefix op (sym_text s))) all_SumWeather) openings = true.
Proof. vm_compute. reflexivity. Qed.
Lemma free_symbols : forall op l, existsb (String.eqb op) openings = true -> no_line op (map sym_text l).
Proof.
  intros op l O x I. apply in_strings in O. apply in_map_iff in I. destruct I as (s & <- & _).
  pose proof (proj1 (forallb_forall _ _) (proj1 (forallb_forall _ _) symbols_free op O) s (all_symbols_listed s)) as X.
  apply negb_true_iff in X. exact X.
Qed.
Lemma free_sky : forall op s (b : bool) t, existsb (fun s => prefix op (sky_text s) || prefix (sky_text s) op) [Sky_NOT_SPECIFIED; Sky_CLEAR; Sky_MOSTLY_CLEAR; Sky_MOSTLY_CLOUDY; Sky_OVERCAST] = false ->
  no_line op [sky_text s ++ (if b then t else "")].
Proof.
  intros op s b t H. apply free_one. set (u := if b then t else "").
  assert (G : prefix op (sky_text s) || prefix (sky_text s) op = false).
  { apply Bool.not_true_iff_false. intros X. apply Bool.not_true_iff_false in H. apply H. apply existsb_exists. exists s. split; [destruct s; cbn; tauto|exact X]. }
  clear H. revert G. generalize (sky_text s). clear s. induction op as [|c op IH]; intros [|d k] G; try discriminate G.
  cbn [prefix append] in *. destruct (Ascii.ascii_dec c d) as [->|N]; [|reflexivity].
  destruct (Ascii.ascii_dec d d) as [_|N]; [|destruct (N eq_refl)]. apply IH. exact G.
Qed.
Lemma free_update : forall op clock p, (forall t, prefix op ("Updated: " ++ t) = false) -> no_line op (update_line clock p).
Proof.
  intros op clock p H. unfold update_line. destruct (pw_updateYear p), (pw_updateMonth p), (pw_updateDay p), (pw_updateHour p), (pw_updateMinute p); try apply free_nil.
  destruct (clock _ _ _ _ _) as [[lh lm] ago]. apply free_one, H.
Qed.
Lemma only_skip : forall op pre l r, no_line op pre -> only_line op l r -> only_line op (pre ++ l)%list r.
Proof.
  intros op pre l r F (b & a & E & N). exists (pre ++ b)%list, a. split; [rewrite E; rewrite <- app_assoc; reflexivity|].
  intros x I. rewrite <- app_assoc in I. apply in_app_or in I. destruct I as [I|I]; [exact (F x I)|exact (N x I)].
Qed.
Lemma only_here : forall op post r, no_line op post -> only_line op ([(op ++ r)%string] ++ post)%list r.
Proof. intros op post r F. exists [], post. split; [reflexivity|exact F]. Qed.

Ltac free_piece :=
  first [ apply free_symbols; vm_compute; reflexivity
        | apply free_if; reflexivity
        | apply free_opt; intros ?; reflexivity
        | apply free_sky; vm_compute; reflexivity
        | apply free_one; reflexivity
        | apply free_update; intros ?; reflexivity ].
Ltac free_all := repeat (apply free_app; [free_piece|]); first [free_piece|apply free_nil].
Ltac skip := repeat (apply only_skip; [free_piece|]).

Lemma null_cases : forall v, nullIfNoValue v js_valueNotSpecified = None /\ ~ specified v \/ nullIfNoValue v js_valueNotSpecified = Some v /\ specified v.
Proof.
  intros v. unfold nullIfNoValue, js_valueNotSpecified, specified. destruct (Z.eqb_spec v valueNotSpecified) as [E|E]; [left|right]; split; try reflexivity; auto.
Qed.
Ltac null v := destruct (null_cases v) as [(-> & ?)|(-> & ?)].

Lemma found_skip : forall op pre l (P : Prop), no_line op pre -> prefix op op = true -> (In op l <-> P) -> (In op (pre ++ l)%list <-> P).
Proof.
  intros op pre l P F X E. rewrite <- E. split; [|intros I; apply in_or_app; right; exact I].
  intros I. apply in_app_or in I. destruct I as [I|I]; [rewrite (F _ I) in X; discriminate X|exact I].
Qed.
Lemma found_here : forall op b post (P : Prop), no_line op post -> prefix op op = true -> (b = true <-> P) -> (In op (only_if b op ++ post)%list <-> P).
Proof.
  intros op b post P G X E. rewrite <- E. split.
  - intros I. apply in_app_or in I. destruct I as [I|I]; [destruct b; [reflexivity|destruct I]|rewrite (G _ I) in X; discriminate X].
  - intros ->. left. reflexivity.
Qed.
Lemma hot_iff : forall imperial w, isHot (pw_airTemperature (adaptCurrentWeather w js_valueNotSpecified)) (pw_perceivedTemperature (adaptCurrentWeather w js_valueNotSpecified)) imperial = true <-> hot imperial w.
Proof.
  intros imperial w. cbn [adaptCurrentWeather pw_airTemperature pw_perceivedTemperature]. unfold isHot, hot, felt. cbv zeta.
  null (cw_perceivedTemperature w); [null (cw_airTemperature w)|].
  - split; [discriminate|]. intros (t & [(A & _)|(_ & A & _)] & _); contradiction.
  - rewrite Z.leb_le. split; [intros L; exists (cw_airTemperature w); split; [right|exact L]; auto|]. intros (t & [(A & _)|(_ & A & ->)] & L); [contradiction|exact L].
  - rewrite Z.leb_le. split; [intros L; exists (cw_perceivedTemperature w); split; [left|exact L]; auto|]. intros (t & [(A & ->)|(A & _)] & L); [exact L|contradiction].
Qed.
Lemma cold_iff : forall imperial w, isCold (pw_airTemperature (adaptCurrentWeather w js_valueNotSpecified)) (pw_perceivedTemperature (adaptCurrentWeather w js_valueNotSpecified)) imperial = true <-> cold imperial w.
Proof.
  intros imperial w. cbn [adaptCurrentWeather pw_airTemperature pw_perceivedTemperature]. unfold isCold, cold, felt. cbv zeta.
  null (cw_perceivedTemperature w); [null (cw_airTemperature w)|].
  - split; [discriminate|]. intros (t & [(A & _)|(_ & A & _)] & _); contradiction.
  - rewrite Z.leb_le. split; [intros L; exists (cw_airTemperature w); split; [right|exact L]; auto|]. intros (t & [(A & _)|(_ & A & ->)] & L); [contradiction|exact L].
  - rewrite Z.leb_le. split; [intros L; exists (cw_perceivedTemperature w); split; [left|exact L]; auto|]. intros (t & [(A & ->)|(A & _)] & L); [exact L|contradiction].
Qed.
Lemma windy_iff : forall imperial v, isWindy (nullIfNoValue v js_valueNotSpecified) imperial = true <-> strong imperial v.
Proof.
  intros imperial v. unfold isWindy, strong. null v; [split; [discriminate|intros [A _]; contradiction]|].
  rewrite Z.leb_le. destruct imperial; split; intros L; (split; [assumption|lia]) || lia.
Qed.

Lemma part_shown : forall op v e, value_part op v e (match nullIfNoValue v js_valueNotSpecified with Some s => op ++ js_int s ++ e | None => "" end).
Proof. intros op v e. unfold value_part. null v; split; intros S; try contradiction; [reflexivity|]. exists (js_int v). split; [apply int_shown|reflexivity]. Qed.

(** *** Times *)
Lemma clock_shown : forall h m, (0 <= h < 24 -> 0 <= m < 60 -> clock_text h m (dateTimeToStr_HH_MM h m))%Z.
Proof.
  assert (T : forall z, (0 <= z < 100)%Z -> exists s, (if (z <? 10)%Z then "0" else "") ++ js_int z = s /\ numeral 2 s (Z.to_N z)).
  { intros z Z. destruct (two_digits (Z.to_N z)) as (s & E & N); [lia|]. exists s. split; [|exact N]. rewrite <- E. unfold js_int, dec_Z.
    replace (z <? 0)%Z with false by (symmetry; apply Z.ltb_ge; lia). f_equal.
    destruct (Z.ltb_spec z 10), (N.ltb_spec (Z.to_N z) 10); try reflexivity; lia. }
  intros h m H M. destruct (T h ltac:(lia)) as (hh & Eh & Nh). destruct (T m ltac:(lia)) as (mm & Em & Nm). exists hh, mm. split; [exact Nh|]. split; [exact Nm|].
  unfold dateTimeToStr_HH_MM. rewrite <- Eh, <- Em, !app_assoc_s. reflexivity.
Qed.
Lemma counted_shown : forall unit one n, one = ("1 " ++ unit)%string -> counted unit n (if (n =? 1)%Z then one else js_int n ++ " " ++ unit ++ "s").
Proof.
  intros unit one n ->. unfold counted. destruct (Z.eqb_spec n 1) as [E|E]; [left; auto|right]. split; [exact E|]. exists (js_int n). split; [apply int_shown|reflexivity].
Qed.
Lemma span_shown : forall m, (0 <= m)%Z -> span_text m (timeDifferenceMinutesToString m).
Proof.
  intros m M. unfold timeDifferenceMinutesToString. cbv zeta.
  assert (Q : Z.quot m 60 = (m / 60)%Z) by (apply Z.quot_div_nonneg; lia). rewrite Q. clear Q.
  pose proof (Z.div_mod m 60 ltac:(lia)) as D. pose proof (Z.mod_pos_bound m 60 ltac:(lia)) as B.
  assert (H : (0 <= m / 60)%Z) by (apply Z.div_pos; lia). replace (m - m / 60 * 60)%Z with (m mod 60)%Z by lia.
  revert D B H. generalize (m / 60)%Z (m mod 60)%Z. intros h r D B H. exists h, r. split; [lia|].
  pose proof (counted_shown "hour" "1 hour" h eq_refl) as CH. pose proof (counted_shown "minute" "1 minute" r eq_refl) as CM. cbn [append] in CH, CM.
  destruct (Z.eqb_spec m 0) as [Z0|Z0]; [left; repeat split; lia|right].
  destruct (Z.eqb_spec h 0) as [H0|H0], (Z.eqb_spec r 0) as [R0|R0]; cbn [negb andb append].
  - lia.
  - left. split; [exact H0|]. split; [exact R0|]. exact CM.
  - right. left. split; [exact H0|]. split; [exact R0|]. rewrite app_empty_r. exact CH.
  - right. right. split; [exact H0|]. split; [exact R0|]. eexists _, _. split; [exact CH|]. split; [exact CM|]. reflexivity.
Qed.

(** *** Directions *)
Lemma cardinal_shown : forall d, (0 <= d <= 360)%Z -> exists p, directionToCardinalText d = Some p /\ nearest_point d p.
Proof.
  assert (X : forallb (fun d => match directionToCardinalText d with
    | Some p => existsb (fun q => (Z.abs (4 * d - fst q) <? 45)%Z && (p =? (if existsb (Z.eqb d) [360; 90; 180; 270]%Z then "true " else "") ++ snd q)%string) points
    | None => false end) (map Z.of_nat (seq 0 361)) = true) by (vm_compute; reflexivity).
  intros d D. assert (I : In d (map Z.of_nat (seq 0 361))) by (apply in_map_iff; exists (Z.to_nat d); split; [lia|apply in_seq; lia]).
  pose proof (proj1 (forallb_forall _ _) X d I) as Y. clear X I. cbv beta in Y. destruct (directionToCardinalText d) as [p|]; [|discriminate Y]. exists p. split; [reflexivity|].
  apply existsb_exists in Y. destruct Y as ([q n] & I & Y). apply andb_prop in Y. destruct Y as [Y Z]. exists q, n. split; [exact I|].
  split; [apply Z.ltb_lt; exact Y|apply String.eqb_eq; exact Z].
Qed.
Lemma cardinal_none : forall d, (360 < d)%Z -> directionToCardinalText d = None.
Proof. intros d D. unfold directionToCardinalText. destruct (Z.ltb_spec 360 d); [reflexivity|lia]. Qed.
Lemma wind_shown : forall imperial w, wind_words imperial w (wind_line imperial (adaptCurrentWeather w js_valueNotSpecified)).
Proof.
  intros imperial w. unfold wind_line. cbn [adaptCurrentWeather pw_windDirection pw_windSpeed pw_gustSpeed].
  eexists _, _, _. split; [reflexivity|]. split; [|split; [|split; apply part_shown]].
  - intros S. null (cw_windDirection w); [contradiction|]. exists (js_int (cw_windDirection w)). split; [apply int_shown|]. split.
    + intros D. destruct (cardinal_shown _ D) as (p & -> & N). exists p. split; [exact N|]. rewrite !app_assoc_s. reflexivity.
    + intros D. rewrite (cardinal_none _ D). reflexivity.
  - intros S. null (cw_windDirection w); [reflexivity|contradiction].
Qed.

(** *** All lines *)
Lemma line_skip : forall op pre l v shown ending, no_line op pre -> value_line op l v shown ending -> value_line op (pre ++ l)%list v shown ending.
Proof.
  intros op pre l v shown ending F [A B]. split; [intros S; destruct (A S) as (a & X & Y); exists a; split; [exact X|apply only_skip; assumption]|].
  intros S. apply free_app; [exact F|exact (B S)].
Qed.
Lemma line_here : forall op v (f : Z -> string) post (shown : string -> Z -> Prop) number ending,
  (forall z, f z = op ++ number z ++ ending) -> (forall z, shown (number z) z) -> no_line op post ->
  value_line op (opt (nullIfNoValue v js_valueNotSpecified) f ++ post)%list v shown ending.
Proof.
  intros op v f post shown number ending E N G. unfold value_line. null v; (split; intros S; [try contradiction|try contradiction]).
  - exact G.
  - exists (number v). split; [apply N|]. cbn [opt]. rewrite E. apply only_here. exact G.
Qed.
Lemma update_some : forall clock w hour minute ago, update_specified w ->
  clock (cw_updateYear w) (cw_updateMonth w) (cw_updateDay w) (cw_updateHour w) (cw_updateMinute w) = (hour, minute, ago) ->
  update_line clock (adaptCurrentWeather w js_valueNotSpecified)
    = ["Updated: " ++ dateTimeToStr_HH_MM hour minute ++ " (" ++ timeDifferenceMinutesToString ago ++ " ago)"].
Proof.
  intros clock w hour minute ago (Y & M & D & H & I) C. unfold update_line. cbn [adaptCurrentWeather pw_updateYear pw_updateMonth pw_updateDay pw_updateHour pw_updateMinute].
  null (cw_updateYear w); [contradiction|]. null (cw_updateMonth w); [contradiction|]. null (cw_updateDay w); [contradiction|].
  null (cw_updateHour w); [contradiction|]. null (cw_updateMinute w); [contradiction|]. rewrite C. reflexivity.
Qed.
Lemma update_none : forall clock w, ~ update_specified w -> update_line clock (adaptCurrentWeather w js_valueNotSpecified) = [].
Proof.
  intros clock w N. unfold update_line. cbn [adaptCurrentWeather pw_updateYear pw_updateMonth pw_updateDay pw_updateHour pw_updateMinute].
  null (cw_updateYear w); [reflexivity|]. null (cw_updateMonth w); [reflexivity|]. null (cw_updateDay w); [reflexivity|].
  null (cw_updateHour w); [reflexivity|]. null (cw_updateMinute w); [reflexivity|]. destruct N. repeat split; assumption.
Qed.
Ltac found := repeat (apply found_skip; [free_piece|reflexivity|]); apply found_here; [free_all|reflexivity|].
Ltac lines := repeat (apply line_skip; [free_piece|]).
Theorem text_shown : forall clock imperial w, exists texts lines,
  currentWeatherToHTML clock (adaptCurrentWeather w js_valueNotSpecified) imperial "<br>" = Ok (broken lines)
  /\ Forall (fun l => occurs "<" l = false) lines
  /\ Forall2 (fun s t => weatherPhenomenaToText (sw_code s) = Ok t) (cw_weather w) texts
  /\ lines_show clock imperial w texts lines.
Proof.
  intros clock imperial w. exists (map sym_text (cw_weather w)), (lines_of clock imperial w). split; [apply text_lines|]. split.
  { eapply Forall_impl; [|apply lines_calm]. intros l C. unfold calm in C. destruct (occurs "<" l); [discriminate C|reflexivity]. }
  split; [induction (cw_weather w) as [|s l IH]; constructor; [apply sym_shown|exact IH]|].
  unfold lines_show, lines_of. cbv zeta.
  split; [eexists; reflexivity|].
  split; [found; apply hot_iff|].
  split; [found; apply cold_iff|].
  split; [found; apply windy_iff|].
  split; [found; apply windy_iff|].
  split; [do 5 (apply in_or_app; right); left; reflexivity|].
  split.
  { exists (temperature_line imperial (adaptCurrentWeather w js_valueNotSpecified)). split; [skip; apply only_here; free_all|].
    unfold temperature_line. cbn [adaptCurrentWeather pw_airTemperature pw_airTemperatureHigh pw_airTemperatureLow].
    eexists _, _, _. split; [reflexivity|]. split; [|split; [|split; apply part_shown]].
    - intros S. null (cw_airTemperature w); [contradiction|]. exists (js_int (cw_airTemperature w)). split; [apply int_shown|reflexivity].
    - intros S. null (cw_airTemperature w); [reflexivity|contradiction]. }
  split; [lines; apply line_here with (number := js_int); [reflexivity|apply int_shown|free_all]|].
  split; [lines; apply line_here with (number := js_int); [reflexivity|apply int_shown|free_all]|].
  split; [lines; apply line_here with (number := js_int); [intros; destruct imperial; reflexivity|apply int_shown|free_all]|].
  split.
  { lines. apply line_here with (number := fun z => if imperial then js_quotient 2 z else js_int z); [intros; destruct imperial; reflexivity| |free_all].
    intros z. destruct imperial; [apply quotient_shown|apply int_shown]. }
  split.
  - intros N. rewrite (update_none clock w N). repeat (apply free_app; [free_piece|]). apply free_nil.
  - intros S hour minute ago C H M A. rewrite (update_some clock w hour minute ago S C).
    exists (dateTimeToStr_HH_MM hour minute), (timeDifferenceMinutesToString ago). split; [|split; [apply clock_shown; assumption|apply span_shown; assumption]].
    skip. exists [], []. split; [reflexivity|intros l []].
Qed.

(** *** The wind line *)
Theorem wind_line_shown : forall clock imperial w, specified (cw_windDirection w) \/ cw_isWindVariable w = true ->
  exists lines text, currentWeatherToHTML clock (adaptCurrentWeather w js_valueNotSpecified) imperial "<br>" = Ok (broken lines)
    /\ Forall (fun l => occurs "<" l = false) lines
    /\ only_line "Wind " lines text /\ wind_words imperial w text.
Proof.
  intros clock imperial w T. exists (lines_of clock imperial w), (wind_line imperial (adaptCurrentWeather w js_valueNotSpecified)). split; [apply text_lines|]. split.
  { eapply Forall_impl; [|apply lines_calm]. intros l C. unfold calm in C. destruct (occurs "<" l); [discriminate C|reflexivity]. }
  split; [|apply wind_shown]. unfold lines_of. cbv zeta.
  assert (B : wind_told (adaptCurrentWeather w js_valueNotSpecified) = true).
  { unfold wind_told. cbn [adaptCurrentWeather pw_windDirection pw_windSpeed pw_isWindVariable]. destruct T as [T| ->]; [|apply orb_true_r].
    null (cw_windDirection w); [contradiction|]. reflexivity. }
  rewrite B. skip. apply only_here. free_all.
Qed.
Theorem broken_unique : forall l l', Forall (fun x => occurs "<" x = false) l -> Forall (fun x => occurs "<" x = false) l' -> broken l = broken l' -> l = l'.
Proof.
  induction l as [|x l IH]; intros [|y l'] F G E; [reflexivity| | |].
  - cbn [broken] in E. destruct y; discriminate E.
  - cbn [broken] in E. destruct x; discriminate E.
  - inversion F as [|? ? Fx Fl]. inversion G as [|? ? Gy Gl]. subst. cbn [broken] in E.
    assert (X : forall (x y : string) a b, occurs "<" x = false -> occurs "<" y = false -> (x ++ "<br>" ++ a)%string = (y ++ "<br>" ++ b)%string -> x = y /\ a = b).
    { clear. induction x as [|c x IH]; intros [|d y] a b P Q E.
      - cbn [append] in E. split; [reflexivity|]. injection E as E. exact E.
      - cbn [append] in E. injection E as E1 E2. subst d. cbn [occurs] in Q. discriminate Q.
      - cbn [append] in E. injection E as E1 E2. subst c. cbn [occurs] in P. discriminate P.
      - cbn [append occurs] in *. apply orb_false_elim in P, Q. destruct P as [_ P], Q as [_ Q]. injection E as -> E. destruct (IH y a b P Q E) as [-> ->]. split; reflexivity. }
    destruct (X x y _ _ Fx Gy E) as [-> E']. f_equal. exact (IH l' Fl Gl E').
Qed.
Lemma lines_known : forall clock imperial w lines,
  currentWeatherToHTML clock (adaptCurrentWeather w js_valueNotSpecified) imperial "<br>" = Ok (broken lines) ->
  Forall (fun l => occurs "<" l = false) lines -> lines = lines_of clock imperial w.
Proof.
  intros clock imperial w lines E F. rewrite text_lines in E. apply broken_unique; [exact F| |symmetry; exact (ok_same _ _ _ E)].
  eapply Forall_impl; [|apply lines_calm]. intros l C. unfold calm in C. destruct (occurs "<" l); [discriminate C|reflexivity].
Qed.
Theorem wind_missing : forall clock imperial w lines,
  ~ specified (cw_windDirection w) -> cw_isWindVariable w = false -> specified (cw_windSpeed w) ->
  currentWeatherToHTML clock (adaptCurrentWeather w js_valueNotSpecified) imperial "<br>" = Ok (broken lines) ->
  Forall (fun l => occurs "<" l = false) lines -> no_line "Wind " lines.
Proof.
  intros clock imperial w lines D V S E F. rewrite (lines_known _ _ _ _ E F). unfold lines_of. cbv zeta.
  assert (B : wind_told (adaptCurrentWeather w js_valueNotSpecified) = false).
  { unfold wind_told. cbn [adaptCurrentWeather pw_windDirection pw_windSpeed pw_isWindVariable]. rewrite V.
    null (cw_windDirection w); [|contradiction]. null (cw_windSpeed w); [contradiction|]. reflexivity. }
  rewrite B. do 8 (apply free_app; [free_piece|]). apply free_app; [apply free_nil|]. free_all.
Qed.
Theorem wind_invented : forall clock imperial w lines,
  ~ specified (cw_windDirection w) -> ~ specified (cw_windSpeed w) -> ~ specified (cw_gustSpeed w) ->
  currentWeatherToHTML clock (adaptCurrentWeather w js_valueNotSpecified) imperial "<br>" = Ok (broken lines) ->
  Forall (fun l => occurs "<" l = false) lines -> only_line "Wind " lines "is variable".
Proof.
  intros clock imperial w lines D S G E F. rewrite (lines_known _ _ _ _ E F). unfold lines_of. cbv zeta.
  unfold wind_told, wind_line. cbn [adaptCurrentWeather pw_windDirection pw_windSpeed pw_gustSpeed pw_isWindVariable].
  null (cw_windDirection w); [|contradiction]. null (cw_windSpeed w); [|contradiction]. null (cw_gustSpeed w); [|contradiction].
  skip. apply only_here. free_all.
Qed.
Theorem no_speed : exists report w, (forall pow, getCurrentWeather pow true report "" 2020 1 1 false = Ok w) /\ specified (cw_windSpeed w)
  /\ forall clock lines, currentWeatherToHTML clock (adaptCurrentWeather w js_valueNotSpecified) false "<br>" = Ok (broken lines) ->
     Forall (fun l => occurs "<" l = false) lines -> no_line "Wind " lines.
Proof.
  eexists "METAR ZZZZ 010000Z ///15KT 9999=", _. split; [intros pow; vm_compute; reflexivity|]. split; [vm_compute; discriminate|].
  intros clock lines. apply wind_missing; [intros H; apply H; reflexivity|reflexivity|vm_compute; discriminate].
Qed.
Theorem no_wind : exists report w, (forall pow, getCurrentWeather pow true report "" 2020 1 1 false = Ok w) /\ cw_isWindVariable w = false
  /\ forall clock lines, currentWeatherToHTML clock (adaptCurrentWeather w js_valueNotSpecified) false "<br>" = Ok (broken lines) ->
     Forall (fun l => occurs "<" l = false) lines -> only_line "Wind " lines "is variable".
Proof.
  eexists "METAR ZZZZ 010000Z 9999=", _. split; [intros pow; vm_compute; reflexivity|]. split; [reflexivity|].
  intros clock lines. apply wind_invented; intros H; apply H; reflexivity.
Qed.
Theorem examples_page : divided 2 "29.9" 2990 /\ divided 2 "30" 3000 /\ nearest_point 348 "north-northwest" /\ nearest_point 90 "true east" /\ span_text 125 "2 hours 5 minutes".
Proof.
  split; [exact (quotient_shown 2 2990)|]. split; [exact (quotient_shown 2 3000)|].
  split; [destruct (cardinal_shown 348 ltac:(lia)) as (p & E & N); injection E as <-; exact N|].
  split; [destruct (cardinal_shown 90 ltac:(lia)) as (p & E & N); injection E as <-; exact N|]. exact (span_shown 125 ltac:(lia)).
Qed.
