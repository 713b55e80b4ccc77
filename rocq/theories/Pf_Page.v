(** The text of the web page of the summary (C82, C83). *)
From Coq Require Import Lia ZArith NArith List String Bool.
Import ListNotations.
From Verif Require Import Prim Lib Float Format Values Weather Summary Page.
From Verif Require Import SpecDecimal SpecNumeral SpecShown SpecFigures SpecStream SpecDirection SpecExplain SpecSummary SpecPage.
From Verif Require Import Pf_ExNumber Pf_ExShown Pf_ExText.
Local Open Scope string_scope.
Local Open Scope list_scope.
Local Open Scope string_scope.

(** *** The switch statements *)
Definition resolve (bindings : list (string * Z)) (cases : list (string * string)) : list (res Z * string) :=
  map (fun c => (enum_value bindings (fst c), snd c)) cases.
Fixpoint pick (l : list (Z * string)) (d : string) (v : Z) : string :=
  match l with [] => d | (n, t) :: r => if (n =? v)%Z then t else pick r d v end.
Lemma switch_pick : forall b cases l d v, resolve b cases = map (fun p => (Ok (fst p), snd p)) l -> js_switch b cases d v = Ok (pick l d v).
Proof.
  intros b cases. induction cases as [|[n t] cases IH]; intros [|[z u] l] d v E; try discriminate E; [reflexivity|].
  cbn [resolve map fst snd] in E. pose proof (f_equal (hd (Ok 0%Z, "")) E) as E1. apply (f_equal (@tl _)) in E. cbn [hd tl] in E1, E.
  pose proof (f_equal fst E1) as A. pose proof (f_equal snd E1) as B. cbn [fst snd] in A, B. cbn [js_switch]. rewrite A, B. cbn [bind pick].
  destruct (z =? v)%Z; [reflexivity|]. exact (IH l d v E).
Qed.
Definition weather_table : list (Z * string) :=
  Eval vm_compute in map (fun c => (match enum_value weather_bindings (fst c) with Ok z => z | Bad _ => 0%Z end, snd c)) weather_cases.
Definition cloud_table : list (Z * string) :=
  Eval vm_compute in map (fun c => (match enum_value cloud_bindings (fst c) with Ok z => z | Bad _ => 0%Z end, snd c)) cloud_cases.
Lemma weather_resolved : resolve weather_bindings weather_cases = map (fun p => (Ok (fst p), snd p)) weather_table.
Proof. vm_compute. reflexivity. Qed.
Lemma cloud_resolved : resolve cloud_bindings cloud_cases = map (fun p => (Ok (fst p), snd p)) cloud_table.
Proof. vm_compute. reflexivity. Qed.

Definition sym_text (s : SumWeather) : string := pick weather_table "Unknown weather phenomena" (sw_code s).
Lemma sym_shown : forall s, weatherPhenomenaToText (sw_code s) = Ok (sym_text s).
Proof. intros s. apply switch_pick, weather_resolved. Qed.
Lemma sky_shown : forall s, cloudToText (sky_code s) = Ok (sky_text s).
Proof. intros s. unfold cloudToText. rewrite (switch_pick _ _ _ _ _ cloud_resolved). destruct s; reflexivity. Qed.

(** *** The words *)
Definition words_right (s : SumWeather) : bool :=
  let t := lower_case (sym_text s) in forallb (fun word => Bool.eqb (mentions word t) (existsb (String.eqb word) (words_for s))) vocabulary.
Lemma all_symbols_listed : forall s, In s all_SumWeather.
Proof. intros s. destruct s; vm_compute; tauto. Qed.
Lemma words_all : forallb words_right all_SumWeather = true.
Proof. vm_compute. reflexivity. Qed.
Lemma in_strings : forall x l, existsb (String.eqb x) l = true <-> In x l.
Proof.
  intros x l. rewrite existsb_exists. split; [intros (y & I & E); apply String.eqb_eq in E; subst; exact I|intros I; exists x; split; [exact I|apply String.eqb_refl]].
Qed.
Theorem weather_described : forall s, exists t, weatherPhenomenaToText (sw_code s) = Ok t /\ describes t s.
Proof.
  intros s. exists (sym_text s). split; [apply sym_shown|]. intros word I.
  pose proof (proj1 (forallb_forall _ _) words_all s (all_symbols_listed s)) as W. unfold words_right in W. cbv zeta in W.
  pose proof (proj1 (forallb_forall _ _) W word I) as X. apply Bool.eqb_prop in X. rewrite X. apply in_strings.
Qed.
Definition texts_differ (l : list SumWeather) : bool :=
  (fix go (l : list string) : bool := match l with [] => true | t :: r => negb (existsb (String.eqb t) r) && go r end) (map sym_text l).
Lemma weather_distinct : forall s s' t, weatherPhenomenaToText (sw_code s) = Ok t -> weatherPhenomenaToText (sw_code s') = Ok t -> s = s'.
Proof.
  assert (D : texts_differ all_SumWeather = true) by (vm_compute; reflexivity).
  unfold texts_differ in D. intros s s' t A B. rewrite sym_shown in A, B.
  assert (E : sym_text s = sym_text s') by (injection A as ->; injection B as ->; reflexivity). clear A B.
  pose proof (all_symbols_listed s) as I. pose proof (all_symbols_listed s') as J. revert D I J. generalize all_SumWeather. intros l D.
  induction l as [|x l IH]; intros I J; [destruct I|]. cbn [map] in D. apply andb_prop in D. destruct D as [D1 D2].
  assert (N : forall y, In y l -> sym_text x = sym_text y -> False).
  { intros y Y F. apply negb_true_iff in D1. apply Bool.not_true_iff_false in D1. apply D1. apply in_strings. rewrite F. apply in_map. exact Y. }
  destruct I as [<-|I], J as [<-|J]; [reflexivity|destruct (N _ J E)|destruct (N _ I (eq_sym E))|exact (IH D2 I J)].
Qed.
Theorem sky_words : forall s, cloudToText (sky_code s) = Ok (sky_text s).
Proof. exact sky_shown. Qed.

(** *** The lines *)
Definition opt (o : option Z) (f : Z -> string) : list string := match o with Some v => [f v] | None => [] end.
Definition only_if (b : bool) (s : string) : list string := if b then [s] else [].
Definition temperature_line (imperial : bool) (p : PageWeather) : string :=
  match pw_airTemperature p with Some t => js_int t ++ degrees_text imperial | None => "not specified" end ++
  match pw_airTemperatureHigh p with Some t => ", high " ++ js_int t ++ degrees_text imperial | None => "" end ++
  match pw_airTemperatureLow p with Some t => ", low " ++ js_int t ++ degrees_text imperial | None => "" end.
Definition wind_line (imperial : bool) (p : PageWeather) : string :=
  match pw_windDirection p with
  | Some d => match directionToCardinalText d with Some c => "is " ++ c ++ "ern, " | None => "" end ++ js_int d ++ "&deg;"
  | None => "is variable"
  end ++
  match pw_windSpeed p with Some s => ", " ++ js_int s ++ " " ++ speed_text imperial | None => "" end ++
  match pw_gustSpeed p with Some s => " with gusts up to " ++ js_int s ++ " " ++ speed_text imperial | None => "" end.
Definition wind_told (p : PageWeather) : bool :=
  has_value (pw_windDirection p) || negb (has_value (pw_windSpeed p)) || pw_isWindVariable p.
Definition update_line (clock : Z -> Z -> Z -> Z -> Z -> Z * Z * Z) (p : PageWeather) : list string :=
  match pw_updateYear p, pw_updateMonth p, pw_updateDay p, pw_updateHour p, pw_updateMinute p with
  | Some y, Some m, Some d, Some h, Some mi =>
    let '(lh, lm, ago) := clock y m d h mi in
    ["Updated: " ++ dateTimeToStr_HH_MM lh lm ++ " (" ++ timeDifferenceMinutesToString ago ++ " ago)"]
  | _, _, _, _, _ => []
  end.
Definition lines_of (clock : Z -> Z -> Z -> Z -> Z -> Z * Z * Z) (imperial : bool) (w : CurrentWeather) : list string :=
  let p := adaptCurrentWeather w js_valueNotSpecified in
  (map sym_text (cw_weather w) ++
   only_if (isHot (pw_airTemperature p) (pw_perceivedTemperature p) imperial) "Hot" ++
   only_if (isCold (pw_airTemperature p) (pw_perceivedTemperature p) imperial) "Cold" ++
   only_if (isWindy (pw_windSpeed p) imperial) "Windy" ++
   only_if (isWindy (pw_gustSpeed p) imperial) "Gusty wind" ++
   [sky_text (cw_cloud w) ++ (if cw_isStormClouds w then " (storm clouds in the sky)" else "")]%string ++
   ["Temperature " ++ temperature_line imperial p]%string ++
   opt (pw_perceivedTemperature p) (fun t => "Feels like " ++ js_int t ++ degrees_text imperial)%string ++
   only_if (wind_told p) ("Wind " ++ wind_line imperial p)%string ++
   opt (pw_relativeHumidity p) (fun v => "RH " ++ js_int v ++ "%")%string ++
   opt (pw_visibility p) (fun v => "Visibility " ++ js_int v ++ " " ++ (if imperial then "miles" else "meters"))%string ++
   opt (pw_atmosphericPressure p) (fun v => "Atmospheric pressure " ++ (if imperial then js_quotient 2 v else js_int v) ++ " " ++ (if imperial then "&quot;Hg" else "hPa"))%string ++
   update_line clock p)%list.

Lemma broken_app : forall a b, broken (a ++ b)%list = broken a ++ broken b.
Proof. induction a as [|x a IH]; intros b; [reflexivity|]. cbn [app broken]. rewrite IH, !app_assoc_s. reflexivity. Qed.
Lemma broken_if : forall b s, broken (only_if b s) = if b then s ++ "<br>" else "".
Proof. intros [] s; cbn [only_if broken]; rewrite ?app_empty_r; reflexivity. Qed.
Lemma broken_opt : forall o f, broken (opt o f) = match o with Some v => f v ++ "<br>" | None => "" end.
Proof. intros [v|] f; cbn [opt broken]; rewrite ?app_empty_r; reflexivity. Qed.
Lemma broken_one : forall s, broken [s] = s ++ "<br>".
Proof. intros s. cbn [broken]. rewrite app_empty_r. reflexivity. Qed.
Lemma weather_lines : forall l, weatherToText (map sw_code l) "<br>" = Ok (broken (map sym_text l)).
Proof. induction l as [|s l IH]; [reflexivity|]. cbn [map weatherToText]. rewrite sym_shown, IH. reflexivity. Qed.

Lemma text_lines : forall clock imperial w,
  currentWeatherToHTML clock (adaptCurrentWeather w js_valueNotSpecified) imperial "<br>" = Ok (broken (lines_of clock imperial w)).
Proof.
  intros clock imperial w. unfold currentWeatherToHTML, lines_of. cbv zeta.
  change (pw_weather (adaptCurrentWeather w js_valueNotSpecified)) with (map sw_code (cw_weather w)).
  change (pw_cloud (adaptCurrentWeather w js_valueNotSpecified)) with (sky_code (cw_cloud w)).
  change (pw_isStormClouds (adaptCurrentWeather w js_valueNotSpecified)) with (cw_isStormClouds w).
  rewrite weather_lines, sky_shown. cbn [bind]. generalize (adaptCurrentWeather w js_valueNotSpecified). intros p.
  rewrite !broken_app, !broken_if, !broken_opt, !broken_one. f_equal. rewrite !app_assoc_s.
  do 8 f_equal. unfold temperature_line, wind_line, wind_told, update_line. rewrite !app_assoc_s. unfold degrees_text, speed_text.
  f_equal. f_equal. f_equal. f_equal. f_equal.
  apply f_equal2; [destruct (pw_perceivedTemperature p); rewrite ?app_assoc_s; reflexivity|].
  apply f_equal2; [destruct (_ || _)%bool; reflexivity|].
  apply f_equal2; [destruct (pw_relativeHumidity p); rewrite ?app_assoc_s; reflexivity|].
  apply f_equal2; [destruct (pw_visibility p); rewrite ?app_assoc_s; reflexivity|].
  apply f_equal2; [destruct (pw_atmosphericPressure p); rewrite ?app_assoc_s; reflexivity|].
  destruct (pw_updateYear p), (pw_updateMonth p), (pw_updateDay p), (pw_updateHour p), (pw_updateMinute p); try reflexivity.
  destruct (clock _ _ _ _ _) as [[lh lm] ago]. rewrite broken_one, !app_assoc_s. reflexivity.
Qed.
