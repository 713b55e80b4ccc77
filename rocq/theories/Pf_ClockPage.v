(** The page shows when a report was released (C101). *)
From Coq Require Import List String ZArith NArith.
From Verif Require Import Prim Float Values Weather Groups1 Groups2 Groups3 Groups4 Parser Format Summary Page.
From Verif Require Import SpecFigures SpecExplain SpecSummary SpecPage Pf_Values6 Pf_SumValues Pf_SumRefuted Pf_Page Pf_PageText.
From Verif Require Import Clock SpecClock Pf_Clock.
From Coq Require Import Lia ZifyBool ZifyN.
Import ListNotations.
Local Open Scope Z_scope.

(** ** The date of the report *)
Lemma local_day : forall ahead set_to t,
  LocalTime (constant_zone set_to) (device_time ahead set_to t) = t + ahead * 60000.
Proof. intros. unfold LocalTime, device_time, msPerMinute. cbn [constant_zone tz_utc]. lia. Qed.
Lemma date_right : forall t y m d n, dayValue t = Some (Z.to_N d) -> real_date y m d -> y <= 9999 -> 0 <= n ->
  day_number y m d <= n < day_number y m d + 28 ->
  MetafTime_dateBeforeRef t (mkDate (Z.to_N (YearFromDay n)) (Z.to_N (MonthFromDay n + 1)) (Z.to_N (DateFromDay n)))
  = mkDate (Z.to_N y) (Z.to_N m) (Z.to_N d).
Proof.
  intros t y m d n E R Y P H. destruct (date_found n P) as [F N]. rewrite <- N in H.
  pose proof (near_dates _ _ _ _ _ _ R F H) as A. destruct R as (R1 & R2 & R3), F as (F1 & F2 & F3).
  unfold MetafTime_dateBeforeRef. rewrite E. cbn [date_day date_month date_year].
  destruct (N.ltb_spec (Z.to_N (DateFromDay n)) (Z.to_N d)) as [L|L].
  - destruct A as [A|[[A|A] _]]; [exfalso; lia| |].
    + destruct (N.eqb_spec (Z.to_N (MonthFromDay n + 1)) 1); [exfalso; lia|]. rewrite u32_dec_pos by lia. f_equal; lia.
    + destruct (N.eqb_spec (Z.to_N (MonthFromDay n + 1)) 1); [|exfalso; lia]. rewrite u32_dec_pos by lia. f_equal; lia.
  - destruct A as [A|A]; [|exfalso; lia]. f_equal; lia.
Qed.
Lemma proper_today : forall n, 0 <= n -> YearFromDay n < 2147483648 -> proper_date (YearFromDay n) (MonthFromDay n + 1) (DateFromDay n).
Proof.
  intros n P L. destruct (date_found n P) as [(F1 & F2 & F3) _]. unfold proper_date. repeat split; try lia.
  assert (month_length (YearFromDay n) (MonthFromDay n + 1) <= 31) as B; [|lia]. generalize dependent (MonthFromDay n + 1). intros m M _.
  unfold month_length, month_lengths. months m; destruct (leap_year (YearFromDay n)); cbn; to_nats; cbn; lia.
Qed.

(** ** The last report time *)
Lemma last_unique {A : Type} (Q : A -> Prop) : forall pre pre' x x' post post', pre ++ x :: post = pre' ++ x' :: post' ->
  Q x -> Q x' -> (forall z, In z post -> ~ Q z) -> (forall z, In z post' -> ~ Q z) -> x = x'.
Proof.
  induction pre as [|a pre IH]; intros [|b pre'] x x' post post' E Px Px' N N'; cbn in E; injection E as E1 E2.
  - exact E1.
  - subst. exfalso. apply (N x'); [apply in_or_app; right; left; reflexivity|exact Px'].
  - subst. exfalso. apply (N' x); [apply in_or_app; right; left; reflexivity|exact Px].
  - exact (IH pre' x x' post post' E2 Px Px' N N').
Qed.
Lemma update_said : forall year month day gs w pre k post, updated year month day gs w ->
  gs = (pre ++ GReportTime k :: post)%list -> (forall k', ~ In (GReportTime k') post) ->
  says_update year month day pre (GReportTime k) (cw_updateYear w, cw_updateMonth w, cw_updateDay w, cw_updateHour w, cw_updateMinute w).
Proof.
  intros year month day gs w pre k post U E N. unfold updated, last_said in U. destruct U as [[_ U]|(before & g & after & E' & S & L)].
  - exfalso. eapply U; [exact E|]. exists k. split; reflexivity.
  - destruct S as (k' & -> & S).
    assert (GReportTime k = GReportTime k') as K.
    { apply (last_unique (fun g => exists k, g = GReportTime k) pre before _ _ post after).
      - rewrite <- E. exact E'.
      - exists k. reflexivity.
      - exists k'. reflexivity.
      - intros z I (k2 & ->). exact (N k2 I).
      - intros z I (k2 & ->). apply in_split in I. destruct I as (l1 & l2 & ->). eapply L; [reflexivity|]. exists k2. split; reflexivity. }
    injection K as <-. exists k. split; [reflexivity|exact S].
Qed.

Lemma update_fields : forall pow sgn metar taf year month day i w gs, proper_date year month day ->
  getCurrentWeather pow sgn metar taf year month day i = Ok w ->
  usable sgn metar RT_METAR gs \/ unusable sgn metar RT_METAR /\ usable sgn taf RT_TAF gs -> updated year month day gs w.
Proof.
  intros pow sgn metar taf year month day i w gs P E U. destruct (summary_values pow sgn metar taf year month day i w E) as (A & B & _).
  destruct U as [U|[U U']]; [apply (A gs U); exact P|apply (B gs U (or_introl U')); exact P].
Qed.
Theorem release_shown : forall pow sgn metar taf imperial gs text y m d hour minute ahead set_to told came t,
  usable sgn metar RT_METAR gs \/ unusable sgn metar RT_METAR /\ usable sgn taf RT_TAF gs ->
  released gs d hour minute -> real_date y m d -> y <= 9999 ->
  prompt told came -> instant y m d hour minute <= t ->
  day_number y m d <= (t + ahead * 60000) / 86400000 < day_number y m d + 28 ->
  station_text pow sgn (constant_zone set_to) (device_time ahead set_to came) (device_time ahead set_to t) (Some told) metar taf imperial = Ok text ->
  exists lines h mi ago time span, text = broken lines /\ Forall (fun l => occurs "<" l = false) lines
    /\ only_line "Updated: " lines (time ++ " (" ++ span ++ " ago)")
    /\ clock_says ahead (instant y m d hour minute) h mi /\ clock_text h mi time
    /\ minutes_gone (instant y m d hour minute) t ago /\ span_text ago span.
Proof.
  intros pow sgn metar taf imperial gs text y m d hour minute ahead set_to told came t U (pre & k & post & dn & G & N & Dk & Ed & Eh & Em) R Y P L H E.
  unfold station_text in E. unfold getFullYear, getMonth, getDate in E. rewrite local_day in E. change msPerDay with 86400000 in E.
  set (n := (t + ahead * 60000) / 86400000) in *.
  assert (P0 : 0 <= n).
  { assert (0 <= day_number y m d); [|lia]. destruct R as (R1 & R2 & R3). rewrite number_of by exact R1.
    pose proof (before_months y m R2). pose proof (year_mono 1970 y R1) as My. change (DayFromYear 1970) with 0 in My. lia. }
  assert (Yn : YearFromDay n < 2147483648).
  { destruct (date_found n P0) as [F N']. rewrite <- N' in H. pose proof (near_dates _ _ _ _ _ _ R F H). lia. }
  destruct (getCurrentWeather pow sgn metar taf (YearFromDay n) (MonthFromDay n + 1) (DateFromDay n) imperial) as [w|e] eqn:W; [|discriminate E].
  cbn [bind] in E.
  pose proof (update_fields _ _ _ _ _ _ _ _ _ gs (proper_today n P0 Yn) W U) as Up.
  apply (update_said _ _ _ _ _ pre k post) in Up; [|exact G|exact N]. destruct Up as (k2 & Ek & Up). injection Ek as <-.
  assert (Dk' : dayValue (rt_t k) = Some (Z.to_N d)) by (rewrite Dk; f_equal; lia).
  cbv zeta in Up. rewrite (date_right (rt_t k) y m d n Dk' R Y P0 H) in Up. cbn [date_year date_month date_day] in Up.
  destruct R as (R1 & R2 & R3).
  rewrite Eh, Em, !Z2N.id in Up by lia. injection Up as U1 U2 U3 U4 U5.
  destruct (update_clock (constant_zone set_to) (device_time ahead set_to t)
    (offset_of_answer (constant_zone set_to) (device_time ahead set_to came) (Some told)) y m d hour minute) as [[h mi] ago] eqn:C.
  destruct (clock_right _ _ _ _ _ _ _ _ _ _ _ _ _ P R1 R2 L C) as (Cs & Mg & A0).
  destruct (text_shown (update_clock (constant_zone set_to) (device_time ahead set_to t)
    (offset_of_answer (constant_zone set_to) (device_time ahead set_to came) (Some told))) imperial w) as (texts & lines & Et & F & _ & S).
  rewrite Et in E. injection E as <-.
  unfold lines_show in S. destruct S as (_ & _ & _ & _ & _ & _ & _ & _ & _ & _ & _ & _ & S).
  assert (Us : update_specified w).
  { unfold update_specified, specified, valueNotSpecified. rewrite U1, U2, U3, U4, U5. lia. }
  rewrite U1, U2, U3, U4, U5 in S. destruct (S Us h mi ago C) as (time & span & O & Ct & St); [apply Cs|apply Cs|exact A0|].
  exists lines, h, mi, ago, time, span. repeat (split; [first [reflexivity|assumption]|]). assumption.
Qed.

(** ** Where it is wrong *)
Local Open Scope string_scope.
Definition sample_lines (update : string) : list string :=
  ["Mostly clear"; "Temperature not specified"; "Wind is true western, 270&deg;, 14 km/h"; "Visibility 10000 meters"; "Atmospheric pressure 1013 hPa";
   "Updated: " ++ update].
Lemma sample_only : forall update, only_line "Updated: " (sample_lines update) update.
Proof.
  intros update. exists (firstn 5 (sample_lines "")), []. split; [reflexivity|]. intros l I. cbn in I.
  repeat (destruct I as [<-|I]; [reflexivity|]). destruct I.
Qed.
Definition sample (day : string) : string := "METAR ZZZZ " ++ day ++ "Z 27008KT CAVOK Q1013=".
Lemma sample_usable : forall day d h m, In (day, (d, h, m)) [("010051", (1, 0, 51)); ("250050", (25, 0, 50)); ("171530", (17, 15, 30))]%Z ->
  exists gs, usable true (sample day) RT_METAR gs /\ released gs d h m.
Proof.
  intros day d h m I.
  assert (forall r, parse true (sample day) default_groupLimit = Ok r -> md_type (pr_metadata r) = RT_METAR -> md_error (pr_metadata r) = RE_NONE ->
    map gi_group (pr_groups r) <> [] -> released (map gi_group (pr_groups r)) d h m -> exists gs, usable true (sample day) RT_METAR gs /\ released gs d h m) as K.
  { intros r E1 E2 E3 E4 E5. exists (map gi_group (pr_groups r)). split; [exists r; repeat split; assumption|exact E5]. }
  destruct (parse true (sample day) default_groupLimit) as [r|e] eqn:E.
  - apply (K r eq_refl); clear K;
    repeat (destruct I as [I|I]; [injection I as <- <- <- <-; vm_compute in E; injection E as <-; first [reflexivity|discriminate|
      eexists [_; _], _, _, _; split; [vm_compute; reflexivity|]; split; [intros k' J; cbn in J; repeat (destruct J as [J|J]; [discriminate J|]); exact J|]; repeat split; reflexivity]|]); destruct I.
  - repeat (destruct I as [I|I]; [injection I as <- <- <- <-; vm_compute in E; discriminate E|]); destruct I.
Qed.
Ltac sampled u := exists (sample_lines u); split; [vm_compute; reflexivity|]; split; [repeat constructor|apply sample_only].
Lemma wrong_month : let now := instant 2026 11 1 1 5 in
  (exists gs, usable true (sample "010051") RT_METAR gs /\ released gs 1 0 51) /\ minutes_gone (instant 2026 11 1 0 51) now 14
  /\ forall pow, exists lines, station_text pow true (constant_zone (-300)) now now (Some now) (sample "010051") "" false = Ok (broken lines)
     /\ Forall (fun l => occurs "<" l = false) lines /\ only_line "Updated: " lines "19:51 (744 hours 14 minutes ago)".
Proof.
  cbv zeta. split; [apply (sample_usable "010051"); cbn; tauto|]. split; [vm_compute; split; congruence|].
  intros pow. sampled "19:51 (744 hours 14 minutes ago)".
Qed.
Lemma zone_changed : let now := instant 2026 10 25 1 5 in
  (exists gs, usable true (sample "250050") RT_METAR gs /\ released gs 25 0 50) /\ minutes_gone (instant 2026 10 25 0 50) now 15
  /\ clock_says (tz_utc central_europe (instant 2026 10 25 0 50)) (instant 2026 10 25 0 50) 2 50
  /\ forall pow, exists lines, station_text pow true central_europe now now (Some now) (sample "250050") "" false = Ok (broken lines)
     /\ Forall (fun l => occurs "<" l = false) lines /\ only_line "Updated: " lines "01:50 (1 hour 15 minutes ago)".
Proof.
  cbv zeta. split; [apply (sample_usable "250050"); cbn; tauto|]. split; [vm_compute; split; congruence|].
  split; [split; [lia|split; [lia|exists 20751, 0; split; [lia|vm_compute; reflexivity]]]|].
  intros pow. sampled "01:50 (1 hour 15 minutes ago)".
Qed.
Lemma no_date : let now := instant 2026 11 17 16 0 in
  (exists gs, usable true (sample "171530") RT_METAR gs /\ released gs 17 15 30) /\ minutes_gone (instant 2026 11 17 15 30) now 30
  /\ forall pow, exists lines, station_text pow true (constant_zone 0) now now None (sample "171530") "" false = Ok (broken lines)
     /\ Forall (fun l => occurs "<" l = false) lines /\ only_line "Updated: " lines "07:30 (-498591 hours -30 minutes ago)".
Proof.
  cbv zeta. split; [apply (sample_usable "171530"); cbn; tauto|]. split; [vm_compute; split; congruence|].
  intros pow. sampled "07:30 (-498591 hours -30 minutes ago)".
Qed.
Lemma local_date : forall zone t, 0 <= LocalTime zone t ->
  real_date (getFullYear zone t) (getMonth zone t + 1) (getDate zone t)
  /\ day_number (getFullYear zone t) (getMonth zone t + 1) (getDate zone t) = LocalTime zone t / 86400000.
Proof. intros zone t L. apply date_found. apply Z.div_pos; [exact L|reflexivity]. Qed.
Lemma release_example :
  (exists gs, usable true (sample "171530") RT_METAR gs /\ released gs 17 15 30)
  /\ real_date 2026 11 17 /\ instant 2026 11 17 15 30 = 1794929400000 /\ prompt 1794931200000 1794931205123
  /\ day_number 2026 11 17 <= (1794931206000 + 120 * 60000) / 86400000 < day_number 2026 11 17 + 28
  /\ forall pow, station_text pow true (constant_zone 60) (device_time 120 60 1794931205123) (device_time 120 60 1794931206000)
       (Some 1794931200000) (sample "171530") "" false = Ok (broken (sample_lines "17:30 (30 minutes ago)")).
Proof.
  split; [apply (sample_usable "171530"); cbn; tauto|]. split; [vm_compute; repeat split; congruence|]. split; [vm_compute; reflexivity|].
  split; [vm_compute; split; congruence|]. split; [vm_compute; split; congruence|]. intros pow. vm_compute. reflexivity.
Qed.
