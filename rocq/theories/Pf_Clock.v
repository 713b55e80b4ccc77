(** The calendar of the browser is the Gregorian one, and the time of the update is the right one. *)
From Coq Require Import List String ZArith NArith.
From Verif Require Import Prim Clock SpecClock.
From Coq Require Import Lia ZifyBool.
Import ListNotations.
Local Open Scope Z_scope.

Ltac divs := Z.div_mod_to_equations.
(** ** Years *)
Lemma leap_step : forall y, DayFromYear (y + 1) - DayFromYear y = year_length y.
Proof.
  intros y. unfold DayFromYear, year_length, leap_year.
  destruct (Z.eqb_spec (y mod 4) 0), (Z.eqb_spec (y mod 100) 0), (Z.eqb_spec (y mod 400) 0); cbn [andb orb negb]; divs; lia.
Qed.
Lemma leap_flag : forall y, InLeapYear y = if leap_year y then 1 else 0.
Proof. intros y. unfold InLeapYear. rewrite leap_step. unfold year_length. destruct (leap_year y); reflexivity. Qed.
Lemma sum_app : forall a b, sum (a ++ b) = sum a + sum b.
Proof. induction a as [|x a IH]; intros b; [reflexivity|]. cbn [app sum fold_right]. unfold sum in IH. rewrite IH. unfold sum. lia. Qed.
Lemma days_of_years : forall n, DayFromYear (1970 + Z.of_nat n) = sum (map year_length (years_from 1970 n)).
Proof.
  induction n as [|n IH]; [reflexivity|]. unfold years_from in *. rewrite seq_S, !map_app, sum_app, <- IH. cbn [map sum fold_right].
  rewrite Nat.add_0_l. pose proof (leap_step (1970 + Z.of_nat n)). replace (1970 + Z.of_nat (S n)) with (1970 + Z.of_nat n + 1) by lia. lia.
Qed.
Lemma years_before : forall y, 1970 <= y -> sum (map year_length (years_from 1970 (Z.to_nat (y - 1970)))) = DayFromYear y.
Proof. intros y L. rewrite <- days_of_years. f_equal. lia. Qed.
Lemma year_bounds : forall y, 365 <= DayFromYear (y + 1) - DayFromYear y <= 366.
Proof. intros y. rewrite leap_step. unfold year_length. destruct (leap_year y); lia. Qed.
Lemma years_grow : forall n y, 365 * Z.of_nat n <= DayFromYear (y + Z.of_nat n) - DayFromYear y.
Proof.
  induction n as [|n IH]; intros y; [replace (y + Z.of_nat 0) with y by lia; lia|].
  specialize (IH y). pose proof (year_bounds (y + Z.of_nat n)). replace (y + Z.of_nat (S n)) with (y + Z.of_nat n + 1) by lia. lia.
Qed.
Lemma year_mono : forall a b, a <= b -> 365 * (b - a) <= DayFromYear b - DayFromYear a.
Proof. intros a b L. pose proof (years_grow (Z.to_nat (b - a)) a). replace (a + Z.of_nat (Z.to_nat (b - a))) with b in H by lia. lia. Qed.

(** ** Months *)
Ltac months m := assert (m = 1 \/ m = 2 \/ m = 3 \/ m = 4 \/ m = 5 \/ m = 6 \/ m = 7 \/ m = 8 \/ m = 9 \/ m = 10 \/ m = 11 \/ m = 12) as
  [->|[->|[->|[->|[->|[->|[->|[->|[->|[->|[->| ->]]]]]]]]]]] by lia.
Lemma month_before : forall y m, 1 <= m <= 12 -> nth (Z.to_nat ((m - 1) mod 12)) (month_starts y) 0 = sum (firstn (Z.to_nat (m - 1)) (month_lengths y)).
Proof. intros y m M. unfold month_starts, month_lengths. rewrite leap_flag. months m; destruct (leap_year y); reflexivity. Qed.
Lemma make_day : forall y m d, 1970 <= y -> 1 <= m <= 12 -> MakeDay y (m - 1) d = day_number y m d.
Proof.
  intros y m d Y M. unfold MakeDay, day_number. replace ((m - 1) / 12) with 0 by (divs; lia). rewrite Z.add_0_r, month_before, years_before by assumption. lia.
Qed.
Lemma new_date : forall ahead y m d hour minute, 1970 <= y -> 1 <= m <= 12 ->
  new_Date (constant_zone ahead) y (m - 1) d hour minute = instant y m d hour minute - ahead * 60000.
Proof.
  intros ahead y m d hour minute Y M. unfold new_Date. replace ((0 <=? y) && (y <=? 99)) with false by lia.
  rewrite make_day by assumption. unfold UTC, MakeDate, MakeTime, instant, msPerDay, msPerHour, msPerMinute. cbn [constant_zone tz_local]. lia.
Qed.

(** ** The update *)
Lemma offset_right : forall ahead set_to told came, prompt told came ->
  offset_of_answer (constant_zone set_to) (device_time ahead set_to came) (Some told) = ahead.
Proof.
  intros ahead set_to told came P. unfold prompt in P. unfold offset_of_answer, getActualTimeOffset, round_quotient, getTimezoneOffset, device_time.
  cbn [constant_zone tz_utc]. divs. lia.
Qed.
Lemma clock_right : forall ahead set_to told came t y m d hour minute h mi ago,
  prompt told came -> 1970 <= y -> 1 <= m <= 12 -> instant y m d hour minute <= t ->
  update_clock (constant_zone set_to) (device_time ahead set_to t)
    (offset_of_answer (constant_zone set_to) (device_time ahead set_to came) (Some told)) y m d hour minute = (h, mi, ago) ->
  clock_says ahead (instant y m d hour minute) h mi /\ minutes_gone (instant y m d hour minute) t ago /\ 0 <= ago.
Proof.
  intros ahead set_to told came t y m d hour minute h mi ago P Y M L E. rewrite offset_right in E by exact P. unfold update_clock in E.
  rewrite new_date in E by assumption. unfold getHours, getMinutes, LocalTime in E. cbn [constant_zone tz_utc] in E.
  unfold msPerMinute, msPerHour in E. unfold device_time in E.
  injection E as Eh Em Ea.
  assert (A : ago = (t - instant y m d hour minute) / 60000).
  { rewrite <- Ea. replace (t + (ahead - set_to) * 60000 - (instant y m d hour minute - set_to * 60000 + ahead * 60000))
      with (t - instant y m d hour minute) by lia. apply Z.quot_div_nonneg; lia. }
  set (u := instant y m d hour minute) in *.
  replace (u - set_to * 60000 + ahead * 60000 + set_to * 60000) with (u + ahead * 60000) in Eh, Em by lia.
  split; [|unfold minutes_gone; rewrite A; divs; lia].
  unfold clock_says. split; [rewrite <- Eh; apply Z.mod_pos_bound; lia|]. split; [rewrite <- Em; apply Z.mod_pos_bound; lia|].
  exists ((u + ahead * 60000) / 86400000), ((u + ahead * 60000) mod 60000). split; [apply Z.mod_pos_bound; lia|].
  generalize dependent (u + ahead * 60000). intros v Eh Em. clear - Eh Em.
  assert (v / 3600000 = v / 60000 / 60) as E1 by (rewrite Z.div_div by lia; reflexivity).
  assert (v / 86400000 = v / 60000 / 60 / 24) as E2 by (rewrite !Z.div_div by lia; reflexivity).
  rewrite E1 in Eh. rewrite E2. pose proof (Z.div_mod v 60000 ltac:(lia)). generalize dependent (v / 60000). intros q. intros. divs. lia.
Qed.

(** ** The date of the device *)
Lemma estimate : forall day, let y := 1970 + 400 * day / 146097 in DayFromYear (y - 1) <= day < DayFromYear (y + 2).
Proof. intros day y. subst y. unfold DayFromYear. divs. lia. Qed.
Lemma year_found : forall day, DayFromYear (YearFromDay day) <= day < DayFromYear (YearFromDay day + 1).
Proof.
  intros day. pose proof (estimate day) as E. cbv zeta in E. unfold YearFromDay. set (y := 1970 + 400 * day / 146097) in *.
  destruct (Z.ltb_spec day (DayFromYear y)); [replace (y - 1 + 1) with y by lia; lia|].
  destruct (Z.leb_spec (DayFromYear (y + 1)) day); [replace (y + 1 + 1) with (y + 2) by lia; lia|lia].
Qed.
Lemma year_1970 : forall day, 0 <= day -> 1970 <= YearFromDay day.
Proof.
  intros day L. pose proof (year_found day) as F. destruct (Z.le_gt_cases 1970 (YearFromDay day)) as [G|G]; [exact G|].
  pose proof (year_mono (YearFromDay day + 1) 1970 ltac:(lia)) as H. change (DayFromYear 1970) with 0 in H. lia.
Qed.
Ltac to_nats := repeat match goal with |- context [Pos.to_nat ?p] => let v := eval compute in (Pos.to_nat p) in change (Pos.to_nat p) with v end.
Lemma date_found : forall day, 0 <= day ->
  real_date (YearFromDay day) (MonthFromDay day + 1) (DateFromDay day) /\ day_number (YearFromDay day) (MonthFromDay day + 1) (DateFromDay day) = day.
Proof.
  intros day L. pose proof (year_found day) as F. pose proof (year_1970 day L) as Y. unfold DateFromDay, MonthFromDay, real_date, day_number.
  rewrite years_before by exact Y. set (y := YearFromDay day) in *. pose proof (leap_step y) as S. unfold month_starts. rewrite leap_flag.
  unfold year_length in S. unfold month_length, month_lengths. set (w := day - DayFromYear y) in *. assert (W : day = DayFromYear y + w) by lia.
  clear -F Y S W. assert (0 <= w < if leap_year y then 366 else 365) as R by lia. clear F S. clearbody w y. generalize dependent (DayFromYear y). intros D W.
  subst day. cbn [last_start].
  destruct (leap_year y); cbn in R |- *;
  repeat match goal with |- context [if w <? ?a then _ else _] => destruct (Z.ltb_spec w a) end; cbn; to_nats; cbn; lia.
Qed.
(** A date less than 28 days before the date of the device has the same month and an earlier day, or is in the month before with a
    later day. *)
Lemma number_of : forall y m d, 1970 <= y -> day_number y m d = DayFromYear y + sum (firstn (Z.to_nat (m - 1)) (month_lengths y)) + (d - 1).
Proof. intros y m d Y. unfold day_number. rewrite years_before by exact Y. reflexivity. Qed.
Lemma before_months : forall y m, 1 <= m <= 12 ->
  0 <= sum (firstn (Z.to_nat (m - 1)) (month_lengths y)) /\ sum (firstn (Z.to_nat (m - 1)) (month_lengths y)) + month_length y m <= year_length y
  /\ 28 <= month_length y m /\ sum (firstn (Z.to_nat (m - 1)) (month_lengths y)) + month_length y m = year_length y - sum (skipn (Z.to_nat m) (month_lengths y))
  /\ (m < 12 -> 28 <= sum (skipn (Z.to_nat m) (month_lengths y))).
Proof. intros y m M. unfold year_length, month_length, month_lengths. months m; destruct (leap_year y); cbn; to_nats; cbn; lia. Qed.
Lemma months_apart : forall y m m', 1 <= m <= 12 -> 1 <= m' <= 12 -> m < m' ->
  sum (firstn (Z.to_nat (m - 1)) (month_lengths y)) + month_length y m <= sum (firstn (Z.to_nat (m' - 1)) (month_lengths y))
  /\ (m' <> m + 1 -> sum (firstn (Z.to_nat (m - 1)) (month_lengths y)) + month_length y m + 28 <= sum (firstn (Z.to_nat (m' - 1)) (month_lengths y))).
Proof. intros y m m' M M' L. unfold month_length, month_lengths. months m; months m'; try (exfalso; lia); destruct (leap_year y); cbn; to_nats; cbn; lia. Qed.
Lemma near_dates : forall y m d y' m' d', real_date y m d -> real_date y' m' d' ->
  day_number y m d <= day_number y' m' d' < day_number y m d + 28 ->
  y = y' /\ m = m' /\ d <= d' \/ (y = y' /\ m' = m + 1 \/ y' = y + 1 /\ m = 12 /\ m' = 1) /\ d' < d.
Proof.
  intros y m d y' m' d' (Y & M & D) (Y' & M' & D') H. rewrite !number_of in H by assumption.
  pose proof (before_months y m M) as B. pose proof (before_months y' m' M') as B'.
  destruct (Z.lt_trichotomy y y') as [L|[->|L]].
  - pose proof (year_mono (y + 1) y' ltac:(lia)). pose proof (leap_step y).
    destruct (Z.eq_dec y' (y + 1)) as [->|N]; [|exfalso; lia].
    destruct (Z.eq_dec m 12) as [->|Nm]; [|exfalso; lia]. destruct (Z.eq_dec m' 1) as [->|Nm'].
    + change (skipn (Z.to_nat 12) (month_lengths y)) with (@nil Z) in B. cbn [sum fold_right] in B. cbn [Z.sub Z.add Z.opp Z.pos_sub Z.to_nat firstn] in *. cbn [sum fold_right] in *. lia.
    + exfalso. pose proof (months_apart (y + 1) 1 m' ltac:(lia) M' ltac:(lia)) as A. pose proof (before_months (y + 1) 1 ltac:(lia)).
      change (skipn (Z.to_nat 12) (month_lengths y)) with (@nil Z) in B. cbn [sum fold_right] in B. lia.
  - destruct (Z.lt_trichotomy m m') as [Lm|[->|Lm]].
    + pose proof (months_apart y' m m' M M' Lm) as A. right. destruct (Z.eq_dec m' (m + 1)) as [E|N]; [|exfalso; lia]. lia.
    + left. lia.
    + exfalso. pose proof (months_apart y' m' m M' M Lm) as A. lia.
  - exfalso. pose proof (year_mono (y' + 1) y ltac:(lia)). pose proof (leap_step y'). lia.
Qed.
