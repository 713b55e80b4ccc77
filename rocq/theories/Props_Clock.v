(** C101: the time of the update on the page examples/shellfiles/summary_shell.html. *)
From Coq Require Import List String ZArith NArith.
From Verif Require Import Prim Float Values Weather Groups1 Groups2 Groups3 Groups4 Parser Format Summary Page SpecFigures SpecExplain SpecSummary SpecPage.
From Verif Require Import Clock SpecClock Pf_Clock Pf_ClockPage.
Import ListNotations.
Local Open Scope string_scope.

(** *** C101: the page tells when a report was released *)
(** The line "Updated" says the local time of the release and the time gone since, if the device shows the right local time, even if
    its time zone is a wrong one. Missing for the full property: time zones that change, releases on a day which has not begun where
    the device is, and answers whose date cannot be read. *)
Theorem C101_release_partial :
  forall (pow : flt -> flt -> flt) (sgn : bool) (metar taf : string) (imperial : bool) (gs : list Group) (text : string)
    (y m d hour minute ahead set_to told came t : Z),
    usable sgn metar RT_METAR gs \/ unusable sgn metar RT_METAR /\ usable sgn taf RT_TAF gs ->
    released gs d hour minute -> real_date y m d -> (y <= 9999)%Z ->
    prompt told came -> (instant y m d hour minute <= t)%Z ->
    (day_number y m d <= (t + ahead * 60000) / 86400000 < day_number y m d + 28)%Z ->
    station_text pow sgn (constant_zone set_to) (device_time ahead set_to came) (device_time ahead set_to t) (Some told) metar taf imperial
      = Ok text ->
    exists lines h mi ago time span, text = broken lines /\ Forall (fun l => occurs "<" l = false) lines
      /\ only_line "Updated: " lines (time ++ " (" ++ span ++ " ago)")
      /\ clock_says ahead (instant y m d hour minute) h mi /\ clock_text h mi time
      /\ minutes_gone (instant y m d hour minute) t ago /\ span_text ago span.
Proof. exact release_shown. Qed.
Print Assumptions C101_release_partial.
(** The calendar of the browser is the Gregorian one: the date at a time is the one whose day includes that time. *)
Theorem C101_calendar :
  forall (zone : TimeZone) (t : Z), (0 <= LocalTime zone t)%Z ->
    real_date (getFullYear zone t) (getMonth zone t + 1) (getDate zone t)
    /\ day_number (getFullYear zone t) (getMonth zone t + 1) (getDate zone t) = (LocalTime zone t / 86400000)%Z.
Proof. exact local_date. Qed.
Print Assumptions C101_calendar.
Example C101_nonvacuous :
  (exists gs, usable true "METAR ZZZZ 171530Z 27008KT CAVOK Q1013=" RT_METAR gs /\ released gs 17 15 30)
  /\ real_date 2026 11 17 /\ instant 2026 11 17 15 30 = 1794929400000%Z /\ prompt 1794931200000 1794931205123
  /\ (day_number 2026 11 17 <= (1794931206000 + 120 * 60000) / 86400000 < day_number 2026 11 17 + 28)%Z
  /\ forall pow, station_text pow true (constant_zone 60) (device_time 120 60 1794931205123) (device_time 120 60 1794931206000)
       (Some 1794931200000%Z) "METAR ZZZZ 171530Z 27008KT CAVOK Q1013=" "" false
     = Ok (broken ["Mostly clear"; "Temperature not specified"; "Wind is true western, 270&deg;, 14 km/h"; "Visibility 10000 meters";
                   "Atmospheric pressure 1013 hPa"; "Updated: 17:30 (30 minutes ago)"]).
Proof. exact release_example. Qed.
(** West of Greenwich, on the evening before the first day of a month in UTC, a report of that day counts as one of the first day of the
    month which is ending: one that is 14 minutes old is said to be 31 days older. *)
Theorem C101_month_refuted :
  let now := instant 2026 11 1 1 5 in
  (exists gs, usable true "METAR ZZZZ 010051Z 27008KT CAVOK Q1013=" RT_METAR gs /\ released gs 1 0 51)
  /\ minutes_gone (instant 2026 11 1 0 51) now 14
  /\ forall pow, exists lines,
     station_text pow true (constant_zone (-300)) now now (Some now) "METAR ZZZZ 010051Z 27008KT CAVOK Q1013=" "" false = Ok (broken lines)
     /\ Forall (fun l => occurs "<" l = false) lines /\ only_line "Updated: " lines "19:51 (744 hours 14 minutes ago)".
Proof. exact wrong_month. Qed.
Print Assumptions C101_month_refuted.
(** Near a change of the time zone the time is wrong by an hour, though clock and time zone of the device are right. *)
Theorem C101_zone_change_refuted :
  let now := instant 2026 10 25 1 5 in
  (exists gs, usable true "METAR ZZZZ 250050Z 27008KT CAVOK Q1013=" RT_METAR gs /\ released gs 25 0 50)
  /\ minutes_gone (instant 2026 10 25 0 50) now 15
  /\ clock_says (tz_utc central_europe (instant 2026 10 25 0 50)) (instant 2026 10 25 0 50) 2 50
  /\ forall pow, exists lines,
     station_text pow true central_europe now now (Some now) "METAR ZZZZ 250050Z 27008KT CAVOK Q1013=" "" false = Ok (broken lines)
     /\ Forall (fun l => occurs "<" l = false) lines /\ only_line "Updated: " lines "01:50 (1 hour 15 minutes ago)".
Proof. exact zone_changed. Qed.
Print Assumptions C101_zone_change_refuted.
(** If the script may not read the date of the answer, the server's time counts as the beginning of 1970. *)
Theorem C101_no_date_refuted :
  let now := instant 2026 11 17 16 0 in
  (exists gs, usable true "METAR ZZZZ 171530Z 27008KT CAVOK Q1013=" RT_METAR gs /\ released gs 17 15 30)
  /\ minutes_gone (instant 2026 11 17 15 30) now 30
  /\ forall pow, exists lines,
     station_text pow true (constant_zone 0) now now None "METAR ZZZZ 171530Z 27008KT CAVOK Q1013=" "" false = Ok (broken lines)
     /\ Forall (fun l => occurs "<" l = false) lines /\ only_line "Updated: " lines "07:30 (-498591 hours -30 minutes ago)".
Proof. exact no_date. Qed.
Print Assumptions C101_no_date_refuted.
