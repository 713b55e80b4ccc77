(** Vocabulary of C101: dates of the Gregorian calendar, the true time, and a device which shows the right local time. *)
From Coq Require Import List String ZArith NArith.
From Verif Require Import Prim Float Values Weather Groups1 Groups2 Groups3 Groups4 Parser Summary Clock.
Import ListNotations.
Local Open Scope Z_scope.

(** ** The calendar *)
Definition leap_year (y : Z) : bool := (y mod 4 =? 0) && negb (y mod 100 =? 0) || (y mod 400 =? 0).
Definition year_length (y : Z) : Z := if leap_year y then 366 else 365.
Definition month_lengths (y : Z) : list Z := [31; if leap_year y then 29 else 28; 31; 30; 31; 30; 31; 31; 30; 31; 30; 31].
Definition sum (l : list Z) : Z := fold_right Z.add 0 l.
Definition years_from (y : Z) (n : nat) : list Z := map (fun k => y + Z.of_nat k) (seq 0 n).
(** Months and days are counted from 1, years from 1970 on. *)
Definition month_length (y m : Z) : Z := nth (Z.to_nat (m - 1)) (month_lengths y) 0.
Definition real_date (y m d : Z) : Prop := 1970 <= y /\ 1 <= m <= 12 /\ 1 <= d <= month_length y m.
(** The number of days between the beginning of 1970 and the beginning of the date *)
Definition day_number (y m d : Z) : Z :=
  sum (map year_length (years_from 1970 (Z.to_nat (y - 1970)))) + sum (firstn (Z.to_nat (m - 1)) (month_lengths y)) + (d - 1).
(** The time in UTC of the beginning of a minute, in milliseconds since the beginning of 1970 *)
Definition instant (y m d hour minute : Z) : Z := ((day_number y m d * 24 + hour) * 60 + minute) * 60000.
(** A clock which is [ahead] minutes ahead of UTC says hour and minute at a time. *)
Definition clock_says (ahead t hour minute : Z) : Prop :=
  0 <= hour < 24 /\ 0 <= minute < 60 /\ exists day s, 0 <= s < 60000 /\ t + ahead * 60000 = ((day * 24 + hour) * 60 + minute) * 60000 + s.
(** So many whole minutes have gone from one time to the other. *)
Definition minutes_gone (from to n : Z) : Prop := n * 60000 <= to - from < (n + 1) * 60000.

(** ** The device *)
(** A time zone that is always the same number of minutes ahead of UTC *)
Definition constant_zone (ahead : Z) : TimeZone := mkTimeZone (fun _ => ahead) (fun _ => ahead).
(** The time of a device which shows the right local time, [ahead] minutes ahead of UTC, at the true time [t], although its time zone
    is set to [set_to] minutes ahead of UTC: its time in UTC differs from the true one by the difference of the zones. *)
Definition device_time (ahead set_to t : Z) : Z := t + (ahead - set_to) * 60000.
(** The time the server tells in an answer differs from the true time at which the answer comes by less than half a minute. *)
Definition prompt (told came : Z) : Prop := told - 30000 < came < told + 30000.
(** The time of the last report time among the groups of a report *)
Definition released (gs : list Group) (day hour minute : Z) : Prop :=
  exists pre k post d, gs = (pre ++ GReportTime k :: post)%list /\ (forall k', ~ In (GReportTime k') post)
    /\ dayValue (rt_t k) = Some d /\ Z.of_N d = day /\ Z.of_N (hourValue (rt_t k)) = hour /\ Z.of_N (minuteValue (rt_t k)) = minute.
(** Central European time in the year 2026 from the end of March on: two hours ahead of UTC until 01:00 on the 25th of October, and one
    hour from then on. At that moment the clocks, which say 03:00, are put back to 02:00; of the local times which there are twice,
    ECMA-262 takes the first one. *)
Definition central_europe : TimeZone :=
  mkTimeZone (fun t => if t <? instant 2026 10 25 1 0 then 120 else 60) (fun t => if t <? instant 2026 10 25 3 0 then 120 else 60).
