(** How the page examples/shellfiles/summary_shell.html finds out when a report was released. The object Date of the browser is
    modelled after ECMA-262 (21.4.1): a time is a whole number of milliseconds since the beginning of 1970 in UTC. Simplified: the
    range of times is not limited, and the quotients by 60000 are exact. *)
From Coq Require Import List String ZArith NArith.
From Verif Require Import Prim Float Format Summary Page PageFlow.
Import ListNotations.
Local Open Scope Z_scope.

Definition msPerMinute : Z := 60000.
Definition msPerHour : Z := 3600000.
Definition msPerDay : Z := 86400000.

(** The time zone set on the device: the minutes local time is ahead of UTC at a time in UTC, and at a time in local time (LocalTZA,
    ECMA-262 21.4.1.7; here in whole minutes) *)
Record TimeZone := mkTimeZone { tz_utc : Z -> Z; tz_local : Z -> Z }.
(** LocalTime and UTC, ECMA-262 21.4.1.8 and 21.4.1.9 *)
Definition LocalTime (tz : TimeZone) (t : Z) : Z := t + tz_utc tz t * msPerMinute.
Definition UTC (tz : TimeZone) (t : Z) : Z := t - tz_local tz t * msPerMinute.

(** DayFromYear and the number of days of the months before the month, which is counted from 0; ECMA-262 21.4.1.3 and 21.4.1.4 *)
Definition DayFromYear (y : Z) : Z := 365 * (y - 1970) + (y - 1969) / 4 - (y - 1901) / 100 + (y - 1601) / 400.
Definition InLeapYear (y : Z) : Z := DayFromYear (y + 1) - DayFromYear y - 365.
Definition month_starts (y : Z) : list Z :=
  let l := InLeapYear y in
  [0; 31; 59 + l; 90 + l; 120 + l; 151 + l; 181 + l; 212 + l; 243 + l; 273 + l; 304 + l; 334 + l].
(** MakeTime, MakeDay and MakeDate, ECMA-262 21.4.1.11 to 21.4.1.13, without seconds *)
Definition MakeTime (hour min : Z) : Z := hour * msPerHour + min * msPerMinute.
Definition MakeDay (year month date : Z) : Z :=
  let ym := year + month / 12 in
  DayFromYear ym + nth (Z.to_nat (month mod 12)) (month_starts ym) 0 + date - 1.
Definition MakeDate (day time : Z) : Z := day * msPerDay + time.
(** new Date(year, month, date, hours, minutes, 0, 0), ECMA-262 21.4.2.1 *)
Definition new_Date (tz : TimeZone) (year month date hours minutes : Z) : Z :=
  let yr := if (0 <=? year) && (year <=? 99) then 1900 + year else year in
  UTC tz (MakeDate (MakeDay yr month date) (MakeTime hours minutes)).

(** HourFromTime, MinFromTime (ECMA-262 21.4.1.10) of the local time: getHours and getMinutes *)
Definition getHours (tz : TimeZone) (t : Z) : Z := (LocalTime tz t / msPerHour) mod 24.
Definition getMinutes (tz : TimeZone) (t : Z) : Z := (LocalTime tz t / msPerMinute) mod 60.
(** getTimezoneOffset: the minutes UTC is ahead of local time *)
Definition getTimezoneOffset (tz : TimeZone) (t : Z) : Z := - tz_utc tz t.
(** YearFromTime, ECMA-262 21.4.1.3, of a day: the year y such that the day is neither before the first day of y nor after its last
    one; found from an estimate which is wrong by one year at most. *)
Definition YearFromDay (day : Z) : Z :=
  let y := 1970 + 400 * day / 146097 in
  if day <? DayFromYear y then y - 1 else if DayFromYear (y + 1) <=? day then y + 1 else y.
(** MonthFromTime, ECMA-262 21.4.1.4: the last month which begins at or before the day *)
Fixpoint last_start (starts : list Z) (within : Z) (n : nat) : nat :=
  match starts with
  | [] => n
  | _ :: rest => match rest with s :: _ => if within <? s then n else last_start rest within (S n) | [] => n end
  end.
Definition MonthFromDay (day : Z) : Z :=
  let y := YearFromDay day in Z.of_nat (last_start (month_starts y) (day - DayFromYear y) 0).
(** DateFromTime, ECMA-262 21.4.1.5 *)
Definition DateFromDay (day : Z) : Z :=
  let y := YearFromDay day in day - DayFromYear y - nth (Z.to_nat (MonthFromDay day)) (month_starts y) 0 + 1.
Definition getFullYear (tz : TimeZone) (t : Z) : Z := YearFromDay (LocalTime tz t / msPerDay).
Definition getMonth (tz : TimeZone) (t : Z) : Z := MonthFromDay (LocalTime tz t / msPerDay).
Definition getDate (tz : TimeZone) (t : Z) : Z := DateFromDay (LocalTime tz t / msPerDay).

(** Math.round(a / b), for positive b: the nearest whole number, the greater one of two *)
Definition round_quotient (a b : Z) : Z := (2 * a + b) / (2 * b).

(** summary_shell.html:79-83; the difference of Date objects is that of their times. The sum in line 80 is the time of a Date. *)
Definition getActualTimeOffset (tz : TimeZone) (localTimeGMT referenceTimeGMT : Z) : Z :=
  let localTimeWithTzOffset := localTimeGMT - getTimezoneOffset tz localTimeGMT * 60000 in
  round_quotient (localTimeWithTzOffset - referenceTimeGMT) 60000.
(** summary_shell.html:115-117, for an answer that comes at the time [now] of the device; [header] is the time of the header "date",
    if the answer has one that the script may read: otherwise get returns null, and new Date(null) is the time 0. *)
Definition offset_of_answer (tz : TimeZone) (now : Z) (header : option Z) : Z :=
  getActualTimeOffset tz now (match header with Some t => t | None => 0 end).

(** summary_shell.html:617-631: the hour and the minute shown and the minutes gone, at the time [now] of the device *)
Definition update_clock (tz : TimeZone) (now tzOffsetMinutes : Z) (year month day hour minute : Z) : Z * Z * Z :=
  let updateTimeGMT := new_Date tz year (month - 1) day hour minute in
  let updateTimeLocal := updateTimeGMT + tzOffsetMinutes * msPerMinute in
  let updatedMinutesAgo := Z.quot (now - updateTimeLocal) msPerMinute in
  (getHours tz updateTimeLocal, getMinutes tz updateTimeLocal, updatedMinutesAgo).

(** summary_shell.html:1099-1103: the text of a station whose reports are [metar] and [taf], shown at the time [now] of the device,
    if the answer with the METARs came at the time [came]. Simplified: the clock is read once. *)
Definition station_text (pow : flt -> flt -> flt) (sgn : bool) (tz : TimeZone) (came now : Z) (header : option Z)
  (metar taf : string) (imperialUnits : bool) : res string :=
  let! w := getCurrentWeather pow sgn metar taf (getFullYear tz now) (getMonth tz now + 1) (getDate tz now) imperialUnits in
  currentWeatherToHTML (update_clock tz now (offset_of_answer tz came header)) (adaptCurrentWeather w js_valueNotSpecified)
    imperialUnits "<br>".
