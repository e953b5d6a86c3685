(** Model of the part of the chrono crate (0.4, /repo/Cargo.toml:29) that the date and time
    functions call.  The crate is a dependency, its source is not in /repo: the definitions
    follow its published implementation; each comment names the call sites in /repo. *)
From Coq Require Import ZArith List Bool.
From Verif Require Import Base.
Import ListNotations.
Open Scope Z_scope.

(** Behaviour that differs between chrono 0.4 releases (/repo/Cargo.toml:29, no lock file):
    [leap_any]: nanoseconds of 10^9 and more are accepted on every second (older) or only on
    second 59 (newer); [nanos_floor]: [timestamp_nanos] multiplies the floored seconds first
    (older, overflows in the lowest partial second) or rounds them toward zero (newer). *)
Record chrono := Chrono { leap_any : bool; nanos_floor : bool }.

(** Nanoseconds of a second; used by every call of [timestamp_nanos], e.g.
    /repo/src/date_time_conversion.rs:9, 15. *)
Definition GIGA : Z := 1000000000.

(** [NaiveDate]: year and day of year (1-based).  Results of [date_naive], e.g.
    /repo/src/date_time_conversion.rs:10-12, /repo/src/date_time_extra_functions.rs:9, 177. *)
Record ndate := NDate { nd_year : Z; nd_ord : Z }.
(** [NaiveTime]: second of day and nanosecond (up to 2*10^9 for a leap second).  Part of every
    [DateTime], e.g. /repo/src/date_time_conversion.rs:24-28,
    /repo/src/date_time_extra_functions.rs:10-14. *)
Record ntime := NTime { nt_secs : Z; nt_frac : Z }.
(** [NaiveDateTime] and [DateTime<Utc>]; result of [timestamp_nanos], e.g.
    /repo/src/date_time_conversion.rs:9, 24, /repo/src/date_time_extra_functions.rs:10, 299. *)
Record ndt := NDt { dt_date : ndate; dt_time : ntime }.

(** Leap years: flag bit of the crate's year table.  Behind [from_ymd_opt],
    /repo/src/date_time_extra_functions.rs:81, and [year]/[month]/[day],
    /repo/src/date_time_extra_functions.rs:179-181. *)
Definition ch_leap (y : Z) : bool :=
  (y mod 4 =? 0) && (negb (y mod 100 =? 0) || (y mod 400 =? 0)).

(** Table [YEAR_DELTAS]: leap days before year [y] of the 400-year cycle.  Behind [timestamp_nanos],
    /repo/src/date_time_conversion.rs:9. *)
Definition year_delta (y : Z) : Z := (y + 3) / 4 - (y + 99) / 100 + (y + 399) / 400.

(** [cycle_to_yo]; behind [timestamp_nanos], /repo/src/date_time_conversion.rs:9. *)
Definition cycle_to_yo (cycle : Z) : Z * Z :=
  let y := cycle / 365 in
  let o := cycle mod 365 in
  if o <? year_delta y
  then (y - 1, o + 365 - year_delta (y - 1) + 1)
  else (y, o - year_delta y + 1).

(** [yo_to_cycle]; behind [signed_duration_since] and [checked_add_signed],
    /repo/src/date_time_numeric_functions.rs:40, 92, 110. *)
Definition yo_to_cycle (y o : Z) : Z := y * 365 + year_delta y + o - 1.

(** [NaiveDate::from_num_days_from_ce_opt]; the range check on the year cannot fail for days
    derived from 64-bit nanoseconds and is left out.  Called by [timestamp_nanos]
    (/repo/src/date_time_conversion.rs:9). *)
Definition from_num_days_from_ce (days : Z) : ndate :=
  let d := days + 365 in
  let '(y, o) := cycle_to_yo (d mod 146097) in
  NDate (d / 146097 * 400 + y) o.

(** [NaiveDate::num_days_from_ce]; called by [timestamp_nanos()]
    (/repo/src/date_time_conversion.rs:15). *)
Definition num_days_from_ce (d : ndate) : Z :=
  let year := nd_year d - 1 in
  let excess := if year <? 0 then 1 + (- year) / 400 else 0 in
  let year := year + excess * 400 in
  let div_100 := year / 100 in
  - excess * 146097 + (Z.shiftr (year * 1461) 2 - div_100 + Z.shiftr div_100 2) + nd_ord d.

(** Month lengths of the crate's month/day tables.  Behind
    /repo/src/date_time_extra_functions.rs:81, 179-181. *)
Definition month_lengths (leap : bool) : list Z :=
  [31; if leap then 29 else 28; 31; 30; 31; 30; 31; 31; 30; 31; 30; 31].

(** Ordinal to (month, day): table [OL_TO_MDL], given here as the search it tabulates.
    [m] is the number of the first month in [lens].  Behind
    /repo/src/date_time_extra_functions.rs:179-181. *)
Fixpoint md_search (lens : list Z) (m o : Z) : Z * Z :=
  match lens with
  | [] => (m, o)
  | l :: lens' => if o <=? l then (m, o) else md_search lens' (m + 1) (o - l)
  end.
(** Month and day of a date (/repo/src/date_time_extra_functions.rs:180-181). *)
Definition nd_md (d : ndate) : Z * Z :=
  md_search (month_lengths (ch_leap (nd_year d))) 1 (nd_ord d).

(** [Datelike::year], [month], [day]: /repo/src/date_time_extra_functions.rs:179-181, … *)
Definition ymd (d : ndate) : Z * Z * Z := let '(m, dd) := nd_md d in (nd_year d, m, dd).

(** [NaiveDate::from_ymd_opt] (table [MDL_TO_OL], given as the sum it tabulates); used by
    /repo/src/date_time_extra_functions.rs:81, 165 and date_time_conversion.rs:30.  The year
    limits are those of [MIN_YEAR]/[MAX_YEAR]; they moved by one between releases, which is
    not observable in nanosecond results. *)
Definition from_ymd_opt (y m d : Z) : option ndate :=
  let lens := month_lengths (ch_leap y) in
  if (-262143 <=? y) && (y <=? 262142) && (1 <=? m) && (m <=? 12) && (1 <=? d)
     && (d <=? nth (Z.to_nat (m - 1)) lens 0)
  then Some (NDate y (fold_right Z.add 0 (firstn (Z.to_nat (m - 1)) lens) + d))
  else None.

(** [NaiveTime::from_hms_nano_opt]; [and_hms_nano_opt], [and_hms_opt], [and_hms_milli_opt]
    are used by /repo/src/date_time_extra_functions.rs:16, 82, 166 and
    date_time_conversion.rs:13, 31. *)
Definition from_hms_nano_opt (v : chrono) (h m s n : Z) : option ntime :=
  if (24 <=? h) || (60 <=? m) || (60 <=? s) || (2 * GIGA <=? n)
     || (negb (leap_any v) && (GIGA <=? n) && negb (s =? 59))
  then None else Some (NTime (h * 3600 + m * 60 + s) n).
(** [NaiveDate::and_hms_nano_opt]: /repo/src/date_time_conversion.rs:31,
    /repo/src/date_time_extra_functions.rs:16. *)
Definition and_hms_nano_opt v (d : ndate) (h m s n : Z) : option ndt :=
  match from_hms_nano_opt v h m s n with Some t => Some (NDt d t) | None => None end.
(** [NaiveDate::and_hms_opt]: /repo/src/date_time_conversion.rs:12,
    /repo/src/date_time_extra_functions.rs:82. *)
Definition and_hms_opt v (d : ndate) (h m s : Z) : option ndt := and_hms_nano_opt v d h m s 0.
(** [NaiveDate::and_hms_milli_opt]: /repo/src/date_time_extra_functions.rs:166.  The product
    overflows [u32] to [None]. *)
Definition and_hms_milli_opt v (d : ndate) (h m s ms : Z) : option ndt :=
  match checked u32 (ms * 1000000) with
  | Some n => and_hms_nano_opt v d h m s n
  | None => None
  end.

(** [TimeZone::timestamp_nanos] for [Utc]: every date function of /repo starts with it,
    e.g. /repo/src/date_time_conversion.rs:9. *)
Definition of_timestamp_nanos (n : Z) : ndt :=
  let secs := Z.quot n GIGA in
  let nanos := Z.rem n GIGA in
  let '(secs, nanos) := if nanos <? 0 then (secs - 1, nanos + GIGA) else (secs, nanos) in
  NDt (from_num_days_from_ce (secs / 86400 + 719163)) (NTime (secs mod 86400) nanos).

(** [NaiveDateTime::timestamp]; called by [timestamp_nanos()] (/repo/src/date_time_conversion.rs:15). *)
Definition timestamp (t : ndt) : Z :=
  (num_days_from_ce (dt_date t) - 719163) * 86400 + nt_secs (dt_time t).

(** [Timelike::hour], [minute], [second], [timestamp_subsec_nanos], [timestamp_subsec_millis]; used
    at /repo/src/date_time_conversion.rs:25-28, /repo/src/date_time_extra_functions.rs:11-14,
    300-303, /repo/src/extra_functions.rs:190-195. *)
Definition hour (t : ndt) : Z := nt_secs (dt_time t) / 3600.
(** [Timelike::minute]: /repo/src/date_time_conversion.rs:26,
    /repo/src/date_time_extra_functions.rs:12, 301. *)
Definition minute (t : ndt) : Z := nt_secs (dt_time t) / 60 mod 60.
(** [Timelike::second]: /repo/src/date_time_conversion.rs:27,
    /repo/src/date_time_extra_functions.rs:13, 302. *)
Definition second (t : ndt) : Z := nt_secs (dt_time t) mod 60.
(** [timestamp_subsec_nanos]: /repo/src/date_time_conversion.rs:28,
    /repo/src/date_time_extra_functions.rs:14. *)
Definition subsec_nanos (t : ndt) : Z := nt_frac (dt_time t).
(** [timestamp_subsec_millis]: /repo/src/date_time_extra_functions.rs:303,
    /repo/src/extra_functions.rs:192. *)
Definition subsec_millis (t : ndt) : Z := nt_frac (dt_time t) / 1000000.

(** [timestamp_nanos] (panics when out of range), e.g. /repo/src/date_time_conversion.rs:15. *)
Definition timestamp_nanos (v : chrono) (t : ndt) : outcome Z :=
  let secs := timestamp t in
  let nanos := subsec_nanos t in
  let '(secs, nanos) :=
    if negb (nanos_floor v) && (secs <? 0) && (0 <? nanos)
    then (secs + 1, nanos - GIGA) else (secs, nanos) in
  match checked i64 (secs * GIGA) with
  | Some a => unwrap (checked i64 (a + nanos))
  | None => Panic
  end.

(** [Datelike::weekday().num_days_from_sunday()]: /repo/src/date_time_extra_functions.rs:587.
    The crate adds the ordinal to a flag of the 400-entry year table; simplification: the
    flag is computed from the day of the 400-year cycle (day 0 is a Saturday). *)
Definition num_days_from_sunday (d : ndate) : Z :=
  (yo_to_cycle (nd_year d mod 400) (nd_ord d) + 6) mod 7.

(** * [chrono::Duration]: floored seconds and nanoseconds in [0, 10^9).  Built at
    /repo/src/date_time_numeric_functions.rs:10-11, 40. *)
Record dur := Dur { du_secs : Z; du_nanos : Z }.

(** [Duration::nanoseconds], e.g. /repo/src/date_time_numeric_functions.rs:10. *)
Definition du_nanoseconds (n : Z) : dur := Dur (n / GIGA) (n mod GIGA).
(** [Duration::seconds], inside [signed_duration_since]
    (/repo/src/date_time_numeric_functions.rs:92). *)
Definition du_seconds (s : Z) : dur := Dur s 0.

(** Range [MIN]..[MAX] of the crate's durations: 2^63 ms on both sides.  It bounds [checked_add] and
    [checked_sub] at /repo/src/date_time_numeric_functions.rs:11, 53. *)
Definition du_limit : Z := 9223372036854775.
(** The test of these bounds (/repo/src/date_time_numeric_functions.rs:11, 53). *)
Definition du_check (d : dur) : option dur :=
  if (- du_limit <=? du_secs d) && (du_secs d <=? du_limit) then Some d else None.

(** [checked_add], [checked_sub]: /repo/src/date_time_numeric_functions.rs:11, 53. *)
Definition du_add (a b : dur) : option dur :=
  let s := du_secs a + du_secs b in
  let n := du_nanos a + du_nanos b in
  du_check (if GIGA <=? n then Dur (s + 1) (n - GIGA) else Dur s n).
(** [checked_sub]: /repo/src/date_time_numeric_functions.rs:53. *)
Definition du_sub (a b : dur) : option dur :=
  let s := du_secs a - du_secs b in
  let n := du_nanos a - du_nanos b in
  du_check (if n <? 0 then Dur (s - 1) (n + GIGA) else Dur s n).
(** [Neg for Duration]; called by [checked_sub_signed], /repo/src/date_time_numeric_functions.rs:110. *)
Definition du_neg (a : dur) : dur :=
  if du_nanos a =? 0 then Dur (- du_secs a) 0 else Dur (- du_secs a - 1) (GIGA - du_nanos a).

(** [num_seconds], [nanos_mod_sec]/[subsec_nanos]: rounded toward zero.  Called by [num_nanoseconds]
    and [checked_add_signed], /repo/src/date_time_numeric_functions.rs:13, 40. *)
Definition du_num_seconds (d : dur) : Z :=
  if (du_secs d <? 0) && (0 <? du_nanos d) then du_secs d + 1 else du_secs d.
(** [subsec_nanos] of a duration: inside [num_nanoseconds] and [checked_add_signed]
    (/repo/src/date_time_numeric_functions.rs:13, 40). *)
Definition du_subsec (d : dur) : Z :=
  if (du_secs d <? 0) && (0 <? du_nanos d) then du_nanos d - GIGA else du_nanos d.

(** [num_nanoseconds]: /repo/src/date_time_numeric_functions.rs:13, 55, 93. *)
Definition du_num_nanoseconds (d : dur) : option Z :=
  match checked i64 (du_num_seconds d * GIGA) with
  | Some a => checked i64 (a + du_subsec d)
  | None => None
  end.

(** [NaiveTime::overflowing_add_signed] on a time that is no leap second (timestamps never
    are): the new time and the whole days, in seconds, carried into the date.  Called by
    [checked_add_signed], /repo/src/date_time_numeric_functions.rs:40, 110. *)
Definition time_overflowing_add (t : ntime) (d : dur) : ntime * Z :=
  let rhs := du_num_seconds d in
  let in_day := Z.rem rhs 86400 in
  let more := rhs - in_day in
  let secs := nt_secs t + in_day in
  let frac := nt_frac t + du_subsec d in
  let '(secs, frac) :=
    if frac <? 0 then (secs - 1, frac + GIGA)
    else if GIGA <=? frac then (secs + 1, frac - GIGA) else (secs, frac) in
  if secs <? 0 then (NTime (secs + 86400) frac, more - 86400)
  else if 86400 <=? secs then (NTime (secs - 86400) frac, more + 86400)
  else (NTime secs frac, more).

(** [NaiveDate::checked_add_signed]/[checked_sub_signed] by whole days.  Called by
    [checked_add_signed], /repo/src/date_time_numeric_functions.rs:40, 110. *)
Definition date_add_days (d : ndate) (days : Z) : ndate :=
  let cycle := yo_to_cycle (nd_year d mod 400) (nd_ord d) + days in
  let '(y, o) := cycle_to_yo (cycle mod 146097) in
  NDate ((nd_year d / 400 + cycle / 146097) * 400 + y) o.

(** [DateTime::checked_add_signed], [checked_sub_signed]:
    /repo/src/date_time_numeric_functions.rs:40, 110.  Two 64-bit nanosecond values cannot leave the
    crate's year range, so the result is not optional. *)
Definition dt_add (t : ndt) (d : dur) : ndt :=
  let '(time, more) := time_overflowing_add (dt_time t) d in
  NDt (date_add_days (dt_date t) (Z.quot more 86400)) time.
(** [DateTime::checked_sub_signed]: /repo/src/date_time_numeric_functions.rs:110. *)
Definition dt_sub (t : ndt) (d : dur) : ndt :=
  let '(time, more) := time_overflowing_add (dt_time t) (du_neg d) in
  NDt (date_add_days (dt_date t) (- Z.quot (- more) 86400)) time.

(** [DateTime::signed_duration_since] without leap seconds:
    /repo/src/date_time_numeric_functions.rs:92. *)
Definition nd_cycle (d : ndate) : Z := yo_to_cycle (nd_year d mod 400) (nd_ord d).
(** The difference itself (/repo/src/date_time_numeric_functions.rs:92): date part plus time
    part. *)
Definition dt_since (a b : ndt) : option dur :=
  let days := (nd_year (dt_date a) / 400 - nd_year (dt_date b) / 400) * 146097
              + (nd_cycle (dt_date a) - nd_cycle (dt_date b)) in
  match du_add (du_seconds (nt_secs (dt_time a) - nt_secs (dt_time b)))
               (du_nanoseconds (nt_frac (dt_time a) - nt_frac (dt_time b))) with
  | Some dtime => du_add (du_seconds (days * 86400)) dtime
  | None => None
  end.
