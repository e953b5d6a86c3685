(** Specification vocabulary for dates and times: the Gregorian calendar as a successor
    relation on (year, month, day). *)
From Coq Require Import ZArith List Bool.
From Verif Require Import Base ModelChrono.
Import ListNotations.
Open Scope Z_scope.

(** One day, hour, …, in nanoseconds. *)
Definition DAY : Z := 86400000000000.
Definition HOUR : Z := 3600000000000.
Definition MINUTE : Z := 60000000000.
Definition SECOND : Z := 1000000000.
Definition MILLI : Z := 1000000.

(** Leap years of the Gregorian calendar. *)
Definition is_leapb (y : Z) : bool :=
  (y mod 400 =? 0) || ((y mod 4 =? 0) && negb (y mod 100 =? 0)).

(** Thirty days hath September, April, June and November. *)
Definition days_in_month (y m : Z) : Z :=
  if (m =? 4) || (m =? 6) || (m =? 9) || (m =? 11) then 30
  else if m =? 2 then (if is_leapb y then 29 else 28) else 31.

Definition valid_date (x : Z * Z * Z) : Prop :=
  let '(y, m, d) := x in 1 <= m <= 12 /\ 1 <= d <= days_in_month y m.

Definition next_day (x : Z * Z * Z) : Z * Z * Z :=
  let '(y, m, d) := x in
  if d <? days_in_month y m then (y, m, d + 1)
  else if m <? 12 then (y, m + 1, 1) else (y + 1, 1, 1).

(** [day_number x n]: calendar day [x] is [n] days after 1970-01-01, counted by walking the
    calendar one day at a time in either direction. *)
Inductive day_number : Z * Z * Z -> Z -> Prop :=
| day_epoch : day_number (1970, 1, 1) 0
| day_next : forall x n, day_number x n -> day_number (next_day x) (n + 1)
| day_prev : forall x n, valid_date x -> day_number (next_day x) n -> day_number x (n - 1).

(** Results a timestamp computation can deliver: all of i64, except that older chrono
    releases abort in the lowest partial second. *)
Definition representable (v : chrono) (x : Z) : Prop :=
  in_ity i64 x /\ (nanos_floor v = true -> -9223372036 * SECOND <= x).

(** A calendar time within a day, millisecond resolution. *)
Definition valid_clock (h mi s ms : Z) : Prop :=
  0 <= h < 24 /\ 0 <= mi < 60 /\ 0 <= s < 60 /\ 0 <= ms < 1000.
Definition clock_ns (h mi s ms : Z) : Z := h * HOUR + mi * MINUTE + s * SECOND + ms * MILLI.

(** Instances whose arguments fit 32 bits. *)
Definition narrow (t : ity) : Prop := In t [i8; u8; i16; u16; i32; u32].

(** Milliseconds CONCAT_TOD accepts on second [s]: below 1000, or a leap second. *)
Definition accepts_millis (v : chrono) (s ms : Z) : Prop :=
  ms < 1000 \/ (ms < 2000 /\ (leap_any v = true \/ s = 59)).

