(** Model of src/date_time_conversion.rs, src/date_time_extra_functions.rs, the additions and
    subtractions of src/date_time_numeric_functions.rs, and the ST wrappers CONCAT_DT,
    CONCAT_LDT, ….  DATE, TOD, DT and TIME are i64 nanoseconds. *)
From Coq Require Import ZArith List Bool.
From Verif Require Import Base ModelChrono.
Import ListNotations.
Open Scope Z_scope.

(** /repo/src/date_time_conversion.rs:8-16 *)
Definition DATE_AND_TIME_TO_DATE (v : chrono) (input : Z) : outcome Z :=
  let! t := unwrap (and_hms_opt v (dt_date (of_timestamp_nanos input)) 0 0 0) in
  timestamp_nanos v t.

(** /repo/src/date_time_conversion.rs:23-35 *)
Definition DATE_AND_TIME_TO_TIME_OF_DAY (v : chrono) (input : Z) : outcome Z :=
  let dt := of_timestamp_nanos input in
  let! t := unwrap (match from_ymd_opt 1970 1 1 with
                    | Some d => and_hms_nano_opt v d (hour dt) (minute dt) (second dt)
                                  (subsec_nanos dt)
                    | None => None
                    end) in
  timestamp_nanos v t.

(** /repo/src/date_time_extra_functions.rs:8-19 *)
Definition CONCAT_DATE_TOD (v : chrono) (in1 in2 : Z) : outcome Z :=
  let tod := of_timestamp_nanos in2 in
  let! t := unwrap (and_hms_nano_opt v (dt_date (of_timestamp_nanos in1)) (hour tod)
                      (minute tod) (second tod) (subsec_nanos tod)) in
  timestamp_nanos v t.

(** /repo/src/date_time_extra_functions.rs:80-85 *)
Definition concat_date (v : chrono) (in1 in2 in3 : Z) : outcome Z :=
  let! t := unwrap (match from_ymd_opt in1 in2 in3 with
                    | Some d => and_hms_opt v d 0 0 0
                    | None => None
                    end) in
  timestamp_nanos v t.

(** Argument types of the instances. *)
(** CONCAT_DATE: /repo/src/date_time_extra_functions.rs:26, 35, 44, 53, 62, 71 *)
Definition date_types : list ity := [i16; u16; i32; u32; i64; u64].

(** /repo/src/date_time_extra_functions.rs:26-73 CONCAT_DATE__INT/UINT/DINT/UDINT/LINT/ULINT:
    the arguments are of the same integer type; [.into()] and [as] are both [wrap]. *)
Definition CONCAT_DATE (v : chrono) (y m d : Z) : outcome Z :=
  concat_date v (wrap i32 y) (wrap u32 m) (wrap u32 d).

(** /repo/src/date_time_extra_functions.rs:164-169 *)
Definition concat_tod (v : chrono) (in1 in2 in3 in4 : Z) : outcome Z :=
  let! t := unwrap (match from_ymd_opt 1970 1 1 with
                    | Some d => and_hms_milli_opt v d in1 in2 in3 in4
                    | None => None
                    end) in
  timestamp_nanos v t.

(** /repo/src/date_time_extra_functions.rs:92-157 CONCAT_TOD__SINT … ULINT ([as u32]) *)
Definition CONCAT_TOD (v : chrono) (h m s ms : Z) : outcome Z :=
  concat_tod v (wrap u32 h) (wrap u32 m) (wrap u32 s) (wrap u32 ms).

(** /repo/iec61131-st/date_time_extra_functions.st CONCAT_DT__* and, by the same composition,
    CONCAT_LDT__*. *)
Definition CONCAT_DT (v : chrono) (y mo d h mi s ms : Z) : outcome Z :=
  let! a := CONCAT_DATE v y mo d in
  let! b := CONCAT_TOD v h mi s ms in
  CONCAT_DATE_TOD v a b.

(** /repo/src/date_time_extra_functions.rs:176-286 SPLIT_DATE__* with outputs of type [t]:
    the year by [try_into().unwrap()] (plain assignment for DINT, which is the same since the
    year is an i32), month and day by [as]. *)
Definition SPLIT_DATE (t : ity) (in1 : Z) : outcome (Z * Z * Z) :=
  let '(y, m, d) := ymd (dt_date (of_timestamp_nanos in1)) in
  let! y' := unwrap (checked t y) in
  Ok (y', wrap t m, wrap t d).

(** /repo/src/date_time_extra_functions.rs:292-411 SPLIT_TOD__* *)
Definition SPLIT_TOD (t : ity) (in1 : Z) : Z * Z * Z * Z :=
  let tod := of_timestamp_nanos in1 in
  (wrap t (hour tod), wrap t (minute tod), wrap t (second tod), wrap t (subsec_millis tod)).

(** /repo/src/date_time_extra_functions.rs:418-580 SPLIT_DT__* *)
Definition SPLIT_DT (t : ity) (in1 : Z) : outcome (Z * Z * Z * Z * Z * Z * Z) :=
  let dt := of_timestamp_nanos in1 in
  let '(y, m, d) := ymd (dt_date dt) in
  let! y' := unwrap (checked t y) in
  Ok (y', wrap t m, wrap t d,
      wrap t (hour dt), wrap t (minute dt), wrap t (second dt), wrap t (subsec_millis dt)).

(** /repo/src/date_time_extra_functions.rs:585-588 *)
Definition DAY_OF_WEEK (in1 : Z) : Z :=
  wrap i8 (num_days_from_sunday (dt_date (of_timestamp_nanos in1))).

(** /repo/src/date_time_numeric_functions.rs:9-15 *)
Definition ADD_TIME (in1 in2 : Z) : outcome Z :=
  let! d := unwrap (du_add (du_nanoseconds in1) (du_nanoseconds in2)) in
  unwrap (du_num_nanoseconds d).

(** /repo/src/date_time_numeric_functions.rs:51-57 *)
Definition SUB_TIME (in1 in2 : Z) : outcome Z :=
  let! d := unwrap (du_sub (du_nanoseconds in1) (du_nanoseconds in2)) in
  unwrap (du_num_nanoseconds d).

(** /repo/src/date_time_numeric_functions.rs:37-43; ADD_TOD_TIME 23-25, ADD_DT_TIME 33-35 *)
Definition add_datetime_time (v : chrono) (in1 in2 : Z) : outcome Z :=
  timestamp_nanos v (dt_add (of_timestamp_nanos in1) (du_nanoseconds in2)).
(** /repo/src/date_time_numeric_functions.rs:23-25 *)
Definition ADD_TOD_TIME := add_datetime_time.
(** /repo/src/date_time_numeric_functions.rs:33-35 *)
Definition ADD_DT_TIME := add_datetime_time.

(** /repo/src/date_time_numeric_functions.rs:107-113; SUB_TOD_TIME 75-77, SUB_DT_TIME 103-105 *)
Definition sub_datetime_duration (v : chrono) (in1 in2 : Z) : outcome Z :=
  timestamp_nanos v (dt_sub (of_timestamp_nanos in1) (du_nanoseconds in2)).
(** /repo/src/date_time_numeric_functions.rs:75-77 *)
Definition SUB_TOD_TIME := sub_datetime_duration.
(** /repo/src/date_time_numeric_functions.rs:103-105 *)
Definition SUB_DT_TIME := sub_datetime_duration.

(** /repo/src/date_time_numeric_functions.rs:89-95; SUB_DATE_DATE 65-67, SUB_TOD_TOD 85-87,
    SUB_DT_DT 121-123 *)
Definition sub_datetimes (in1 in2 : Z) : outcome Z :=
  let! d := unwrap (dt_since (of_timestamp_nanos in1) (of_timestamp_nanos in2)) in
  unwrap (du_num_nanoseconds d).
(** /repo/src/date_time_numeric_functions.rs:65-67 *)
Definition SUB_DATE_DATE := sub_datetimes.
(** /repo/src/date_time_numeric_functions.rs:85-87 *)
Definition SUB_TOD_TOD := sub_datetimes.
(** /repo/src/date_time_numeric_functions.rs:121-123 *)
Definition SUB_DT_DT := sub_datetimes.
