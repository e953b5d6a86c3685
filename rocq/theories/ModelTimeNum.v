(** Model of TIME times/divided by a number: /repo/src/date_time_numeric_functions.rs:127-831. *)
From Coq Require Import ZArith Bool SpecFloat.
From Verif Require Import Base ModelFloat.
Open Scope Z_scope.

(** /repo/src/date_time_numeric_functions.rs:249-251 [checked_mul_time_with_signed_int]; the
    wrappers MUL__TIME__SINT .. MUL_LTIME__LINT (127-243) widen their argument losslessly. *)
Definition MUL_TIME_SIGNED (in1 in2 : Z) : outcome Z := unwrap (checked i64 (in1 * in2)).

(** [i64::checked_div] (Rust core): [None] for a zero divisor and for MIN / -1.  Called at
    /repo/src/date_time_numeric_functions.rs:508, 638. *)
Definition checked_div_i64 (a b : Z) : option Z :=
  if b =? 0 then None else checked i64 (Z.quot a b).

(** /repo/src/date_time_numeric_functions.rs:507-509 [checked_div_time_by_signed_int]; wrappers
    385-501. *)
Definition DIV_TIME_SIGNED (in1 in2 : Z) : outcome Z := unwrap (checked_div_i64 in1 in2).

(** /repo/src/date_time_numeric_functions.rs:377-381 [checked_mul_time_with_unsigned_int];
    wrappers 255-371. *)
Definition MUL_TIME_UNSIGNED (in1 in2 : Z) : outcome Z :=
  let! b := unwrap (checked i64 in2) in
  unwrap (checked i64 (in1 * b)).

(** /repo/src/date_time_numeric_functions.rs:635-639 [checked_div_time_by_unsigned_int];
    wrappers 513-629. *)
Definition DIV_TIME_UNSIGNED (in1 in2 : Z) : outcome Z :=
  let! b := unwrap (checked i64 in2) in
  unwrap (checked_div_i64 in1 b).

(** Generation of [Duration::from_secs_f32/f64] (Rust std, not pinned by /repo/Cargo.toml):
    [DurRound] rounds the exact value to the nearest nanosecond, ties to even (current);
    [DurTrunc] truncates it (a few releases); [DurMul] multiplies by 1e9 in floating point and
    truncates (releases before). *)
Inductive durgen := DurRound | DurTrunc | DurMul.

(** Rust's [as f32]/[as f64] from an integer: round to nearest, ties to even.  Part of
    [mul_fN]/[div_fN], /repo/src/date_time_numeric_functions.rs:679, 727, 775, 823. *)
Definition f_of_int (f : fmt) (z : Z) : spec_float :=
  binary_normalize (f_prec f) (f_emax f) z 0 false.

(** The constant of Rust's [Duration] (/repo/src/date_time_numeric_functions.rs:679, 727, 775,
    823). *)
Definition NANOS_PER_SEC : Z := 1000000000.

(** [Duration::as_secs_f32/f64] (Rust std) of a duration of [n] nanoseconds:
    [(secs as fN) + (nanos as fN) / (NANOS_PER_SEC as fN)]; called by [mul_fN]/[div_fN], used in
    /repo/src/date_time_numeric_functions.rs:679, 727, 775, 823. *)
Definition as_secs_f (f : fmt) (n : Z) : spec_float :=
  SFadd (f_prec f) (f_emax f) (f_of_int f (n / NANOS_PER_SEC))
    (SFdiv (f_prec f) (f_emax f) (f_of_int f (n mod NANOS_PER_SEC)) (f_of_int f NANOS_PER_SEC)).

(** [m * 2^e] rounded to an integer: down, or to nearest with ties to even.  Part of [from_secs_fN],
    /repo/src/date_time_numeric_functions.rs:679, 727, 775, 823. *)
Definition scale_trunc (m e : Z) : Z :=
  if 0 <=? e then m * 2 ^ e else m / 2 ^ (- e).
(** To nearest, ties to even ([from_secs_fN], /repo/src/date_time_numeric_functions.rs:679, 727,
    775, 823). *)
Definition scale_round (m e : Z) : Z :=
  if 0 <=? e then m * 2 ^ e
  else let q := m / 2 ^ (- e) in
       let r := m mod 2 ^ (- e) in
       if 2 * r <? 2 ^ (- e) then q
       else if 2 ^ (- e) <? 2 * r then q + 1
       else if Z.even q then q else q + 1.

(** [Duration::from_secs_f32/f64] (Rust std) in nanoseconds: panics for NaN, negative values
    and values of 2^64 seconds or more.  Called by [mul_fN]/[div_fN],
    /repo/src/date_time_numeric_functions.rs:679, 727, 775, 823. *)
Definition from_secs_f (g : durgen) (f : fmt) (x : spec_float) : outcome Z :=
  match x with
  | S754_zero _ => Ok 0
  | S754_finite false m e =>
      match g with
      | DurRound => if scale_trunc (Zpos m) e <? 2 ^ 64
                    then Ok (scale_round (Zpos m * NANOS_PER_SEC) e) else Panic
      | DurTrunc => if scale_trunc (Zpos m) e <? 2 ^ 64
                    then Ok (scale_trunc (Zpos m * NANOS_PER_SEC) e) else Panic
      | DurMul =>
          match SFmul (f_prec f) (f_emax f) x (f_of_int f NANOS_PER_SEC) with
          | S754_zero _ => Ok 0
          | S754_finite false m' e' =>
              if SFltb (S754_finite false m' e') (f_of_int f (2 ^ 64 * NANOS_PER_SEC))
              then Ok (scale_trunc (Zpos m') e') else Panic
          | _ => Panic
          end
      end
  | _ => Panic
  end.

(** [is_sign_negative] (Rust core); /repo/src/date_time_numeric_functions.rs:678, 726, 774, 822. *)
Definition fl_neg (x : fl) : bool :=
  match x with
  | FNum (S754_zero s) => s
  | FNum (S754_infinity s) => s
  | FNum (S754_finite s _ _) => s
  | FNum S754_nan => false
  | FNan s _ => s
  end.
(** [abs] (Rust core); /repo/src/date_time_numeric_functions.rs:679, 727, 775, 823. *)
Definition fl_abs (x : fl) : fl :=
  match x with FNum y => FNum (SFabs y) | FNan _ p => FNan false p end.

(** The common body of the four functions below, [op] being the operation of
    [Duration::mul_fN] ([rhs * self.as_secs_fN()]) or [div_fN] ([self.as_secs_fN() / rhs]).
    /repo/src/date_time_numeric_functions.rs:670-831. *)
Definition time_float (op : spec_float -> spec_float -> spec_float) (g : durgen) (f : fmt)
    (in1 : Z) (in2 : fl) : outcome Z :=
  let! ns := from_secs_f g f (op (as_secs_f f (Z.abs in1)) (fl_sf (fl_abs in2))) in
  let! res := unwrap (checked i64 ns) in
  Ok (if xorb (in1 <? 0) (fl_neg in2) then - res else res).

(** /repo/src/date_time_numeric_functions.rs:671-687 [checked_mul_time_with_f32] ([f] = F32),
    719-735 [checked_mul_time_with_f64] ([f] = F64); wrappers 643-669, 691-717. *)
Definition MUL_TIME_REAL (g : durgen) (f : fmt) (in1 : Z) (in2 : fl) : outcome Z :=
  time_float (fun secs rhs => SFmul (f_prec f) (f_emax f) rhs secs) g f in1 in2.

(** /repo/src/date_time_numeric_functions.rs:767-783 [checked_div_time_by_f32] ([f] = F32),
    815-831 [checked_div_time_by_f64] ([f] = F64); wrappers 739-765, 787-813. *)
Definition DIV_TIME_REAL (g : durgen) (f : fmt) (in1 : Z) (in2 : fl) : outcome Z :=
  time_float (fun secs rhs => SFdiv (f_prec f) (f_emax f) secs rhs) g f in1 in2.
