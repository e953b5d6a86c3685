(** Specification vocabulary in real numbers. *)
From Coq Require Import ZArith Bool Reals SpecFloat.
From Flocq Require Import Core BinarySingleNaN.
From Verif Require Import Base ModelFloat ModelTimeNum SpecScalar.
Open Scope R_scope.

(** The real number a finite float denotes: [(-1)^s * m * 2^e]. *)
Definition sf_value (x : spec_float) : R := SF2R radix2 x.
Definition fl_value (x : fl) : R := sf_value (fl_sf x).

Definition fl_finite (x : fl) : bool :=
  match x with FNum (S754_zero _) => true | FNum (S754_finite _ _ _) => true | _ => false end.

(** Half a unit in the last place of 1: 2^-24 for REAL, 2^-53 for LREAL. *)
Definition roundoff (f : fmt) : R := bpow radix2 (- f_prec f).

(** Error bound of TIME times/divided by a float with exact result [y] (in nanoseconds): a
    few roundings and the final conversion to whole nanoseconds. *)
Definition time_error (g : durgen) (f : fmt) (y : R) : R :=
  match g with
  | DurRound => 501 / 1000 + 4001 / 1000 * roundoff f * Rabs y
  | DurTrunc => 1001 / 1000 + 4001 / 1000 * roundoff f * Rabs y
  | DurMul => 1001 / 1000 + 5001 / 1000 * roundoff f * Rabs y
  end.

(** Correct rounding: [x] is a representable value nearest to the real [r], and the one with
    even significand when another representable value is equally near. *)
Definition even_significand (x : fl) : bool :=
  match x with FNum (S754_finite _ m _) => Z.even (Zpos m) | _ => true end.
Definition nearest_even (f : fmt) (x : fl) (r : R) : Prop :=
  fl_valid f x /\ fl_finite x = true /\
  forall y, fl_valid f y -> fl_finite y = true ->
    Rabs (fl_value x - r) <= Rabs (fl_value y - r) /\
    (fl_value y <> fl_value x -> Rabs (fl_value x - r) = Rabs (fl_value y - r) ->
     even_significand x = true).

(** [n] is the integer nearest to [r], half-way cases away from zero. *)
Definition nearest_int (n : Z) (r : R) : Prop :=
  Rabs (IZR n - r) <= / 2 /\ (Rabs (IZR n - r) = / 2 -> Rabs r < Rabs (IZR n)).
(** [n] is the integer part of [r]. *)
Definition integer_part (n : Z) (r : R) : Prop :=
  Rabs (IZR n) <= Rabs r /\ Rabs (IZR n - r) < 1 /\ 0 <= IZR n * r.
