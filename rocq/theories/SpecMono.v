(** Specification vocabulary: order of floating-point numbers. *)
From Coq Require Import ZArith Bool Reals SpecFloat.
From Verif Require Import Base ModelFloat SpecScalar SpecReal.

(** [x] is at most [y]; the infinities are below and above everything else, NaN is not ordered. *)
Definition at_most (x y : fl) : Prop :=
  is_nan x = false /\ is_nan y = false /\
  (x = FNum (S754_infinity true) \/ y = FNum (S754_infinity false) \/
   fl_finite x = true /\ fl_finite y = true /\ (fl_value x <= fl_value y)%R).
