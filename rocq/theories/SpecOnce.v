(** What it means that a TIME in seconds has a place among the values of a format. *)
From Coq Require Import ZArith Reals.
From Verif Require Import Base ModelFloat SpecScalar SpecReal.
Open Scope R_scope.

(** [y] nanoseconds are, in seconds, a value of the format. *)
Definition seconds (f : fmt) (y : R) : Prop :=
  exists s, fl_valid f s /\ fl_finite s = true /\ fl_value s * 1000000000 = y.
