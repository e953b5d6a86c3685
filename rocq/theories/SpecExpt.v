(** Specification vocabulary for the exponents of EXPT. *)
From Coq Require Import ZArith Bool Reals.
From Verif Require Import Base ModelFloat SpecReal SpecExtra.
Open Scope R_scope.

(** The same finite number, in possibly different formats. *)
Definition same_number (x y : fl) : Prop :=
  fl_finite x = true /\ fl_finite y = true /\ fl_value x = fl_value y /\ fl_negative x = fl_negative y.
