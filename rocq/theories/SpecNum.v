(** Specification vocabulary for expressions of the types REAL and LREAL. *)
From Coq Require Import String ZArith List Reals.
From Verif Require Import Base ModelFloat ModelLink ModelLib ModelApi SpecScalar SpecReal SpecLib SpecCall SpecExpr.
Import ListNotations.
Open Scope Z_scope.

(** The floating point types. *)
Definition reals : list sty := [S_REAL; S_LREAL].
(** The expression is the finite number [q], exactly. *)
Definition number (P : platform) (r : env value) (t : sty) (e : expr) (q : R) : Prop :=
  exists v, value_in P r e = Ok (t, VF v) /\ fl_valid (fmt_of t) v /\ fl_finite v = true /\ fl_value v = q.
(** The expression is the number of type [t] that is nearest to [q]. *)
Definition nearest (P : platform) (r : env value) (t : sty) (e : expr) (q : R) : Prop :=
  exists v, value_in P r e = Ok (t, VF v) /\ nearest_even (fmt_of t) v q.
(** The expression is the integer (or the time, in nanoseconds) [z]. *)
Definition whole (P : platform) (r : env value) (t : sty) (e : expr) (z : Z) : Prop :=
  value_in P r e = Ok (t, VZ z) /\ of_type t z.
