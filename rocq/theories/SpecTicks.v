(** Durations on which arithmetic with REAL and LREAL does not round. *)
From Coq Require Import ZArith.
From Verif Require Import Base ModelFloat ModelTimeNum SpecScalar.
Open Scope Z_scope.

(** A whole number of 1/512 seconds (1953125 ns), which the significand has room for. *)
Definition ticks (f : fmt) (a : Z) : Prop := exists k, a = k * 1953125 /\ Z.abs k <= 2 ^ f_prec f.
(** From [a] to [b] without rounding, whatever is computed in between: both are such numbers, [a] in the case of REAL of
    1/8 seconds.  Older releases of Rust compute [b] in nanoseconds, for which the significand must have room. *)
Definition unrounded (g : durgen) (f : fmt) (a b : Z) : Prop :=
  ticks f a /\ (f = F32 -> a mod 125000000 = 0) /\ ticks f b /\ (g = DurMul -> Z.abs b <= 2 ^ f_prec f).
