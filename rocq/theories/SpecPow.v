(** Specification vocabulary for powers with an integer exponent. *)
From Coq Require Import ZArith Reals.
From Flocq Require Import Core.
From Verif Require Import Base ModelFloat SpecReal.
Open Scope R_scope.

(** The smallest normal number and the first power of two above all numbers of the format. *)
Definition min_normal (f : fmt) : R := bpow radix2 (f_emin f + f_prec f - 1).
Definition beyond (f : fmt) : R := bpow radix2 (f_emax f).

(** [y] is [r] up to [k] roundings: each changes the value by a factor within [1 +- roundoff]. *)
Definition after_roundings (f : fmt) (k : nat) (y r : R) : Prop :=
  (1 - roundoff f) ^ k * r <= y <= (1 + roundoff f) ^ k * r.
