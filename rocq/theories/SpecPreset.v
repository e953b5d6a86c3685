(** Specification vocabulary for timers whose preset time changes from call to call. *)
From Coq Require Import ZArith List Bool.
From Verif Require Import Base ModelTimers SpecFB.
Import ListNotations.
Open Scope Z_scope.

(** Two calls with the same input at the same time; the presets may differ. *)
Definition same_call (c d : tcall) : Prop := tc_in c = tc_in d /\ tc_t1 c = tc_t1 d /\ tc_t2 c = tc_t2 d.

(** After the call [f], with [prev] the call before [mid]: IN never falls in a call of [mid] at which the
    preset time of that call has passed since [f]. *)
Fixpoint no_release (f prev : tcall) (mid : list tcall) : Prop :=
  match mid with
  | [] => True
  | d :: r => ~ (tc_t1 f + tc_pt d < tc_t2 d /\ tc_in prev = true /\ tc_in d = false) /\ no_release f d r
  end.
