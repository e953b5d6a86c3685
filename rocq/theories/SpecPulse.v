(** Specification vocabulary for [rt(CLK := x); tp(IN := rt.Q, PT := pt)].  A cycle is the value of x and the
    call of the timer (SpecBlink.v). *)
From Coq Require Import ZArith List Bool.
From Verif Require Import Base ModelFB ModelTimers SpecFB SpecCircuit SpecBlink.
Import ListNotations.
Open Scope Z_scope.

(** x rises in the cycle [d] that follows the cycles [a]. *)
Definition rises (a : list (bool * tcall)) (d : bool * tcall) : Prop := fst d = true /\ before a = false.
(** Of the cycles [l], the first of which is [k]: a cycle in which x rises is followed, if by any, by one that comes at
    most [pt] after [k]. *)
Definition edges_within (pt : Z) (k : bool * tcall) (l : list (bool * tcall)) : Prop :=
  forall a d n b, l = a ++ d :: n :: b -> rises a d -> tc_t2 (snd n) <= tc_t1 (snd k) + pt.
