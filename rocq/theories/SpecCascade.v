(** Specification vocabulary for programs that wire counters and edge triggers together. *)
From Coq Require Import ZArith List Bool.
From Verif Require Import Base ModelFB ModelCounters SpecFB.
Import ListNotations.
Open Scope Z_scope.

(** [low(CU := x, R := low.Q, PV := n); high(CU := low.Q, R := FALSE, PV := limit)] in every cycle: a
    counter that starts again after every [n] edges, and one that counts how often it did.  Both
    instances after the given values of x. *)
Fixpoint cascade (p : profile) (tl th : ity) (n limit : Z) (low high : ctu_params) (xs : list bool)
    : outcome (ctu_params * ctu_params) :=
  match xs with
  | [] => Ok (low, high)
  | x :: r =>
      let! low' := ctu_call p tl low (CtuIn x (ctu_q low) n) in
      let! high' := ctu_call p th high (CtuIn (ctu_q low') false limit) in
      cascade p tl th n limit low' high' r
  end.

(** x is nowhere FALSE for a single cycle only, between two cycles in which it is TRUE. *)
Definition no_short_gap (xs : list bool) : Prop :=
  forall a b, xs <> a ++ true :: false :: true :: b.

(** [m] pulses of one cycle each, with one cycle in between: the fastest signal there is. *)
Definition fast_pulses (m : nat) : list bool := List.concat (repeat [true; false] m).

(** x rises in the last cycle. *)
Definition rises (xs : list bool) : bool :=
  match rev xs with
  | x :: r => x && negb (hd false r)
  | [] => false
  end.

(** [down(CD := x, LD := down.Q, PV := n)] in every cycle: a counter that loads itself again. *)
Fixpoint reloading (p : profile) (t : ity) (n : Z) (s : ctd_params) (xs : list bool) : outcome ctd_params :=
  match xs with
  | [] => Ok s
  | x :: r => let! s' := ctd_call p t s (CtdIn x (ctd_q s) n) in reloading p t n s' r
  end.

(** [first(CLK := x); second(CLK := first.Q)] in every cycle: the outputs of the second trigger. *)
Definition triggers_in_series (first second : trigger -> trigger) (xs : list bool) : list bool :=
  trig_outputs second trigger_default (trig_outputs first trigger_default xs).

(** [r(CLK := x); f(CLK := x); sr(SET := r.Q, RESET := f.Q)] in every cycle, for either bistable. *)
Definition rebuilt (b : sr_params -> sr_params) (s : sr_params) (xs : list bool) : bool :=
  sr_output (sr_run b s (combine (trig_outputs R_TRIG trigger_default xs) (trig_outputs F_TRIG trigger_default xs))).
