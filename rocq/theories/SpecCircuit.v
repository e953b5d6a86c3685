(** Specification vocabulary for programs that wire function blocks together and run once per cycle. *)
From Coq Require Import ZArith List Bool.
From Verif Require Import Base ModelFB ModelCounters ModelTimers SpecFB.
Import ListNotations.
Open Scope Z_scope.

(** The output Q of a timer after a history of calls. *)
Definition timer_q (f : timer -> Z -> Z -> outcome timer) (h : list tcall) : bool := q_of (timer_out f h).

(** [ton(IN := NOT ton.Q)] in every cycle: each call gets the negation of the Q of the calls before. *)
Definition self_restarting (h : list tcall) : Prop :=
  forall a c b, h = a ++ c :: b -> tc_in c = negb (timer_q TON a).

(** [first(IN := x); second(IN := first.Q)] in every cycle; a cycle is the call of the first timer and
    the call of the second one. *)
Definition in_series (first : timer -> Z -> Z -> outcome timer) (cycles : list (tcall * tcall)) : Prop :=
  forall a c b, cycles = a ++ c :: b -> tc_in (snd c) = timer_q first (map fst (a ++ [c])).
(** The calls of both timers in the order in which they are made. *)
Definition in_order (cycles : list (tcall * tcall)) : list tcall :=
  flat_map (fun c => [fst c; snd c]) cycles.

(** [rt(CLK := x); sr(SET := rt.Q AND NOT sr.Q, RESET := rt.Q AND sr.Q)] in every cycle, for either
    bistable; the output of the bistable after the given values of x. *)
Fixpoint toggle (f : sr_params -> sr_params) (t : trigger) (p : sr_params) (xs : list bool) : bool :=
  match xs with
  | [] => sr_output p
  | x :: r =>
      let t' := trig_call R_TRIG t x in
      toggle f t' (sr_call f p (tr_output t' && negb (sr_output p), tr_output t' && sr_output p)) r
  end.

(** [rt(CLK := x); ctu(CU := rt.Q, R := r, PV := pv)] in every cycle: the calls of the counter, for
    calls that would give x to CU directly. *)
Definition through_trigger (h : list ctu_in) : list ctu_in :=
  map (fun p => CtuIn (fst p) (cui_r (snd p)) (cui_pv (snd p)))
      (combine (trig_outputs R_TRIG trigger_default (map cui_cu h)) h).
(** The level of CU in the last call of the history. *)
Definition last_cu (h : list ctu_in) : bool := last (map cui_cu h) false.
(** The last call that was not a reset was a rising edge of CU, compared to the call before it. *)
Definition counted_before_reset (h : list ctu_in) : Prop :=
  exists a c b, h = a ++ c :: b /\ cui_r c = false /\ Forall (fun d => cui_r d = true) b /\
    cui_cu c = true /\ last_cu a = false.
(** Consecutive calls end at most [g] apart. *)
Definition paced (g : Z) (h : list tcall) : Prop :=
  forall a c d b, h = a ++ c :: d :: b -> tc_t2 d - tc_t2 c <= g.
