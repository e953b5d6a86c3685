(** Specification vocabulary for programs that wire timers to each other, to edge triggers and to
    bistables. *)
From Coq Require Import ZArith List Bool.
From Verif Require Import Base ModelFB ModelTimers SpecFB SpecCircuit.
Import ListNotations.
Open Scope Z_scope.

(** [on(IN := NOT off.Q, PT := p1); off(IN := on.Q, PT := p2)] in every cycle: a pulse generator.  A
    cycle is the call of [on] and the call of [off]. *)
Definition pulse_generator (cycles : list (tcall * tcall)) : Prop :=
  forall a c b, cycles = a ++ c :: b ->
    tc_in (fst c) = negb (timer_q TON (map snd a)) /\ tc_in (snd c) = timer_q TON (map fst (a ++ [c])).
(** The outputs after the given cycles. *)
Definition on_q (cycles : list (tcall * tcall)) : bool := timer_q TON (map fst cycles).
Definition off_q (cycles : list (tcall * tcall)) : bool := timer_q TON (map snd cycles).
(** No cycle yet, or one that followed a cycle in which [off.Q] was TRUE. *)
Definition at_rest (a : list (tcall * tcall)) : Prop := a = [] \/ exists b x, a = b ++ [x] /\ off_q b = true.

(** [rt(CLK := x); t(IN := rt.Q)], or [t(IN := NOT rt.Q)], in every cycle.  A cycle is the value of x and
    the call of the timer. *)
Definition fed_by_edges (cycles : list (bool * tcall)) : Prop :=
  map (fun c => tc_in (snd c)) cycles = trig_outputs R_TRIG trigger_default (map fst cycles).
Definition fed_by_no_edges (cycles : list (bool * tcall)) : Prop :=
  map (fun c => tc_in (snd c)) cycles = map negb (trig_outputs R_TRIG trigger_default (map fst cycles)).
(** x before the first of some cycles, [pre] being the cycles before. *)
Definition before (pre : list (bool * tcall)) : bool := last (map fst pre) false.
(** No rising edge of x in the cycles [r] that follow the cycles [pre]. *)
Definition no_edge_in (pre r : list (bool * tcall)) : Prop := rising_edges (before pre) (map fst r) = 0.

(** [on(IN := x, PT := pt); latch(SET := on.Q, RESET := ack)] in every cycle.  A cycle is the call of the
    timer and the value of ack; the output of the latch afterwards. *)
Fixpoint latched (s : sr_params) (t : list tcall) (cycles : list (tcall * bool)) : bool :=
  match cycles with
  | [] => sr_output s
  | (c, ack) :: r => latched (sr_call SR s (timer_q TON (t ++ [c]), ack)) (t ++ [c]) r
  end.
