(** Vocabulary for the layout properties C70 and C81. *)
From Coq Require Import String ZArith List Bool.
From Verif Require Import Base ModelFB ModelTimers ModelLayout.
Import ListNotations.
Open Scope list_scope.
Open Scope string_scope.
Open Scope Z_scope.

(** The [n] bytes of memory from address [a]. *)
Definition read (m : mem) (a : Z) (n : nat) : list Z :=
  map (fun i => m (a + Z.of_nat i)) (seq 0 n).

(** The ST variables of the blocks and the Rust fields that implement them. *)
Definition implemented_by : list (string * string) :=
  [("SET1", "set"); ("SET", "set"); ("RESET", "reset"); ("RESET1", "reset"); ("Q1", "output");
   ("CLK", "clk"); ("Q", "output"); ("M", "internal");
   ("CU", "cu"); ("CD", "cd"); ("R", "r"); ("LD", "ld"); ("PV", "pv"); ("CV", "cv"); ("Q", "q");
   ("QU", "qu"); ("QD", "qd"); ("MU", "internal_up"); ("MD", "internal_down");
   ("IN", "input"); ("PT", "preset_time"); ("ET", "elapsed_time"); ("__signal__", "input_edge")].

(** Each value has as many bytes as its field. *)
Definition values_for (r : option_repr) (fs : list (string * ftype)) (vals : list (list Z)) : Prop :=
  Forall2 (fun f v => Z.of_nat (length v) = fsize r (snd f)) fs vals.

(** Q and ET after a history of calls on an instance that ST has zero-initialised. *)
Definition timer_out_zeroed (r : option_repr) (f : timer -> Z -> Z -> outcome timer)
  (h : list tcall) : outcome (bool * Z) :=
  omap (fun t => (t_output t, t_elapsed t)) (timer_run f (timer_zeroed r) h).

(** IN never falls during the history. *)
Fixpoint never_falls (prev : bool) (h : list tcall) : Prop :=
  match h with
  | [] => True
  | c :: h' => (prev = true -> tc_in c = true) /\ never_falls (tc_in c) h'
  end.
