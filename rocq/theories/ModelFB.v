(** Model of src/utils.rs, src/flanks.rs and src/bistable_functionblocks.rs. *)
From Coq Require Import ZArith List Bool.
From Verif Require Import Base.
Import ListNotations.

(** * Signal: /repo/src/utils.rs:1-36 *)

(** /repo/src/utils.rs:3-5 [struct Signal { current_value }] *)
Record signal := Signal { current_value : bool }.

(** /repo/src/utils.rs:1 [derive(Default)] *)
Definition signal_default : signal := Signal false.

(** /repo/src/utils.rs:10-14 [Signal::rising_edge]; returns the result and the new
    signal. *)
Definition rising_edge (s : signal) (next : bool) : bool * signal :=
  (next && xorb (current_value s) next, Signal next).

(** /repo/src/utils.rs:17-21 [Signal::falling_edge] *)
Definition falling_edge (s : signal) (next : bool) : bool * signal :=
  (negb next && xorb (current_value s) next, Signal next).

(** /repo/src/utils.rs:23-25 [Signal::set] *)
Definition signal_set (s : signal) (v : bool) : signal := Signal v.

(** * Edge triggers: /repo/src/flanks.rs *)

(** /repo/src/flanks.rs:5-9 [struct Trigger] *)
Record trigger := Trigger { tr_clk : bool; tr_output : bool; tr_internal : signal }.

(** /repo/src/flanks.rs:3 [derive(Default)] *)
Definition trigger_default : trigger := Trigger false false signal_default.

(** /repo/src/flanks.rs:19-22 [R_TRIG] *)
Definition R_TRIG (t : trigger) : trigger :=
  let '(res, s) := rising_edge (tr_internal t) (tr_clk t) in
  Trigger (tr_clk t) res s.

(** /repo/src/flanks.rs:26-29 [F_TRIG] *)
Definition F_TRIG (t : trigger) : trigger :=
  let '(res, s) := falling_edge (tr_internal t) (tr_clk t) in
  Trigger (tr_clk t) res s.

(** The caller (ST code, /repo/iec61131-st/flanks.st:10-41) stores CLK in the instance and
    calls the block. *)
Definition trig_call (f : trigger -> trigger) (t : trigger) (clk : bool) : trigger :=
  f (Trigger clk (tr_output t) (tr_internal t)).

(** The Q output after each call of a history of CLK values.  Repeated calls of
    /repo/src/flanks.rs:19-30. *)
Fixpoint trig_outputs (f : trigger -> trigger) (t : trigger) (clks : list bool)
  : list bool :=
  match clks with
  | [] => []
  | c :: cs => let t' := trig_call f t c in tr_output t' :: trig_outputs f t' cs
  end.

(** * Bistables: /repo/src/bistable_functionblocks.rs *)

(** /repo/src/bistable_functionblocks.rs:3-7 [struct SetResetParams] *)
Record sr_params := SrParams { sr_set : bool; sr_reset : bool; sr_output : bool }.

(** /repo/src/bistable_functionblocks.rs:23-25 [SR] *)
Definition SR (p : sr_params) : sr_params :=
  SrParams (sr_set p) (sr_reset p) (sr_set p || (negb (sr_reset p) && sr_output p)).

(** /repo/src/bistable_functionblocks.rs:35-37 [RS] *)
Definition RS (p : sr_params) : sr_params :=
  SrParams (sr_set p) (sr_reset p) (negb (sr_reset p) && (sr_set p || sr_output p)).

(** The caller (/repo/iec61131-st/bistable_functionblocks.st:11-19, 31-39) stores both
    inputs and calls the block. *)
Definition sr_call (f : sr_params -> sr_params) (p : sr_params) (i : bool * bool)
  : sr_params :=
  f (SrParams (fst i) (snd i) (sr_output p)).

(** A history of calls of /repo/src/bistable_functionblocks.rs:23-25 or 35-37 on one instance.
    *)
Definition sr_run (f : sr_params -> sr_params) (p : sr_params) (ins : list (bool * bool))
  : sr_params :=
  fold_left (sr_call f) ins p.
