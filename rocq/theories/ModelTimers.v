(** Model of src/timers.rs: TP, TON, TOF. *)
From Coq Require Import ZArith List Bool.
From Verif Require Import Base ModelFB.
Import ListNotations.
Open Scope Z_scope.

(** /repo/src/timers.rs:17-24 [struct TimerParams].  An [Instant] is its clock reading in
    nanoseconds. *)
Record timer := Timer {
  t_input : bool; t_preset : Z; t_output : bool; t_elapsed : Z;
  t_edge : signal; t_start : option Z }.

(** /repo/src/timers.rs:16 [derive(Default)]: a fresh instance. *)
Definition timer_default : timer := Timer false 0 false 0 signal_default None.

(** One call: the inputs IN and PT stored by the caller (/repo/iec61131-st/timers.st:12-25)
    and the two clock readings the call may make, in order.  [start] makes one reading
    ([tc_t1]); the running branches make two, one in [update_elapsed_time] ([tc_t1]) and one
    in [is_in_preset_range] ([tc_t2]). *)
Record tcall := TCall { tc_in : bool; tc_pt : Z; tc_t1 : Z; tc_t2 : Z }.

(** /repo/src/timers.rs:30-32 *)
Definition is_running (t : timer) : bool :=
  match t_start t with Some _ => true | None => false end.

(** /repo/src/timers.rs:44-46 *)
Definition set_elapsed_time (t : timer) (d : Z) : timer :=
  Timer (t_input t) (t_preset t) (t_output t) d (t_edge t) (t_start t).

(** /repo/src/timers.rs:34-37; [now] is the value of [Instant::now()]. *)
Definition start (t : timer) (now : Z) : timer :=
  set_elapsed_time
    (Timer (t_input t) (t_preset t) (t_output t) (t_elapsed t) (t_edge t) (Some now)) 0.

(** /repo/src/timers.rs:39-42 *)
Definition reset (t : timer) : timer :=
  set_elapsed_time
    (Timer (t_input t) (t_preset t) (t_output t) (t_elapsed t) (t_edge t) None) 0.

(** /repo/src/timers.rs:65-67 [get_run_time] at clock reading [now].  [Instant::elapsed]
    saturates at zero. *)
Definition get_run_time (t : timer) (now : Z) : option Z :=
  match t_start t with Some s => Some (Z.max 0 (now - s)) | None => None end.

(** /repo/src/timers.rs:49-58; [as_nanos() as i64] is [wrap i64]. *)
Definition update_elapsed_time (t : timer) (now : Z) : timer :=
  match get_run_time t now with
  | Some e => set_elapsed_time t (Z.min (t_preset t) (wrap i64 e))
  | None => t
  end.

(** /repo/src/timers.rs:60-63; [preset_time as u64] is [wrap u64]. *)
Definition is_in_preset_range (t : timer) (now : Z) : bool :=
  match get_run_time t now with
  | Some e => e <=? wrap u64 (t_preset t)
  | None => false
  end.

(** /repo/src/timers.rs:69-71 *)
Definition set_output (t : timer) (v : bool) : timer :=
  Timer (t_input t) (t_preset t) v (t_elapsed t) (t_edge t) (t_start t).

(** The assignment to [input_edge] inside [rising_edge], [falling_edge] and [set]
    (/repo/src/timers.rs:74, 78, 104, 130, 151). *)
Definition set_edge (t : timer) (s : signal) : timer :=
  Timer (t_input t) (t_preset t) (t_output t) (t_elapsed t) s (t_start t).

(** /repo/src/timers.rs:73-75 *)
Definition input_rising_edge (t : timer) : bool * timer :=
  let '(r, s) := rising_edge (t_edge t) (t_input t) in (r, set_edge t s).

(** /repo/src/timers.rs:77-79 *)
Definition input_falling_edge (t : timer) : bool * timer :=
  let '(r, s) := falling_edge (t_edge t) (t_input t) in (r, set_edge t s).

(** The last two statements of TP, TON and TOF (/repo/src/timers.rs:103-104, 129-130,
    150-151). *)
Definition finish (t : timer) (output : bool) : timer :=
  let t := set_output t output in
  set_edge t (signal_set (t_edge t) (t_input t)).

(** /repo/src/timers.rs:84-105 [TP] *)
Definition TP (t : timer) (now1 now2 : Z) : outcome timer :=
  if is_running t then
    let t := update_elapsed_time t now1 in
    if is_in_preset_range t now2 then Ok (finish t true)
    else
      let '(fe, t) := input_falling_edge t in
      let t := if fe then reset t else t in
      Ok (finish t false)
  else
    let '(re, t) := input_rising_edge t in
    if re then Ok (finish (start t now1) true)
    else Panic.

(** /repo/src/timers.rs:109-131 [TON] *)
Definition TON (t : timer) (now1 now2 : Z) : outcome timer :=
  if t_input t then
    if is_running t then
      let t := update_elapsed_time t now1 in
      Ok (finish t (negb (is_in_preset_range t now2)))
    else
      let '(re, t) := input_rising_edge t in
      if re then Ok (finish (start t now1) false)
      else Ok (finish t true)
  else
    Ok (finish (reset t) false).

(** /repo/src/timers.rs:135-152 [TOF] *)
Definition TOF (t : timer) (now1 now2 : Z) : outcome timer :=
  if t_input t then
    let '(re, t) := input_rising_edge t in
    let t := if re then reset t else t in
    Ok (finish t true)
  else
    let '(fe, t) := input_falling_edge t in
    if fe then Ok (finish (start t now1) true)
    else if is_running t then
      let t := update_elapsed_time t now1 in
      Ok (finish t (is_in_preset_range t now2))
    else Ok (finish t false).

(** Aliases: /repo/src/timers.rs:157-189. *)
Definition TP_TIME := TP.
(** /repo/src/timers.rs:163-165. *)
Definition TP_LTIME := TP.
(** /repo/src/timers.rs:169-171. *)
Definition TON_TIME := TON.
(** /repo/src/timers.rs:175-177. *)
Definition TON_LTIME := TON.
(** /repo/src/timers.rs:181-183. *)
Definition TOF_TIME := TOF.
(** /repo/src/timers.rs:187-189. *)
Definition TOF_LTIME := TOF.

(** The caller stores IN and PT in the instance, then calls the block.  /repo/iec61131-st/timers.st
    declares them; /repo/src/timers.rs:84-189 is called. *)
Definition timer_call (f : timer -> Z -> Z -> outcome timer) (t : timer) (c : tcall)
  : outcome timer :=
  f (Timer (tc_in c) (tc_pt c) (t_output t) (t_elapsed t) (t_edge t) (t_start t))
    (tc_t1 c) (tc_t2 c).

(** A history of calls of /repo/src/timers.rs:84-189; a panic ends it. *)
Fixpoint timer_run (f : timer -> Z -> Z -> outcome timer) (t : timer) (h : list tcall)
  : outcome timer :=
  match h with
  | [] => Ok t
  | c :: h' => let! t' := timer_call f t c in timer_run f t' h'
  end.
