(** Property C118: timers wired to each other, to edge triggers and to bistables. *)
From Coq Require Import ZArith List Bool Lia.
From Verif Require Import Base ModelFB ModelTimers SpecFB SpecCircuit SpecBlink ProofBlink.
Import ListNotations.
Open Scope Z_scope.

(** on(IN := NOT off.Q, PT := p1); off(IN := on.Q, PT := p2): on.Q becomes TRUE in the first cycle more
    than p1 after the cycle [f], the very first one or the second one after off.Q was TRUE … *)
Theorem C118_rises : forall p1 p2, 0 <= p1 < 2 ^ 63 -> 0 <= p2 < 2 ^ 63 -> forall a f m c,
  let cycles := a ++ f :: m ++ [c] in
  clock_ok (in_order cycles) -> constant_pt p1 (map fst cycles) -> constant_pt p2 (map snd cycles) ->
  pulse_generator cycles -> at_rest a ->
  (forall m1 m2, m = m1 ++ m2 -> on_q (a ++ f :: m1) = false) ->
  off_q (a ++ f :: m) = false /\ on_q cycles = (p1 <? tc_t2 (fst c) - tc_t1 (fst f)).
Proof.
  intros p1 p2 P1 P2 a f m c cycles C K1 K2 G.
  exact (false_phase p1 p2 P1 P2 a f m c (conj C (conj K1 (conj K2 G)))).
Qed.
Print Assumptions C118_rises.
(** … off.Q becomes TRUE in the first cycle more than p2 after that, and on.Q is TRUE until then … *)
Theorem C118_holds : forall p1 p2, 0 <= p1 < 2 ^ 63 -> 0 <= p2 < 2 ^ 63 -> forall a i m c,
  let cycles := a ++ i :: m ++ [c] in
  clock_ok (in_order cycles) -> constant_pt p1 (map fst cycles) -> constant_pt p2 (map snd cycles) ->
  pulse_generator cycles -> on_q a = false -> on_q (a ++ [i]) = true ->
  (forall m1 m2, m = m1 ++ m2 -> off_q (a ++ i :: m1) = false) ->
  on_q cycles = true /\ off_q cycles = (p2 <? tc_t2 (snd c) - tc_t1 (snd i)).
Proof.
  intros p1 p2 P1 P2 a i m c cycles C K1 K2 G.
  exact (true_phase p1 p2 P1 P2 a i m c (conj C (conj K1 (conj K2 G)))).
Qed.
Print Assumptions C118_holds.
(** … and in the next cycle both are FALSE. *)
Theorem C118_falls : forall p1 p2, 0 <= p1 < 2 ^ 63 -> 0 <= p2 < 2 ^ 63 -> forall a x,
  let cycles := a ++ [x] in
  clock_ok (in_order cycles) -> constant_pt p1 (map fst cycles) -> constant_pt p2 (map snd cycles) ->
  pulse_generator cycles -> off_q a = true -> on_q cycles = false /\ off_q cycles = false.
Proof.
  intros p1 p2 P1 P2 a x cycles C K1 K2 G.
  exact (off_now p1 p2 P1 P2 a x (conj C (conj K1 (conj K2 G)))).
Qed.
Print Assumptions C118_falls.
(** So the pulse lasts as long as p2 asks for: from cycle [i] to the first cycle [e] more than p2 later … *)
Theorem C118_pulse_length : forall p1 p2, 0 <= p1 < 2 ^ 63 -> 0 <= p2 < 2 ^ 63 -> forall a i m x,
  let cycles := a ++ i :: m ++ [x] in
  clock_ok (in_order cycles) -> constant_pt p1 (map fst cycles) -> constant_pt p2 (map snd cycles) ->
  pulse_generator cycles -> on_q a = false ->
  (forall m1 m2, m = m1 ++ m2 -> on_q (a ++ i :: m1) = true) -> on_q cycles = false ->
  exists m' e, m = m' ++ [e] /\ p2 < tc_t2 (snd e) - tc_t1 (snd i) /\
    forall d, In d m' -> tc_t2 (snd d) - tc_t1 (snd i) <= p2.
Proof.
  intros p1 p2 P1 P2 a i m x cycles C K1 K2 G.
  exact (true_length p1 p2 P1 P2 a i m x (conj C (conj K1 (conj K2 G)))).
Qed.
Print Assumptions C118_pulse_length.
(** … and the pause after it as long as p1 asks for. *)
Theorem C118_pause_length : forall p1 p2, 0 <= p1 < 2 ^ 63 -> 0 <= p2 < 2 ^ 63 -> forall b x m j,
  let cycles := b ++ x :: m ++ [j] in
  clock_ok (in_order cycles) -> constant_pt p1 (map fst cycles) -> constant_pt p2 (map snd cycles) ->
  pulse_generator cycles -> on_q b = true ->
  (forall m1 m2, m = m1 ++ m2 -> on_q (b ++ x :: m1) = false) -> on_q cycles = true ->
  exists f m', m = f :: m' /\ p1 < tc_t2 (fst j) - tc_t1 (fst f) /\
    forall d, In d m' -> tc_t2 (fst d) - tc_t1 (fst f) <= p1.
Proof.
  intros p1 p2 P1 P2 b x m j cycles C K1 K2 G.
  exact (false_length p1 p2 P1 P2 b x m j (conj C (conj K1 (conj K2 G)))).
Qed.
Print Assumptions C118_pause_length.
(** p1 = 10, p2 = 5: on.Q is TRUE in the third and fourth cycle and in the last one. *)
Definition pulses : list (tcall * tcall) :=
  [(TCall true 10 0 0, TCall false 5 0 0); (TCall true 10 8 8, TCall false 5 8 8);
   (TCall true 10 11 11, TCall true 5 11 11); (TCall true 10 17 17, TCall true 5 17 17);
   (TCall false 10 18 18, TCall false 5 18 18); (TCall true 10 19 19, TCall false 5 19 19);
   (TCall true 10 29 29, TCall false 5 29 29); (TCall true 10 30 30, TCall true 5 30 30)].
Ltac each_cycle a E := do 9 (destruct a as [|? a]; [cbn in E; try discriminate E; injection E; intros; subst; split; reflexivity|]);
  cbn in E; discriminate E.
Example C118_case : clock_ok (in_order pulses) /\ constant_pt 10 (map fst pulses) /\ constant_pt 5 (map snd pulses) /\
  pulse_generator pulses /\ map (fun k => on_q (firstn k pulses)) (seq 0 9) =
    [false; false; false; true; true; false; false; false; true] /\
  map (fun k => off_q (firstn k pulses)) (seq 0 9) =
    [false; false; false; false; true; false; false; false; false].
Proof.
  split; [split; [cbn; lia|repeat constructor]|]. split; [repeat constructor|]. split; [repeat constructor|].
  split; [|split; reflexivity]. intros a c b E. unfold pulses in E. each_cycle a E.
Qed.

(** rt(CLK := beat); wd(IN := NOT rt.Q, PT := pt): wd.Q is TRUE exactly if no rising edge of beat has come
    for longer than pt. *)
Theorem C118_watchdog : forall pt cycles, 0 <= pt < 2 ^ 63 -> clock_ok (map snd cycles) ->
  constant_pt pt (map snd cycles) -> fed_by_no_edges cycles ->
  (timer_q TON (map snd cycles) = true <->
   exists pre f mid c, cycles = pre ++ f :: mid ++ [c] /\ no_edge_in pre (f :: mid ++ [c]) /\
     pt < tc_t2 (snd c) - tc_t1 (snd f)).
Proof. exact watchdog. Qed.
Print Assumptions C118_watchdog.
Definition beats : list (bool * tcall) :=
  [(true, TCall false 10 0 0); (false, TCall true 10 4 4); (true, TCall false 10 8 8); (true, TCall true 10 12 12);
   (false, TCall true 10 20 20); (false, TCall true 10 23 23)].
Example C118_watchdog_case : clock_ok (map snd beats) /\ constant_pt 10 (map snd beats) /\ fed_by_no_edges beats /\
  timer_q TON (map snd beats) = true /\ timer_q TON (map snd (firstn 5 beats)) = false.
Proof. split; [split; [cbn; lia|repeat constructor]|]. split; [repeat constructor|]. repeat split. Qed.

(** rt(CLK := x); t(IN := rt.Q, PT := pt) with TOF: a pulse that every edge of x starts again.  t.Q is TRUE
    exactly if the last edge of x was in this cycle or in the one before, or the cycle after it began at
    most pt ago. *)
Theorem C118_retriggerable : forall pt cycles, 0 <= pt < 2 ^ 63 -> clock_ok (map snd cycles) ->
  constant_pt pt (map snd cycles) -> fed_by_edges cycles ->
  (timer_q TOF (map snd cycles) = true <->
   exists pre k rest, cycles = pre ++ k :: rest /\ (fst k = true /\ before pre = false) /\
     no_edge_in (pre ++ [k]) rest /\
     forall d m c, rest = d :: m ++ [c] -> tc_t2 (snd c) - tc_t1 (snd d) <= pt).
Proof. exact retriggerable. Qed.
Print Assumptions C118_retriggerable.
Definition presses : list (bool * tcall) :=
  [(true, TCall true 10 0 0); (true, TCall false 10 4 4); (false, TCall false 10 8 8); (true, TCall true 10 12 12);
   (true, TCall false 10 16 16); (true, TCall false 10 26 26); (true, TCall false 10 27 27)].
Example C118_retriggerable_case : clock_ok (map snd presses) /\ constant_pt 10 (map snd presses) /\
  fed_by_edges presses /\ timer_q TOF (map snd (firstn 6 presses)) = true /\ timer_q TOF (map snd presses) = false.
Proof. split; [split; [cbn; lia|repeat constructor]|]. split; [repeat constructor|]. repeat split. Qed.

(** on(IN := x, PT := pt); latch(SET := on.Q, RESET := ack) with SR: the alarm is TRUE exactly if x was
    TRUE for longer than pt and ack has been FALSE in all cycles since. *)
Theorem C118_latch : forall pt cycles s, 0 <= pt < 2 ^ 63 -> clock_ok (map fst cycles) ->
  constant_pt pt (map fst cycles) -> sr_output s = false ->
  (latched s [] cycles = true <->
   exists pre f mid c rest, cycles = pre ++ f :: mid ++ c :: rest /\
     Forall (fun d => tc_in (fst d) = true) (f :: mid ++ [c]) /\ pt < tc_t2 (fst c) - tc_t1 (fst f) /\
     Forall (fun d => snd d = false) rest).
Proof. exact latch. Qed.
Print Assumptions C118_latch.
Definition alarms : list (tcall * bool) :=
  [(TCall true 10 0 0, false); (TCall true 10 11 11, true); (TCall false 10 20 20, false); (TCall true 10 30 30, true)].
Example C118_latch_case : clock_ok (map fst alarms) /\ constant_pt 10 (map fst alarms) /\
  latched (SrParams false false false) [] (firstn 3 alarms) = true /\ latched (SrParams false false false) [] alarms = false.
Proof. split; [split; [cbn; lia|repeat constructor]|]. split; [repeat constructor|]. repeat split. Qed.
