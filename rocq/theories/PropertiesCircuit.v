(** Properties C106 and C107: programs that wire blocks together. *)
From Coq Require Import ZArith List Bool Lia.
From Verif Require Import Base ModelFB ModelCounters ModelTimers SpecFB SpecCircuit ProofCircuit.
Import ListNotations.
Open Scope Z_scope.

(** ** C106 *)

(** ton(IN := NOT ton.Q): a run starts with the very first call, or with the second call after a
    tick.  In every later call of the run, Q tells whether PT has passed since that start. *)
Theorem C106_blinker_ticks : forall a f m c,
  clock_ok (a ++ f :: m ++ [c]) -> preset_ok (a ++ f :: m ++ [c]) -> self_restarting (a ++ f :: m ++ [c]) ->
  (a = [] \/ exists b x, a = b ++ [x] /\ timer_q TON b = true) ->
  (forall m1 m2, m = m1 ++ m2 -> timer_q TON (a ++ f :: m1) = false) ->
  timer_q TON a = false /\ timer_q TON (a ++ f :: m ++ [c]) = (tc_pt c <? tc_t2 c - tc_t1 f).
Proof. exact restart_tick. Qed.
Print Assumptions C106_blinker_ticks.
(** Between two consecutive ticks, at [i] and [c], lie at least two calls; the ticks are more than PT
    apart, and at most PT plus three cycles. *)
Theorem C106_blinker_period : forall pt a i mid c, let h := a ++ i :: mid ++ [c] in
  clock_ok h -> constant_pt pt h -> 0 <= pt < 2 ^ 63 -> self_restarting h ->
  timer_q TON (a ++ [i]) = true -> timer_q TON h = true ->
  (forall m1 m2, mid = m1 ++ m2 -> m1 <> [] -> timer_q TON (a ++ i :: m1) = false) ->
  exists x f m, mid = x :: f :: m /\ pt < tc_t2 c - tc_t1 f /\
    forall g, paced g h -> tc_t2 c - tc_t2 i <= pt + 3 * g.
Proof. exact restart_period. Qed.
Print Assumptions C106_blinker_period.
(** PT = 10: ticks at 11 and 24. *)
Definition blinking : list tcall :=
  [TCall true 10 0 0; TCall true 10 5 5; TCall true 10 11 11; TCall false 10 12 12;
   TCall true 10 13 13; TCall true 10 20 20; TCall true 10 24 24].
Ltac each_prefix a E := do 9 (destruct a as [|? a]; [cbn in E; try discriminate E; injection E; intros; subst; reflexivity|]);
  cbn in E; discriminate E.
Example C106_blinker_case : clock_ok blinking /\ constant_pt 10 blinking /\ self_restarting blinking /\
  timer_q TON (firstn 3 blinking) = true /\ timer_q TON (firstn 4 blinking) = false /\
  timer_q TON (firstn 5 blinking) = false /\ timer_q TON (firstn 6 blinking) = false /\
  timer_q TON blinking = true.
Proof.
  split; [split; [cbn; lia|repeat constructor]|]. split; [repeat constructor|]. split; [|repeat split].
  intros a c b E. unfold blinking in E. each_prefix a E.
Qed.

(** t1(IN := x); t2(IN := t1.Q): Q of t2 is TRUE only if x has been TRUE for longer than both preset
    times together … *)
Theorem C106_delays_add_up : forall p1 p2, 0 <= p1 < 2 ^ 63 -> 0 <= p2 < 2 ^ 63 -> forall cycles,
  clock_ok (in_order cycles) -> constant_pt p1 (map fst cycles) -> constant_pt p2 (map snd cycles) ->
  in_series TON cycles -> timer_q TON (map snd cycles) = true ->
  exists pre f mid c, cycles = pre ++ f :: mid ++ [c] /\
    Forall (fun d => tc_in (fst d) = true) (f :: mid ++ [c]) /\ p1 + p2 < tc_t2 (snd c) - tc_t1 (fst f).
Proof. exact delays_add_up. Qed.
Print Assumptions C106_delays_add_up.
(** … and it is TRUE once x has been TRUE until a call [k] more than p1 later, and then until a call
    more than p2 after [k]. *)
Theorem C106_delays_pass : forall p1 p2, 0 <= p1 < 2 ^ 63 -> 0 <= p2 < 2 ^ 63 -> forall pre f m1 k m2 c,
  let cycles := pre ++ f :: m1 ++ k :: m2 ++ [c] in
  clock_ok (in_order cycles) -> constant_pt p1 (map fst cycles) -> constant_pt p2 (map snd cycles) ->
  in_series TON cycles -> Forall (fun d => tc_in (fst d) = true) (f :: m1 ++ k :: m2 ++ [c]) ->
  p1 < tc_t2 (fst k) - tc_t1 (fst f) -> p2 < tc_t2 (snd c) - tc_t1 (snd k) ->
  timer_q TON (map snd cycles) = true.
Proof. exact delays_add_up_intro. Qed.
Print Assumptions C106_delays_pass.
Definition two_delays : list (tcall * tcall) :=
  [(TCall true 10 0 0, TCall false 5 1 1); (TCall true 10 11 11, TCall true 5 12 12);
   (TCall true 10 17 17, TCall true 5 18 18)].
Example C106_delays_case : clock_ok (in_order two_delays) /\ constant_pt 10 (map fst two_delays) /\
  constant_pt 5 (map snd two_delays) /\ in_series TON two_delays /\
  Forall (fun d => tc_in (fst d) = true) two_delays /\ timer_q TON (map snd two_delays) = true /\
  timer_q TON (map snd (firstn 2 two_delays)) = false.
Proof.
  split; [split; [cbn; lia|repeat constructor]|]. split; [repeat constructor|]. split; [repeat constructor|].
  split; [|repeat split; repeat constructor]. intros a c b E. unfold two_delays in E. each_prefix a E.
Qed.

(** A debouncer, on(IN := x); off(IN := on.Q), with TON and TOF: Q is TRUE only if x was TRUE for longer
    than p1, and that ended at most p2 ago … *)
Theorem C106_debounce : forall p1 p2, 0 <= p1 < 2 ^ 63 -> 0 <= p2 < 2 ^ 63 -> forall cycles,
  clock_ok (in_order cycles) -> constant_pt p1 (map fst cycles) -> constant_pt p2 (map snd cycles) ->
  in_series TON cycles -> timer_q TOF (map snd cycles) = true ->
  exists pre f mid k rest, cycles = pre ++ f :: mid ++ k :: rest /\
    Forall (fun d => tc_in (fst d) = true) (f :: mid ++ [k]) /\ p1 < tc_t2 (fst k) - tc_t1 (fst f) /\
    forall d m c, rest = d :: m ++ [c] -> tc_t2 (snd c) - tc_t1 (snd d) <= p2.
Proof. exact debounce_elim. Qed.
Print Assumptions C106_debounce.
(** … and then it is TRUE, whatever x has been since. *)
Theorem C106_debounce_holds : forall p1 p2, 0 <= p1 < 2 ^ 63 -> 0 <= p2 < 2 ^ 63 -> forall pre f mid k d m c,
  let cycles := pre ++ f :: mid ++ k :: d :: m ++ [c] in
  clock_ok (in_order cycles) -> constant_pt p1 (map fst cycles) -> constant_pt p2 (map snd cycles) ->
  in_series TON cycles -> Forall (fun d => tc_in (fst d) = true) (f :: mid ++ [k]) ->
  p1 < tc_t2 (fst k) - tc_t1 (fst f) -> tc_t2 (snd c) - tc_t1 (snd d) <= p2 ->
  timer_q TOF (map snd cycles) = true.
Proof. exact debounce_intro. Qed.
Print Assumptions C106_debounce_holds.
Definition bouncing : list (tcall * tcall) :=
  [(TCall true 10 0 0, TCall false 20 1 1); (TCall false 10 5 5, TCall false 20 6 6);
   (TCall true 10 10 10, TCall false 20 11 11); (TCall true 10 21 21, TCall true 20 22 22);
   (TCall false 10 30 30, TCall false 20 31 31); (TCall true 10 40 40, TCall false 20 41 41);
   (TCall false 10 50 50, TCall false 20 52 52)].
Example C106_debounce_case : clock_ok (in_order bouncing) /\ constant_pt 10 (map fst bouncing) /\
  constant_pt 20 (map snd bouncing) /\ in_series TON bouncing /\
  timer_q TOF (map snd (firstn 3 bouncing)) = false /\ timer_q TOF (map snd (firstn 6 bouncing)) = true /\
  timer_q TOF (map snd bouncing) = false.
Proof.
  split; [split; [cbn; lia|repeat constructor]|]. split; [repeat constructor|]. split; [repeat constructor|].
  split; [|repeat split]. intros a c b E. unfold bouncing in E. each_prefix a E.
Qed.

(** A push button light: the output of the bistable is inverted by every rising edge of the button. *)
Theorem C106_toggle : forall f, In f [SR; RS] -> forall xs p,
  toggle f trigger_default p xs = xorb (sr_output p) (Z.odd (rising_edges false xs)).
Proof. intros f F xs p. exact (toggle_spec f F xs trigger_default p). Qed.
Print Assumptions C106_toggle.
Example C106_toggle_case : let off := SrParams false false false in
  toggle SR trigger_default off [true; true; false; false; true; false] = false /\
  toggle RS trigger_default off [true; true; false] = true.
Proof. split; reflexivity. Qed.

(** ** C107 *)

(** The IEC reading of a counter: CV counts the rising edges since the last reset. *)
Theorem C107_meaning : forall hi h1 h2, 0 <= hi -> ends_with (fun i => cui_r i = true) h1 ->
  Forall (fun i => cui_r i = false) h2 ->
  iec_ctu_cv hi false 0 (h1 ++ h2) = Z.min hi (rising_edges (last_cu h1) (map cui_cu h2)).
Proof. exact iec_count. Qed.
Print Assumptions C107_meaning.
(** False: an R_TRIG in front of CU does not give that count. *)
Theorem C107_trigger_counts_refuted : forall p t, In t counter_types ->
  exists h s, ctu_run p t ctu_default (through_trigger h) = Ok s /\ ctu_cv s < iec_ctu_cv (imax t) false 0 h.
Proof.
  intros p t T. exists [CtuIn true false 5; CtuIn false true 5; CtuIn true false 5].
  unfold counter_types in T. cbn in T.
  repeat (destruct T as [<-|T]; [eexists; split; [destruct p; vm_compute; reflexivity|reflexivity]|]). destruct T.
Qed.
Print Assumptions C107_trigger_counts_refuted.
(** Exactly: CV is that count, or one less if the input rises in the first call after the reset and
    rose in the last call before the reset that was not a reset. *)
Theorem C107_trigger_counts_partial : forall p t h1 h2, In t counter_types ->
  ends_with (fun i => cui_r i = true) h1 -> Forall (fun i => cui_r i = false) h2 ->
  let lost := counted_before_reset h1 /\ last_cu h1 = false /\ exists i r, h2 = i :: r /\ cui_cu i = true in
  let n := rising_edges (last_cu h1) (map cui_cu h2) in
  exists s, ctu_run p t ctu_default (through_trigger (h1 ++ h2)) = Ok s /\
    (lost -> ctu_cv s = Z.min (imax t) (n - 1)) /\ (~ lost -> ctu_cv s = Z.min (imax t) n).
Proof. exact trigger_count. Qed.
Print Assumptions C107_trigger_counts_partial.
Example C107_lost : let h1 := [CtuIn true false 5; CtuIn false true 5] in
  let h2 := [CtuIn true false 5; CtuIn false false 5; CtuIn true false 5] in
  counted_before_reset h1 /\ last_cu h1 = false /\ rising_edges (last_cu h1) (map cui_cu h2) = 2 /\
  exists s, ctu_run Debug i16 ctu_default (through_trigger (h1 ++ h2)) = Ok s /\ ctu_cv s = 1.
Proof.
  cbv zeta. split; [|split; [reflexivity|split; [reflexivity|eexists; split; vm_compute; reflexivity]]].
  exists [], (CtuIn true false 5), [CtuIn false true 5]. repeat split; repeat constructor.
Qed.
(** In the histories of C08 in which the counter alone counts too much, the trigger helps. *)
Example C107_not_lost : let h := [CtuIn true true 5; CtuIn true false 5] in
  (exists s, ctu_run Debug i16 ctu_default (through_trigger h) = Ok s /\ ctu_cv s = 0) /\
  (exists s, ctu_run Debug i16 ctu_default h = Ok s /\ ctu_cv s = 1).
Proof. split; eexists; split; vm_compute; reflexivity. Qed.
