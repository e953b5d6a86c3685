(** Properties C01-C15: edge triggers, bistables, counters, timers. *)
From Coq Require Import ZArith List Bool Lia.
From Verif Require Import Base ModelFB ModelCounters ModelTimers SpecFB.
From Verif Require Import ProofFB ProofTimers ProofTP.
Import ListNotations.
Open Scope Z_scope.

(** ** C01 *)
Theorem C01_r_trig_reports_rising_edges : forall clks k, (k < length clks)%nat ->
  length (trig_outputs R_TRIG trigger_default clks) = length clks /\
  nth k (trig_outputs R_TRIG trigger_default clks) false
  = nth k clks false && negb (previous clks k).
Proof. intros. split; [apply trig_outputs_length|now apply r_trig_spec]. Qed.
Example C01_example :
  trig_outputs R_TRIG trigger_default [true; true; false; false; true; false]
  = [true; false; false; false; true; false].
Proof. reflexivity. Qed.
Print Assumptions C01_r_trig_reports_rising_edges.

(** ** C02 *)
Theorem C02_f_trig_reports_falling_edges : forall clks k, (k < length clks)%nat ->
  length (trig_outputs F_TRIG trigger_default clks) = length clks /\
  nth k (trig_outputs F_TRIG trigger_default clks) false
  = negb (nth k clks false) && previous clks k.
Proof. intros. split; [apply trig_outputs_length|now apply f_trig_spec]. Qed.
Example C02_example :
  trig_outputs F_TRIG trigger_default [false; true; true; false; false; true; false]
  = [false; false; false; true; false; false; true].
Proof. reflexivity. Qed.
Print Assumptions C02_f_trig_reports_falling_edges.

(** ** C03, C04: pairs are (SET, RESET). *)
Theorem C03_sr_set_dominant : forall p ins,
  sr_output (sr_run SR p ins) =
  match last_such (fun i => fst i || snd i) ins with
  | Some (s, _) => s
  | None => sr_output p
  end.
Proof. exact sr_spec. Qed.
Example C03_example :
  sr_output (sr_run SR (SrParams false false false)
    [(true, false); (false, false); (true, true); (false, false)]) = true.
Proof. reflexivity. Qed.
Print Assumptions C03_sr_set_dominant.

Theorem C04_rs_reset_dominant : forall p ins,
  sr_output (sr_run RS p ins) =
  match last_such (fun i => fst i || snd i) ins with
  | Some (_, r) => negb r
  | None => sr_output p
  end.
Proof. exact rs_spec. Qed.
Example C04_example :
  sr_output (sr_run RS (SrParams false false true)
    [(true, false); (false, false); (true, true); (false, false)]) = false.
Proof. reflexivity. Qed.
Print Assumptions C04_rs_reset_dominant.

(** ** C05: [h1] is the history up to and including the last reset, [h2] the calls since. *)
Theorem C05_ctu_counts_edges_since_reset : forall p t h1 h2,
  In t counter_types ->
  ends_with (fun i => cui_r i = true) h1 ->
  Forall (fun i => cui_r i = false) h2 ->
  exists s, ctu_run p t ctu_default (h1 ++ h2) = Ok s /\
    ctu_cv s = Z.min (imax t) (rising_edges (ctu_level h1) (map cui_cu h2)).
Proof. exact ctu_counts_lemma. Qed.
Theorem C05_ctu_every_history_splits : forall h : list ctu_in,
  exists h1 h2, h = h1 ++ h2 /\ ends_with (fun i => cui_r i = true) h1 /\
                Forall (fun i => cui_r i = false) h2.
Proof. exact (split_at_last ctu_in cui_r). Qed.
Theorem C05_ctu_q : forall p t h i, In t counter_types ->
  exists s, ctu_run p t ctu_default (h ++ [i]) = Ok s /\ ctu_q s = (cui_pv i <=? ctu_cv s).
Proof. exact ctu_q_lemma. Qed.
Example C05_example :
  let h1 := [CtuIn true false 2; CtuIn false true 2] in
  let h2 := [CtuIn false false 2; CtuIn true false 2; CtuIn true false 2;
             CtuIn false false 2; CtuIn true false 2] in
  ends_with (fun i => cui_r i = true) h1 /\ Forall (fun i => cui_r i = false) h2 /\
  exists s, ctu_run Debug i16 ctu_default (h1 ++ h2) = Ok s /\ ctu_cv s = 2 /\ ctu_q s = true.
Proof.
  cbv zeta. split; [|split; [repeat constructor|]].
  - right. exists [CtuIn true false 2], (CtuIn false true 2). split; reflexivity.
  - eexists. split; [vm_compute; reflexivity|]. split; reflexivity.
Qed.
Print Assumptions C05_ctu_counts_edges_since_reset.
Print Assumptions C05_ctu_q.
Print Assumptions C05_ctu_every_history_splits.

(** ** C06: [h1] is the history up to and including the last load, [h2] the calls since. *)
Theorem C06_ctd_counts_edges_since_load : forall p t h1 h2,
  In t counter_types ->
  Forall (fun i => in_ity t (cdi_pv i)) (h1 ++ h2) ->
  ends_with (fun i => cdi_ld i = true) h1 ->
  Forall (fun i => cdi_ld i = false) h2 ->
  exists s, ctd_run p t ctd_default (h1 ++ h2) = Ok s /\
    ctd_cv s = Z.max (imin t) (ctd_loaded h1 - rising_edges (ctd_level h1) (map cdi_cd h2)).
Proof. exact ctd_counts_lemma. Qed.
Theorem C06_ctd_every_history_splits : forall h : list ctd_in,
  exists h1 h2, h = h1 ++ h2 /\ ends_with (fun i => cdi_ld i = true) h1 /\
                Forall (fun i => cdi_ld i = false) h2.
Proof. exact (split_at_last ctd_in cdi_ld). Qed.
Theorem C06_ctd_q : forall p t h i, In t counter_types ->
  Forall (fun i => in_ity t (cdi_pv i)) (h ++ [i]) ->
  exists s, ctd_run p t ctd_default (h ++ [i]) = Ok s /\ ctd_q s = (ctd_cv s <=? 0).
Proof. exact ctd_q_lemma. Qed.
Example C06_example :
  let h1 := [CtdIn false true 1] in
  let h2 := [CtdIn true false 1; CtdIn false false 1; CtdIn true false 1] in
  Forall (fun i => in_ity u32 (cdi_pv i)) (h1 ++ h2) /\
  ends_with (fun i => cdi_ld i = true) h1 /\ Forall (fun i => cdi_ld i = false) h2 /\
  exists s, ctd_run Debug u32 ctd_default (h1 ++ h2) = Ok s /\ ctd_cv s = 0 /\ ctd_q s = true.
Proof.
  cbv zeta. split; [|split; [|split; [repeat constructor|]]].
  - repeat constructor; vm_compute; congruence.
  - right. exists [], (CtdIn false true 1). split; reflexivity.
  - eexists. split; [vm_compute; reflexivity|]. split; reflexivity.
Qed.
Print Assumptions C06_ctd_counts_edges_since_load.
Print Assumptions C06_ctd_q.
Print Assumptions C06_ctd_every_history_splits.

(** ** C07 *)
Theorem C07_ctud_every_call : forall p t h i, In t counter_types ->
  Forall (fun i => in_ity t (cudi_pv i)) (h ++ [i]) ->
  exists s s',
    ctud_run p t ctud_default h = Ok s /\
    ctud_run p t ctud_default (h ++ [i]) = Ok s' /\
    cud_cv s' = (if cudi_r i then 0 else if cudi_ld i then cudi_pv i else
       clamp (imin t) (imax t)
         (cud_cv s + bit (cudi_cu i && negb (ctud_cu_level h))
                   - bit (cudi_cd i && negb (ctud_cd_level h)))) /\
    cud_qu s' = (cudi_pv i <=? cud_cv s') /\
    cud_qd s' = (cud_cv s' <=? 0) /\
    in_ity t (cud_cv s').
Proof. exact ctud_call_lemma. Qed.
(** Without saturation the count is the base value plus ups minus downs. *)
Theorem C07_ctud_net_count : forall p t h1 h2 s, In t counter_types ->
  Forall (fun i => in_ity t (cudi_pv i)) (h1 ++ h2) ->
  Forall (fun i => ctud_counts i = true) h2 ->
  ctud_run p t ctud_default h1 = Ok s ->
  (forall a b, h2 = a ++ b ->
     in_ity t (cud_cv s + net_count (ctud_cu_level h1) (ctud_cd_level h1) a)) ->
  exists s', ctud_run p t ctud_default (h1 ++ h2) = Ok s' /\
    cud_cv s' = cud_cv s + net_count (ctud_cu_level h1) (ctud_cd_level h1) h2.
Proof. exact ctud_net_lemma. Qed.
Example C07_example :
  exists s, ctud_run Debug i16 ctud_default
    [CtudIn false false false true 7; CtudIn true true false false 7;
     CtudIn false false false false 7; CtudIn true false false false 7;
     CtudIn false true false false 7; CtudIn true false false false 7] = Ok s
    /\ cud_cv s = 8 /\ cud_qu s = true /\ cud_qd s = false.
Proof. eexists. split; [vm_compute; reflexivity|]. repeat split. Qed.
Example C07_saturation :
  exists s, ctud_run Debug i16 ctud_default
    [CtudIn false false false true 32767; CtudIn true false false false 0] = Ok s
    /\ cud_cv s = 32767.
Proof. eexists. split; [vm_compute; reflexivity|]. reflexivity. Qed.
Example C07_net_hypotheses :
  let h1 := [CtudIn false false false true 7] in
  let h2 := [CtudIn true true false false 7; CtudIn false false false false 7;
             CtudIn true false false false 7] in
  exists s, ctud_run Debug i16 ctud_default h1 = Ok s /\
  forall a b, h2 = a ++ b ->
     in_ity i16 (cud_cv s + net_count (ctud_cu_level h1) (ctud_cd_level h1) a).
Proof.
  eexists. split; [vm_compute; reflexivity|]. intros a b E.
  destruct a as [|a0 [|a1 [|a2 [|a3 a]]]]; cbn in E; try discriminate;
    inversion E; subst; vm_compute; split; congruence.
Qed.
Print Assumptions C07_ctud_every_call.
Print Assumptions C07_ctud_net_count.

(** ** C08: false.  A reset (load) call does not sample CU (CD), so edges of the input in
    such calls are counted late or lost. *)
Theorem C08_counts_edge_of_reset_call_refuted : forall p t, In t counter_types ->
  exists h s, ctu_run p t ctu_default h = Ok s /\
    iec_ctu_cv (imax t) false 0 h < ctu_cv s.
Proof. exact c08_ctu_extra. Qed.
Theorem C08_misses_edge_after_reset_call_refuted : forall p t, In t counter_types ->
  exists h s, ctu_run p t ctu_default h = Ok s /\
    ctu_cv s < iec_ctu_cv (imax t) false 0 h.
Proof. exact c08_ctu_missed. Qed.
Theorem C08_ctd_refuted : forall p t, In t counter_types ->
  exists h s, ctd_run p t ctd_default h = Ok s /\
    ctd_cv s < iec_ctd_cv (imin t) false 0 h.
Proof. exact c08_ctd_extra. Qed.
Theorem C08_ctud_refuted : forall p t, In t counter_types ->
  exists h s, ctud_run p t ctud_default h = Ok s /\
    iec_ctud_cv (imin t) (imax t) false false 0 h < cud_cv s.
Proof. exact c08_ctud_extra. Qed.
(** True part: the counting is the IEC one in every history in which the inputs do not
    change in the reset and load calls.  Missing: histories where they do. *)
Theorem C08_ctu_partial : forall p t h, In t counter_types -> cu_steady_in_reset false h ->
  exists s, ctu_run p t ctu_default h = Ok s /\ ctu_cv s = iec_ctu_cv (imax t) false 0 h.
Proof. exact ctu_iec_lemma. Qed.
Theorem C08_ctd_partial : forall p t h, In t counter_types ->
  Forall (fun i => in_ity t (cdi_pv i)) h -> cd_steady_in_load false h ->
  exists s, ctd_run p t ctd_default h = Ok s /\ ctd_cv s = iec_ctd_cv (imin t) false 0 h.
Proof. exact ctd_iec_lemma. Qed.
Theorem C08_ctud_partial : forall p t h, In t counter_types ->
  Forall (fun i => in_ity t (cudi_pv i)) h -> ctud_steady false false h ->
  exists s, ctud_run p t ctud_default h = Ok s /\
    cud_cv s = iec_ctud_cv (imin t) (imax t) false false 0 h.
Proof. exact ctud_iec_lemma. Qed.
Example C08_hypotheses :
  cu_steady_in_reset false [CtuIn true false 3; CtuIn true true 3; CtuIn false false 3;
                            CtuIn true false 3] /\
  cd_steady_in_load false [CtdIn false true 3; CtdIn true false 3; CtdIn true true 3] /\
  ctud_steady false false [CtudIn false false false true 3; CtudIn true false false false 3;
                           CtudIn true false true false 3].
Proof. cbn. repeat split; try discriminate; auto. Qed.
Print Assumptions C08_counts_edge_of_reset_call_refuted.
Print Assumptions C08_misses_edge_after_reset_call_refuted.
Print Assumptions C08_ctd_refuted.
Print Assumptions C08_ctud_refuted.
Print Assumptions C08_ctu_partial.
Print Assumptions C08_ctd_partial.
Print Assumptions C08_ctud_partial.

(** ** C09: the longest suffix of calls with IN = TRUE, ending in this call [c], starts with
    the first call [f] of the current run. *)
Theorem C09_ton_on_delay : forall h c, clock_ok (h ++ [c]) -> preset_ok (h ++ [c]) ->
  timer_out TON (h ++ [c]) = Ok
    match suffix_while tc_in (h ++ [c]) with
    | [] => (false, 0)
    | [_] => (false, 0)
    | f :: _ => (tc_pt c <? tc_t2 c - tc_t1 f, Z.min (tc_pt c) (tc_t1 c - tc_t1 f))
    end.
Proof. exact ton_lemma. Qed.
Example C09_example :
  let h := [TCall true 10 0 0; TCall false 10 3 3; TCall true 10 5 6; TCall true 10 15 15] in
  let c := TCall true 10 16 17 in
  clock_ok (h ++ [c]) /\ preset_ok (h ++ [c]) /\
  timer_out TON h = Ok (false, 10) /\ timer_out TON (h ++ [c]) = Ok (true, 10).
Proof.
  cbv zeta. split; [split; [cbn; lia|repeat constructor]|].
  split; [repeat constructor; cbn; lia|]. split; reflexivity.
Qed.
Print Assumptions C09_ton_on_delay.

(** ** C10 *)
Theorem C10_tof_off_delay : forall h c, clock_ok (h ++ [c]) -> preset_ok (h ++ [c]) ->
  timer_out TOF (h ++ [c]) = Ok
    (if tc_in c then (true, 0)
     else if existsb tc_in h then
       match suffix_while (fun d => negb (tc_in d)) (h ++ [c]) with
       | [] => (true, 0)
       | [_] => (true, 0)
       | f :: _ => (tc_t2 c - tc_t1 f <=? tc_pt c, Z.min (tc_pt c) (tc_t1 c - tc_t1 f))
       end
     else (false, 0)).
Proof. exact tof_lemma. Qed.
Example C10_example :
  let h := [TCall false 10 0 0; TCall true 10 3 3; TCall false 10 5 6; TCall false 10 15 15] in
  let c := TCall false 10 16 17 in
  clock_ok (h ++ [c]) /\ preset_ok (h ++ [c]) /\
  timer_out TOF h = Ok (true, 10) /\ timer_out TOF (h ++ [c]) = Ok (false, 10).
Proof.
  cbv zeta. split; [split; [cbn; lia|repeat constructor]|].
  split; [repeat constructor; cbn; lia|]. split; reflexivity.
Qed.
Print Assumptions C10_tof_off_delay.

(** ** C11: [f] is the call that starts the pulse, [mid] the calls made within the pulse. *)
Theorem C11_tp_pulse_not_interruptible : forall pt h0 f mid c e0 e1,
  clock_ok (h0 ++ f :: mid ++ [c]) -> constant_pt pt (h0 ++ f :: mid ++ [c]) ->
  0 <= pt < 2 ^ 63 ->
  timer_out TP h0 = Ok (false, e0) ->
  timer_out TP (h0 ++ [f]) = Ok (true, e1) ->
  Forall (fun d => tc_t2 d <= tc_t1 f + pt) mid ->
  e1 = 0 /\
  timer_out TP (h0 ++ f :: mid ++ [c]) = Ok
    (if tc_t2 c <=? tc_t1 f + pt then (true, tc_t1 c - tc_t1 f)
     else (false, if tc_in (last mid f) && negb (tc_in c) then 0
                  else Z.min pt (tc_t1 c - tc_t1 f))).
Proof. exact tp_pulse_lemma. Qed.
Example C11_example :
  let h0 := [TCall true 10 0 0; TCall true 10 11 11; TCall false 10 12 12] in
  let f := TCall true 10 20 20 in
  let mid := [TCall false 10 22 22; TCall true 10 25 25; TCall false 10 30 30] in
  let c := TCall true 10 31 31 in
  clock_ok (h0 ++ f :: mid ++ [c]) /\ constant_pt 10 (h0 ++ f :: mid ++ [c]) /\
  timer_out TP h0 = Ok (false, 0) /\ timer_out TP (h0 ++ [f]) = Ok (true, 0) /\
  Forall (fun d => tc_t2 d <= tc_t1 f + 10) mid /\
  timer_out TP (h0 ++ f :: mid) = Ok (true, 10) /\
  timer_out TP (h0 ++ f :: mid ++ [c]) = Ok (false, 10).
Proof.
  cbv zeta. split; [split; [cbn; lia|repeat constructor]|].
  split; [repeat constructor|]. split; [reflexivity|]. split; [reflexivity|].
  split; [repeat constructor; cbn; lia|]. split; reflexivity.
Qed.
Print Assumptions C11_tp_pulse_not_interruptible.

(** ** C12: false.  The very first call with IN = FALSE aborts. *)
Theorem C12_tp_never_aborts_refuted : exists h,
  clock_ok h /\ preset_ok h /\ timer_out TP h = Panic.
Proof.
  exists [TCall false 10 0 0]. split; [split; [cbn; lia|repeat constructor]|].
  split; [repeat constructor; cbn; lia|reflexivity].
Qed.
(** Exact abort condition after any history that has not aborted. *)
Theorem C12_tp_abort_condition_partial : forall h c q e, timer_out TP h = Ok (q, e) ->
  (timer_out TP (h ++ [c]) = Panic <->
   tc_in c = false /\ (h = [] \/ (ends_with_falling_in h /\ q = false))) /\
  timer_out TP (h ++ [c]) <> Ub.
Proof. exact tp_panic_lemma. Qed.
Example C12_example :
  let h := [TCall true 10 0 0; TCall true 10 11 11; TCall false 10 12 12] in
  timer_out TP h = Ok (false, 0) /\ ends_with_falling_in h /\
  timer_out TP (h ++ [TCall false 10 13 13]) = Panic.
Proof.
  cbv zeta. split; [reflexivity|]. split; [|reflexivity].
  exists [TCall true 10 0 0], (TCall true 10 11 11), (TCall false 10 12 12). repeat split.
Qed.
Print Assumptions C12_tp_never_aborts_refuted.
Print Assumptions C12_tp_abort_condition_partial.

(** ** C13: false.  If IN falls during the pulse, the next rising edge after the pulse does
    not start a pulse. *)
Theorem C13_tp_starts_on_rising_edge_refuted : exists h c,
  clock_ok (h ++ [c]) /\ constant_pt 10 (h ++ [c]) /\
  (exists e, timer_out TP h = Ok (false, e)) /\
  (exists h' l, h = h' ++ [l] /\ tc_in l = false) /\ tc_in c = true /\
  timer_out TP (h ++ [c]) = Ok (false, 10).
Proof.
  exists [TCall true 10 0 0; TCall false 10 5 5; TCall false 10 20 20], (TCall true 10 30 30).
  split; [split; [cbn; lia|repeat constructor]|]. split; [repeat constructor|].
  split; [exists 10; reflexivity|]. split; [|split; reflexivity].
  exists [TCall true 10 0 0; TCall false 10 5 5], (TCall false 10 20 20). split; reflexivity.
Qed.
(** Exact rule: among rising edges with Q = FALSE, exactly those directly after a falling
    edge (or on a fresh instance) start a pulse. *)
Theorem C13_tp_restart_rule_partial : forall pt h c e,
  clock_ok (h ++ [c]) -> constant_pt pt (h ++ [c]) ->
  0 <= pt < 2 ^ 63 ->
  timer_out TP h = Ok (false, e) ->
  (h = [] \/ exists h' l, h = h' ++ [l] /\ tc_in l = false) ->
  tc_in c = true ->
  (h = [] \/ ends_with_falling_in h -> timer_out TP (h ++ [c]) = Ok (true, 0)) /\
  (~ (h = [] \/ ends_with_falling_in h) -> timer_out TP (h ++ [c]) = Ok (false, pt)).
Proof. exact tp_restart_lemma. Qed.
Example C13_example :
  let h := [TCall true 10 0 0; TCall true 10 11 11; TCall false 10 12 12] in
  ends_with_falling_in h /\ timer_out TP h = Ok (false, 0) /\
  timer_out TP (h ++ [TCall true 10 13 13]) = Ok (true, 0).
Proof.
  cbv zeta. split; [|split; reflexivity].
  exists [TCall true 10 0 0], (TCall true 10 11 11), (TCall false 10 12 12). repeat split.
Qed.
Print Assumptions C13_tp_starts_on_rising_edge_refuted.
Print Assumptions C13_tp_restart_rule_partial.

(** ** C14 *)
Theorem C14_et_range : forall f h c q e, In f [TON; TOF; TP] ->
  clock_ok (h ++ [c]) -> preset_ok (h ++ [c]) ->
  timer_out f (h ++ [c]) = Ok (q, e) -> 0 <= e <= tc_pt c.
Proof.
  intros f h c q e [<-|[<-|[<-|[]]]]; [apply ton_et|apply tof_et|apply tp_et].
Qed.
Theorem C14_ton_et_monotone : forall pt h c d,
  let h2 := (h ++ [c]) ++ [d] in
  clock_ok h2 -> preset_ok h2 -> constant_pt pt h2 ->
  tc_in c = true -> tc_in d = true ->
  et_of (timer_out TON (h ++ [c])) <= et_of (timer_out TON h2).
Proof. exact ton_monotone. Qed.
Theorem C14_tof_et_monotone : forall pt h c d,
  let h2 := (h ++ [c]) ++ [d] in
  clock_ok h2 -> preset_ok h2 -> constant_pt pt h2 ->
  tc_in c = false -> tc_in d = false ->
  et_of (timer_out TOF (h ++ [c])) <= et_of (timer_out TOF h2).
Proof. exact tof_monotone. Qed.
Theorem C14_tp_et_monotone : forall pt h c d,
  let h2 := (h ++ [c]) ++ [d] in
  clock_ok h2 -> preset_ok h2 -> constant_pt pt h2 ->
  q_of (timer_out TP (h ++ [c])) = true ->
  q_of (timer_out TP h2) = true ->
  et_of (timer_out TP (h ++ [c])) <= et_of (timer_out TP h2).
Proof. exact tp_monotone. Qed.
Example C14_example :
  let h := [TCall true 10 0 0] in let c := TCall true 10 3 3 in let d := TCall true 10 7 8 in
  let h2 := (h ++ [c]) ++ [d] in
  clock_ok h2 /\ preset_ok h2 /\ constant_pt 10 h2 /\
  q_of (timer_out TP (h ++ [c])) = true /\ q_of (timer_out TP h2) = true /\
  et_of (timer_out TP (h ++ [c])) = 3 /\ et_of (timer_out TP h2) = 7 /\
  et_of (timer_out TON h2) = 7.
Proof.
  cbv zeta. split; [split; [cbn; lia|repeat constructor]|].
  split; [repeat constructor; cbn; lia|]. split; [repeat constructor|]. repeat split.
Qed.
Print Assumptions C14_et_range.
Print Assumptions C14_ton_et_monotone.
Print Assumptions C14_tof_et_monotone.
Print Assumptions C14_tp_et_monotone.

(** ** C15: false.  A negative preset never expires, and ET takes the negative value. *)
Theorem C15_negative_preset_refuted : exists h c,
  clock_ok (h ++ [c]) /\ preset_negative (h ++ [c]) /\
  Forall (fun d => tc_in d = true) (h ++ [c]) /\ (length h >= 2)%nat /\
  timer_out TON (h ++ [c]) = Ok (false, -5).
Proof.
  exists [TCall true (-5) 0 0; TCall true (-5) 1000 1000], (TCall true (-5) 999999 999999).
  split; [split; [cbn; lia|repeat constructor]|].
  split; [repeat constructor; cbn; lia|]. split; [repeat constructor|].
  split; [cbn; lia|reflexivity].
Qed.
(** What happens instead, for every history with negative presets. *)
Theorem C15_ton_negative_preset_partial : forall h c,
  clock_ok (h ++ [c]) -> preset_negative (h ++ [c]) ->
  timer_out TON (h ++ [c]) =
    Ok (false, match suffix_while tc_in (h ++ [c]) with _ :: _ :: _ => tc_pt c | _ => 0 end).
Proof. exact ton_negative. Qed.
Theorem C15_tof_negative_preset_partial : forall h c,
  clock_ok (h ++ [c]) -> preset_negative (h ++ [c]) ->
  timer_out TOF (h ++ [c]) =
    Ok (existsb tc_in (h ++ [c]),
        if tc_in c then 0
        else if existsb tc_in h then
          match suffix_while (fun d => negb (tc_in d)) (h ++ [c]) with
          | _ :: _ :: _ => tc_pt c
          | _ => 0
          end
        else 0).
Proof. exact tof_negative. Qed.
Theorem C15_tp_negative_preset_partial : forall f h c,
  clock_ok ((f :: h) ++ [c]) -> preset_negative ((f :: h) ++ [c]) ->
  tc_in f = true ->
  timer_out TP ((f :: h) ++ [c]) = Ok (true, tc_pt c).
Proof. exact tp_negative. Qed.
Example C15_example :
  let h := [TCall true (-5) 0 0; TCall false (-5) 10 10; TCall false (-5) 1000 1000] in
  let c := TCall false (-7) 5000 6000 in
  clock_ok (h ++ [c]) /\ preset_negative (h ++ [c]) /\
  timer_out TOF (h ++ [c]) = Ok (true, -7) /\ timer_out TP (h ++ [c]) = Ok (true, -7).
Proof.
  cbv zeta. split; [split; [cbn; lia|repeat constructor]|].
  split; [repeat constructor; cbn; lia|]. split; reflexivity.
Qed.
Print Assumptions C15_negative_preset_refuted.
Print Assumptions C15_ton_negative_preset_partial.
Print Assumptions C15_tof_negative_preset_partial.
Print Assumptions C15_tp_negative_preset_partial.
