(** C97: timers depend on time differences only, and not on how often they are called.
    C98: relations between blocks.  See SpecFB.v for [timer_out], SpecPoll.v for the rest. *)
From Coq Require Import ZArith List Bool Lia.
From Verif Require Import Base ModelFB ModelCounters ModelTimers SpecFB SpecPoll ProofPoll.
Import ListNotations.
Open Scope Z_scope.

(** ** C97 *)
Theorem C97_time_shift : forall d f h, In f [TON; TOF; TP] -> timer_out f (map (later d) h) = timer_out f h.
Proof. exact out_shifted. Qed.
(** Calls that only repeat the level of IN do not change what later calls deliver. *)
Theorem C97_polls_ton_tof : forall f h h', In f [TON; TOF] -> extra_polls h h' -> timer_out f h' = timer_out f h.
Proof. exact polls_ton_tof. Qed.
(** For TP this is so unless an additional call aborts. *)
Theorem C97_polls_tp_partial : forall h h', extra_polls h h' -> timer_out TP h' <> Panic ->
  timer_out TP h' = timer_out TP h.
Proof. intros h h'. apply polls_lemma. cbn. auto. Qed.
Theorem C97_polls_tp_refuted : exists h h', extra_polls h h' /\ timer_out TP h = Ok (true, 0) /\
  timer_out TP h' = Panic.
Proof.
  exists [TCall true 10 1 1], [TCall false 10 0 0; TCall true 10 1 1]. split; [|split; reflexivity].
  apply (polls_more _ [] (TCall false 10 0 0) [TCall true 10 1 1]); [apply polls_same|reflexivity|discriminate].
Qed.
Example C97_ex1 : timer_out TON (map (later 1000) [TCall true 10 0 0; TCall true 10 11 11]) = Ok (true, 10).
Proof. rewrite C97_time_shift by (cbn; auto). reflexivity. Qed.
(** Two additional calls, at 4 and at 7 ns. *)
Lemma ex_polls : extra_polls [TCall true 10 0 0; TCall false 10 2 2; TCall false 10 9 9]
  [TCall true 10 0 0; TCall false 10 2 2; TCall false 99 4 4; TCall false 10 7 7; TCall false 10 9 9].
Proof.
  apply (polls_more _ [TCall true 10 0 0; TCall false 10 2 2] (TCall false 99 4 4)); [|reflexivity|discriminate].
  apply (polls_more _ [TCall true 10 0 0; TCall false 10 2 2] (TCall false 10 7 7)); [|reflexivity|discriminate].
  apply polls_same.
Qed.
Example C97_ex2 : timer_out TOF
  [TCall true 10 0 0; TCall false 10 2 2; TCall false 99 4 4; TCall false 10 7 7; TCall false 10 9 9] =
  Ok (true, 7).
Proof. rewrite (C97_polls_ton_tof TOF _ _ ltac:(cbn; auto) ex_polls). reflexivity. Qed.
Example C97_ex3 : timer_out TP
  [TCall true 10 0 0; TCall false 10 2 2; TCall false 99 4 4; TCall false 10 7 7; TCall false 10 9 9] =
  Ok (true, 9).
Proof. rewrite (C97_polls_tp_partial _ _ ex_polls); [reflexivity|vm_compute; discriminate]. Qed.

(** ** C98 *)
(** F_TRIG is R_TRIG of the inverted input, except in the first call. *)
Theorem C98_f_trig_is_inverted_r_trig : forall c clks,
  tl (trig_outputs F_TRIG trigger_default (c :: clks)) =
  tl (trig_outputs R_TRIG trigger_default (map negb (c :: clks))).
Proof. exact f_is_inverted_r. Qed.
(** The pulses of R_TRIG are as many edges as its input has. *)
Theorem C98_pulses_count_as_edges : forall clks,
  rising_edges false (trig_outputs R_TRIG trigger_default clks) = rising_edges false clks.
Proof. intros clks. exact (proj1 (edges_of_pulses clks false false false)). Qed.
(** RS is SR with inputs exchanged and inverted output; both agree while S and R are not TRUE
    together.  Pairs are (SET, RESET). *)
Theorem C98_rs_is_dual_of_sr : forall ins p p', sr_output p' = negb (sr_output p) ->
  sr_output (sr_run RS p' (map (fun i => (snd i, fst i)) ins)) = negb (sr_output (sr_run SR p ins)).
Proof. exact sr_rs_general. Qed.
Theorem C98_sr_rs_agree : forall ins p, Forall (fun i => fst i && snd i = false) ins ->
  sr_output (sr_run SR p ins) = sr_output (sr_run RS p ins).
Proof. exact sr_rs_agree. Qed.
(** CTUD with the down side unused is CTU, with the up side unused CTD. *)
Theorem C98_ctud_is_ctu : forall p t h, h <> [] -> Forall (fun i => cudi_cd i = false /\ cudi_ld i = false) h ->
  omap (fun s => (cud_qu s, cud_cv s)) (ctud_run p t ctud_default h) =
  omap ctu_outputs (ctu_run p t ctu_default (map up_part h)).
Proof. exact ctud_as_ctu. Qed.
Theorem C98_ctud_is_ctd : forall p t h, h <> [] -> Forall (fun i => cudi_cu i = false /\ cudi_r i = false) h ->
  omap (fun s => (cud_qd s, cud_cv s)) (ctud_run p t ctud_default h) =
  omap ctd_outputs (ctd_run p t ctd_default (map down_part h)).
Proof. exact ctud_as_ctd. Qed.
(** Once IN has been TRUE, TOF is TON with inverted input and output; ET is the same. *)
Theorem C98_tof_is_inverted_ton : forall h c, clock_ok (h ++ [c]) -> preset_ok (h ++ [c]) ->
  existsb tc_in (h ++ [c]) = true ->
  timer_out TOF (h ++ [c]) = omap (fun o => (negb (fst o), snd o)) (timer_out TON (map inverted (h ++ [c]))).
Proof. exact tof_as_ton. Qed.
Example C98_ex1 : tl (trig_outputs F_TRIG trigger_default [false; true; false; false]) = [false; true; false].
Proof. rewrite C98_f_trig_is_inverted_r_trig. reflexivity. Qed.
Example C98_ex2 : rising_edges false (trig_outputs R_TRIG trigger_default [true; true; false; true]) = 2.
Proof. rewrite C98_pulses_count_as_edges. reflexivity. Qed.
Example C98_ex3 : sr_output (sr_run RS (SrParams false false true) (map (fun i => (snd i, fst i)) [(true, true)])) = false.
Proof. rewrite (C98_rs_is_dual_of_sr _ (SrParams false false false)); reflexivity. Qed.
Example C98_ex4 : sr_output (sr_run SR (SrParams false false false) [(true, false); (false, false)]) = true.
Proof. rewrite C98_sr_rs_agree by repeat constructor. reflexivity. Qed.
Example C98_ex5 : omap (fun s => (cud_qu s, cud_cv s))
  (ctud_run Debug i16 ctud_default [CtudIn true false false false 2; CtudIn false false false false 2;
                                    CtudIn true false false false 2]) = Ok (true, 2).
Proof. rewrite C98_ctud_is_ctu; [reflexivity|discriminate|repeat constructor]. Qed.
Example C98_ex6 : omap (fun s => (cud_qd s, cud_cv s))
  (ctud_run Debug i16 ctud_default [CtudIn false false false true 2; CtudIn false true false false 2;
                                    CtudIn false false false false 2; CtudIn false true false false 2]) = Ok (true, 0).
Proof. rewrite C98_ctud_is_ctd; [reflexivity|discriminate|repeat constructor]. Qed.
Example C98_ex7 : timer_out TOF ([TCall true 10 0 0; TCall false 10 5 5] ++ [TCall false 10 14 14]) = Ok (true, 9).
Proof.
  rewrite C98_tof_is_inverted_ton; [reflexivity| | |reflexivity].
  - split; [cbn; lia|repeat constructor].
  - repeat constructor; cbn; lia.
Qed.

Print Assumptions C97_time_shift.
Print Assumptions C97_polls_ton_tof.
Print Assumptions C97_polls_tp_partial.
Print Assumptions C97_polls_tp_refuted.
Print Assumptions C98_f_trig_is_inverted_r_trig.
Print Assumptions C98_pulses_count_as_edges.
Print Assumptions C98_rs_is_dual_of_sr.
Print Assumptions C98_sr_rs_agree.
Print Assumptions C98_ctud_is_ctu.
Print Assumptions C98_ctud_is_ctd.
Print Assumptions C98_tof_is_inverted_ton.
