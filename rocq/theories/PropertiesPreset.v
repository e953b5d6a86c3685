(** C105: changing the preset time of a timer. *)
From Coq Require Import ZArith List Bool Lia.
From Verif Require Import Base ModelTimers SpecFB SpecPreset ProofPreset.
Import ListNotations.
Open Scope Z_scope.

(** The outputs of TON and TOF depend on the preset time of the current call only. *)
Theorem C105_ton_tof : forall f h h' c, List.In f [TON; TOF] -> clock_ok (h ++ [c]) -> clock_ok (h' ++ [c]) ->
  preset_ok (h ++ [c]) -> preset_ok (h' ++ [c]) -> Forall2 same_call h h' ->
  timer_out f (h ++ [c]) = timer_out f (h' ++ [c]).
Proof. intros f h h' c [<-|[<-|[]]]; [apply ton_presets|apply tof_presets]. Qed.
Print Assumptions C105_ton_tof.

(** TP, from the call [f] that starts a pulse up to the first call in which IN falls when the preset time of that call
    has passed: Q says whether the current preset time has passed since [f], whatever the earlier presets were. *)
Theorem C105_tp : forall h0 f mid c q0 e0,
  clock_ok (h0 ++ f :: mid ++ [c]) -> preset_ok (h0 ++ f :: mid ++ [c]) ->
  timer_out TP h0 = Ok (q0, e0) -> h0 = [] \/ ends_with_falling_in h0 /\ q0 = false -> tc_in f = true ->
  no_release f f mid ->
  timer_out TP (h0 ++ f :: mid ++ [c]) = Ok
    (if tc_t2 c - tc_t1 f <=? tc_pt c then (true, tc_t1 c - tc_t1 f)
     else (false, if tc_in (last mid f) && negb (tc_in c) then 0 else Z.min (tc_pt c) (tc_t1 c - tc_t1 f))).
Proof. exact tp_any_preset. Qed.
Print Assumptions C105_tp.

(** With a constant preset time Q rises only at a rising edge of IN ... *)
Theorem C105_tp_rises_with_in_partial : forall pt h c e e', clock_ok (h ++ [c]) -> constant_pt pt (h ++ [c]) -> 0 <= pt < 2 ^ 63 ->
  timer_out TP h = Ok (false, e) -> timer_out TP (h ++ [c]) = Ok (true, e') ->
  tc_in c = true /\ (h = [] \/ exists h' l, h = h' ++ [l] /\ tc_in l = false).
Proof. exact tp_rises. Qed.
Print Assumptions C105_tp_rises_with_in_partial.

(** ... but a preset time that is raised after the pulse makes Q TRUE again without any edge of IN, even with IN = FALSE. *)
Theorem C105_tp_rises_with_in_refuted : forall b, exists h l c e, clock_ok ((h ++ [l]) ++ [c]) /\ preset_ok ((h ++ [l]) ++ [c]) /\
  tc_in l = b /\ tc_in c = b /\ timer_out TP (h ++ [l]) = Ok (false, e) /\ timer_out TP ((h ++ [l]) ++ [c]) = Ok (true, 30).
Proof.
  intros b. exists [TCall true 10 0 0; TCall b 10 5 5], (TCall b 10 20 20), (TCall b 50 30 30), 10.
  split; [split; [cbn; lia|repeat constructor]|]. split; [repeat constructor; cbn; lia|].
  split; [reflexivity|]. split; [reflexivity|]. destruct b; split; reflexivity.
Qed.
Print Assumptions C105_tp_rises_with_in_refuted.

(** A pulse of 10 whose preset is raised to 50, lowered to 20 and raised to 60; then IN falls after 70. *)
Example C105_example :
  let f := TCall true 10 100 100 in
  let mid := [TCall true 10 105 105; TCall true 50 120 120; TCall true 20 130 130; TCall true 60 140 141] in
  let c := TCall false 60 170 170 in
  clock_ok ([] ++ f :: mid ++ [c]) /\ preset_ok ([] ++ f :: mid ++ [c]) /\ timer_out TP [] = Ok (false, 0) /\ no_release f f mid /\
  timer_out TP ([f] ++ firstn 2 mid) = Ok (true, 20) /\ timer_out TP ([f] ++ firstn 3 mid) = Ok (false, 20) /\
  timer_out TP ([f] ++ mid) = Ok (true, 40) /\ timer_out TP ([f] ++ mid ++ [c]) = Ok (false, 0).
Proof.
  cbv zeta. split; [split; [cbn; lia|repeat constructor]|]. split; [repeat constructor; cbn; lia|]. split; [reflexivity|].
  split; [cbn; lia|]. repeat split.
Qed.
Example C105_example_ton :
  let h := [TCall true 10 100 100; TCall true 10 105 105] in let h' := [TCall true 70 100 100; TCall true 0 105 105] in
  let c := TCall true 20 115 115 in
  clock_ok (h ++ [c]) /\ clock_ok (h' ++ [c]) /\ preset_ok (h ++ [c]) /\ preset_ok (h' ++ [c]) /\ Forall2 same_call h h' /\
  timer_out TON (h ++ [c]) = Ok (false, 15).
Proof.
  cbv zeta. do 2 (split; [split; [cbn; lia|repeat constructor]|]). do 2 (split; [repeat constructor; cbn; lia|]).
  split; [repeat constructor|reflexivity].
Qed.
