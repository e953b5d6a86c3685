(** [rt(CLK := x); tp(IN := rt.Q, PT := pt)]: a TP behind an R_TRIG (continues C118).  It makes one pulse and, at a later
    edge, none; then the program aborts, unless x rises again in the second cycle after that edge. *)
From Coq Require Import ZArith List Bool Lia.
From Verif Require Import Base ModelFB ModelTimers SpecFB SpecCircuit SpecBlink SpecPulse ProofPulse.
Import ListNotations.
Open Scope Z_scope.

(** If x is FALSE in the first cycle, the program aborts there. *)
Theorem C118_pulse_needs_edge : forall c rest, fed_by_edges ((false, c) :: rest) ->
  timer_out TP (map snd ((false, c) :: rest)) = Panic.
Proof. exact first_quiet. Qed.

(** The pulse of the edge in the first cycle lasts until pt has passed; edges in the meantime do not change that, nor
    does the first edge afterwards start another pulse. *)
Theorem C118_one_pulse : forall pt k mid c, 0 <= pt < 2 ^ 63 -> clock_ok (map snd (k :: mid ++ [c])) -> constant_pt pt (map snd (k :: mid ++ [c])) ->
  fed_by_edges (k :: mid ++ [c]) -> fst k = true -> edges_within pt k (k :: mid) ->
  timer_out TP (map snd (k :: mid ++ [c])) = Ok
    (if tc_t2 (snd c) - tc_t1 (snd k) <=? pt then (true, tc_t1 (snd c) - tc_t1 (snd k))
     else (false, if tc_in (last (map snd mid) (snd k)) && negb (tc_in (snd c)) then 0 else Z.min pt (tc_t1 (snd c) - tc_t1 (snd k)))).
Proof. exact one_pulse. Qed.

(** The first edge after the pulse, in the cycle [e]: no pulse, and in the second cycle after it an abort, or a pulse
    if x rises again in just that cycle. *)
Theorem C118_second_pulse : forall pt k mid e n c, 0 <= pt < 2 ^ 63 ->
  clock_ok (map snd (k :: mid ++ [e; n; c])) -> constant_pt pt (map snd (k :: mid ++ [e; n; c])) ->
  fed_by_edges (k :: mid ++ [e; n; c]) -> fst k = true -> edges_within pt k (k :: mid) ->
  rises (k :: mid) e -> pt < tc_t2 (snd e) - tc_t1 (snd k) ->
  (exists et, timer_out TP (map snd (k :: mid ++ [e])) = Ok (false, et)) /\
  timer_out TP (map snd (k :: mid ++ [e; n])) = Ok (false, 0) /\
  (rises (k :: mid ++ [e; n]) c -> timer_out TP (map snd (k :: mid ++ [e; n; c])) = Ok (true, 0)) /\
  (~ rises (k :: mid ++ [e; n]) c -> timer_out TP (map snd (k :: mid ++ [e; n; c])) = Panic).
Proof. exact second_pulse. Qed.

(** A button pressed at 0, 6 and 40, with PT = 10. *)
Definition k0 : bool * tcall := (true, TCall true 10 0 0).
Definition pressed : list (bool * tcall) := [(false, TCall false 10 4 4); (true, TCall true 10 6 6); (true, TCall false 10 9 9); (false, TCall false 10 20 20)].
Example C118_pulse_case : forall x, let c := (x, TCall x 10 46 46) in let h := k0 :: pressed ++ [(true, TCall true 10 40 40); (false, TCall false 10 43 43); c] in
  clock_ok (map snd h) /\ constant_pt 10 (map snd h) /\ fed_by_edges h /\ edges_within 10 k0 (k0 :: pressed) /\
  rises (k0 :: pressed) (true, TCall true 10 40 40) /\
  (rises (k0 :: pressed ++ [(true, TCall true 10 40 40); (false, TCall false 10 43 43)]) c <-> x = true).
Proof.
  intros x c h. split; [split; [cbn; lia|repeat constructor]|]. split; [repeat constructor|]. split; [destruct x; reflexivity|]. split; [|split; [split; reflexivity|]].
  - intros a d n b E R. destruct a as [|a1 [|a2 [|a3 [|a4 a]]]]; cbn in E; inversion E; subst; cbn; try lia; destruct R as [R1 R2]; try discriminate R1; try discriminate R2.
    destruct a as [|a5 a]; [discriminate|destruct a; discriminate].
  - split; [intros [H _]; exact H|intros H; split; [exact H|reflexivity]].
Qed.
Example C118_pulse_run : let a := k0 :: pressed in
  map (fun n => timer_out TP (map snd (firstn n a))) [2%nat; 4%nat; 5%nat] = [Ok (true, 4); Ok (true, 9); Ok (false, 10)] /\
  timer_out TP (map snd (a ++ [(true, TCall true 10 40 40)])) = Ok (false, 10) /\
  timer_out TP (map snd (a ++ [(true, TCall true 10 40 40); (false, TCall false 10 43 43); (false, TCall false 10 46 46)])) = Panic.
Proof. vm_compute. repeat split. Qed.
Print Assumptions C118_pulse_needs_edge.
Print Assumptions C118_one_pulse.
Print Assumptions C118_second_pulse.
