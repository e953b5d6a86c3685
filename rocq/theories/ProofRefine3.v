(** Proofs about the meaning of programs: execution. *)
From Coq Require Import String ZArith List Bool Lia Reals.
From Verif Require Import Base ModelFB ModelCounters ModelTimers ModelLayout ModelMachine ModelFloat ModelString ModelLink ModelLib ModelApi
  SpecFB SpecLayout SpecMachine SpecScalar SpecText SpecLink SpecLib SpecSafe SpecApi SpecCall SpecExpr SpecTerm SpecType SpecProgram SpecRefine
  ProofBase ProofFB ProofTimers ProofTP ProofLayout ProofMachine ProofMachine2 ProofType ProofTerm ProofTerm3
  ProofProgram ProofProgram2 ProofProgram3 ProofProgram4 ProofRefine ProofRefine2.
Import ListNotations.
Open Scope string_scope.
Open Scope list_scope.
Open Scope Z_scope.
Local Opaque ModelApi.call value_in api.

(** * Blocks *)
Lemma clocked : forall i n s h, List.In (n, s) timer_values -> Forall (event_ok [("IN", S_BOOL); ("PT", s)]) h ->
  clock_log 0 (map (as_call i [("IN", S_BOOL); ("PT", s)]) h) -> SpecFB.clock_ok (map timed_input h).
Proof.
  intros i n s h V F C. apply (clock_history i (map (as_call i [("IN", S_BOOL); ("PT", s)]) h)); [|exact C].
  apply (mapped _ _ _ _ _ _ _ _ F). intros [zs a b] E. inputs_of E. cbn [v_inputs] in *. subst. split; [reflexivity|]. unfold as_call, named, timed_input.
  cbn [v_inputs combine map fst snd c_inputs c_now1 c_now2 v_now1 v_now2 tc_t1 tc_t2]. rewrite (timer_not_bool n s _ V). split; [reflexivity|]. split; reflexivity.
Qed.
Lemma preset_history : forall n s h, List.In (n, s) timer_values -> Forall (event_ok [("IN", S_BOOL); ("PT", s)]) h -> preset_i64 (map timed_input h).
Proof.
  intros n s h V F. unfold preset_i64. apply (mapped_all _ _ _ _ _ _ F). intros [zs a b] E.
  enough (B : in_ity i64 (tc_pt (timed_input (Event zs a b)))) by (unfold in_ity, imin, imax in B; cbn -[Z.pow] in B; lia).
  inputs_of E. cbn [v_inputs snd] in *. subst. unfold timed_input. cbn [v_inputs tc_pt]. now apply (timer_in n s _ V).
Qed.
Lemma on_names : forall n, List.In n on_delays -> List.In (n, TON) timers /\ exists s, List.In (n, s) timer_values.
Proof. intros n H. unfold on_delays in H. cbn [List.In] in H. table H; subst n; (split; [cbn; tauto|]); eexists; cbn; tauto. Qed.
Lemma off_names : forall n, List.In n off_delays -> List.In (n, TOF) timers /\ exists s, List.In (n, s) timer_values.
Proof. intros n H. unfold off_delays in H. cbn [List.In] in H. table H; subst n; (split; [cbn; tauto|]); eexists; cbn; tauto. Qed.
Lemma pulse_names : forall n, List.In n pulses -> List.In (n, TP) timers /\ exists s, List.In (n, s) timer_values.
Proof. intros n H. unfold pulses in H. cbn [List.In] in H. table H; subst n; (split; [cbn; tauto|]); eexists; cbn; tauto. Qed.
Lemma counter_type : forall n t, List.In (n, t) up_counters \/ List.In (n, t) down_counters \/ List.In (n, t) up_down_counters -> exists s, List.In (s, t) counter_values.
Proof.
  intros n t H. unfold up_counters, down_counters, up_down_counters in H. cbn [List.In] in H.
  destruct H as [H|[H|H]]; table H; injection H as <- <-; eexists; cbn; tauto.
Qed.
Lemma shows_interface : forall n h var w, shows n h var w -> exists its ots, interface n its ots.
Proof.
  intros n h var w S. destruct S as [n t s h v U V C|n t h e v U C|n t s h v U V C|n t h e v U C|n t s h v U V C|n t h e v U C|n t h e v U C| | | | |n h e N|n s h e N V|n h e N|n s h e N V|n h e N K IN|n s h e N V K IN|n h e t N K|n s h e t N V K].
  - do 2 eexists. exact (if_up n t s U V).
  - destruct (counter_type n t (or_introl U)) as [s V]. do 2 eexists. exact (if_up n t s U V).
  - do 2 eexists. exact (if_down n t s U V).
  - destruct (counter_type n t (or_intror (or_introl U))) as [s V]. do 2 eexists. exact (if_down n t s U V).
  - do 2 eexists. exact (if_up_down n t s U V).
  - destruct (counter_type n t (or_intror (or_intror U))) as [s V]. do 2 eexists. exact (if_up_down n t s U V).
  - destruct (counter_type n t (or_intror (or_intror U))) as [s V]. do 2 eexists. exact (if_up_down n t s U V).
  - do 2 eexists. apply (if_bistable "SR" SR "SET1" "RESET"). left. reflexivity.
  - do 2 eexists. apply (if_bistable "RS" RS "SET" "RESET1"). right. left. reflexivity.
  - do 2 eexists. apply (if_trigger "R_TRIG" R_TRIG). left. reflexivity.
  - do 2 eexists. apply (if_trigger "F_TRIG" F_TRIG). right. left. reflexivity.
  - destruct (on_names n N) as [_ [s V]]. do 2 eexists. exact (if_timer n s V).
  - do 2 eexists. exact (if_timer n s V).
  - destruct (off_names n N) as [_ [s V]]. do 2 eexists. exact (if_timer n s V).
  - do 2 eexists. exact (if_timer n s V).
  - destruct (pulse_names n N) as [_ [s V]]. do 2 eexists. exact (if_timer n s V).
  - do 2 eexists. exact (if_timer n s V).
  - destruct (pulse_names n N) as [_ [s V]]. do 2 eexists. exact (if_timer n s V).
  - do 2 eexists. exact (if_timer n s V).
Qed.
Section Block.
Variables (rp : option_repr) (p : profile) (m : ModelLayout.mem) (i : instance) (its ots : list (string * sty)).
Hypothesis Z0 : zeroed rp m i.
Hypothesis IF : interface (i_name i) its ots.
Hypothesis TF : List.In (i_name i) (map fst timer_values) -> rp = Tagged.
Lemma timer_name : forall n s, List.In (n, s) timer_values -> List.In n (map fst timer_values).
Proof. intros n s H. exact (in_map fst _ _ H). Qed.
Lemma tagged_out : forall n s f h, i_name i = n -> List.In (n, s) timer_values -> timer_out_zeroed rp f h = timer_out f h.
Proof. intros n s f h N V. rewrite (TF ltac:(rewrite N; exact (timer_name n s V))). apply zeroed_tagged. Qed.
Lemma same_value : forall n s s', List.In (n, s) timer_values -> List.In (n, s') timer_values -> s = s'.
Proof.
  intros n s s' A B. destruct (interface_unique _ _ _ _ _ (if_timer n s A) (if_timer n s' B)) as [E _]. now injection E.
Qed.
Lemma block_shows : forall h mi var w, Forall (event_ok its) h -> clock_log 0 (map (as_call i its) h) ->
  mrun rp p m (map (as_call i its) h) = Ok mi -> shows (i_name i) h var w -> reads rp i mi var w.
Proof.
  intros h mi var w F C R S. assert (TO := tagged_out). clear TF. remember (i_name i) as n eqn:N.
  destruct S as [n t s h v U V K|n t h e v U K|n t s h v U V K|n t h e v U K|n t s h v U V K|n t h e v U K|n t h e v U K|h|h|h e|h e|n h e O|n s h e O V|n h e O|n s h e O V|n h e O K IN|n s h e O V K IN|n h e t O K|n s h e t O V K].
  - destruct (interface_unique _ _ _ _ _ IF (if_up n t s U V)) as [-> _]. rewrite N in U. destruct (up_state rp p m i Z0 t s h U V F) as (mi' & v' & R' & K' & T & A & _).
    rewrite R in R'. injection R' as <-. rewrite (up_unique _ _ _ K _ K'). now apply reads_whole.
  - destruct (counter_type n t (or_introl U)) as [s V]. destruct (interface_unique _ _ _ _ _ IF (if_up n t s U V)) as [-> _]. rewrite N in U. destruct (up_state rp p m i Z0 t s _ U V F) as (mi' & v' & R' & K' & T & A & B).
    rewrite R in R'. injection R' as <-. rewrite (up_unique _ _ _ K _ K'). apply reads_bool. exact (B h e eq_refl).
  - destruct (interface_unique _ _ _ _ _ IF (if_down n t s U V)) as [-> _]. rewrite N in U. destruct (down_state rp p m i Z0 t s h U V F) as (mi' & v' & R' & K' & T & A & _).
    rewrite R in R'. injection R' as <-. rewrite (down_unique _ _ _ K _ K'). now apply reads_whole.
  - destruct (counter_type n t (or_intror (or_introl U))) as [s V]. destruct (interface_unique _ _ _ _ _ IF (if_down n t s U V)) as [-> _]. rewrite N in U. destruct (down_state rp p m i Z0 t s _ U V F) as (mi' & v' & R' & K' & T & A & B).
    rewrite R in R'. injection R' as <-. rewrite (down_unique _ _ _ K _ K'). apply reads_bool. exact (B h e eq_refl).
  - destruct (interface_unique _ _ _ _ _ IF (if_up_down n t s U V)) as [-> _]. rewrite N in U. destruct (up_down_state rp p m i Z0 t s h U V F) as (mi' & v' & R' & K' & T & A & _).
    rewrite R in R'. injection R' as <-. rewrite (up_down_unique _ _ _ K _ K'). now apply reads_whole.
  - destruct (counter_type n t (or_intror (or_intror U))) as [s V]. destruct (interface_unique _ _ _ _ _ IF (if_up_down n t s U V)) as [-> _]. rewrite N in U. destruct (up_down_state rp p m i Z0 t s _ U V F) as (mi' & v' & R' & K' & T & A & B).
    rewrite R in R'. injection R' as <-. rewrite (up_down_unique _ _ _ K _ K'). apply reads_bool. exact (proj1 (B h e eq_refl)).
  - destruct (counter_type n t (or_intror (or_intror U))) as [s V]. destruct (interface_unique _ _ _ _ _ IF (if_up_down n t s U V)) as [-> _]. rewrite N in U. destruct (up_down_state rp p m i Z0 t s _ U V F) as (mi' & v' & R' & K' & T & A & B).
    rewrite R in R'. injection R' as <-. rewrite (up_down_unique _ _ _ K _ K'). apply reads_bool. exact (proj2 (B h e eq_refl)).
  - assert (U : List.In ("SR", SR, ("SET1", "RESET")) bistables) by (left; reflexivity). destruct (interface_unique _ _ _ _ _ IF (if_bistable _ _ _ _ U)) as [-> _]. rewrite N in U.
    destruct (bistable_state rp p m i Z0 _ _ _ h U F) as (mi' & R' & A). rewrite R in R'. injection R' as <-. apply reads_bool. rewrite A, <- N. destruct (last_such _ _) as [[a b]|]; reflexivity.
  - assert (U : List.In ("RS", RS, ("SET", "RESET1")) bistables) by (right; left; reflexivity). destruct (interface_unique _ _ _ _ _ IF (if_bistable _ _ _ _ U)) as [-> _]. rewrite N in U.
    destruct (bistable_state rp p m i Z0 _ _ _ h U F) as (mi' & R' & A). rewrite R in R'. injection R' as <-. apply reads_bool. rewrite A, <- N. destruct (last_such _ _) as [[a b]|]; reflexivity.
  - assert (U : List.In ("R_TRIG", R_TRIG) triggers) by (left; reflexivity). destruct (interface_unique _ _ _ _ _ IF (if_trigger _ _ U)) as [-> _]. rewrite N in U.
    destruct (trigger_state rp p m i Z0 _ _ U F) as (mi' & R' & A). rewrite R in R'. injection R' as <-. apply reads_bool. rewrite A, map_app. cbn [map]. now rewrite rising_last.
  - assert (U : List.In ("F_TRIG", F_TRIG) triggers) by (right; left; reflexivity). destruct (interface_unique _ _ _ _ _ IF (if_trigger _ _ U)) as [-> _]. rewrite N in U.
    destruct (trigger_state rp p m i Z0 _ _ U F) as (mi' & R' & A). rewrite R in R'. injection R' as <-. apply reads_bool. rewrite A, map_app. cbn [map]. now rewrite falling_last.
  - destruct (on_names n O) as [U [s V]]. destruct (interface_unique _ _ _ _ _ IF (if_timer n s V)) as [-> _]. pose proof (TO n s TON (map timed_input (h ++ [e])) eq_refl V) as G.
    pose proof (clocked i n s _ V F C) as CK. pose proof (preset_history n s _ V F) as PO. rewrite N in U, V. pose proof (timer_state rp p m i Z0 _ s _ U V F) as T. rewrite G in T. rewrite (map_app timed_input) in CK, PO, T. cbn [map] in CK, PO, T.
    assert (TL : timer_out TON (map timed_input h ++ [timed_input e]) = Ok (on_delay (map timed_input h) (timed_input e))) by exact (on_delay_out _ _ CK PO). rewrite TL in T. clear TL G.
    destruct (on_delay (map timed_input h) (timed_input e)) as [q et]. cbn [fst snd]. destruct T as (mi' & R' & A & B & D). rewrite R in R'. injection R' as <-. now apply reads_bool.
  - destruct (on_names n O) as [U _]. destruct (interface_unique _ _ _ _ _ IF (if_timer n s V)) as [-> _]. pose proof (TO n s TON (map timed_input (h ++ [e])) eq_refl V) as G.
    pose proof (clocked i n s _ V F C) as CK. pose proof (preset_history n s _ V F) as PO. rewrite N in U, V. pose proof (timer_state rp p m i Z0 _ s _ U V F) as T. rewrite G in T. rewrite (map_app timed_input) in CK, PO, T. cbn [map] in CK, PO, T.
    assert (TL : timer_out TON (map timed_input h ++ [timed_input e]) = Ok (on_delay (map timed_input h) (timed_input e))) by exact (on_delay_out _ _ CK PO). rewrite TL in T. clear TL G.
    destruct (on_delay (map timed_input h) (timed_input e)) as [q et]. cbn [fst snd]. destruct T as (mi' & R' & A & B & D). rewrite R in R'. injection R' as <-. now apply reads_whole.
  - destruct (off_names n O) as [U [s V]]. destruct (interface_unique _ _ _ _ _ IF (if_timer n s V)) as [-> _]. pose proof (TO n s TOF (map timed_input (h ++ [e])) eq_refl V) as G.
    pose proof (clocked i n s _ V F C) as CK. pose proof (preset_history n s _ V F) as PO. rewrite N in U, V. pose proof (timer_state rp p m i Z0 _ s _ U V F) as T. rewrite G in T. rewrite (map_app timed_input) in CK, PO, T. cbn [map] in CK, PO, T.
    assert (TL : timer_out TOF (map timed_input h ++ [timed_input e]) = Ok (off_delay (map timed_input h) (timed_input e))) by exact (off_delay_out _ _ CK PO). rewrite TL in T. clear TL G.
    destruct (off_delay (map timed_input h) (timed_input e)) as [q et]. cbn [fst snd]. destruct T as (mi' & R' & A & B & D). rewrite R in R'. injection R' as <-. now apply reads_bool.
  - destruct (off_names n O) as [U _]. destruct (interface_unique _ _ _ _ _ IF (if_timer n s V)) as [-> _]. pose proof (TO n s TOF (map timed_input (h ++ [e])) eq_refl V) as G.
    pose proof (clocked i n s _ V F C) as CK. pose proof (preset_history n s _ V F) as PO. rewrite N in U, V. pose proof (timer_state rp p m i Z0 _ s _ U V F) as T. rewrite G in T. rewrite (map_app timed_input) in CK, PO, T. cbn [map] in CK, PO, T.
    assert (TL : timer_out TOF (map timed_input h ++ [timed_input e]) = Ok (off_delay (map timed_input h) (timed_input e))) by exact (off_delay_out _ _ CK PO). rewrite TL in T. clear TL G.
    destruct (off_delay (map timed_input h) (timed_input e)) as [q et]. cbn [fst snd]. destruct T as (mi' & R' & A & B & D). rewrite R in R'. injection R' as <-. now apply reads_whole.
  - destruct (pulse_names n O) as [U [s V]]. destruct (interface_unique _ _ _ _ _ IF (if_timer n s V)) as [-> _]. pose proof (TO n s TP (map timed_input (h ++ [e])) eq_refl V) as G.
    pose proof (clocked i n s _ V F C) as CK. pose proof (preset_history n s _ V F) as PO. rewrite N in U, V. pose proof (timer_state rp p m i Z0 _ s _ U V F) as T. rewrite G in T. rewrite (map_app timed_input) in CK, PO, T. cbn [map] in CK, PO, T.
    assert (TL : timer_out TP (map timed_input h ++ [timed_input e]) = Ok (true, 0)) by exact (pulse_begins _ _ K IN CK PO). rewrite TL in T. clear TL G.
    destruct T as (mi' & R' & A & B & D). rewrite R in R'. injection R' as <-. exact (reads_bool rp i mi "Q" true A).
  - destruct (pulse_names n O) as [U _]. destruct (interface_unique _ _ _ _ _ IF (if_timer n s V)) as [-> _]. pose proof (TO n s TP (map timed_input (h ++ [e])) eq_refl V) as G.
    pose proof (clocked i n s _ V F C) as CK. pose proof (preset_history n s _ V F) as PO. rewrite N in U, V. pose proof (timer_state rp p m i Z0 _ s _ U V F) as T. rewrite G in T. rewrite (map_app timed_input) in CK, PO, T. cbn [map] in CK, PO, T.
    assert (TL : timer_out TP (map timed_input h ++ [timed_input e]) = Ok (true, 0)) by exact (pulse_begins _ _ K IN CK PO). rewrite TL in T. clear TL G.
    destruct T as (mi' & R' & A & B & D). rewrite R in R'. injection R' as <-. now apply reads_whole.
  - destruct (pulse_names n O) as [U [s V]]. destruct (interface_unique _ _ _ _ _ IF (if_timer n s V)) as [-> _]. pose proof (TO n s TP (map timed_input (h ++ [e])) eq_refl V) as G.
    pose proof (clocked i n s _ V F C) as CK. pose proof (preset_history n s _ V F) as PO. rewrite N in U, V. pose proof (timer_state rp p m i Z0 _ s _ U V F) as T. rewrite G in T. rewrite (map_app timed_input) in CK, PO, T. cbn [map] in CK, PO, T.
    assert (TL : timer_out TP (map timed_input h ++ [timed_input e]) = Ok (negb (expired (tc_pt (timed_input e)) (tc_t2 (timed_input e) - t)), if forgotten (map timed_input h) (timed_input e) t then 0 else Z.min (tc_pt (timed_input e)) (tc_t1 (timed_input e) - t))) by exact (pulse_goes _ _ t K CK PO). rewrite TL in T. clear TL G.
    destruct T as (mi' & R' & A & B & D). rewrite R in R'. injection R' as <-. now apply reads_bool.
  - destruct (pulse_names n O) as [U _]. destruct (interface_unique _ _ _ _ _ IF (if_timer n s V)) as [-> _]. pose proof (TO n s TP (map timed_input (h ++ [e])) eq_refl V) as G.
    pose proof (clocked i n s _ V F C) as CK. pose proof (preset_history n s _ V F) as PO. rewrite N in U, V. pose proof (timer_state rp p m i Z0 _ s _ U V F) as T. rewrite G in T. rewrite (map_app timed_input) in CK, PO, T. cbn [map] in CK, PO, T.
    assert (TL : timer_out TP (map timed_input h ++ [timed_input e]) = Ok (negb (expired (tc_pt (timed_input e)) (tc_t2 (timed_input e) - t)), if forgotten (map timed_input h) (timed_input e) t then 0 else Z.min (tc_pt (timed_input e)) (tc_t1 (timed_input e) - t))) by exact (pulse_goes _ _ t K CK PO). rewrite TL in T. clear TL G.
    destruct T as (mi' & R' & A & B & D). rewrite R in R'. injection R' as <-. now apply reads_whole.
Qed.
Lemma block_accepts : forall h, Forall (event_ok its) h -> clock_log 0 (map (as_call i its) h) -> accepts (i_name i) h ->
  exists mi, mrun rp p m (map (as_call i its) h) = Ok mi.
Proof.
  intros h F C A.
  assert (G : Forall (fun c => c_inst c = i /\ good its c) (map (as_call i its) h)).
  { apply (mapped_all _ _ _ _ _ _ F). intros e E. split; [reflexivity|]. exact (event_good i _ its ots e IF E). }
  pose proof (block_runs rp p m i its ots _ IF Z0 G) as B. destruct (mrun rp p m (map (as_call i its) h)) as [mi| |] eqn:R; [now exists mi| |contradiction].
  destruct (A B) as (o & PU). destruct (pulse_names _ B) as [U [s V]]. destruct (interface_unique _ _ _ _ _ IF (if_timer _ s V)) as [E _]. rewrite E in *.
  pose proof (timer_state rp p m i Z0 _ s _ U V F) as T. rewrite (tagged_out _ s _ _ eq_refl V) in T.
  destruct (pulse_state _ _ PU (clocked i _ s _ V F C) (preset_history _ s _ V F)) as (t & T1 & _). unfold timer_out in T. rewrite T1 in T. destruct T as (mi & X & _). congruence.
Qed.
End Block.
