(** C121: programs that assign expressions to variables and call instances of function blocks. *)
From Coq Require Import String ZArith List Bool Lia SpecFloat.
From Verif Require Import Base ModelFB ModelCounters ModelTimers ModelLayout ModelMachine ModelFloat ModelTimeNum ModelLink ModelLib ModelApi
  SpecFB SpecLayout SpecMachine SpecScalar SpecLink SpecLib SpecSafe SpecApi SpecCall SpecType SpecProgram
  ProofFB ProofLayout ProofSafe ProofSafe2 ProofApi3 ProofType ProofProgram ProofProgram2 ProofProgram3 ProofProgram4.
Import ListNotations.
Open Scope string_scope.
Open Scope list_scope.
Open Scope Z_scope.

(** A typed program keeps a value of its type in every variable, whatever it computes and whichever blocks it calls;
    it can only be stopped by a function or block listed as one that can abort or be undefined. *)
Theorem C121_goes_on : forall rp P insts r m qs, ready rp P insts r m qs ->
  match executes_all rp P r m qs with
  | Ok (r', m', log) => forall x t, variable r x t -> variable r' x t
  | Panic => exists q fs n, List.In q qs /\ proper (variable r) insts (fst q) fs /\ List.In n fs /\
      List.In n (pulses ++ aborting ++ can_abort (p_profile P))
  | Ub => exists q fs n, List.In q qs /\ proper (variable r) insts (fst q) fs /\ List.In n fs /\ List.In n undefined
  end.
Proof. exact program_goes_on. Qed.
Print Assumptions C121_goes_on.
(** A program that uses none of these runs for any number of cycles. *)
Theorem C121_cycles : forall rp P insts r m prog, sane P -> placed rp insts -> (forall i, List.In i insts -> zeroed rp m i) ->
  Forall (fun s => exists fs, proper (variable r) insts s fs /\
    forall n, List.In n fs -> ~ List.In n (pulses ++ aborting ++ can_abort (p_profile P) ++ undefined)) prog ->
  forall k qs, map fst qs = concat (repeat prog k) -> clock_runs 0 qs ->
  exists r' m' log, executes_all rp P r m qs = Ok (r', m', log) /\ forall x t, variable r x t -> variable r' x t.
Proof. exact program_cycles. Qed.
Print Assumptions C121_cycles.

(** What an instance does in a program depends only on the values that the expressions for its inputs had when it was called:
    it ends as if only its own calls had been made. *)
Theorem C121_instances : forall rp P insts r m qs r' m' log, ready rp P insts r m qs ->
  executes_all rp P r m qs = Ok (r', m', log) -> forall i, List.In i insts ->
  Forall (fun e => exists ins outs, List.In (Use i ins outs, (c_now1 (snd e), c_now2 (snd e))) qs /\
    inputs P (fst e) ins = Ok (c_inputs (snd e))) (made_to i log) /\
  exists mi, ModelMachine.run rp (p_profile P) m (map snd (made_to i log)) = Ok mi /\
    forall var, st_read rp m' i var = st_read rp mi i var.
Proof. exact instances. Qed.
Print Assumptions C121_instances.

(** An up counter in a program counts the rising edges of its CU expression, from call to call. *)
Theorem C121_up_counter : forall rp P insts r m qs r' m' log i t s a b c, ready rp P insts r m qs ->
  executes_all rp P r m qs = Ok (r', m', log) -> List.In i insts ->
  List.In (i_name i, t) up_counters -> List.In (s, t) counter_values -> always i [("CU", a); ("R", b); ("PV", c)] qs ->
  exists h, Forall2 (fun e x => is_bool P (fst e) a (cui_cu x) /\ is_bool P (fst e) b (cui_r x) /\
                                is_whole P (fst e) c s (cui_pv x)) (made_to i log) h /\
    (forall h1 h2, h = h1 ++ h2 -> ends_with (fun x => cui_r x = true) h1 -> Forall (fun x => cui_r x = false) h2 ->
       st_read rp m' i "CV" = Ok (VInt (Z.min (imax t) (rising_edges (ctu_level h1) (map cui_cu h2))))) /\
    (forall h0 x, h = h0 ++ [x] -> exists v, st_read rp m' i "CV" = Ok (VInt v) /\ st_read rp m' i "Q" = Ok (VBool (cui_pv x <=? v))).
Proof. exact up_seen. Qed.
Print Assumptions C121_up_counter.
(** A down counter counts those of its CD expression from the value it loaded last. *)
Theorem C121_down_counter : forall rp P insts r m qs r' m' log i t s a b c, ready rp P insts r m qs ->
  executes_all rp P r m qs = Ok (r', m', log) -> List.In i insts ->
  List.In (i_name i, t) down_counters -> List.In (s, t) counter_values -> always i [("CD", a); ("LD", b); ("PV", c)] qs ->
  exists h, Forall2 (fun e x => is_bool P (fst e) a (cdi_cd x) /\ is_bool P (fst e) b (cdi_ld x) /\
                                is_whole P (fst e) c s (cdi_pv x)) (made_to i log) h /\
    (forall h1 h2, h = h1 ++ h2 -> ends_with (fun x => cdi_ld x = true) h1 -> Forall (fun x => cdi_ld x = false) h2 ->
       st_read rp m' i "CV" = Ok (VInt (Z.max (imin t) (ctd_loaded h1 - rising_edges (ctd_level h1) (map cdi_cd h2))))) /\
    (h <> [] -> exists v, st_read rp m' i "CV" = Ok (VInt v) /\ st_read rp m' i "Q" = Ok (VBool (v <=? 0))).
Proof. exact down_seen. Qed.
Print Assumptions C121_down_counter.
(** R_TRIG reports that its CLK expression is TRUE and was FALSE at its call before. *)
Theorem C121_rising_edge : forall rp P insts r m qs r' m' log i a, ready rp P insts r m qs ->
  executes_all rp P r m qs = Ok (r', m', log) -> List.In i insts -> i_name i = "R_TRIG" -> always i [("CLK", a)] qs ->
  exists h, Forall2 (fun e x => is_bool P (fst e) a x) (made_to i log) h /\
    forall h0 x, h = h0 ++ [x] -> st_read rp m' i "Q" = Ok (VBool (x && negb (List.last h0 false))).
Proof. exact rising_seen. Qed.
Print Assumptions C121_rising_edge.
(** An SR keeps the set input of the last call in which one of its expressions was TRUE, an RS the reset input. *)
Theorem C121_bistable : forall rp P insts r m qs r' m' log i f va vb a b, ready rp P insts r m qs ->
  executes_all rp P r m qs = Ok (r', m', log) -> List.In i insts -> List.In (i_name i, f, (va, vb)) bistables ->
  always i [(va, a); (vb, b)] qs ->
  exists h, Forall2 (fun e x => is_bool P (fst e) a (fst x) /\ is_bool P (fst e) b (snd x)) (made_to i log) h /\
    st_read rp m' i "Q1" = Ok (VBool
      match last_such (fun x => fst x || snd x) h with
      | Some (s, k) => if String.eqb (i_name i) "SR" then s else negb k
      | None => false
      end).
Proof. exact bistable_seen. Qed.
Print Assumptions C121_bistable.
(** A timer measures with the clock readings of its own calls: Q and ET are those of the same calls made outside a program. *)
Theorem C121_timer : forall rp P insts r m qs r' m' log i f s a b, ready rp P insts r m qs ->
  executes_all rp P r m qs = Ok (r', m', log) -> List.In i insts ->
  List.In (i_name i, f) timers -> List.In (i_name i, s) timer_values -> always i [("IN", a); ("PT", b)] qs ->
  exists h, Forall2 (fun e x => is_bool P (fst e) a (tc_in x) /\ is_whole P (fst e) b s (tc_pt x) /\
      c_now1 (snd e) = tc_t1 x /\ c_now2 (snd e) = tc_t2 x) (made_to i log) h /\ SpecFB.clock_ok h /\
    exists q et, timer_out_zeroed rp f h = Ok (q, et) /\ st_read rp m' i "Q" = Ok (VBool q) /\ st_read rp m' i "ET" = Ok (VInt et).
Proof. exact timer_seen. Qed.
Print Assumptions C121_timer.
(** So TON turns on when its IN expression has been TRUE at its calls for longer than PT.  (Where zeroed memory is a fresh
    timer; C81.) *)
Theorem C121_on_delay : forall P insts r m qs r' m' log i s a b, ready Tagged P insts r m qs ->
  executes_all Tagged P r m qs = Ok (r', m', log) -> List.In i insts ->
  List.In (i_name i) ["TON"; "TON_TIME"; "TON_LTIME"] -> List.In (i_name i, s) timer_values -> always i [("IN", a); ("PT", b)] qs ->
  exists h, Forall2 (fun e x => is_bool P (fst e) a (tc_in x) /\ is_whole P (fst e) b s (tc_pt x) /\
      c_now1 (snd e) = tc_t1 x /\ c_now2 (snd e) = tc_t2 x) (made_to i log) h /\
    forall h0 c, h = h0 ++ [c] -> preset_ok h ->
      exists q et, st_read Tagged m' i "Q" = Ok (VBool q) /\ st_read Tagged m' i "ET" = Ok (VInt et) /\
      (q, et) = match suffix_while tc_in h with
                | [] => (false, 0)
                | [_] => (false, 0)
                | f :: _ => (tc_pt c <? tc_t2 c - tc_t1 f, Z.min (tc_pt c) (tc_t1 c - tc_t1 f))
                end.
Proof. exact delay_seen. Qed.
Print Assumptions C121_on_delay.
(** An up-down counter adds the rising edges of its CU expression and subtracts those of its CD expression. *)
Theorem C121_up_down_counter : forall rp P insts r m qs r' m' log i t s a b c d e, ready rp P insts r m qs -> executes_all rp P r m qs = Ok (r', m', log) ->
  List.In i insts -> List.In (i_name i, t) up_down_counters -> List.In (s, t) counter_values ->
  always i [("CU", a); ("CD", b); ("R", c); ("LD", d); ("PV", e)] qs ->
  exists h, Forall2 (fun k x => is_bool P (fst k) a (cudi_cu x) /\ is_bool P (fst k) b (cudi_cd x) /\ is_bool P (fst k) c (cudi_r x) /\
      is_bool P (fst k) d (cudi_ld x) /\ is_whole P (fst k) e s (cudi_pv x)) (made_to i log) h /\
    exists v, up_down_count t h v /\ st_read rp m' i "CV" = Ok (VInt v) /\
      forall h0 x, h = h0 ++ [x] -> st_read rp m' i "QU" = Ok (VBool (cudi_pv x <=? v)) /\ st_read rp m' i "QD" = Ok (VBool (v <=? 0)).
Proof. exact up_down_seen. Qed.
Print Assumptions C121_up_down_counter.
(** F_TRIG reports that its CLK expression is FALSE and was TRUE at its call before. *)
Theorem C121_falling_edge : forall rp P insts r m qs r' m' log i a, ready rp P insts r m qs -> executes_all rp P r m qs = Ok (r', m', log) ->
  List.In i insts -> i_name i = "F_TRIG" -> always i [("CLK", a)] qs ->
  exists h, Forall2 (fun e x => is_bool P (fst e) a x) (made_to i log) h /\
    forall h0 x, h = h0 ++ [x] -> st_read rp m' i "Q" = Ok (VBool (negb x && List.last h0 false)).
Proof. exact falling_seen. Qed.
Print Assumptions C121_falling_edge.
(** TOF stays on until its IN expression has been FALSE at its calls for longer than PT. *)
Theorem C121_off_delay : forall P insts r m qs r' m' log i s a b, ready Tagged P insts r m qs ->
  executes_all Tagged P r m qs = Ok (r', m', log) -> List.In i insts ->
  List.In (i_name i) ["TOF"; "TOF_TIME"; "TOF_LTIME"] -> List.In (i_name i, s) timer_values -> always i [("IN", a); ("PT", b)] qs ->
  exists h, Forall2 (fun e x => is_bool P (fst e) a (tc_in x) /\ is_whole P (fst e) b s (tc_pt x) /\
      c_now1 (snd e) = tc_t1 x /\ c_now2 (snd e) = tc_t2 x) (made_to i log) h /\
    forall h0 c, h = h0 ++ [c] -> preset_ok h ->
      exists q et, st_read Tagged m' i "Q" = Ok (VBool q) /\ st_read Tagged m' i "ET" = Ok (VInt et) /\
      (q, et) = if tc_in c then (true, 0)
                else if existsb tc_in h0 then
                  match suffix_while (fun d => negb (tc_in d)) h with
                  | [] => (true, 0)
                  | [_] => (true, 0)
                  | f :: _ => (tc_t2 c - tc_t1 f <=? tc_pt c, Z.min (tc_pt c) (tc_t1 c - tc_t1 f))
                  end
                else (false, 0).
Proof. exact off_delay_seen. Qed.
Print Assumptions C121_off_delay.
(** TP called first with IN FALSE stops the program (C12); the pulse of a first call lasts PT, whatever IN is then. *)
Theorem C121_pulse : forall P insts r m qs r' m' log i s a b, ready Tagged P insts r m qs ->
  executes_all Tagged P r m qs = Ok (r', m', log) -> List.In i insts ->
  List.In (i_name i) pulses -> List.In (i_name i, s) timer_values -> always i [("IN", a); ("PT", b)] qs ->
  exists h, Forall2 (fun e x => is_bool P (fst e) a (tc_in x) /\ is_whole P (fst e) b s (tc_pt x) /\
      c_now1 (snd e) = tc_t1 x /\ c_now2 (snd e) = tc_t2 x) (made_to i log) h /\
    forall f mid c pt, h = f :: mid ++ [c] -> constant_pt pt h -> 0 <= pt < 2 ^ 63 ->
      Forall (fun d => tc_t2 d <= tc_t1 f + pt) mid ->
      tc_in f = true /\ st_read Tagged m' i "Q" = Ok (VBool (tc_t2 c <=? tc_t1 f + pt)).
Proof. exact pulse_seen. Qed.
Print Assumptions C121_pulse.

(** * The hypotheses are met *)
(** Each cycle exchanges [a] and [b], counts the rising edges of [a] up to MAX(limit, count) and starts a timer when
    the limit is reached. *)
Definition vars1 : env value :=
  [("a", (S_BOOL, VZ 0)); ("b", (S_BOOL, VZ 1)); ("c", (S_BOOL, VZ 0)); ("reset", (S_BOOL, VZ 0)); ("done", (S_BOOL, VZ 0)); ("late", (S_BOOL, VZ 0));
   ("limit", (S_INT, VZ 2)); ("count", (S_INT, VZ 0)); ("delay", (S_TIME, VZ 10))].
Definition counter1 : instance := ModelMachine.Inst "CTU_INT" 1000.
Definition timer1 : instance := ModelMachine.Inst "TON" 1016.
Definition edge1 : instance := ModelMachine.Inst "R_TRIG" 1096.
Definition latch1 : instance := ModelMachine.Inst "SR" 1100.
Definition counter2 : instance := ModelMachine.Inst "CTD_INT" 1104.
Definition insts1 : list instance := [counter1; timer1; edge1; latch1; counter2].
Definition largest : expr := Call "MAX" [Arg "limit"; Arg "count"].
Definition cycle1 : list statement :=
  [Let "c" (Arg "a"); Let "a" (Arg "b"); Let "b" (Arg "c");
   Use counter1 [("CU", Arg "a"); ("R", Arg "reset"); ("PV", largest)] [("done", "Q"); ("count", "CV")];
   Use timer1 [("IN", Arg "done"); ("PT", Arg "delay")] [("late", "Q")];
   Use edge1 [("CLK", Arg "done")] [("c", "Q")];
   Use latch1 [("SET1", Arg "c"); ("RESET", Arg "late")] [];
   Use counter2 [("CD", Arg "a"); ("LD", Arg "reset"); ("PV", Arg "limit")] [("c", "Q")]].
Definition times (k : nat) : list (statement * (Z * Z)) :=
  concat (map (fun i => map (fun s => (s, (1000 + 7 * Z.of_nat i, 1000 + 7 * Z.of_nat i))) cycle1) (seq 0 k)).
Ltac here := eexists; split; [reflexivity|vm_compute; intuition discriminate].
Ltac var := constructor; here.
Ltac vars := repeat (apply (hts_cons _ _ _ _ _ [] []); [var|]); constructor.
Example C121_case_proper : Forall (fun s => exists fs, proper (variable vars1) insts1 s fs /\
    forall n, List.In n fs -> ~ List.In n (pulses ++ aborting ++ can_abort Debug ++ undefined)) cycle1.
Proof.
  assert (SAFE : forall fs, forallb (fun n => negb (mem n (pulses ++ aborting ++ can_abort Debug ++ undefined))) fs = true ->
    forall n, List.In n fs -> ~ List.In n (pulses ++ aborting ++ can_abort Debug ++ undefined)).
  { intros fs F n I M. rewrite forallb_forall in F. specialize (F n I). rewrite (In_mem n _ M) in F. discriminate F. }
  repeat apply Forall_cons; try apply Forall_nil.
  1-3: exists []; (split; [apply (pr_let _ _ _ _ S_BOOL S_BOOL); [here|var|now left]|intros n []]).
  - exists ["CTU_INT"; "MAX__INT"]. split; [|apply SAFE; vm_compute; reflexivity].
    apply (pr_use _ _ counter1 _ _ [("CU", S_BOOL); ("R", S_BOOL); ("PV", S_INT)] [("Q", S_BOOL); ("CV", S_INT)]); [cbn; tauto|apply (if_up _ i16); cbn; tauto|reflexivity| |].
    + cbn [map snd]. apply (hts_cons _ _ _ _ _ [] ["MAX__INT"]); [var|]. apply (hts_cons _ _ _ _ _ [] ["MAX__INT"]); [var|].
      apply (hts_cons _ _ _ _ _ ["MAX__INT"] []); [|constructor].
      apply (ht_extreme _ "MAX" _ _ S_INT 2%nat []); [now left|vm_compute; tauto|split; discriminate|]. vars.
    + repeat apply Forall_cons; [exists S_BOOL|exists S_INT|apply Forall_nil]; (split; [cbn; tauto|here]).
  - exists ["TON"]. split; [|apply SAFE; vm_compute; reflexivity].
    apply (pr_use _ _ timer1 _ _ [("IN", S_BOOL); ("PT", S_TIME)] [("Q", S_BOOL); ("ET", S_TIME)]); [cbn; tauto|apply if_timer; cbn; tauto|reflexivity|cbn [map snd]; vars|].
    repeat apply Forall_cons; [exists S_BOOL|apply Forall_nil]; (split; [cbn; tauto|here]).
  - exists ["R_TRIG"]. split; [|apply SAFE; vm_compute; reflexivity].
    apply (pr_use _ _ edge1 _ _ [("CLK", S_BOOL)] [("Q", S_BOOL)]); [cbn; tauto|apply (if_trigger _ R_TRIG); cbn; tauto|reflexivity|cbn [map snd]; vars|].
    repeat apply Forall_cons; [exists S_BOOL|apply Forall_nil]; (split; [cbn; tauto|here]).
  - exists ["SR"]. split; [|apply SAFE; vm_compute; reflexivity].
    apply (pr_use _ _ latch1 _ _ [("SET1", S_BOOL); ("RESET", S_BOOL)] [("Q1", S_BOOL)]); [cbn; tauto|apply (if_bistable _ SR); cbn; tauto|reflexivity|cbn [map snd]; vars|constructor].
  - exists ["CTD_INT"]. split; [|apply SAFE; vm_compute; reflexivity].
    apply (pr_use _ _ counter2 _ _ [("CD", S_BOOL); ("LD", S_BOOL); ("PV", S_INT)] [("Q", S_BOOL); ("CV", S_INT)]); [cbn; tauto|apply (if_down _ i16); cbn; tauto|reflexivity|cbn [map snd]; vars|].
    repeat apply Forall_cons; [exists S_BOOL|apply Forall_nil]; (split; [cbn; tauto|here]).
Qed.
Example C121_case_placed : placed Tagged insts1 /\ (forall i, List.In i insts1 -> zeroed Tagged (fun _ => 0) i).
Proof.
  split; [|intros i _ a _; reflexivity]. split.
  - intros i H. cbn in H. destruct H as [<-|[<-|[<-|[<-|[<-|[]]]]]]; vm_compute; discriminate.
  - assert (S1 : size_of Tagged counter1 = 10) by (vm_compute; reflexivity). assert (S2 : size_of Tagged timer1 = 64) by (vm_compute; reflexivity).
    assert (S3 : size_of Tagged edge1 = 3) by (vm_compute; reflexivity). assert (S4 : size_of Tagged latch1 = 3) by (vm_compute; reflexivity).
    assert (S5 : size_of Tagged counter2 = 10) by (vm_compute; reflexivity).
    intros i j a I J. unfold occupies. cbn [List.In insts1] in I, J.
    destruct I as [<-|[<-|[<-|[<-|[<-|[]]]]]], J as [<-|[<-|[<-|[<-|[<-|[]]]]]]; trivial; rewrite ?S1, ?S2, ?S3, ?S4, ?S5; cbn [i_base counter1 timer1 edge1 latch1 counter2]; lia.
Qed.
Example C121_case_ready : ready Tagged (a_platform Debug) insts1 vars1 (fun _ => 0) (times 6).
Proof.
  split; [apply a_platform_sane|]. split; [exact (proj1 C121_case_placed)|]. split; [exact (proj2 C121_case_placed)|]. split.
  - vm_compute. intuition discriminate.
  - apply Forall_forall. intros q H. pose proof C121_case_proper as F. rewrite Forall_forall in F. destruct (F (fst q)) as (fs & A & _); [|now exists fs].
    unfold times in H. apply in_concat in H. destruct H as (l & L & H). apply in_map_iff in L. destruct L as (i & <- & _).
    apply in_map_iff in H. destruct H as (s & <- & H). exact H.
Qed.
(** After six cycles: three rising edges of [a]; the limit was reached at the third cycle, at 1014, and 10 ns have passed. *)
Example C121_case_runs : omap (fun '(r, m, log) => (map (fun x => get x r) ["count"; "done"; "late"], st_read Tagged m timer1 "ET", st_read Tagged m latch1 "Q1", st_read Tagged m counter2 "CV", length log))
    (executes_all Tagged (a_platform Debug) vars1 (fun _ => 0) (times 6)) =
  Ok ([Ok (S_INT, VZ 3); Ok (S_BOOL, VZ 1); Ok (S_BOOL, VZ 1)], Ok (VInt 10), Ok (VBool false), Ok (VInt (-3)), 30%nat).
Proof. vm_compute. reflexivity. Qed.
Example C121_case_always : always counter1 [("CU", Arg "a"); ("R", Arg "reset"); ("PV", largest)] (times 6) /\
  always timer1 [("IN", Arg "done"); ("PT", Arg "delay")] (times 6) /\ always edge1 [("CLK", Arg "done")] (times 6) /\
  always latch1 [("SET1", Arg "c"); ("RESET", Arg "late")] (times 6) /\
  always counter2 [("CD", Arg "a"); ("LD", Arg "reset"); ("PV", Arg "limit")] (times 6).
Proof.
  assert (A : forall i ins outs k, List.In (Use i ins outs, k) (times 6) -> List.In (Use i ins outs) cycle1).
  { intros i ins outs k H. unfold times in H. apply in_concat in H. destruct H as (l & L & H). apply in_map_iff in L. destruct L as (n & <- & _).
    apply in_map_iff in H. destruct H as (s & E & H). injection E as -> _. exact H. }
  repeat split; intros ins outs k H; apply A in H; try tauto; cbn in H; repeat (destruct H as [H|H]; [try discriminate H; injection H as H; congruence|]); contradiction.
Qed.

(** A second program, with the other blocks. *)
Definition counter3 : instance := ModelMachine.Inst "CTUD_DINT" 2000.
Definition timer2 : instance := ModelMachine.Inst "TOF_TIME" 2032.
Definition edge2 : instance := ModelMachine.Inst "F_TRIG" 2112.
Definition timer3 : instance := ModelMachine.Inst "TP_TIME" 2120.
Definition insts2 : list instance := [counter3; timer2; edge2; timer3].
Definition vars2 : env value :=
  [("a", (S_BOOL, VZ 0)); ("b", (S_BOOL, VZ 1)); ("c", (S_BOOL, VZ 0)); ("no", (S_BOOL, VZ 0)); ("fell", (S_BOOL, VZ 0));
   ("on", (S_BOOL, VZ 0)); ("limit", (S_DINT, VZ 2)); ("count", (S_DINT, VZ 0)); ("delay", (S_TIME, VZ 10))].
Definition cycle2 : list statement :=
  [Let "c" (Arg "a"); Let "a" (Arg "b"); Let "b" (Arg "c");
   Use edge2 [("CLK", Arg "a")] [("fell", "Q")];
   Use timer2 [("IN", Arg "fell"); ("PT", Arg "delay")] [("on", "Q")];
   Use counter3 [("CU", Arg "a"); ("CD", Arg "on"); ("R", Arg "no"); ("LD", Arg "no"); ("PV", Arg "limit")] [("count", "CV")];
   Use timer3 [("IN", Arg "a"); ("PT", Arg "delay")] [("c", "Q")]].
Definition times2 (k : nat) : list (statement * (Z * Z)) :=
  concat (map (fun i => map (fun s => (s, (1000 + 7 * Z.of_nat i, 1000 + 7 * Z.of_nat i))) cycle2) (seq 0 k)).
Example C121_case2_ready : ready Tagged (a_platform Debug) insts2 vars2 (fun _ => 0) (times2 3).
Proof.
  split; [apply a_platform_sane|]. split.
  { split.
    - intros i H. cbn in H. destruct H as [<-|[<-|[<-|[<-|[]]]]]; vm_compute; discriminate.
    - assert (S1 : size_of Tagged counter3 = 20) by (vm_compute; reflexivity). assert (S2 : size_of Tagged timer2 = 64) by (vm_compute; reflexivity).
      assert (S3 : size_of Tagged edge2 = 3) by (vm_compute; reflexivity). assert (S4 : size_of Tagged timer3 = 64) by (vm_compute; reflexivity).
      intros i j a I J. unfold occupies. cbn [List.In insts2] in I, J.
      destruct I as [<-|[<-|[<-|[<-|[]]]]], J as [<-|[<-|[<-|[<-|[]]]]]; trivial; rewrite ?S1, ?S2, ?S3, ?S4; cbn [i_base counter3 timer2 edge2 timer3]; lia. }
  split; [intros i _ a _; reflexivity|]. split; [vm_compute; intuition discriminate|].
  assert (F : Forall (fun s => exists fs, proper (variable vars2) insts2 s fs) cycle2).
  { repeat apply Forall_cons; try apply Forall_nil.
    1-3: exists []; apply (pr_let _ _ _ _ S_BOOL S_BOOL); [here|var|now left].
    - exists ["F_TRIG"]. apply (pr_use _ _ edge2 _ _ [("CLK", S_BOOL)] [("Q", S_BOOL)]); [cbn; tauto|apply (if_trigger _ F_TRIG); cbn; tauto|reflexivity|cbn [map snd]; vars|].
      repeat apply Forall_cons; [exists S_BOOL|apply Forall_nil]; (split; [cbn; tauto|here]).
    - exists ["TOF_TIME"]. apply (pr_use _ _ timer2 _ _ [("IN", S_BOOL); ("PT", S_TIME)] [("Q", S_BOOL); ("ET", S_TIME)]); [cbn; tauto|apply if_timer; cbn; tauto|reflexivity|cbn [map snd]; vars|].
      repeat apply Forall_cons; [exists S_BOOL|apply Forall_nil]; (split; [cbn; tauto|here]).
    - exists ["CTUD_DINT"]. apply (pr_use _ _ counter3 _ _ [("CU", S_BOOL); ("CD", S_BOOL); ("R", S_BOOL); ("LD", S_BOOL); ("PV", S_DINT)] [("QU", S_BOOL); ("QD", S_BOOL); ("CV", S_DINT)]);
        [cbn; tauto|apply (if_up_down _ i32); cbn; tauto|reflexivity|cbn [map snd]; vars|].
      repeat apply Forall_cons; [exists S_DINT|apply Forall_nil]; (split; [cbn; tauto|here]).
    - exists ["TP_TIME"]. apply (pr_use _ _ timer3 _ _ [("IN", S_BOOL); ("PT", S_TIME)] [("Q", S_BOOL); ("ET", S_TIME)]); [cbn; tauto|apply if_timer; cbn; tauto|reflexivity|cbn [map snd]; vars|].
      repeat apply Forall_cons; [exists S_BOOL|apply Forall_nil]; (split; [cbn; tauto|here]). }
  apply Forall_forall. intros q H. rewrite Forall_forall in F. apply (F (fst q)).
  unfold times2 in H. apply in_concat in H. destruct H as (l & L & H). apply in_map_iff in L. destruct L as (i & <- & _).
  apply in_map_iff in H. destruct H as (s & <- & H). exact H.
Qed.
(** [a] rises, falls at 1007 and rises again: the off-delay is on since the second cycle, the pulse begun at 1000 ended. *)
Example C121_case2_runs : omap (fun '(r, m, log) => (map (fun x => get x r) ["a"; "on"; "count"; "c"], st_read Tagged m timer2 "ET", st_read Tagged m edge2 "Q", length log))
    (executes_all Tagged (a_platform Debug) vars2 (fun _ => 0) (times2 3)) =
  Ok ([Ok (S_BOOL, VZ 1); Ok (S_BOOL, VZ 1); Ok (S_DINT, VZ 1); Ok (S_BOOL, VZ 0)], Ok (VInt 0), Ok (VBool false), 12%nat).
Proof. vm_compute. reflexivity. Qed.
(** A statement that takes a date apart: 2024-02-29 is the day of 1709164800 seconds after the epoch. *)
Definition vars3 : env value := [("day", (S_DATE, VZ (1709164800 * 10 ^ 9))); ("y", (S_UINT, VZ 0)); ("m", (S_UINT, VZ 0)); ("d", (S_UINT, VZ 0))].
Definition split3 : statement := Split "SPLIT_DATE" "day" ["y"; "m"; "d"].
Example C121_case_split : ready Tagged (a_platform Debug) [] vars3 (fun _ => 0) [(split3, (1, 1))] /\
  omap (fun '(r, _, _) => map (fun x => get x r) ["y"; "m"; "d"]) (executes_all Tagged (a_platform Debug) vars3 (fun _ => 0) [(split3, (1, 1))]) =
    Ok [Ok (S_UINT, VZ 2024); Ok (S_UINT, VZ 2); Ok (S_UINT, VZ 29)].
Proof.
  split; [|vm_compute; reflexivity]. split; [apply a_platform_sane|]. split; [split; [intros i []|intros i j a []]|].
  split; [intros i []|]. split; [vm_compute; intuition discriminate|]. apply Forall_cons; [|apply Forall_nil].
  exists ["SPLIT_DATE__UINT"]. apply (pr_split _ _ "SPLIT_DATE" "day" ["y"; "m"; "d"] S_DATE S_UINT); [now left|here|cbn; tauto| |repeat (apply Forall_cons; [here|]); apply Forall_nil].
  repeat constructor; cbn; intuition discriminate.
Qed.
