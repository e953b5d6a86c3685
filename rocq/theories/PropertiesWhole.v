(** C123: programs that mix numbers, dates, texts and function blocks. *)
From Coq Require Import String ZArith List Bool Lia SpecFloat.
From Verif Require Import Base ModelFB ModelCounters ModelTimers ModelLayout ModelMachine ModelFloat ModelText ModelString ModelExtra ModelTimeNum ModelLink ModelLib ModelApi
  SpecFB SpecLayout SpecMachine SpecScalar SpecText SpecLink SpecLib SpecWrap SpecConv SpecSafe SpecApi SpecCall SpecTerm SpecType SpecProgram SpecSize SpecWhole
  ProofFB ProofLayout ProofSafe ProofSafe2 ProofApi3 ProofType ProofProgram ProofProgram2 ProofProgram3 ProofProgram4 ProofWhole2 ProofWhole3.
Import ListNotations.
Open Scope string_scope.
Open Scope list_scope.
Open Scope Z_scope.
Local Opaque ModelApi.call value_in api.

(** An expression of functions of numbers, dates and texts, nested in any way, has a value as the rules of SpecWhole.v
    describe it: of its type, or a text within its bound.  Only a function listed as one that aborts or is undefined can
    keep it from having one. *)
Theorem C123_value : forall P G r e s fs, sane P -> as_known G r -> makes (p_profile P) G e s fs ->
  match value_in P r e with
  | Ok tv => is_known s tv
  | Panic => exists n, List.In n fs /\ List.In n (stoppers (p_profile P))
  | Ub => exists n, List.In n fs /\ List.In n undefined
  end.
Proof. intros P G r e s fs SP D. exact (proj1 (values_makes P G r SP D) e s fs). Qed.
Print Assumptions C123_value.
(** A sound program keeps what is known of its variables, whatever it computes and whichever blocks it calls; if it is
    stopped, then by a statement that calls a function or block listed. *)
Theorem C123_goes_on : forall rp P G insts r m qs, prepared rp P G insts r m qs ->
  match executes_all rp P r m qs with
  | Ok (r', m', log) => as_known G r'
  | Panic => exists q, List.In q qs /\ forall fs, sound (p_profile P) G insts (fst q) fs -> exists n, List.In n fs /\ List.In n (stoppers (p_profile P))
  | Ub => exists q, List.In q qs /\ forall fs, sound (p_profile P) G insts (fst q) fs -> exists n, List.In n fs /\ List.In n undefined
  end.
Proof. exact whole_goes_on. Qed.
Print Assumptions C123_goes_on.
(** A sound program that calls none of these runs for any number of cycles. *)
Theorem C123_cycles : forall rp P G insts r m prog, sane P -> placed rp insts -> (forall i, List.In i insts -> zeroed rp m i) -> as_known G r ->
  Forall (fun s => exists fs, sound (p_profile P) G insts s fs /\ forall n, List.In n fs -> ~ List.In n (stoppers (p_profile P) ++ undefined)) prog ->
  forall k qs, map fst qs = concat (repeat prog k) -> clock_runs 0 qs ->
  exists r' m' log, executes_all rp P r m qs = Ok (r', m', log) /\ as_known G r'.
Proof. exact whole_cycles. Qed.
Print Assumptions C123_cycles.
(** What an instance does depends only on the values that the expressions for its inputs had when it was called. *)
Theorem C123_instances : forall rp P G insts r m qs r' m' log, prepared rp P G insts r m qs ->
  executes_all rp P r m qs = Ok (r', m', log) -> forall i, List.In i insts ->
  Forall (fun e => exists ins outs, List.In (Use i ins outs, (c_now1 (snd e), c_now2 (snd e))) qs /\
    inputs P (fst e) ins = Ok (c_inputs (snd e))) (made_to i log) /\
  exists mi, ModelMachine.run rp (p_profile P) m (map snd (made_to i log)) = Ok mi /\
    forall var, st_read rp m' i var = st_read rp mi i var.
Proof. exact whole_instances. Qed.
Print Assumptions C123_instances.

(** So the blocks behave as C121 states, when their inputs are computed from texts too: counters. *)
Theorem C123_up_counter : forall rp P G insts r m qs r' m' log i t s a b c, prepared rp P G insts r m qs ->
  executes_all rp P r m qs = Ok (r', m', log) -> List.In i insts ->
  List.In (i_name i, t) up_counters -> List.In (s, t) counter_values -> always i [("CU", a); ("R", b); ("PV", c)] qs ->
  exists h, Forall2 (fun e x => is_bool P (fst e) a (cui_cu x) /\ is_bool P (fst e) b (cui_r x) /\
                                is_whole P (fst e) c s (cui_pv x)) (made_to i log) h /\
    (forall h1 h2, h = h1 ++ h2 -> ends_with (fun x => cui_r x = true) h1 -> Forall (fun x => cui_r x = false) h2 ->
       st_read rp m' i "CV" = Ok (VInt (Z.min (imax t) (rising_edges (ctu_level h1) (map cui_cu h2))))) /\
    (forall h0 x, h = h0 ++ [x] -> exists v, st_read rp m' i "CV" = Ok (VInt v) /\ st_read rp m' i "Q" = Ok (VBool (cui_pv x <=? v))).
Proof. exact whole_up. Qed.
Print Assumptions C123_up_counter.
Theorem C123_down_counter : forall rp P G insts r m qs r' m' log i t s a b c, prepared rp P G insts r m qs ->
  executes_all rp P r m qs = Ok (r', m', log) -> List.In i insts ->
  List.In (i_name i, t) down_counters -> List.In (s, t) counter_values -> always i [("CD", a); ("LD", b); ("PV", c)] qs ->
  exists h, Forall2 (fun e x => is_bool P (fst e) a (cdi_cd x) /\ is_bool P (fst e) b (cdi_ld x) /\
                                is_whole P (fst e) c s (cdi_pv x)) (made_to i log) h /\
    (forall h1 h2, h = h1 ++ h2 -> ends_with (fun x => cdi_ld x = true) h1 -> Forall (fun x => cdi_ld x = false) h2 ->
       st_read rp m' i "CV" = Ok (VInt (Z.max (imin t) (ctd_loaded h1 - rising_edges (ctd_level h1) (map cdi_cd h2))))) /\
    (h <> [] -> exists v, st_read rp m' i "CV" = Ok (VInt v) /\ st_read rp m' i "Q" = Ok (VBool (v <=? 0))).
Proof. exact whole_down. Qed.
Print Assumptions C123_down_counter.
Theorem C123_up_down_counter : forall rp P G insts r m qs r' m' log i t s a b c d e, prepared rp P G insts r m qs -> executes_all rp P r m qs = Ok (r', m', log) ->
  List.In i insts -> List.In (i_name i, t) up_down_counters -> List.In (s, t) counter_values ->
  always i [("CU", a); ("CD", b); ("R", c); ("LD", d); ("PV", e)] qs ->
  exists h, Forall2 (fun k x => is_bool P (fst k) a (cudi_cu x) /\ is_bool P (fst k) b (cudi_cd x) /\ is_bool P (fst k) c (cudi_r x) /\
      is_bool P (fst k) d (cudi_ld x) /\ is_whole P (fst k) e s (cudi_pv x)) (made_to i log) h /\
    exists v, up_down_count t h v /\ st_read rp m' i "CV" = Ok (VInt v) /\
      forall h0 x, h = h0 ++ [x] -> st_read rp m' i "QU" = Ok (VBool (cudi_pv x <=? v)) /\ st_read rp m' i "QD" = Ok (VBool (v <=? 0)).
Proof. exact whole_up_down. Qed.
Print Assumptions C123_up_down_counter.
(** Edges. *)
Theorem C123_rising_edge : forall rp P G insts r m qs r' m' log i a, prepared rp P G insts r m qs ->
  executes_all rp P r m qs = Ok (r', m', log) -> List.In i insts -> i_name i = "R_TRIG" -> always i [("CLK", a)] qs ->
  exists h, Forall2 (fun e x => is_bool P (fst e) a x) (made_to i log) h /\
    forall h0 x, h = h0 ++ [x] -> st_read rp m' i "Q" = Ok (VBool (x && negb (List.last h0 false))).
Proof. exact whole_rising. Qed.
Print Assumptions C123_rising_edge.
Theorem C123_falling_edge : forall rp P G insts r m qs r' m' log i a, prepared rp P G insts r m qs -> executes_all rp P r m qs = Ok (r', m', log) ->
  List.In i insts -> i_name i = "F_TRIG" -> always i [("CLK", a)] qs ->
  exists h, Forall2 (fun e x => is_bool P (fst e) a x) (made_to i log) h /\
    forall h0 x, h = h0 ++ [x] -> st_read rp m' i "Q" = Ok (VBool (negb x && List.last h0 false)).
Proof. exact whole_falling. Qed.
Print Assumptions C123_falling_edge.
(** Bistables. *)
Theorem C123_bistable : forall rp P G insts r m qs r' m' log i f va vb a b, prepared rp P G insts r m qs ->
  executes_all rp P r m qs = Ok (r', m', log) -> List.In i insts -> List.In (i_name i, f, (va, vb)) bistables ->
  always i [(va, a); (vb, b)] qs ->
  exists h, Forall2 (fun e x => is_bool P (fst e) a (fst x) /\ is_bool P (fst e) b (snd x)) (made_to i log) h /\
    st_read rp m' i "Q1" = Ok (VBool
      match last_such (fun x => fst x || snd x) h with
      | Some (s, k) => if String.eqb (i_name i) "SR" then s else negb k
      | None => false
      end).
Proof. exact whole_bistable. Qed.
Print Assumptions C123_bistable.
(** Timers. *)
Theorem C123_timer : forall rp P G insts r m qs r' m' log i f s a b, prepared rp P G insts r m qs ->
  executes_all rp P r m qs = Ok (r', m', log) -> List.In i insts ->
  List.In (i_name i, f) timers -> List.In (i_name i, s) timer_values -> always i [("IN", a); ("PT", b)] qs ->
  exists h, Forall2 (fun e x => is_bool P (fst e) a (tc_in x) /\ is_whole P (fst e) b s (tc_pt x) /\
      c_now1 (snd e) = tc_t1 x /\ c_now2 (snd e) = tc_t2 x) (made_to i log) h /\ SpecFB.clock_ok h /\
    exists q et, timer_out_zeroed rp f h = Ok (q, et) /\ st_read rp m' i "Q" = Ok (VBool q) /\ st_read rp m' i "ET" = Ok (VInt et).
Proof. exact whole_timer. Qed.
Print Assumptions C123_timer.
Theorem C123_on_delay : forall P G insts r m qs r' m' log i s a b, prepared Tagged P G insts r m qs ->
  executes_all Tagged P r m qs = Ok (r', m', log) -> List.In i insts ->
  List.In (i_name i) ["TON"; "TON_TIME"; "TON_LTIME"] -> List.In (i_name i, s) timer_values -> always i [("IN", a); ("PT", b)] qs ->
  exists h, Forall2 (fun e x => is_bool P (fst e) a (tc_in x) /\ is_whole P (fst e) b s (tc_pt x) /\
      c_now1 (snd e) = tc_t1 x /\ c_now2 (snd e) = tc_t2 x) (made_to i log) h /\
    forall h0 c, h = h0 ++ [c] -> preset_ok h ->
      exists q et, st_read Tagged m' i "Q" = Ok (VBool q) /\ st_read Tagged m' i "ET" = Ok (VInt et) /\
      (q, et) = match suffix_while tc_in h with
                | [] => (false, 0)
                | [_] => (false, 0)
                | f :: _ => (tc_pt c <? tc_t2 c - tc_t1 f, Z.min (tc_pt c) (tc_t1 c - tc_t1 f))
                end.
Proof. exact whole_delay. Qed.
Print Assumptions C123_on_delay.
Theorem C123_off_delay : forall P G insts r m qs r' m' log i s a b, prepared Tagged P G insts r m qs ->
  executes_all Tagged P r m qs = Ok (r', m', log) -> List.In i insts ->
  List.In (i_name i) ["TOF"; "TOF_TIME"; "TOF_LTIME"] -> List.In (i_name i, s) timer_values -> always i [("IN", a); ("PT", b)] qs ->
  exists h, Forall2 (fun e x => is_bool P (fst e) a (tc_in x) /\ is_whole P (fst e) b s (tc_pt x) /\
      c_now1 (snd e) = tc_t1 x /\ c_now2 (snd e) = tc_t2 x) (made_to i log) h /\
    forall h0 c, h = h0 ++ [c] -> preset_ok h ->
      exists q et, st_read Tagged m' i "Q" = Ok (VBool q) /\ st_read Tagged m' i "ET" = Ok (VInt et) /\
      (q, et) = if tc_in c then (true, 0)
                else if existsb tc_in h0 then
                  match suffix_while (fun d => negb (tc_in d)) h with
                  | [] => (true, 0)
                  | [_] => (true, 0)
                  | f :: _ => (tc_t2 c - tc_t1 f <=? tc_pt c, Z.min (tc_pt c) (tc_t1 c - tc_t1 f))
                  end
                else (false, 0).
Proof. exact whole_off_delay. Qed.
Print Assumptions C123_off_delay.
Theorem C123_pulse : forall P G insts r m qs r' m' log i s a b, prepared Tagged P G insts r m qs ->
  executes_all Tagged P r m qs = Ok (r', m', log) -> List.In i insts ->
  List.In (i_name i) pulses -> List.In (i_name i, s) timer_values -> always i [("IN", a); ("PT", b)] qs ->
  exists h, Forall2 (fun e x => is_bool P (fst e) a (tc_in x) /\ is_whole P (fst e) b s (tc_pt x) /\
      c_now1 (snd e) = tc_t1 x /\ c_now2 (snd e) = tc_t2 x) (made_to i log) h /\
    forall f mid c pt, h = f :: mid ++ [c] -> constant_pt pt h -> 0 <= pt < 2 ^ 63 ->
      Forall (fun d => tc_t2 d <= tc_t1 f + pt) mid ->
      tc_in f = true /\ st_read Tagged m' i "Q" = Ok (VBool (tc_t2 c <=? tc_t1 f + pt)).
Proof. exact whole_pulse. Qed.
Print Assumptions C123_pulse.

(** * The hypotheses are met *)
(** Commands are texts that come in turn; repeated commands are counted and a timer runs when two were counted; the
    line shows the last command and the count. *)
Definition G1 (x : string) : option known :=
  if String.eqb x "cmd" then Some (A_text STRING 10) else if String.eqb x "last" then Some (A_text STRING 10)
  else if String.eqb x "next" then Some (A_text STRING 10) else if String.eqb x "third" then Some (A_text STRING 10) else if String.eqb x "line" then Some (A_text STRING 80)
  else if String.eqb x "same" then Some (any_value S_BOOL) else if String.eqb x "no" then Some (any_value S_BOOL)
  else if String.eqb x "done" then Some (any_value S_BOOL) else if String.eqb x "late" then Some (any_value S_BOOL)
  else if String.eqb x "count" then Some (any_value S_INT) else if String.eqb x "limit" then Some (any_value S_INT)
  else if String.eqb x "n" then Some (any_value S_DINT) else if String.eqb x "size" then Some (A_value S_DINT true)
  else if String.eqb x "delay" then Some (any_value S_TIME) else None.
Definition a_text (s : string) : sty * value := (S_STRING, VS (str s ++ [0])).
Definition vars1 : env value :=
  [("cmd", a_text "go"); ("last", a_text "go"); ("next", a_text "stop"); ("third", a_text "stop"); ("line", a_text ""); ("same", (S_BOOL, VZ 0)); ("no", (S_BOOL, VZ 0));
   ("done", (S_BOOL, VZ 0)); ("late", (S_BOOL, VZ 0)); ("count", (S_INT, VZ 0)); ("limit", (S_INT, VZ 2)); ("n", (S_DINT, VZ 0)); ("size", (S_DINT, VZ 0));
   ("delay", (S_TIME, VZ 10))].
Definition counter1 : instance := ModelMachine.Inst "CTU_INT" 1000.
Definition timer1 : instance := ModelMachine.Inst "TON" 1016.
Definition edge1 : instance := ModelMachine.Inst "R_TRIG" 1096.
Definition insts1 : list instance := [counter1; timer1; edge1].
(* edge1(CLK := NE(cmd, last), Q => same);
   counter1(CU := EQ(cmd, last), R := no, PV := limit, CV => count, Q => done);
   timer1(IN := done, PT := delay, Q => late);
   n := count;
   line := CONCAT(cmd, DINT_TO_STRING(n), TIME_TO_STRING(delay));
   size := MAX(LEN(line), size);
   last := cmd; cmd := next; next := third; third := last; *)
Definition cycle1 : list statement :=
  [Use edge1 [("CLK", Call "NE" [Arg "cmd"; Arg "last"])] [("same", "Q")];
   Use counter1 [("CU", Call "EQ" [Arg "cmd"; Arg "last"]); ("R", Arg "no"); ("PV", Arg "limit")] [("count", "CV"); ("done", "Q")];
   Use timer1 [("IN", Arg "done"); ("PT", Arg "delay")] [("late", "Q")];
   Let "n" (Arg "count");
   Let "line" (Call "CONCAT" [Arg "cmd"; Call "DINT_TO_STRING" [Arg "n"]; Call "TIME_TO_STRING" [Arg "delay"]]);
   Let "size" (Call "MAX" [Call "LEN" [Arg "line"]; Arg "size"]);
   Let "last" (Arg "cmd"); Let "cmd" (Arg "next"); Let "next" (Arg "third"); Let "third" (Arg "last")].
Definition times (k : nat) : list (statement * (Z * Z)) :=
  concat (map (fun i => map (fun s => (s, (1000 + 7 * Z.of_nat i, 1000 + 7 * Z.of_nat i))) cycle1) (seq 0 k)).
Lemma ascii_holds : forall s d, forallb (fun c => (1 <=? c) && (c <? 128))%bool s = true -> d = s ++ [0] -> SpecText.holds STRING d s.
Proof.
  intros s d H ->. assert (F : Forall (fun c => 1 <= c < 128) s) by (apply Forall_forall; intros c C; rewrite forallb_forall in H; specialize (H c C); lia).
  split; [revert F; apply Forall_impl; intros c C; unfold is_scalar; lia|]. exists []. f_equal.
  clear H. induction F as [|c s C F IH]; [reflexivity|]. cbn [units flat_map] in *. unfold units in IH. rewrite <- IH at 1.
  unfold utf8_char at 1. assert (c <? 0x80 = true) as -> by lia. reflexivity.
Qed.
Example C123_case_known : as_known G1 vars1.
Proof.
  intros x s. unfold G1. repeat (match goal with |- context [String.eqb x ?y] => destruct (String.eqb_spec x y) as [->|_] end; [intros E; injection E as <-; eexists; (split; [reflexivity|]); cbn [is_known any_value]|]).
  15: discriminate.
  1-5: eexists; eexists; (split; [reflexivity|]); (split; [apply ascii_holds; [|reflexivity]; reflexivity|vm_compute; lia]).
  all: cbn [fst snd]; split; [reflexivity|]; split; [vm_compute; intuition discriminate|].
  all: try discriminate. intros _. exists 0. split; [reflexivity|lia].
Qed.
Ltac var := apply mk_variable; reflexivity.
Ltac part f g := apply (mks_cons _ _ _ _ _ _ f g).
Example C123_case_sound : forall p, Forall (fun s => exists fs, sound p G1 insts1 s fs /\ forall n, List.In n fs -> ~ List.In n (stoppers p ++ undefined)) cycle1.
Proof.
  intros p.
  assert (SAFE : forall fs, forallb (fun n => negb (mem n (stoppers p ++ undefined))) fs = true -> forall n, List.In n fs -> ~ List.In n (stoppers p ++ undefined)).
  { intros fs F n I M. rewrite forallb_forall in F. specialize (F n I). rewrite (In_mem n _ M) in F. discriminate F. }
  repeat apply Forall_cons; try apply Forall_nil.
  - exists ["R_TRIG"; "NE"]. split; [|apply SAFE; destruct p; vm_compute; reflexivity].
    apply (so_use _ _ _ edge1 _ _ [("CLK", S_BOOL)] [("Q", S_BOOL)]); [cbn; tauto|apply (if_trigger _ R_TRIG); cbn; tauto|reflexivity| |].
    + cbn [map snd]. part ["NE"] (@nil string); [|constructor]. apply (mk_compare _ _ "NE" _ _ STRING 10 10 [] []); [cbn; tauto|var|var].
    + repeat apply Forall_cons; [exists S_BOOL|apply Forall_nil]; (split; [cbn; tauto|reflexivity]).
  - exists ["CTU_INT"; "EQ"]. split; [|apply SAFE; destruct p; vm_compute; reflexivity].
    apply (so_use _ _ _ counter1 _ _ [("CU", S_BOOL); ("R", S_BOOL); ("PV", S_INT)] [("Q", S_BOOL); ("CV", S_INT)]); [cbn; tauto|apply (if_up _ i16); cbn; tauto|reflexivity| |].
    + cbn [map snd]. part ["EQ"] (@nil string); [apply (mk_compare _ _ "EQ" _ _ STRING 10 10 [] []); [cbn; tauto|var|var]|].
      part (@nil string) (@nil string); [var|]. part (@nil string) (@nil string); [var|constructor].
    + repeat apply Forall_cons; [exists S_INT|exists S_BOOL|apply Forall_nil]; (split; [cbn; tauto|reflexivity]).
  - exists ["TON"]. split; [|apply SAFE; destruct p; vm_compute; reflexivity].
    apply (so_use _ _ _ timer1 _ _ [("IN", S_BOOL); ("PT", S_TIME)] [("Q", S_BOOL); ("ET", S_TIME)]); [cbn; tauto|apply if_timer; cbn; tauto|reflexivity| |].
    + cbn [map snd]. part (@nil string) (@nil string); [var|]. part (@nil string) (@nil string); [var|constructor].
    + repeat apply Forall_cons; [exists S_BOOL|apply Forall_nil]; (split; [cbn; tauto|reflexivity]).
  - exists []. split; [|intros n []]. apply (so_value _ _ _ _ _ S_INT S_DINT false false); [reflexivity|var|vm_compute; tauto|discriminate].
  - exists ["CONCAT"; "DINT_TO_STRING"; "TIME_TO_STRING"]. split; [|apply SAFE; destruct p; vm_compute; reflexivity].
    apply (so_text _ _ _ _ _ STRING 80); [reflexivity|]. apply (mk_weaker _ _ _ (A_text STRING (list_sum [10; 11; 35]%nat))); [|constructor; cbn; lia].
    apply mk_concat; [|vm_compute; lia]. cbn [map]. part (@nil string) ["DINT_TO_STRING"; "TIME_TO_STRING"]; [var|].
    part ["DINT_TO_STRING"] ["TIME_TO_STRING"]; [apply (mk_print _ _ _ S_DINT STRING 11 []); [vm_compute; tauto|var]|].
    part ["TIME_TO_STRING"] (@nil string); [apply (mk_print _ _ _ S_TIME STRING 35 []); [vm_compute; tauto|var]|constructor].
  - exists ["MAX__DINT"; "LEN"]. split; [|apply SAFE; destruct p; vm_compute; reflexivity].
    apply (so_value _ _ _ _ _ S_DINT S_DINT true true); [reflexivity| |now left|now split].
    apply (mk_max _ _ _ _ true true ["LEN"] []); [apply (mk_len _ _ _ STRING 80 []); [var|vm_compute; lia]|var].
  - exists []. split; [|intros n []]. apply (so_text _ _ _ _ _ STRING 10); [reflexivity|var].
  - exists []. split; [|intros n []]. apply (so_text _ _ _ _ _ STRING 10); [reflexivity|var].
  - exists []. split; [|intros n []]. apply (so_text _ _ _ _ _ STRING 10); [reflexivity|var].
  - exists []. split; [|intros n []]. apply (so_text _ _ _ _ _ STRING 10); [reflexivity|var].
Qed.
Example C123_case_placed : placed Tagged insts1 /\ (forall i, List.In i insts1 -> zeroed Tagged (fun _ => 0) i).
Proof.
  split; [|intros i _ a _; reflexivity]. split.
  - intros i H. cbn in H. destruct H as [<-|[<-|[<-|[]]]]; vm_compute; discriminate.
  - assert (S1 : size_of Tagged counter1 = 10) by (vm_compute; reflexivity). assert (S2 : size_of Tagged timer1 = 64) by (vm_compute; reflexivity).
    assert (S3 : size_of Tagged edge1 = 3) by (vm_compute; reflexivity).
    intros i j a I J. unfold occupies. cbn [List.In insts1] in I, J.
    destruct I as [<-|[<-|[<-|[]]]], J as [<-|[<-|[<-|[]]]]; trivial; rewrite ?S1, ?S2, ?S3; cbn [i_base counter1 timer1 edge1]; lia.
Qed.
Example C123_case_prepared : forall p, prepared Tagged (a_platform p) G1 insts1 vars1 (fun _ => 0) (times 8).
Proof.
  intros p. split; [apply a_platform_sane|]. split; [exact (proj1 C123_case_placed)|]. split; [exact (proj2 C123_case_placed)|].
  split; [vm_compute; intuition discriminate|]. split; [exact C123_case_known|].
  apply Forall_forall. intros q H. pose proof (C123_case_sound p) as F. rewrite Forall_forall in F. destruct (F (fst q)) as (fs & A & _); [|exists fs; destruct p; exact A].
  unfold times in H. apply in_concat in H. destruct H as (l & L & H). apply in_map_iff in L. destruct L as (i & <- & _).
  apply in_map_iff in H. destruct H as (s & <- & H). exact H.
Qed.
Example C123_case_always : always counter1 [("CU", Call "EQ" [Arg "cmd"; Arg "last"]); ("R", Arg "no"); ("PV", Arg "limit")] (times 8) /\
  always timer1 [("IN", Arg "done"); ("PT", Arg "delay")] (times 8) /\ always edge1 [("CLK", Call "NE" [Arg "cmd"; Arg "last"])] (times 8).
Proof.
  assert (A : forall i ins outs k, List.In (Use i ins outs, k) (times 8) -> List.In (Use i ins outs) cycle1).
  { intros i ins outs k H. unfold times in H. apply in_concat in H. destruct H as (l & L & H). apply in_map_iff in L. destruct L as (n & <- & _).
    apply in_map_iff in H. destruct H as (s & E & H). injection E as -> _. exact H. }
  repeat split; intros ins outs k H; apply A in H; try tauto; cbn in H; repeat (destruct H as [H|H]; [try discriminate H; injection H as H; congruence|]); contradiction.
Qed.
Transparent ModelApi.call value_in api.
(** After eight cycles: two commands were repeated and the first was equal to the initial one; the limit was reached at
    1014 and 35 ns have passed. *)
Example C123_case_runs : forall p, omap (fun '(r, m, log) =>
      (map (fun x => match get x r with Ok (t, VS d) => Ok (t, VS (firstn 10 d)) | o => o end) ["cmd"; "line"; "count"; "done"; "late"; "size"],
       st_read Tagged m timer1 "ET", length log)) (executes_all Tagged (a_platform p) vars1 (fun _ => 0) (times 8)) =
  Ok ([Ok (S_STRING, VS (str "stop" ++ [0])); Ok (S_STRING, VS (str "stop310ns" ++ [0])); Ok (S_INT, VZ 3); Ok (S_BOOL, VZ 1); Ok (S_BOOL, VZ 1);
       Ok (S_DINT, VZ 9)], Ok (VInt 10), 24%nat).
Proof. intros p. destruct p; vm_compute; reflexivity. Qed.
(** The parts of a time of day are not negative, so that they can be what is known of a variable for a position. *)
Definition G3 (x : string) : option known :=
  match find (fun y => String.eqb (fst y) x) [("at", any_value S_TOD); ("h", A_value S_DINT true); ("mi", A_value S_DINT true); ("s", any_value S_DINT); ("ms", A_value S_DINT true)] with
  | Some y => Some (snd y)
  | None => None
  end.
Definition vars3 : env value := [("at", (S_TOD, VZ 45296789000000)); ("h", (S_DINT, VZ 0)); ("mi", (S_DINT, VZ 0)); ("s", (S_DINT, VZ (-1))); ("ms", (S_DINT, VZ 0))].
Definition split3 : statement := Split "SPLIT_TOD" "at" ["h"; "mi"; "s"; "ms"].
Example C123_case_split : as_known G3 vars3 /\ (forall p, sound p G3 [] split3 ["SPLIT_TOD__DINT"]) /\
  omap (fun '(r, _, _) => map (fun x => get x r) ["h"; "mi"; "s"; "ms"]) (executes_all Tagged (a_platform Debug) vars3 (fun _ => 0) [(split3, (1, 1))]) =
    Ok [Ok (S_DINT, VZ 12); Ok (S_DINT, VZ 34); Ok (S_DINT, VZ 56); Ok (S_DINT, VZ 789)].
Proof.
  split; [|split; [|vm_compute; reflexivity]].
  - intros x s. unfold G3. cbn [find fst].
    repeat (match goal with |- context [String.eqb ?y x] => destruct (String.eqb_spec y x) as [<-|_] end; [cbn [snd]; intros E; injection E as <-; eexists; (split; [reflexivity|]); cbn [is_known any_value fst snd];
      (split; [reflexivity|]); (split; [vm_compute; intuition discriminate|]); first [discriminate|intros _; eexists; split; [reflexivity|lia]]|]). discriminate.
  - intros p. apply (so_split _ _ _ "SPLIT_TOD" "at" ["h"; "mi"; "s"; "ms"] S_TOD S_DINT false); [right; now left|reflexivity|cbn; tauto|repeat constructor; cbn; intuition discriminate|].
    repeat (apply Forall_cons; [eexists; reflexivity|]). apply Forall_nil.
Qed.
