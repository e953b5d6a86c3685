(** Proofs about programs that assign expressions and call function blocks: up-down counters, falling edges, off-delays. *)
From Coq Require Import String ZArith List Bool Lia.
From Verif Require Import Base ModelFB ModelCounters ModelTimers ModelLayout ModelMachine ModelFloat ModelLink ModelLib ModelApi
  SpecFB SpecLayout SpecMachine SpecScalar SpecLink SpecLib SpecSafe SpecApi SpecCall SpecType SpecProgram
  ProofBase ProofFB ProofTimers ProofTP ProofLayout ProofMachine ProofMachine2 ProofType ProofProgram ProofProgram2 ProofProgram3.
Import ListNotations.
Open Scope string_scope.
Open Scope list_scope.
Open Scope Z_scope.
Local Opaque ModelApi.call value_in api.

Lemma up_down_counted : forall p t h, List.In t counter_types -> Forall (fun i => in_ity t (cudi_pv i)) h ->
  exists s, ctud_run p t ctud_default h = Ok s /\ up_down_count t h (cud_cv s) /\
    forall h0 x, h = h0 ++ [x] -> cud_qu s = (cudi_pv x <=? cud_cv s) /\ cud_qd s = (cud_cv s <=? 0).
Proof.
  intros p t h T. induction h as [|i h IH] using rev_ind; intros F.
  - exists ctud_default. split; [reflexivity|]. split; [constructor|]. intros [|] x E; discriminate E.
  - pose proof F as F'. apply Forall_app in F'. destruct F' as [F1 _]. destruct (IH F1) as (s0 & R0 & U & _).
    destruct (ctud_call_lemma p t h i T F) as (s & s' & R & R' & CV & QU & QD & _). rewrite R0 in R. injection R as <-.
    exists s'. split; [exact R'|]. split; [rewrite CV; now constructor|]. intros h0 x E. apply app_inj_tail in E. destruct E as [_ <-]. now split.
Qed.
Lemma up_down_seen : forall rp P insts r m qs r' m' log i t s a b c d e, ready rp P insts r m qs -> executes_all rp P r m qs = Ok (r', m', log) ->
  List.In i insts -> List.In (i_name i, t) up_down_counters -> List.In (s, t) counter_values ->
  always i [("CU", a); ("CD", b); ("R", c); ("LD", d); ("PV", e)] qs ->
  exists h, Forall2 (fun k x => is_bool P (fst k) a (cudi_cu x) /\ is_bool P (fst k) b (cudi_cd x) /\ is_bool P (fst k) c (cudi_r x) /\
      is_bool P (fst k) d (cudi_ld x) /\ is_whole P (fst k) e s (cudi_pv x)) (made_to i log) h /\
    exists v, up_down_count t h v /\ st_read rp m' i "CV" = Ok (VInt v) /\
      forall h0 x, h = h0 ++ [x] -> st_read rp m' i "QU" = Ok (VBool (cudi_pv x <=? v)) /\ st_read rp m' i "QD" = Ok (VBool (v <=? 0)).
Proof.
  intros rp P insts r m qs r' m' log i t s a b c d e RD E I U V AL. pose proof (if_up_down _ t s U V) as IF.
  destruct (seen rp P insts r m qs r' m' log i _ _ RD E I IF) as (mi & Ri & RS & GD & SE).
  destruct (up_down_history i t s _ V GD) as (h & F & R). exists h. split.
  - refine (zip_impl _ _ _ _ _ _ _ (zip _ _ _ snd _ _ _ _ SE F)). intros [z k] x [(ins & outs & fs & IQ & IN & T) [_ X]]. cbn [fst snd] in *.
    rewrite (AL _ _ _ IQ) in IN, T. rewrite X in IN. cbn [map snd] in T.
    inversion T as [|? ? ? ? f1 g1 T1 T1']; subst; inversion T1' as [|? ? ? ? f2 g2 T2 T2']; subst; inversion T2' as [|? ? ? ? f3 g3 T3 T3']; subst;
      inversion T3' as [|? ? ? ? f4 g4 T4 T4']; subst; inversion T4' as [|? ? ? ? f5 g5 T5 T5']; subst. unfold ctud_ins in IN.
    destruct (takes_bool P z a _ _ _ _ _ _ (proj1 RD) T1 IN) as [A IN1]. destruct (takes_bool P z b _ _ _ _ _ _ (proj1 RD) T2 IN1) as [B IN2].
    destruct (takes_bool P z c _ _ _ _ _ _ (proj1 RD) T3 IN2) as [C IN3]. destruct (takes_bool P z d _ _ _ _ _ _ (proj1 RD) T4 IN3) as [D IN4].
    destruct (takes_whole P z e _ _ _ _ _ _ _ (proj1 RD) T5 IN4) as [W _]. now repeat split.
  - destruct i as [n base]. cbn [i_name] in *. destruct (up_down_tables n t U) as (T & HR & HS & HL).
    rewrite (run_same _ ctud_ins rp (p_profile P) (MInst n base) _ (HL (p_profile P)) _ h F m) in Ri.
    pose proof (ctud_runs rp (p_profile P) n t base m h U (proj1 (proj2 (proj2 RD)) _ I) R) as O. rewrite Ri in O. unfold outputs in O. cbn [omap obind map] in O. rewrite <- !RS in O.
    destruct (up_down_counted (p_profile P) t h (same_ctypes t T) R) as (x & X & UC & Q). rewrite X in O. cbn [omap obind] in O. injection O as O1 O2 O3.
    exists (cud_cv x). split; [exact UC|]. split; [exact O3|]. intros h0 y Y. destruct (Q h0 y Y) as [Q1 Q2]. now rewrite O1, O2, Q1, Q2.
Qed.
Lemma falling_seen : forall rp P insts r m qs r' m' log i a, ready rp P insts r m qs -> executes_all rp P r m qs = Ok (r', m', log) ->
  List.In i insts -> i_name i = "F_TRIG" -> always i [("CLK", a)] qs ->
  exists h, Forall2 (fun e x => is_bool P (fst e) a x) (made_to i log) h /\
    forall h0 x, h = h0 ++ [x] -> st_read rp m' i "Q" = Ok (VBool (negb x && last h0 false)).
Proof.
  intros rp P insts r m qs r' m' log i a RD E I N AL.
  destruct (trigger_seen rp P insts r m qs r' m' log i F_TRIG a RD E I ltac:(rewrite N; right; left; reflexivity) AL) as (h & F & Q). exists h. split; [exact F|].
  intros h0 x ->. rewrite Q. f_equal. f_equal.
  assert (L : length (trig_outputs F_TRIG trigger_default (h0 ++ [x])) = length (h0 ++ [x])) by apply trig_outputs_length.
  destruct (exists_last (l := trig_outputs F_TRIG trigger_default (h0 ++ [x]))) as (l & y & Y); [intros X; rewrite X in L; rewrite app_length in L; cbn in L; lia|].
  pose proof (f_trig_spec (h0 ++ [x]) (length h0) ltac:(rewrite app_length; cbn; lia)) as S. rewrite Y in *. rewrite last_last. rewrite !app_length in L. cbn in L.
  rewrite app_nth2 in S by lia. replace (length h0 - length l)%nat with O in S by lia. cbn [nth] in S. rewrite S. rewrite app_nth2, Nat.sub_diag by lia. cbn [nth]. f_equal.
  unfold previous. destruct h0 as [|z h0] using rev_ind; [reflexivity|]. rewrite app_length. cbn [length]. rewrite Nat.add_1_r. rewrite last_last, <- app_assoc, app_nth2, Nat.sub_diag by lia. reflexivity.
Qed.
Lemma off_delay_seen : forall P insts r m qs r' m' log i s a b, ready Tagged P insts r m qs ->
  executes_all Tagged P r m qs = Ok (r', m', log) -> List.In i insts ->
  List.In (i_name i) ["TOF"; "TOF_TIME"; "TOF_LTIME"] -> List.In (i_name i, s) timer_values -> always i [("IN", a); ("PT", b)] qs ->
  exists h, Forall2 (fun e x => is_bool P (fst e) a (tc_in x) /\ is_whole P (fst e) b s (tc_pt x) /\
      c_now1 (snd e) = tc_t1 x /\ c_now2 (snd e) = tc_t2 x) (made_to i log) h /\
    forall h0 c, h = h0 ++ [c] -> preset_ok h ->
      exists q et, st_read Tagged m' i "Q" = Ok (VBool q) /\ st_read Tagged m' i "ET" = Ok (VInt et) /\
      (q, et) = if tc_in c then (true, 0)
                else if existsb tc_in h0 then
                  match suffix_while (fun d => negb (tc_in d)) h with
                  | [] => (true, 0)
                  | [_] => (true, 0)
                  | f :: _ => (tc_t2 c - tc_t1 f <=? tc_pt c, Z.min (tc_pt c) (tc_t1 c - tc_t1 f))
                  end
                else (false, 0).
Proof.
  intros P insts r m qs r' m' log i s a b RD E I N V AL.
  assert (U : List.In (i_name i, TOF) timers) by (unfold timers; cbn [List.In] in N |- *; destruct N as [<-|[<-|[<-|[]]]]; tauto).
  destruct (timer_seen Tagged P insts r m qs r' m' log i TOF s a b RD E I U V AL) as (h & F & C & q & et & T & Q & ET). exists h. split; [exact F|].
  intros h0 c -> PO. exists q, et. split; [exact Q|]. split; [exact ET|]. rewrite zeroed_tagged, (tof_lemma h0 c C PO) in T. injection T as T. now symmetry.
Qed.
(** A pulse that has begun lasts PT, whatever the program assigns to IN meanwhile. *)
Lemma pulse_seen : forall P insts r m qs r' m' log i s a b, ready Tagged P insts r m qs ->
  executes_all Tagged P r m qs = Ok (r', m', log) -> List.In i insts ->
  List.In (i_name i) pulses -> List.In (i_name i, s) timer_values -> always i [("IN", a); ("PT", b)] qs ->
  exists h, Forall2 (fun e x => is_bool P (fst e) a (tc_in x) /\ is_whole P (fst e) b s (tc_pt x) /\
      c_now1 (snd e) = tc_t1 x /\ c_now2 (snd e) = tc_t2 x) (made_to i log) h /\
    forall f mid c pt, h = f :: mid ++ [c] -> constant_pt pt h -> 0 <= pt < 2 ^ 63 ->
      Forall (fun d => tc_t2 d <= tc_t1 f + pt) mid ->
      tc_in f = true /\ st_read Tagged m' i "Q" = Ok (VBool (tc_t2 c <=? tc_t1 f + pt)).
Proof.
  intros P insts r m qs r' m' log i s a b RD E I N V AL.
  assert (U : List.In (i_name i, TP) timers) by (unfold timers; unfold pulses in N; cbn [List.In] in N |- *; destruct N as [<-|[<-|[<-|[]]]]; tauto).
  destruct (timer_seen Tagged P insts r m qs r' m' log i TP s a b RD E I U V AL) as (h & F & C & q & et & T & Q & ET). exists h. split; [exact F|].
  intros f mid c pt -> K B M. rewrite zeroed_tagged in T.
  assert (IN : tc_in f = true).
  { unfold timer_out in T. cbn [timer_run] in T. unfold timer_call, TP in T. cbn in T. destruct (tc_in f); [reflexivity|discriminate T]. }
  split; [exact IN|]. rewrite Q.
  assert (T1 : timer_out TP ([] ++ [f]) = Ok (true, 0)).
  { unfold timer_out, timer_call. cbn. unfold timer_call, TP. cbn. rewrite IN. reflexivity. }
  destruct (tp_pulse_lemma pt [] f mid c 0 0 C K B eq_refl T1 M) as [_ Z]. cbn [app] in Z. rewrite Z in T.
  destruct (tc_t2 c <=? tc_t1 f + pt); injection T as <- _; reflexivity.
Qed.
