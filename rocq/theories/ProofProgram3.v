(** Proofs about programs that assign expressions and call function blocks: what the instances of a program have seen. *)
From Coq Require Import String ZArith List Bool Lia.
From Verif Require Import Base ModelFB ModelCounters ModelTimers ModelLayout ModelMachine ModelFloat ModelLink ModelLib ModelApi
  SpecFB SpecLayout SpecMachine SpecScalar SpecLink SpecLib SpecSafe SpecApi SpecCall SpecType SpecProgram
  ProofBase ProofFB ProofTimers ProofLayout ProofMachine ProofMachine2 ProofType ProofProgram ProofProgram2.
Import ListNotations.
Open Scope string_scope.
Open Scope list_scope.
Open Scope Z_scope.
Local Opaque ModelApi.call value_in api.

Lemma clock_range : forall qs lo, 0 <= lo -> clock_runs lo qs -> Forall (fun q => 0 <= fst (snd q) < 2 ^ 63) qs.
Proof.
  intros qs. induction qs as [|[s [n1 n2]] qs IH]; intros lo L H; [constructor|]. cbn [clock_runs] in H. destruct H as (A & B & C & D).
  constructor; [cbn [fst snd]; lia|]. apply (IH n2); [lia|exact D].
Qed.
Lemma ready_statements : forall rp P insts r m qs, ready rp P insts r m qs ->
  Forall (fun q => (exists fs, proper (variable r) insts (fst q) fs) /\ 0 <= fst (snd q) < 2 ^ 63) qs.
Proof.
  intros rp P insts r m qs (_ & _ & _ & C & F). pose proof (clock_range qs 0 ltac:(lia) C) as D. rewrite Forall_forall in *.
  intros q H. split; [exact (F q H)|exact (D q H)].
Qed.
Lemma program_goes_on : forall rp P insts r m qs, ready rp P insts r m qs ->
  match executes_all rp P r m qs with
  | Ok (r', m', log) => forall x t, variable r x t -> variable r' x t
  | Panic => exists q fs n, List.In q qs /\ proper (variable r) insts (fst q) fs /\ List.In n fs /\
      List.In n (pulses ++ aborting ++ can_abort (p_profile P))
  | Ub => exists q fs n, List.In q qs /\ proper (variable r) insts (fst q) fs /\ List.In n fs /\ List.In n undefined
  end.
Proof.
  intros rp P insts r m qs R. pose proof (ready_statements _ _ _ _ _ _ R) as S. destruct R as (SP & PL & Z0 & _ & _).
  pose proof (proceeds rp P insts m r SP PL Z0 qs r m [] (fun x t H => H) eq_refl (Forall_nil _) S) as G.
  destruct (executes_all rp P r m qs) as [[[r' m'] log]| |]; [exact (proj1 G)|exact G|exact G].
Qed.
Lemma calls_made : forall i log, calls_of i (map snd log) = map snd (made_to i log).
Proof.
  intros i log. unfold calls_of, made_to. induction log as [|[e c] log IH]; [reflexivity|]. cbn [map filter snd].
  destruct (same_instance (c_inst c) i); cbn [map snd]; now rewrite IH.
Qed.
Lemma seen : forall rp P insts r m qs r' m' log i its ots, ready rp P insts r m qs -> executes_all rp P r m qs = Ok (r', m', log) ->
  List.In i insts -> interface (i_name i) its ots ->
  exists mi, mrun rp (p_profile P) m (map snd (made_to i log)) = Ok mi /\ (forall var, st_read rp m' i var = st_read rp mi i var) /\
  Forall (fun c => c_inst c = i /\ good its c) (map snd (made_to i log)) /\
  Forall (fun e => exists ins outs fs, List.In (Use i ins outs, (c_now1 (snd e), c_now2 (snd e))) qs /\
    inputs P (fst e) ins = Ok (c_inputs (snd e)) /\ have_types (variable (fst e)) (map snd ins) (map snd its) fs) (made_to i log).
Proof.
  intros rp P insts r m qs r' m' log i its ots RD E I IF. pose proof (ready_statements _ _ _ _ _ _ RD) as S.
  destruct (logged rp P qs r m r' m' log E) as [R LG]. destruct RD as (SP & PL & Z0 & C & F).
  pose proof (proceeds rp P insts m r SP PL Z0 qs r m [] (fun x t H => H) eq_refl (Forall_nil _) S) as G. rewrite E in G. destruct G as (_ & _ & FI & FV).
  assert (FL : Forall (fun c => List.In (c_inst c) insts) (map snd log)) by (refine (Forall_impl _ _ FI); intros d D; exact (proj1 D)).
  destruct (run_local rp (p_profile P) insts i (map snd log) m m PL I FL (fun a _ => eq_refl) m' R) as (mi & Ri & A).
  rewrite calls_made in Ri. exists mi. split; [exact Ri|]. split; [intros var; exact (read_same rp i m' mi var A)|].
  split; [rewrite <- calls_made; exact (fine_calls insts i its ots _ IF FI)|].
  apply Forall_forall. intros [e c] H. apply filter_In in H. destruct H as [H SI]. apply same_instance_iff in SI. cbn [fst snd] in *.
  rewrite Forall_forall in LG, FV, F. destruct (LG (e, c) H) as (ins & outs & IQ & IN). cbn [fst snd] in *. rewrite SI in IQ.
  destruct (F _ IQ) as (fs & PR). cbn [fst] in PR. inversion PR as [|? ? ? its' ots' fs' I' IF' M T O|]; subst.
  destruct (interface_unique _ _ _ _ _ IF IF') as [<- _]. exists ins, outs, fs'. split; [exact IQ|]. split; [exact IN|].
  exact (proj2 (types_weaken (variable r) (variable e) (FV (e, c) H)) _ _ _ T).
Qed.
Lemma zip : forall A B C (f : A -> B) (Q : A -> Prop) (R : B -> C -> Prop) l h, Forall Q l -> Forall2 R (map f l) h ->
  Forall2 (fun a x => Q a /\ R (f a) x) l h.
Proof.
  intros A B C f Q R l. induction l as [|a l IH]; intros h F H; inversion H; subst; [constructor|]. inversion F; subst.
  constructor; [now split|now apply IH].
Qed.
Lemma zip_impl : forall A C (R S : A -> C -> Prop), (forall a x, R a x -> S a x) -> forall l h, Forall2 R l h -> Forall2 S l h.
Proof. intros A C R S H l h F. induction F; constructor; auto. Qed.
Lemma takes_bool : forall P r a fs n n' b ins vs, sane P -> has_type (variable r) a S_BOOL fs -> inputs P r ((n, a) :: ins) = Ok ((n', VBool b) :: vs) ->
  is_bool P r a b /\ inputs P r ins = Ok vs.
Proof.
  intros P r a fs n n' b ins vs SP H E. pose proof (typed_value P r a S_BOOL fs SP H) as V. unfold is_bool. cbn [inputs] in E.
  destruct (value_in P r a) as [[t v]| |]; try discriminate E. destruct V as [-> V]. cbn [obind] in E.
  destruct V as [-> | ->]; cbn [as_input obind Z.eqb negb] in E; destruct (inputs P r ins) as [us| |]; try discriminate E; injection E as _ <- <-; (split; [reflexivity|reflexivity]).
Qed.
Lemma takes_whole : forall P r a t fs n n' z ins vs, sane P -> has_type (variable r) a t fs -> inputs P r ((n, a) :: ins) = Ok ((n', VInt z) :: vs) ->
  is_whole P r a t z /\ inputs P r ins = Ok vs.
Proof.
  intros P r a t fs n n' z ins vs SP H E. pose proof (typed_value P r a t fs SP H) as V. unfold is_whole. cbn [inputs] in E.
  destruct (value_in P r a) as [[t' v]| |]; try discriminate E. destruct V as [-> V]. cbn [obind] in E.
  destruct (as_input (t, v)) as [w| |] eqn:A; try discriminate E. cbn [obind] in E. destruct (inputs P r ins) as [us| |]; try discriminate E. injection E as _ -> <-.
  destruct t; cbn [as_input] in A; destruct v; try discriminate A; injection A as <-; now split.
Qed.
Ltac types3 T := match type of T with have_types _ (map snd [(_, ?a); (_, ?b); (_, ?c)]) _ _ =>
  cbn [map snd] in T; inversion T as [|? ? ? ? f1 g1 T1 T1']; subst; inversion T1' as [|? ? ? ? f2 g2 T2 T2']; subst; inversion T2' as [|? ? ? ? f3 g3 T3 T3']; subst end.

Lemma up_seen : forall rp P insts r m qs r' m' log i t s a b c, ready rp P insts r m qs -> executes_all rp P r m qs = Ok (r', m', log) ->
  List.In i insts -> List.In (i_name i, t) up_counters -> List.In (s, t) counter_values -> always i [("CU", a); ("R", b); ("PV", c)] qs ->
  exists h, Forall2 (fun e x => is_bool P (fst e) a (cui_cu x) /\ is_bool P (fst e) b (cui_r x) /\ is_whole P (fst e) c s (cui_pv x)) (made_to i log) h /\
    (forall h1 h2, h = h1 ++ h2 -> ends_with (fun x => cui_r x = true) h1 -> Forall (fun x => cui_r x = false) h2 ->
       st_read rp m' i "CV" = Ok (VInt (Z.min (imax t) (rising_edges (ctu_level h1) (map cui_cu h2))))) /\
    (forall h0 x, h = h0 ++ [x] -> exists v, st_read rp m' i "CV" = Ok (VInt v) /\ st_read rp m' i "Q" = Ok (VBool (cui_pv x <=? v))).
Proof.
  intros rp P insts r m qs r' m' log i t s a b c RD E I U V AL. pose proof (if_up _ t s U V) as IF.
  destruct (seen rp P insts r m qs r' m' log i _ _ RD E I IF) as (mi & Ri & RS & GD & SE).
  destruct (up_history i t s _ V GD) as (h & F & R). exists h. split.
  - refine (zip_impl _ _ _ _ _ _ _ (zip _ _ _ snd _ _ _ _ SE F)). intros [e k] x [(ins & outs & fs & IQ & IN & T) [_ X]]. cbn [fst snd] in *.
    rewrite (AL _ _ _ IQ) in IN, T. rewrite X in IN. types3 T. unfold ctu_ins in IN.
    destruct (takes_bool P e a _ _ _ _ _ _ (proj1 RD) T1 IN) as [A IN1]. destruct (takes_bool P e b _ _ _ _ _ _ (proj1 RD) T2 IN1) as [B IN2].
    destruct (takes_whole P e c _ _ _ _ _ _ _ (proj1 RD) T3 IN2) as [C _]. now repeat split.
  - destruct i as [n base]. cbn [i_name] in *. destruct (up_tables n t U) as (T & HR & HS & HL).
    rewrite (run_same _ ctu_ins rp (p_profile P) (MInst n base) _ (HL (p_profile P)) _ h F m) in Ri.
    pose proof (ctu_runs rp (p_profile P) n t base m h U (proj1 (proj2 (proj2 RD)) _ I) R) as O. rewrite Ri in O. unfold outputs in O. cbn [omap obind map] in O. rewrite <- !RS in O.
    split.
    + intros h1 h2 -> H1 H2. destruct (ctu_counts_lemma (p_profile P) t h1 h2 (same_ctypes t T) H1 H2) as (x & X & CV). rewrite X in O. cbn [omap obind] in O.
      injection O as O1 O2. now rewrite O2, CV.
    + intros h0 x ->. destruct (ctu_q_lemma (p_profile P) t h0 x (same_ctypes t T)) as (y & Y & Q). rewrite Y in O. cbn [omap obind] in O.
      injection O as O1 O2. exists (ctu_cv y). split; [exact O2|]. now rewrite O1, Q.
Qed.
Lemma down_seen : forall rp P insts r m qs r' m' log i t s a b c, ready rp P insts r m qs -> executes_all rp P r m qs = Ok (r', m', log) ->
  List.In i insts -> List.In (i_name i, t) down_counters -> List.In (s, t) counter_values -> always i [("CD", a); ("LD", b); ("PV", c)] qs ->
  exists h, Forall2 (fun e x => is_bool P (fst e) a (cdi_cd x) /\ is_bool P (fst e) b (cdi_ld x) /\ is_whole P (fst e) c s (cdi_pv x)) (made_to i log) h /\
    (forall h1 h2, h = h1 ++ h2 -> ends_with (fun x => cdi_ld x = true) h1 -> Forall (fun x => cdi_ld x = false) h2 ->
       st_read rp m' i "CV" = Ok (VInt (Z.max (imin t) (ctd_loaded h1 - rising_edges (ctd_level h1) (map cdi_cd h2))))) /\
    (h <> [] -> exists v, st_read rp m' i "CV" = Ok (VInt v) /\ st_read rp m' i "Q" = Ok (VBool (v <=? 0))).
Proof.
  intros rp P insts r m qs r' m' log i t s a b c RD E I U V AL. pose proof (if_down _ t s U V) as IF.
  destruct (seen rp P insts r m qs r' m' log i _ _ RD E I IF) as (mi & Ri & RS & GD & SE).
  destruct (down_history i t s _ V GD) as (h & F & R). exists h. split.
  - refine (zip_impl _ _ _ _ _ _ _ (zip _ _ _ snd _ _ _ _ SE F)). intros [e k] x [(ins & outs & fs & IQ & IN & T) [_ X]]. cbn [fst snd] in *.
    rewrite (AL _ _ _ IQ) in IN, T. rewrite X in IN. types3 T. unfold ctd_ins in IN.
    destruct (takes_bool P e a _ _ _ _ _ _ (proj1 RD) T1 IN) as [A IN1]. destruct (takes_bool P e b _ _ _ _ _ _ (proj1 RD) T2 IN1) as [B IN2].
    destruct (takes_whole P e c _ _ _ _ _ _ _ (proj1 RD) T3 IN2) as [C _]. now repeat split.
  - destruct i as [n base]. cbn [i_name] in *. destruct (down_tables n t U) as (T & HR & HS & HL).
    rewrite (run_same _ ctd_ins rp (p_profile P) (MInst n base) _ (HL (p_profile P)) _ h F m) in Ri.
    pose proof (ctd_runs rp (p_profile P) n t base m h U (proj1 (proj2 (proj2 RD)) _ I) R) as O. rewrite Ri in O. unfold outputs in O. cbn [omap obind map] in O. rewrite <- !RS in O.
    split.
    + intros h1 h2 -> H1 H2. destruct (ctd_counts_lemma (p_profile P) t h1 h2 (same_ctypes t T) R H1 H2) as (x & X & CV). rewrite X in O. cbn [omap obind] in O.
      injection O as O1 O2. now rewrite O2, CV.
    + intros NE. destruct (exists_last NE) as (h0 & x & ->). destruct (ctd_q_lemma (p_profile P) t h0 x (same_ctypes t T) R) as (y & Y & Q). rewrite Y in O. cbn [omap obind] in O.
      injection O as O1 O2. exists (ctd_cv y). split; [exact O2|]. now rewrite O1, Q.
Qed.
Lemma trigger_seen : forall rp P insts r m qs r' m' log i f a, ready rp P insts r m qs -> executes_all rp P r m qs = Ok (r', m', log) ->
  List.In i insts -> List.In (i_name i, f) triggers -> always i [("CLK", a)] qs ->
  exists h, Forall2 (fun e x => is_bool P (fst e) a x) (made_to i log) h /\
    st_read rp m' i "Q" = Ok (VBool (last (trig_outputs f trigger_default h) false)).
Proof.
  intros rp P insts r m qs r' m' log i f a RD E I U AL. pose proof (if_trigger _ f U) as IF.
  destruct (seen rp P insts r m qs r' m' log i _ _ RD E I IF) as (mi & Ri & RS & GD & SE).
  destruct (trigger_history i _ GD) as (h & F). exists h. split.
  - refine (zip_impl _ _ _ _ _ _ _ (zip _ _ _ snd _ _ _ _ SE F)). intros [e k] x [(ins & outs & fs & IQ & IN & T) [_ X]]. cbn [fst snd] in *.
    rewrite (AL _ _ _ IQ) in IN, T. rewrite X in IN. cbn [map snd] in T. inversion T as [|? ? ? ? f1 g1 T1 T1']; subst.
    exact (proj1 (takes_bool P e a _ _ _ _ _ _ (proj1 RD) T1 IN)).
  - destruct i as [n base]. cbn [i_name] in *.
    assert (HL : forall u v, linked n (rust_code (p_profile P) u v) = Some (trig_code f)).
    { unfold triggers in U. cbn [List.In] in U. destruct U as [U|[U|[]]]; injection U as <- <-; reflexivity. }
    rewrite (run_same _ (fun x => [("CLK", VBool x)]) rp (p_profile P) (MInst n base) _ HL _ h F m) in Ri.
    pose proof (trig_runs rp (p_profile P) n f base m h U (proj1 (proj2 (proj2 RD)) _ I)) as O. rewrite Ri in O. unfold outputs in O. cbn [omap obind map] in O. rewrite <- !RS in O.
    now injection O.
Qed.
Lemma rising_seen : forall rp P insts r m qs r' m' log i a, ready rp P insts r m qs -> executes_all rp P r m qs = Ok (r', m', log) ->
  List.In i insts -> i_name i = "R_TRIG" -> always i [("CLK", a)] qs ->
  exists h, Forall2 (fun e x => is_bool P (fst e) a x) (made_to i log) h /\
    forall h0 x, h = h0 ++ [x] -> st_read rp m' i "Q" = Ok (VBool (x && negb (last h0 false))).
Proof.
  intros rp P insts r m qs r' m' log i a RD E I N AL.
  destruct (trigger_seen rp P insts r m qs r' m' log i R_TRIG a RD E I ltac:(rewrite N; left; reflexivity) AL) as (h & F & Q). exists h. split; [exact F|].
  intros h0 x ->. rewrite Q. f_equal. f_equal.
  assert (L : length (trig_outputs R_TRIG trigger_default (h0 ++ [x])) = length (h0 ++ [x])) by apply trig_outputs_length.
  destruct (exists_last (l := trig_outputs R_TRIG trigger_default (h0 ++ [x]))) as (l & y & Y); [intros X; rewrite X in L; rewrite app_length in L; cbn in L; lia|].
  pose proof (r_trig_spec (h0 ++ [x]) (length h0) ltac:(rewrite app_length; cbn; lia)) as S. rewrite Y in *. rewrite last_last. rewrite !app_length in L. cbn in L.
  rewrite app_nth2 in S by lia. replace (length h0 - length l)%nat with O in S by lia. cbn [nth] in S. rewrite S. rewrite app_nth2, Nat.sub_diag by lia. cbn [nth]. f_equal. f_equal.
  unfold previous. destruct h0 as [|z h0] using rev_ind; [reflexivity|]. rewrite app_length. cbn [length]. rewrite Nat.add_1_r. rewrite last_last, <- app_assoc, app_nth2, Nat.sub_diag by lia. reflexivity.
Qed.

(** * Timers *)
Fixpoint clock_log (lo : Z) (l : list mcall) : Prop :=
  match l with
  | [] => True
  | c :: l' => lo <= c_now1 c /\ c_now1 c <= c_now2 c /\ c_now2 c < 2 ^ 63 /\ clock_log (c_now2 c) l'
  end.
Lemma clock_log_mono : forall l lo lo', lo' <= lo -> clock_log lo l -> clock_log lo' l.
Proof. intros [|c l] lo lo' L H; [exact H|]. destruct H as (A & B). split; [lia|exact B]. Qed.
Lemma clock_log_filter : forall f l lo, clock_log lo l -> clock_log lo (filter f l).
Proof.
  intros f l. induction l as [|c l IH]; intros lo H; [exact H|]. destruct H as (A & B & C & D). cbn [filter]. destruct (f c).
  - split; [exact A|]. split; [exact B|]. split; [exact C|]. now apply IH.
  - apply (clock_log_mono _ (c_now2 c)); [lia|]. now apply IH.
Qed.
Lemma clock_logged : forall rp P qs lo r m r' m' log, clock_runs lo qs -> executes_all rp P r m qs = Ok (r', m', log) -> clock_log lo (map snd log).
Proof.
  intros rp P qs. induction qs as [|[s [n1 n2]] qs IH]; intros lo r m r' m' log C H; [injection H as <- <- <-; exact I|].
  cbn [executes_all] in H. destruct (executes_one rp P r m (s, (n1, n2))) as [[[r1 m1] l1]| |] eqn:E1; try discriminate H. cbn [obind] in H.
  destruct (executes_all rp P r1 m1 qs) as [[[r2 m2] l2]| |] eqn:E2; try discriminate H. cbn [obind] in H. injection H as <- <- <-.
  cbn [clock_runs] in C. destruct C as (A & B & D & F). pose proof (IH n2 r1 m1 r2 m2 l2 F E2) as G. rewrite map_app.
  unfold executes_one in E1. cbn [fst snd] in E1. destruct s as [x e|i ins outs|f x ys].
  - destruct (executes P r [(x, e)]) as [r3| |]; try discriminate E1. injection E1 as <- <- <-. apply (clock_log_mono _ n2); [lia|exact G].
  - destruct (inputs P r ins) as [vs| |]; try discriminate E1. cbn [obind] in E1.
    destruct (st_call rp (p_profile P) m (MCall i vs n1 n2)) as [m3| |]; try discriminate E1. cbn [obind] in E1.
    destruct (assign_outputs rp m3 i outs r) as [r3| |]; try discriminate E1. injection E1 as <- <- <-. cbn [map snd app clock_log c_now1 c_now2]. now repeat split.
  - destruct (value_of (api P) r (ModelLink.Call f (map Arg (x :: ys)))) as [[u r3]| |]; try discriminate E1. injection E1 as <- <- <-. apply (clock_log_mono _ n2); [lia|exact G].
Qed.
Lemma clock_history : forall i cs h lo, Forall2 (fun c x => c_inst c = i /\ c_inputs c = timer_ins x /\ c_now1 c = tc_t1 x /\ c_now2 c = tc_t2 x) cs h ->
  clock_log lo cs -> clock_from lo h /\ Forall (fun c => tc_t2 c < 2 ^ 63) h.
Proof.
  intros i cs h lo H. revert lo. induction H as [|c x cs h (_ & _ & A & B) H IH]; intros lo C; [split; [exact I|constructor]|].
  cbn [clock_log] in C. rewrite A, B in C. destruct C as (C1 & C2 & C3 & C4). destruct (IH _ C4) as [D1 D2]. split; [cbn [clock_from]; now repeat split|now constructor].
Qed.
Lemma timer_seen : forall rp P insts r m qs r' m' log i f s a b, ready rp P insts r m qs -> executes_all rp P r m qs = Ok (r', m', log) ->
  List.In i insts -> List.In (i_name i, f) timers -> List.In (i_name i, s) timer_values -> always i [("IN", a); ("PT", b)] qs ->
  exists h, Forall2 (fun e x => is_bool P (fst e) a (tc_in x) /\ is_whole P (fst e) b s (tc_pt x) /\
      c_now1 (snd e) = tc_t1 x /\ c_now2 (snd e) = tc_t2 x) (made_to i log) h /\ clock_ok h /\
    exists q et, timer_out_zeroed rp f h = Ok (q, et) /\ st_read rp m' i "Q" = Ok (VBool q) /\ st_read rp m' i "ET" = Ok (VInt et).
Proof.
  intros rp P insts r m qs r' m' log i f s a b RD E I U V AL. pose proof (if_timer _ s V) as IF.
  destruct (seen rp P insts r m qs r' m' log i _ _ RD E I IF) as (mi & Ri & RS & GD & SE).
  destruct (timer_history i _ s _ V GD) as (h & F & R). exists h. split.
  - refine (zip_impl _ _ _ _ _ _ _ (zip _ _ _ snd _ _ _ _ SE F)). intros [e k] x [(ins & outs & fs & IQ & IN & T) (_ & X & N1 & N2)]. cbn [fst snd] in *.
    rewrite (AL _ _ _ IQ) in IN, T. rewrite X in IN. cbn [map snd] in T. inversion T as [|? ? ? ? f1 g1 T1 T1']; subst. inversion T1' as [|? ? ? ? f2 g2 T2 T2']; subst.
    unfold timer_ins in IN. destruct (takes_bool P e a _ _ _ _ _ _ (proj1 RD) T1 IN) as [A IN1].
    destruct (takes_whole P e b _ _ _ _ _ _ _ (proj1 RD) T2 IN1) as [B _]. now repeat split.
  - split.
    + pose proof (clock_logged rp P qs 0 r m r' m' log (proj1 (proj2 (proj2 (proj2 RD)))) E) as CL.
      pose proof (clock_log_filter (fun c => same_instance (c_inst c) i) _ _ CL) as CF. fold (calls_of i (map snd log)) in CF. rewrite calls_made in CF.
      exact (clock_history i _ h 0 F CF).
    + destruct i as [n base]. cbn [i_name] in *. rewrite (run_timer _ _ h F) in Ri.
      pose proof (timer_runs rp (p_profile P) n f base m h U (proj1 (proj2 (proj2 RD)) _ I) R) as O. rewrite Ri in O. unfold outputs in O. cbn [omap obind map] in O. rewrite <- !RS in O.
      destruct (timer_out_zeroed rp f h) as [[q et]| |]; cbn [omap obind fst snd] in O; try discriminate O. injection O as O1 O2. exists q, et. now repeat split.
Qed.
Lemma delay_seen : forall P insts r m qs r' m' log i s a b, ready Tagged P insts r m qs ->
  executes_all Tagged P r m qs = Ok (r', m', log) -> List.In i insts ->
  List.In (i_name i) ["TON"; "TON_TIME"; "TON_LTIME"] -> List.In (i_name i, s) timer_values -> always i [("IN", a); ("PT", b)] qs ->
  exists h, Forall2 (fun e x => is_bool P (fst e) a (tc_in x) /\ is_whole P (fst e) b s (tc_pt x) /\
      c_now1 (snd e) = tc_t1 x /\ c_now2 (snd e) = tc_t2 x) (made_to i log) h /\
    forall h0 c, h = h0 ++ [c] -> preset_ok h ->
      exists q et, st_read Tagged m' i "Q" = Ok (VBool q) /\ st_read Tagged m' i "ET" = Ok (VInt et) /\
      (q, et) = match suffix_while tc_in h with
                | [] => (false, 0)
                | [_] => (false, 0)
                | f :: _ => (tc_pt c <? tc_t2 c - tc_t1 f, Z.min (tc_pt c) (tc_t1 c - tc_t1 f))
                end.
Proof.
  intros P insts r m qs r' m' log i s a b RD E I N V AL.
  assert (U : List.In (i_name i, TON) timers) by (unfold timers; cbn [List.In] in N |- *; destruct N as [<-|[<-|[<-|[]]]]; tauto).
  destruct (timer_seen Tagged P insts r m qs r' m' log i TON s a b RD E I U V AL) as (h & F & C & q & et & T & Q & ET). exists h. split; [exact F|].
  intros h0 c -> PO. exists q, et. split; [exact Q|]. split; [exact ET|]. rewrite zeroed_tagged, (ton_lemma h0 c C PO) in T. injection T as T. now symmetry.
Qed.
Lemma bistable_seen : forall rp P insts r m qs r' m' log i f va vb a b, ready rp P insts r m qs ->
  executes_all rp P r m qs = Ok (r', m', log) -> List.In i insts -> List.In (i_name i, f, (va, vb)) bistables ->
  always i [(va, a); (vb, b)] qs ->
  exists h, Forall2 (fun e x => is_bool P (fst e) a (fst x) /\ is_bool P (fst e) b (snd x)) (made_to i log) h /\
    st_read rp m' i "Q1" = Ok (VBool
      match last_such (fun x => fst x || snd x) h with
      | Some (s, k) => if String.eqb (i_name i) "SR" then s else negb k
      | None => false
      end).
Proof.
  intros rp P insts r m qs r' m' log i f va vb a b RD E I U AL. pose proof (if_bistable _ f va vb U) as IF.
  destruct (seen rp P insts r m qs r' m' log i _ _ RD E I IF) as (mi & Ri & RS & GD & SE).
  destruct (bistable_history i va vb _ GD) as (h & F). exists h. split.
  - refine (zip_impl _ _ _ _ _ _ _ (zip _ _ _ snd _ _ _ _ SE F)). intros [e k] x [(ins & outs & fs & IQ & IN & T) [_ X]]. cbn [fst snd] in *.
    rewrite (AL _ _ _ IQ) in IN, T. rewrite X in IN. cbn [map snd] in T. inversion T as [|? ? ? ? f1 g1 T1 T1']; subst. inversion T1' as [|? ? ? ? f2 g2 T2 T2']; subst.
    destruct (takes_bool P e a _ _ _ _ _ _ (proj1 RD) T1 IN) as [A IN1]. split; [exact A|]. exact (proj1 (takes_bool P e b _ _ _ _ _ _ (proj1 RD) T2 IN1)).
  - destruct i as [n base]. cbn [i_name] in *.
    assert (HL : forall u v, linked n (rust_code (p_profile P) u v) = Some (sr_code f)).
    { unfold bistables in U. cbn [List.In] in U. destruct U as [U|[U|[]]]; injection U as <- <- _ _; reflexivity. }
    rewrite (run_same _ (fun x => [(va, VBool (fst x)); (vb, VBool (snd x))]) rp (p_profile P) (MInst n base) _ HL _ h F m) in Ri.
    pose proof (sr_runs rp (p_profile P) n f va vb base m h U (proj1 (proj2 (proj2 RD)) _ I)) as O. rewrite Ri in O. unfold outputs in O. cbn [omap obind map] in O. rewrite <- !RS in O.
    injection O as O. rewrite O. f_equal. f_equal. unfold bistables in U. cbn [List.In] in U. destruct U as [U|[U|[]]]; injection U as <- <- _ _.
    + rewrite sr_spec. destruct (last_such _ h) as [[u v]|]; reflexivity.
    + rewrite rs_spec. destruct (last_such _ h) as [[u v]|]; reflexivity.
Qed.
Lemma instances : forall rp P insts r m qs r' m' log, ready rp P insts r m qs ->
  executes_all rp P r m qs = Ok (r', m', log) -> forall i, List.In i insts ->
  Forall (fun e => exists ins outs, List.In (Use i ins outs, (c_now1 (snd e), c_now2 (snd e))) qs /\
    inputs P (fst e) ins = Ok (c_inputs (snd e))) (made_to i log) /\
  exists mi, ModelMachine.run rp (p_profile P) m (map snd (made_to i log)) = Ok mi /\
    forall var, st_read rp m' i var = st_read rp mi i var.
Proof.
  intros rp P insts r m qs r' m' log RD E i I. pose proof (ready_statements _ _ _ _ _ _ RD) as S.
  destruct (logged rp P qs r m r' m' log E) as [R LG]. destruct RD as (SP & PL & Z0 & C & F). split.
  - apply Forall_forall. intros [e c] H. apply filter_In in H. destruct H as [H SI]. apply same_instance_iff in SI. cbn [fst snd] in *.
    rewrite Forall_forall in LG. destruct (LG (e, c) H) as (ins & outs & IQ & IN). cbn [fst snd] in *. rewrite SI in IQ. now exists ins, outs.
  - pose proof (proceeds rp P insts m r SP PL Z0 qs r m [] (fun x t H => H) eq_refl (Forall_nil _) S) as G. rewrite E in G. destruct G as (_ & _ & FI & _).
    assert (FL : Forall (fun c => List.In (c_inst c) insts) (map snd log)) by (refine (Forall_impl _ _ FI); intros d D; exact (proj1 D)).
    destruct (run_local rp (p_profile P) insts i (map snd log) m m PL I FL (fun a _ => eq_refl) m' R) as (mi & Ri & A).
    rewrite calls_made in Ri. exists mi. split; [exact Ri|]. intros var; exact (read_same rp i m' mi var A).
Qed.
Lemma proper_unique : forall r insts s fs fs', proper (variable r) insts s fs -> proper (variable r) insts s fs' -> fs = fs'.
Proof.
  intros r insts s fs fs' H H'. inversion H as [x e t s' fs1 X E C|i ins outs its ots fs1 I IF N T O|f x ys tx t SF X T ND Y]; subst.
  - inversion H'; subst. exact (proj2 (proj1 (unique (variable r) (variable_unique r)) _ _ _ E _ _ ltac:(eassumption))).
  - inversion H' as [|? ? ? its' ots' fs2 I' IF' N' T' O'|]; subst. f_equal. exact (proj2 (proj2 (unique (variable r) (variable_unique r)) _ _ _ T _ _ T')).
  - inversion H' as [| |? ? ? tx' t' SF' X' T' ND' Y']; subst. destruct ys as [|y ys]; [exfalso; clear -SF; destruct SF as [S|[S|[S|[S|[]]]]]; discriminate S|].
    inversion Y; inversion Y'; subst. now rewrite (variable_unique r y t t') by assumption.
Qed.
Lemma program_cycles : forall rp P insts r m prog, sane P -> placed rp insts -> (forall i, List.In i insts -> zeroed rp m i) ->
  Forall (fun s => exists fs, proper (variable r) insts s fs /\
    forall n, List.In n fs -> ~ List.In n (pulses ++ aborting ++ can_abort (p_profile P) ++ undefined)) prog ->
  forall k qs, map fst qs = concat (repeat prog k) -> clock_runs 0 qs ->
  exists r' m' log, executes_all rp P r m qs = Ok (r', m', log) /\ forall x t, variable r x t -> variable r' x t.
Proof.
  intros rp P insts r m prog SP PL Z0 F k qs E C.
  assert (Q : forall q, List.In q qs -> List.In (fst q) prog).
  { intros q H. apply (in_map fst) in H. rewrite E in H. apply in_concat in H. destruct H as (l & L & H). apply repeat_spec in L. now subst l. }
  rewrite Forall_forall in F.
  assert (RD : ready rp P insts r m qs).
  { split; [exact SP|]. split; [exact PL|]. split; [exact Z0|]. split; [exact C|]. apply Forall_forall. intros q H. destruct (F _ (Q q H)) as (fs & A & _). now exists fs. }
  pose proof (program_goes_on rp P insts r m qs RD) as G. destruct (executes_all rp P r m qs) as [[[r' m'] log]| |].
  - now exists r', m', log.
  - exfalso. destruct G as (q & fs & n & H & A & N & L). destruct (F _ (Q q H)) as (fs' & A' & N'). rewrite (proper_unique _ _ _ _ _ A A') in N.
    apply (N' n N). rewrite !app_assoc in *. apply in_or_app. now left.
  - exfalso. destruct G as (q & fs & n & H & A & N & L). destruct (F _ (Q q H)) as (fs' & A' & N'). rewrite (proper_unique _ _ _ _ _ A A') in N.
    apply (N' n N). rewrite !app_assoc in *. apply in_or_app. now right.
Qed.
