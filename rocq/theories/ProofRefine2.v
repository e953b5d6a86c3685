(** Proofs about the meaning of programs: what a block shows. *)
From Coq Require Import String ZArith List Bool Lia Reals.
From Verif Require Import Base ModelFB ModelCounters ModelTimers ModelLayout ModelMachine ModelFloat ModelString ModelLink ModelLib ModelApi
  SpecFB SpecLayout SpecMachine SpecScalar SpecText SpecLink SpecLib SpecSafe SpecApi SpecCall SpecExpr SpecTerm SpecType SpecProgram SpecRefine
  ProofBase ProofFB ProofTimers ProofTP ProofLayout ProofMachine ProofMachine2 ProofType ProofTerm ProofTerm3
  ProofProgram ProofProgram2 ProofProgram3 ProofProgram4 ProofRefine.
Import ListNotations.
Open Scope string_scope.
Open Scope list_scope.
Open Scope Z_scope.
Local Opaque ModelApi.call value_in api.

Section Blocks.
Variables (rp : option_repr) (p : profile) (m : ModelLayout.mem) (i : instance).
Hypothesis Z0 : zeroed rp m i.

Lemma up_state : forall t s h, List.In (i_name i, t) up_counters -> List.In (s, t) counter_values -> 
  let its := [("CU", S_BOOL); ("R", S_BOOL); ("PV", s)] in Forall (event_ok its) h ->
  exists mi v, mrun rp p m (map (as_call i its) h) = Ok mi /\ up_count t (map up_input h) v /\ of_type s v /\ st_read rp mi i "CV" = Ok (VInt v) /\
    forall h0 e, h = h0 ++ [e] -> st_read rp mi i "Q" = Ok (VBool (cui_pv (up_input e) <=? v)).
Proof.
  intros t s h U V its F. destruct i as [n base]. cbn [i_name] in *. destruct (up_tables n t U) as (T & HR & HS & HL).
  assert (M : Forall2 (fun c x => c_inst c = MInst n base /\ c_inputs c = ctu_ins x) (map (as_call (MInst n base) its) h) (map up_input h)).
  { apply (mapped _ _ _ _ _ _ _ _ F). intros [zs a b] E. unfold its in *. inputs_of E. cbn [v_inputs] in *. subst. split; [reflexivity|]. unfold as_call, named. cbn [v_inputs combine map fst snd c_inputs up_input].
    rewrite (counter_not_bool s t _ V). reflexivity. }
  assert (R : Forall (fun x => in_ity t (cui_pv x)) (map up_input h)).
  { apply (mapped_all _ _ _ _ _ _ F). intros [zs a b] E. unfold its in *. inputs_of E. cbn [v_inputs snd] in *. subst. unfold up_input. cbn [v_inputs cui_pv]. now apply (counter_in s t _ V). }
  rewrite (run_same _ ctu_ins rp p (MInst n base) _ (HL p) _ _ M m).
  pose proof (ctu_runs rp p n t base m _ U Z0 R) as O. destruct (up_counted p t (map up_input h) (same_ctypes t T)) as (x & E & I & _ & C & Q). rewrite E in O. cbn [omap obind] in O.
  destruct (outputs_ok _ _ _ _ _ O) as (mi & Ri & W). cbn [map] in W. injection W as W1 W2. exists mi, (ctu_cv x). split; [exact Ri|]. split; [exact C|].
  split; [now apply (counter_in s t _ V)|]. split; [exact W2|]. intros h0 e ->. rewrite map_app in Q. rewrite W1. now rewrite (Q _ _ eq_refl).
Qed.
Lemma down_state : forall t s h, List.In (i_name i, t) down_counters -> List.In (s, t) counter_values -> 
  let its := [("CD", S_BOOL); ("LD", S_BOOL); ("PV", s)] in Forall (event_ok its) h ->
  exists mi v, mrun rp p m (map (as_call i its) h) = Ok mi /\ down_count t (map down_input h) v /\ of_type s v /\ st_read rp mi i "CV" = Ok (VInt v) /\
    forall h0 e, h = h0 ++ [e] -> st_read rp mi i "Q" = Ok (VBool (v <=? 0)).
Proof.
  intros t s h U V its F. destruct i as [n base]. cbn [i_name] in *. destruct (down_tables n t U) as (T & HR & HS & HL).
  assert (M : Forall2 (fun c x => c_inst c = MInst n base /\ c_inputs c = ctd_ins x) (map (as_call (MInst n base) its) h) (map down_input h)).
  { apply (mapped _ _ _ _ _ _ _ _ F). intros [zs a b] E. unfold its in *. inputs_of E. cbn [v_inputs] in *. subst. split; [reflexivity|]. unfold as_call, named. cbn [v_inputs combine map fst snd c_inputs down_input].
    rewrite (counter_not_bool s t _ V). reflexivity. }
  assert (R : Forall (fun x => in_ity t (cdi_pv x)) (map down_input h)).
  { apply (mapped_all _ _ _ _ _ _ F). intros [zs a b] E. unfold its in *. inputs_of E. cbn [v_inputs snd] in *. subst. unfold down_input. cbn [v_inputs cdi_pv]. now apply (counter_in s t _ V). }
  rewrite (run_same _ ctd_ins rp p (MInst n base) _ (HL p) _ _ M m).
  pose proof (ctd_runs rp p n t base m _ U Z0 R) as O. destruct (down_counted p t (map down_input h) (same_ctypes t T) R) as (x & E & I & _ & C & Q). rewrite E in O. cbn [omap obind] in O.
  destruct (outputs_ok _ _ _ _ _ O) as (mi & Ri & W). cbn [map] in W. injection W as W1 W2. exists mi, (ctd_cv x). split; [exact Ri|]. split; [exact C|].
  split; [now apply (counter_in s t _ V)|]. split; [exact W2|]. intros h0 e ->. rewrite map_app in Q. rewrite W1. now rewrite (Q _ _ eq_refl).
Qed.
Lemma up_down_state : forall t s h, List.In (i_name i, t) up_down_counters -> List.In (s, t) counter_values -> 
  let its := [("CU", S_BOOL); ("CD", S_BOOL); ("R", S_BOOL); ("LD", S_BOOL); ("PV", s)] in Forall (event_ok its) h ->
  exists mi v, mrun rp p m (map (as_call i its) h) = Ok mi /\ up_down_count t (map up_down_input h) v /\ of_type s v /\ st_read rp mi i "CV" = Ok (VInt v) /\
    forall h0 e, h = h0 ++ [e] -> st_read rp mi i "QU" = Ok (VBool (cudi_pv (up_down_input e) <=? v)) /\ st_read rp mi i "QD" = Ok (VBool (v <=? 0)).
Proof.
  intros t s h U V its F. destruct i as [n base]. cbn [i_name] in *. destruct (up_down_tables n t U) as (T & HR & HS & HL).
  assert (M : Forall2 (fun c x => c_inst c = MInst n base /\ c_inputs c = ctud_ins x) (map (as_call (MInst n base) its) h) (map up_down_input h)).
  { apply (mapped _ _ _ _ _ _ _ _ F). intros [zs a b] E. unfold its in *. inputs_of E. cbn [v_inputs] in *. subst. split; [reflexivity|]. unfold as_call, named. cbn [v_inputs combine map fst snd c_inputs up_down_input].
    rewrite (counter_not_bool s t _ V). reflexivity. }
  assert (R : Forall (fun x => in_ity t (cudi_pv x)) (map up_down_input h)).
  { apply (mapped_all _ _ _ _ _ _ F). intros [zs a b] E. unfold its in *. inputs_of E. cbn [v_inputs snd] in *. subst. unfold up_down_input. cbn [v_inputs cudi_pv]. now apply (counter_in s t _ V). }
  rewrite (run_same _ ctud_ins rp p (MInst n base) _ (HL p) _ _ M m).
  pose proof (ctud_runs rp p n t base m _ U Z0 R) as O. destruct (up_down_counted p t (map up_down_input h) (same_ctypes t T) R) as (x & E & C & Q). rewrite E in O. cbn [omap obind] in O.
  destruct (outputs_ok _ _ _ _ _ O) as (mi & Ri & W). cbn [map] in W. injection W as W1 W2 W3. exists mi, (cud_cv x). split; [exact Ri|]. split; [exact C|].
  split. { apply (counter_in s t _ V). refine (read_int rp (MInst n base) _ "CV" t _ mi _ HS _ (ctypes_bits t T) W3). reflexivity. }
  split; [exact W3|]. intros h0 e ->. rewrite map_app in Q. destruct (Q _ _ eq_refl) as [Q1 Q2]. rewrite W1, W2, Q1, Q2. now split.
Qed.
Lemma bistable_state : forall f a b h, List.In (i_name i, f, (a, b)) bistables ->
  let its := [(a, S_BOOL); (b, S_BOOL)] in Forall (event_ok its) h ->
  exists mi, mrun rp p m (map (as_call i its) h) = Ok mi /\
    st_read rp mi i "Q1" = Ok (VBool match last_such (fun x => fst x || snd x) (map two_inputs h) with
      | Some (s, k) => if String.eqb (i_name i) "SR" then s else negb k
      | None => false
      end).
Proof.
  intros f a b h U its F. destruct i as [n base]. cbn [i_name] in *.
  assert (M : Forall2 (fun c x => c_inst c = MInst n base /\ c_inputs c = [(a, VBool (fst x)); (b, VBool (snd x))]) (map (as_call (MInst n base) its) h) (map two_inputs h)).
  { apply (mapped _ _ _ _ _ _ _ _ F). intros [zs u v] E. unfold its in *. inputs_of E. cbn [v_inputs] in *. subst. split; reflexivity. }
  assert (HL : forall u v, linked n (rust_code p u v) = Some (sr_code f)).
  { unfold bistables in U. cbn [List.In] in U. destruct U as [U|[U|[]]]; injection U as <- <- _ _; reflexivity. }
  rewrite (run_same _ (fun x => [(a, VBool (fst x)); (b, VBool (snd x))]) rp p (MInst n base) _ HL _ _ M m).
  pose proof (sr_runs rp p n f a b base m (map two_inputs h) U Z0) as O. destruct (outputs_ok _ _ _ _ _ O) as (mi & Ri & W). cbn [map] in W. injection W as W1.
  exists mi. split; [exact Ri|]. rewrite W1. f_equal. f_equal. unfold bistables in U. cbn [List.In] in U. destruct U as [U|[U|[]]]; injection U as <- <- _ _.
  - rewrite sr_spec. destruct (last_such _ _) as [[u v]|]; reflexivity.
  - rewrite rs_spec. destruct (last_such _ _) as [[u v]|]; reflexivity.
Qed.
Lemma trigger_state : forall f h, List.In (i_name i, f) triggers ->
  let its := [("CLK", S_BOOL)] in Forall (event_ok its) h ->
  exists mi, mrun rp p m (map (as_call i its) h) = Ok mi /\
    st_read rp mi i "Q" = Ok (VBool (List.last (trig_outputs f trigger_default (map one_input h)) false)).
Proof.
  intros f h U its F. destruct i as [n base]. cbn [i_name] in *.
  assert (M : Forall2 (fun c x => c_inst c = MInst n base /\ c_inputs c = [("CLK", VBool x)]) (map (as_call (MInst n base) its) h) (map one_input h)).
  { apply (mapped _ _ _ _ _ _ _ _ F). intros [zs u v] E. unfold its in *. inputs_of E. cbn [v_inputs] in *. subst. split; reflexivity. }
  assert (HL : forall u v, linked n (rust_code p u v) = Some (trig_code f)).
  { unfold triggers in U. cbn [List.In] in U. destruct U as [U|[U|[]]]; injection U as <- <-; reflexivity. }
  rewrite (run_same _ (fun x => [("CLK", VBool x)]) rp p (MInst n base) _ HL _ _ M m).
  pose proof (trig_runs rp p n f base m (map one_input h) U Z0) as O. destruct (outputs_ok _ _ _ _ _ O) as (mi & Ri & W). cbn [map] in W. injection W as W1.
  exists mi. now split.
Qed.
Lemma timer_state : forall f s h, List.In (i_name i, f) timers -> List.In (i_name i, s) timer_values ->
  let its := [("IN", S_BOOL); ("PT", s)] in Forall (event_ok its) h ->
  match timer_out_zeroed rp f (map timed_input h) with
  | Ok (q, et) => exists mi, mrun rp p m (map (as_call i its) h) = Ok mi /\ st_read rp mi i "Q" = Ok (VBool q) /\ st_read rp mi i "ET" = Ok (VInt et) /\ of_type s et
  | Panic => mrun rp p m (map (as_call i its) h) = Panic
  | Ub => False
  end.
Proof.
  intros f s h U V its F. destruct i as [n base]. cbn [i_name] in *.
  assert (M : Forall2 (fun c x => c_inst c = MInst n base /\ c_inputs c = timer_ins x /\ c_now1 c = tc_t1 x /\ c_now2 c = tc_t2 x) (map (as_call (MInst n base) its) h) (map timed_input h)).
  { apply (mapped _ _ _ _ _ _ _ _ F). intros [zs a b] E. unfold its in *. inputs_of E. cbn [v_inputs] in *. subst. split; [reflexivity|]. unfold as_call, named, timed_input. cbn [v_inputs combine map fst snd c_inputs c_now1 c_now2 v_now1 v_now2 tc_t1 tc_t2].
    rewrite (timer_not_bool n s _ V). split; [reflexivity|]. split; reflexivity. }
  assert (R : Forall (fun x => in_ity i64 (tc_pt x) /\ 0 <= tc_t1 x < 2 ^ 63) (map timed_input h)).
  { apply (mapped_all _ _ _ _ _ _ F). intros [zs a b] E. pose proof (proj2 E) as N. unfold its in *. inputs_of E. cbn [v_inputs snd v_now1] in *. subst. unfold timed_input. cbn [v_inputs tc_pt tc_t1 v_now1].
    split; [now apply (timer_in n s _ V)|exact N]. }
  rewrite (run_timer _ _ _ M). destruct (timer_tables n f U) as (HR & HS & HL).
  pose proof (timer_runs rp p n f base m _ U Z0 R) as O.
  assert (NU : timer_out_zeroed rp f (map timed_input h) <> Ub).
  { unfold timer_out_zeroed. pose proof (not_ub f) as NU. intros X. destruct (timer_run f (timer_zeroed rp) (map timed_input h)) eqn:E; try discriminate X. refine (NU _ _ _ E).
    unfold timers in U. cbn [List.In] in U |- *. repeat (destruct U as [U|U]; [injection U as _ <-; tauto|]). contradiction. }
  destruct (timer_out_zeroed rp f (map timed_input h)) as [[q et]| |]; cbn [omap obind fst snd] in O; [|match type of O with outputs _ _ _ ?o = _ => destruct o; [discriminate O|reflexivity|discriminate O] end|now apply NU].
  destruct (outputs_ok _ _ _ _ _ O) as (mi & Ri & W). cbn [map fst snd] in W. injection W as W1 W2. exists mi. split; [exact Ri|]. split; [exact W1|]. split; [exact W2|].
  apply (timer_in n s _ V). refine (read_int rp (MInst n base) _ "ET" i64 _ mi _ HS _ _ W2); reflexivity.
Qed.

(** What the block shows is what the program reads. *)
Definition reads (mi : ModelLayout.mem) (var : string) (w : meaning) : Prop :=
  exists v x, st_read rp mi i var = Ok v /\ as_value v = Ok x /\ stands_for (kind_type w, x) w.
Lemma reads_bool : forall mi var b, st_read rp mi i var = Ok (VBool b) -> reads mi var (Whole S_BOOL (Z.b2z b)).
Proof. intros mi var b H. exists (VBool b), (VZ (Z.b2z b)). split; [exact H|]. split; [reflexivity|]. split; [reflexivity|]. destruct b; unfold of_type; cbn; lia. Qed.
Lemma reads_whole : forall mi var s z, st_read rp mi i var = Ok (VInt z) -> of_type s z -> reads mi var (Whole s z).
Proof. intros mi var s z H T. exists (VInt z), (VZ z). split; [exact H|]. split; [reflexivity|]. now split. Qed.
Lemma rising_last : forall h x, List.last (trig_outputs R_TRIG trigger_default (h ++ [x])) false = x && negb (List.last h false).
Proof.
  intros h0 x.
  assert (L : length (trig_outputs R_TRIG trigger_default (h0 ++ [x])) = length (h0 ++ [x])) by apply trig_outputs_length.
  destruct (exists_last (l := trig_outputs R_TRIG trigger_default (h0 ++ [x]))) as (l & y & Y); [intros X; rewrite X in L; rewrite app_length in L; cbn in L; lia|].
  pose proof (r_trig_spec (h0 ++ [x]) (length h0) ltac:(rewrite app_length; cbn; lia)) as S. rewrite Y in *. rewrite last_last. rewrite !app_length in L. cbn in L.
  rewrite app_nth2 in S by lia. replace (length h0 - length l)%nat with O in S by lia. cbn [nth] in S. rewrite S. rewrite app_nth2, Nat.sub_diag by lia. cbn [nth]. f_equal. f_equal.
  unfold previous. destruct h0 as [|z h0] using rev_ind; [reflexivity|]. rewrite app_length. cbn [length]. rewrite Nat.add_1_r. rewrite last_last, <- app_assoc, app_nth2, Nat.sub_diag by lia. reflexivity.
Qed.
Lemma falling_last : forall h x, List.last (trig_outputs F_TRIG trigger_default (h ++ [x])) false = negb x && List.last h false.
Proof.
  intros h0 x.
  assert (L : length (trig_outputs F_TRIG trigger_default (h0 ++ [x])) = length (h0 ++ [x])) by apply trig_outputs_length.
  destruct (exists_last (l := trig_outputs F_TRIG trigger_default (h0 ++ [x]))) as (l & y & Y); [intros X; rewrite X in L; rewrite app_length in L; cbn in L; lia|].
  pose proof (f_trig_spec (h0 ++ [x]) (length h0) ltac:(rewrite app_length; cbn; lia)) as S. rewrite Y in *. rewrite last_last. rewrite !app_length in L. cbn in L.
  rewrite app_nth2 in S by lia. replace (length h0 - length l)%nat with O in S by lia. cbn [nth] in S. rewrite S. rewrite app_nth2, Nat.sub_diag by lia. cbn [nth]. f_equal.
  unfold previous. destruct h0 as [|z h0] using rev_ind; [reflexivity|]. rewrite app_length. cbn [length]. rewrite Nat.add_1_r. rewrite last_last, <- app_assoc, app_nth2, Nat.sub_diag by lia. reflexivity.
Qed.
End Blocks.

(** * Timers *)
Lemma in_range_expired : forall pt d, (pt <? 0) || (d <=? pt) = negb (expired pt d).
Proof. intros pt d. unfold expired. destruct (Z.ltb_spec pt 0), (Z.leb_spec d pt), (Z.leb_spec 0 pt), (Z.ltb_spec pt d); cbn; lia. Qed.
Lemma on_delay_out : forall h c, clock_ok (h ++ [c]) -> preset_i64 (h ++ [c]) -> timer_out TON (h ++ [c]) = Ok (on_delay h c).
Proof.
  intros h c C P. rewrite (ton_gen h c C P). unfold ton_spec, on_delay. destruct (suffix_while tc_in (h ++ [c])) as [|f [|g r]]; trivial. now rewrite in_range_expired, negb_involutive.
Qed.
Lemma off_delay_out : forall h c, clock_ok (h ++ [c]) -> preset_i64 (h ++ [c]) -> timer_out TOF (h ++ [c]) = Ok (off_delay h c).
Proof.
  intros h c C P. rewrite (tof_gen h c C P). unfold tof_spec, off_delay. destruct (tc_in c); trivial. destruct (existsb tc_in h); trivial. unfold tc_off. destruct (suffix_while _ (h ++ [c])) as [|f [|g r]]; trivial. now rewrite in_range_expired.
Qed.
Lemma lvl_last : forall h, lvl h = List.last (map tc_in h) false.
Proof. intros h. destruct h as [|c h _] using rev_ind; [reflexivity|]. rewrite lvl_snoc, map_app. cbn [map]. now rewrite last_last. Qed.
Lemma pulse_state : forall h o, pulse h o -> clock_ok h -> preset_i64 h -> exists t, timer_run TP timer_default h = Ok t /\ t_start t = o.
Proof.
  intros h o H. induction H as [|h c H IH I|h c s H IH]; intros C P; [now exists timer_default| |];
    destruct (IH (clock_ok_app_l _ _ C) (preset_i64_app_l _ _ P)) as (t & R & S); rewrite timer_run_snoc, R; cbn [obind]; rewrite tp_call_eq, S; destruct (tp_inv h t R) as (E & _ & N).
  - destruct (N S) as (E' & _). rewrite E', I. cbn [current_value negb andb]. eexists. split; reflexivity.
  - rewrite (tp_in_rng h t s c C (preset_i64_last _ _ P) R S), in_range_expired, E. cbn [current_value]. rewrite lvl_last. unfold forgotten.
    destruct (expired (tc_pt c) (tc_t2 c - s)); cbn [negb andb]; [|eexists; split; reflexivity]. destruct (List.last (map tc_in h) false && negb (tc_in c)); eexists; split; reflexivity.
Qed.
Lemma pulse_begins : forall h c, pulse h None -> tc_in c = true -> clock_ok (h ++ [c]) -> preset_i64 (h ++ [c]) -> timer_out TP (h ++ [c]) = Ok (true, 0).
Proof.
  intros h c H I C P. destruct (pulse_state h None H (clock_ok_app_l _ _ C) (preset_i64_app_l _ _ P)) as (t & R & S). unfold timer_out. rewrite timer_run_snoc, R. cbn [obind]. rewrite tp_call_eq, S.
  destruct (tp_inv h t R) as (_ & _ & N). destruct (N S) as (E' & _). now rewrite E', I.
Qed.
Lemma pulse_aborts : forall h c, pulse h None -> tc_in c = false -> clock_ok h -> preset_i64 h -> timer_out TP (h ++ [c]) = Panic.
Proof.
  intros h c H I C P. destruct (pulse_state h None H C P) as (t & R & S). unfold timer_out. rewrite timer_run_snoc, R. cbn [obind]. now rewrite tp_call_eq, S, I.
Qed.
Lemma pulse_goes : forall h c s, pulse h (Some s) -> clock_ok (h ++ [c]) -> preset_i64 (h ++ [c]) ->
  timer_out TP (h ++ [c]) = Ok (negb (expired (tc_pt c) (tc_t2 c - s)), if forgotten h c s then 0 else Z.min (tc_pt c) (tc_t1 c - s)).
Proof.
  intros h c s H C P. destruct (pulse_state h _ H (clock_ok_app_l _ _ C) (preset_i64_app_l _ _ P)) as (t & R & S). unfold timer_out. rewrite timer_run_snoc, R. cbn [obind]. rewrite tp_call_eq, S.
  rewrite (proj1 (tp_elapsed h t s c C R S)). destruct (tp_inv h t R) as (E & _).
  rewrite (tp_in_rng h t s c C (preset_i64_last _ _ P) R S), in_range_expired, E. cbn [current_value]. rewrite lvl_last. unfold forgotten.
  destruct (expired (tc_pt c) (tc_t2 c - s)); cbn [negb andb]; [|reflexivity]. destruct (List.last (map tc_in h) false && negb (tc_in c)); reflexivity.
Qed.
Lemma pulse_goes_on : forall h c o, pulse h o -> (exists o', pulse (h ++ [c]) o') \/ o = None /\ tc_in c = false.
Proof.
  intros h c [t|] H; [left; eexists; exact (pu_call h c t H)|]. destruct (tc_in c) eqn:E; [left; eexists; exact (pu_begin h c H E)|now right].
Qed.
Lemma pulse_last : forall h c o, pulse (h ++ [c]) o -> exists o', pulse h o' /\ (o' = None -> tc_in c = true).
Proof.
  intros h c o H. inversion H as [E|h' c' K I E|h' c' t K E]; [now destruct h| |]; apply app_inj_tail in E; destruct E as [-> ->]; eexists; (split; [exact K|]); intros; [exact I|discriminate].
Qed.
