(** Proofs about programs that mix numbers, dates, texts and function blocks: execution. *)
From Coq Require Import String ZArith Lia List Bool.
From Verif Require Import Base ModelFB ModelCounters ModelTimers ModelLayout ModelMachine ModelFloat ModelString ModelWrap ModelLink ModelLib ModelApi
  SpecFB SpecLayout SpecMachine SpecScalar SpecText SpecLink SpecLib SpecWrap SpecConv SpecSafe SpecApi SpecCall SpecExpr SpecTerm SpecType SpecProgram SpecSize SpecWhole
  ProofBase ProofFB ProofTimers ProofTP ProofLayout ProofMachine ProofMachine2 ProofType ProofSplit ProofProgram ProofProgram2 ProofProgram3 ProofProgram4 ProofSize ProofWhole ProofWhole2.
Import ListNotations.
Open Scope string_scope.
Open Scope list_scope.
Open Scope Z_scope.
Local Opaque ModelApi.call value_in api.

Lemma put_known : forall G r x s t v w, as_known G r -> G x = Some s -> get x r = Ok (t, v) -> is_known s (t, w) -> as_known G (ModelLink.put x w r).
Proof.
  intros G r x s t v w D X E K y u Y. destruct (D y u Y) as ((ty & vy) & EY & KY). exists (ty, if String.eqb y x then w else vy). split; [exact (get_put x y w r ty vy EY)|].
  destruct (String.eqb y x) eqn:Q; [|exact KY]. apply String.eqb_eq in Q. subst y. rewrite X in Y. injection Y as <-. rewrite E in EY. injection EY as <- _. exact K.
Qed.
Lemma let_known : forall P G insts r x e fs, sane P -> as_known G r -> sound (p_profile P) G insts (Let x e) fs ->
  halted P fs (executes P r [(x, e)]) (as_known G).
Proof.
  intros P G insts r x e fs SP D H. cbn [executes].
  inversion H as [? ? s t b c ? X M C B|? ? k n ? X M| |]; subst.
  - eapply halted_bind; [exact (proj1 (values_makes P G r SP D) e _ fs M)|exact (fun x H => H)|]. intros [s' v] (S & V & N). cbn [fst snd] in S, V, N. subst s'.
    destruct (D x _ X) as ((t' & a) & E & (T & A & _)). cbn [fst snd] in T, A. subst t'. rewrite E. cbn [obind]. destruct (converted s t v C V) as (w & W & HW). rewrite W. cbn [obind halted].
    apply (put_known G r x (A_value t b) t a w D X E). split; [reflexivity|]. split; [exact HW|]. intros Y. destruct (B Y) as [-> ->]. rewrite coerce_same in W. injection W as <-. exact (N eq_refl).
  - eapply halted_bind; [exact (proj1 (values_makes P G r SP D) e _ fs M)|exact (fun x H => H)|]. intros [s' v] K.
    destruct (D x _ X) as ((t' & a) & E & KX). rewrite E. cbn [obind].
    assert (S : s' = string_type k /\ t' = string_type k).
    { destruct K as (d & u & Q & _). destruct KX as (d' & u' & Q' & _). injection Q as -> _. injection Q' as -> _. now split. }
    destruct S as [-> ->]. rewrite coerce_same. cbn [obind halted]. exact (put_known G r x (A_text k n) _ a v D X E K).
Qed.
Lemma inputs_known : forall P G r its, sane P -> as_known G r -> forall ins fs, Forall simple (map snd its) -> map fst ins = map fst its ->
  make_all (p_profile P) G (map snd ins) (map any_value (map snd its)) fs ->
  halted P fs (inputs P r ins) (fun vs => Forall2 (fun a b => fst a = fst b /\ fitting (snd b) (snd a)) vs its).
Proof.
  intros P G r its SP D. induction its as [|[n t] its IH]; intros [|[n' e] ins] fs S N H; try discriminate N; [constructor|].
  cbn [map fst snd] in *. injection N as -> N. inversion S as [|? ? S1 S2]; subst. inversion H as [|? ? ? ? fs1 gs H1 H2]; subst. cbn [inputs].
  eapply halted_bind; [exact (proj1 (values_makes P G r SP D) e _ fs1 H1)|sub_list|]. intros [t' v] (X & V & _). cbn [fst snd] in X, V. subst t'.
  destruct (S1 v V) as (w & -> & W). cbn [obind]. eapply halted_bind; [exact (IH ins gs S2 N H2)|sub_list|]. intros vs F. cbn [halted]. constructor; [split; [reflexivity|exact W]|exact F].
Qed.
Lemma outputs_known : forall rp m i ots G, delivers_outputs rp i ots m -> forall outs r, as_known G r ->
  Forall (fun o => exists t, List.In (snd o, t) ots /\ G (fst o) = Some (any_value t)) outs ->
  exists r', assign_outputs rp m i outs r = Ok r' /\ as_known G r'.
Proof.
  intros rp m i ots G DO outs. induction outs as [|[x var] outs IH]; intros r D F; [exists r; now split|].
  inversion F as [|? ? (t & T & X) F2]; subst. cbn [fst snd] in *. cbn [assign_outputs]. destruct (DO var t T) as (v & w & -> & W & Hw). cbn [obind]. rewrite W. cbn [obind].
  destruct (D x _ X) as ((t' & a) & E & (T' & _)). cbn [fst] in T'. subst t'. apply IH; [|exact F2].
  apply (put_known G r x (any_value t) t a w D X E). split; [reflexivity|]. split; [exact Hw|discriminate].
Qed.
Lemma split_known : forall P G r f x ys tx t b, as_known G r -> List.In (f, tx, length ys) splittable -> G x = Some (A_value tx b) -> List.In t wide_ints -> NoDup ys ->
  Forall (fun y => exists c, G y = Some (A_value t c)) ys ->
  exists u r', value_of (api P) r (ModelLink.Call f (map Arg (x :: ys))) = Ok (u, r') /\ as_known G r'.
Proof.
  intros P G r f x ys tx t b D SP X T ND Y. destruct (D x _ X) as ((tx' & v) & E & (Q & H & _)). cbn [fst snd] in Q, H. subst tx'. destruct (split_holds f tx _ v SP H) as (n & -> & I).
  destruct (split_runs P r f tx t x ys n SP T E I) as (parts & r' & S & _ & O & _).
  { split; [exact ND|]. refine (Forall_impl _ _ Y). intros y (c & A). destruct (D y _ A) as ((t' & a) & EY & (Q & _)). cbn [fst] in Q. subst t'. now exists a. }
  exists (S_INT, VZ 0), r'. split; [exact (proj1 S)|]. intros y s Q. destruct (in_dec string_dec y ys) as [IN|NI].
  - destruct (split_reads P r f x ys t parts r' S O y IN) as (z & EZ & Z & Z1). rewrite Forall_forall in Y. destruct (Y y IN) as (c & A). rewrite A in Q. injection Q as <-.
    exists (t, VZ z). split; [exact EZ|]. split; [reflexivity|]. split; [exact (wide_holds t z T Z)|]. intros _. exists z. now split.
  - rewrite (proj2 (proj2 S) y NI). exact (D y s Q).
Qed.
Lemma step_known : forall rp P G insts m0 r m L q fs, sane P -> as_known G r -> placed rp insts -> (forall i, List.In i insts -> zeroed rp m0 i) ->
  mrun rp (p_profile P) m0 L = Ok m -> Forall (fine insts) L -> sound (p_profile P) G insts (fst q) fs -> 0 <= fst (snd q) < 2 ^ 63 ->
  halted P fs (executes_one rp P r m q) (fun '(r', m', l) =>
    as_known G r' /\ mrun rp (p_profile P) m0 (L ++ map snd l) = Ok m' /\ Forall (fine insts) (map snd l) /\ Forall (fun e => fst e = r) l).
Proof.
  intros rp P G insts m0 r m L [s [n1 n2]] fs SP D PL Z0 R F H N. cbn [fst snd] in *. unfold executes_one. cbn [fst snd]. destruct s as [x e|i ins outs|f x ys].
  - eapply halted_bind; [exact (let_known P G insts r x e fs SP D H)|exact (fun x H => H)|]. intros r' D'. cbn [halted map]. split; [exact D'|]. rewrite app_nil_r. split; [exact R|]. split; constructor.
  - inversion H as [| |? ? ? its ots fs' I IF M T O|]; subst.
    eapply halted_bind; [exact (inputs_known P G r its SP D ins fs' (interface_simple _ _ _ IF) M T)|clear; intros ? ?; now right|]. intros vs V. cbv zeta.
    set (c := MCall i vs n1 n2). assert (FC : fine insts c) by (split; [exact I|]; exists its, ots; split; [exact IF|]; split; [exact V|exact N]).
    assert (FL : Forall (fun c => List.In (c_inst c) insts) L) by (refine (Forall_impl _ _ F); intros d Q; exact (proj1 Q)).
    destruct (run_local rp (p_profile P) insts i L m0 m0 PL I FL (fun a _ => eq_refl) m R) as (mi & Ri & A).
    pose proof (block_runs rp (p_profile P) m0 i its ots (calls_of i L ++ [c]) IF (Z0 i I)) as B.
    rewrite run_app, Ri in B. cbn [obind ModelMachine.run] in B.
    assert (CL : same_on (occupies rp i) (st_call rp (p_profile P) m c) (st_call rp (p_profile P) mi c)) by (apply (call_local rp (p_profile P) m mi c); exact A).
    assert (GC : Forall (fun c => c_inst c = i /\ good its c) (calls_of i L ++ [c])).
    { apply Forall_app. split; [exact (fine_calls insts i its ots L IF F)|]. constructor; [|constructor]. split; [reflexivity|]. split; [exact V|exact N]. }
    specialize (B GC). destruct (st_call rp (p_profile P) m c) as [m1| |] eqn:E1, (st_call rp (p_profile P) mi c) as [m2| |]; try contradiction CL; cbn [obind halted same_on] in *.
    + destruct (outputs_known rp m1 i ots G) with (outs := outs) (r := r) as (r' & E2 & K).
      * intros var t IV. destruct (B var t IV) as (v & w & B1 & B2). exists v, w. split; [|exact B2]. now rewrite (read_same rp i m1 m2 var CL).
      * exact D.
      * exact O.
      * rewrite E2. cbn [obind halted]. split; [exact K|]. cbn [map snd]. split; [rewrite run_app, R; cbn [obind ModelMachine.run]; now rewrite E1|].
        split; [constructor; [exact FC|constructor]|]. constructor; [reflexivity|constructor].
    + exists (i_name i). split; [now left|]. unfold stoppers. apply in_or_app. right. apply in_or_app. now left.
    + contradiction.
  - inversion H as [| | |? ? ? tx t b SF X T ND Y]; subst. destruct (split_known P G r f x ys tx t b D SF X T ND Y) as (u & r' & E & K). rewrite E. cbn [obind halted map].
    split; [exact K|]. rewrite app_nil_r. split; [exact R|]. split; constructor.
Qed.
Lemma proceeds_known : forall rp P G insts m0, sane P -> placed rp insts -> (forall i, List.In i insts -> zeroed rp m0 i) ->
  forall qs r m L, as_known G r -> mrun rp (p_profile P) m0 L = Ok m -> Forall (fine insts) L ->
  Forall (fun q => (exists fs, sound (p_profile P) G insts (fst q) fs) /\ 0 <= fst (snd q) < 2 ^ 63) qs ->
  match executes_all rp P r m qs with
  | Ok (r', m', log) => as_known G r' /\ mrun rp (p_profile P) m0 (L ++ map snd log) = Ok m' /\
      Forall (fine insts) (map snd log) /\ Forall (fun e => as_known G (fst e)) log
  | Panic => exists q, List.In q qs /\ forall fs, sound (p_profile P) G insts (fst q) fs -> exists n, List.In n fs /\ List.In n (stoppers (p_profile P))
  | Ub => exists q, List.In q qs /\ forall fs, sound (p_profile P) G insts (fst q) fs -> exists n, List.In n fs /\ List.In n undefined
  end.
Proof.
  intros rp P G insts m0 SP PL Z0 qs. induction qs as [|q qs IH]; intros r m L K R F H.
  - cbn [executes_all map]. rewrite app_nil_r. split; [exact K|]. split; [exact R|]. split; constructor.
  - inversion H as [|? ? ((fs & Q) & N) H2]; subst. cbn [executes_all].
    pose proof (fun fs Q => step_known rp P G insts m0 r m L q fs SP K PL Z0 R F Q N) as S.
    destruct (executes_one rp P r m q) as [[[r1 m1] l1]| |]; cbn [obind halted] in *.
    + destruct (S fs Q) as (K1 & R1 & F1 & E1).
      specialize (IH r1 m1 (L ++ map snd l1) K1 R1 (proj2 (Forall_app _ _ _) (conj F F1)) H2).
      destruct (executes_all rp P r1 m1 qs) as [[[r2 m2] l2]| |]; cbn [obind].
      * destruct IH as (K2 & R2 & F2 & E2). split; [exact K2|]. rewrite map_app, app_assoc. split; [exact R2|]. split; [apply Forall_app; now split|].
        apply Forall_app. split; [|exact E2]. refine (Forall_impl _ _ E1). intros e ->. exact K.
      * destruct IH as (q' & A & B). exists q'. split; [now right|exact B].
      * destruct IH as (q' & A & B). exists q'. split; [now right|exact B].
    + exists q. split; [now left|exact S].
    + exists q. split; [now left|exact S].
Qed.
Lemma prepared_statements : forall rp P G insts r m qs, prepared rp P G insts r m qs ->
  Forall (fun q => (exists fs, sound (p_profile P) G insts (fst q) fs) /\ 0 <= fst (snd q) < 2 ^ 63) qs.
Proof.
  intros rp P G insts r m qs (_ & _ & _ & C & _ & F). pose proof (clock_range qs 0 ltac:(lia) C) as D. rewrite Forall_forall in *.
  intros q H. split; [exact (F q H)|exact (D q H)].
Qed.
Lemma whole_goes_on : forall rp P G insts r m qs, prepared rp P G insts r m qs ->
  match executes_all rp P r m qs with
  | Ok (r', m', log) => as_known G r'
  | Panic => exists q, List.In q qs /\ forall fs, sound (p_profile P) G insts (fst q) fs -> exists n, List.In n fs /\ List.In n (stoppers (p_profile P))
  | Ub => exists q, List.In q qs /\ forall fs, sound (p_profile P) G insts (fst q) fs -> exists n, List.In n fs /\ List.In n undefined
  end.
Proof.
  intros rp P G insts r m qs R. pose proof (prepared_statements _ _ _ _ _ _ _ R) as S. destruct R as (SP & PL & Z0 & _ & K & _).
  pose proof (proceeds_known rp P G insts m SP PL Z0 qs r m [] K eq_refl (Forall_nil _) S) as Q.
  destruct (executes_all rp P r m qs) as [[[r' m'] log]| |]; [exact (proj1 Q)|exact Q|exact Q].
Qed.
Lemma whole_cycles : forall rp P G insts r m prog, sane P -> placed rp insts -> (forall i, List.In i insts -> zeroed rp m i) -> as_known G r ->
  Forall (fun s => exists fs, sound (p_profile P) G insts s fs /\ forall n, List.In n fs -> ~ List.In n (stoppers (p_profile P) ++ undefined)) prog ->
  forall k qs, map fst qs = concat (repeat prog k) -> clock_runs 0 qs ->
  exists r' m' log, executes_all rp P r m qs = Ok (r', m', log) /\ as_known G r'.
Proof.
  intros rp P G insts r m prog SP PL Z0 K F k qs E C.
  assert (Q : forall q, List.In q qs -> List.In (fst q) prog).
  { intros q H. apply (in_map fst) in H. rewrite E in H. apply in_concat in H. destruct H as (l & L & H). apply repeat_spec in L. now subst l. }
  rewrite Forall_forall in F.
  assert (RD : prepared rp P G insts r m qs).
  { split; [exact SP|]. split; [exact PL|]. split; [exact Z0|]. split; [exact C|]. split; [exact K|]. apply Forall_forall. intros q H. destruct (F _ (Q q H)) as (fs & A & _). now exists fs. }
  pose proof (whole_goes_on rp P G insts r m qs RD) as W. destruct (executes_all rp P r m qs) as [[[r' m'] log]| |].
  - now exists r', m', log.
  - exfalso. destruct W as (q & H & W). destruct (F _ (Q q H)) as (fs & A & N). destruct (W fs A) as (n & I & L). apply (N n I). apply in_or_app. now left.
  - exfalso. destruct W as (q & H & W). destruct (F _ (Q q H)) as (fs & A & N). destruct (W fs A) as (n & I & L). apply (N n I). apply in_or_app. now right.
Qed.

(** * Instances *)
Definition of_sort (P : platform) (r : env value) (e : expr) (t : sty) : Prop := forall tv, value_in P r e = Ok tv -> fst tv = t /\ SpecApi.holds t (snd tv).
Lemma all_of_sort : forall P G r es ts fs, sane P -> as_known G r -> make_all (p_profile P) G es (map any_value ts) fs -> Forall2 (of_sort P r) es ts.
Proof.
  intros P G r es ts fs SP D. revert es fs. induction ts as [|t ts IH]; intros es fs H; inversion H as [|e es' s ss f1 f2 H1 H2]; subst; [constructor|]. constructor; [|exact (IH _ _ H2)].
  intros tv E. pose proof (proj1 (values_makes P G r SP D) e _ f1 H1) as V. rewrite E in V. cbn [halted] in V. destruct V as (A & B & _). now split.
Qed.
Lemma seen_known : forall rp P G insts r m qs r' m' log i its ots, prepared rp P G insts r m qs -> executes_all rp P r m qs = Ok (r', m', log) ->
  List.In i insts -> interface (i_name i) its ots ->
  exists mi, mrun rp (p_profile P) m (map snd (made_to i log)) = Ok mi /\ (forall var, st_read rp m' i var = st_read rp mi i var) /\
  Forall (fun c => c_inst c = i /\ good its c) (map snd (made_to i log)) /\
  Forall (fun e => exists ins outs, List.In (Use i ins outs, (c_now1 (snd e), c_now2 (snd e))) qs /\
    inputs P (fst e) ins = Ok (c_inputs (snd e)) /\ Forall2 (of_sort P (fst e)) (map snd ins) (map snd its)) (made_to i log).
Proof.
  intros rp P G insts r m qs r' m' log i its ots RD E I IF. pose proof (prepared_statements _ _ _ _ _ _ _ RD) as S.
  destruct (logged rp P qs r m r' m' log E) as [R LG]. destruct RD as (SP & PL & Z0 & C & K & F).
  pose proof (proceeds_known rp P G insts m SP PL Z0 qs r m [] K eq_refl (Forall_nil _) S) as Q. rewrite E in Q. destruct Q as (_ & _ & FI & FV).
  assert (FL : Forall (fun c => List.In (c_inst c) insts) (map snd log)) by (refine (Forall_impl _ _ FI); intros d D; exact (proj1 D)).
  destruct (run_local rp (p_profile P) insts i (map snd log) m m PL I FL (fun a _ => eq_refl) m' R) as (mi & Ri & A).
  rewrite calls_made in Ri. exists mi. split; [exact Ri|]. split; [intros var; exact (read_same rp i m' mi var A)|].
  split; [rewrite <- calls_made; exact (fine_calls insts i its ots _ IF FI)|].
  apply Forall_forall. intros [e c] H. apply filter_In in H. destruct H as [H SI]. apply same_instance_iff in SI. cbn [fst snd] in *.
  rewrite Forall_forall in LG, FV, F. destruct (LG (e, c) H) as (ins & outs & IQ & IN). cbn [fst snd] in *. rewrite SI in IQ.
  destruct (F _ IQ) as (fs & PR). cbn [fst] in PR. inversion PR as [| |? ? ? its' ots' fs' I' IF' M T O|]; subst.
  destruct (interface_unique _ _ _ _ _ IF IF') as [<- _]. exists ins, outs. split; [exact IQ|]. split; [exact IN|].
  exact (all_of_sort P G e _ _ fs' SP (FV (e, c) H) T).
Qed.
Lemma whole_instances : forall rp P G insts r m qs r' m' log, prepared rp P G insts r m qs ->
  executes_all rp P r m qs = Ok (r', m', log) -> forall i, List.In i insts ->
  Forall (fun e => exists ins outs, List.In (Use i ins outs, (c_now1 (snd e), c_now2 (snd e))) qs /\
    inputs P (fst e) ins = Ok (c_inputs (snd e))) (made_to i log) /\
  exists mi, ModelMachine.run rp (p_profile P) m (map snd (made_to i log)) = Ok mi /\
    forall var, st_read rp m' i var = st_read rp mi i var.
Proof.
  intros rp P G insts r m qs r' m' log RD E i I. pose proof (prepared_statements _ _ _ _ _ _ _ RD) as S.
  destruct (logged rp P qs r m r' m' log E) as [R LG]. destruct RD as (SP & PL & Z0 & C & K & F). split.
  - apply Forall_forall. intros [e c] H. apply filter_In in H. destruct H as [H SI]. apply same_instance_iff in SI. cbn [fst snd] in *.
    rewrite Forall_forall in LG. destruct (LG (e, c) H) as (ins & outs & IQ & IN). cbn [fst snd] in *. rewrite SI in IQ. now exists ins, outs.
  - pose proof (proceeds_known rp P G insts m SP PL Z0 qs r m [] K eq_refl (Forall_nil _) S) as Q. rewrite E in Q. destruct Q as (_ & _ & FI & _).
    assert (FL : Forall (fun c => List.In (c_inst c) insts) (map snd log)) by (refine (Forall_impl _ _ FI); intros d D; exact (proj1 D)).
    destruct (run_local rp (p_profile P) insts i (map snd log) m m PL I FL (fun a _ => eq_refl) m' R) as (mi & Ri & A).
    rewrite calls_made in Ri. exists mi. split; [exact Ri|]. intros var; exact (read_same rp i m' mi var A).
Qed.
Lemma sort_bool : forall P r a n n' b ins vs, of_sort P r a S_BOOL -> inputs P r ((n, a) :: ins) = Ok ((n', VBool b) :: vs) ->
  is_bool P r a b /\ inputs P r ins = Ok vs.
Proof.
  intros P r a n n' b ins vs H E. unfold is_bool. cbn [inputs] in E. unfold of_sort in H. destruct (value_in P r a) as [[t v]| |]; try discriminate E. destruct (H _ eq_refl) as [T V].
  cbn [fst snd] in T, V. subst t. cbn [obind] in E.
  destruct V as [-> | ->]; cbn [as_input obind Z.eqb negb] in E; destruct (inputs P r ins) as [us| |]; try discriminate E; injection E as _ <- <-; (split; [reflexivity|reflexivity]).
Qed.
Lemma sort_whole : forall P r a t n n' z ins vs, of_sort P r a t -> inputs P r ((n, a) :: ins) = Ok ((n', VInt z) :: vs) ->
  is_whole P r a t z /\ inputs P r ins = Ok vs.
Proof.
  intros P r a t n n' z ins vs H E. unfold is_whole. cbn [inputs] in E. unfold of_sort in H. destruct (value_in P r a) as [[t' v]| |]; try discriminate E. destruct (H _ eq_refl) as [T V].
  cbn [fst snd] in T, V. subst t'. cbn [obind] in E.
  destruct (as_input (t, v)) as [w| |] eqn:A; try discriminate E. cbn [obind] in E. destruct (inputs P r ins) as [us| |]; try discriminate E. injection E as _ -> <-.
  destruct t; cbn [as_input] in A; destruct v; try discriminate A; injection A as <-; now split.
Qed.
Lemma whole_up : forall rp P G insts r m qs r' m' log i t s a b c, prepared rp P G insts r m qs -> executes_all rp P r m qs = Ok (r', m', log) ->
  List.In i insts -> List.In (i_name i, t) up_counters -> List.In (s, t) counter_values -> always i [("CU", a); ("R", b); ("PV", c)] qs ->
  exists h, Forall2 (fun e x => is_bool P (fst e) a (cui_cu x) /\ is_bool P (fst e) b (cui_r x) /\ is_whole P (fst e) c s (cui_pv x)) (made_to i log) h /\
    (forall h1 h2, h = h1 ++ h2 -> ends_with (fun x => cui_r x = true) h1 -> Forall (fun x => cui_r x = false) h2 ->
       st_read rp m' i "CV" = Ok (VInt (Z.min (imax t) (rising_edges (ctu_level h1) (map cui_cu h2))))) /\
    (forall h0 x, h = h0 ++ [x] -> exists v, st_read rp m' i "CV" = Ok (VInt v) /\ st_read rp m' i "Q" = Ok (VBool (cui_pv x <=? v))).
Proof.
  intros rp P G insts r m qs r' m' log i t s a b c RD E I U V AL. pose proof (if_up _ t s U V) as IF.
  destruct (seen_known rp P G insts r m qs r' m' log i _ _ RD E I IF) as (mi & Ri & RS & GD & SE).
  destruct (up_history i t s _ V GD) as (h & F & R). exists h. split.
  - refine (zip_impl _ _ _ _ _ _ _ (zip _ _ _ snd _ _ _ _ SE F)). intros [e k] x [(ins & outs & IQ & IN & T) [_ X]]. cbn [fst snd] in *.
    rewrite (AL _ _ _ IQ) in IN, T. rewrite X in IN. cbn [map snd] in T. inversion T as [|? ? ? ? T1 T']; subst. inversion T' as [|? ? ? ? T2 T'']; subst. inversion T'' as [|? ? ? ? T3 _]; subst. unfold ctu_ins in IN.
    destruct (sort_bool P e a _ _ _ _ _ T1 IN) as [A IN1]. destruct (sort_bool P e b _ _ _ _ _ T2 IN1) as [B IN2].
    destruct (sort_whole P e c _ _ _ _ _ _ T3 IN2) as [C _]. now repeat split.
  - destruct i as [n base]. cbn [i_name] in *. destruct (up_tables n t U) as (T & HR & HS & HL).
    rewrite (run_same _ ctu_ins rp (p_profile P) (MInst n base) _ (HL (p_profile P)) _ h F m) in Ri.
    pose proof (ctu_runs rp (p_profile P) n t base m h U (proj1 (proj2 (proj2 RD)) _ I) R) as O. rewrite Ri in O. unfold outputs in O. cbn [omap obind map] in O. rewrite <- !RS in O.
    split.
    + intros h1 h2 -> H1 H2. destruct (ctu_counts_lemma (p_profile P) t h1 h2 (same_ctypes t T) H1 H2) as (x & X & CV). rewrite X in O. cbn [omap obind] in O.
      injection O as O1 O2. now rewrite O2, CV.
    + intros h0 x ->. destruct (ctu_q_lemma (p_profile P) t h0 x (same_ctypes t T)) as (y & Y & Q). rewrite Y in O. cbn [omap obind] in O.
      injection O as O1 O2. exists (ctu_cv y). split; [exact O2|]. now rewrite O1, Q.
Qed.
Lemma whole_down : forall rp P G insts r m qs r' m' log i t s a b c, prepared rp P G insts r m qs -> executes_all rp P r m qs = Ok (r', m', log) ->
  List.In i insts -> List.In (i_name i, t) down_counters -> List.In (s, t) counter_values -> always i [("CD", a); ("LD", b); ("PV", c)] qs ->
  exists h, Forall2 (fun e x => is_bool P (fst e) a (cdi_cd x) /\ is_bool P (fst e) b (cdi_ld x) /\ is_whole P (fst e) c s (cdi_pv x)) (made_to i log) h /\
    (forall h1 h2, h = h1 ++ h2 -> ends_with (fun x => cdi_ld x = true) h1 -> Forall (fun x => cdi_ld x = false) h2 ->
       st_read rp m' i "CV" = Ok (VInt (Z.max (imin t) (ctd_loaded h1 - rising_edges (ctd_level h1) (map cdi_cd h2))))) /\
    (h <> [] -> exists v, st_read rp m' i "CV" = Ok (VInt v) /\ st_read rp m' i "Q" = Ok (VBool (v <=? 0))).
Proof.
  intros rp P G insts r m qs r' m' log i t s a b c RD E I U V AL. pose proof (if_down _ t s U V) as IF.
  destruct (seen_known rp P G insts r m qs r' m' log i _ _ RD E I IF) as (mi & Ri & RS & GD & SE).
  destruct (down_history i t s _ V GD) as (h & F & R). exists h. split.
  - refine (zip_impl _ _ _ _ _ _ _ (zip _ _ _ snd _ _ _ _ SE F)). intros [e k] x [(ins & outs & IQ & IN & T) [_ X]]. cbn [fst snd] in *.
    rewrite (AL _ _ _ IQ) in IN, T. rewrite X in IN. cbn [map snd] in T. inversion T as [|? ? ? ? T1 T1']; subst. inversion T1' as [|? ? ? ? T2 T2']; subst. inversion T2' as [|? ? ? ? T3 T3']; subst. unfold ctd_ins in IN.
    destruct (sort_bool P e a _ _ _ _ _ T1 IN) as [A IN1]. destruct (sort_bool P e b _ _ _ _ _ T2 IN1) as [B IN2].
    destruct (sort_whole P e c _ _ _ _ _ _ T3 IN2) as [C _]. now repeat split.
  - destruct i as [n base]. cbn [i_name] in *. destruct (down_tables n t U) as (T & HR & HS & HL).
    rewrite (run_same _ ctd_ins rp (p_profile P) (MInst n base) _ (HL (p_profile P)) _ h F m) in Ri.
    pose proof (ctd_runs rp (p_profile P) n t base m h U (proj1 (proj2 (proj2 RD)) _ I) R) as O. rewrite Ri in O. unfold outputs in O. cbn [omap obind map] in O. rewrite <- !RS in O.
    split.
    + intros h1 h2 -> H1 H2. destruct (ctd_counts_lemma (p_profile P) t h1 h2 (same_ctypes t T) R H1 H2) as (x & X & CV). rewrite X in O. cbn [omap obind] in O.
      injection O as O1 O2. now rewrite O2, CV.
    + intros NE. destruct (exists_last NE) as (h0 & x & ->). destruct (ctd_q_lemma (p_profile P) t h0 x (same_ctypes t T) R) as (y & Y & Q). rewrite Y in O. cbn [omap obind] in O.
      injection O as O1 O2. exists (ctd_cv y). split; [exact O2|]. now rewrite O1, Q.
Qed.
Lemma whole_trigger : forall rp P G insts r m qs r' m' log i f a, prepared rp P G insts r m qs -> executes_all rp P r m qs = Ok (r', m', log) ->
  List.In i insts -> List.In (i_name i, f) triggers -> always i [("CLK", a)] qs ->
  exists h, Forall2 (fun e x => is_bool P (fst e) a x) (made_to i log) h /\
    st_read rp m' i "Q" = Ok (VBool (last (trig_outputs f trigger_default h) false)).
Proof.
  intros rp P G insts r m qs r' m' log i f a RD E I U AL. pose proof (if_trigger _ f U) as IF.
  destruct (seen_known rp P G insts r m qs r' m' log i _ _ RD E I IF) as (mi & Ri & RS & GD & SE).
  destruct (trigger_history i _ GD) as (h & F). exists h. split.
  - refine (zip_impl _ _ _ _ _ _ _ (zip _ _ _ snd _ _ _ _ SE F)). intros [e k] x [(ins & outs & IQ & IN & T) [_ X]]. cbn [fst snd] in *.
    rewrite (AL _ _ _ IQ) in IN, T. rewrite X in IN. cbn [map snd] in T. inversion T as [|? ? ? ? T1 T1']; subst.
    exact (proj1 (sort_bool P e a _ _ _ _ _ T1 IN)).
  - destruct i as [n base]. cbn [i_name] in *.
    assert (HL : forall u v, linked n (rust_code (p_profile P) u v) = Some (trig_code f)).
    { unfold triggers in U. cbn [List.In] in U. destruct U as [U|[U|[]]]; injection U as <- <-; reflexivity. }
    rewrite (run_same _ (fun x => [("CLK", VBool x)]) rp (p_profile P) (MInst n base) _ HL _ h F m) in Ri.
    pose proof (trig_runs rp (p_profile P) n f base m h U (proj1 (proj2 (proj2 RD)) _ I)) as O. rewrite Ri in O. unfold outputs in O. cbn [omap obind map] in O. rewrite <- !RS in O.
    now injection O.
Qed.
Lemma whole_rising : forall rp P G insts r m qs r' m' log i a, prepared rp P G insts r m qs -> executes_all rp P r m qs = Ok (r', m', log) ->
  List.In i insts -> i_name i = "R_TRIG" -> always i [("CLK", a)] qs ->
  exists h, Forall2 (fun e x => is_bool P (fst e) a x) (made_to i log) h /\
    forall h0 x, h = h0 ++ [x] -> st_read rp m' i "Q" = Ok (VBool (x && negb (last h0 false))).
Proof.
  intros rp P G insts r m qs r' m' log i a RD E I N AL.
  destruct (whole_trigger rp P G insts r m qs r' m' log i R_TRIG a RD E I ltac:(rewrite N; left; reflexivity) AL) as (h & F & Q). exists h. split; [exact F|].
  intros h0 x ->. rewrite Q. f_equal. f_equal.
  assert (L : length (trig_outputs R_TRIG trigger_default (h0 ++ [x])) = length (h0 ++ [x])) by apply trig_outputs_length.
  destruct (exists_last (l := trig_outputs R_TRIG trigger_default (h0 ++ [x]))) as (l & y & Y); [intros X; rewrite X in L; rewrite app_length in L; cbn in L; lia|].
  pose proof (r_trig_spec (h0 ++ [x]) (length h0) ltac:(rewrite app_length; cbn; lia)) as S. rewrite Y in *. rewrite last_last. rewrite !app_length in L. cbn in L.
  rewrite app_nth2 in S by lia. replace (length h0 - length l)%nat with O in S by lia. cbn [nth] in S. rewrite S. rewrite app_nth2, Nat.sub_diag by lia. cbn [nth]. f_equal. f_equal.
  unfold previous. destruct h0 as [|z h0] using rev_ind; [reflexivity|]. rewrite app_length. cbn [length]. rewrite Nat.add_1_r. rewrite last_last, <- app_assoc, app_nth2, Nat.sub_diag by lia. reflexivity.
Qed.
Lemma whole_falling : forall rp P G insts r m qs r' m' log i a, prepared rp P G insts r m qs -> executes_all rp P r m qs = Ok (r', m', log) ->
  List.In i insts -> i_name i = "F_TRIG" -> always i [("CLK", a)] qs ->
  exists h, Forall2 (fun e x => is_bool P (fst e) a x) (made_to i log) h /\
    forall h0 x, h = h0 ++ [x] -> st_read rp m' i "Q" = Ok (VBool (negb x && last h0 false)).
Proof.
  intros rp P G insts r m qs r' m' log i a RD E I N AL.
  destruct (whole_trigger rp P G insts r m qs r' m' log i F_TRIG a RD E I ltac:(rewrite N; right; left; reflexivity) AL) as (h & F & Q). exists h. split; [exact F|].
  intros h0 x ->. rewrite Q. f_equal. f_equal.
  assert (L : length (trig_outputs F_TRIG trigger_default (h0 ++ [x])) = length (h0 ++ [x])) by apply trig_outputs_length.
  destruct (exists_last (l := trig_outputs F_TRIG trigger_default (h0 ++ [x]))) as (l & y & Y); [intros X; rewrite X in L; rewrite app_length in L; cbn in L; lia|].
  pose proof (f_trig_spec (h0 ++ [x]) (length h0) ltac:(rewrite app_length; cbn; lia)) as S. rewrite Y in *. rewrite last_last. rewrite !app_length in L. cbn in L.
  rewrite app_nth2 in S by lia. replace (length h0 - length l)%nat with O in S by lia. cbn [nth] in S. rewrite S. rewrite app_nth2, Nat.sub_diag by lia. cbn [nth]. f_equal.
  unfold previous. destruct h0 as [|z h0] using rev_ind; [reflexivity|]. rewrite app_length. cbn [length]. rewrite Nat.add_1_r. rewrite last_last, <- app_assoc, app_nth2, Nat.sub_diag by lia. reflexivity.
Qed.
Lemma whole_bistable : forall rp P G insts r m qs r' m' log i f va vb a b, prepared rp P G insts r m qs ->
  executes_all rp P r m qs = Ok (r', m', log) -> List.In i insts -> List.In (i_name i, f, (va, vb)) bistables ->
  always i [(va, a); (vb, b)] qs ->
  exists h, Forall2 (fun e x => is_bool P (fst e) a (fst x) /\ is_bool P (fst e) b (snd x)) (made_to i log) h /\
    st_read rp m' i "Q1" = Ok (VBool
      match last_such (fun x => fst x || snd x) h with
      | Some (s, k) => if String.eqb (i_name i) "SR" then s else negb k
      | None => false
      end).
Proof.
  intros rp P G insts r m qs r' m' log i f va vb a b RD E I U AL. pose proof (if_bistable _ f va vb U) as IF.
  destruct (seen_known rp P G insts r m qs r' m' log i _ _ RD E I IF) as (mi & Ri & RS & GD & SE).
  destruct (bistable_history i va vb _ GD) as (h & F). exists h. split.
  - refine (zip_impl _ _ _ _ _ _ _ (zip _ _ _ snd _ _ _ _ SE F)). intros [e k] x [(ins & outs & IQ & IN & T) [_ X]]. cbn [fst snd] in *.
    rewrite (AL _ _ _ IQ) in IN, T. rewrite X in IN. cbn [map snd] in T. inversion T as [|? ? ? ? T1 T1']; subst. inversion T1' as [|? ? ? ? T2 T2']; subst.
    destruct (sort_bool P e a _ _ _ _ _ T1 IN) as [A IN1]. split; [exact A|]. exact (proj1 (sort_bool P e b _ _ _ _ _ T2 IN1)).
  - destruct i as [n base]. cbn [i_name] in *.
    assert (HL : forall u v, linked n (rust_code (p_profile P) u v) = Some (sr_code f)).
    { unfold bistables in U. cbn [List.In] in U. destruct U as [U|[U|[]]]; injection U as <- <- _ _; reflexivity. }
    rewrite (run_same _ (fun x => [(va, VBool (fst x)); (vb, VBool (snd x))]) rp (p_profile P) (MInst n base) _ HL _ h F m) in Ri.
    pose proof (sr_runs rp (p_profile P) n f va vb base m h U (proj1 (proj2 (proj2 RD)) _ I)) as O. rewrite Ri in O. unfold outputs in O. cbn [omap obind map] in O. rewrite <- !RS in O.
    injection O as O. rewrite O. f_equal. f_equal. unfold bistables in U. cbn [List.In] in U. destruct U as [U|[U|[]]]; injection U as <- <- _ _.
    + rewrite sr_spec. destruct (last_such _ h) as [[u v]|]; reflexivity.
    + rewrite rs_spec. destruct (last_such _ h) as [[u v]|]; reflexivity.
Qed.
Lemma whole_timer : forall rp P G insts r m qs r' m' log i f s a b, prepared rp P G insts r m qs -> executes_all rp P r m qs = Ok (r', m', log) ->
  List.In i insts -> List.In (i_name i, f) timers -> List.In (i_name i, s) timer_values -> always i [("IN", a); ("PT", b)] qs ->
  exists h, Forall2 (fun e x => is_bool P (fst e) a (tc_in x) /\ is_whole P (fst e) b s (tc_pt x) /\
      c_now1 (snd e) = tc_t1 x /\ c_now2 (snd e) = tc_t2 x) (made_to i log) h /\ clock_ok h /\
    exists q et, timer_out_zeroed rp f h = Ok (q, et) /\ st_read rp m' i "Q" = Ok (VBool q) /\ st_read rp m' i "ET" = Ok (VInt et).
Proof.
  intros rp P G insts r m qs r' m' log i f s a b RD E I U V AL. pose proof (if_timer _ s V) as IF.
  destruct (seen_known rp P G insts r m qs r' m' log i _ _ RD E I IF) as (mi & Ri & RS & GD & SE).
  destruct (timer_history i _ s _ V GD) as (h & F & R). exists h. split.
  - refine (zip_impl _ _ _ _ _ _ _ (zip _ _ _ snd _ _ _ _ SE F)). intros [e k] x [(ins & outs & IQ & IN & T) (_ & X & N1 & N2)]. cbn [fst snd] in *.
    rewrite (AL _ _ _ IQ) in IN, T. rewrite X in IN. cbn [map snd] in T. inversion T as [|? ? ? ? T1 T1']; subst. inversion T1' as [|? ? ? ? T2 T2']; subst.
    unfold timer_ins in IN. destruct (sort_bool P e a _ _ _ _ _ T1 IN) as [A IN1].
    destruct (sort_whole P e b _ _ _ _ _ _ T2 IN1) as [B _]. now repeat split.
  - split.
    + pose proof (clock_logged rp P qs 0 r m r' m' log (proj1 (proj2 (proj2 (proj2 RD)))) E) as CL.
      pose proof (clock_log_filter (fun c => same_instance (c_inst c) i) _ _ CL) as CF. fold (calls_of i (map snd log)) in CF. rewrite calls_made in CF.
      exact (clock_history i _ h 0 F CF).
    + destruct i as [n base]. cbn [i_name] in *. rewrite (run_timer _ _ h F) in Ri.
      pose proof (timer_runs rp (p_profile P) n f base m h U (proj1 (proj2 (proj2 RD)) _ I) R) as O. rewrite Ri in O. unfold outputs in O. cbn [omap obind map] in O. rewrite <- !RS in O.
      destruct (timer_out_zeroed rp f h) as [[q et]| |]; cbn [omap obind fst snd] in O; try discriminate O. injection O as O1 O2. exists q, et. now repeat split.
Qed.
Lemma whole_delay : forall P G insts r m qs r' m' log i s a b, prepared Tagged P G insts r m qs ->
  executes_all Tagged P r m qs = Ok (r', m', log) -> List.In i insts ->
  List.In (i_name i) ["TON"; "TON_TIME"; "TON_LTIME"] -> List.In (i_name i, s) timer_values -> always i [("IN", a); ("PT", b)] qs ->
  exists h, Forall2 (fun e x => is_bool P (fst e) a (tc_in x) /\ is_whole P (fst e) b s (tc_pt x) /\
      c_now1 (snd e) = tc_t1 x /\ c_now2 (snd e) = tc_t2 x) (made_to i log) h /\
    forall h0 c, h = h0 ++ [c] -> preset_ok h ->
      exists q et, st_read Tagged m' i "Q" = Ok (VBool q) /\ st_read Tagged m' i "ET" = Ok (VInt et) /\
      (q, et) = match suffix_while tc_in h with
                | [] => (false, 0)
                | [_] => (false, 0)
                | f :: _ => (tc_pt c <? tc_t2 c - tc_t1 f, Z.min (tc_pt c) (tc_t1 c - tc_t1 f))
                end.
Proof.
  intros P G insts r m qs r' m' log i s a b RD E I N V AL.
  assert (U : List.In (i_name i, TON) timers) by (unfold timers; cbn [List.In] in N |- *; destruct N as [<-|[<-|[<-|[]]]]; tauto).
  destruct (whole_timer Tagged P G insts r m qs r' m' log i TON s a b RD E I U V AL) as (h & F & C & q & et & T & Q & ET). exists h. split; [exact F|].
  intros h0 c -> PO. exists q, et. split; [exact Q|]. split; [exact ET|]. rewrite zeroed_tagged, (ton_lemma h0 c C PO) in T. injection T as T. now symmetry.
Qed.
Lemma whole_off_delay : forall P G insts r m qs r' m' log i s a b, prepared Tagged P G insts r m qs ->
  executes_all Tagged P r m qs = Ok (r', m', log) -> List.In i insts ->
  List.In (i_name i) ["TOF"; "TOF_TIME"; "TOF_LTIME"] -> List.In (i_name i, s) timer_values -> always i [("IN", a); ("PT", b)] qs ->
  exists h, Forall2 (fun e x => is_bool P (fst e) a (tc_in x) /\ is_whole P (fst e) b s (tc_pt x) /\
      c_now1 (snd e) = tc_t1 x /\ c_now2 (snd e) = tc_t2 x) (made_to i log) h /\
    forall h0 c, h = h0 ++ [c] -> preset_ok h ->
      exists q et, st_read Tagged m' i "Q" = Ok (VBool q) /\ st_read Tagged m' i "ET" = Ok (VInt et) /\
      (q, et) = if tc_in c then (true, 0)
                else if existsb tc_in h0 then
                  match suffix_while (fun d => negb (tc_in d)) h with
                  | [] => (true, 0)
                  | [_] => (true, 0)
                  | f :: _ => (tc_t2 c - tc_t1 f <=? tc_pt c, Z.min (tc_pt c) (tc_t1 c - tc_t1 f))
                  end
                else (false, 0).
Proof.
  intros P G insts r m qs r' m' log i s a b RD E I N V AL.
  assert (U : List.In (i_name i, TOF) timers) by (unfold timers; cbn [List.In] in N |- *; destruct N as [<-|[<-|[<-|[]]]]; tauto).
  destruct (whole_timer Tagged P G insts r m qs r' m' log i TOF s a b RD E I U V AL) as (h & F & C & q & et & T & Q & ET). exists h. split; [exact F|].
  intros h0 c -> PO. exists q, et. split; [exact Q|]. split; [exact ET|]. rewrite zeroed_tagged, (tof_lemma h0 c C PO) in T. injection T as T. now symmetry.
Qed.
Lemma whole_pulse : forall P G insts r m qs r' m' log i s a b, prepared Tagged P G insts r m qs ->
  executes_all Tagged P r m qs = Ok (r', m', log) -> List.In i insts ->
  List.In (i_name i) pulses -> List.In (i_name i, s) timer_values -> always i [("IN", a); ("PT", b)] qs ->
  exists h, Forall2 (fun e x => is_bool P (fst e) a (tc_in x) /\ is_whole P (fst e) b s (tc_pt x) /\
      c_now1 (snd e) = tc_t1 x /\ c_now2 (snd e) = tc_t2 x) (made_to i log) h /\
    forall f mid c pt, h = f :: mid ++ [c] -> constant_pt pt h -> 0 <= pt < 2 ^ 63 ->
      Forall (fun d => tc_t2 d <= tc_t1 f + pt) mid ->
      tc_in f = true /\ st_read Tagged m' i "Q" = Ok (VBool (tc_t2 c <=? tc_t1 f + pt)).
Proof.
  intros P G insts r m qs r' m' log i s a b RD E I N V AL.
  assert (U : List.In (i_name i, TP) timers) by (unfold timers; unfold pulses in N; cbn [List.In] in N |- *; destruct N as [<-|[<-|[<-|[]]]]; tauto).
  destruct (whole_timer Tagged P G insts r m qs r' m' log i TP s a b RD E I U V AL) as (h & F & C & q & et & T & Q & ET). exists h. split; [exact F|].
  intros f mid c pt -> K B M. rewrite zeroed_tagged in T.
  assert (IN : tc_in f = true).
  { unfold timer_out in T. cbn [timer_run] in T. unfold timer_call, TP in T. cbn in T. destruct (tc_in f); [reflexivity|discriminate T]. }
  split; [exact IN|]. rewrite Q.
  assert (T1 : timer_out TP ([] ++ [f]) = Ok (true, 0)).
  { unfold timer_out, timer_call. cbn. unfold timer_call, TP. cbn. rewrite IN. reflexivity. }
  destruct (tp_pulse_lemma pt [] f mid c 0 0 C K B eq_refl T1 M) as [_ Z]. cbn [app] in Z. rewrite Z in T.
  destruct (tc_t2 c <=? tc_t1 f + pt); injection T as <- _; reflexivity.
Qed.
Lemma whole_up_down : forall rp P G insts r m qs r' m' log i t s a b c d e, prepared rp P G insts r m qs -> executes_all rp P r m qs = Ok (r', m', log) ->
  List.In i insts -> List.In (i_name i, t) up_down_counters -> List.In (s, t) counter_values ->
  always i [("CU", a); ("CD", b); ("R", c); ("LD", d); ("PV", e)] qs ->
  exists h, Forall2 (fun k x => is_bool P (fst k) a (cudi_cu x) /\ is_bool P (fst k) b (cudi_cd x) /\ is_bool P (fst k) c (cudi_r x) /\
      is_bool P (fst k) d (cudi_ld x) /\ is_whole P (fst k) e s (cudi_pv x)) (made_to i log) h /\
    exists v, up_down_count t h v /\ st_read rp m' i "CV" = Ok (VInt v) /\
      forall h0 x, h = h0 ++ [x] -> st_read rp m' i "QU" = Ok (VBool (cudi_pv x <=? v)) /\ st_read rp m' i "QD" = Ok (VBool (v <=? 0)).
Proof.
  intros rp P G insts r m qs r' m' log i t s a b c d e RD E I U V AL. pose proof (if_up_down _ t s U V) as IF.
  destruct (seen_known rp P G insts r m qs r' m' log i _ _ RD E I IF) as (mi & Ri & RS & GD & SE).
  destruct (up_down_history i t s _ V GD) as (h & F & R). exists h. split.
  - refine (zip_impl _ _ _ _ _ _ _ (zip _ _ _ snd _ _ _ _ SE F)). intros [z k] x [(ins & outs & IQ & IN & T) [_ X]]. cbn [fst snd] in *.
    rewrite (AL _ _ _ IQ) in IN, T. rewrite X in IN. cbn [map snd] in T.
    inversion T as [|? ? ? ? T1 T1']; subst; inversion T1' as [|? ? ? ? T2 T2']; subst; inversion T2' as [|? ? ? ? T3 T3']; subst;
      inversion T3' as [|? ? ? ? T4 T4']; subst; inversion T4' as [|? ? ? ? T5 T5']; subst. unfold ctud_ins in IN.
    destruct (sort_bool P z a _ _ _ _ _ T1 IN) as [A IN1]. destruct (sort_bool P z b _ _ _ _ _ T2 IN1) as [B IN2].
    destruct (sort_bool P z c _ _ _ _ _ T3 IN2) as [C IN3]. destruct (sort_bool P z d _ _ _ _ _ T4 IN3) as [D IN4].
    destruct (sort_whole P z e _ _ _ _ _ _ T5 IN4) as [W _]. now repeat split.
  - destruct i as [n base]. cbn [i_name] in *. destruct (up_down_tables n t U) as (T & HR & HS & HL).
    rewrite (run_same _ ctud_ins rp (p_profile P) (MInst n base) _ (HL (p_profile P)) _ h F m) in Ri.
    pose proof (ctud_runs rp (p_profile P) n t base m h U (proj1 (proj2 (proj2 RD)) _ I) R) as O. rewrite Ri in O. unfold outputs in O. cbn [omap obind map] in O. rewrite <- !RS in O.
    destruct (up_down_counted (p_profile P) t h (same_ctypes t T) R) as (x & X & UC & Q). rewrite X in O. cbn [omap obind] in O. injection O as O1 O2 O3.
    exists (cud_cv x). split; [exact UC|]. split; [exact O3|]. intros h0 y Y. destruct (Q h0 y Y) as [Q1 Q2]. now rewrite O1, O2, Q1, Q2.
Qed.
