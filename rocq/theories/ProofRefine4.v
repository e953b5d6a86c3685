(** Proofs about the meaning of programs: execution. *)
From Coq Require Import String ZArith List Bool Lia Reals.
From Verif Require Import Base ModelFB ModelCounters ModelTimers ModelLayout ModelMachine ModelFloat ModelString ModelLink ModelLib ModelApi
  SpecFB SpecLayout SpecMachine SpecScalar SpecText SpecLink SpecLib SpecSafe SpecApi SpecCall SpecExpr SpecTerm SpecType SpecProgram SpecRefine
  ProofBase ProofFB ProofTimers ProofTP ProofLayout ProofMachine ProofMachine2 ProofType ProofSplit ProofTerm ProofTerm3
  ProofProgram ProofProgram2 ProofProgram3 ProofProgram4 ProofRefine ProofRefine2 ProofRefine3.
Import ListNotations.
Open Scope string_scope.
Open Scope list_scope.
Open Scope Z_scope.
Local Opaque ModelApi.call value_in api.

(** * The log of the calls *)
Definition recorded (insts : list instance) (c : mcall) (x : instance * event) : Prop :=
  List.In (fst x) insts /\ exists its ots, interface (i_name (fst x)) its ots /\ c = as_call (fst x) its (snd x) /\ event_ok its (snd x).
Lemma recorded_of : forall insts L l i its ots, Forall2 (recorded insts) L l -> interface (i_name i) its ots ->
  calls_of i L = map (as_call i its) (events_of i l) /\ Forall (event_ok its) (events_of i l).
Proof.
  intros insts L l i its ots H IF. unfold calls_of, events_of. induction H as [|c [j e] L l (J & its' & ots' & IF' & -> & E) H [IH1 IH2]]; [split; [reflexivity|constructor]|].
  cbn [filter fst snd] in *. change (c_inst (as_call j its' e)) with j. destruct (same_instance j i) eqn:S; [|split; [exact IH1|exact IH2]].
  apply same_instance_iff in S. subst j. destruct (interface_unique _ _ _ _ _ IF IF') as [<- _]. cbn [map fst snd]. split; [now rewrite IH1|now constructor].
Qed.
Lemma recorded_insts : forall insts L l, Forall2 (recorded insts) L l -> Forall (fun c => List.In (c_inst c) insts) L.
Proof. intros insts L l H. induction H as [|c x L l (I & its & ots & _ & -> & _) H IH]; constructor; [exact I|exact IH]. Qed.
Lemma clock_snoc : forall L b lo c, b <= lo -> clock_log b L -> Forall (fun c => c_now2 c <= lo) L -> lo <= c_now1 c -> c_now1 c <= c_now2 c -> c_now2 c < 2 ^ 63 -> clock_log b (L ++ [c]).
Proof.
  intros L. induction L as [|d L IH]; intros b lo c B C F A1 A2 A3; cbn [app clock_log]; [split; [lia|]; now repeat split|].
  destruct C as (C1 & C2 & C3 & C4). inversion F as [|? ? F1 F2]; subst. split; [exact C1|]. split; [exact C2|]. split; [exact C3|]. now apply (IH _ lo).
Qed.
Lemma as_input_whole : forall t z, as_input (t, VZ z) = Ok (as_fval t z).
Proof. intros [] z; reflexivity. Qed.
Lemma inputs_whole : forall P r s, represents r s -> forall its ins zs, map fst ins = map fst its -> length zs = length its ->
  Forall2 (denotes P s) (map snd ins) (map (fun tz => Whole (fst tz) (snd tz)) (combine (map snd its) zs)) ->
  inputs P r ins = Ok (named its zs) /\ Forall2 (fun it z => of_type (snd it) z) its zs.
Proof.
  intros P r s R its. induction its as [|[n t] its IH]; intros [|[n' e] ins] zs N L F; try discriminate N.
  - destruct zs; [|discriminate L]. split; [reflexivity|constructor].
  - destruct zs as [|z zs]; [discriminate L|]. cbn [map fst snd combine] in *. injection N as -> N. injection L as L. inversion F as [|? ? ? ? D F']; subst.
    destruct (IH ins zs N L F') as [E T]. apply (denotes_means P r s) in D; [|exact R]. apply meaning_value in D. destruct D as (tv & V & -> & O).
    cbn [inputs]. rewrite V. cbn [obind]. rewrite as_input_whole. cbn [obind]. rewrite E. cbn [obind]. split; [reflexivity|]. constructor; [exact O|exact T].
Qed.
Lemma inputs_break : forall P r s, represents r s -> forall (its : list (string * sty)) (ins : list (string * expr)) zs n e ins', length zs = length its ->
  Forall2 (denotes P s) (map snd ins) (map (fun tz => Whole (fst tz) (snd tz)) (combine (map snd its) zs)) -> breaks P s e ->
  inputs P r (ins ++ (n, e) :: ins') = Panic.
Proof.
  intros P r s R its. induction its as [|[n t] its IH]; intros ins zs n' e ins' L F B.
  - inversion F as [A|]; subst. destruct ins; [|discriminate]. cbn [app inputs]. rewrite (aborts_panic P r e (breaks_aborts P r s e R B)). reflexivity.
  - destruct zs as [|z zs]; [discriminate L|]. injection L as L. cbn [map combine fst snd] in F. inversion F as [|a b ? ? D F' A]; subst. destruct ins as [|[n1 e1] ins]; [discriminate A|]. injection A as -> ->.
    cbn [app inputs]. apply (denotes_means P r s) in D; [|exact R]. apply meaning_value in D. destruct D as (tv & V & -> & O).
    rewrite V. cbn [obind]. rewrite as_input_whole. cbn [obind]. now rewrite (IH ins zs n' e ins' L F' B).
Qed.
Lemma outputs_assigned : forall rp mi i n h outs s s', assigns n h outs s s' -> (forall var w, shows n h var w -> reads rp i mi var w) ->
  forall r, represents r s -> exists r', assign_outputs rp mi i outs r = Ok r' /\ represents r' s'.
Proof.
  intros rp mi i n h outs s s' A S. induction A as [s|x var outs s m m0 s' H X K A IH]; intros r R; [now exists r|].
  destruct (S var m H) as (v & w & V & W & T). cbn [assign_outputs]. rewrite V. cbn [obind]. rewrite W. cbn [obind]. apply IH. exact (represents_put r s x m0 w m R X K T).
Qed.

(** * Parts of dates and times *)
Lemma parts_other : forall t ys zs s x, ~ List.In x ys -> assign_parts t ys zs s x = s x.
Proof.
  intros t ys. induction ys as [|y ys IH]; intros [|z zs] s x N; try reflexivity. cbn [assign_parts]. rewrite IH by (intros H; apply N; now right).
  unfold assign. destruct (String.eqb_spec x y) as [->|]; [destruct N; now left|reflexivity].
Qed.
Lemma parts_in : forall t ys zs s x, NoDup ys -> length zs = length ys -> List.In x ys -> exists z, List.In (x, z) (combine ys zs) /\ assign_parts t ys zs s x = Some (Whole t z).
Proof.
  intros t ys. induction ys as [|y ys IH]; intros [|z zs] s x ND L H; try discriminate L; [destruct H|]. inversion ND as [|? ? N1 N2]; subst. injection L as L. cbn [assign_parts combine].
  destruct (string_dec x y) as [->|N].
  - exists z. split; [now left|]. rewrite parts_other by exact N1. unfold assign. now rewrite String.eqb_refl.
  - destruct H as [H|H]; [destruct (N (eq_sym H))|]. destruct (IH zs (assign y (Whole t z) s) x N2 L H) as (w & A & B). exists w. split; [now right|exact B].
Qed.
Lemma Forall2_combine : forall (A B : Type) (Q : A -> B -> Prop) xs ys a b, Forall2 Q xs ys -> List.In (a, b) (combine xs ys) -> Q a b.
Proof.
  intros A B Q xs ys a b F. induction F as [|x y xs ys H F IH]; intros I; [destruct I|]. destruct I as [I|I]; [injection I as <- <-; exact H|exact (IH I)].
Qed.
Lemma split_represents : forall P r s f x ys tx t n zs, represents r s -> List.In (f, tx, length ys) splittable -> s x = Some (Whole tx n) -> List.In t wide_ints -> NoDup ys ->
  Forall (fun y => exists z, s y = Some (Whole t z)) ys -> taken_apart f n zs ->
  exists u r', value_of (api P) r (ModelLink.Call f (map Arg (x :: ys))) = Ok (u, r') /\ represents r' (assign_parts t ys zs s) /\ Forall (of_type t) zs /\ length zs = length ys.
Proof.
  intros P r s f x ys tx t n zs R SF X T ND Y TA. destruct (R x _ X) as (tv & G & S). destruct S as [-> I].
  destruct (split_runs P r f tx t x ys n SF T G I) as (parts & r' & S & _ & O & L & U).
  { split; [exact ND|]. refine (Forall_impl _ _ Y). intros y (z & A). destruct (R y _ A) as (tv & GY & SY). destruct SY as [-> _]. now exists (VZ z). }
  rewrite <- (U zs TA) in *. exists (S_INT, VZ 0), r'. split; [exact (proj1 S)|].
  assert (OT : Forall (of_type t) zs) by (refine (Forall_impl _ _ O); intros z Z; exact (proj1 Z)).
  split; [|split; [exact OT|exact L]]. intros y m M. destruct (in_dec string_dec y ys) as [IN|NI].
  - destruct (parts_in t ys zs s y ND L IN) as (z & C & E). rewrite E in M. injection M as <-. exists (t, VZ z). split; [exact (Forall2_combine _ _ _ _ _ _ _ (proj1 (proj2 S)) C)|].
    split; [reflexivity|]. apply in_combine_r in C. rewrite Forall_forall in OT. exact (OT z C).
  - rewrite parts_other in M by exact NI. rewrite (proj2 (proj2 S) y NI). exact (R y m M).
Qed.

(** * Execution *)
Section Execution.
Variables (rp : option_repr) (P : platform) (insts : list instance) (m0 : ModelLayout.mem).
Hypothesis PL : placed rp insts.
Hypothesis Z0 : forall i, List.In i insts -> zeroed rp m0 i.
Hypothesis TF : timers_fresh rp insts.
Record state (r : env value) (s : store) (m : ModelLayout.mem) (L : list mcall) (l : history) (lo : Z) : Prop := State {
  st_store : represents r s;
  st_run : mrun rp (p_profile P) m0 L = Ok m;
  st_log : Forall2 (recorded insts) L l;
  st_clock : clock_log 0 L;
  st_past : Forall (fun c => c_now2 c <= lo) L;
  st_lo : 0 <= lo }.
Lemma fresh : forall i, List.In i insts -> List.In (i_name i) (map fst timer_values) -> rp = Tagged.
Proof. intros i I H. destruct TF as [E|N]; [exact E|destruct (N i I H)]. Qed.
(** A call of an instance in the memory of all of them. *)
Lemma called : forall r s m L l lo i its ots e, state r s m L l lo -> List.In i insts -> interface (i_name i) its ots ->
  Forall2 (fun it z => of_type (snd it) z) its (v_inputs e) -> lo <= v_now1 e -> v_now1 e <= v_now2 e -> v_now2 e < 2 ^ 63 ->
  Forall2 (recorded insts) (L ++ [as_call i its e]) (l ++ [(i, e)]) /\ clock_log 0 (L ++ [as_call i its e]) /\ Forall (fun c => c_now2 c <= v_now2 e) (L ++ [as_call i its e]) /\
  Forall (event_ok its) (events_of i (l ++ [(i, e)])) /\ clock_log 0 (map (as_call i its) (events_of i (l ++ [(i, e)]))) /\
  same_on (occupies rp i) (st_call rp (p_profile P) m (as_call i its e)) (mrun rp (p_profile P) m0 (map (as_call i its) (events_of i (l ++ [(i, e)])))).
Proof.
  intros r s m L l lo i its ots e [R RN LG CL PA LO] I IF T A1 A2 A3.
  assert (E : event_ok its e) by (split; [exact T|lia]).
  assert (LG' : Forall2 (recorded insts) (L ++ [as_call i its e]) (l ++ [(i, e)])).
  { apply Forall2_app; [exact LG|]. constructor; [|constructor]. split; [exact I|]. exists its, ots. split; [exact IF|]. split; [reflexivity|exact E]. }
  assert (CL' : clock_log 0 (L ++ [as_call i its e])) by (apply (clock_snoc L 0 lo); trivial).
  destruct (recorded_of insts _ _ i its ots LG' IF) as [C O]. split; [exact LG'|]. split; [exact CL'|].
  split. { apply Forall_app. split; [refine (Forall_impl _ _ PA); intros c H; cbv beta in H; lia|]. constructor; [apply Z.le_refl|constructor]. }
  split; [exact O|]. rewrite <- C. split; [exact (clock_log_filter _ _ _ CL')|].
  unfold calls_of. rewrite filter_app. fold (calls_of i L). cbn [filter]. change (c_inst (as_call i its e)) with i. rewrite (proj2 (same_instance_iff i i) eq_refl).
  destruct (run_local rp (p_profile P) insts i L m0 m0 PL I (recorded_insts _ _ _ LG) (fun a _ => eq_refl) m RN) as (mi & Ri & A).
  rewrite run_app, Ri. cbn [obind ModelMachine.run].
  pose proof (call_local rp (p_profile P) m mi (as_call i its e) A) as S. change (c_inst (as_call i its e)) with i in S.
  destruct (st_call rp (p_profile P) mi (as_call i its e)) as [m2| |]; exact S.
Qed.
Lemma step_does : forall r s m L l lo q s' l', state r s m L l lo -> does_one P insts s l q s' l' -> lo <= fst (snd q) -> fst (snd q) <= snd (snd q) -> snd (snd q) < 2 ^ 63 ->
  exists r' m' lg, executes_one rp P r m q = Ok (r', m', lg) /\ state r' s' m' (L ++ map snd lg) l' (snd (snd q)).
Proof.
  intros r s m L l lo q s' l' ST D A1 A2 A3. destruct D as [s l x e mg mg0 mg' k D X B|s l i ins outs its ots zs n1 n2 s' I IF N D LN AC AS|s l f x ys tx t n zs k SF X T ND Y TA].
  - pose proof (denotes_means P r s e mg (st_store _ _ _ _ _ _ ST) D) as M. apply meaning_value in M. destruct M as ([t v] & V & S). pose proof (stands_type _ _ S) as K. cbn [fst] in K. subst t.
    destruct (becomes_coerce mg _ mg' v B S) as (w & C & W & K'). destruct (st_store _ _ _ _ _ _ ST x mg0 X) as ([t0 v0] & G & S0). apply stands_type in S0. cbn [fst] in S0. subst t0.
    unfold executes_one. cbn [fst snd executes]. rewrite V. cbn [obind]. rewrite G. cbn [obind]. rewrite C. cbn [obind]. do 3 eexists. split; [reflexivity|]. cbn [map]. rewrite app_nil_r.
    destruct ST as [R RN LG CL PA LO]. split; trivial; cbn [fst snd] in *.
    + apply (represents_put r s x mg0 w mg' R X (eq_sym K')). now rewrite K'.
    + refine (Forall_impl _ _ PA). intros c H. cbv beta in H. lia.
    + lia.
  - cbn [fst snd] in *. destruct (inputs_whole P r s (st_store _ _ _ _ _ _ ST) its ins zs N LN D) as [E T].
    destruct (called r s m L l lo i its ots (Event zs n1 n2) ST I IF T A1 A2 A3) as (LG' & CL' & PA' & O & C & S).
    destruct (block_accepts rp (p_profile P) m0 i its ots (Z0 i I) IF (fresh i I) _ O C AC) as [mi M]. rewrite M in S.
    unfold executes_one. cbn [fst snd]. rewrite E. cbn [obind]. change (MCall i (named its zs) n1 n2) with (as_call i its (Event zs n1 n2)).
    destruct (st_call rp (p_profile P) m (as_call i its (Event zs n1 n2))) as [m'| |] eqn:E1; try contradiction S. cbn [same_on obind] in *.
    destruct (outputs_assigned rp m' i _ _ outs s s' AS) with (r := r) as (r' & E2 & R').
    + intros var w H. destruct (block_shows rp (p_profile P) m0 i its ots (Z0 i I) IF (fresh i I) _ mi var w O C M H) as (v & y & Y). exists v, y. now rewrite (read_same rp i m' mi var S).
    + exact (st_store _ _ _ _ _ _ ST).
    + rewrite E2. cbn [obind]. do 3 eexists. split; [reflexivity|]. cbn [map snd]. destruct ST as [R RN LG CL PA LO]. split; trivial; [|lia].
      rewrite run_app, RN. cbn [obind ModelMachine.run]. now rewrite E1.
  - destruct ST as [R RN LG CL PA LO]. destruct (split_represents P r s f x ys tx t n zs R SF X T ND Y TA) as (u & r' & E & R' & _).
    unfold executes_one. cbn [fst snd]. rewrite E. cbn [obind]. do 3 eexists. split; [reflexivity|]. cbn [map]. rewrite app_nil_r. cbn [fst snd] in *. split; trivial; [|lia].
    refine (Forall_impl _ _ PA). intros c H. cbv beta in H. lia.
Qed.
Lemma simulates : forall qs r s m L l lo s' l', state r s m L l lo -> does P insts s l qs s' l' -> clock_runs lo qs ->
  exists r' m' lg lo', executes_all rp P r m qs = Ok (r', m', lg) /\ state r' s' m' (L ++ map snd lg) l' lo'.
Proof.
  intros qs. induction qs as [|[q [n1 n2]] qs IH]; intros r s m L l lo s' l' ST D C; inversion D as [|? ? ? ? s1 l1 ? ? D1 D2]; subst.
  - exists r, m, [], lo. split; [reflexivity|]. cbn [map]. now rewrite app_nil_r.
  - destruct C as (C1 & C2 & C3 & C4). destruct (step_does r s m L l lo _ s1 l1 ST D1 C1 C2 C3) as (r1 & m1 & lg1 & E1 & ST1).
    destruct (IH r1 s1 m1 _ l1 n2 s' l' ST1 D2 C4) as (r2 & m2 & lg2 & lo2 & E2 & ST2). exists r2, m2, (lg1 ++ lg2), lo2. split; [cbn [executes_all]; rewrite E1; cbn [obind]; now rewrite E2|].
    now rewrite map_app, app_assoc.
Qed.
Lemma stops : forall s l qs, is_stopped P insts s l qs -> forall r m L lo, state r s m L l lo -> clock_runs lo qs -> executes_all rp P r m qs = Panic.
Proof.
  intros s l qs H. induction H as [s l x e k qs B|s l i ins outs k qs n e ins1 ins2 its1 its2 ots zs -> IF D LN B|s l i ins outs its ots pt n1 n2 qs I NP IF N D EV|s l q qs s1 l1 D H IH]; intros r m L lo ST C; cbn [executes_all].
  - unfold executes_one. cbn [fst executes]. rewrite (aborts_panic P r e (breaks_aborts P r s e (st_store _ _ _ _ _ _ ST) B)). reflexivity.
  - unfold executes_one. cbn [fst]. now rewrite (inputs_break P r s (st_store _ _ _ _ _ _ ST) its1 ins1 zs n e ins2 LN D B).
  - destruct C as (A1 & A2 & A3 & _). destruct (pulse_names _ NP) as [U [t V]]. destruct (interface_unique _ _ _ _ _ IF (if_timer _ t V)) as [-> _].
    destruct (inputs_whole P r s (st_store _ _ _ _ _ _ ST) _ ins [0; pt] N eq_refl D) as [E T]. unfold executes_one. cbn [fst snd]. rewrite E. cbn [obind].
    set (e := Event [0; pt] n1 n2). set (its := [("IN", S_BOOL); ("PT", t)]) in *. change (MCall i (named its [0; pt]) n1 n2) with (as_call i its e).
    destruct (called r s m L l lo i its ots e ST I IF T A1 A2 A3) as (LG' & CL' & PA' & O & CC & S).
    assert (EE : events_of i (l ++ [(i, e)]) = events_of i l ++ [e]).
    { unfold events_of in *. rewrite filter_app, map_app. cbn [filter fst]. now rewrite (proj2 (same_instance_iff i i) eq_refl). }
    rewrite EE in *. pose proof (timer_state rp (p_profile P) m0 i (Z0 i I) TP t _ U V O) as TS. cbn zeta in TS. fold its in TS.
    pose proof (clocked i _ t _ V O CC) as CK. pose proof (preset_history _ t _ V O) as PO. rewrite (map_app timed_input) in CK, PO, TS. cbn [map] in CK, PO, TS.
    rewrite (fresh i I (timer_name _ _ V)), zeroed_tagged in TS. rewrite (pulse_aborts _ _ EV (eq_refl : tc_in (timed_input e) = false) (clock_ok_app_l _ _ CK) (preset_i64_app_l _ _ PO)) in TS.
    rewrite (fresh i I (timer_name _ _ V)) in S. rewrite TS in S.
    rewrite (fresh i I (timer_name _ _ V)). destruct (st_call Tagged (p_profile P) m (as_call i its e)); [contradiction S|reflexivity|contradiction S].
  - destruct q as [q [n1 n2]]. destruct C as (C1 & C2 & C3 & C4). destruct (step_does r s m L l lo _ s1 l1 ST D C1 C2 C3) as (r1 & m1 & lg1 & E1 & ST1). rewrite E1. cbn [obind]. now rewrite (IH r1 m1 _ n2 ST1 C4).
Qed.
Lemma final_outputs : forall r s m L l lo, state r s m L l lo -> outputs_shown rp m insts l.
Proof.
  intros r s m L l lo [R RN LG CL PA LO] i var w I S. destruct (shows_interface _ _ _ _ S) as (its & ots & IF).
  destruct (recorded_of insts L l i its ots LG IF) as [C O]. destruct (run_local rp (p_profile P) insts i L m0 m0 PL I (recorded_insts _ _ _ LG) (fun a _ => eq_refl) m RN) as (mi & Ri & A).
  rewrite C in Ri. assert (CC : clock_log 0 (map (as_call i its) (events_of i l))) by (rewrite <- C; exact (clock_log_filter _ _ _ CL)).
  destruct (block_shows rp (p_profile P) m0 i its ots (Z0 i I) IF (fresh i I) _ mi var w O CC Ri S) as (v & y & Y). exists v, y. now rewrite (read_same rp i m mi var A).
Qed.
End Execution.
Lemma begun : forall rp P insts m r s, represents r s -> state rp P insts m r s m [] [] 0.
Proof. intros rp P insts m r s R. split; [exact R|reflexivity|constructor|exact I|constructor|apply Z.le_refl]. Qed.
Lemma program_refines : forall rp P insts r m s qs s' l, started rp insts m qs -> represents r s -> does P insts s [] qs s' l ->
  exists r' m' log, executes_all rp P r m qs = Ok (r', m', log) /\ represents r' s' /\ outputs_shown rp m' insts l.
Proof.
  intros rp P insts r m s qs s' l (PL & Z0 & TF & C) R D.
  destruct (simulates rp P insts m PL Z0 TF qs r s m [] [] 0 s' l (begun rp P insts m r s R) D C) as (r' & m' & lg & lo & E & ST).
  exists r', m', lg. split; [exact E|]. split; [exact (st_store _ _ _ _ _ _ _ _ _ _ ST)|]. exact (final_outputs rp P insts m PL Z0 TF _ _ _ _ _ _ ST).
Qed.
Lemma program_stops : forall rp P insts r m s qs, started rp insts m qs -> represents r s -> is_stopped P insts s [] qs -> executes_all rp P r m qs = Panic.
Proof.
  intros rp P insts r m s qs (PL & Z0 & TF & C) R D. exact (stops rp P insts m PL Z0 TF s [] qs D r m [] 0 (begun rp P insts m r s R) C).
Qed.
Lemma assigns_domain : forall n h outs s s', assigns n h outs s s' -> forall x, s x = None <-> s' x = None.
Proof.
  intros n h outs s s' A. induction A as [s|x var outs s m m0 s' H X K A IH]; intros y; [reflexivity|]. rewrite <- IH. unfold assign. destruct (String.eqb_spec y x) as [->|N]; [|reflexivity].
  split; intros E; [rewrite X in E|]; discriminate E.
Qed.
Lemma does_domain : forall P insts s l qs s' l', does P insts s l qs s' l' -> forall x, s x = None <-> s' x = None.
Proof.
  intros P insts s l qs s' l' D. induction D as [s l|s l q qs s1 l1 s2 l2 D1 D2 IH]; intros y; [reflexivity|]. rewrite <- IH.
  destruct D1 as [s l x e mg mg0 mg' k D X B|s l i ins outs its ots zs n1 n2 s' I IF N D LN AC AS|s l f x ys tx t n zs k SF X T ND Y TA].
  - unfold assign. destruct (String.eqb_spec y x) as [->|N]; [|reflexivity]. split; intros E; [rewrite X in E|]; discriminate E.
  - exact (assigns_domain _ _ _ _ _ AS y).
  - clear -Y. revert zs s Y. induction ys as [|w ys IH]; intros [|z zs] s Y; try reflexivity. inversion Y as [|? ? (a & A) Y2]; subst. cbn [assign_parts]. rewrite <- IH.
    + unfold assign. destruct (String.eqb_spec y w) as [->|]; [|reflexivity]. split; intros E; [rewrite A in E|]; discriminate E.
    + refine (Forall_impl _ _ Y2). intros v (b & B). unfold assign. destruct (String.eqb v w); [now exists z|now exists b].
Qed.
Lemma program_unique : forall rp P insts r m s qs s1 l1 s2 l2, started rp insts m qs -> represents r s -> does P insts s [] qs s1 l1 -> does P insts s [] qs s2 l2 ->
  forall x, s1 x = s2 x.
Proof.
  intros rp P insts r m s qs s1 l1 s2 l2 ST R D1 D2 x.
  destruct (program_refines rp P insts r m s qs s1 l1 ST R D1) as (r1 & m1 & g1 & E1 & R1 & _).
  destruct (program_refines rp P insts r m s qs s2 l2 ST R D2) as (r2 & m2 & g2 & E2 & R2 & _). rewrite E1 in E2. injection E2 as <- <- <-.
  pose proof (does_domain _ _ _ _ _ _ _ D1 x) as X1. pose proof (does_domain _ _ _ _ _ _ _ D2 x) as X2.
  destruct (s1 x) as [w1|] eqn:A1, (s2 x) as [w2|] eqn:A2; trivial.
  - destruct (R1 x w1 A1) as (tv1 & G1 & S1). destruct (R2 x w2 A2) as (tv2 & G2 & S2). rewrite G1 in G2. injection G2 as <-. f_equal. exact (stands_unique _ _ _ S1 S2).
  - pose proof (proj2 X2 eq_refl) as Y. apply X1 in Y. discriminate Y.
  - pose proof (proj2 X1 eq_refl) as Y. apply X2 in Y. discriminate Y.
Qed.
