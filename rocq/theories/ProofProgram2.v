(** Proofs about programs that assign expressions and call function blocks: execution. *)
From Coq Require Import String ZArith List Bool Lia.
From Verif Require Import Base ModelFB ModelCounters ModelTimers ModelLayout ModelMachine ModelFloat ModelLink ModelLib ModelApi
  SpecFB SpecLayout SpecMachine SpecScalar SpecLink SpecLib SpecSafe SpecApi SpecCall SpecType SpecProgram
  ProofBase ProofFB ProofLayout ProofMachine ProofMachine2 ProofType ProofSplit ProofProgram.
Import ListNotations.
Open Scope string_scope.
Open Scope list_scope.
Open Scope Z_scope.
Local Opaque ModelApi.call value_in api.

(** * Interfaces *)
Definition interface_of (n : string) : option (list (string * sty) * list (string * sty)) :=
  let table : list (string * (list (string * sty) * list (string * sty))) :=
    flat_map (fun '(n, t) => flat_map (fun '(s, u) => if (it_bits t =? it_bits u) && Bool.eqb (it_signed t) (it_signed u) then
      [(n, ([("CU", S_BOOL); ("R", S_BOOL); ("PV", s)], [("Q", S_BOOL); ("CV", s)]))] else []) counter_values) up_counters ++
    flat_map (fun '(n, t) => flat_map (fun '(s, u) => if (it_bits t =? it_bits u) && Bool.eqb (it_signed t) (it_signed u) then
      [(n, ([("CD", S_BOOL); ("LD", S_BOOL); ("PV", s)], [("Q", S_BOOL); ("CV", s)]))] else []) counter_values) down_counters ++
    flat_map (fun '(n, t) => flat_map (fun '(s, u) => if (it_bits t =? it_bits u) && Bool.eqb (it_signed t) (it_signed u) then
      [(n, ([("CU", S_BOOL); ("CD", S_BOOL); ("R", S_BOOL); ("LD", S_BOOL); ("PV", s)], [("QU", S_BOOL); ("QD", S_BOOL); ("CV", s)]))] else []) counter_values) up_down_counters ++
    map (fun '(n, _, (a, b)) => (n, ([(a, S_BOOL); (b, S_BOOL)], [("Q1", S_BOOL)]))) bistables ++
    map (fun '(n, _) => (n, ([("CLK", S_BOOL)], [("Q", S_BOOL)]))) triggers ++
    map (fun '(n, s) => (n, ([("IN", S_BOOL); ("PT", s)], [("Q", S_BOOL); ("ET", s)]))) timer_values in
  option_map snd (find (fun x => String.eqb (fst x) n) table).
Ltac table H := repeat match type of H with _ \/ _ => destruct H as [H|H] | False => contradiction end.
Lemma interface_is : forall n its ots, interface n its ots -> interface_of n = Some (its, ots).
Proof.
  intros n its ots H. inversion H as [? t s U V|? t s U V|? t s U V|? f a b U|? f U|? s U]; subst.
  1-3: unfold up_counters, down_counters, up_down_counters, counter_values in U, V; cbn [List.In] in U, V; table U; injection U as <- <-;
    table V; inversion V; subst; vm_compute; reflexivity.
  - unfold bistables in U. cbn [List.In] in U. table U; inversion U; subst; vm_compute; reflexivity.
  - unfold triggers in U. cbn [List.In] in U. table U; inversion U; subst; vm_compute; reflexivity.
  - unfold timer_values in U. cbn [List.In] in U. table U; injection U as <- <-; vm_compute; reflexivity.
Qed.
Lemma interface_unique : forall n its ots its' ots', interface n its ots -> interface n its' ots' -> its = its' /\ ots = ots'.
Proof. intros n its ots its' ots' H H'. apply interface_is in H, H'. rewrite H in H'. injection H' as -> ->. now split. Qed.
Definition simple (t : sty) : Prop := forall v, holds t v -> exists w, as_input (t, v) = Ok w /\ fitting t w.
Lemma simple_bool : simple S_BOOL.
Proof. intros v [-> | ->]; eexists; (split; [reflexivity|]); eexists; reflexivity. Qed.
Lemma simple_whole : forall t, List.In t [S_INT; S_DINT; S_UDINT; S_LINT; S_ULINT; S_TIME; S_LTIME] -> simple t.
Proof.
  intros t H v V. cbn [List.In] in H. table H; subst t; destruct v; try contradiction V; eexists; (split; [reflexivity|]); eexists; (split; [reflexivity|exact V]).
Qed.
Lemma interface_simple : forall n its ots, interface n its ots -> Forall simple (map snd its).
Proof.
  intros n its ots H. inversion H as [? t s U V|? t s U V|? t s U V|? f a b U|? f U|? s U]; subst.
  1-3: assert (S : simple s) by (apply simple_whole; unfold counter_values in V; cbn [List.In] in V; table V; injection V as <- _; cbn; tauto).
  6: assert (S : simple s) by (apply simple_whole; destruct (timer_values_type n s U) as [-> | ->]; cbn; tauto).
  all: cbn [map snd]; repeat apply Forall_cons; try apply Forall_nil; try exact simple_bool; exact S.
Qed.

(** * Inputs and outputs *)
Definition stopped {A} (P : platform) (fs : list string) (o : outcome A) (Q : A -> Prop) : Prop :=
  match o with
  | Ok x => Q x
  | Panic => exists n, List.In n fs /\ List.In n (pulses ++ aborting ++ can_abort (p_profile P))
  | Ub => exists n, List.In n fs /\ List.In n undefined
  end.
Lemma value_stopped : forall P r e t fs, sane P -> has_type (variable r) e t fs -> stopped P fs (value_in P r e) (fun tv => fst tv = t /\ holds t (snd tv)).
Proof.
  intros P r e t fs SP H. pose proof (typed_value P r e t fs SP H) as V. unfold stopped. destruct (value_in P r e) as [[t' v]| |].
  - exact V.
  - destruct V as (n & I & L). exists n. split; [exact I|]. apply in_or_app. now right.
  - exact V.
Qed.
Lemma inputs_typed : forall P r its, sane P -> forall ins fs, Forall simple (map snd its) -> map fst ins = map fst its -> have_types (variable r) (map snd ins) (map snd its) fs ->
  stopped P fs (inputs P r ins) (fun vs => Forall2 (fun a b => fst a = fst b /\ fitting (snd b) (snd a)) vs its).
Proof.
  intros P r its SP. induction its as [|[n t] its IH]; intros [|[n' e] ins] fs S N H; try discriminate N; [constructor|].
  cbn [map fst snd] in *. injection N as -> N. inversion S as [|? ? S1 S2]; subst. inversion H as [|? ? ? ? fs1 gs H1 H2]; subst. cbn [inputs].
  pose proof (value_stopped P r e t fs1 SP H1) as V. destruct (value_in P r e) as [[t' v]| |]; cbn [obind stopped] in *.
  - destruct V as [X V]. cbn [fst snd] in X, V. subst t'. destruct (S1 v V) as (w & -> & W). cbn [obind]. specialize (IH ins gs S2 N H2).
    destruct (inputs P r ins) as [vs| |]; cbn [obind stopped] in *.
    + constructor; [split; [reflexivity|exact W]|exact IH].
    + destruct IH as (x & I & L). exists x. split; [apply in_or_app; now right|exact L].
    + destruct IH as (x & I & L). exists x. split; [apply in_or_app; now right|exact L].
  - destruct V as (x & I & L). exists x. split; [apply in_or_app; now left|exact L].
  - destruct V as (x & I & L). exists x. split; [apply in_or_app; now left|exact L].
Qed.
Lemma outputs_typed : forall rp m i ots, delivers_outputs rp i ots m -> forall outs r,
  Forall (fun o => exists t, List.In (snd o, t) ots /\ variable r (fst o) t) outs ->
  exists r', assign_outputs rp m i outs r = Ok r' /\ forall x t, variable r x t -> variable r' x t.
Proof.
  intros rp m i ots D outs. induction outs as [|[x var] outs IH]; intros r F; [exists r; split; [reflexivity|exact (fun x t H => H)]|].
  inversion F as [|? ? (t & T & X) F2]; subst. cbn [fst snd] in *. cbn [assign_outputs]. destruct (D var t T) as (v & w & -> & W & Hw). cbn [obind]. rewrite W. cbn [obind].
  destruct (IH (ModelLink.put x w r)) as (r' & E & K).
  - refine (Forall_impl _ _ F2). intros [y o] (u & U & Y). exists u. split; [exact U|]. exact (put_variable x w r t X Hw y u Y).
  - exists r'. split; [exact E|]. intros y u Y. apply K. exact (put_variable x w r t X Hw y u Y).
Qed.

(** * Execution *)
Definition fine (insts : list instance) (c : mcall) : Prop :=
  List.In (c_inst c) insts /\ exists its ots, interface (i_name (c_inst c)) its ots /\ good its c.
Lemma fine_calls : forall insts i its ots L, interface (i_name i) its ots -> Forall (fine insts) L ->
  Forall (fun c => c_inst c = i /\ good its c) (calls_of i L).
Proof.
  intros insts i its ots L IF F. apply Forall_forall. intros c H. apply filter_In in H. destruct H as [H S]. apply same_instance_iff in S. split; [exact S|].
  rewrite Forall_forall in F. destruct (F c H) as (_ & its' & ots' & IF' & G). rewrite S in IF'. destruct (interface_unique _ _ _ _ _ IF IF') as [-> _]. exact G.
Qed.
Lemma proper_weaken : forall (G G' : string -> sty -> Prop) insts s fs, (forall x t, G x t -> G' x t) -> proper G insts s fs -> proper G' insts s fs.
Proof.
  intros G G' insts s fs W H. inversion H as [x e t s' fs' X E C|i ins outs its ots fs' I IF N T O|f x ys tx t SP X T ND Y]; subst.
  - apply (pr_let G' insts x e t s'); [now apply W|exact (proj1 (types_weaken G G' W) e s' fs E)|exact C].
  - apply (pr_use G' insts i ins outs its ots); trivial; [exact (proj2 (types_weaken G G' W) _ _ _ T)|].
    refine (Forall_impl _ _ O). intros o (t & A & B). exists t. split; [exact A|now apply W].
  - apply (pr_split G' insts f x ys tx t SP); trivial; [now apply W|]. refine (Forall_impl _ _ Y). intros y. apply W.
Qed.
(** A statement that takes a date or time apart does not abort. *)
Lemma split_typed : forall P r f x ys tx t, List.In (f, tx, length ys) splittable -> variable r x tx -> List.In t wide_ints -> NoDup ys -> Forall (fun y => variable r y t) ys ->
  exists u r', value_of (api P) r (ModelLink.Call f (map Arg (x :: ys))) = Ok (u, r') /\ forall y s, variable r y s -> variable r' y s.
Proof.
  intros P r f x ys tx t SP (v & G & H) T ND Y. destruct (split_holds f tx _ v SP H) as (n & -> & I).
  destruct (split_runs P r f tx t x ys n SP T G I) as (parts & r' & S & _ & O & _).
  { split; [exact ND|]. refine (Forall_impl _ _ Y). intros y (a & A & _). now exists a. }
  exists (S_INT, VZ 0), r'. split; [exact (proj1 S)|]. intros y s Q. destruct (in_dec string_dec y ys) as [IN|NI].
  - destruct (split_reads P r f x ys t parts r' S O y IN) as (z & E & Z & _). rewrite Forall_forall in Y. destruct (Y y IN) as (a & A & _). destruct Q as (b & B & _).
    rewrite A in B. injection B as <- _. exists (VZ z). split; [exact E|exact (wide_holds t z T Z)].
  - destruct Q as (b & B & HB). exists b. split; [|exact HB]. now rewrite (proj2 (proj2 S) y NI).
Qed.
Lemma one_step : forall rp P insts m0 r m L q fs, sane P -> placed rp insts -> (forall i, List.In i insts -> zeroed rp m0 i) ->
  mrun rp (p_profile P) m0 L = Ok m -> Forall (fine insts) L -> proper (variable r) insts (fst q) fs -> 0 <= fst (snd q) < 2 ^ 63 ->
  stopped P fs (executes_one rp P r m q) (fun '(r', m', l) =>
    (forall x t, variable r x t -> variable r' x t) /\ mrun rp (p_profile P) m0 (L ++ map snd l) = Ok m' /\ Forall (fine insts) (map snd l) /\
    Forall (fun e => fst e = r) l).
Proof.
  intros rp P insts m0 r m L [s [n1 n2]] fs SP PL Z0 R F H N. cbn [fst snd] in *. unfold executes_one. cbn [fst snd].
  inversion H as [x e t s' fs' X E C|i ins outs its ots fs' I IF M T O|f x ys tx t SF X T ND Y]; subst.
  - assert (WT : well_typed (variable r) [(x, e)] (fs ++ [])) by (apply (wt_assign _ x e t s'); [exact X|exact E|exact C|constructor]).
    pose proof (program_runs P [(x, e)] r _ SP WT) as Q. rewrite app_nil_r in Q. destruct (executes P r [(x, e)]) as [r'| |]; cbn [obind stopped].
    + split; [exact Q|]. cbn [map]. rewrite app_nil_r. repeat split; [exact R|constructor|constructor].
    + destruct Q as (n & A & B). exists n. split; [exact A|]. apply in_or_app. now right.
    + exact Q.
  - pose proof (inputs_typed P r its SP ins fs' (interface_simple _ _ _ IF) M T) as V. destruct (inputs P r ins) as [vs| |]; cbn [obind stopped] in *.
    2,3: destruct V as (n & A & B); exists n; (split; [now right|exact B]).
    set (c := MCall i vs n1 n2). assert (FC : fine insts c) by (split; [exact I|]; exists its, ots; split; [exact IF|]; split; [exact V|exact N]).
    assert (FL : Forall (fun c => List.In (c_inst c) insts) L) by (refine (Forall_impl _ _ F); intros d D; exact (proj1 D)).
    destruct (run_local rp (p_profile P) insts i L m0 m0 PL I FL (fun a _ => eq_refl) m R) as (mi & Ri & A).
    pose proof (block_runs rp (p_profile P) m0 i its ots (calls_of i L ++ [c]) IF (Z0 i I)) as B.
    rewrite run_app, Ri in B. cbn [obind ModelMachine.run] in B.
    assert (CL : same_on (occupies rp i) (st_call rp (p_profile P) m c) (st_call rp (p_profile P) mi c)) by (apply (call_local rp (p_profile P) m mi c); exact A).
    assert (GC : Forall (fun c => c_inst c = i /\ good its c) (calls_of i L ++ [c])).
    { apply Forall_app. split; [exact (fine_calls insts i its ots L IF F)|]. constructor; [|constructor]. split; [reflexivity|]. split; [exact V|exact N]. }
    specialize (B GC). destruct (st_call rp (p_profile P) m c) as [m1| |] eqn:E1, (st_call rp (p_profile P) mi c) as [m2| |]; try contradiction CL; cbn [obind stopped same_on] in *.
    + destruct (outputs_typed rp m1 i ots) with (outs := outs) (r := r) as (r' & E2 & K).
      * intros var t IV. destruct (B var t IV) as (v & w & B1 & B2). exists v, w. split; [|exact B2]. now rewrite (read_same rp i m1 m2 var CL).
      * exact O.
      * rewrite E2. cbn [obind stopped]. split; [exact K|]. cbn [map snd]. split; [rewrite run_app, R; cbn [obind ModelMachine.run]; now rewrite E1|].
        split; [constructor; [exact FC|constructor]|]. constructor; [reflexivity|constructor].
    + exists (i_name i). split; [now left|]. apply in_or_app. now left.
    + contradiction.
  - destruct (split_typed P r f x ys tx t SF X T ND Y) as (u & r' & E & K). rewrite E. cbn [obind stopped map]. split; [exact K|]. rewrite app_nil_r. repeat split; [exact R|constructor|constructor].
Qed.
Lemma proceeds : forall rp P insts m0 r0, sane P -> placed rp insts -> (forall i, List.In i insts -> zeroed rp m0 i) ->
  forall qs r m L, (forall x t, variable r0 x t -> variable r x t) -> mrun rp (p_profile P) m0 L = Ok m -> Forall (fine insts) L ->
  Forall (fun q => (exists fs, proper (variable r0) insts (fst q) fs) /\ 0 <= fst (snd q) < 2 ^ 63) qs ->
  match executes_all rp P r m qs with
  | Ok (r', m', log) => (forall x t, variable r0 x t -> variable r' x t) /\ mrun rp (p_profile P) m0 (L ++ map snd log) = Ok m' /\
      Forall (fine insts) (map snd log) /\ Forall (fun e => forall x t, variable r0 x t -> variable (fst e) x t) log
  | Panic => exists q fs n, List.In q qs /\ proper (variable r0) insts (fst q) fs /\ List.In n fs /\ List.In n (pulses ++ aborting ++ can_abort (p_profile P))
  | Ub => exists q fs n, List.In q qs /\ proper (variable r0) insts (fst q) fs /\ List.In n fs /\ List.In n undefined
  end.
Proof.
  intros rp P insts m0 r0 SP PL Z0 qs. induction qs as [|q qs IH]; intros r m L K R F H.
  - cbn [executes_all map]. rewrite app_nil_r. split; [exact K|]. split; [exact R|]. split; constructor.
  - inversion H as [|? ? ((fs & Q) & N) H2]; subst. cbn [executes_all].
    pose proof (one_step rp P insts m0 r m L q fs SP PL Z0 R F (proper_weaken _ _ _ _ _ K Q) N) as S.
    destruct (executes_one rp P r m q) as [[[r1 m1] l1]| |]; cbn [obind stopped] in *.
    + destruct S as (K1 & R1 & F1 & E1).
      specialize (IH r1 m1 (L ++ map snd l1) (fun x t X => K1 x t (K x t X)) R1 (proj2 (Forall_app _ _ _) (conj F F1)) H2).
      destruct (executes_all rp P r1 m1 qs) as [[[r2 m2] l2]| |]; cbn [obind].
      * destruct IH as (K2 & R2 & F2 & E2). split; [exact K2|]. rewrite map_app, app_assoc. split; [exact R2|]. split; [apply Forall_app; now split|].
        apply Forall_app. split; [|exact E2]. refine (Forall_impl _ _ E1). intros e ->. exact K.
      * destruct IH as (q' & fs' & n & A & B). exists q', fs', n. split; [now right|exact B].
      * destruct IH as (q' & fs' & n & A & B). exists q', fs', n. split; [now right|exact B].
    + destruct S as (n & A & B). exists q, fs, n. split; [now left|]. now split.
    + destruct S as (n & A & B). exists q, fs, n. split; [now left|]. now split.
Qed.

(** The calls that were made are those of the statements, with the values the inputs had. *)
Lemma logged : forall rp P qs r m r' m' log, executes_all rp P r m qs = Ok (r', m', log) ->
  mrun rp (p_profile P) m (map snd log) = Ok m' /\
  Forall (fun e => exists ins outs, List.In (Use (c_inst (snd e)) ins outs, (c_now1 (snd e), c_now2 (snd e))) qs /\ inputs P (fst e) ins = Ok (c_inputs (snd e))) log.
Proof.
  intros rp P qs. induction qs as [|[s [n1 n2]] qs IH]; intros r m r' m' log H; [injection H as <- <- <-; split; [reflexivity|constructor]|].
  cbn [executes_all] in H. destruct (executes_one rp P r m (s, (n1, n2))) as [[[r1 m1] l1]| |] eqn:E1; try discriminate H. cbn [obind] in H.
  destruct (executes_all rp P r1 m1 qs) as [[[r2 m2] l2]| |] eqn:E2; try discriminate H. cbn [obind] in H. injection H as <- <- <-.
  destruct (IH r1 m1 r2 m2 l2 E2) as [R F]. rewrite map_app, run_app.
  assert (X : mrun rp (p_profile P) m (map snd l1) = Ok m1 /\ Forall (fun e => exists ins outs, (s, (n1, n2)) = (Use (c_inst (snd e)) ins outs, (c_now1 (snd e), c_now2 (snd e))) /\ inputs P (fst e) ins = Ok (c_inputs (snd e))) l1).
  { unfold executes_one in E1. cbn [fst snd] in E1. destruct s as [x e|i ins outs|f x ys].
    - destruct (executes P r [(x, e)]) as [r3| |]; try discriminate E1. injection E1 as <- <- <-. split; [reflexivity|constructor].
    - destruct (inputs P r ins) as [vs| |] eqn:V; try discriminate E1. cbn [obind] in E1.
      destruct (st_call rp (p_profile P) m (MCall i vs n1 n2)) as [m3| |] eqn:C; try discriminate E1. cbn [obind] in E1.
      destruct (assign_outputs rp m3 i outs r) as [r3| |]; try discriminate E1. injection E1 as <- <- <-. cbn [map snd ModelMachine.run]. rewrite C. split; [reflexivity|].
      constructor; [|constructor]. exists ins, outs. split; [reflexivity|exact V].
    - destruct (value_of (api P) r (ModelLink.Call f (map Arg (x :: ys)))) as [[u r3]| |]; try discriminate E1. injection E1 as <- <- <-. split; [reflexivity|constructor]. }
  destruct X as [X1 X2]. rewrite X1. cbn [obind]. split; [exact R|]. apply Forall_app. split.
  - refine (Forall_impl _ _ X2). intros e (ins & outs & A & B). exists ins, outs. split; [left; exact A|exact B].
  - refine (Forall_impl _ _ F). intros e (ins & outs & A & B). exists ins, outs. split; [right; exact A|exact B].
Qed.
