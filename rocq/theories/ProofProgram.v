(** Proofs about programs that assign expressions and call function blocks. *)
From Coq Require Import String ZArith List Bool Lia.
From Verif Require Import Base ModelFB ModelCounters ModelTimers ModelLayout ModelMachine ModelFloat ModelLink ModelLib ModelApi
  SpecFB SpecLayout SpecMachine SpecScalar SpecLink SpecLib SpecSafe SpecApi SpecCall SpecType SpecProgram
  ProofBase ProofFB ProofLayout ProofMachine ProofMachine2 ProofType.
Import ListNotations.
Open Scope string_scope.
Open Scope list_scope.
Open Scope Z_scope.
Notation mcall := ModelMachine.call.
Notation mrun := ModelMachine.run.
Notation MInst := ModelMachine.Inst.
Notation MCall := ModelMachine.Call.

(** * Runs of blocks *)
Lemma run_app : forall r p a b m, mrun r p m (a ++ b) = let! m' := mrun r p m a in mrun r p m' b.
Proof.
  intros r p a. induction a as [|c a IH]; intros b m; [reflexivity|]. cbn [app ModelMachine.run].
  destruct (st_call r p m c) as [m'| |]; [|reflexivity|reflexivity]. cbn [obind]. apply IH.
Qed.
Lemma run_same : forall A (f : A -> list (string * fval)) r p i code,
  (forall a b, linked (i_name i) (rust_code p a b) = Some code) ->
  forall cs h, Forall2 (fun c x => c_inst c = i /\ c_inputs c = f x) cs h ->
  forall m, mrun r p m cs = mrun r p m (map (fun x => MCall i (f x) 0 0) h).
Proof.
  intros A f r p i code L cs h H. induction H as [|c x cs h [I E] H IH]; intros m; [reflexivity|]. cbn [map ModelMachine.run].
  assert (S : st_call r p m c = st_call r p m (MCall i (f x) 0 0)).
  { destruct c as [j ins a b]. cbn [c_inst c_inputs] in *. subst j ins. unfold st_call. cbn [c_inst c_inputs c_now1 c_now2]. now rewrite !L. }
  rewrite S. destruct (st_call r p m (MCall i (f x) 0 0)) as [m'| |]; [|reflexivity|reflexivity]. cbn [obind]. apply IH.
Qed.
Lemma run_timer : forall i cs h, Forall2 (fun c x => c_inst c = i /\ c_inputs c = timer_ins x /\ c_now1 c = tc_t1 x /\ c_now2 c = tc_t2 x) cs h ->
  cs = map (fun x => MCall i (timer_ins x) (tc_t1 x) (tc_t2 x)) h.
Proof.
  intros i cs h H. induction H as [|[j ins a b] x cs h (I & E & A & B) H IH]; [reflexivity|].
  cbn [c_inst c_inputs c_now1 c_now2] in *. subst j ins a b. cbn [map]. now f_equal.
Qed.

(** The values that an input of a type can get. *)
Definition fitting (t : sty) (v : fval) : Prop :=
  match t with S_BOOL => exists b, v = VBool b | _ => exists z, v = VInt z /\ holds t (VZ z) end.
Definition good (its : list (string * sty)) (c : mcall) : Prop :=
  Forall2 (fun a b => fst a = fst b /\ fitting (snd b) (snd a)) (c_inputs c) its /\ 0 <= c_now1 c < 2 ^ 63.
Definition counted (t : sty) : Prop := List.In t (map fst counter_values).
Lemma fitting_counter : forall s t v, List.In (s, t) counter_values -> fitting s v -> exists z, v = VInt z /\ in_ity t z.
Proof.
  intros s t v H F. unfold counter_values in H. cbn [List.In] in H.
  repeat (destruct H as [H|H]; [injection H as <- <-; destruct F as (z & -> & F); exists z; split; [reflexivity|exact F]|]). contradiction.
Qed.
Lemma holds_counter : forall s t z, List.In (s, t) counter_values -> in_ity t z -> holds s (VZ z).
Proof.
  intros s t z H F. unfold counter_values in H. cbn [List.In] in H.
  repeat (destruct H as [H|H]; [injection H as <- <-; exact F|]). contradiction.
Qed.
Lemma timer_values_type : forall n s, List.In (n, s) timer_values -> s = S_TIME \/ s = S_LTIME.
Proof.
  intros n s H. unfold timer_values in H. cbn [List.In] in H.
  repeat (destruct H as [H|H]; [injection H as _ <-; tauto|]). contradiction.
Qed.
Lemma fitting_timer : forall n s v, List.In (n, s) timer_values -> fitting s v -> exists z, v = VInt z /\ in_ity i64 z.
Proof. intros n s v H F. destruct (timer_values_type n s H) as [-> | ->]; destruct F as (z & -> & F); exists z; (split; [reflexivity|exact F]). Qed.
Lemma timer_code_of : forall n s, List.In (n, s) timer_values -> exists f, List.In (n, f) timers /\
  (List.In n pulses \/ forall x a b, exists y, f x a b = Ok y).
Proof.
  intros n s H. unfold timer_values in H. cbn [List.In] in H.
  assert (N : forall x a b, exists y, TON x a b = Ok y).
  { intros x a b. unfold TON. destruct (t_input x), (is_running x); try (eexists; reflexivity). destruct (input_rising_edge x) as [[|] y]; eexists; reflexivity. }
  assert (F : forall x a b, exists y, TOF x a b = Ok y).
  { intros x a b. unfold TOF. destruct (t_input x); [destruct (input_rising_edge x) as [[|] y]; eexists; reflexivity|].
    destruct (input_falling_edge x) as [[|] y]; [eexists; reflexivity|]. destruct (is_running y); eexists; reflexivity. }
  repeat (destruct H as [H|H]; [injection H as <- <-; first
    [exists TP; split; [cbn; tauto|left; cbn; tauto] | exists TON; split; [cbn; tauto|right; exact N] | exists TOF; split; [cbn; tauto|right; exact F]]|]).
  contradiction.
Qed.
Lemma read_int : forall rp i ss var t o m z, block (i_name i) st_blocks = Some ss -> st_var rp 0 ss var = Some (FInt t, o) -> 0 < it_bits t ->
  st_read rp m i var = Ok (VInt z) -> in_ity t z.
Proof.
  intros rp i ss var t o m z B V W R. unfold st_read in R. rewrite B, V in R. cbn [decode] in R. injection R as <-. now apply wrap_range.
Qed.
Lemma outputs_ok : forall rp i vars o vs, outputs rp i vars o = Ok vs -> exists m, o = Ok m /\ map (st_read rp m i) vars = vs.
Proof. intros rp i vars [m| |] vs H; try discriminate H. injection H as <-. now exists m. Qed.

(** The histories of the instances. *)
Ltac shape H := repeat match goal with
  | H : Forall2 _ _ [] |- _ => inversion H; subst; clear H
  | H : Forall2 _ _ (_ :: _) |- _ => inversion H; subst; clear H
  | H : _ /\ _ |- _ => destruct H
  end.
Ltac names := repeat match goal with a : (string * fval)%type |- _ => destruct a end; cbn [fst snd] in *; subst.
Ltac bools := repeat match goal with F : fitting S_BOOL ?v |- _ => destruct F as [? ->] end.
Lemma up_history : forall i t s cs, List.In (s, t) counter_values ->
  Forall (fun c => c_inst c = i /\ good [("CU", S_BOOL); ("R", S_BOOL); ("PV", s)] c) cs ->
  exists h, Forall2 (fun c x => c_inst c = i /\ c_inputs c = ctu_ins x) cs h /\ Forall (fun x => in_ity t (cui_pv x)) h.
Proof.
  intros i t s cs T H. induction H as [|[j ins a b] cs (I & G & N) H (h & F & R)]; [exists []; split; constructor|].
  cbn [c_inputs] in G. shape G. names. bools.
  match goal with F : fitting s _ |- _ => destruct (fitting_counter s t _ T F) as (z & -> & Z) end.
  match goal with |- context [MCall _ [("CU", VBool ?u); ("R", VBool ?v); _] _ _] => exists (CtuIn u v z :: h) end.
  split; constructor; try assumption. split; [reflexivity|reflexivity].
Qed.
Lemma down_history : forall i t s cs, List.In (s, t) counter_values ->
  Forall (fun c => c_inst c = i /\ good [("CD", S_BOOL); ("LD", S_BOOL); ("PV", s)] c) cs ->
  exists h, Forall2 (fun c x => c_inst c = i /\ c_inputs c = ctd_ins x) cs h /\ Forall (fun x => in_ity t (cdi_pv x)) h.
Proof.
  intros i t s cs T H. induction H as [|[j ins a b] cs (I & G & N) H (h & F & R)]; [exists []; split; constructor|].
  cbn [c_inputs] in G. shape G. names. bools.
  match goal with F : fitting s _ |- _ => destruct (fitting_counter s t _ T F) as (z & -> & Z) end.
  match goal with |- context [MCall _ [("CD", VBool ?u); ("LD", VBool ?v); _] _ _] => exists (CtdIn u v z :: h) end.
  split; constructor; try assumption. split; [reflexivity|reflexivity].
Qed.
Lemma up_down_history : forall i t s cs, List.In (s, t) counter_values ->
  Forall (fun c => c_inst c = i /\ good [("CU", S_BOOL); ("CD", S_BOOL); ("R", S_BOOL); ("LD", S_BOOL); ("PV", s)] c) cs ->
  exists h, Forall2 (fun c x => c_inst c = i /\ c_inputs c = ctud_ins x) cs h /\ Forall (fun x => in_ity t (cudi_pv x)) h.
Proof.
  intros i t s cs T H. induction H as [|[j ins a b] cs (I & G & N) H (h & F & R)]; [exists []; split; constructor|].
  cbn [c_inputs] in G. shape G. names. bools.
  match goal with F : fitting s _ |- _ => destruct (fitting_counter s t _ T F) as (z & -> & Z) end.
  match goal with |- context [MCall _ [_; ("CD", VBool ?v); ("R", VBool ?w); ("LD", VBool ?x); _] _ _] =>
    match goal with |- context [("CU", VBool ?u)] => exists (CtudIn u v w x z :: h) end end.
  split; constructor; try assumption. split; [reflexivity|reflexivity].
Qed.
Lemma bistable_history : forall i p q cs, Forall (fun c => c_inst c = i /\ good [(p, S_BOOL); (q, S_BOOL)] c) cs ->
  exists h : list (bool * bool), Forall2 (fun c x => c_inst c = i /\ c_inputs c = [(p, VBool (fst x)); (q, VBool (snd x))]) cs h.
Proof.
  intros i p q cs H. induction H as [|[j ins a b] cs (I & G & N) H (h & F)]; [exists []; constructor|].
  cbn [c_inputs] in G. shape G. names. bools.
  match goal with |- context [MCall _ [(_, VBool ?u); (_, VBool ?v)] _ _] => exists ((u, v) :: h) end.
  constructor; try assumption. split; [reflexivity|reflexivity].
Qed.
Lemma trigger_history : forall i cs, Forall (fun c => c_inst c = i /\ good [("CLK", S_BOOL)] c) cs ->
  exists h : list bool, Forall2 (fun c x => c_inst c = i /\ c_inputs c = [("CLK", VBool x)]) cs h.
Proof.
  intros i cs H. induction H as [|[j ins a b] cs (I & G & N) H (h & F)]; [exists []; constructor|].
  cbn [c_inputs] in G. shape G. names. bools.
  match goal with |- context [MCall _ [(_, VBool ?u)] _ _] => exists (u :: h) end.
  constructor; try assumption. split; [reflexivity|reflexivity].
Qed.
Lemma timer_history : forall i n s cs, List.In (n, s) timer_values -> Forall (fun c => c_inst c = i /\ good [("IN", S_BOOL); ("PT", s)] c) cs ->
  exists h, Forall2 (fun c x => c_inst c = i /\ c_inputs c = timer_ins x /\ c_now1 c = tc_t1 x /\ c_now2 c = tc_t2 x) cs h /\
    Forall (fun x => in_ity i64 (tc_pt x) /\ 0 <= tc_t1 x < 2 ^ 63) h.
Proof.
  intros i n s cs T H. induction H as [|[j ins a b] cs (I & G & N) H (h & F & R)]; [exists []; split; constructor|].
  cbn [c_inputs c_now1 c_now2] in *. shape G. names. bools.
  match goal with F : fitting s _ |- _ => destruct (fitting_timer n s _ T F) as (z & -> & Z) end.
  match goal with |- context [MCall _ [(_, VBool ?u); _] _ _] => exists (TCall u z a b :: h) end.
  split; constructor; try assumption; [split; [reflexivity|]; split; [reflexivity|]; split; reflexivity|].
  cbn [tc_pt tc_t1]. split; [exact Z|lia].
Qed.

(** * A block whose calls are all typed *)
Definition delivers_outputs (rp : option_repr) (i : instance) (ots : list (string * sty)) (m : ModelLayout.mem) : Prop :=
  forall var t, List.In (var, t) ots -> exists v w, st_read rp m i var = Ok v /\ as_value v = Ok w /\ holds t w.
Lemma bool_output : forall b, exists w, as_value (VBool b) = Ok w /\ holds S_BOOL w.
Proof. intros [|]; [exists (VZ 1)|exists (VZ 0)]; (split; [reflexivity|cbn; tauto]). Qed.
Lemma same_ctypes : forall t, List.In t ctypes -> List.In t counter_types.
Proof. intros t H. exact H. Qed.
Lemma timer_run_total : forall f, (forall x a b, exists y, f x a b = Ok y) -> forall h x, exists y, timer_run f x h = Ok y.
Proof.
  intros f F h. induction h as [|c h IH]; intros x; [exists x; reflexivity|]. cbn [timer_run]. unfold timer_call.
  match goal with |- context [f ?u ?v ?w] => destruct (F u v w) as [y ->] end. cbn [obind]. apply IH.
Qed.
Lemma not_ub : forall f, List.In f [TP; TON; TOF] -> forall h x, timer_run f x h <> Ub.
Proof.
  intros f F h. induction h as [|c h IH]; intros x; [discriminate|]. cbn [timer_run]. unfold timer_call.
  match goal with |- context [f ?u ?v ?w] => assert (N : f u v w <> Ub) end.
  { destruct F as [<-|[<-|[<-|[]]]]; unfold TP, TON, TOF; repeat match goal with
      | |- context [let '(_, _) := ?e in _] => destruct e | |- context [if ?b then _ else _] => destruct b end; discriminate. }
  match goal with |- context [f ?u ?v ?w] => destruct (f u v w); [apply IH|discriminate|contradiction] end.
Qed.
Lemma block_runs : forall rp p m i its ots cs, interface (i_name i) its ots -> zeroed rp m i ->
  Forall (fun c => c_inst c = i /\ good its c) cs ->
  match mrun rp p m cs with
  | Ok m' => delivers_outputs rp i ots m'
  | Panic => List.In (i_name i) pulses
  | Ub => False
  end.
Proof.
  intros rp p m [n base] its ots cs IF Z0 G. cbn [i_name] in *. inversion IF as [? t s U V|? t s U V|? t s U V|? f a b U|? f U|? s U]; subst.
  - destruct (up_tables n t U) as (T & HR & HS & HL). destruct (up_history _ t s cs V G) as (h & F & R).
    rewrite (run_same _ ctu_ins rp p (MInst n base) _ (HL p) cs h F m).
    pose proof (ctu_runs rp p n t base m h U Z0 R) as O. destruct (ctu_inv p t h (same_ctypes t T)) as (x & E & _). rewrite E in O. cbn [omap obind] in O.
    destruct (outputs_ok _ _ _ _ _ O) as (m' & -> & W). cbn [map] in W. injection W as W1 W2.
    intros var u [E1|[E1|[]]]; injection E1 as <- <-.
    + destruct (bool_output (ctu_q x)) as (w & A & B). now exists (VBool (ctu_q x)), w.
    + exists (VInt (ctu_cv x)), (VZ (ctu_cv x)). split; [exact W2|]. split; [reflexivity|]. apply (holds_counter s t); trivial.
      refine (read_int rp (MInst n base) _ "CV" t _ m' _ HS _ (ctypes_bits t T) W2). reflexivity.
  - destruct (down_tables n t U) as (T & HR & HS & HL). destruct (down_history _ t s cs V G) as (h & F & R).
    rewrite (run_same _ ctd_ins rp p (MInst n base) _ (HL p) cs h F m).
    pose proof (ctd_runs rp p n t base m h U Z0 R) as O. destruct (ctd_run p t ctd_default h) as [x| |] eqn:E.
    2-3: exfalso; destruct (ctd_inv p t h (same_ctypes t T) R) as (x & X & _); congruence.
    cbn [omap obind] in O.
    destruct (outputs_ok _ _ _ _ _ O) as (m' & -> & W). cbn [map] in W. injection W as W1 W2.
    intros var u [E1|[E1|[]]]; injection E1 as <- <-.
    + destruct (bool_output (ctd_q x)) as (w & A & B). now exists (VBool (ctd_q x)), w.
    + exists (VInt (ctd_cv x)), (VZ (ctd_cv x)). split; [exact W2|]. split; [reflexivity|]. apply (holds_counter s t); trivial.
      refine (read_int rp (MInst n base) _ "CV" t _ m' _ HS _ (ctypes_bits t T) W2). reflexivity.
  - destruct (up_down_tables n t U) as (T & HR & HS & HL). destruct (up_down_history _ t s cs V G) as (h & F & R).
    rewrite (run_same _ ctud_ins rp p (MInst n base) _ (HL p) cs h F m).
    pose proof (ctud_runs rp p n t base m h U Z0 R) as O. destruct (ctud_run p t ctud_default h) as [x| |] eqn:E.
    2-3: exfalso; destruct (ctud_inv p t h (same_ctypes t T) R) as (x & X & _); congruence.
    cbn [omap obind] in O.
    destruct (outputs_ok _ _ _ _ _ O) as (m' & -> & W). cbn [map] in W. injection W as W1 W2 W3.
    intros var u [E1|[E1|[E1|[]]]]; injection E1 as <- <-.
    + destruct (bool_output (cud_qu x)) as (w & A & B). now exists (VBool (cud_qu x)), w.
    + destruct (bool_output (cud_qd x)) as (w & A & B). now exists (VBool (cud_qd x)), w.
    + exists (VInt (cud_cv x)), (VZ (cud_cv x)). split; [exact W3|]. split; [reflexivity|]. apply (holds_counter s t); trivial.
      refine (read_int rp (MInst n base) _ "CV" t _ m' _ HS _ (ctypes_bits t T) W3). reflexivity.
  - destruct (bistable_history _ a b cs G) as (h & F).
    assert (HL : forall u v, linked n (rust_code p u v) = Some (sr_code f)).
    { unfold bistables in U. cbn [List.In] in U. destruct U as [U|[U|[]]]; injection U as <- <- _ _; reflexivity. }
    rewrite (run_same _ (fun x => [(a, VBool (fst x)); (b, VBool (snd x))]) rp p (MInst n base) _ HL cs h F m).
    pose proof (sr_runs rp p n f a b base m h U Z0) as O. destruct (outputs_ok _ _ _ _ _ O) as (m' & -> & W). cbn [map] in W. injection W as W1.
    intros var u [E1|[]]; injection E1 as <- <-.
    match type of W1 with _ = Ok (VBool ?q) => destruct (bool_output q) as (w & A & B); now exists (VBool q), w end.
  - destruct (trigger_history _ cs G) as (h & F).
    assert (HL : forall u v, linked n (rust_code p u v) = Some (trig_code f)).
    { unfold triggers in U. cbn [List.In] in U. destruct U as [U|[U|[]]]; injection U as <- <-; reflexivity. }
    rewrite (run_same _ (fun x => [("CLK", VBool x)]) rp p (MInst n base) _ HL cs h F m).
    pose proof (trig_runs rp p n f base m h U Z0) as O. destruct (outputs_ok _ _ _ _ _ O) as (m' & -> & W). cbn [map] in W. injection W as W1.
    intros var u [E1|[]]; injection E1 as <- <-.
    match type of W1 with _ = Ok (VBool ?q) => destruct (bool_output q) as (w & A & B); now exists (VBool q), w end.
  - destruct (timer_history _ n s cs U G) as (h & F & R). rewrite (run_timer _ cs h F).
    destruct (timer_code_of n s U) as (f & Tf & D). destruct (timer_tables n f Tf) as (HR & HS & HL).
    pose proof (timer_runs rp p n f base m h Tf Z0 R) as O. unfold timer_out_zeroed in O.
    destruct (timer_run f (timer_zeroed rp) h) as [x| |] eqn:E; cbn [omap obind] in O.
    + destruct (outputs_ok _ _ _ _ _ O) as (m' & -> & W). cbn [map fst snd] in W. injection W as W1 W2.
      intros var u [E1|[E1|[]]]; injection E1 as <- <-.
      * destruct (bool_output (t_output x)) as (w & A & B). now exists (VBool (t_output x)), w.
      * exists (VInt (t_elapsed x)), (VZ (t_elapsed x)). split; [exact W2|]. split; [reflexivity|].
        assert (X : in_ity i64 (t_elapsed x)) by (refine (read_int rp (MInst n base) _ "ET" i64 _ m' _ HS _ _ W2); reflexivity).
        destruct (timer_values_type n s U) as [-> | ->]; exact X.
    + destruct D as [D|D]; [|destruct (timer_run_total f D h (timer_zeroed rp)) as [y Y]; congruence].
      match goal with |- match ?o with _ => _ end => destruct o as [m'| |]; [discriminate O|exact D|discriminate O] end.
    + exfalso. refine (not_ub f _ h _ E). unfold timers in Tf. cbn [List.In] in Tf |- *.
      repeat (destruct Tf as [Tf|Tf]; [injection Tf as _ <-; tauto|]). contradiction.
Qed.
