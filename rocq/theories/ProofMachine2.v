(** Proofs for C91, continued: the blocks by kind. *)
From Coq Require Import String ZArith List Bool Lia.
From Verif Require Import Base ModelFB ModelCounters ModelTimers ModelLayout ModelMachine
  SpecFB SpecLayout SpecMachine ProofBase ProofScalar ProofLayout ProofMachine.
Import ListNotations.
Open Scope list_scope.
Open Scope string_scope.
Open Scope Z_scope.

Lemma zeroed_load : forall r m name base rs,
  block name rust_blocks = Some rs -> zeroed r m (Inst name base) ->
  load_fields r m base 0 rs = load_fields r (fun _ => 0) base 0 rs.
Proof.
  intros r m name base rs HR Z0. apply load_fields_ext; [exact (blocks_wf r _ _ HR)|].
  assert (B : exists ss, block name st_blocks = Some ss).
  { destruct (block name st_blocks) as [ss|] eqn:E; eauto.
    exfalso. apply (proj1 (same_blocks name)); trivial. rewrite HR. discriminate. }
  destruct B as [ss HS]. pose proof (block_size r _ _ _ HR HS).
  intros x X. apply Z0. unfold occupies, size_of. cbn [i_name i_base]. rewrite HS. lia.
Qed.

(** [x] computes to a literal table entry for each name in [H : In … list]. *)
Ltac each H := repeat (destruct H as [H|H]; [injection H as <- <- || subst|]); [..|contradiction].

Lemma arith_range : forall p t z y, 0 < it_bits t -> arith p t z = Ok y -> in_ity t y.
Proof.
  intros p t z y B H. unfold arith in H. destruct (in_ityb t z) eqn:E.
  - injection H as <-. unfold in_ityb in E. apply andb_prop in E. unfold in_ity. lia.
  - destruct p; [discriminate|]. injection H as <-. apply wrap_range, B.
Qed.

Definition ctypes : list ity := [i16; i32; u32; i64; u64].

Lemma ctypes_bits : forall t, In t ctypes -> 0 < it_bits t.
Proof. intros t H. cbn in H. repeat (destruct H as [<-|H]; [reflexivity|]). contradiction. Qed.

Lemma ctypes_zero : forall t, In t ctypes -> in_ity t 0.
Proof.
  intros t H. cbn in H. repeat (destruct H as [<-|H]; [split; vm_compute; discriminate|]). contradiction.
Qed.

(** ** CTU *)

Definition ctu_enc (s : ctu_params) : list fval :=
  [VBool (ctu_cu s); VBool (ctu_r s); VInt (ctu_pv s); VBool (ctu_q s); VInt (ctu_cv s);
   VBool (current_value (ctu_internal s))].
Definition ctu_ins (i : ctu_in) : list (string * fval) :=
  [("CU", VBool (cui_cu i)); ("R", VBool (cui_r i)); ("PV", VInt (cui_pv i))].

Lemma up_tables : forall name t, In (name, t) up_counters ->
  In t ctypes /\ block name rust_blocks = Some (rust_CTUParams t) /\
  block name st_blocks = Some (st_CTU (FInt t)) /\
  forall p a b, linked name (rust_code p a b) = Some (ctu_code p t).
Proof.
  intros name t H. unfold up_counters in H. cbn [In] in H. each H.
  all: (split; [cbn; tauto|]); repeat split; reflexivity.
Qed.

Lemma ctu_runs : forall r p name t base m h,
  In (name, t) up_counters -> zeroed r m (Inst name base) ->
  Forall (fun i => in_ity t (cui_pv i)) h ->
  outputs r (Inst name base) ["Q"; "CV"]
    (run r p m (map (fun i => Call (Inst name base) (ctu_ins i) 0 0) h)) =
  omap (fun s => [Ok (VBool (ctu_q s)); Ok (VInt (ctu_cv s))]) (ctu_run p t ctu_default h).
Proof.
  intros r p name t base m h N Z0 F. destruct (up_tables name t N) as (T & HR & HS & HL).
  pose proof (ctypes_bits t T) as B. pose proof (ctypes_zero t T) as O.
  rewrite (simulate_outputs r p name base _ _ HR HS ctu_params ctu_in
    (fun s => in_ity t (ctu_pv s) /\ in_ity t (ctu_cv s)) ctu_enc (ctu_call p t)
    (fun i => in_ity t (cui_pv i)) ctu_ins (fun _ => 0) (fun _ => 0)) with (s := ctu_default) (ks := [3%nat; 4%nat]).
  - f_equal. clear F. generalize ctu_default. induction h as [|i h IH]; intros s; cbn [steps ctu_run]; trivial.
    destruct (ctu_call p t s i); cbn [obind]; auto.
  - intros i Hi. repeat apply Forall_cons; try apply Forall_nil; do 2 eexists;
      (split; [reflexivity|split; [discriminate|cbn [fits snd]; first [exact I|split; [exact T|exact Hi]]]]).
  - intros s [G1 G2]. repeat apply Forall2_cons; try apply Forall2_nil; cbn [fits snd];
      first [exact I|split; [exact T|assumption]].
  - intros s i G Hi. exists (ctu_code p t). split; [apply HL|].
    unfold ctu_call. cbn. destruct (ctu_internal s). destruct (ctu p t _); reflexivity.
  - intros s i s' [G1 G2] Hi E. unfold ctu_call, ctu in E. cbn [ctu_r ctu_cu ctu_pv ctu_q ctu_cv ctu_internal] in E.
    destruct (cui_r i).
    + injection E as <-. split; assumption.
    + destruct (rising_edge _ _) as [e sg]. destruct (e && _).
      * destruct (arith p t (ctu_cv s + 1)) as [y| |] eqn:A; try discriminate. injection E as <-.
        split; [exact Hi|exact (arith_range _ _ _ _ B A)].
      * injection E as <-. split; assumption.
  - split; exact O.
  - exact F.
  - rewrite (zeroed_load r m name base _ HR Z0).
    cbn in T. repeat (destruct T as [<-|T]; [destruct r; vm_compute; reflexivity|]). contradiction.
  - repeat apply Forall2_cons; try apply Forall2_nil; eexists; (split; [reflexivity|discriminate]).
Qed.

(** ** CTD *)

Definition ctd_enc (s : ctd_params) : list fval :=
  [VBool (ctd_cd s); VBool (ctd_ld s); VInt (ctd_pv s); VBool (ctd_q s); VInt (ctd_cv s);
   VBool (current_value (ctd_internal s))].
Definition ctd_ins (i : ctd_in) : list (string * fval) :=
  [("CD", VBool (cdi_cd i)); ("LD", VBool (cdi_ld i)); ("PV", VInt (cdi_pv i))].

Lemma down_tables : forall name t, In (name, t) down_counters ->
  In t ctypes /\ block name rust_blocks = Some (rust_CTDParams t) /\
  block name st_blocks = Some (st_CTD (FInt t)) /\
  forall p a b, linked name (rust_code p a b) = Some (ctd_code p t).
Proof.
  intros name t H. unfold down_counters in H. cbn [In] in H. each H.
  all: (split; [cbn; tauto|]); repeat split; reflexivity.
Qed.

Lemma ctd_runs : forall r p name t base m h,
  In (name, t) down_counters -> zeroed r m (Inst name base) ->
  Forall (fun i => in_ity t (cdi_pv i)) h ->
  outputs r (Inst name base) ["Q"; "CV"]
    (run r p m (map (fun i => Call (Inst name base) (ctd_ins i) 0 0) h)) =
  omap (fun s => [Ok (VBool (ctd_q s)); Ok (VInt (ctd_cv s))]) (ctd_run p t ctd_default h).
Proof.
  intros r p name t base m h N Z0 F. destruct (down_tables name t N) as (T & HR & HS & HL).
  pose proof (ctypes_bits t T) as B. pose proof (ctypes_zero t T) as O.
  rewrite (simulate_outputs r p name base _ _ HR HS ctd_params ctd_in
    (fun s => in_ity t (ctd_pv s) /\ in_ity t (ctd_cv s)) ctd_enc (ctd_call p t)
    (fun i => in_ity t (cdi_pv i)) ctd_ins (fun _ => 0) (fun _ => 0)) with (s := ctd_default) (ks := [3%nat; 4%nat]).
  - f_equal. clear F. generalize ctd_default. induction h as [|i h IH]; intros s; cbn [steps ctd_run]; trivial.
    destruct (ctd_call p t s i); cbn [obind]; auto.
  - intros i Hi. repeat apply Forall_cons; try apply Forall_nil; do 2 eexists;
      (split; [reflexivity|split; [discriminate|cbn [fits snd]; first [exact I|split; [exact T|exact Hi]]]]).
  - intros s [G1 G2]. repeat apply Forall2_cons; try apply Forall2_nil; cbn [fits snd];
      first [exact I|split; [exact T|assumption]].
  - intros s i G Hi. exists (ctd_code p t). split; [apply HL|].
    unfold ctd_call. cbn. destruct (ctd_internal s). destruct (ctd p t _); reflexivity.
  - intros s i s' [G1 G2] Hi E. unfold ctd_call, ctd in E. cbn [ctd_ld ctd_cd ctd_pv ctd_q ctd_cv ctd_internal] in E.
    destruct (cdi_ld i).
    + injection E as <-. split; assumption.
    + destruct (rising_edge _ _) as [e sg]. destruct (e && _).
      * destruct (arith p t (ctd_cv s - 1)) as [y| |] eqn:A; try discriminate. injection E as <-.
        split; [exact Hi|exact (arith_range _ _ _ _ B A)].
      * injection E as <-. split; assumption.
  - split; exact O.
  - exact F.
  - rewrite (zeroed_load r m name base _ HR Z0).
    cbn in T. repeat (destruct T as [<-|T]; [destruct r; vm_compute; reflexivity|]). contradiction.
  - repeat apply Forall2_cons; try apply Forall2_nil; eexists; (split; [reflexivity|discriminate]).
Qed.

(** ** CTUD *)

Definition ctud_enc (s : ctud_params) : list fval :=
  [VBool (cud_cu s); VBool (cud_cd s); VBool (cud_r s); VBool (cud_ld s); VInt (cud_pv s);
   VBool (cud_qu s); VBool (cud_qd s); VInt (cud_cv s);
   VBool (current_value (cud_up s)); VBool (current_value (cud_down s))].
Definition ctud_ins (i : ctud_in) : list (string * fval) :=
  [("CU", VBool (cudi_cu i)); ("CD", VBool (cudi_cd i)); ("R", VBool (cudi_r i));
   ("LD", VBool (cudi_ld i)); ("PV", VInt (cudi_pv i))].

Lemma up_down_tables : forall name t, In (name, t) up_down_counters ->
  In t ctypes /\ block name rust_blocks = Some (rust_CTUDParams t) /\
  block name st_blocks = Some (st_CTUD (FInt t)) /\
  forall p a b, linked name (rust_code p a b) = Some (ctud_code p t).
Proof.
  intros name t H. unfold up_down_counters in H. cbn [In] in H. each H.
  all: (split; [cbn; tauto|]); repeat split; reflexivity.
Qed.

Lemma ctud_runs : forall r p name t base m h,
  In (name, t) up_down_counters -> zeroed r m (Inst name base) ->
  Forall (fun i => in_ity t (cudi_pv i)) h ->
  outputs r (Inst name base) ["QU"; "QD"; "CV"]
    (run r p m (map (fun i => Call (Inst name base) (ctud_ins i) 0 0) h)) =
  omap (fun s => [Ok (VBool (cud_qu s)); Ok (VBool (cud_qd s)); Ok (VInt (cud_cv s))])
    (ctud_run p t ctud_default h).
Proof.
  intros r p name t base m h N Z0 F. destruct (up_down_tables name t N) as (T & HR & HS & HL).
  pose proof (ctypes_bits t T) as B. pose proof (ctypes_zero t T) as O.
  rewrite (simulate_outputs r p name base _ _ HR HS ctud_params ctud_in
    (fun s => in_ity t (cud_pv s) /\ in_ity t (cud_cv s)) ctud_enc (ctud_call p t)
    (fun i => in_ity t (cudi_pv i)) ctud_ins (fun _ => 0) (fun _ => 0))
    with (s := ctud_default) (ks := [5%nat; 6%nat; 7%nat]).
  - f_equal. clear F. generalize ctud_default. induction h as [|i h IH]; intros s; cbn [steps ctud_run]; trivial.
    destruct (ctud_call p t s i); cbn [obind]; auto.
  - intros i Hi. repeat apply Forall_cons; try apply Forall_nil; do 2 eexists;
      (split; [reflexivity|split; [discriminate|cbn [fits snd]; first [exact I|split; [exact T|exact Hi]]]]).
  - intros s [G1 G2]. repeat apply Forall2_cons; try apply Forall2_nil; cbn [fits snd];
      first [exact I|split; [exact T|assumption]].
  - intros s i G Hi. exists (ctud_code p t). split; [apply HL|].
    unfold ctud_call. cbn. destruct (cud_up s), (cud_down s). destruct (ctud p t _); reflexivity.
  - intros s i s' [G1 G2] Hi E. unfold ctud_call, ctud in E.
    cbn [cud_cu cud_cd cud_r cud_ld cud_pv cud_qu cud_qd cud_cv cud_up cud_down] in E.
    destruct (cudi_r i); [injection E as <-; split; assumption|].
    destruct (cudi_ld i); [injection E as <-; split; assumption|].
    destruct (rising_edge (cud_up s) _) as [e sg]. destruct (rising_edge (cud_down s) _) as [e' sg'].
    destruct (negb _); [|injection E as <-; split; assumption].
    destruct (e && _).
    + destruct (arith p t (cud_cv s + 1)) as [y| |] eqn:A; try discriminate. injection E as <-.
      split; [exact Hi|exact (arith_range _ _ _ _ B A)].
    + destruct (e' && _); [|injection E as <-; split; assumption].
      destruct (arith p t (cud_cv s - 1)) as [y| |] eqn:A; try discriminate. injection E as <-.
      split; [exact Hi|exact (arith_range _ _ _ _ B A)].
  - split; exact O.
  - exact F.
  - rewrite (zeroed_load r m name base _ HR Z0).
    cbn in T. repeat (destruct T as [<-|T]; [destruct r; vm_compute; reflexivity|]). contradiction.
  - repeat apply Forall2_cons; try apply Forall2_nil; eexists; (split; [reflexivity|discriminate]).
Qed.

(** ** Bistables and edge triggers *)

Definition sr_enc (s : sr_params) : list fval :=
  [VBool (sr_set s); VBool (sr_reset s); VBool (sr_output s)].

Lemma sr_runs : forall r p name f vs vr base m h,
  In (name, f, (vs, vr)) bistables -> zeroed r m (Inst name base) ->
  outputs r (Inst name base) ["Q1"]
    (run r p m (map (fun i => Call (Inst name base) [(vs, VBool (fst i)); (vr, VBool (snd i))] 0 0) h)) =
  Ok [Ok (VBool (sr_output (sr_run f (SrParams false false false) h)))].
Proof.
  intros r p name f vs vr base m h N Z0.
  assert (X : exists ss, block name rust_blocks = Some rust_SetResetParams /\
    block name st_blocks = Some ss /\ ss = [(vs, BOOL); (vr, BOOL); ("Q1", BOOL)] /\
    (forall p a b, linked name (rust_code p a b) = Some (sr_code f)) /\
    String.eqb vs vr = false /\ String.eqb vs "Q1" = false /\ String.eqb vr "Q1" = false /\
    vs <> "__BUFFER__" /\ vr <> "__BUFFER__").
  { unfold bistables in N. cbn [In] in N. destruct N as [N|[N|[]]]; injection N as <- <- <- <-;
      eexists; repeat (split; [reflexivity|]); split; discriminate. }
  destruct X as (ss & HR & HS & E & HL & D1 & D2 & D3 & D4 & D5).
  rewrite (simulate_outputs r p name base _ _ HR HS sr_params (bool * bool)
    (fun _ => True) sr_enc (fun s i => Ok (sr_call f s i))
    (fun _ => True) (fun i => [(vs, VBool (fst i)); (vr, VBool (snd i))]) (fun _ => 0) (fun _ => 0))
    with (s := SrParams false false false) (ks := [2%nat]).
  - generalize (SrParams false false false). induction h as [|i h IH]; intros s; [reflexivity|].
    cbn [steps obind]. rewrite IH. reflexivity.
  - intros i _. rewrite E. repeat apply Forall_cons; try apply Forall_nil; do 2 eexists;
      cbn [fst snd var_index].
    + rewrite String.eqb_refl. split; [reflexivity|]. split; [assumption|exact I].
    + rewrite D1, String.eqb_refl. split; [reflexivity|]. split; [assumption|exact I].
  - intros s _. repeat apply Forall2_cons; try apply Forall2_nil; exact I.
  - intros s i _ _. exists (sr_code f). split; [apply HL|]. rewrite E. cbn [upds var_index].
    rewrite !String.eqb_refl, D1. reflexivity.
  - trivial.
  - trivial.
  - apply Forall_forall. trivial.
  - rewrite (zeroed_load r m name base _ HR Z0). destruct r; vm_compute; reflexivity.
  - repeat apply Forall2_cons; try apply Forall2_nil. rewrite E. cbn [var_index]. rewrite D2, D3.
    eexists. split; [reflexivity|discriminate].
Qed.

Definition trig_enc (s : trigger) : list fval :=
  [VBool (tr_clk s); VBool (tr_output s); VBool (current_value (tr_internal s))].

Lemma trig_runs : forall r p name f base m h,
  In (name, f) triggers -> zeroed r m (Inst name base) ->
  outputs r (Inst name base) ["Q"]
    (run r p m (map (fun c => Call (Inst name base) [("CLK", VBool c)] 0 0) h)) =
  Ok [Ok (VBool (last (trig_outputs f trigger_default h) false))].
Proof.
  intros r p name f base m h N Z0.
  assert (X : block name rust_blocks = Some rust_Trigger /\
    block name st_blocks = Some [("CLK", BOOL); ("Q", BOOL); ("M", BOOL)] /\
    (forall p a b, linked name (rust_code p a b) = Some (trig_code f))).
  { unfold triggers in N. cbn [In] in N. destruct N as [N|[N|[]]]; injection N as <- <-;
      repeat (split; [reflexivity|]); reflexivity. }
  destruct X as (HR & HS & HL).
  rewrite (simulate_outputs r p name base _ _ HR HS trigger bool
    (fun _ => True) trig_enc (fun s i => Ok (trig_call f s i))
    (fun _ => True) (fun c => [("CLK", VBool c)]) (fun _ => 0) (fun _ => 0))
    with (s := trigger_default) (ks := [1%nat]).
  - assert (L : forall h s, steps trigger bool (fun s i => Ok (trig_call f s i)) s h =
      Ok (fold_left (trig_call f) h s)).
    { induction h0 as [|i h0 IH]; intros s; [reflexivity|]. cbn [steps obind fold_left]. apply IH. }
    rewrite L. cbn [omap map trig_enc nth]. f_equal. f_equal. f_equal. f_equal.
    assert (G : forall h s, last (trig_outputs f s h) (tr_output s) = tr_output (fold_left (trig_call f) h s)).
    { induction h0 as [|i h0 IH]; intros s; [reflexivity|]. cbn [trig_outputs fold_left].
      rewrite <- IH. destruct (trig_outputs f (trig_call f s i) h0) as [|x l]; [reflexivity|].
      change (last (tr_output (trig_call f s i) :: x :: l) (tr_output s)) with (last (x :: l) (tr_output s)).
      clear. revert x. induction l as [|y l IH]; intros x; [reflexivity|]. exact (IH y). }
    symmetry. exact (G h trigger_default).
  - intros i _. repeat apply Forall_cons; try apply Forall_nil; do 2 eexists;
      (split; [reflexivity|split; [discriminate|exact I]]).
  - intros s _. repeat apply Forall2_cons; try apply Forall2_nil; exact I.
  - intros s i _ _. exists (trig_code f). split; [apply HL|]. cbn. destruct s as [c q [b]]. reflexivity.
  - trivial.
  - trivial.
  - apply Forall_forall. trivial.
  - rewrite (zeroed_load r m name base _ HR Z0). destruct r; vm_compute; reflexivity.
  - repeat apply Forall2_cons; try apply Forall2_nil; eexists; (split; [reflexivity|discriminate]).
Qed.

(** ** Timers *)

Definition timer_enc (s : timer) : list fval :=
  [VBool (t_input s); VInt (t_preset s); VBool (t_output s); VInt (t_elapsed s);
   VBool (current_value (t_edge s)); VStart (t_start s)].
Definition timer_ins (c : tcall) : list (string * fval) :=
  [("IN", VBool (tc_in c)); ("PT", VInt (tc_pt c))].

Definition timer_good (s : timer) : Prop :=
  in_ity i64 (t_preset s) /\ in_ity i64 (t_elapsed s) /\
  match t_start s with Some x => 0 <= x < 2 ^ 63 | None => True end.

Lemma timer_tables : forall name f, In (name, f) timers ->
  block name rust_blocks = Some rust_TimerParams /\
  block name st_blocks = Some (st_timer TIME TIME) /\
  forall p a b, linked name (rust_code p a b) = Some (timer_code f a b).
Proof.
  intros name f H. unfold timers in H. cbn [In] in H. each H.
  all: repeat split; reflexivity.
Qed.

Lemma min_i64 : forall x e, in_ity i64 x -> in_ity i64 (Z.min x (wrap i64 e)).
Proof.
  intros x e H. pose proof (wrap_range i64 e ltac:(reflexivity)) as W.
  destruct (Z.min_spec x (wrap i64 e)) as [[_ ->]|[_ ->]]; assumption.
Qed.

Lemma good_start : forall s n, timer_good s -> 0 <= n < 2 ^ 63 -> timer_good (start s n).
Proof.
  intros s n (A & B & C) H. split; [exact A|]. split; [split; vm_compute; discriminate|exact H].
Qed.
Lemma good_reset : forall s, timer_good s -> timer_good (reset s).
Proof. intros s (A & B & C). split; [exact A|]. split; [split; vm_compute; discriminate|exact I]. Qed.
Lemma good_elapsed : forall s n, timer_good s -> timer_good (update_elapsed_time s n).
Proof.
  intros s n (A & B & C). unfold update_elapsed_time. destruct (get_run_time s n).
  - split; [exact A|]. split; [apply min_i64, A|exact C].
  - split; [exact A|]. split; [exact B|exact C].
Qed.
Lemma good_edge : forall s e, timer_good s -> timer_good (set_edge s e).
Proof. intros s e H. exact H. Qed.
Lemma good_finish : forall s q, timer_good s -> timer_good (finish s q).
Proof. intros s q H. exact H. Qed.
Lemma good_rising : forall s b s', timer_good s -> input_rising_edge s = (b, s') -> timer_good s'.
Proof.
  intros s b s' H E. unfold input_rising_edge in E. destruct (rising_edge _ _). injection E as _ <-. exact H.
Qed.
Lemma good_falling : forall s b s', timer_good s -> input_falling_edge s = (b, s') -> timer_good s'.
Proof.
  intros s b s' H E. unfold input_falling_edge in E. destruct (falling_edge _ _). injection E as _ <-. exact H.
Qed.

Lemma timers_good : forall name f s n1 n2 s', In (name, f) timers -> timer_good s ->
  0 <= n1 < 2 ^ 63 -> f s n1 n2 = Ok s' -> timer_good s'.
Proof.
  intros name f s n1 n2 s' H G N E.
  assert (K : f = TP \/ f = TON \/ f = TOF).
  { unfold timers in H. cbn [In] in H. each H; tauto. }
  destruct K as [-> | [-> | ->]].
  - unfold TP in E. destruct (is_running s).
    + pose proof (good_elapsed s n1 G) as G1. destruct (is_in_preset_range _ _).
      * injection E as <-. apply good_finish, G1.
      * destruct (input_falling_edge _) as [b t] eqn:F. apply good_falling in F; trivial.
        injection E as <-. apply good_finish. destruct b; [apply good_reset|]; exact F.
    + destruct (input_rising_edge s) as [b t] eqn:F. apply good_rising in F; trivial.
      destruct b; [|discriminate]. injection E as <-. apply good_finish, good_start; trivial.
  - unfold TON in E. destruct (t_input s).
    + destruct (is_running s).
      * injection E as <-. apply good_finish, good_elapsed, G.
      * destruct (input_rising_edge s) as [b t] eqn:F. apply good_rising in F; trivial.
        destruct b; injection E as <-; apply good_finish; trivial. apply good_start; trivial.
    + injection E as <-. apply good_finish, good_reset, G.
  - unfold TOF in E. destruct (t_input s).
    + destruct (input_rising_edge s) as [b t] eqn:F. apply good_rising in F; trivial.
      injection E as <-. apply good_finish. destruct b; [apply good_reset|]; exact F.
    + destruct (input_falling_edge s) as [b t] eqn:F. apply good_falling in F; trivial.
      destruct b; [injection E as <-; apply good_finish, good_start; trivial|].
      destruct (is_running t); injection E as <-; apply good_finish; trivial. apply good_elapsed, F.
Qed.

Lemma timer_runs : forall r p name f base m h,
  In (name, f) timers -> zeroed r m (Inst name base) ->
  Forall (fun c => in_ity i64 (tc_pt c) /\ 0 <= tc_t1 c < 2 ^ 63) h ->
  outputs r (Inst name base) ["Q"; "ET"]
    (run r p m (map (fun c => Call (Inst name base) (timer_ins c) (tc_t1 c) (tc_t2 c)) h)) =
  omap (fun qe => [Ok (VBool (fst qe)); Ok (VInt (snd qe))]) (timer_out_zeroed r f h).
Proof.
  intros r p name f base m h N Z0 F. destruct (timer_tables name f N) as (HR & HS & HL).
  rewrite (simulate_outputs r p name base _ _ HR HS timer tcall
    timer_good timer_enc (timer_call f)
    (fun c => in_ity i64 (tc_pt c) /\ 0 <= tc_t1 c < 2 ^ 63) timer_ins tc_t1 tc_t2)
    with (s := timer_zeroed r) (ks := [2%nat; 3%nat]).
  - unfold timer_out_zeroed. clear F Z0. generalize (timer_zeroed r).
    induction h as [|i h IH]; intros s; cbn [steps timer_run]; trivial.
    destruct (timer_call f s i); cbn [obind]; auto.
  - intros i [Hi _]. repeat apply Forall_cons; try apply Forall_nil; do 2 eexists;
      (split; [reflexivity|split; [discriminate|cbn [fits snd]; first [exact I|split; [cbn; tauto|exact Hi]]]]).
  - intros s (G1 & G2 & G3). repeat apply Forall2_cons; try apply Forall2_nil; cbn [fits snd];
      first [exact I|split; [cbn; tauto|assumption]|destruct (t_start s); exact G3].
  - intros s i G Hi. exists (timer_code f (tc_t1 i) (tc_t2 i)). split; [apply HL|].
    unfold timer_call. cbn. destruct (t_edge s). destruct (f _ _ _); reflexivity.
  - intros s i s' (G1 & G2 & G3) [H1 H2] E. unfold timer_call in E.
    eapply timers_good; try eassumption. split; [exact H1|]. split; [exact G2|exact G3].
  - split; [split; destruct r; vm_compute; discriminate|]. split; [split; destruct r; vm_compute; discriminate|].
    destruct r; vm_compute; trivial. split; [discriminate|reflexivity].
  - exact F.
  - rewrite (zeroed_load r m name base _ HR Z0). destruct r; vm_compute; reflexivity.
  - repeat apply Forall2_cons; try apply Forall2_nil; eexists; (split; [reflexivity|discriminate]).
Qed.

(** * Inputs left out *)

Lemma to_le_le : forall bs, Forall (fun b => 0 <= b < 256) bs ->
  forall k, to_le (length bs) (le bs + k * 2 ^ (8 * Z.of_nat (length bs))) = bs.
Proof.
  induction 1 as [|b bs B F IH]; intros k; [reflexivity|]. cbn [length to_le le].
  replace (8 * Z.of_nat (S (length bs))) with (8 + 8 * Z.of_nat (length bs)) by lia.
  rewrite Z.pow_add_r by lia. change (2 ^ 8) with 256. f_equal.
  - replace (b + 256 * le bs + k * (256 * 2 ^ (8 * Z.of_nat (length bs))))
      with (b + (le bs + k * 2 ^ (8 * Z.of_nat (length bs))) * 256) by ring.
    rewrite Z.mod_add by lia. apply Z.mod_small, B.
  - replace (b + 256 * le bs + k * (256 * 2 ^ (8 * Z.of_nat (length bs))))
      with (b + (le bs + k * 2 ^ (8 * Z.of_nat (length bs))) * 256) by ring.
    rewrite Z.div_add, Z.div_small by lia. exact (IH k).
Qed.

Lemma encode_decode : forall r t bs v,
  (t = FBool \/ exists i, In i ctypes /\ t = FInt i) ->
  Forall (fun b => 0 <= b < 256) bs -> length bs = Z.to_nat (fsize r t) ->
  decode r t bs = Ok v -> encode r t v = bs.
Proof.
  intros r t bs v T F L D. destruct T as [->|(i & I & ->)].
  - destruct bs as [|b [|]]; try discriminate L. cbn [decode le] in D.
    replace (b + 256 * 0) with b in D by ring.
    destruct (b =? 0) eqn:E; [injection D as <-; apply Z.eqb_eq in E; subst; reflexivity|].
    destruct (b =? 1) eqn:E1; [|discriminate]. injection D as <-. apply Z.eqb_eq in E1. subst. reflexivity.
  - cbn [decode] in D. injection D as <-. cbn [encode]. cbn [fsize] in L. rewrite <- L.
    pose proof (ctypes_bits i I) as B.
    assert (W : 8 * Z.of_nat (length bs) = it_bits i).
    { rewrite L. cbn in I. repeat (destruct I as [<-|I]; [reflexivity|]). contradiction. }
    destruct (wrap_cong i (le bs) B) as [k ->]. rewrite <- W. apply to_le_le, F.
Qed.

Lemma store_same : forall m a v x, load m a (length v) = v -> store m a v x = m x.
Proof.
  intros m a v x L. unfold store.
  destruct (a <=? x) eqn:E1; destruct (x <? a + Z.of_nat (length v)) eqn:E2; cbn; trivial.
  apply Z.leb_le in E1. apply Z.ltb_lt in E2. rewrite <- L at 1. unfold load.
  set (g := fun i => m (a + Z.of_nat i)).
  rewrite (nth_indep _ 0 (g O)) by (rewrite map_length, seq_length; lia).
  rewrite (map_nth g). rewrite seq_nth by lia. unfold g. f_equal. lia.
Qed.

Lemma input_left_out : forall r p m i var v ins n1 n2,
  (forall a, 0 <= m a < 256) ->
  var <> "__BUFFER__" -> st_read r m i var = Ok v ->
  same_on (fun _ => True) (st_call r p m (Call i ins n1 n2)) (st_call r p m (Call i ((var, v) :: ins) n1 n2)).
Proof.
  intros r p m i var v ins n1 n2 MB NB R. unfold st_call. cbn [c_inst c_inputs c_now1 c_now2].
  unfold st_read in R.
  destruct (block (i_name i) st_blocks) as [ss|] eqn:ES; [|exact I].
  destruct (block (i_name i) rust_blocks) as [rs|] eqn:ER; [|exact I].
  destruct (linked _ _) as [code|]; [|exact I].
  destruct (st_var r 0 ss var) as [[t o]|] eqn:SV; [|discriminate].
  assert (T : t = FBool \/ exists j, In j ctypes /\ t = FInt j).
  { revert SV NB. clear - ES. intros SV NB. unfold st_blocks in ES. cbn [block] in ES.
    repeat match type of ES with
    | (if ?b then Some ?x else _) = _ =>
        destruct b;
        [injection ES as <-; unfold st_CTU, st_CTD, st_CTUD, st_timer in SV; cbn [st_var] in SV;
         repeat match type of SV with
         | (if String.eqb ?n var then Some _ else _) = _ =>
             let E := fresh in
             destruct (String.eqb n var) eqn:E;
             [injection SV as <- _;
              first [left; reflexivity
                    | right; eexists; split; [|reflexivity]; cbn; tauto
                    | exfalso; apply String.eqb_eq in E; apply NB; symmetry; exact E] |]
         end; discriminate SV|]
    end. discriminate ES. }
  assert (P : forall x, store_inputs r m (i_base i) ss ins x =
                        store_inputs r m (i_base i) ss ((var, v) :: ins) x).
  { intros x. cbn [store_inputs]. rewrite SV. apply store_inputs_ext. symmetry. apply store_same.
    rewrite encode_length. rewrite (encode_decode r t (load m (i_base i + o) (Z.to_nat (fsize r t))) v T);
      [reflexivity| | |exact R].
    - apply Forall_forall. intros b Hb. unfold load in Hb. apply in_map_iff in Hb.
      destruct Hb as (k & <- & _). apply MB.
    - unfold load. rewrite map_length, seq_length. reflexivity. }
  unfold rust_call.
  rewrite (load_fields_ext r rs _ _ (i_base i) 0 (blocks_wf r _ _ ER) (fun x _ => P x)).
  destruct (load_fields _ _ _ _ _) as [xs| |]; cbn [obind]; try exact I.
  destruct (code xs) as [ys| |]; cbn [obind]; try exact I.
  intros a _. apply store_fields_ext, P.
Qed.
