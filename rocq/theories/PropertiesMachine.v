(** C91: programs with many instances of function blocks in one memory. *)
From Coq Require Import String ZArith List Bool Lia.
From Verif Require Import Base ModelFB ModelCounters ModelTimers ModelLayout ModelMachine
  SpecFB SpecLayout SpecMachine ProofMachine ProofMachine2.
Import ListNotations.
Open Scope list_scope.
Open Scope string_scope.
Open Scope Z_scope.

(** ** C91 *)

(** In any program on instances that do not overlap, every instance ends with the bytes, and
    so every variable with the value, that its own calls alone would give; the rest of the
    memory is untouched. *)
Theorem C91_independent : forall r p insts prog m m',
  placed r insts -> Forall (fun c => In (c_inst c) insts) prog -> run r p m prog = Ok m' ->
  (forall i, In i insts -> exists mi,
     run r p m (calls_of i prog) = Ok mi /\
     (forall a, occupies r i a -> m' a = mi a) /\
     (forall var, st_read r m' i var = st_read r mi i var)) /\
  (forall a, (forall i, In i insts -> ~ occupies r i a) -> m' a = m a).
Proof.
  intros r p insts prog m m' PL F H. split.
  - intros i Hi.
    destruct (run_local r p insts i prog m m PL Hi F (fun a _ => eq_refl) m' H) as (mi & R & A).
    exists mi. split; [exact R|]. split; [exact A|]. intros var. apply read_same, A.
  - intros a N. exact (run_frame r p insts prog m m' a F H N).
Qed.
Print Assumptions C91_independent.

(** Interleaving adds no abort: if every instance's own calls succeed, so does the program. *)
Theorem C91_no_new_aborts : forall r p insts prog m,
  placed r insts -> Forall (fun c => In (c_inst c) insts) prog ->
  (forall i, In i insts -> exists mi, run r p m (calls_of i prog) = Ok mi) ->
  exists m', run r p m prog = Ok m'.
Proof. exact run_succeeds. Qed.
Print Assumptions C91_no_new_aborts.

(** A CTU_DINT at 1000, an R_TRIG directly behind it and a TON at 1024, called in turns. *)
Definition case_insts : list instance :=
  [Inst "CTU_DINT" 1000; Inst "R_TRIG" 1020; Inst "TON" 1024].
Definition case_prog : list call :=
  [Call (Inst "CTU_DINT" 1000) [("CU", VBool true); ("PV", VInt 2)] 0 0;
   Call (Inst "R_TRIG" 1020) [("CLK", VBool true)] 0 0;
   Call (Inst "TON" 1024) [("IN", VBool true); ("PT", VInt 10)] 5000 5000;
   Call (Inst "CTU_DINT" 1000) [("CU", VBool false)] 0 0;
   Call (Inst "TON" 1024) [] 5011 5011;
   Call (Inst "CTU_DINT" 1000) [("CU", VBool true)] 0 0].
Example C91_independent_case :
  placed Tagged case_insts /\ Forall (fun c => In (c_inst c) case_insts) case_prog /\
  outputs Tagged (Inst "CTU_DINT" 1000) ["Q"; "CV"] (run Tagged Debug (fun _ => 0) case_prog) =
    Ok [Ok (VBool true); Ok (VInt 2)] /\
  outputs Tagged (Inst "R_TRIG" 1020) ["Q"] (run Tagged Debug (fun _ => 0) case_prog) =
    Ok [Ok (VBool true)] /\
  outputs Tagged (Inst "TON" 1024) ["Q"; "ET"] (run Tagged Debug (fun _ => 0) case_prog) =
    Ok [Ok (VBool true); Ok (VInt 10)].
Proof.
  split; [split|].
  - intros i H. cbn in H. repeat (destruct H as [<-|H]; [vm_compute; discriminate|]). contradiction.
  - intros i j a Hi Hj. cbn in Hi, Hj. unfold occupies.
    repeat (destruct Hi as [<-|Hi]); try contradiction;
    repeat (destruct Hj as [<-|Hj]); try contradiction; try reflexivity.
    all: repeat match goal with |- context [size_of ?r ?i] => let v := eval vm_compute in (size_of r i) in change (size_of r i) with v end.
    all: cbn [i_base]; lia.
  - split; [repeat apply Forall_cons; try apply Forall_nil; cbn; tauto|].
    repeat split; vm_compute; reflexivity.
Qed.

(** An instance in zeroed memory, driven from ST through memory, has the outputs of the block as
    modelled on its parameters: the counters of every element type, *)
Theorem C91_ctu : forall r p name t base m h,
  In (name, t) up_counters -> zeroed r m (Inst name base) ->
  Forall (fun i => in_ity t (cui_pv i)) h ->
  outputs r (Inst name base) ["Q"; "CV"]
    (run r p m (map (fun i => Call (Inst name base)
       [("CU", VBool (cui_cu i)); ("R", VBool (cui_r i)); ("PV", VInt (cui_pv i))] 0 0) h)) =
  omap (fun s => [Ok (VBool (ctu_q s)); Ok (VInt (ctu_cv s))]) (ctu_run p t ctu_default h).
Proof. exact ctu_runs. Qed.
Print Assumptions C91_ctu.

Theorem C91_ctd : forall r p name t base m h,
  In (name, t) down_counters -> zeroed r m (Inst name base) ->
  Forall (fun i => in_ity t (cdi_pv i)) h ->
  outputs r (Inst name base) ["Q"; "CV"]
    (run r p m (map (fun i => Call (Inst name base)
       [("CD", VBool (cdi_cd i)); ("LD", VBool (cdi_ld i)); ("PV", VInt (cdi_pv i))] 0 0) h)) =
  omap (fun s => [Ok (VBool (ctd_q s)); Ok (VInt (ctd_cv s))]) (ctd_run p t ctd_default h).
Proof. exact ctd_runs. Qed.
Print Assumptions C91_ctd.

Theorem C91_ctud : forall r p name t base m h,
  In (name, t) up_down_counters -> zeroed r m (Inst name base) ->
  Forall (fun i => in_ity t (cudi_pv i)) h ->
  outputs r (Inst name base) ["QU"; "QD"; "CV"]
    (run r p m (map (fun i => Call (Inst name base)
       [("CU", VBool (cudi_cu i)); ("CD", VBool (cudi_cd i)); ("R", VBool (cudi_r i));
        ("LD", VBool (cudi_ld i)); ("PV", VInt (cudi_pv i))] 0 0) h)) =
  omap (fun s => [Ok (VBool (cud_qu s)); Ok (VBool (cud_qd s)); Ok (VInt (cud_cv s))])
    (ctud_run p t ctud_default h).
Proof. exact ctud_runs. Qed.
Print Assumptions C91_ctud.

(** the bistables and edge triggers, *)
Theorem C91_bistables : forall r p name f set_input reset_input base m h,
  In (name, f, (set_input, reset_input)) bistables -> zeroed r m (Inst name base) ->
  outputs r (Inst name base) ["Q1"]
    (run r p m (map (fun i => Call (Inst name base)
       [(set_input, VBool (fst i)); (reset_input, VBool (snd i))] 0 0) h)) =
  Ok [Ok (VBool (sr_output (sr_run f (SrParams false false false) h)))].
Proof. exact sr_runs. Qed.
Print Assumptions C91_bistables.

Theorem C91_triggers : forall r p name f base m h,
  In (name, f) triggers -> zeroed r m (Inst name base) ->
  outputs r (Inst name base) ["Q"]
    (run r p m (map (fun c => Call (Inst name base) [("CLK", VBool c)] 0 0) h)) =
  Ok [Ok (VBool (last (trig_outputs f trigger_default h) false))].
Proof. exact trig_runs. Qed.
Print Assumptions C91_triggers.

(** and the timers under all their names, an abort of TP included.  What zeroed memory means for
    a timer is C81. *)
Theorem C91_timers : forall r p name f base m h,
  In (name, f) timers -> zeroed r m (Inst name base) ->
  Forall (fun c => in_ity i64 (tc_pt c) /\ 0 <= tc_t1 c < 2 ^ 63) h ->
  outputs r (Inst name base) ["Q"; "ET"]
    (run r p m (map (fun c => Call (Inst name base)
       [("IN", VBool (tc_in c)); ("PT", VInt (tc_pt c))] (tc_t1 c) (tc_t2 c)) h)) =
  omap (fun qe => [Ok (VBool (fst qe)); Ok (VInt (snd qe))]) (timer_out_zeroed r f h).
Proof. exact timer_runs. Qed.
Print Assumptions C91_timers.

Example C91_ctu_case :
  In ("CTU_UDINT", u32) up_counters /\ zeroed Niche (fun _ => 0) (Inst "CTU_UDINT" 64) /\
  outputs Niche (Inst "CTU_UDINT" 64) ["Q"; "CV"]
    (run Niche Release (fun _ => 0) (map (fun i => Call (Inst "CTU_UDINT" 64)
       [("CU", VBool (cui_cu i)); ("R", VBool (cui_r i)); ("PV", VInt (cui_pv i))] 0 0)
       [CtuIn true false 4000000000; CtuIn false false 1; CtuIn true false 3])) =
  Ok [Ok (VBool false); Ok (VInt 2)].
Proof. split; [cbn; tauto|]. split; [intros a _; reflexivity|vm_compute; reflexivity]. Qed.

Example C91_ctd_case :
  outputs Niche (Inst "CTD_LINT" 64) ["Q"; "CV"]
    (run Niche Release (fun _ => 0) (map (fun i => Call (Inst "CTD_LINT" 64)
       [("CD", VBool (cdi_cd i)); ("LD", VBool (cdi_ld i)); ("PV", VInt (cdi_pv i))] 0 0)
       [CtdIn false true (-5000000000); CtdIn true false 0])) =
  Ok [Ok (VBool true); Ok (VInt (-5000000001))].
Proof. vm_compute. reflexivity. Qed.

Example C91_ctud_case :
  outputs Tagged (Inst "CTUD" 8) ["QU"; "QD"; "CV"]
    (run Tagged Debug (fun _ => 0) (map (fun i => Call (Inst "CTUD" 8)
       [("CU", VBool (cudi_cu i)); ("CD", VBool (cudi_cd i)); ("R", VBool (cudi_r i));
        ("LD", VBool (cudi_ld i)); ("PV", VInt (cudi_pv i))] 0 0)
       [CtudIn false false false true 7; CtudIn true false false false 7])) =
  Ok [Ok (VBool true); Ok (VBool false); Ok (VInt 8)].
Proof. vm_compute. reflexivity. Qed.

Example C91_bistables_case :
  In ("RS", RS, ("SET", "RESET1")) bistables /\
  outputs Tagged (Inst "RS" 5) ["Q1"]
    (run Tagged Debug (fun _ => 0) (map (fun i => Call (Inst "RS" 5)
       [("SET", VBool (fst i)); ("RESET1", VBool (snd i))] 0 0) [(true, true); (true, false); (false, false)])) =
  Ok [Ok (VBool true)].
Proof. split; [cbn; tauto|vm_compute; reflexivity]. Qed.

Example C91_triggers_case :
  outputs Tagged (Inst "F_TRIG" 5) ["Q"]
    (run Tagged Debug (fun _ => 0) (map (fun c => Call (Inst "F_TRIG" 5) [("CLK", VBool c)] 0 0) [true; false])) =
  Ok [Ok (VBool true)].
Proof. vm_compute. reflexivity. Qed.

Example C91_timers_case :
  In ("TOF_LTIME", TOF) timers /\
  outputs Niche (Inst "TOF_LTIME" 64) ["Q"; "ET"]
    (run Niche Debug (fun _ => 0) (map (fun c => Call (Inst "TOF_LTIME" 64)
       [("IN", VBool (tc_in c)); ("PT", VInt (tc_pt c))] (tc_t1 c) (tc_t2 c))
       [TCall true 3000000000 1 2; TCall false 3000000000 1234567890123 1234567890123;
        TCall false 3000000000 1236567890123 1236567890124])) =
  Ok [Ok (VBool true); Ok (VInt 2000000000)].
Proof. split; [cbn; tauto|vm_compute; reflexivity]. Qed.

(** An input left out of a call keeps its value: giving the value it has makes no difference. *)
Theorem C91_input_left_out : forall r p m i var v ins n1 n2,
  (forall a, 0 <= m a < 256) -> var <> "__BUFFER__" -> st_read r m i var = Ok v ->
  same_on (fun _ => True) (st_call r p m (Call i ins n1 n2))
                          (st_call r p m (Call i ((var, v) :: ins) n1 n2)).
Proof. exact input_left_out. Qed.
Print Assumptions C91_input_left_out.

Example C91_input_left_out_case :
  st_read Tagged (fun a => a mod 2) (Inst "CTU_DINT" 1000) "PV" = Ok (VInt 16777472) /\
  omap (fun m' => map m' [1000; 1001; 1004; 1005; 1008; 1012; 1016])
    (st_call Tagged Debug (fun a => a mod 2)
       (Call (Inst "CTU_DINT" 1000) [("CU", VBool true)] 0 0)) = Ok [1; 1; 0; 1; 0; 0; 0].
Proof. split; vm_compute; reflexivity. Qed.
