(** C70 and C81: instances of function blocks as ST declares them and Rust uses them. *)
From Coq Require Import String ZArith List Bool Lia.
From Verif Require Import Base ModelFB ModelTimers ModelLayout SpecFB SpecLayout ProofLayout.
Import ListNotations.
Open Scope list_scope.
Open Scope string_scope.
Open Scope Z_scope.

(** ** C70 *)

(** Every exported block is declared in ST, and the other way round. *)
Theorem C70_same_blocks : forall name,
  block name rust_blocks <> None <-> block name st_blocks <> None.
Proof. exact same_blocks. Qed.
Print Assumptions C70_same_blocks.

(** Whatever the Rust function writes to the fields of an instance at [base], memory outside
    the instance as ST lays it out is unchanged, and each declared variable, read by ST at
    ST's offset, has the bytes written to the field in the same position. *)
Theorem C70_instance_memory : forall r name rs ss m base vals,
  block name rust_blocks = Some rs -> block name st_blocks = Some ss -> values_for r rs vals ->
  let m' := store_fields m base (offsets r 0 rs) vals in
  (forall a, a < base \/ base + struct_size r ss <= a -> m' a = m a) /\
  (forall k var ty o v,
     nth_error ss k = Some (var, ty) -> var <> "__BUFFER__" ->
     nth_error (offsets r 0 ss) k = Some o -> nth_error vals k = Some v ->
     read m' (base + o) (Z.to_nat (fsize r ty)) = v).
Proof. exact instance_memory. Qed.
Print Assumptions C70_instance_memory.

(** A CTU_DINT instance at address 1000: PV is read at 1004, CV at 1012. *)
Example C70_instance_memory_case :
  values_for Niche (rust_CTUParams i32)
    [[1]; [0]; [5; 0; 0; 0]; [0]; [3; 0; 0; 0]; [1]] /\
  offsets Niche 0 (st_CTU DINT) = [0; 1; 4; 8; 12; 16] /\
  struct_size Niche (st_CTU DINT) = 20 /\
  read (store_fields (fun _ => 170) 1000 (offsets Niche 0 (rust_CTUParams i32))
          [[1]; [0]; [5; 0; 0; 0]; [0]; [3; 0; 0; 0]; [1]]) 998 24 =
  [170; 170; 1; 0; 170; 170; 5; 0; 0; 0; 0; 170; 170; 170; 3; 0; 0; 0; 1; 170; 170; 170; 170; 170].
Proof. split; [repeat constructor | repeat split; vm_compute; reflexivity]. Qed.

(** The field in the position of a declared variable is the one that implements it, and has
    its type: signedness and width. *)
Theorem C70_variables : forall name rs ss k var ty,
  block name rust_blocks = Some rs -> block name st_blocks = Some ss ->
  nth_error ss k = Some (var, ty) -> var <> "__BUFFER__" ->
  exists f, nth_error rs k = Some (f, ty) /\ In (var, f) implemented_by.
Proof. intros. eapply (proj1 (block_vars Niche name rs ss H H0 k var ty H1 H2)). Qed.
Print Assumptions C70_variables.

Example C70_variables_case :
  block "CTUD_ULINT" rust_blocks = Some (rust_CTUDParams u64) /\
  block "CTUD_ULINT" st_blocks = Some (st_CTUD ULINT) /\
  nth_error (st_CTUD ULINT) 4 = Some ("PV", FInt u64).
Proof. repeat split; vm_compute; reflexivity. Qed.

(** An instance aligned for ST is aligned for Rust, field by field. *)
Theorem C70_alignment : forall r name rs ss base k o f,
  block name rust_blocks = Some rs -> block name st_blocks = Some ss ->
  (struct_align ss | base) ->
  nth_error (offsets r 0 rs) k = Some o -> nth_error rs k = Some f ->
  (struct_align rs | base) /\ (falign (snd f) | o).
Proof.
  intros r name rs ss base k o f HR HS B O F. split.
  - exact (Z.divide_trans _ _ _ (block_align name rs ss HR HS) B).
  - exact (offsets_aligned r rs 0 k o f (blocks_wf r name rs HR) O F).
Qed.
Print Assumptions C70_alignment.

Example C70_alignment_case :
  (struct_align (st_timer TIME TIME) | 64) /\ struct_align rust_TimerParams = 8 /\
  nth_error (offsets Tagged 0 rust_TimerParams) 5 = Some 40.
Proof. split; [exists 8; reflexivity | split; reflexivity]. Qed.

(** The start time of a timer takes bytes 40..55 (newer compilers) or 40..63 (older ones) of an
    instance of 64 bytes in ST.  The declared buffer takes bytes 33..56: it holds the start
    time of newer compilers; that of older ones ends in the padding after the buffer. *)
Theorem C70_start_time : forall r name,
  In name ["TP"; "TP_TIME"; "TP_LTIME"; "TON"; "TON_TIME"; "TON_LTIME";
           "TOF"; "TOF_TIME"; "TOF_LTIME"] ->
  exists rs ss o b,
    block name rust_blocks = Some rs /\ block name st_blocks = Some ss /\
    nth_error rs 5 = Some ("start_time", FInstant) /\
    nth_error (offsets r 0 rs) 5 = Some o /\
    nth_error ss 5 = Some ("__BUFFER__", FBytes 24) /\
    nth_error (offsets r 0 ss) 5 = Some b /\
    b <= o /\ o + fsize r FInstant <= struct_size r ss /\
    (o + fsize r FInstant <= b + 24 <-> r = Niche).
Proof.
  intros r name H. cbn in H.
  repeat (destruct H as [<-|H];
    [exists rust_TimerParams; eexists; exists 40, 33;
     repeat match goal with |- _ /\ _ => split end;
     try reflexivity; destruct r; try (vm_compute; discriminate);
     (split; intros E;
      [first [reflexivity | exfalso; revert E; vm_compute; intros E; apply E; reflexivity]
      |first [discriminate E | vm_compute; discriminate]])|]).
  contradiction.
Qed.
Print Assumptions C70_start_time.

(** ** C81 *)

(** If the compiler represents [Option<Instant>] with a tag, a timer in zeroed memory is a
    fresh timer. *)
Theorem C81_tagged : forall f h, timer_out_zeroed Tagged f h = timer_out f h.
Proof. exact zeroed_tagged. Qed.
Print Assumptions C81_tagged.

Example C81_tagged_case :
  timer_out_zeroed Tagged TON [TCall true 10 1000 1000; TCall true 10 1011 1011] = Ok (true, 10).
Proof. reflexivity. Qed.

(** With the representation of newer compilers it is not: zeroed memory is a timer started when
    the clock was at zero.  TON reports its preset elapsed at the first call with IN, TP gives
    no pulse for the first rising edge, TOF gives Q although IN was never set. *)
Theorem C81_ton_niche_refuted : exists h,
  clock_ok h /\ preset_ok h /\
  timer_out_zeroed Niche TON h = Ok (true, 10) /\ timer_out TON h = Ok (false, 0).
Proof.
  exists [TCall true 10 1000 1000].
  split; [split; [repeat split; cbn [tc_t1 tc_t2]; lia | repeat apply Forall_cons; try apply Forall_nil; cbn [tc_t1 tc_t2 tc_pt]; lia]|].
  split; [repeat apply Forall_cons; try apply Forall_nil; cbn [tc_t1 tc_t2 tc_pt]; lia|]. split; vm_compute; reflexivity.
Qed.
Print Assumptions C81_ton_niche_refuted.

Theorem C81_tp_niche_refuted : exists h,
  clock_ok h /\ preset_ok h /\
  timer_out_zeroed Niche TP h = Ok (false, 10) /\ timer_out TP h = Ok (true, 0).
Proof.
  exists [TCall true 10 1000 1000].
  split; [split; [repeat split; cbn [tc_t1 tc_t2]; lia | repeat apply Forall_cons; try apply Forall_nil; cbn [tc_t1 tc_t2 tc_pt]; lia]|].
  split; [repeat apply Forall_cons; try apply Forall_nil; cbn [tc_t1 tc_t2 tc_pt]; lia|]. split; vm_compute; reflexivity.
Qed.
Print Assumptions C81_tp_niche_refuted.

Theorem C81_tof_niche_refuted : exists h,
  clock_ok h /\ preset_ok h /\ Forall (fun c => tc_in c = false) h /\
  timer_out_zeroed Niche TOF h = Ok (true, 1000) /\ timer_out TOF h = Ok (false, 0).
Proof.
  exists [TCall false 5000 1000 1000].
  split; [split; [repeat split; cbn [tc_t1 tc_t2]; lia | repeat apply Forall_cons; try apply Forall_nil; cbn [tc_t1 tc_t2 tc_pt]; lia]|].
  split; [repeat apply Forall_cons; try apply Forall_nil; cbn [tc_t1 tc_t2 tc_pt]; lia|]. split; [repeat constructor|].
  split; vm_compute; reflexivity.
Qed.
Print Assumptions C81_tof_niche_refuted.

(** What holds: TON behaves as a fresh timer in every history that begins with IN off, TOF in
    every history that begins with IN on.  Missing: the other histories, see above. *)
Theorem C81_ton_niche_partial : forall c h, tc_in c = false ->
  timer_out_zeroed Niche TON (c :: h) = timer_out TON (c :: h).
Proof. exact zeroed_niche_ton. Qed.
Print Assumptions C81_ton_niche_partial.

Example C81_ton_niche_partial_case :
  timer_out_zeroed Niche TON
    [TCall false 10 1000 1000; TCall true 10 1001 1001; TCall true 10 1005 1005] = Ok (false, 4).
Proof. reflexivity. Qed.

Theorem C81_tof_niche_partial : forall c h, tc_in c = true ->
  timer_out_zeroed Niche TOF (c :: h) = timer_out TOF (c :: h).
Proof. exact zeroed_niche_tof. Qed.
Print Assumptions C81_tof_niche_partial.

Example C81_tof_niche_partial_case :
  timer_out_zeroed Niche TOF
    [TCall true 10 1000 1000; TCall false 10 1001 1001; TCall false 10 1005 1005] = Ok (true, 4).
Proof. reflexivity. Qed.

(** TP, until IN first falls: Q and ET are those of a pulse that began when the clock was at
    zero, whatever IN does.  So the first rising edge after the clock has passed PT gives no
    pulse. *)
Theorem C81_tp_niche_partial : forall h c,
  clock_ok (h ++ [c]) -> preset_ok (h ++ [c]) -> never_falls false (h ++ [c]) ->
  timer_out_zeroed Niche TP (h ++ [c]) =
    Ok (tc_t2 c <=? tc_pt c, Z.min (tc_pt c) (tc_t1 c)).
Proof. exact zeroed_niche_tp. Qed.
Print Assumptions C81_tp_niche_partial.

Example C81_tp_niche_partial_case :
  let h := [TCall false 10 1000 1000; TCall true 10 2000 2000] in
  let c := TCall true 10 2005 2005 in
  clock_ok (h ++ [c]) /\ preset_ok (h ++ [c]) /\ never_falls false (h ++ [c]).
Proof.
  cbn [app]. split; [split; [repeat split; cbn [tc_t1 tc_t2]; lia | repeat apply Forall_cons; try apply Forall_nil; cbn [tc_t1 tc_t2 tc_pt]; lia]|].
  split; [repeat apply Forall_cons; try apply Forall_nil; cbn [tc_t1 tc_t2 tc_pt]; lia|]. cbn. intuition.
Qed.
