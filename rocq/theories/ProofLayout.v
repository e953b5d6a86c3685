(** Proofs for C70 and C81. *)
From Coq Require Import String ZArith List Bool Lia.
From Verif Require Import Base ModelFB ModelTimers ModelLayout SpecFB SpecLayout.
Import ListNotations.
Open Scope list_scope.
Open Scope string_scope.
Open Scope Z_scope.

Lemma store_out : forall m a v x, x < a \/ a + Z.of_nat (length v) <= x -> store m a v x = m x.
Proof.
  intros m a v x H. unfold store.
  destruct (a <=? x) eqn:E1; destruct (x <? a + Z.of_nat (length v)) eqn:E2; cbn; trivial.
  apply Z.leb_le in E1. apply Z.ltb_lt in E2. lia.
Qed.

Lemma read_store_out : forall m a v b n,
  b + Z.of_nat n <= a \/ a + Z.of_nat (length v) <= b -> read (store m a v) b n = read m b n.
Proof.
  intros. unfold read. apply map_ext_in. intros i Hi. apply in_seq in Hi.
  apply store_out. lia.
Qed.

Lemma map_nth_seq : forall (v : list Z), map (fun i => nth i v 0) (seq 0 (length v)) = v.
Proof.
  induction v as [|x v IH]; trivial. cbn. f_equal.
  rewrite <- seq_shift, map_map. exact IH.
Qed.

Lemma read_store : forall m a v, read (store m a v) a (length v) = v.
Proof.
  intros. unfold read. etransitivity; [|apply map_nth_seq].
  apply map_ext_in. intros i Hi. apply in_seq in Hi. unfold store.
  destruct (a <=? a + Z.of_nat i) eqn:E1; destruct (a + Z.of_nat i <? a + Z.of_nat (length v)) eqn:E2;
    try apply Z.leb_gt in E1; try apply Z.ltb_ge in E2; try lia.
  cbn [andb]. f_equal. lia.
Qed.

Definition fields_wf (r : option_repr) (fs : list (string * ftype)) : Prop :=
  Forall (fun f => 0 < falign (snd f) /\ 0 <= fsize r (snd f)) fs.

Lemma round_up_ge : forall a n, 0 < a -> n <= round_up a n.
Proof.
  intros. unfold round_up. pose proof (Z.div_mod (n + a - 1) a ltac:(lia)).
  pose proof (Z.mod_pos_bound (n + a - 1) a ltac:(lia)). lia.
Qed.

Lemma round_up_mult : forall a n, 0 < a -> (a | round_up a n).
Proof. intros. exists ((n + a - 1) / a). reflexivity. Qed.

Lemma fields_end_ge : forall r fs pos, fields_wf r fs -> pos <= fields_end r pos fs.
Proof.
  induction fs as [|[n t] fs IH]; intros pos W; cbn; [lia|].
  inversion W; subst. cbn in H1. pose proof (round_up_ge (falign t) pos ltac:(lia)).
  specialize (IH (round_up (falign t) pos + fsize r t) H2). lia.
Qed.

Lemma store_fields_out : forall r fs vals m base pos x,
  fields_wf r fs -> values_for r fs vals ->
  x < base + pos \/ base + fields_end r pos fs <= x ->
  store_fields m base (offsets r pos fs) vals x = m x.
Proof.
  induction fs as [|[n t] fs IH]; intros vals m base pos x W V H; inversion V; subst; trivial.
  destruct (Forall_inv W) as [A S]. pose proof (Forall_inv_tail W : fields_wf r fs) as Wf.
  cbn in *. pose proof (round_up_ge (falign t) pos ltac:(lia)).
  pose proof (fields_end_ge r fs (round_up (falign t) pos + fsize r t) Wf).
  rewrite IH; trivial; [|lia]. apply store_out. lia.
Qed.

Lemma read_store_fields_out : forall r fs vals m base pos a n,
  fields_wf r fs -> values_for r fs vals -> a + Z.of_nat n <= base + pos ->
  read (store_fields m base (offsets r pos fs) vals) a n = read m a n.
Proof.
  intros. unfold read. apply map_ext_in. intros i Hi. apply in_seq in Hi.
  apply (store_fields_out r); trivial. lia.
Qed.

Lemma read_store_fields : forall r fs vals m base pos k o v,
  fields_wf r fs -> values_for r fs vals ->
  nth_error (offsets r pos fs) k = Some o -> nth_error vals k = Some v ->
  read (store_fields m base (offsets r pos fs) vals) (base + o) (length v) = v.
Proof.
  induction fs as [|[n t] fs IH]; intros vals m base pos k o v W V O E; inversion V; subst.
  - destruct k; discriminate O.
  - inversion W; subst. cbn in *. destruct k as [|k]; cbn in O, E.
    + injection O as <-. injection E as <-.
      rewrite (read_store_fields_out r); trivial; [|lia]. apply read_store.
    + eapply IH; eassumption.
Qed.

(** General layout facts: fields are aligned and in order. *)
Lemma offsets_aligned : forall r fs pos k o f,
  fields_wf r fs -> nth_error (offsets r pos fs) k = Some o -> nth_error fs k = Some f ->
  (falign (snd f) | o).
Proof.
  induction fs as [|[n t] fs IH]; intros pos k o f W O F; destruct k; try discriminate F;
    inversion W; subst.
  - cbn in O, F. injection O as <-. injection F as <-. apply round_up_mult. apply H1.
  - cbn in O, F. eapply IH; eassumption.
Qed.

(** * The tables *)

Ltac in_names := unfold implemented_by; repeat (first [left; reflexivity | right]).


Lemma block_pairs : forall name rs ss (P : list (string * ftype) -> list (string * ftype) -> Prop),
  block name rust_blocks = Some rs -> block name st_blocks = Some ss ->
  P rust_SetResetParams [("SET1", BOOL); ("RESET", BOOL); ("Q1", BOOL)] ->
  P rust_SetResetParams [("SET", BOOL); ("RESET1", BOOL); ("Q1", BOOL)] ->
  P rust_Trigger [("CLK", BOOL); ("Q", BOOL); ("M", BOOL)] ->
  (forall t, In t [i16; i32; u32; i64; u64] ->
     P (rust_CTUParams t) (st_CTU (FInt t)) /\ P (rust_CTDParams t) (st_CTD (FInt t)) /\
     P (rust_CTUDParams t) (st_CTUD (FInt t))) ->
  P rust_TimerParams (st_timer TIME TIME) -> P rs ss.
Proof.
  intros name rs ss P HR HS H1 H2 H3 H4 H5.
  unfold rust_blocks, st_blocks in HR, HS. cbn [block] in HR, HS.
  repeat match type of HR with
  | (if ?b then Some ?x else _) = _ =>
      destruct b;
      [injection HR as <-; injection HS as <-; trivial; apply H4; cbn; tauto|]
  end.
  discriminate HR.
Qed.

Lemma blocks_wf : forall r name rs, block name rust_blocks = Some rs -> fields_wf r rs.
Proof.
  intros r name rs HR. unfold rust_blocks in HR. cbn [block] in HR.
  repeat match type of HR with
  | (if ?b then Some ?x else _) = _ =>
      destruct b; [injection HR as <-; destruct r; unfold fields_wf; repeat constructor; cbn; lia|]
  end.
  discriminate HR.
Qed.

(** Rust end of the fields against ST size. *)
Lemma block_size : forall r name rs ss,
  block name rust_blocks = Some rs -> block name st_blocks = Some ss ->
  fields_end r 0 rs <= struct_size r ss.
Proof.
  intros r name rs ss HR HS. apply (block_pairs name rs ss
    (fun rs ss => fields_end r 0 rs <= struct_size r ss)); trivial.
  1-3: destruct r; vm_compute; discriminate.
  - intros t Ht. cbn in Ht. destruct r;
      repeat (destruct Ht as [<-|Ht]; [repeat split; vm_compute; discriminate|]); contradiction.
  - destruct r; vm_compute; discriminate.
Qed.

Definition var_compat (r : option_repr) (rs ss : list (string * ftype)) : Prop :=
  forall k var ty, nth_error ss k = Some (var, ty) -> var <> "__BUFFER__" ->
  (exists f, nth_error rs k = Some (f, ty) /\ In (var, f) implemented_by) /\
  nth_error (offsets r 0 rs) k = nth_error (offsets r 0 ss) k.

Lemma block_vars : forall r name rs ss,
  block name rust_blocks = Some rs -> block name st_blocks = Some ss -> var_compat r rs ss.
Proof.
  intros r name rs ss HR HS. apply (block_pairs name rs ss (var_compat r)); trivial.
  all: unfold var_compat.
  1-3: intros k var ty E N; do 3 (destruct k as [|k]; [injection E as <- <-; split;
        [eexists; split; [reflexivity|in_names] | destruct r; vm_compute; reflexivity]|]);
       destruct k; discriminate E.
  - intros t Ht. cbn in Ht.
    repeat match goal with |- _ /\ _ => split end; intros k var ty E N.
    1-2: do 6 (destruct k as [|k]; [injection E as <- <-; split;
          [eexists; split; [reflexivity|in_names]
          | destruct r; repeat (destruct Ht as [<-|Ht]; [vm_compute; reflexivity|]); contradiction]|]);
         destruct k; discriminate E.
    do 10 (destruct k as [|k]; [injection E as <- <-; split;
          [eexists; split; [reflexivity|in_names]
          | destruct r; repeat (destruct Ht as [<-|Ht]; [vm_compute; reflexivity|]); contradiction]|]);
         destruct k; discriminate E.
  - intros k var ty E N.
    do 5 (destruct k as [|k]; [injection E as <- <-; split;
          [eexists; split; [reflexivity|in_names] | destruct r; vm_compute; reflexivity]|]).
    destruct k as [|k]; [injection E as <- <-; contradiction N; reflexivity|].
    destruct k; discriminate E.
Qed.

Lemma instance_memory : forall r name rs ss m base vals,
  block name rust_blocks = Some rs -> block name st_blocks = Some ss -> values_for r rs vals ->
  let m' := store_fields m base (offsets r 0 rs) vals in
  (forall a, a < base \/ base + struct_size r ss <= a -> m' a = m a) /\
  (forall k var ty o v,
     nth_error ss k = Some (var, ty) -> var <> "__BUFFER__" ->
     nth_error (offsets r 0 ss) k = Some o -> nth_error vals k = Some v ->
     read m' (base + o) (Z.to_nat (fsize r ty)) = v).
Proof.
  intros r name rs ss m base vals HR HS V m'.
  pose proof (blocks_wf r name rs HR) as W. split.
  - intros a H. subst m'. apply (store_fields_out r); trivial.
    pose proof (block_size r name rs ss HR HS). lia.
  - intros k var ty o v E N O Ev.
    destruct (block_vars r name rs ss HR HS k var ty E N) as [(f & F & _) O'].
    rewrite O in O'. subst m'.
    assert (L : Z.of_nat (length v) = fsize r ty).
    { clear - V F Ev. revert k F Ev. induction V; intros k F Ev; destruct k; try discriminate F.
      - cbn in *. injection F as ->. injection Ev as ->. exact H.
      - cbn in *. eapply IHV; eassumption. }
    rewrite <- L, Nat2Z.id. eapply read_store_fields; eassumption.
Qed.

Lemma same_blocks : forall name,
  block name rust_blocks <> None <-> block name st_blocks <> None.
Proof.
  intros name. unfold rust_blocks, st_blocks. cbn [block].
  repeat match goal with
  | |- (if ?b then _ else _) <> None <-> _ => destruct b; [split; intros _ F; discriminate F|]
  end. tauto.
Qed.

Lemma block_align : forall name rs ss,
  block name rust_blocks = Some rs -> block name st_blocks = Some ss ->
  (struct_align rs | struct_align ss).
Proof.
  intros name rs ss HR HS.
  apply (block_pairs name rs ss (fun rs ss => (struct_align rs | struct_align ss))); trivial.
  1-3: exists 1; reflexivity.
  - intros t Ht. cbn in Ht.
    repeat (destruct Ht as [<-|Ht]; [repeat split; exists 1; reflexivity|]); contradiction.
  - exists 1; reflexivity.
Qed.

(** * Zero-initialised timers *)

Lemma zeroed_tagged : forall f h,
  timer_out_zeroed Tagged f h = timer_out f h.
Proof. reflexivity. Qed.

Lemma zeroed_niche_state : timer_zeroed Niche = Timer false 0 false 0 signal_default (Some 0).
Proof. reflexivity. Qed.

Lemma zeroed_niche_ton : forall c h, tc_in c = false ->
  timer_out_zeroed Niche TON (c :: h) = timer_out TON (c :: h).
Proof.
  intros c h E. unfold timer_out_zeroed, timer_out. rewrite zeroed_niche_state.
  cbn [timer_run]. unfold timer_call, timer_default. cbn. rewrite E. reflexivity.
Qed.

Lemma zeroed_niche_tof : forall c h, tc_in c = true ->
  timer_out_zeroed Niche TOF (c :: h) = timer_out TOF (c :: h).
Proof.
  intros c h E. unfold timer_out_zeroed, timer_out. rewrite zeroed_niche_state.
  cbn [timer_run]. unfold timer_call, timer_default. cbn. rewrite E. reflexivity.
Qed.

Lemma wrap_small : forall t x, it_signed t = false -> 0 <= x < 2 ^ it_bits t -> wrap t x = x.
Proof. intros t x S H. unfold wrap. rewrite S. apply Z.mod_small. exact H. Qed.

Lemma wrap_i64_small : forall x, 0 <= x < 2 ^ 63 -> wrap i64 x = x.
Proof.
  intros x H. unfold wrap. cbn [it_signed it_bits i64].
  change (2 ^ (64 - 1)) with (2 ^ 63). rewrite Z.mod_small; [lia|].
  change (2 ^ 64) with (2 ^ 63 + 2 ^ 63). lia.
Qed.

Lemma tp_niche_step : forall i p o e s c,
  0 <= tc_t1 c < 2 ^ 63 -> 0 <= tc_t2 c < 2 ^ 63 -> 0 <= tc_pt c < 2 ^ 63 ->
  (s = true -> tc_in c = true) ->
  timer_call TP (Timer i p o e (Signal s) (Some 0)) c =
    Ok (Timer (tc_in c) (tc_pt c) (tc_t2 c <=? tc_pt c) (Z.min (tc_pt c) (tc_t1 c))
          (Signal (tc_in c)) (Some 0)).
Proof.
  intros i p o e s c H1 H2 H3 N. unfold timer_call, TP. cbn [is_running t_start].
  unfold update_elapsed_time, get_run_time, set_elapsed_time. cbn [t_start t_preset t_input t_output t_edge].
  rewrite !Z.sub_0_r, Z.max_r, wrap_i64_small by lia.
  unfold is_in_preset_range, get_run_time. cbn [t_start t_preset].
  rewrite !Z.sub_0_r, Z.max_r by lia. rewrite wrap_small; [|reflexivity|].
  2: { cbn [it_bits u64]. change (2 ^ 64) with (2 ^ 63 + 2 ^ 63). lia. }
  destruct (tc_t2 c <=? tc_pt c) eqn:Q; [reflexivity|].
  unfold input_falling_edge, falling_edge, set_edge. cbn.
  destruct s, (tc_in c); cbn; try reflexivity. discriminate (N eq_refl).
Qed.

Lemma tp_niche_run : forall h c i p o e s lo,
  0 <= lo -> clock_from lo (h ++ [c]) -> Forall (fun c => tc_t2 c < 2 ^ 63) (h ++ [c]) ->
  preset_ok (h ++ [c]) -> never_falls s (h ++ [c]) ->
  omap (fun t => (t_output t, t_elapsed t))
    (timer_run TP (Timer i p o e (Signal s) (Some 0)) (h ++ [c])) =
  Ok (tc_t2 c <=? tc_pt c, Z.min (tc_pt c) (tc_t1 c)).
Proof.
  induction h as [|d h IH]; intros c i p o e s lo L C B P N;
    cbn [app clock_from never_falls] in *; destruct C as (C1 & C2 & C3); destruct N as [N1 N2];
    inversion B; subst; inversion P; subst; cbn [timer_run].
  - rewrite tp_niche_step by lia || assumption. reflexivity.
  - rewrite tp_niche_step by lia || assumption. cbn [obind].
    apply IH with (lo := tc_t2 d); trivial. lia.
Qed.

Lemma zeroed_niche_tp : forall h c,
  clock_ok (h ++ [c]) -> preset_ok (h ++ [c]) -> never_falls false (h ++ [c]) ->
  timer_out_zeroed Niche TP (h ++ [c]) = Ok (tc_t2 c <=? tc_pt c, Z.min (tc_pt c) (tc_t1 c)).
Proof.
  intros h c [C B] P N. unfold timer_out_zeroed. rewrite zeroed_niche_state.
  unfold signal_default. apply tp_niche_run with (lo := 0); trivial. lia.
Qed.
