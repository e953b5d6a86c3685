(** Proofs for TON, TOF and TP. *)
From Coq Require Import ZArith List Bool Lia.
From Verif Require Import Base ModelFB ModelTimers SpecFB ProofBase.
Import ListNotations.
Open Scope Z_scope.

(** * Generalities *)

Lemma timer_run_snoc : forall f h t c,
  timer_run f t (h ++ [c]) = obind (timer_run f t h) (fun t' => timer_call f t' c).
Proof.
  induction h as [|a h IH]; intros t c; cbn.
  - now destruct (timer_call f t c).
  - destruct (timer_call f t a); cbn; auto.
Qed.

Lemma timer_run_app : forall f h1 h2 t,
  timer_run f t (h1 ++ h2) = obind (timer_run f t h1) (fun t' => timer_run f t' h2).
Proof.
  induction h1 as [|a h IH]; intros h2 t; cbn; [reflexivity|].
  destruct (timer_call f t a); cbn; auto.
Qed.

Lemma clock_from_app : forall h1 h2 lo,
  clock_from lo (h1 ++ h2) <->
  clock_from lo h1 /\
  clock_from (match h1 with [] => lo | _ => tc_t2 (last h1 (TCall false 0 0 0)) end) h2.
Proof.
  induction h1 as [|a h IH]; intros h2 lo; cbn [app clock_from].
  - tauto.
  - rewrite IH. destruct h; cbn [last]; tauto.
Qed.

Lemma clock_from_weaken : forall h lo lo', lo' <= lo -> clock_from lo h -> clock_from lo' h.
Proof. destruct h; cbn; intros; [auto|]. intuition lia. Qed.

(** Every later reading is at least every earlier one. *)
Lemma clock_from_lower : forall h lo c, clock_from lo h -> In c h ->
  lo <= tc_t1 c /\ tc_t1 c <= tc_t2 c.
Proof.
  induction h as [|a h IH]; intros lo c H Hin; [contradiction|].
  destruct H as (A & B & C). destruct Hin as [->|Hin]; [lia|].
  specialize (IH _ _ C Hin). lia.
Qed.

Lemma clock_from_between : forall h1 f h2 c lo, clock_from lo (h1 ++ f :: h2) -> In c h2 ->
  lo <= tc_t1 f /\ tc_t1 f <= tc_t2 f /\ tc_t2 f <= tc_t1 c /\ tc_t1 c <= tc_t2 c.
Proof.
  induction h1 as [|a h1 IH]; intros f h2 c lo H Hin; cbn [app clock_from] in H.
  - destruct H as (A & B & C). pose proof (clock_from_lower _ _ _ C Hin). lia.
  - destruct H as (A & B & C). specialize (IH _ _ _ _ C Hin). lia.
Qed.

Lemma clock_ok_app_l : forall h1 h2, clock_ok (h1 ++ h2) -> clock_ok h1.
Proof.
  intros h1 h2 [A B]. apply clock_from_app in A. apply Forall_app in B. split; tauto.
Qed.

Lemma preset_ok_app_l : forall h1 h2, preset_ok (h1 ++ h2) -> preset_ok h1.
Proof. intros h1 h2 H. apply Forall_app in H. tauto. Qed.

Lemma preset_ok_last : forall h c, preset_ok (h ++ [c]) -> 0 <= tc_pt c < 2 ^ 63.
Proof. intros h c H. apply Forall_app in H. destruct H as [_ H]. now inversion H. Qed.

Definition preset_i64 (h : list tcall) : Prop :=
  Forall (fun c => - 2 ^ 63 <= tc_pt c < 2 ^ 63) h.

Lemma preset_ok_i64 : forall h, preset_ok h -> preset_i64 h.
Proof. intros h H. eapply Forall_impl; [|exact H]. cbn -[Z.pow]. intros. lia. Qed.

Lemma preset_i64_app_l : forall h1 h2, preset_i64 (h1 ++ h2) -> preset_i64 h1.
Proof. intros h1 h2 H. apply Forall_app in H. tauto. Qed.

Lemma preset_i64_last : forall h c, preset_i64 (h ++ [c]) -> - 2 ^ 63 <= tc_pt c < 2 ^ 63.
Proof. intros h c H. apply Forall_app in H. destruct H as [_ H]. now inversion H. Qed.

Lemma clock_ok_between : forall h1 f h2 c, clock_ok (h1 ++ f :: h2) -> In c h2 ->
  0 <= tc_t1 f /\ tc_t1 f <= tc_t2 f /\ tc_t2 f <= tc_t1 c /\ tc_t1 c <= tc_t2 c /\
  tc_t2 c < 2 ^ 63.
Proof.
  intros h1 f h2 c [A B] Hin. pose proof (clock_from_between _ _ _ _ _ A Hin).
  rewrite Forall_forall in B. assert (In c (h1 ++ f :: h2)).
  { apply in_or_app. right. now right. }
  specialize (B _ H0). lia.
Qed.

Lemma clock_ok_last : forall h c, clock_ok (h ++ [c]) ->
  0 <= tc_t1 c /\ tc_t1 c <= tc_t2 c /\ tc_t2 c < 2 ^ 63.
Proof.
  intros h c [A B]. rewrite Forall_forall in B.
  assert (I : In c (h ++ [c])) by (apply in_or_app; right; now left).
  specialize (B _ I). pose proof (clock_from_lower _ _ _ A I). lia.
Qed.

Lemma wrap_i64_small : forall x, - 2 ^ 63 <= x < 2 ^ 63 -> wrap i64 x = x.
Proof. intros x H. apply wrap_id; [reflexivity|]. unfold in_ity, imin, imax. cbn -[Z.pow]. lia. Qed.

Lemma wrap_u64_small : forall x, 0 <= x < 2 ^ 64 -> wrap u64 x = x.
Proof. intros x H. apply wrap_id; [reflexivity|]. unfold in_ity, imin, imax. cbn -[Z.pow]. lia. Qed.

Lemma wrap_u64_neg : forall x, - 2 ^ 63 <= x < 0 -> wrap u64 x = x + 2 ^ 64.
Proof.
  intros x H. unfold wrap. cbn -[Z.pow Z.modulo].
  rewrite <- (Z_mod_plus_full x 1 (2 ^ 64)). rewrite Z.mod_small; lia.
Qed.

(** * suffix_while *)

Lemma suffix_while_snoc : forall A (f : A -> bool) l x,
  suffix_while f (l ++ [x]) = if f x then suffix_while f l ++ [x] else [].
Proof.
  induction l as [|a l IH]; intros x; cbn.
  - destruct (f x); reflexivity.
  - rewrite forallb_app. cbn. rewrite IH.
    destruct (f a), (forallb f l) eqn:E, (f x); cbn; auto.
Qed.

Lemma suffix_while_suffix : forall A (f : A -> bool) l,
  exists p, l = p ++ suffix_while f l.
Proof.
  induction l as [|a l IH]; cbn; [now exists []|].
  destruct (f a && forallb f l); [now exists []|].
  destruct IH as [p E]. exists (a :: p). cbn. now rewrite <- E.
Qed.

Lemma suffix_while_all : forall A (f : A -> bool) l, forallb f (suffix_while f l) = true.
Proof.
  induction l as [|a l IH]; cbn; [reflexivity|].
  destruct (f a && forallb f l) eqn:E; [exact E|exact IH].
Qed.

(** * Clock reads of one run *)

Lemma elapsed_upd : forall t now s,
  t_start t = Some s -> 0 <= s -> s <= now < 2 ^ 63 ->
  update_elapsed_time t now = set_elapsed_time t (Z.min (t_preset t) (now - s)).
Proof.
  intros t now s E H0 H. unfold update_elapsed_time, get_run_time. rewrite E.
  rewrite Z.max_r by lia. rewrite wrap_i64_small by lia. reflexivity.
Qed.

Lemma in_range_eq : forall t now s,
  t_start t = Some s -> 0 <= s -> s <= now < 2 ^ 63 -> - 2 ^ 63 <= t_preset t < 2 ^ 63 ->
  is_in_preset_range t now = (t_preset t <? 0) || (now - s <=? t_preset t).
Proof.
  intros t now s E H0 H P. unfold is_in_preset_range, get_run_time. rewrite E.
  rewrite Z.max_r by lia. destruct (Z.ltb_spec (t_preset t) 0); cbn [orb].
  - rewrite wrap_u64_neg by lia. apply Z.leb_le. lia.
  - rewrite wrap_u64_small by lia. reflexivity.
Qed.

Lemma last_in_suffix_head : forall h f (r : list tcall) c,
  clock_ok (h ++ [c]) -> suffix_while f h = r ->
  forall x r', r = x :: r' ->
  0 <= tc_t1 x /\ tc_t1 x <= tc_t2 x /\ tc_t2 x <= tc_t1 c /\ tc_t1 c <= tc_t2 c /\
  tc_t2 c < 2 ^ 63.
Proof.
  intros h f r c H E x r' Er. destruct (suffix_while_suffix _ f h) as [p Ep].
  rewrite E, Er in Ep. rewrite Ep, <- app_assoc in H. cbn in H.
  apply (clock_ok_between p x (r' ++ [c]) c H). apply in_or_app. right. now left.
Qed.

(** * TON *)

(** State of a TON after a history. *)
Definition ton_state_ok (h : list tcall) (t : timer) : Prop :=
  match suffix_while tc_in h with
  | [] => t_start t = None /\ t_edge t = Signal false /\ t_output t = false /\ t_elapsed t = 0
  | f :: _ => t_start t = Some (tc_t1 f) /\ t_edge t = Signal true
  end.

Definition ton_spec (h : list tcall) (c : tcall) : bool * Z :=
  match suffix_while tc_in (h ++ [c]) with
  | [] => (false, 0)
  | [_] => (false, 0)
  | f :: _ => (negb ((tc_pt c <? 0) || (tc_t2 c - tc_t1 f <=? tc_pt c)),
                Z.min (tc_pt c) (tc_t1 c - tc_t1 f))
  end.

Lemma ton_step : forall h c t, clock_ok (h ++ [c]) -> - 2 ^ 63 <= tc_pt c < 2 ^ 63 ->
  ton_state_ok h t ->
  exists t', timer_call TON t c = Ok t' /\ ton_state_ok (h ++ [c]) t' /\
    (t_output t', t_elapsed t') = ton_spec h c.
Proof.
  intros h c t Hc Hp Ht. unfold ton_state_ok, ton_spec in *.
  rewrite suffix_while_snoc. pose proof (last_in_suffix_head h tc_in _ c Hc eq_refl) as Hb.
  destruct (suffix_while tc_in h) as [|f r].
  - destruct Ht as (A & B & _ & _). unfold timer_call, TON. cbn -[update_elapsed_time].
    unfold is_running, input_rising_edge. cbn. rewrite A, B.
    destruct (tc_in c); cbn; eexists; repeat split.
  - destruct Ht as (A & B). specialize (Hb f r eq_refl).
    unfold timer_call, TON. cbn -[update_elapsed_time is_in_preset_range].
    destruct (tc_in c) eqn:Ei.
    + unfold is_running at 1. cbn -[update_elapsed_time is_in_preset_range]. rewrite A.
      rewrite (elapsed_upd _ _ (tc_t1 f)) by (cbn; auto; lia).
      rewrite (in_range_eq _ _ (tc_t1 f)) by (cbn; auto; lia). cbn -[Z.sub Z.leb Z.ltb].
      eexists. split; [reflexivity|]. cbn -[Z.sub Z.leb Z.ltb].
      split; [now split|]. destruct r; reflexivity.
    + eexists. split; [reflexivity|]. cbn. repeat split.
Qed.

Lemma ton_inv : forall h, clock_ok h -> preset_i64 h ->
  exists t, timer_run TON timer_default h = Ok t /\ ton_state_ok h t.
Proof.
  induction h as [|c h IH] using rev_ind; intros Hc Hp.
  - exists timer_default. cbn. repeat split.
  - destruct IH as (t & E & S); eauto using clock_ok_app_l, preset_i64_app_l.
    destruct (ton_step h c t Hc (preset_i64_last _ _ Hp) S) as (t' & E' & S' & _).
    exists t'. rewrite timer_run_snoc, E. split; auto.
Qed.

Lemma ton_gen : forall h c, clock_ok (h ++ [c]) -> preset_i64 (h ++ [c]) ->
  timer_out TON (h ++ [c]) = Ok (ton_spec h c).
Proof.
  intros h c Hc Hp. destruct (ton_inv h) as (t & E & S);
    eauto using clock_ok_app_l, preset_i64_app_l.
  destruct (ton_step h c t Hc (preset_i64_last _ _ Hp) S) as (t' & E' & _ & V).
  unfold timer_out. rewrite timer_run_snoc, E. cbn. rewrite E'. cbn. now rewrite V.
Qed.

Lemma ton_lemma : forall h c, clock_ok (h ++ [c]) -> preset_ok (h ++ [c]) ->
  timer_out TON (h ++ [c]) = Ok
    match suffix_while tc_in (h ++ [c]) with
    | [] => (false, 0)
    | [_] => (false, 0)
    | f :: _ => (tc_pt c <? tc_t2 c - tc_t1 f, Z.min (tc_pt c) (tc_t1 c - tc_t1 f))
    end.
Proof.
  intros h c Hc Hp. rewrite ton_gen by auto using preset_ok_i64. unfold ton_spec.
  apply preset_ok_last in Hp.
  replace (tc_pt c <? 0) with false by (symmetry; apply Z.ltb_ge; lia). cbn [orb].
  destruct (suffix_while tc_in (h ++ [c])) as [|f [|g r]]; try reflexivity.
  now rewrite <- Z.ltb_antisym.
Qed.

(** * TOF *)

Definition tc_off (c : tcall) : bool := negb (tc_in c).

Definition tof_state_ok (h : list tcall) (t : timer) : Prop :=
  match suffix_while tc_off h with
  | [] => t_start t = None /\ t_elapsed t = 0 /\ t_edge t = Signal (negb (forallb tc_off h))
  | f :: r =>
      t_edge t = Signal false /\
      if forallb tc_off h then t_start t = None /\ t_elapsed t = 0
      else t_start t = Some (tc_t1 f)
  end.

Definition tof_spec (h : list tcall) (c : tcall) : bool * Z :=
  if tc_in c then (true, 0)
  else if existsb tc_in h then
    match suffix_while tc_off (h ++ [c]) with
    | [] => (true, 0)
    | [_] => (true, 0)
    | f :: _ => ((tc_pt c <? 0) || (tc_t2 c - tc_t1 f <=? tc_pt c),
                Z.min (tc_pt c) (tc_t1 c - tc_t1 f))
    end
  else (false, 0).

Lemma existsb_forallb_off : forall h, existsb tc_in h = negb (forallb tc_off h).
Proof.
  induction h as [|a h IH]; [reflexivity|]. cbn. rewrite IH. unfold tc_off at 2.
  now destruct (tc_in a), (forallb tc_off h).
Qed.

Lemma suffix_while_all_id : forall A (f : A -> bool) l,
  forallb f l = true -> suffix_while f l = l.
Proof. intros A f [|a l] H; [reflexivity|]. cbn [suffix_while]. now rewrite H. Qed.

Lemma tof_step : forall h c t, clock_ok (h ++ [c]) -> - 2 ^ 63 <= tc_pt c < 2 ^ 63 ->
  tof_state_ok h t ->
  exists t', timer_call TOF t c = Ok t' /\ tof_state_ok (h ++ [c]) t' /\
    (t_output t', t_elapsed t') = tof_spec h c.
Proof.
  intros h c t Hc Hp Ht. unfold tof_state_ok, tof_spec in *.
  rewrite existsb_forallb_off.
  rewrite suffix_while_snoc. pose proof (last_in_suffix_head h tc_off _ c Hc eq_refl) as Hb.
  pose proof (suffix_while_all_id _ tc_off h) as Hid.
  rewrite forallb_app. cbn [forallb]. rewrite andb_true_r. rewrite (eq_refl : tc_off c = negb (tc_in c)).
  destruct (suffix_while tc_off h) as [|f r] eqn:Es.
  - destruct Ht as (A & B & C). unfold timer_call, TOF. cbn -[update_elapsed_time].
    unfold is_running, input_rising_edge, input_falling_edge. cbn. rewrite A, C. cbn.
    destruct (tc_in c) eqn:Ei; cbn.
    + destruct (forallb tc_off h) eqn:Eh; cbn; (eexists; split; [reflexivity|]; cbn).
      * repeat split.
      * rewrite ?B, ?A. repeat split.
    + destruct (forallb tc_off h) eqn:Eh; cbn; (eexists; split; [reflexivity|]; cbn).
      * rewrite ?A, ?B. repeat split.
      * repeat split.
  - destruct Ht as (C & D). specialize (Hb f r eq_refl).
    unfold timer_call, TOF. cbn -[update_elapsed_time is_in_preset_range].
    unfold input_rising_edge, input_falling_edge.
    cbn -[update_elapsed_time is_in_preset_range]. rewrite C.
    destruct (tc_in c) eqn:Ei; cbn -[update_elapsed_time is_in_preset_range].
    + eexists. split; [reflexivity|]. cbn. rewrite andb_false_r. repeat split.
    + rewrite andb_true_r.
      unfold is_running. cbn -[update_elapsed_time is_in_preset_range].
      destruct (forallb tc_off h) eqn:Eh.
      * destruct D as (A & B). rewrite A. eexists. split; [reflexivity|]. cbn.
        rewrite ?A, ?B. repeat split.
      * rewrite D.
        rewrite (elapsed_upd _ _ (tc_t1 f)) by (cbn; auto; lia).
        rewrite (in_range_eq _ _ (tc_t1 f)) by (cbn; auto; lia). cbn -[Z.sub Z.leb Z.ltb].
        eexists. split; [reflexivity|]. cbn -[Z.sub Z.leb Z.ltb].
        split; [now repeat split|]. destruct r; reflexivity.
Qed.

Lemma tof_inv : forall h, clock_ok h -> preset_i64 h ->
  exists t, timer_run TOF timer_default h = Ok t /\ tof_state_ok h t.
Proof.
  induction h as [|c h IH] using rev_ind; intros Hc Hp.
  - exists timer_default. cbn. repeat split.
  - destruct IH as (t & E & S); eauto using clock_ok_app_l, preset_i64_app_l.
    destruct (tof_step h c t Hc (preset_i64_last _ _ Hp) S) as (t' & E' & S' & _).
    exists t'. rewrite timer_run_snoc, E. split; auto.
Qed.

Lemma tof_gen : forall h c, clock_ok (h ++ [c]) -> preset_i64 (h ++ [c]) ->
  timer_out TOF (h ++ [c]) = Ok (tof_spec h c).
Proof.
  intros h c Hc Hp. destruct (tof_inv h) as (t & E & S);
    eauto using clock_ok_app_l, preset_i64_app_l.
  destruct (tof_step h c t Hc (preset_i64_last _ _ Hp) S) as (t' & E' & _ & V).
  unfold timer_out. rewrite timer_run_snoc, E. cbn. rewrite E'. cbn. now rewrite V.
Qed.

Lemma tof_lemma : forall h c, clock_ok (h ++ [c]) -> preset_ok (h ++ [c]) ->
  timer_out TOF (h ++ [c]) = Ok
    (if tc_in c then (true, 0)
     else if existsb tc_in h then
       match suffix_while (fun d => negb (tc_in d)) (h ++ [c]) with
       | [] => (true, 0)
       | [_] => (true, 0)
       | f :: _ => (tc_t2 c - tc_t1 f <=? tc_pt c, Z.min (tc_pt c) (tc_t1 c - tc_t1 f))
       end
     else (false, 0)).
Proof.
  intros h c Hc Hp. rewrite tof_gen by auto using preset_ok_i64. unfold tof_spec.
  apply preset_ok_last in Hp.
  replace (tc_pt c <? 0) with false by (symmetry; apply Z.ltb_ge; lia). cbn [orb].
  reflexivity.
Qed.
