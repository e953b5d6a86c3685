(** Proofs for TP and the properties common to all timers. *)
From Coq Require Import ZArith List Bool Lia.
From Verif Require Import Base ModelFB ModelTimers SpecFB ProofBase ProofTimers.
Import ListNotations.
Open Scope Z_scope.

Definition lvl (h : list tcall) : bool :=
  match rev h with [] => false | c :: _ => tc_in c end.

Lemma lvl_snoc : forall h c, lvl (h ++ [c]) = tc_in c.
Proof. intros. unfold lvl. now rewrite rev_app_distr. Qed.

Definition in_rng (t : timer) (c : tcall) : bool :=
  is_in_preset_range
    (Timer (tc_in c) (tc_pt c) (t_output t) (t_elapsed t) (t_edge t) (t_start t)) (tc_t2 c).

(** Case analysis of one TP call. *)
Lemma tp_call_cases : forall t c, exists o e,
  timer_call TP t c =
  match t_start t with
  | Some s =>
      if in_rng t c then
        Ok (Timer (tc_in c) (tc_pt c) true (Z.min (tc_pt c) (wrap i64 (Z.max 0 (tc_t1 c - s))))
              (Signal (tc_in c)) (Some s))
      else if current_value (t_edge t) && negb (tc_in c) then
        Ok (Timer (tc_in c) (tc_pt c) false 0 (Signal (tc_in c)) None)
      else
        Ok (Timer (tc_in c) (tc_pt c) false (Z.min (tc_pt c) (wrap i64 (Z.max 0 (tc_t1 c - s))))
              (Signal (tc_in c)) (Some s))
  | None =>
      if tc_in c && negb (current_value (t_edge t)) then
        Ok (Timer (tc_in c) (tc_pt c) true 0 (Signal (tc_in c)) (Some (tc_t1 c)))
      else Panic
  end /\ o = t_output t /\ e = t_elapsed t.
Proof.
  intros [i p o e [ed] [s|]] [inp pt t1 t2]; exists o, e; (split; [|split; reflexivity]);
    unfold timer_call, TP, in_rng, is_in_preset_range, get_run_time; cbn -[Z.sub wrap].
  - destruct (Z.max 0 (t2 - s) <=? wrap u64 pt); cbn -[Z.sub wrap]; [reflexivity|].
    destruct inp, ed; reflexivity.
  - destruct inp, ed; reflexivity.
Qed.

Lemma tp_call_eq : forall t c,
  timer_call TP t c =
  match t_start t with
  | Some s =>
      if in_rng t c then
        Ok (Timer (tc_in c) (tc_pt c) true (Z.min (tc_pt c) (wrap i64 (Z.max 0 (tc_t1 c - s))))
              (Signal (tc_in c)) (Some s))
      else if current_value (t_edge t) && negb (tc_in c) then
        Ok (Timer (tc_in c) (tc_pt c) false 0 (Signal (tc_in c)) None)
      else
        Ok (Timer (tc_in c) (tc_pt c) false (Z.min (tc_pt c) (wrap i64 (Z.max 0 (tc_t1 c - s))))
              (Signal (tc_in c)) (Some s))
  | None =>
      if tc_in c && negb (current_value (t_edge t)) then
        Ok (Timer (tc_in c) (tc_pt c) true 0 (Signal (tc_in c)) (Some (tc_t1 c)))
      else Panic
  end.
Proof. intros t c. destruct (tp_call_cases t c) as (o & e & H & _). exact H. Qed.

Lemma falling_snoc : forall h c, ends_with_falling_in (h ++ [c]) <->
  lvl h = true /\ tc_in c = false.
Proof.
  intros h c. split.
  - intros (h' & p & l & E & Hp & Hl).
    assert (E' : h ++ [c] = (h' ++ [p]) ++ [l]) by (rewrite E, <- app_assoc; reflexivity).
    apply app_inj_tail in E'. destruct E' as [-> ->]. now rewrite lvl_snoc.
  - intros [A B]. destruct (snoc_cases _ h) as [->|(h' & p & ->)]; [discriminate|].
    exists h', p, c. rewrite lvl_snoc in A. rewrite <- app_assoc. now repeat split.
Qed.

Lemma snoc_nil : forall A (h : list A) c, h ++ [c] <> [].
Proof. intros A [|a h] c; discriminate. Qed.

Lemma tp_inv : forall h t, timer_run TP timer_default h = Ok t ->
  t_edge t = Signal (lvl h) /\
  (t_start t = None <-> h = [] \/ (ends_with_falling_in h /\ t_output t = false)) /\
  (t_start t = None -> t_edge t = Signal false /\ t_output t = false /\ t_elapsed t = 0).
Proof.
  induction h as [|c h IH] using rev_ind; intros t E.
  - injection E as <-. cbn. repeat split; auto.
  - rewrite timer_run_snoc in E. apply obind_ok in E. destruct E as (t0 & E0 & E).
    destruct (IH t0 E0) as (He & Hs & Hn).
    rewrite tp_call_eq in E. rewrite lvl_snoc, falling_snoc. rewrite He in E. cbn in E.
    destruct (t_start t0) as [s|].
    + destruct (in_rng t0 c).
      * injection E as <-. cbn. split; [reflexivity|]. split; [|discriminate].
        split; [discriminate|]. intros [A|[_ A]]; [now apply snoc_nil in A|discriminate].
      * destruct (lvl h) eqn:El, (tc_in c) eqn:Ei; cbn in E; injection E as <-; cbn;
          (split; [reflexivity|]);
          (split; [|discriminate || (intros; repeat split; reflexivity)]);
          (split; [discriminate || (intros _; right; repeat split; reflexivity)|]);
          try reflexivity; intros [A|[[A B] _]]; try discriminate; now apply snoc_nil in A.
    + destruct Hn as (Hn & _ & _); [reflexivity|]. rewrite He in Hn. injection Hn as Hn.
      rewrite Hn in E. rewrite andb_true_r in E.
      destruct (tc_in c) eqn:Ei; [|discriminate]. injection E as <-. cbn.
      split; [reflexivity|]. split; [|discriminate]. split; [discriminate|].
      intros [A|[[A B] _]]; [now apply snoc_nil in A|discriminate].
Qed.

Lemma timer_out_ok : forall f h q e, timer_out f h = Ok (q, e) ->
  exists t, timer_run f timer_default h = Ok t /\ t_output t = q /\ t_elapsed t = e.
Proof.
  intros f h q e H. unfold timer_out in H.
  destruct (timer_run f timer_default h) as [t| |]; try discriminate.
  injection H as <- <-. now exists t.
Qed.

Lemma timer_out_run : forall f h t, timer_run f timer_default h = Ok t ->
  timer_out f h = Ok (t_output t, t_elapsed t).
Proof. intros f h t H. unfold timer_out. now rewrite H. Qed.

(** C12: exact abort condition *)
Lemma tp_panic_lemma : forall h c q e, timer_out TP h = Ok (q, e) ->
  (timer_out TP (h ++ [c]) = Panic <->
   tc_in c = false /\ (h = [] \/ (ends_with_falling_in h /\ q = false))) /\
  timer_out TP (h ++ [c]) <> Ub.
Proof.
  intros h c q e H. apply timer_out_ok in H. destruct H as (t & E & <- & <-).
  destruct (tp_inv h t E) as (He & Hs & Hn).
  unfold timer_out. rewrite timer_run_snoc, E. cbn [obind]. rewrite tp_call_eq.
  rewrite <- Hs. destruct (t_start t) as [s|].
  - destruct (in_rng t c); [|destruct (_ && _)]; cbn; (split; [split|]); try discriminate;
      intros [_ A]; discriminate.
  - destruct Hn as (Hn & _ & _); [reflexivity|]. rewrite Hn. cbn. rewrite andb_true_r.
    destruct (tc_in c); cbn; (split; [split|]); try discriminate; auto. intros [A _]. discriminate.
Qed.

(** * Running pulses *)

Definition last2 (h : list tcall) : Z :=
  match rev h with [] => 0 | c :: _ => tc_t2 c end.

Lemma last2_snoc : forall h c, last2 (h ++ [c]) = tc_t2 c.
Proof. intros. unfold last2. now rewrite rev_app_distr. Qed.

Lemma clock_ok_step : forall h c, clock_ok (h ++ [c]) ->
  last2 h <= tc_t1 c /\ 0 <= tc_t1 c /\ tc_t1 c <= tc_t2 c /\ tc_t2 c < 2 ^ 63.
Proof.
  intros h c H. pose proof (clock_ok_last h c H).
  destruct (snoc_cases _ h) as [->|(h' & p & ->)]; [cbn; lia|].
  rewrite last2_snoc. rewrite <- app_assoc in H.
  pose proof (clock_ok_between h' p [c] c H (or_introl eq_refl)). lia.
Qed.

(** The start time of a running TP lies in the past. *)
Lemma tp_start_past : forall h t s, clock_ok h ->
  timer_run TP timer_default h = Ok t -> t_start t = Some s -> 0 <= s <= last2 h.
Proof.
  induction h as [|c h IH] using rev_ind; intros t s Hc E Hs.
  - injection E as <-. discriminate.
  - rewrite timer_run_snoc in E. apply obind_ok in E. destruct E as (t0 & E0 & E).
    pose proof (clock_ok_step _ _ Hc). apply clock_ok_app_l in Hc.
    specialize (IH t0). rewrite tp_call_eq in E. rewrite last2_snoc.
    destruct (t_start t0) as [s0|].
    + specialize (IH s0 Hc E0 eq_refl).
      destruct (in_rng t0 c); [|destruct (_ && _)]; injection E as <-; cbn in Hs;
        try discriminate; injection Hs as <-; lia.
    + destruct (_ && _); [|discriminate]. injection E as <-. cbn in Hs. injection Hs as <-. lia.
Qed.

Lemma tp_in_rng : forall h t s c, clock_ok (h ++ [c]) -> - 2 ^ 63 <= tc_pt c < 2 ^ 63 ->
  timer_run TP timer_default h = Ok t -> t_start t = Some s ->
  in_rng t c = (tc_pt c <? 0) || (tc_t2 c - s <=? tc_pt c).
Proof.
  intros h t s c Hc Hp E Hs. pose proof (clock_ok_step _ _ Hc).
  pose proof (tp_start_past h t s (clock_ok_app_l _ _ Hc) E Hs).
  unfold in_rng. rewrite (in_range_eq _ _ s); cbn; auto; lia.
Qed.

Lemma tp_elapsed : forall h t s c, clock_ok (h ++ [c]) ->
  timer_run TP timer_default h = Ok t -> t_start t = Some s ->
  wrap i64 (Z.max 0 (tc_t1 c - s)) = tc_t1 c - s /\ 0 <= tc_t1 c - s.
Proof.
  intros h t s c Hc E Hs. pose proof (clock_ok_step _ _ Hc).
  pose proof (tp_start_past h t s (clock_ok_app_l _ _ Hc) E Hs).
  rewrite Z.max_r by lia. rewrite wrap_i64_small by lia. lia.
Qed.

Lemma constant_pt_app : forall pt h1 h2, constant_pt pt (h1 ++ h2) <->
  constant_pt pt h1 /\ constant_pt pt h2.
Proof. intros. apply Forall_app. Qed.

(** With a constant preset, a running timer whose output is FALSE is past its preset. *)
Lemma tp_expired : forall pt h t s, clock_ok h -> constant_pt pt h -> 0 <= pt < 2 ^ 63 ->
  timer_run TP timer_default h = Ok t -> t_start t = Some s -> t_output t = false ->
  pt < last2 h - s.
Proof.
  intros pt h t s. destruct (snoc_cases _ h) as [->|(h' & c & ->)]; intros Hc Hpt Hp E Hs Ho.
  - injection E as <-. discriminate.
  - rewrite timer_run_snoc in E. apply obind_ok in E. destruct E as (t0 & E0 & E).
    apply constant_pt_app in Hpt. destruct Hpt as [Hpt Hpc].
    inversion Hpc as [|? ? Hpc' _]; subst.
    rewrite tp_call_eq in E. rewrite last2_snoc.
    destruct (t_start t0) as [s0|] eqn:Es0.
    + rewrite (tp_in_rng h' t0 s0 c) in E by (auto; lia).
      destruct (Z.ltb_spec (tc_pt c) 0) as [|_]; [lia|]. cbn [orb] in E.
      destruct (Z.leb_spec (tc_t2 c - s0) (tc_pt c)).
      * injection E as <-. discriminate.
      * destruct (_ && _); injection E as <-; cbn in Hs; try discriminate.
        injection Hs as <-. lia.
    + destruct (_ && _); [|discriminate]. injection E as <-. discriminate.
Qed.

(** A call that raises Q starts a new run. *)
Lemma tp_start_lemma : forall pt h c t t', clock_ok (h ++ [c]) -> constant_pt pt (h ++ [c]) ->
  0 <= pt < 2 ^ 63 ->
  timer_run TP timer_default h = Ok t -> t_output t = false ->
  timer_run TP timer_default (h ++ [c]) = Ok t' -> t_output t' = true ->
  t_start t = None /\ t_start t' = Some (tc_t1 c) /\ t_elapsed t' = 0 /\ tc_in c = true.
Proof.
  intros pt h c t t' Hc Hpt Hp E Ho E' Ho'.
  rewrite timer_run_snoc, E in E'. cbn [obind] in E'.
  apply constant_pt_app in Hpt. destruct Hpt as [Hpt Hpc].
  inversion Hpc as [|? ? Hpc' _]; subst.
  rewrite tp_call_eq in E'.
  destruct (t_start t) as [s|] eqn:Es.
  - pose proof (tp_expired _ h t s (clock_ok_app_l _ _ Hc) Hpt Hp E Es Ho) as Hx.
    pose proof (clock_ok_step _ _ Hc).
    rewrite (tp_in_rng h t s c) in E' by (auto; lia).
    destruct (Z.ltb_spec (tc_pt c) 0) as [|_]; [lia|]. cbn [orb] in E'.
    destruct (Z.leb_spec (tc_t2 c - s) (tc_pt c)); [lia|].
    destruct (_ && _); injection E' as <-; discriminate.
  - destruct (tc_in c && _) eqn:Ea; [|discriminate]. apply andb_true_iff in Ea.
    injection E' as <-. cbn. repeat split. apply Ea.
Qed.

Lemma tp_pulse_lemma : forall pt h0 f mid c e0 e1,
  clock_ok (h0 ++ f :: mid ++ [c]) -> constant_pt pt (h0 ++ f :: mid ++ [c]) ->
  0 <= pt < 2 ^ 63 ->
  timer_out TP h0 = Ok (false, e0) ->
  timer_out TP (h0 ++ [f]) = Ok (true, e1) ->
  Forall (fun d => tc_t2 d <= tc_t1 f + pt) mid ->
  e1 = 0 /\
  timer_out TP (h0 ++ f :: mid ++ [c]) = Ok
    (if tc_t2 c <=? tc_t1 f + pt then (true, tc_t1 c - tc_t1 f)
     else (false, if tc_in (last mid f) && negb (tc_in c) then 0
                  else Z.min pt (tc_t1 c - tc_t1 f))).
Proof.
  intros pt h0 f mid c e0 e1 Hc Hpt Hp H0 H1 Hm.
  apply timer_out_ok in H0, H1. destruct H0 as (t0 & E0 & O0 & _).
  destruct H1 as (t1 & E1 & O1 & L1).
  assert (Hst : t_start t0 = None /\ t_start t1 = Some (tc_t1 f) /\ t_elapsed t1 = 0
                /\ tc_in f = true).
  { apply (tp_start_lemma pt h0 f t0 t1); auto.
    - replace (h0 ++ f :: mid ++ [c]) with ((h0 ++ [f]) ++ mid ++ [c]) in Hc
        by now rewrite <- app_assoc.
      now apply clock_ok_app_l in Hc.
    - replace (h0 ++ f :: mid ++ [c]) with ((h0 ++ [f]) ++ mid ++ [c]) in Hpt
        by now rewrite <- app_assoc.
      now apply constant_pt_app in Hpt. }
  destruct Hst as (_ & Hs1 & Hz & Hin). split; [congruence|].
  assert (Hrun : exists t, timer_run TP timer_default (h0 ++ f :: mid) = Ok t /\
            t_start t = Some (tc_t1 f) /\ t_edge t = Signal (tc_in (last mid f))).
  { assert (Hc' : clock_ok (h0 ++ f :: mid)).
    { rewrite app_comm_cons, app_assoc in Hc. now apply clock_ok_app_l in Hc. }
    assert (Hpt' : constant_pt pt (h0 ++ f :: mid)).
    { rewrite app_comm_cons, app_assoc in Hpt. now apply constant_pt_app in Hpt. }
    clear Hc Hpt c. induction mid as [|d mid IH] using rev_ind.
    - exists t1. split; [exact E1|]. split; [exact Hs1|].
      destruct (tp_inv _ _ E1) as (He & _). rewrite He, lvl_snoc. cbn. reflexivity.
    - apply Forall_app in Hm. destruct Hm as [Hm Hd]. inversion Hd as [|? ? Hd' _]; subst.
      rewrite app_comm_cons, app_assoc in Hc', Hpt'.
      apply constant_pt_app in Hpt'. destruct Hpt' as [Hpt' Hpd].
      inversion Hpd as [|? ? Hpd' _]; subst.
      destruct IH as (t & E & S & Ed); eauto using clock_ok_app_l.
      rewrite app_comm_cons, app_assoc.
      rewrite timer_run_snoc, E. cbn [obind]. rewrite tp_call_eq, S.
      erewrite (tp_in_rng _ t (tc_t1 f) d) by (eauto; lia).
      destruct (Z.ltb_spec (tc_pt d) 0) as [|_]; [lia|]. cbn [orb].
      destruct (Z.leb_spec (tc_t2 d - tc_t1 f) (tc_pt d)); [|lia].
      eexists. split; [reflexivity|]. cbn. rewrite last_last. split; reflexivity. }
  destruct Hrun as (t & E & S & Ed).
  rewrite app_comm_cons, app_assoc in Hc, Hpt |- *.
  apply constant_pt_app in Hpt. destruct Hpt as [Hpt Hpc].
  inversion Hpc as [|? ? Hpc' _]; subst.
  unfold timer_out. rewrite timer_run_snoc, E. cbn [obind]. rewrite tp_call_eq, S.
  erewrite (tp_in_rng _ t (tc_t1 f) c) by (eauto; lia).
  destruct (tp_elapsed _ t (tc_t1 f) c Hc E S) as [-> Hel].
  destruct (Z.ltb_spec (tc_pt c) 0) as [|_]; [lia|]. cbn [orb]. rewrite Ed. cbn [current_value].
  pose proof (clock_ok_step _ _ Hc).
  destruct (Z.leb_spec (tc_t2 c - tc_t1 f) (tc_pt c)), (Z.leb_spec (tc_t2 c) (tc_t1 f + tc_pt c));
    try lia.
  - cbn -[Z.sub Z.min]. do 2 f_equal. lia.
  - destruct (tc_in (last mid f) && negb (tc_in c)); reflexivity.
Qed.

(** C13: exact restart condition *)
Lemma tp_restart_lemma : forall pt h c e, clock_ok (h ++ [c]) -> constant_pt pt (h ++ [c]) ->
  0 <= pt < 2 ^ 63 ->
  timer_out TP h = Ok (false, e) ->
  (h = [] \/ exists h' l, h = h' ++ [l] /\ tc_in l = false) ->
  tc_in c = true ->
  (h = [] \/ ends_with_falling_in h -> timer_out TP (h ++ [c]) = Ok (true, 0)) /\
  (~ (h = [] \/ ends_with_falling_in h) -> timer_out TP (h ++ [c]) = Ok (false, pt)).
Proof.
  intros pt h c e Hc Hpt Hp H Hl Hin. apply timer_out_ok in H. destruct H as (t & E & O & _).
  destruct (tp_inv h t E) as (He & Hs & Hn).
  unfold timer_out. rewrite timer_run_snoc, E. cbn [obind]. rewrite tp_call_eq, Hin.
  assert (Hlv : lvl h = false).
  { destruct Hl as [->|(h' & l & -> & A)]; [reflexivity|]. now rewrite lvl_snoc. }
  rewrite He, Hlv. cbn [current_value]. split; intros A.
  - assert (Ht : t_start t = None).
    { apply Hs. destruct A; auto. }
    rewrite Ht. reflexivity.
  - destruct (t_start t) as [s|] eqn:Es.
    + apply constant_pt_app in Hpt. destruct Hpt as [Hpt Hpc].
      inversion Hpc as [|? ? Hpc' _]; subst.
      pose proof (tp_expired _ h t s (clock_ok_app_l _ _ Hc) Hpt Hp E Es O) as Hx.
      pose proof (clock_ok_step _ _ Hc).
      rewrite (tp_in_rng h t s c) by (auto; lia).
      destruct (tp_elapsed _ t s c Hc E Es) as [-> Hel].
      destruct (Z.ltb_spec (tc_pt c) 0) as [|_]; [lia|]. cbn [orb].
      destruct (Z.leb_spec (tc_t2 c - s) (tc_pt c)); [lia|].
      cbn -[Z.min Z.sub]. do 2 f_equal. lia.
    + exfalso. apply A. destruct (proj1 Hs eq_refl) as [->|[B _]]; auto.
Qed.

(** * C14 *)

Lemma ton_et : forall h c q e, clock_ok (h ++ [c]) -> preset_ok (h ++ [c]) ->
  timer_out TON (h ++ [c]) = Ok (q, e) -> 0 <= e <= tc_pt c.
Proof.
  intros h c q e Hc Hp. rewrite ton_lemma by assumption. apply preset_ok_last in Hp as Hp'.
  rewrite suffix_while_snoc. pose proof (last_in_suffix_head h tc_in _ c Hc eq_refl) as Hb.
  destruct (tc_in c); [|intros H; injection H as <- <-; lia].
  destruct (suffix_while tc_in h) as [|f r]; cbn -[Z.min Z.sub Z.ltb].
  - intros H; injection H as <- <-; lia.
  - specialize (Hb f r eq_refl). destruct r; cbn -[Z.min Z.sub Z.ltb];
      intros H; injection H as <- <-; lia.
Qed.

Lemma tof_et : forall h c q e, clock_ok (h ++ [c]) -> preset_ok (h ++ [c]) ->
  timer_out TOF (h ++ [c]) = Ok (q, e) -> 0 <= e <= tc_pt c.
Proof.
  intros h c q e Hc Hp. rewrite tof_lemma by assumption. apply preset_ok_last in Hp as Hp'.
  rewrite suffix_while_snoc.
  pose proof (last_in_suffix_head h (fun d => negb (tc_in d)) _ c Hc eq_refl) as Hb.
  destruct (tc_in c); [intros H; injection H as <- <-; lia|]. cbn [negb].
  destruct (existsb tc_in h); [|intros H; injection H as <- <-; lia].
  destruct (suffix_while _ h) as [|f r]; cbn -[Z.min Z.sub Z.leb].
  - intros H; injection H as <- <-; lia.
  - specialize (Hb f r eq_refl). destruct r; cbn -[Z.min Z.sub Z.leb];
      intros H; injection H as <- <-; lia.
Qed.

Lemma tp_et : forall h c q e, clock_ok (h ++ [c]) -> preset_ok (h ++ [c]) ->
  timer_out TP (h ++ [c]) = Ok (q, e) -> 0 <= e <= tc_pt c.
Proof.
  intros h c q e Hc Hp H. apply preset_ok_last in Hp.
  apply timer_out_ok in H. destruct H as (t' & E & <- & <-).
  rewrite timer_run_snoc in E. apply obind_ok in E. destruct E as (t & E0 & E).
  rewrite tp_call_eq in E. destruct (t_start t) as [s|] eqn:Es.
  - destruct (tp_elapsed _ t s c Hc E0 Es) as [Hw Hel]. rewrite Hw in E.
    destruct (in_rng t c); [|destruct (_ && _)]; injection E as <-; cbn -[Z.sub]; lia.
  - destruct (_ && _); [|discriminate]. injection E as <-. cbn. lia.
Qed.

Lemma suffix_head_snoc : forall A (f : A -> bool) h c,
  f c = true -> suffix_while f (h ++ [c]) = suffix_while f h ++ [c].
Proof. intros A f h c H. now rewrite suffix_while_snoc, H. Qed.

Lemma ton_monotone : forall pt h c d, 
  let h2 := (h ++ [c]) ++ [d] in
  clock_ok h2 -> preset_ok h2 -> constant_pt pt h2 ->
  tc_in c = true -> tc_in d = true ->
  et_of (timer_out TON (h ++ [c])) <= et_of (timer_out TON h2).
Proof.
  intros pt h c d h2 Hc Hp Hpt Ic Id. subst h2.
  rewrite !ton_lemma by eauto using clock_ok_app_l, preset_ok_app_l.
  apply constant_pt_app in Hpt. destruct Hpt as [Hpt Hpd]. inversion Hpd as [|? ? Hpd' _].
  apply constant_pt_app in Hpt. destruct Hpt as [_ Hpc]. inversion Hpc as [|? ? Hpc' _].
  rewrite (suffix_head_snoc _ _ (h ++ [c]) d), (suffix_head_snoc _ _ h c) by assumption.
  pose proof (last_in_suffix_head (h ++ [c]) tc_in _ d Hc eq_refl) as Hd.
  rewrite (suffix_head_snoc _ _ h c) in Hd by assumption.
  pose proof (last_in_suffix_head h tc_in _ c (clock_ok_app_l _ _ Hc) eq_refl) as Hb.
  apply preset_ok_last in Hp. pose proof (clock_ok_step _ _ Hc) as Hs. rewrite last2_snoc in Hs.
  destruct (suffix_while tc_in h) as [|f [|g r]]; cbn -[Z.min Z.sub Z.ltb] in *.
  - specialize (Hd c [] eq_refl). lia.
  - specialize (Hd f [c] eq_refl). specialize (Hb f [] eq_refl). lia.
  - specialize (Hd f (g :: r ++ [c]) eq_refl). specialize (Hb f (g :: r) eq_refl). lia.
Qed.

Lemma tof_monotone : forall pt h c d, 
  let h2 := (h ++ [c]) ++ [d] in
  clock_ok h2 -> preset_ok h2 -> constant_pt pt h2 ->
  tc_in c = false -> tc_in d = false ->
  et_of (timer_out TOF (h ++ [c])) <= et_of (timer_out TOF h2).
Proof.
  intros pt h c d h2 Hc Hp Hpt Ic Id. subst h2.
  rewrite !tof_lemma by eauto using clock_ok_app_l, preset_ok_app_l.
  rewrite existsb_app. cbn [existsb]. rewrite Ic, Id, !orb_false_r.
  apply constant_pt_app in Hpt. destruct Hpt as [Hpt Hpd]. inversion Hpd as [|? ? Hpd' _].
  apply constant_pt_app in Hpt. destruct Hpt as [_ Hpc]. inversion Hpc as [|? ? Hpc' _].
  set (off := fun d => negb (tc_in d)) in *.
  assert (Oc : off c = true) by (unfold off; now rewrite Ic).
  assert (Od : off d = true) by (unfold off; now rewrite Id).
  rewrite (suffix_head_snoc _ _ (h ++ [c]) d), (suffix_head_snoc _ _ h c) by assumption.
  pose proof (last_in_suffix_head (h ++ [c]) off _ d Hc eq_refl) as Hd.
  rewrite (suffix_head_snoc _ _ h c) in Hd by assumption.
  pose proof (last_in_suffix_head h off _ c (clock_ok_app_l _ _ Hc) eq_refl) as Hb.
  apply preset_ok_last in Hp. pose proof (clock_ok_step _ _ Hc) as Hs. rewrite last2_snoc in Hs.
  destruct (existsb tc_in h); [|cbn; lia].
  destruct (suffix_while off h) as [|f [|g r]]; cbn -[Z.min Z.sub Z.leb] in *.
  - specialize (Hd c [] eq_refl). lia.
  - specialize (Hd f [c] eq_refl). specialize (Hb f [] eq_refl). lia.
  - specialize (Hd f (g :: r ++ [c]) eq_refl). specialize (Hb f (g :: r) eq_refl). lia.
Qed.

Lemma tp_monotone : forall pt h c d,
  let h2 := (h ++ [c]) ++ [d] in
  clock_ok h2 -> preset_ok h2 -> constant_pt pt h2 ->
  q_of (timer_out TP (h ++ [c])) = true ->
  q_of (timer_out TP h2) = true ->
  et_of (timer_out TP (h ++ [c])) <= et_of (timer_out TP h2).
Proof.
  intros pt h c d h2 Hc Hp Hpt Qc Qd. subst h2.
  apply constant_pt_app in Hpt. destruct Hpt as [Hpt Hpd]. inversion Hpd as [|? ? Hpd' _].
  apply constant_pt_app in Hpt. destruct Hpt as [_ Hpc]. inversion Hpc as [|? ? Hpc' _].
  apply preset_ok_last in Hp.
  unfold timer_out in *. rewrite (timer_run_snoc _ (h ++ [c])) in *.
  destruct (timer_run TP timer_default (h ++ [c])) as [t1| |] eqn:E1; try discriminate.
  cbn [obind] in *. pose proof (clock_ok_step _ _ Hc) as Hs. rewrite last2_snoc in Hs.
  destruct (t_start t1) as [s|] eqn:Es.
  2:{ destruct (tp_inv _ _ E1) as (_ & _ & Hn). destruct (Hn Es) as (_ & Ho & _).
      cbn in Qc. congruence. }
  pose proof (clock_ok_step _ _ (clock_ok_app_l _ _ Hc)) as Hs2.
  destruct (tp_elapsed _ t1 s d Hc E1 Es) as [Hw Hel].
  rewrite tp_call_eq, Es, Hw in *.
  destruct (in_rng t1 d); [|destruct (_ && _); cbn in Qd; discriminate].
  cbn -[Z.min Z.sub].
  rewrite timer_run_snoc in E1. apply obind_ok in E1. destruct E1 as (t0 & E0 & E1).
  rewrite tp_call_eq in E1. destruct (t_start t0) as [s0|] eqn:Es0.
  - destruct (tp_elapsed _ t0 s0 c (clock_ok_app_l _ _ Hc) E0 Es0) as [Hw0 Hel0].
    rewrite Hw0 in E1.
    destruct (in_rng t0 c); [|destruct (_ && _)]; injection E1 as <-; cbn -[Z.min Z.sub] in *;
      try discriminate; injection Es as <-; lia.
  - destruct (_ && _); [|discriminate]. injection E1 as <-. cbn -[Z.min Z.sub] in *. lia.
Qed.

(** * C15: negative presets *)

Lemma preset_neg_i64 : forall h, preset_negative h -> preset_i64 h.
Proof. intros h H. eapply Forall_impl; [|exact H]. cbn -[Z.pow]. intros. lia. Qed.

Lemma preset_neg_last : forall h c, preset_negative (h ++ [c]) -> - 2 ^ 63 <= tc_pt c < 0.
Proof. intros h c H. apply Forall_app in H. destruct H as [_ H]. now inversion H. Qed.

Lemma ton_negative : forall h c, clock_ok (h ++ [c]) -> preset_negative (h ++ [c]) ->
  timer_out TON (h ++ [c]) =
    Ok (false, match suffix_while tc_in (h ++ [c]) with _ :: _ :: _ => tc_pt c | _ => 0 end).
Proof.
  intros h c Hc Hp. rewrite ton_gen by auto using preset_neg_i64. unfold ton_spec.
  apply preset_neg_last in Hp.
  rewrite suffix_while_snoc. pose proof (last_in_suffix_head h tc_in _ c Hc eq_refl) as Hb.
  replace (tc_pt c <? 0) with true by (symmetry; apply Z.ltb_lt; lia).
  destruct (tc_in c); [|reflexivity].
  destruct (suffix_while tc_in h) as [|f r]; [reflexivity|].
  specialize (Hb f r eq_refl). cbn [app]. 
  destruct r; cbn -[Z.min Z.sub]; do 2 f_equal; lia.
Qed.

Lemma tof_negative : forall h c, clock_ok (h ++ [c]) -> preset_negative (h ++ [c]) ->
  timer_out TOF (h ++ [c]) =
    Ok (existsb tc_in (h ++ [c]),
        if tc_in c then 0
        else if existsb tc_in h then
          match suffix_while (fun d => negb (tc_in d)) (h ++ [c]) with
          | _ :: _ :: _ => tc_pt c
          | _ => 0
          end
        else 0).
Proof.
  intros h c Hc Hp. rewrite tof_gen by auto using preset_neg_i64. unfold tof_spec.
  change (suffix_while tc_off) with (suffix_while (fun d => negb (tc_in d))).
  apply preset_neg_last in Hp. rewrite existsb_app. cbn [existsb]. rewrite orb_false_r.
  rewrite suffix_while_snoc.
  pose proof (last_in_suffix_head h (fun d => negb (tc_in d)) _ c Hc eq_refl) as Hb.
  replace (tc_pt c <? 0) with true by (symmetry; apply Z.ltb_lt; lia).
  destruct (tc_in c); [now rewrite orb_true_r|]. rewrite orb_false_r. cbn [negb].
  destruct (existsb tc_in h); [|reflexivity].
  destruct (suffix_while _ h) as [|f r]; [reflexivity|].
  specialize (Hb f r eq_refl). cbn [app].
  destruct r; cbn -[Z.min Z.sub]; do 2 f_equal; lia.
Qed.

Lemma tp_negative : forall f h c, clock_ok ((f :: h) ++ [c]) -> preset_negative ((f :: h) ++ [c]) ->
  tc_in f = true ->
  timer_out TP ((f :: h) ++ [c]) = Ok (true, tc_pt c).
Proof.
  intros f h c Hc Hp Hf.
  assert (Hrun : exists t, timer_run TP timer_default (f :: h) = Ok t /\
                           t_start t = Some (tc_t1 f)).
  { assert (Hc' : clock_ok (f :: h)) by now apply clock_ok_app_l in Hc.
    assert (Hp' : preset_negative (f :: h)) by now apply Forall_app in Hp.
    clear c Hc Hp. induction h as [|d h IH] using rev_ind.
    - cbn [timer_run]. rewrite tp_call_eq. cbn. rewrite Hf. cbn. eexists. split; reflexivity.
    - rewrite app_comm_cons in *. destruct IH as (t & E & S).
      + now apply clock_ok_app_l in Hc'.
      + now apply Forall_app in Hp'.
      + rewrite timer_run_snoc, E. cbn [obind]. rewrite tp_call_eq, S.
        apply preset_neg_last in Hp'.
        erewrite (tp_in_rng _ t (tc_t1 f) d) by (eauto; lia).
        replace (tc_pt d <? 0) with true by (symmetry; apply Z.ltb_lt; lia).
        cbn. eexists. split; reflexivity. }
  destruct Hrun as (t & E & S).
  unfold timer_out. rewrite timer_run_snoc, E. cbn [obind]. rewrite tp_call_eq, S.
  apply preset_neg_last in Hp.
  erewrite (tp_in_rng _ t (tc_t1 f) c) by (eauto; lia).
  destruct (tp_elapsed _ t (tc_t1 f) c Hc E S) as [-> Hel].
  replace (tc_pt c <? 0) with true by (symmetry; apply Z.ltb_lt; lia).
  cbn -[Z.min Z.sub]. do 2 f_equal. lia.
Qed.
