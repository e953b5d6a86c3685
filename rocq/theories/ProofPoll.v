(** Timers under time shift and additional polls; relations between blocks. *)
From Coq Require Import ZArith List Bool Lia.
From Verif Require Import Base ModelFB ModelCounters ModelTimers SpecFB SpecPoll ProofBase ProofFB ProofTimers.
Import ListNotations.
Open Scope Z_scope.

Ltac tunf := unfold timer_call, TON, TOF, TP, finish, input_rising_edge, input_falling_edge, rising_edge,
  falling_edge, set_edge, signal_set, set_output, update_elapsed_time, is_in_preset_range, get_run_time,
  start, reset, set_elapsed_time, is_running in *.

(** ** Time shift *)
Definition shifted (d : Z) (t : timer) : timer :=
  Timer (t_input t) (t_preset t) (t_output t) (t_elapsed t) (t_edge t) (option_map (fun s => s + d) (t_start t)).

Lemma run_time_shifted : forall d t n, get_run_time (shifted d t) (n + d) = get_run_time t n.
Proof.
  intros d [i pt q e g [s|]] n; unfold get_run_time, shifted; cbn [t_start option_map]; [|reflexivity].
  do 2 f_equal. lia.
Qed.
Lemma update_shifted : forall d t n, update_elapsed_time (shifted d t) (n + d) = shifted d (update_elapsed_time t n).
Proof.
  intros d t n. unfold update_elapsed_time. rewrite run_time_shifted.
  destruct (get_run_time t n); reflexivity.
Qed.
Lemma in_range_shifted : forall d t n, is_in_preset_range (shifted d t) (n + d) = is_in_preset_range t n.
Proof. intros d t n. unfold is_in_preset_range. rewrite run_time_shifted. reflexivity. Qed.
Lemma running_shifted : forall d t, is_running (shifted d t) = is_running t.
Proof. intros d [i pt q e g [s|]]; reflexivity. Qed.
Lemma start_shifted : forall d t n, start (shifted d t) (n + d) = shifted d (start t n).
Proof. reflexivity. Qed.
Lemma reset_shifted : forall d t, reset (shifted d t) = shifted d (reset t).
Proof. reflexivity. Qed.
Lemma finish_shifted : forall d t b, finish (shifted d t) b = shifted d (finish t b).
Proof. reflexivity. Qed.
Lemma rising_shifted : forall d t, input_rising_edge (shifted d t) =
  (fst (input_rising_edge t), shifted d (snd (input_rising_edge t))).
Proof. reflexivity. Qed.
Lemma falling_shifted : forall d t, input_falling_edge (shifted d t) =
  (fst (input_falling_edge t), shifted d (snd (input_falling_edge t))).
Proof. reflexivity. Qed.

Lemma call_shifted : forall d f t c, In f [TON; TOF; TP] ->
  timer_call f (shifted d t) (later d c) = omap (shifted d) (timer_call f t c).
Proof.
  intros d f t c F. unfold timer_call, later. cbn [tc_in tc_pt tc_t1 tc_t2].
  set (u := Timer (tc_in c) (tc_pt c) (t_output t) (t_elapsed t) (t_edge t) (t_start t)).
  change (Timer (tc_in c) (tc_pt c) (t_output (shifted d t)) (t_elapsed (shifted d t)) (t_edge (shifted d t))
    (t_start (shifted d t))) with (shifted d u). clearbody u. generalize (tc_t1 c) (tc_t2 c). intros n1 n2.
  destruct F as [<-|[<-|[<-|[]]]].
  - unfold TON. change (t_input (shifted d u)) with (t_input u). rewrite running_shifted, rising_shifted.
    destruct (t_input u); [|reflexivity]. destruct (is_running u).
    + rewrite update_shifted, in_range_shifted. reflexivity.
    + destruct (input_rising_edge u) as [[] v]; reflexivity.
  - unfold TOF. change (t_input (shifted d u)) with (t_input u). rewrite rising_shifted, falling_shifted.
    destruct (t_input u).
    + destruct (input_rising_edge u) as [[] v]; reflexivity.
    + destruct (input_falling_edge u) as [[] v]; [reflexivity|]. cbn [fst snd]. rewrite running_shifted.
      destruct (is_running v); [|reflexivity]. rewrite update_shifted, in_range_shifted. reflexivity.
  - unfold TP. rewrite running_shifted, rising_shifted. destruct (is_running u).
    + rewrite update_shifted, in_range_shifted, falling_shifted.
      destruct (is_in_preset_range (update_elapsed_time u n1) n2); [reflexivity|].
      destruct (input_falling_edge (update_elapsed_time u n1)) as [[] v]; reflexivity.
    + destruct (input_rising_edge u) as [[] v]; reflexivity.
Qed.
Lemma run_shifted : forall d f h t, In f [TON; TOF; TP] ->
  timer_run f (shifted d t) (map (later d) h) = omap (shifted d) (timer_run f t h).
Proof.
  intros d f h. induction h as [|c h IH]; intros t F; [reflexivity|]. cbn [map timer_run].
  rewrite call_shifted by exact F. destruct (timer_call f t c) as [t'| |]; [|reflexivity..].
  cbn [omap obind]. now apply IH.
Qed.
Lemma out_shifted : forall d f h, In f [TON; TOF; TP] -> timer_out f (map (later d) h) = timer_out f h.
Proof.
  intros d f h F. unfold timer_out. change timer_default with (shifted d timer_default) at 1.
  rewrite run_shifted by exact F. destruct (timer_run f timer_default h); reflexivity.
Qed.

(** ** Additional polls *)
Inductive tag := TagTON | TagTOF | TagTP.
Definition block (b : tag) : timer -> Z -> Z -> outcome timer :=
  match b with TagTON => TON | TagTOF => TOF | TagTP => TP end.
Lemma tag_of : forall f, In f [TON; TOF; TP] -> exists b, f = block b.
Proof. intros f [<-|[<-|[<-|[]]]]; [exists TagTON|exists TagTOF|exists TagTP]; reflexivity. Qed.

(** Between calls: an idle timer has no elapsed time; TON idles after IN = FALSE, TOF after
    IN = TRUE. *)
Definition between (b : tag) (t : timer) : Prop :=
  (t_start t = None -> t_elapsed t = 0) /\
  match b with
  | TagTON => current_value (t_edge t) = false -> t_start t = None
  | TagTOF => current_value (t_edge t) = true -> t_start t = None
  | TagTP => True
  end.
Definition same_phase (t t' : timer) : Prop := t_edge t = t_edge t' /\ t_start t = t_start t'.
Definition same_outcome (o o' : outcome timer) : Prop :=
  match o, o' with
  | Ok t, Ok t' => same_phase t t' /\ t_output t = t_output t' /\ t_elapsed t = t_elapsed t'
  | Panic, Panic => True
  | Ub, Ub => True
  | _, _ => False
  end.

Ltac open_timer := unfold timer_call, block, TON, TOF, TP, input_rising_edge, input_falling_edge, rising_edge, falling_edge,
  update_elapsed_time, get_run_time, set_elapsed_time, is_in_preset_range, get_run_time;
  cbn [tc_in tc_pt tc_t1 tc_t2 t_input is_running t_output t_elapsed t_start t_edge current_value negb andb xorb t_preset].

Ltac cases_range := try match goal with |- context [if ?x <=? ?y then _ else _] => destruct (x <=? y) end;
  repeat match goal with |- context [wrap ?t ?x] => generalize (wrap t x); intros ? end.
Lemma call_between : forall b t c t', between b t -> timer_call (block b) t c = Ok t' ->
  between b t' /\ t_edge t' = Signal (tc_in c).
Proof.
  intros b [i pt q e [g] s] [ci cp c1 c2] t' [I1 I2] C. cbn [t_start t_elapsed t_edge current_value] in *.
  destruct b; revert C; open_timer; destruct s as [s|];
    cbn [t_start t_preset]; cases_range; destruct ci, g; cbn [negb andb xorb];
    intros C; cbn -[Z.min Z.max wrap] in C; try discriminate C; injection C as <-; split; try reflexivity;
    (split; [|first [exact I|intros H; first [discriminate H|reflexivity|exact (I2 H)]]]);
    cbn; intros H; first [discriminate H|reflexivity|exact (I1 eq_refl)].
Qed.
Lemma call_same : forall b t t' c, between b t -> between b t' -> same_phase t t' ->
  same_outcome (timer_call (block b) t c) (timer_call (block b) t' c).
Proof.
  intros b [i pt q e [g] s] [i' pt' q' e' [g'] s'] [ci cp c1 c2] [I1 I2] [J1 J2] (E1 & E2).
  cbn [t_edge t_start t_elapsed current_value] in *. injection E1 as <-. subst s'.
  destruct s as [s|].
  - clear I1 J1. destruct b; open_timer;
      destruct ci, g; try discriminate (I2 eq_refl);
      cbn -[Z.min Z.max Z.leb Z.sub wrap]; cases_range; repeat split.
  - rewrite (I1 eq_refl), (J1 eq_refl). clear I1 J1.
    destruct b, ci, g; repeat split.
Qed.
Lemma run_same : forall b h t t', between b t -> between b t' -> same_phase t t' -> h <> [] ->
  same_outcome (timer_run (block b) t h) (timer_run (block b) t' h).
Proof.
  intros b h. induction h as [|c h IH]; intros t t' I J S N; [congruence|]. cbn [timer_run].
  assert (C := call_same b t t' c I J S).
  destruct (timer_call (block b) t c) as [u| |] eqn:U, (timer_call (block b) t' c) as [u'| |] eqn:U';
    try contradiction; try exact C.
  cbn [obind]. destruct h as [|d h]; [exact C|]. apply IH; [| | |discriminate].
  - now apply (call_between b t c).
  - now apply (call_between b t' c).
  - apply C.
Qed.

(** A call that repeats the level of IN leaves the phase as it is. *)
Lemma poll_phase : forall b t c t', between b t -> tc_in c = current_value (t_edge t) ->
  timer_call (block b) t c = Ok t' -> same_phase t t'.
Proof.
  intros b [i pt q e [g] s] [ci cp c1 c2] t' [I1 I2] L C. cbn [t_start t_elapsed t_edge current_value tc_in] in *.
  subst ci.
  destruct b; revert C; open_timer; destruct s as [s|];
    cbn [t_start t_preset]; cases_range; destruct g; cbn [negb andb xorb];
    intros C; cbn -[Z.min Z.max wrap] in C; try discriminate C; injection C as <-; try discriminate (I2 eq_refl); split; reflexivity.
Qed.
Lemma run_app : forall f a b t, timer_run f t (a ++ b) = let! t' := timer_run f t a in timer_run f t' b.
Proof.
  intros f a b. induction a as [|c a IH]; intros t; [reflexivity|]. cbn [app timer_run].
  destruct (timer_call f t c); [|reflexivity..]. cbn [obind]. apply IH.
Qed.
Lemma run_between : forall b h t t', between b t -> timer_run (block b) t h = Ok t' ->
  between b t' /\ t_edge t' = Signal (last (map tc_in h) (current_value (t_edge t))).
Proof.
  intros b h. induction h as [|c h IH]; intros t t' I R.
  - injection R as <-. split; [exact I|]. cbn. now destruct (t_edge t).
  - cbn [timer_run] in R. destruct (timer_call (block b) t c) as [u| |] eqn:U; try discriminate.
    cbn [obind] in R. destruct (call_between b t c u I U) as [J E]. destruct (IH u t' J R) as [K L].
    split; [exact K|]. rewrite L, E. cbn [map current_value]. clear.
    revert c. induction h as [|d h IH]; intros c; [reflexivity|]. cbn [map last] in *.
    destruct h; [reflexivity|]. exact (IH c).
Qed.

Lemma default_between : forall b, between b timer_default.
Proof. intros []; repeat split. Qed.

Lemma one_poll : forall f h1 c h2, In f [TON; TOF; TP] -> tc_in c = in_level h1 -> h2 <> [] ->
  timer_out f (h1 ++ c :: h2) <> Panic -> timer_out f (h1 ++ c :: h2) = timer_out f (h1 ++ h2).
Proof.
  intros f h1 c h2 F L N P. destruct (tag_of f F) as [b ->]. unfold timer_out in *. rewrite !run_app in *.
  destruct (timer_run (block b) timer_default h1) as [t| |] eqn:R; [|reflexivity..]. cbn [obind] in *.
  destruct (run_between b h1 _ _ (default_between b) R) as [I E]. cbn [timer_run] in *.
  assert (L' : tc_in c = current_value (t_edge t)) by (rewrite E; exact L).
  destruct (timer_call (block b) t c) as [u| |] eqn:U; cbn [obind] in *.
  - assert (S := run_same b h2 u t (proj1 (call_between b t c u I U)) I).
    assert (Ph := poll_phase b t c u I L' U).
    specialize (S (conj (eq_sym (proj1 Ph)) (eq_sym (proj2 Ph))) N).
    destruct (timer_run (block b) u h2), (timer_run (block b) t h2); try contradiction; try reflexivity.
    destruct S as (_ & A & B). cbn [omap]. now rewrite A, B.
  - now elim P.
  - exfalso. clear -U. destruct t as [i pt q e [g] s], c as [ci cp c1 c2].
    revert U. destruct b; open_timer; destruct s as [s|];
      cbn [t_start t_preset]; cases_range; destruct ci, g; discriminate.
Qed.

Lemma polls_lemma : forall f h h', In f [TON; TOF; TP] -> extra_polls h h' ->
  timer_out f h' <> Panic -> timer_out f h' = timer_out f h.
Proof.
  intros f h h' F E. induction E as [h|h h1 c h2 E IH L N]; intros P; [reflexivity|].
  assert (O := one_poll f h1 c h2 F L N P). rewrite O in *. now apply IH.
Qed.
Lemma no_panic : forall f h, In f [TON; TOF] -> timer_out f h <> Panic.
Proof.
  intros f h F. unfold timer_out. generalize timer_default. induction h as [|c h IH]; intros t; [discriminate|].
  cbn [timer_run]. destruct (timer_call f t c) as [u| |] eqn:U; cbn [obind]; [apply IH| |discriminate].
  exfalso. clear IH. destruct t as [i pt q e [g] s], c as [ci cp c1 c2].
  destruct F as [<-|[<-|[]]]; revert U; open_timer; destruct s, ci, g; discriminate.
Qed.
Lemma polls_ton_tof : forall f h h', In f [TON; TOF] -> extra_polls h h' -> timer_out f h' = timer_out f h.
Proof.
  intros f h h' F E. apply polls_lemma; [|exact E|now apply no_panic].
  destruct F as [<-|[<-|[]]]; cbn; auto.
Qed.

(** ** Relations between blocks *)
Lemma trig_general : forall clks s1 s2 o1 o2 c1 c2, current_value s1 = negb (current_value s2) ->
  trig_outputs R_TRIG (Trigger c1 o1 s1) (map negb clks) = trig_outputs F_TRIG (Trigger c2 o2 s2) clks.
Proof.
  induction clks as [|c clks IH]; intros s1 s2 o1 o2 c1 c2 E; [reflexivity|].
  cbn [map trig_outputs]. unfold trig_call at 1 3, R_TRIG at 1, F_TRIG at 1.
  cbn [tr_output tr_internal tr_clk rising_edge falling_edge]. f_equal.
  - rewrite E. destruct c, (current_value s2); reflexivity.
  - unfold trig_call, R_TRIG, F_TRIG. cbn [tr_output tr_internal tr_clk rising_edge falling_edge].
    apply IH. reflexivity.
Qed.
Lemma f_is_inverted_r : forall c clks,
  tl (trig_outputs F_TRIG trigger_default (c :: clks)) =
  tl (trig_outputs R_TRIG trigger_default (map negb (c :: clks))).
Proof.
  intros c clks. cbn [map trig_outputs tl]. unfold trig_call, R_TRIG, F_TRIG.
  cbn [tr_output tr_internal tr_clk rising_edge falling_edge trigger_default signal_default].
  symmetry. apply trig_general. reflexivity.
Qed.

Lemma r_call : forall c o s b,
  trig_call R_TRIG (Trigger c o s) b = Trigger b (b && xorb (current_value s) b) (Signal b).
Proof. reflexivity. Qed.
(** Counting the pulses of R_TRIG is counting the edges of its input. *)
Lemma edges_of_pulses : forall clks c o prev,
  rising_edges false (trig_outputs R_TRIG (Trigger c o (Signal prev)) clks) = rising_edges prev clks /\
  rising_edges true (trig_outputs R_TRIG (Trigger c o (Signal true)) clks) = rising_edges true clks.
Proof.
  induction clks as [|b clks IH]; intros c o prev; [split; reflexivity|].
  cbn [trig_outputs]. rewrite !r_call. cbn [tr_output current_value rising_edges].
  split.
  - destruct b, prev; cbn [andb xorb negb].
    + now rewrite (proj1 (IH true false true)).
    + now rewrite (proj2 (IH true true true)).
    + now rewrite (proj1 (IH false false false)).
    + now rewrite (proj1 (IH false false false)).
  - destruct b; cbn [andb xorb negb].
    + now rewrite (proj1 (IH true false true)).
    + now rewrite (proj1 (IH false false false)).
Qed.

Lemma sr_rs_general : forall ins p p', sr_output p' = negb (sr_output p) ->
  sr_output (sr_run RS p' (map (fun i => (snd i, fst i)) ins)) = negb (sr_output (sr_run SR p ins)).
Proof.
  intros ins. unfold sr_run. induction ins as [|[s r] ins IH]; intros p p' E; [exact E|].
  cbn [map fold_left]. apply IH. unfold sr_call, SR, RS. cbn [sr_set sr_reset sr_output fst snd].
  rewrite E. destruct s, r, (sr_output p); reflexivity.
Qed.
Lemma sr_rs_agree : forall ins p, Forall (fun i => fst i && snd i = false) ins ->
  sr_output (sr_run SR p ins) = sr_output (sr_run RS p ins).
Proof.
  intros ins p F. assert (G : forall p p', sr_output p = sr_output p' ->
    sr_output (sr_run SR p ins) = sr_output (sr_run RS p' ins)); [|now apply G].
  unfold sr_run. clear p. induction F as [|[s r] ins N F IH]; intros p p' E; [exact E|].
  cbn [fold_left]. apply IH. unfold sr_call, SR, RS. cbn [sr_set sr_reset sr_output fst snd] in *.
  rewrite E. destruct s, r, (sr_output p'); try discriminate; reflexivity.
Qed.

(** CTUD whose other side is not used *)
Lemma ctud_up_general : forall p t h q qu qd cv pu pd a b c d pv a' c' pv',
  Forall (fun i => cudi_cd i = false /\ cudi_ld i = false) h -> current_value pd = false ->
  omap (fun s => (cud_qu s, cud_cv s)) (ctud_run p t (CtudParams a b c d pv qu qd cv pu pd) h) =
  omap (fun s => (match h with [] => qu | _ => ctu_q s end, ctu_cv s))
    (ctu_run p t (CtuParams a' c' pv' q cv pu) (map up_part h)).
Proof.
  intros p t h. induction h as [|i h IH]; intros q qu qd cv pu pd a b c d pv a' c' pv' F D; [reflexivity|].
  inversion F as [|? ? [Fd Fl] F']; subst. cbn [map ctud_run ctu_run].
  unfold ctud_call, ctu_call, ctud, ctu.
  change (cui_cu (up_part i)) with (cudi_cu i). change (cui_r (up_part i)) with (cudi_r i).
  change (cui_pv (up_part i)) with (cudi_pv i).
  cbn [cud_r cud_ld cud_pv cud_up cud_down cud_cu cud_cd cud_cv cui_cu cui_r cui_pv ctu_r ctu_internal ctu_cu ctu_cv ctu_pv
       cud_qu cud_qd].
  rewrite Fl, Fd. cbn [rising_edge]. rewrite D. cbn [andb xorb].
  destruct (cudi_r i).
  - cbn [obind omap cud_qu cud_cv]. destruct h as [|j h]; [reflexivity|].
    refine (IH _ _ _ _ _ _ _ _ _ _ _ _ _ _ F' D).
  - rewrite andb_false_r. cbn [negb]. set (e := cudi_cu i && xorb (current_value pu) (cudi_cu i)).
    destruct (e && (cv <? imax t)).
    + destruct (arith p t (cv + 1)) as [cv'| |]; [|reflexivity..]. cbn [obind omap].
      destruct h as [|j h]; [reflexivity|]. apply IH; [exact F'|reflexivity].
    + cbn [obind omap]. destruct h as [|j h]; [reflexivity|]. apply IH; [exact F'|reflexivity].
Qed.
Lemma ctud_down_general : forall p t h q qu qd cv pu pd a b c d pv a' c' pv',
  Forall (fun i => cudi_cu i = false /\ cudi_r i = false) h -> current_value pu = false ->
  omap (fun s => (cud_qd s, cud_cv s)) (ctud_run p t (CtudParams a b c d pv qu qd cv pu pd) h) =
  omap (fun s => (match h with [] => qd | _ => ctd_q s end, ctd_cv s))
    (ctd_run p t (CtdParams a' c' pv' q cv pd) (map down_part h)).
Proof.
  intros p t h. induction h as [|i h IH]; intros q qu qd cv pu pd a b c d pv a' c' pv' F D; [reflexivity|].
  inversion F as [|? ? [Fd Fl] F']; subst. cbn [map ctud_run ctd_run].
  unfold ctud_call, ctd_call, ctud, ctd.
  change (cdi_cd (down_part i)) with (cudi_cd i). change (cdi_ld (down_part i)) with (cudi_ld i).
  change (cdi_pv (down_part i)) with (cudi_pv i).
  cbn [cud_r cud_ld cud_pv cud_up cud_down cud_cu cud_cd cud_cv cdi_cd cdi_ld cdi_pv ctd_ld ctd_internal ctd_cd ctd_cv ctd_pv
       cud_qu cud_qd].
  rewrite Fl, Fd. cbn [rising_edge]. rewrite D. cbn [andb xorb negb].
  destruct (cudi_ld i).
  - cbn [obind omap cud_qu cud_cv]. destruct h as [|j h]; [reflexivity|].
    refine (IH _ _ _ _ _ _ _ _ _ _ _ _ _ _ F' D).
  - set (e := cudi_cd i && xorb (current_value pd) (cudi_cd i)).
    destruct (e && (imin t <? cv)).
    + destruct (arith p t (cv - 1)) as [cv'| |]; [|reflexivity..]. cbn [obind omap].
      destruct h as [|j h]; [reflexivity|]. apply IH; [exact F'|reflexivity].
    + cbn [obind omap]. destruct h as [|j h]; [reflexivity|]. apply IH; [exact F'|reflexivity].
Qed.

Lemma ctud_as_ctu : forall p t h, h <> [] -> Forall (fun i => cudi_cd i = false /\ cudi_ld i = false) h ->
  omap (fun s => (cud_qu s, cud_cv s)) (ctud_run p t ctud_default h) =
  omap ctu_outputs (ctu_run p t ctu_default (map up_part h)).
Proof.
  intros p t h N F. unfold ctud_default, ctu_default, signal_default.
  rewrite (ctud_up_general p t h false false false 0 (Signal false) (Signal false) false false false false 0 false false 0 F eq_refl).
  destruct h; [congruence|reflexivity].
Qed.
Lemma ctud_as_ctd : forall p t h, h <> [] -> Forall (fun i => cudi_cu i = false /\ cudi_r i = false) h ->
  omap (fun s => (cud_qd s, cud_cv s)) (ctud_run p t ctud_default h) =
  omap ctd_outputs (ctd_run p t ctd_default (map down_part h)).
Proof.
  intros p t h N F. unfold ctud_default, ctd_default, signal_default.
  rewrite (ctud_down_general p t h false false false 0 (Signal false) (Signal false) false false false false 0 false false 0 F eq_refl).
  destruct h; [congruence|reflexivity].
Qed.

(** TOF is TON with inverted input and output *)
Lemma suffix_while_map : forall A B (f : B -> bool) (g : A -> B) l,
  suffix_while f (map g l) = map g (suffix_while (fun x => f (g x)) l).
Proof.
  intros A B f g l. induction l as [|x l IH]; [reflexivity|]. cbn [map suffix_while].
  replace (forallb f (g x :: map g l)) with (forallb (fun x => f (g x)) (x :: l)).
  - destruct (forallb _ _); [reflexivity|exact IH].
  - cbn [forallb]. f_equal. clear. induction l as [|y l IH]; [reflexivity|]. cbn. now rewrite IH.
Qed.
Lemma clock_inverted : forall h lo, clock_from lo (map inverted h) <-> clock_from lo h.
Proof. induction h as [|c h IH]; intros lo; [reflexivity|]. cbn [map clock_from]. rewrite IH. reflexivity. Qed.
Lemma suffix_while_last_false : forall A (f : A -> bool) l x, f x = false -> suffix_while f (l ++ [x]) = [].
Proof.
  intros A f l x E. induction l as [|y l IH]; cbn [app suffix_while forallb].
  - now rewrite E.
  - replace (forallb f (l ++ [x])) with false; [now rewrite andb_false_r|].
    symmetry. rewrite forallb_app. cbn [forallb]. now rewrite E, andb_false_r.
Qed.

Lemma tof_as_ton : forall h c, clock_ok (h ++ [c]) -> preset_ok (h ++ [c]) -> existsb tc_in (h ++ [c]) = true ->
  timer_out TOF (h ++ [c]) = omap (fun o => (negb (fst o), snd o)) (timer_out TON (map inverted (h ++ [c]))).
Proof.
  intros h c K P E. rewrite (tof_lemma h c K P). rewrite map_app. cbn [map].
  rewrite ton_lemma.
  2: { change ([inverted c]) with (map inverted [c]). rewrite <- map_app. destruct K as [K1 K2].
       split; [now apply clock_inverted|]. now apply Forall_map. }
  2: { change ([inverted c]) with (map inverted [c]). rewrite <- map_app. now apply Forall_map. }
  change ([inverted c]) with (map inverted [c]). rewrite <- map_app, suffix_while_map.
  cbn [omap]. change (fun x => tc_in (inverted x)) with (fun x => negb (tc_in x)).
  destruct (tc_in c) eqn:C.
  - rewrite suffix_while_last_false by (now rewrite C). reflexivity.
  - rewrite existsb_app in E. cbn [existsb] in E. rewrite C, !orb_false_r in E. rewrite E.
    destruct (suffix_while (fun d => negb (tc_in d)) (h ++ [c])) as [|f [|g l]]; [reflexivity|reflexivity|].
    cbn [map fst snd]. cbn [inverted tc_pt tc_t1 tc_t2]. do 2 f_equal.
    destruct (Z.leb_spec (tc_t2 c - tc_t1 f) (tc_pt c)), (Z.ltb_spec (tc_pt c) (tc_t2 c - tc_t1 f)); try lia; reflexivity.
Qed.
