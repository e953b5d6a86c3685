(** Proofs: timers whose preset time changes. *)
From Coq Require Import ZArith List Bool Lia.
From Verif Require Import Base ModelFB ModelTimers SpecFB SpecPreset ProofBase ProofTimers ProofTP.
Import ListNotations.
Open Scope Z_scope.

Lemma same_suffix : forall (f : tcall -> bool) h h', (forall c d, same_call c d -> f c = f d) -> Forall2 same_call h h' ->
  Forall2 same_call (suffix_while f h) (suffix_while f h').
Proof.
  intros f h h' F H. induction H as [|c d h h' E H IH]; [constructor|]. cbn [suffix_while].
  assert (X : forallb f (c :: h) = forallb f (d :: h')).
  { cbn [forallb]. rewrite (F c d E). f_equal. clear IH E. induction H as [|x y h h' E H IH]; [reflexivity|].
    cbn [forallb]. now rewrite (F x y E), IH. }
  rewrite X. destruct (forallb f (d :: h')); [now constructor|exact IH].
Qed.
Lemma same_exists : forall h h', Forall2 same_call h h' -> existsb tc_in h = existsb tc_in h'.
Proof. intros h h' H. induction H as [|c d h h' E H IH]; [reflexivity|]. cbn [existsb]. destruct E as (-> & _). now rewrite IH. Qed.
Lemma same_last : forall c : tcall, same_call c c.
Proof. now repeat split. Qed.
Lemma ton_presets : forall h h' c, clock_ok (h ++ [c]) -> clock_ok (h' ++ [c]) -> preset_ok (h ++ [c]) -> preset_ok (h' ++ [c]) ->
  Forall2 same_call h h' -> timer_out TON (h ++ [c]) = timer_out TON (h' ++ [c]).
Proof.
  intros h h' c C C' P P' S. rewrite (ton_lemma h c C P), (ton_lemma h' c C' P').
  assert (X : Forall2 same_call (suffix_while tc_in (h ++ [c])) (suffix_while tc_in (h' ++ [c]))).
  { apply same_suffix; [now intros ? ? (-> & _)|]. apply Forall2_app; [exact S|]. constructor; [apply same_last|constructor]. }
  destruct X as [|a b l l' E X]; [reflexivity|]. destruct X as [|a' b' l l' E' X]; [reflexivity|].
  destruct E as (_ & -> & _). reflexivity.
Qed.
Lemma tof_presets : forall h h' c, clock_ok (h ++ [c]) -> clock_ok (h' ++ [c]) -> preset_ok (h ++ [c]) -> preset_ok (h' ++ [c]) ->
  Forall2 same_call h h' -> timer_out TOF (h ++ [c]) = timer_out TOF (h' ++ [c]).
Proof.
  intros h h' c C C' P P' S. rewrite (tof_lemma h c C P), (tof_lemma h' c C' P'). rewrite (same_exists h h' S).
  assert (X : Forall2 same_call (suffix_while (fun d => negb (tc_in d)) (h ++ [c])) (suffix_while (fun d => negb (tc_in d)) (h' ++ [c]))).
  { apply same_suffix; [now intros ? ? (-> & _)|]. apply Forall2_app; [exact S|]. constructor; [apply same_last|constructor]. }
  destruct X as [|a b l l' E X]; [reflexivity|]. destruct X as [|a' b' l l' E' X]; [reflexivity|].
  destruct E as (_ & -> & _). reflexivity.
Qed.

Lemma last_cons : forall (l : list tcall) a b, last (a :: l) b = last l a.
Proof.
  assert (G : forall (l : list tcall) y a b, last (y :: l) a = last (y :: l) b).
  { induction l as [|z l IHl]; intros y a b; [reflexivity|]. change (last (z :: l) a = last (z :: l) b). apply IHl. }
  intros [|x l] a b; [reflexivity|]. change (last (x :: l) b = last (x :: l) a). apply G.
Qed.
Lemma no_release_snoc : forall mid f prev c, no_release f prev (mid ++ [c]) <->
  no_release f prev mid /\ ~ (tc_t1 f + tc_pt c < tc_t2 c /\ tc_in (last mid prev) = true /\ tc_in c = false).
Proof.
  induction mid as [|d mid IH]; intros f prev c; cbn [app no_release].
  - cbn. tauto.
  - rewrite IH, last_cons. tauto.
Qed.
Lemma lvl_last : forall h0 mid f, lvl (h0 ++ f :: mid) = tc_in (last mid f).
Proof.
  intros h0 mid f. destruct (snoc_cases _ mid) as [->|(m' & d & ->)]; [apply lvl_snoc|].
  rewrite app_comm_cons, app_assoc, lvl_snoc, last_last. reflexivity.
Qed.
Lemma preset_ok_last : forall h c, preset_ok (h ++ [c]) -> 0 <= tc_pt c < 2 ^ 63.
Proof. intros h c H. apply Forall_app in H. destruct H as [_ H]. now inversion H. Qed.
Lemma tp_keeps_start : forall h0 f mid q0 e0,
  clock_ok (h0 ++ f :: mid) -> preset_ok (h0 ++ f :: mid) ->
  timer_out TP h0 = Ok (q0, e0) -> h0 = [] \/ ends_with_falling_in h0 /\ q0 = false -> tc_in f = true ->
  no_release f f mid ->
  exists t, timer_run TP timer_default (h0 ++ f :: mid) = Ok t /\ t_start t = Some (tc_t1 f).
Proof.
  intros h0 f mid q0 e0 C P E0 S F. apply timer_out_ok in E0. destruct E0 as (t0 & E0 & <- & <-).
  destruct (tp_inv h0 t0 E0) as (He & Hs & Hn). apply Hs in S. destruct (Hn S) as (He' & _ & _).
  revert C P. induction mid as [|c mid IH] using rev_ind; intros C P K.
  - change (h0 ++ [f]) with (h0 ++ [f]). rewrite timer_run_snoc, E0. cbn [obind]. rewrite tp_call_eq, S, He'. cbn. rewrite F. cbn. eexists. split; reflexivity.
  - apply no_release_snoc in K. destruct K as [K N].
    replace (h0 ++ f :: mid ++ [c]) with ((h0 ++ f :: mid) ++ [c]) in * by (now rewrite <- app_assoc).
    destruct (IH (clock_ok_app_l _ _ C) (proj1 (proj1 (Forall_app _ _ _) P)) K) as (t & E & St).
    pose proof (preset_ok_last _ _ P) as Pc.
    rewrite timer_run_snoc, E. cbn [obind]. rewrite tp_call_eq, St. rewrite (tp_in_rng _ t _ c C ltac:(lia) E St).
    destruct (tp_inv _ t E) as (He2 & _ & _). rewrite He2, lvl_last. cbn [current_value].
    destruct (Z.ltb_spec (tc_pt c) 0); [lia|]. cbn [orb]. destruct (Z.leb_spec (tc_t2 c - tc_t1 f) (tc_pt c)); [eexists; split; reflexivity|].
    destruct (tc_in (last mid f)) eqn:El, (tc_in c) eqn:Ec; cbn [andb negb]; try (eexists; split; reflexivity).
    exfalso. apply N. repeat split; lia.
Qed.
Lemma tp_any_preset : forall h0 f mid c q0 e0,
  clock_ok (h0 ++ f :: mid ++ [c]) -> preset_ok (h0 ++ f :: mid ++ [c]) ->
  timer_out TP h0 = Ok (q0, e0) -> h0 = [] \/ ends_with_falling_in h0 /\ q0 = false -> tc_in f = true ->
  no_release f f mid ->
  timer_out TP (h0 ++ f :: mid ++ [c]) = Ok
    (if tc_t2 c - tc_t1 f <=? tc_pt c then (true, tc_t1 c - tc_t1 f)
     else (false, if tc_in (last mid f) && negb (tc_in c) then 0 else Z.min (tc_pt c) (tc_t1 c - tc_t1 f))).
Proof.
  intros h0 f mid c q0 e0 C P E0 S F K.
  replace (h0 ++ f :: mid ++ [c]) with ((h0 ++ f :: mid) ++ [c]) in * by (now rewrite <- app_assoc).
  destruct (tp_keeps_start h0 f mid q0 e0 (clock_ok_app_l _ _ C) (proj1 (proj1 (Forall_app _ _ _) P)) E0 S F K) as (t & E & St).
  pose proof (preset_ok_last _ _ P) as Pc. pose proof (clock_ok_step _ _ C) as Ck. pose proof (tp_elapsed _ t _ c C E St) as [El _].
  unfold timer_out. rewrite timer_run_snoc, E. cbn [obind]. rewrite tp_call_eq, St. rewrite (tp_in_rng _ t _ c C ltac:(lia) E St).
  destruct (tp_inv _ t E) as (He2 & _ & _). rewrite He2, lvl_last, El. cbn [current_value].
  destruct (Z.ltb_spec (tc_pt c) 0); [lia|]. cbn [orb]. destruct (Z.leb_spec (tc_t2 c - tc_t1 f) (tc_pt c)).
  - cbn [omap]. cbn. do 2 f_equal. lia.
  - destruct (tc_in (last mid f) && negb (tc_in c)); reflexivity.
Qed.
Lemma tp_rises : forall pt h c e e', clock_ok (h ++ [c]) -> constant_pt pt (h ++ [c]) -> 0 <= pt < 2 ^ 63 ->
  timer_out TP h = Ok (false, e) -> timer_out TP (h ++ [c]) = Ok (true, e') ->
  tc_in c = true /\ (h = [] \/ exists h' l, h = h' ++ [l] /\ tc_in l = false).
Proof.
  intros pt h c e e' C P Hp E E'. apply timer_out_ok in E. destruct E as (t & E & Q & _).
  apply timer_out_ok in E'. destruct E' as (t' & E' & Q' & _).
  destruct (tp_start_lemma pt h c t t' C P Hp E Q E' Q') as (S & _ & _ & I). split; [exact I|].
  destruct (tp_inv h t E) as (_ & Hs & _). apply Hs in S. destruct S as [S|[(h' & p & l & -> & _ & L) _]]; [now left|].
  right. exists (h' ++ [p]), l. rewrite <- app_assoc. now split.
Qed.
