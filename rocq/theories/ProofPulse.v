(** R_TRIG in front of TP. *)
From Coq Require Import ZArith List Bool Lia.
From Verif Require Import Base ModelFB ModelTimers SpecFB SpecCircuit SpecBlink SpecPreset SpecPulse
  ProofBase ProofFB ProofTimers ProofTP ProofPreset ProofCircuit ProofBlink.
Import ListNotations.
Open Scope Z_scope.

Lemma rises_in : forall a d b, fed_by_edges (a ++ d :: b) -> (tc_in (snd d) = true <-> rises a d).
Proof. intros a d b W. exact (proj1 (edge_iff a d b W)). Qed.
Lemma no_two : forall a d n b, fed_by_edges (a ++ d :: n :: b) -> tc_in (snd d) = true -> tc_in (snd n) = false.
Proof.
  intros a d n b W D. apply (rises_in a d (n :: b) W) in D. destruct D as [D _].
  destruct (tc_in (snd n)) eqn:N; [|reflexivity]. exfalso. rewrite (app_cons_snoc _ a d (n :: b)) in W. apply (rises_in _ n b W) in N.
  destruct N as [_ N]. unfold before in N. rewrite map_app in N. cbn [map] in N. rewrite last_last in N. congruence.
Qed.
Lemma fed_prefix : forall l r, fed_by_edges (l ++ r) -> fed_by_edges l.
Proof.
  intros l r H. unfold fed_by_edges in *. rewrite !map_app, edges_of in H.
  apply (f_equal (firstn (length l))) in H. rewrite !firstn_app, !map_length, trig_outputs_length, map_length, Nat.sub_diag in H.
  cbn [firstn] in H. rewrite !app_nil_r in H. rewrite !firstn_all2 in H; [exact H|rewrite trig_outputs_length|]; rewrite map_length; lia.
Qed.
Lemma within_release : forall pt (k : bool * tcall) mid p a, constant_pt pt (map snd mid) -> fed_by_edges (a ++ p :: mid) ->
  (forall x d n b, p :: mid = x ++ d :: n :: b -> rises (a ++ x) d -> tc_t2 (snd n) <= tc_t1 (snd k) + pt) ->
  no_release (snd k) (snd p) (map snd mid).
Proof.
  induction mid as [|d mid IH]; intros p a C W H; cbn [map no_release]; [exact I|].
  cbn [map] in C. inversion C as [|? ? Cd C']; subst. split.
  - intros (L & P & _). apply (rises_in a p (d :: mid) W) in P. specialize (H [] p d mid eq_refl). rewrite app_nil_r in H. specialize (H P). lia.
  - apply (IH d (a ++ [p])); [exact C'|now rewrite <- app_cons_snoc|].
    intros x e n b E R. apply (H (p :: x) e n b); [cbn [app]; now rewrite E|]. now rewrite (app_cons_snoc _ a p x).
Qed.

Lemma first_quiet : forall c rest, fed_by_edges ((false, c) :: rest) -> timer_out TP (map snd ((false, c) :: rest)) = Panic.
Proof.
  intros c rest W. assert (I : tc_in c = false).
  { destruct (tc_in c) eqn:I; [|reflexivity]. apply (rises_in [] (false, c) rest W) in I. destruct I as [I _]. discriminate I. }
  assert (E : timer_call TP timer_default c = Panic).
  { assert (T : timer_out TP ([] ++ [c]) = Panic) by (apply (tp_panic_lemma [] c false 0 eq_refl); split; [exact I|now left]).
    unfold timer_out in T. cbn [app timer_run obind] in T. destruct (timer_call TP timer_default c); [discriminate T|reflexivity|discriminate T]. }
  unfold timer_out. cbn [map snd timer_run]. rewrite E. reflexivity.
Qed.

Lemma one_pulse : forall pt k mid c, 0 <= pt < 2 ^ 63 -> clock_ok (map snd (k :: mid ++ [c])) -> constant_pt pt (map snd (k :: mid ++ [c])) ->
  fed_by_edges (k :: mid ++ [c]) -> fst k = true -> edges_within pt k (k :: mid) ->
  timer_out TP (map snd (k :: mid ++ [c])) = Ok
    (if tc_t2 (snd c) - tc_t1 (snd k) <=? pt then (true, tc_t1 (snd c) - tc_t1 (snd k))
     else (false, if tc_in (last (map snd mid) (snd k)) && negb (tc_in (snd c)) then 0 else Z.min pt (tc_t1 (snd c) - tc_t1 (snd k)))).
Proof.
  intros pt k mid c B C K W F E. pose proof (constant_preset_ok pt _ K B) as P.
  assert (R : rises [] k) by (split; [exact F|reflexivity]).
  assert (I : tc_in (snd k) = true) by (apply (rises_in [] k (mid ++ [c]) W); exact R).
  assert (Pc : tc_pt (snd c) = pt).
  { unfold constant_pt in K. rewrite Forall_forall in K. apply K. apply in_map. right. apply in_or_app. right. now left. }
  assert (N : no_release (snd k) (snd k) (map snd mid)).
  { apply (within_release pt k mid k []).
    - unfold constant_pt in *. cbn [map] in K. rewrite map_app in K. inversion K as [|? ? _ K']; subst. now apply Forall_app in K' as [K' _].
    - exact (fed_prefix (k :: mid) [c] W).
    - intros x d n b E1 R1. exact (E x d n b E1 R1). }
  cbn [map] in *. rewrite map_app in *. cbn [map] in *.
  pose proof (tp_any_preset [] (snd k) (map snd mid) (snd c) false 0 C P eq_refl (or_introl eq_refl) I N) as T.
  cbn [app] in T. rewrite Pc in T. exact T.
Qed.

Lemma second_pulse : forall pt k mid e n c, 0 <= pt < 2 ^ 63 ->
  clock_ok (map snd (k :: mid ++ [e; n; c])) -> constant_pt pt (map snd (k :: mid ++ [e; n; c])) ->
  fed_by_edges (k :: mid ++ [e; n; c]) -> fst k = true -> edges_within pt k (k :: mid) ->
  rises (k :: mid) e -> pt < tc_t2 (snd e) - tc_t1 (snd k) ->
  (exists et, timer_out TP (map snd (k :: mid ++ [e])) = Ok (false, et)) /\
  timer_out TP (map snd (k :: mid ++ [e; n])) = Ok (false, 0) /\
  (rises (k :: mid ++ [e; n]) c -> timer_out TP (map snd (k :: mid ++ [e; n; c])) = Ok (true, 0)) /\
  (~ rises (k :: mid ++ [e; n]) c -> timer_out TP (map snd (k :: mid ++ [e; n; c])) = Panic).
Proof.
  intros pt k mid e n c B C K W F E R L.
  assert (X1 : k :: mid ++ [e; n; c] = (k :: mid ++ [e]) ++ [n; c]) by (cbn [app]; now rewrite <- app_assoc).
  assert (X2 : k :: mid ++ [e; n; c] = (k :: (mid ++ [e]) ++ [n]) ++ [c]) by (cbn [app]; now rewrite <- !app_assoc).
  assert (X3 : k :: mid ++ [e; n] = k :: (mid ++ [e]) ++ [n]) by now rewrite <- app_assoc.
  assert (Ie : tc_in (snd e) = true) by (apply (rises_in (k :: mid) e [n; c]); [exact W|exact R]).
  assert (In_ : tc_in (snd n) = false) by (apply (no_two (k :: mid) e n [c]); [exact W|exact Ie]).
  assert (Ln : pt < tc_t2 (snd n) - tc_t1 (snd k)).
  { pose proof C as [C1 _]. change (k :: mid ++ [e; n; c]) with ((k :: mid) ++ [e; n; c]) in C1. rewrite map_app in C1.
    assert (T : tc_t2 (snd e) <= tc_t2 (snd n)); [|lia]. revert C1. generalize 0 as lo. generalize (map snd (k :: mid)) as h. clear.
    induction h as [|d h IH]; intros lo; cbn [app map clock_from]; [lia|]. intros (_ & _ & H). exact (IH _ H). }
  assert (Q1 : exists et, timer_out TP (map snd (k :: mid ++ [e])) = Ok (false, et)).
  { rewrite (one_pulse pt k mid e B).
    - destruct (Z.leb_spec (tc_t2 (snd e) - tc_t1 (snd k)) pt); [lia|]. eexists. reflexivity.
    - rewrite X1, map_app in C. exact (clock_ok_app_l _ _ C).
    - rewrite X1, map_app in K. exact (proj1 (proj1 (constant_pt_app _ _ _) K)).
    - apply (fed_prefix _ [n; c]). now rewrite <- X1.
    - exact F.
    - exact E. }
  assert (E2 : edges_within pt k (k :: mid ++ [e])).
  { intros a d m b H Rd. destruct b as [|x b _] using rev_ind.
    - assert (H' : (k :: mid) ++ [e] = (a ++ [d]) ++ [m]) by (cbn [app]; rewrite H, <- app_assoc; reflexivity).
      apply app_inj_tail in H' as [H1 <-]. exfalso. destruct R as [_ R]. rewrite H1 in R. unfold before in R. rewrite map_app in R. cbn [map] in R.
      rewrite last_last in R. destruct Rd as [Rd _]. congruence.
    - assert (H' : (k :: mid) ++ [e] = (a ++ d :: m :: b) ++ [x]) by (cbn [app]; rewrite H, <- app_assoc; reflexivity).
      apply app_inj_tail in H' as [H1 _]. exact (E a d m b H1 Rd). }
  assert (C2 : clock_ok (map snd (k :: (mid ++ [e]) ++ [n]))) by (rewrite X2, map_app in C; exact (clock_ok_app_l _ _ C)).
  assert (K2 : constant_pt pt (map snd (k :: (mid ++ [e]) ++ [n]))) by (rewrite X2, map_app in K; exact (proj1 (proj1 (constant_pt_app _ _ _) K))).
  assert (W2 : fed_by_edges (k :: (mid ++ [e]) ++ [n])) by (apply (fed_prefix _ [c]); now rewrite <- X2).
  assert (Q2 : timer_out TP (map snd (k :: (mid ++ [e]) ++ [n])) = Ok (false, 0)).
  { rewrite (one_pulse pt k (mid ++ [e]) n B C2 K2 W2 F E2). destruct (Z.leb_spec (tc_t2 (snd n) - tc_t1 (snd k)) pt); [lia|].
    rewrite map_app. cbn [map]. rewrite last_last, Ie, In_. reflexivity. }
  assert (FA : ends_with_falling_in (map snd (k :: (mid ++ [e]) ++ [n]))).
  { exists (map snd (k :: mid)), (snd e), (snd n). split; [|auto]. cbn [map app]. now rewrite !map_app, <- app_assoc. }
  split; [exact Q1|]. split; [rewrite X3; exact Q2|]. rewrite X3, X2, map_app. cbn [map].
  pose proof (rises_in (k :: (mid ++ [e]) ++ [n]) c []) as RI. rewrite <- X2 in RI. specialize (RI W). split; intros Rc.
  - apply RI in Rc. refine (proj1 (tp_restart_lemma pt _ (snd c) 0 _ _ B Q2 _ Rc) (or_intror FA)).
    + rewrite X2, map_app in C. exact C.
    + rewrite X2, map_app in K. exact K.
    + right. exists (map snd (k :: mid ++ [e])), (snd n). split; [cbn [map app]; now rewrite !map_app|exact In_].
  - apply (tp_panic_lemma _ (snd c) false 0 Q2). split; [|right; split; [exact FA|reflexivity]].
    destruct (tc_in (snd c)) eqn:I; [|reflexivity]. exfalso. apply Rc, RI. reflexivity.
Qed.
