(** Proofs about programs that wire function blocks together. *)
From Coq Require Import ZArith List Bool Lia.
From Verif Require Import Base ModelFB ModelCounters ModelTimers SpecFB SpecCircuit ProofFB ProofTimers.
Import ListNotations.
Open Scope Z_scope.

(** * suffix_while *)

Lemma suffix_while_cut : forall A (f : A -> bool) a x b, f x = false -> forallb f b = true ->
  suffix_while f (a ++ x :: b) = b.
Proof.
  intros A f a x b X B. induction b as [|y b IH] using rev_ind.
  - rewrite suffix_while_snoc, X. reflexivity.
  - rewrite forallb_app in B. apply andb_true_iff in B as [B Y]. cbn in Y. rewrite andb_true_r in Y.
    change (a ++ x :: b ++ [y]) with (a ++ (x :: b) ++ [y]). rewrite app_assoc, suffix_while_snoc, Y, IH by exact B.
    reflexivity.
Qed.
Lemma suffix_while_longer : forall A (f : A -> bool) a b, forallb f b = true ->
  exists q, suffix_while f (a ++ b) = q ++ b /\ exists p, a = p ++ q.
Proof.
  intros A f a b. induction b as [|y b IH] using rev_ind; intros B.
  - rewrite app_nil_r. exists (suffix_while f a). rewrite app_nil_r. split; [reflexivity|]. apply suffix_while_suffix.
  - rewrite forallb_app in B. apply andb_true_iff in B as [B Y]. cbn in Y. rewrite andb_true_r in Y.
    destruct (IH B) as (q & E & P). exists q. split; [|exact P]. rewrite app_assoc, suffix_while_snoc, Y, E.
    now rewrite app_assoc.
Qed.
Lemma forallb_Forall : forall A (f : A -> bool) l, forallb f l = true <-> Forall (fun x => f x = true) l.
Proof. intros A f l. rewrite forallb_forall, Forall_forall. reflexivity. Qed.

(** * Q of one timer *)

Lemma ton_q_nil : timer_q TON [] = false. Proof. reflexivity. Qed.
Lemma ton_q_off : forall h c, clock_ok (h ++ [c]) -> preset_ok (h ++ [c]) -> tc_in c = false ->
  timer_q TON (h ++ [c]) = false.
Proof.
  intros h c C P I. unfold timer_q. rewrite ton_lemma by assumption. rewrite suffix_while_snoc, I. reflexivity.
Qed.
Lemma ton_q_elim : forall h c, clock_ok (h ++ [c]) -> preset_ok (h ++ [c]) -> timer_q TON (h ++ [c]) = true ->
  exists pre f mid, h = pre ++ f :: mid /\ Forall (fun d => tc_in d = true) (f :: mid ++ [c]) /\
    tc_pt c < tc_t2 c - tc_t1 f.
Proof.
  intros h c C P Q. unfold timer_q in Q. rewrite ton_lemma in Q by assumption.
  rewrite suffix_while_snoc in Q. pose proof (suffix_while_all _ tc_in (h ++ [c])) as A.
  rewrite suffix_while_snoc in A. destruct (suffix_while_suffix _ tc_in h) as [p E].
  destruct (tc_in c) eqn:I; [|discriminate Q]. destruct (suffix_while tc_in h) as [|f r] eqn:S; [discriminate Q|].
  exists p, f, r. split; [exact E|]. split; [now apply forallb_Forall|].
  cbn [app] in Q. destruct (r ++ [c]) as [|g s] eqn:R; [now destruct r|]. cbn in Q. now apply Z.ltb_lt.
Qed.
Lemma ton_q_intro : forall pre f mid c, clock_ok (pre ++ f :: mid ++ [c]) -> preset_ok (pre ++ f :: mid ++ [c]) ->
  Forall (fun d => tc_in d = true) (f :: mid ++ [c]) -> tc_pt c < tc_t2 c - tc_t1 f ->
  timer_q TON (pre ++ f :: mid ++ [c]) = true.
Proof.
  intros pre f mid c C P A L. unfold timer_q.
  replace (pre ++ f :: mid ++ [c]) with ((pre ++ f :: mid) ++ [c]) in * by (now rewrite <- app_assoc).
  rewrite ton_lemma by assumption. apply forallb_Forall in A.
  destruct (suffix_while_longer _ tc_in pre (f :: mid ++ [c]) A) as (q & E & p & D).
  rewrite <- app_assoc. cbn [app]. rewrite E.
  assert (T : forall e r, q ++ f :: mid ++ [c] = e :: r -> tc_t1 e <= tc_t1 f /\ r <> []).
  { intros e r Er. destruct q as [|e' q]; cbn [app] in Er.
    - injection Er as <- <-. split; [lia|now destruct mid].
    - injection Er as <- <-. split; [|now destruct q]. subst pre.
      rewrite <- !app_assoc in C. cbn [app] in C.
      apply (clock_ok_between p e' (q ++ f :: mid ++ [c]) f) in C.
      + lia.
      + apply in_or_app. right. now left. }
  destruct (q ++ f :: mid ++ [c]) as [|e r] eqn:Er; [now destruct q|].
  destruct (T e r eq_refl) as [B N]. destruct r; [congruence|]. cbn. apply Z.ltb_lt. lia.
Qed.

Lemma tof_q_elim : forall h, clock_ok h -> preset_ok h -> timer_q TOF h = true ->
  exists pre k rest, h = pre ++ k :: rest /\ tc_in k = true /\ Forall (fun d => tc_in d = false) rest /\
    forall d m c, rest = d :: m ++ [c] -> tc_t2 c - tc_t1 d <= tc_pt c.
Proof.
  intros h C P Q. destruct h as [|c h] using rev_ind; [discriminate Q|clear IHh].
  unfold timer_q in Q. rewrite tof_lemma in Q by assumption. destruct (tc_in c) eqn:I.
  - exists h, c, []. split; [reflexivity|]. split; [exact I|]. split; [constructor|]. intros d m e E. discriminate E.
  - destruct (existsb tc_in h) eqn:X; [|discriminate Q].
    set (off := fun d => negb (tc_in d)) in Q. destruct (suffix_while_suffix _ off h) as [p E].
    pose proof (suffix_while_all _ off h) as A.
    assert (K : exists pre k, p = pre ++ [k] /\ tc_in k = true).
    { destruct p as [|k pre] using rev_ind.
      - exfalso. cbn [app] in E. rewrite <- E in A. apply existsb_exists in X as (k & K & T).
        rewrite forallb_forall in A. specialize (A k K). unfold off in A. now rewrite T in A.
      - clear IHpre. exists pre, k. split; [reflexivity|]. destruct (tc_in k) eqn:T; [reflexivity|]. exfalso.
        assert (O : off k = true) by (unfold off; now rewrite T).
        assert (L : length (suffix_while off h) = length (suffix_while off (pre ++ k :: suffix_while off h))).
        { rewrite E at 1. now rewrite <- app_assoc. }
        destruct (suffix_while_longer _ off pre (k :: suffix_while off h)) as (q & F & _).
        + cbn [forallb]. now rewrite O, A.
        + rewrite F, app_length in L. cbn [length] in L. lia. }
    destruct K as (pre & k & Ep & K). rewrite suffix_while_snoc in Q.
    assert (O : off c = true) by (unfold off; now rewrite I). rewrite O in Q.
    exists pre, k, (suffix_while off h ++ [c]). split; [|split; [exact K|split]].
    + rewrite E at 1. rewrite Ep, <- !app_assoc. reflexivity.
    + apply Forall_app. split; [|constructor; [exact I|constructor]].
      apply forallb_Forall in A. eapply Forall_impl; [|exact A]. intros d D. unfold off in D.
      now apply negb_true_iff.
    + intros d m e F. change (d :: m ++ [e]) with ((d :: m) ++ [e]) in F. apply app_inj_tail in F as [F <-].
      rewrite F in Q. cbn [app] in Q. destruct (m ++ [c]) as [|g s] eqn:R; [now destruct m|]. cbn in Q.
      now apply Z.leb_le.
Qed.
Lemma tof_q_intro : forall pre k d m c, clock_ok (pre ++ k :: d :: m ++ [c]) -> preset_ok (pre ++ k :: d :: m ++ [c]) ->
  tc_in k = true -> tc_t2 c - tc_t1 d <= tc_pt c -> timer_q TOF (pre ++ k :: d :: m ++ [c]) = true.
Proof.
  intros pre k d m c C P K L. unfold timer_q.
  replace (pre ++ k :: d :: m ++ [c]) with ((pre ++ k :: d :: m) ++ [c]) in * by (now rewrite <- app_assoc).
  rewrite tof_lemma by assumption. destruct (tc_in c) eqn:I; [reflexivity|].
  replace (existsb tc_in (pre ++ k :: d :: m)) with true
    by (symmetry; apply existsb_exists; exists k; split; [apply in_or_app; right; now left|exact K]).
  set (off := fun d => negb (tc_in d)).
  assert (S : exists p s, d :: m ++ [c] = p ++ s /\ suffix_while off ((pre ++ k :: d :: m) ++ [c]) = s).
  { rewrite <- app_assoc. cbn [app]. assert (N : off k = false) by (unfold off; now rewrite K).
    clear -N. generalize (d :: m ++ [c]) as l. intros l. induction l as [|x l IH] using rev_ind.
    - exists [], []. split; [reflexivity|]. rewrite suffix_while_snoc. now rewrite N.
    - destruct IH as (p & s & E & S). change (pre ++ k :: l ++ [x]) with (pre ++ (k :: l) ++ [x]).
      rewrite app_assoc, suffix_while_snoc, S. destruct (off x).
      + exists p, (s ++ [x]). split; [now rewrite E, app_assoc|reflexivity].
      + exists (l ++ [x]), []. split; [now rewrite app_nil_r|reflexivity]. }
  destruct S as (p & s & E & ->). destruct s as [|e [|g s]]; [reflexivity|reflexivity|]. cbn. apply Z.leb_le.
  assert (D : tc_t1 d <= tc_t1 e).
  { destruct p as [|d' p]; cbn [app] in E; injection E as -> E; [lia|].
    rewrite <- app_assoc in C. cbn [app] in C.
    replace (pre ++ k :: d' :: m ++ [c]) with ((pre ++ [k]) ++ d' :: m ++ [c]) in C by (now rewrite <- app_assoc).
    apply (clock_ok_between (pre ++ [k]) d' (m ++ [c]) e) in C.
    - lia.
    - rewrite E. apply in_or_app. right. now left. }
  lia.
Qed.

(** * A TON that restarts itself *)

Lemma constant_preset_ok : forall p h, constant_pt p h -> 0 <= p < 2 ^ 63 -> preset_ok h.
Proof. intros p h H B. eapply Forall_impl; [|exact H]. intros c E. cbn in E. now rewrite E. Qed.
Lemma constant_in : forall p h c, constant_pt p h -> In c h -> tc_pt c = p.
Proof. intros p h c H I. unfold constant_pt in H. rewrite Forall_forall in H. now apply H. Qed.

Lemma app_cons_snoc : forall A (l : list A) x m, l ++ x :: m = (l ++ [x]) ++ m.
Proof. intros. now rewrite <- app_assoc. Qed.

Lemma clock_ok_prefix : forall a b, clock_ok (a ++ b) -> clock_ok a. Proof. exact clock_ok_app_l. Qed.

Lemma restart_run : forall a f m, clock_ok (a ++ f :: m) -> preset_ok (a ++ f :: m) ->
  self_restarting (a ++ f :: m) -> timer_q TON a = false ->
  (forall m1 m2, m = m1 ++ m2 -> m2 <> [] -> timer_q TON (a ++ f :: m1) = false) ->
  Forall (fun d => tc_in d = true) (f :: m).
Proof.
  intros a f m C P R Q N. constructor.
  - rewrite (R a f m eq_refl), Q. reflexivity.
  - apply Forall_forall. intros d D. apply in_split in D as (m1 & m2 & E).
    rewrite (R (a ++ f :: m1) d m2).
    + rewrite (N m1 (d :: m2) E) by discriminate. reflexivity.
    + rewrite E, <- app_assoc. reflexivity.
Qed.

(** [f] is the first call of a run: the very first call, or the second one after a tick. *)
Lemma restart_tick : forall a f m c, clock_ok (a ++ f :: m ++ [c]) -> preset_ok (a ++ f :: m ++ [c]) ->
  self_restarting (a ++ f :: m ++ [c]) ->
  (a = [] \/ exists b x, a = b ++ [x] /\ timer_q TON b = true) ->
  (forall m1 m2, m = m1 ++ m2 -> timer_q TON (a ++ f :: m1) = false) ->
  timer_q TON a = false /\ timer_q TON (a ++ f :: m ++ [c]) = (tc_pt c <? tc_t2 c - tc_t1 f).
Proof.
  intros a f m c C P R S N.
  assert (Q : timer_q TON a = false /\ suffix_while tc_in a = []).
  { destruct S as [-> | (b & x & -> & T)]; [split; reflexivity|].
    assert (I : tc_in x = false).
    { rewrite (R b x (f :: m ++ [c])); [now rewrite T|now rewrite <- app_assoc]. }
    split; [|rewrite suffix_while_snoc, I; reflexivity].
    apply ton_q_off; [now apply (clock_ok_app_l _ (f :: m ++ [c]))|now apply (preset_ok_app_l _ (f :: m ++ [c]))|exact I]. }
  destruct Q as [Q SW]. split; [exact Q|].
  assert (A : Forall (fun d => tc_in d = true) (f :: m ++ [c])).
  { apply (restart_run a); try assumption. intros m1 m2 E NE.
    destruct m2 as [|y m2] using rev_ind; [congruence|]. clear IHm2. rewrite app_assoc in E.
    apply app_inj_tail in E as [E _]. now apply (N m1 m2). }
  unfold timer_q. replace (a ++ f :: m ++ [c]) with ((a ++ f :: m) ++ [c]) in * by (now rewrite <- app_assoc).
  rewrite ton_lemma by assumption. rewrite <- app_assoc. cbn [app].
  assert (W : suffix_while tc_in (a ++ f :: m ++ [c]) = f :: m ++ [c]).
  { apply forallb_Forall in A. destruct S as [-> | (b & x & -> & T)].
    - now apply suffix_while_all_id.
    - rewrite <- app_assoc. cbn [app]. apply suffix_while_cut; [|exact A].
      rewrite (R b x (f :: m ++ [c])); [now rewrite T|now rewrite <- !app_assoc]. }
  rewrite W. destruct (m ++ [c]) as [|g s] eqn:E; [now destruct m|]. reflexivity.
Qed.

Lemma restart_period : forall pt a i mid c, let h := a ++ i :: mid ++ [c] in
  clock_ok h -> constant_pt pt h -> 0 <= pt < 2 ^ 63 -> self_restarting h ->
  timer_q TON (a ++ [i]) = true -> timer_q TON h = true ->
  (forall m1 m2, mid = m1 ++ m2 -> m1 <> [] -> timer_q TON (a ++ i :: m1) = false) ->
  exists x f m, mid = x :: f :: m /\ pt < tc_t2 c - tc_t1 f /\
    forall g, paced g h -> tc_t2 c - tc_t2 i <= pt + 3 * g.
Proof.
  intros pt a i mid c h C K B R Ti Tc N. pose proof (constant_preset_ok pt _ K B) as P. unfold h in *. clear h.
  assert (Next : forall x r, mid ++ [c] = x :: r -> tc_in x = false).
  { intros x r E. rewrite (R (a ++ [i]) x r); [now rewrite Ti|]. rewrite E, <- app_assoc. reflexivity. }
  assert (Ic : tc_in c = true).
  { destruct (tc_in c) eqn:I; [reflexivity|]. exfalso.
    replace (a ++ i :: mid ++ [c]) with ((a ++ i :: mid) ++ [c]) in C, P, Tc by (now rewrite <- app_assoc).
    rewrite ton_q_off in Tc by assumption. discriminate Tc. }
  destruct mid as [|x mid]; [specialize (Next c [] eq_refl); congruence|].
  assert (Ix : tc_in x = false) by (apply (Next x (mid ++ [c])); reflexivity).
  destruct mid as [|f m].
  { exfalso. replace (a ++ i :: [x] ++ [c]) with ((a ++ [i; x]) ++ [c]) in C, P, Tc by (now rewrite <- app_assoc).
    destruct (ton_q_elim _ _ C P Tc) as (pre & f & mid & E & A & _).
    assert (D : In x (f :: mid)).
    { replace (a ++ [i; x]) with ((a ++ [i]) ++ [x]) in E by (now rewrite <- app_assoc).
      destruct mid as [|y mid] using rev_ind.
      - apply app_inj_tail in E as [_ ->]. now left.
      - clear IHmid. rewrite app_comm_cons, app_assoc in E. apply app_inj_tail in E as [_ ->].
        right. apply in_or_app. right. now left. }
    rewrite Forall_forall in A. rewrite (A x) in Ix; [discriminate Ix|].
    rewrite app_comm_cons. apply in_or_app. now left. }
  exists x, f, m. split; [reflexivity|].
  assert (E : a ++ i :: (x :: f :: m) ++ [c] = (a ++ [i; x]) ++ f :: m ++ [c]) by (now rewrite <- app_assoc).
  rewrite E in *. clear E.
  destruct (restart_tick (a ++ [i; x]) f m c C P R) as [_ T].
  - right. exists (a ++ [i]), x. split; [now rewrite <- app_assoc|exact Ti].
  - intros m1 m2 Em. rewrite <- app_assoc. cbn [app]. apply (N (x :: f :: m1) m2); [|discriminate]. cbn. now rewrite Em.
  - rewrite T in Tc. apply Z.ltb_lt in Tc. rewrite (constant_in pt _ c K) in Tc
      by (apply in_or_app; right; right; apply in_or_app; right; now left).
    split; [exact Tc|]. intros g G.
    assert (G1 : tc_t2 x - tc_t2 i <= g) by (apply (G a i x (f :: m ++ [c])); now rewrite <- app_assoc).
    assert (G2 : tc_t2 f - tc_t2 x <= g) by (apply (G (a ++ [i]) x f (m ++ [c])); now rewrite <- !app_assoc).
    assert (Cf : tc_t1 f <= tc_t2 f).
    { destruct (clock_ok_between (a ++ [i; x]) f (m ++ [c]) c C) as (_ & F & _); [|exact F].
      apply in_or_app. right. now left. }
    destruct m as [|e m] using rev_ind.
    + assert (G3 : tc_t2 c - tc_t2 f <= g) by (apply (G (a ++ [i; x]) f c []); reflexivity). lia.
    + clear IHm.
      assert (G3 : tc_t2 c - tc_t2 e <= g).
      { apply (G (a ++ [i; x] ++ f :: m) e c []). rewrite <- !app_assoc. reflexivity. }
      assert (Q : timer_q TON ((a ++ [i; x]) ++ f :: m ++ [e]) = false).
      { rewrite <- app_assoc. cbn [app]. apply (N (x :: f :: m ++ [e]) []); [now rewrite app_nil_r|discriminate]. }
      assert (S : (a ++ [i; x]) ++ f :: (m ++ [e]) ++ [c] = ((a ++ [i; x]) ++ f :: m ++ [e]) ++ [c])
        by (now rewrite <- (app_assoc (a ++ [i; x]))).
      rewrite S in C, P, R, K.
      destruct (restart_tick (a ++ [i; x]) f m e) as [_ T'].
      * now apply clock_ok_app_l in C.
      * now apply preset_ok_app_l in P.
      * intros p d q D. apply (R p d (q ++ [c])). rewrite D, <- app_assoc. reflexivity.
      * right. exists (a ++ [i]), x. split; [now rewrite <- app_assoc|exact Ti].
      * intros m1 m2 Em. rewrite <- app_assoc. cbn [app]. apply (N (x :: f :: m1) (m2 ++ [e])); [|discriminate].
        cbn. now rewrite Em, <- app_assoc.
      * rewrite T' in Q. apply Z.ltb_ge in Q. rewrite (constant_in pt _ e K) in Q
          by (apply in_or_app; left; apply in_or_app; right; right; apply in_or_app; right; now left).
        lia.
Qed.

(** * Two timers in series *)

Lemma clock_series : forall l lo, clock_from lo (in_order l) ->
  clock_from lo (map fst l) /\ clock_from lo (map snd l).
Proof.
  induction l as [|[x y] l IH]; intros lo H; [split; exact I|].
  cbn in H. destruct H as (A & B & D & E & F). destruct (IH _ F) as [G K]. cbn.
  split; (split; [lia|]; split; [lia|]).
  - eapply clock_from_weaken; [|exact G]. lia.
  - exact K.
Qed.
Lemma in_order_in : forall l c, In c l -> In (fst c) (in_order l) /\ In (snd c) (in_order l).
Proof.
  intros l c H. split; apply in_flat_map; exists c; (split; [exact H|]); [now left|right; now left].
Qed.
Lemma clock_ok_series : forall l, clock_ok (in_order l) -> clock_ok (map fst l) /\ clock_ok (map snd l).
Proof.
  intros l [C B]. destruct (clock_series l 0 C) as [F S]. rewrite Forall_forall in B.
  split; (split; [assumption|]); apply Forall_forall; intros c H; apply in_map_iff in H as (x & <- & H);
    apply in_order_in in H; apply B; tauto.
Qed.
Lemma in_order_app : forall a b, in_order (a ++ b) = in_order a ++ in_order b.
Proof. intros. apply flat_map_app. Qed.
Lemma clock_cycle : forall a c b, clock_ok (in_order (a ++ c :: b)) ->
  tc_t2 (fst c) <= tc_t1 (snd c).
Proof.
  intros a [x y] b H. rewrite in_order_app in H. cbn in H.
  apply (clock_ok_between (in_order a) x (y :: in_order b) y) in H; [|now left]. cbn. lia.
Qed.
Lemma in_series_app_l : forall f a b, in_series f (a ++ b) -> in_series f a.
Proof. intros f a b H p c q E. apply (H p c (q ++ b)). now rewrite E, <- app_assoc. Qed.
Section Series.
  Variables (p1 p2 : Z).
  Hypotheses (P1 : 0 <= p1 < 2 ^ 63) (P2 : 0 <= p2 < 2 ^ 63).

  (** The first timer's Q is TRUE in cycle [c]. *)
  Lemma series_q : forall a c b, clock_ok (in_order (a ++ c :: b)) -> constant_pt p1 (map fst (a ++ c :: b)) ->
    in_series TON (a ++ c :: b) -> tc_in (snd c) = true ->
    exists pre f mid, a ++ [c] = pre ++ f :: mid ++ [c] /\
      Forall (fun d => tc_in (fst d) = true) (f :: mid ++ [c]) /\ p1 < tc_t2 (fst c) - tc_t1 (fst f).
  Proof.
    intros a c b C K S I. assert (Q := S a c b eq_refl). rewrite I in Q. symmetry in Q.
    rewrite app_cons_snoc, in_order_app in C. apply clock_ok_app_l in C. apply clock_ok_series in C as [C _].
    rewrite app_cons_snoc, map_app in K. apply Forall_app in K as [K _].
    pose proof (constant_preset_ok p1 _ K P1) as P. rewrite map_app in Q, C, P, K. cbn [map] in Q, C, P, K.
    destruct (ton_q_elim _ _ C P Q) as (pre & f & mid & E & A & L).
    apply map_eq_app in E as (pre' & r & -> & <- & E). destruct r as [|f' mid']; [discriminate E|].
    cbn [map] in E. injection E as <- <-. exists pre', f', mid'. split; [now rewrite <- app_assoc|]. split.
    - change (fst f' :: map fst mid' ++ [fst c]) with (map fst (f' :: mid') ++ map fst [c]) in A.
      rewrite <- map_app in A. rewrite Forall_map in A. exact A.
    - rewrite (constant_in p1 _ (fst c) K) in L; [exact L|]. apply in_or_app. right. now left.
  Qed.
  Lemma series_q_intro : forall pre f mid c b, clock_ok (in_order (pre ++ f :: mid ++ c :: b)) ->
    constant_pt p1 (map fst (pre ++ f :: mid ++ c :: b)) -> in_series TON (pre ++ f :: mid ++ c :: b) ->
    Forall (fun d => tc_in (fst d) = true) (f :: mid ++ [c]) -> p1 < tc_t2 (fst c) - tc_t1 (fst f) ->
    tc_in (snd c) = true.
  Proof.
    intros pre f mid c b C K S A L.
    assert (E : pre ++ f :: mid ++ c :: b = (pre ++ f :: mid) ++ c :: b) by (now rewrite <- app_assoc).
    rewrite (S (pre ++ f :: mid) c b E). rewrite E, app_cons_snoc in C, K.
    rewrite in_order_app in C. apply clock_ok_app_l in C. apply clock_ok_series in C as [C _].
    rewrite map_app in K. apply Forall_app in K as [K _]. pose proof (constant_preset_ok p1 _ K P1) as P.
    assert (M : map fst ((pre ++ f :: mid) ++ [c]) = map fst pre ++ fst f :: map fst mid ++ [fst c])
      by (rewrite <- app_assoc, map_app; cbn [map app]; now rewrite map_app).
    rewrite M in C, K, P |- *. apply ton_q_intro; try assumption.
    - change (fst f :: map fst mid ++ [fst c]) with (map fst (f :: mid) ++ map fst [c]).
      rewrite <- map_app. rewrite Forall_map. exact A.
    - rewrite (constant_in p1 _ (fst c) K); [exact L|]. apply in_or_app. right. right. apply in_or_app. right. now left.
  Qed.

  Lemma delays_add_up : forall cycles, clock_ok (in_order cycles) -> constant_pt p1 (map fst cycles) ->
    constant_pt p2 (map snd cycles) -> in_series TON cycles -> timer_q TON (map snd cycles) = true ->
    exists pre f mid c, cycles = pre ++ f :: mid ++ [c] /\
      Forall (fun d => tc_in (fst d) = true) (f :: mid ++ [c]) /\ p1 + p2 < tc_t2 (snd c) - tc_t1 (fst f).
  Proof.
    intros cycles C K1 K2 S Q. destruct cycles as [|c cyc] using rev_ind; [discriminate Q|clear IHcyc].
    destruct (clock_ok_series _ C) as [_ CS]. pose proof (constant_preset_ok p2 _ K2 P2) as P.
    rewrite map_app in Q, CS, P. cbn [map] in Q, CS, P.
    destruct (ton_q_elim _ _ CS P Q) as (pre & f & mid & E & A & L).
    apply map_eq_app in E as (pre' & r & -> & <- & E). destruct r as [|k mid']; [discriminate E|].
    cbn [map] in E. injection E as <- <-.
    change (snd k :: map snd mid' ++ [snd c]) with (map snd (k :: mid') ++ map snd [c]) in A.
    rewrite <- map_app, Forall_map in A.
    rewrite (constant_in p2 _ (snd c) K2) in L by (apply in_map, in_or_app; right; now left).
    assert (E : (pre' ++ k :: mid') ++ [c] = pre' ++ k :: mid' ++ [c]) by (now rewrite <- app_assoc).
    rewrite E in *. clear E.
    assert (Ik : tc_in (snd k) = true) by (now inversion A).
    destruct (series_q pre' k (mid' ++ [c]) C K1 S Ik) as (a & g & m & E & B & L1).
    exists a, g, (m ++ k :: mid'), c. split; [|split].
    - change (k :: mid' ++ [c]) with ([k] ++ (mid' ++ [c])). rewrite app_assoc, E. rewrite <- !app_assoc. cbn [app].
      f_equal. f_equal. now rewrite <- !app_assoc.
    - inversion B as [|? ? Bg Bm]. subst. constructor; [exact Bg|]. apply Forall_app in Bm as [Bm Bk].
      rewrite <- app_assoc. cbn [app]. apply Forall_app. split; [exact Bm|].
      apply Forall_forall. intros d D. apply in_split in D as (u & v & D). rewrite Forall_forall in A.
      assert (Id : tc_in (snd d) = true) by (apply A; cbn [app]; rewrite D; apply in_or_app; right; now left).
      assert (F : pre' ++ k :: mid' ++ [c] = (pre' ++ u) ++ d :: v) by (now rewrite D, app_assoc).
      rewrite F in C, K1, S. destruct (series_q (pre' ++ u) d v C K1 S Id) as (a1 & g1 & m1 & _ & B1 & _).
      apply (Forall_forall (fun d => tc_in (fst d) = true) (g1 :: m1 ++ [d])); [exact B1|].
      right. apply in_or_app. right. now left.
    - pose proof (clock_cycle _ _ _ C). lia.
  Qed.

  Lemma delays_add_up_intro : forall pre f m1 k m2 c,
    let cycles := pre ++ f :: m1 ++ k :: m2 ++ [c] in
    clock_ok (in_order cycles) -> constant_pt p1 (map fst cycles) ->
    constant_pt p2 (map snd cycles) -> in_series TON cycles ->
    Forall (fun d => tc_in (fst d) = true) (f :: m1 ++ k :: m2 ++ [c]) ->
    p1 < tc_t2 (fst k) - tc_t1 (fst f) -> p2 < tc_t2 (snd c) - tc_t1 (snd k) ->
    timer_q TON (map snd cycles) = true.
  Proof.
    intros pre f m1 k m2 c cycles C K1 K2 S A L1 L2. unfold cycles in *. clear cycles.
    assert (B : Forall (fun d => tc_in (snd d) = true) (k :: m2 ++ [c])).
    { apply Forall_forall. intros d D.
      assert (T : tc_t2 (fst k) <= tc_t2 (fst d)).
      { destruct D as [<-|D]; [lia|]. destruct (clock_ok_series _ C) as [CF _].
        replace (pre ++ f :: m1 ++ k :: m2 ++ [c]) with ((pre ++ f :: m1) ++ k :: (m2 ++ [c])) in CF
          by (now rewrite <- app_assoc).
        rewrite map_app in CF. cbn [map] in CF.
        apply (clock_ok_between _ (fst k) _ (fst d)) in CF; [lia|]. now apply in_map. }
      apply in_split in D as (u & v & D).
      assert (F : pre ++ f :: m1 ++ k :: m2 ++ [c] = pre ++ f :: (m1 ++ u) ++ d :: v)
        by (rewrite D; now rewrite <- app_assoc).
      rewrite F in C, K1, S. apply (series_q_intro pre f (m1 ++ u) d v C K1 S); [|lia].
      inversion A as [|? ? Af Am]. subst. constructor; [exact Af|]. rewrite D in Am.
      rewrite app_assoc in Am. apply Forall_app in Am as [Am Ad]. apply Forall_app. split; [exact Am|].
      inversion Ad. constructor; [assumption|constructor]. }
    destruct (clock_ok_series _ C) as [_ CS]. pose proof (constant_preset_ok p2 _ K2 P2) as P.
    assert (M : map snd (pre ++ f :: m1 ++ k :: m2 ++ [c]) =
      map snd (pre ++ f :: m1) ++ snd k :: map snd m2 ++ [snd c]).
    { replace (pre ++ f :: m1 ++ k :: m2 ++ [c]) with ((pre ++ f :: m1) ++ k :: (m2 ++ [c])) by (now rewrite <- app_assoc).
      rewrite map_app. cbn [map]. now rewrite (map_app _ m2). }
    rewrite M in *. apply ton_q_intro; try assumption.
    - change (snd k :: map snd m2 ++ [snd c]) with (map snd (k :: m2) ++ map snd [c]).
      rewrite <- map_app, Forall_map. exact B.
    - rewrite (constant_in p2 _ (snd c) K2); [exact L2|]. apply in_or_app. right. right. apply in_or_app. right. now left.
  Qed.

  Lemma debounce_elim : forall cycles, clock_ok (in_order cycles) -> constant_pt p1 (map fst cycles) ->
    constant_pt p2 (map snd cycles) -> in_series TON cycles -> timer_q TOF (map snd cycles) = true ->
    exists pre f mid k rest, cycles = pre ++ f :: mid ++ k :: rest /\
      Forall (fun d => tc_in (fst d) = true) (f :: mid ++ [k]) /\ p1 < tc_t2 (fst k) - tc_t1 (fst f) /\
      forall d m c, rest = d :: m ++ [c] -> tc_t2 (snd c) - tc_t1 (snd d) <= p2.
  Proof.
    intros cycles C K1 K2 S Q. destruct (clock_ok_series _ C) as [_ CS].
    pose proof (constant_preset_ok p2 _ K2 P2) as P.
    destruct (tof_q_elim _ CS P Q) as (pre & k & rest & E & I & _ & L).
    apply map_eq_app in E as (pre' & r & -> & <- & E). destruct r as [|k' rest']; [discriminate E|].
    cbn [map] in E. injection E as <- <-.
    destruct (series_q pre' k' rest' C K1 S I) as (a & g & m & E & B & L1).
    exists a, g, m, k', rest'. split; [|split; [exact B|split; [exact L1|]]].
    - change (k' :: rest') with ([k'] ++ rest') at 1. rewrite app_assoc, E. rewrite <- !app_assoc. cbn [app].
      f_equal. f_equal. now rewrite <- app_assoc.
    - intros d n c F. rewrite <- (constant_in p2 _ (snd c) K2).
      + apply (L (snd d) (map snd n) (snd c)). rewrite F. cbn [map]. now rewrite map_app.
      + apply in_map. apply in_or_app. right. right. rewrite F. right. apply in_or_app. right. now left.
  Qed.
  Lemma debounce_intro : forall pre f mid k d m c,
    let cycles := pre ++ f :: mid ++ k :: d :: m ++ [c] in
    clock_ok (in_order cycles) -> constant_pt p1 (map fst cycles) ->
    constant_pt p2 (map snd cycles) -> in_series TON cycles ->
    Forall (fun d => tc_in (fst d) = true) (f :: mid ++ [k]) -> p1 < tc_t2 (fst k) - tc_t1 (fst f) ->
    tc_t2 (snd c) - tc_t1 (snd d) <= p2 -> timer_q TOF (map snd cycles) = true.
  Proof.
    intros pre f mid k d m c cycles C K1 K2 S A L1 L2. unfold cycles in *. clear cycles.
    assert (I : tc_in (snd k) = true) by (apply (series_q_intro pre f mid k (d :: m ++ [c])); assumption).
    destruct (clock_ok_series _ C) as [_ CS]. pose proof (constant_preset_ok p2 _ K2 P2) as P.
    assert (M : map snd (pre ++ f :: mid ++ k :: d :: m ++ [c]) =
      map snd (pre ++ f :: mid) ++ snd k :: snd d :: map snd m ++ [snd c]).
    { replace (pre ++ f :: mid ++ k :: d :: m ++ [c]) with ((pre ++ f :: mid) ++ k :: d :: (m ++ [c]))
        by (now rewrite <- app_assoc).
      rewrite map_app. cbn [map]. now rewrite (map_app _ m). }
    rewrite M in *. apply tof_q_intro; try assumption.
    rewrite (constant_in p2 _ (snd c) K2); [exact L2|].
    apply in_or_app. right. right. right. apply in_or_app. right. now left.
  Qed.
End Series.

(** * Toggle *)

Lemma toggle_spec : forall f, In f [SR; RS] -> forall xs t p,
  toggle f t p xs = xorb (sr_output p) (Z.odd (rising_edges (current_value (tr_internal t)) xs)).
Proof.
  intros f F xs. induction xs as [|x r IH]; intros t p; [cbn; now rewrite xorb_false_r|].
  cbn [toggle rising_edges]. cbv zeta. rewrite IH. destruct t as [clk o [cv]], p as [s re q].
  unfold trig_call, R_TRIG, rising_edge. cbn [tr_internal tr_output current_value sr_output tr_clk].
  rewrite Z.odd_add. destruct F as [<-|[<-|[]]]; unfold sr_call, SR, RS; cbn [sr_output sr_set sr_reset fst snd];
    destruct x, cv, q, (Z.odd (rising_edges _ r)); reflexivity.
Qed.

(** * R_TRIG before CTU *)

Definition edges_from (prev : bool) (l : list bool) : list bool :=
  trig_outputs R_TRIG (Trigger false false (Signal prev)) l.
Lemma trig_outputs_sig : forall l t, trig_outputs R_TRIG t l = edges_from (current_value (tr_internal t)) l.
Proof. intros [|x l] [c o [s]]; reflexivity. Qed.
Lemma edges_cons : forall prev x l, edges_from prev (x :: l) = (x && negb prev) :: edges_from x l.
Proof.
  intros prev x l. unfold edges_from at 1. cbn [trig_outputs]. cbv zeta.
  rewrite trig_outputs_sig. destruct x, prev; reflexivity.
Qed.
Lemma last_cons : forall A (l : list A) x d, last (x :: l) d = last l x.
Proof. induction l as [|y l IH]; intros x d; [reflexivity|]. change (last (x :: y :: l) d) with (last (y :: l) d). now rewrite !IH. Qed.
Lemma edges_app : forall l prev m, edges_from prev (l ++ m) = edges_from prev l ++ edges_from (last l prev) m.
Proof.
  induction l as [|x l IH]; intros prev m; [reflexivity|]. cbn [app]. rewrite !edges_cons, IH. cbn [app].
  now rewrite last_cons.
Qed.
Lemma edges_length : forall l prev, length (edges_from prev l) = length l.
Proof. intros. apply trig_outputs_length. Qed.
Definition first_is (b : bool) (l : list bool) : bool := match l with x :: _ => x && b | [] => false end.
Lemma rising_edges_of_edges : forall l prev lvl,
  rising_edges lvl (edges_from prev l) = rising_edges prev l - bit (lvl && first_is (negb prev) l).
Proof.
  induction l as [|x l IH]; intros prev lvl.
  - cbn. now rewrite andb_false_r.
  - rewrite edges_cons. cbn [rising_edges first_is]. rewrite IH.
    assert (F : first_is false l = false) by (destruct l as [|[] ?]; reflexivity).
    destruct x, prev, lvl; cbn [andb negb bit]; rewrite ?F; cbn [bit]; lia.
Qed.
Definition wire (prev : bool) (h : list ctu_in) : list ctu_in :=
  map (fun p => CtuIn (fst p) (cui_r (snd p)) (cui_pv (snd p))) (combine (edges_from prev (map cui_cu h)) h).
Lemma through_wire : forall h, through_trigger h = wire false h.
Proof. reflexivity. Qed.
Lemma combine_app : forall A B (a b : list A) (c d : list B), length a = length c ->
  combine (a ++ b) (c ++ d) = combine a c ++ combine b d.
Proof.
  induction a as [|x a IH]; intros b [|y c] d L; try discriminate; [reflexivity|]. cbn. f_equal. apply IH. now injection L.
Qed.
Lemma wire_app : forall h prev m, wire prev (h ++ m) = wire prev h ++ wire (last (map cui_cu h) prev) m.
Proof.
  intros h prev m. unfold wire. rewrite map_app, edges_app, combine_app, map_app; [reflexivity|].
  now rewrite edges_length, map_length.
Qed.
Lemma wire_cu : forall h prev, map cui_cu (wire prev h) = edges_from prev (map cui_cu h).
Proof.
  intros h prev. unfold wire. rewrite map_map. cbn.
  assert (G : forall (a : list bool) (b : list ctu_in), length a = length b -> map (fun x => fst x) (combine a b) = a).
  { induction a as [|x a IH]; intros [|y b] L; try discriminate; [reflexivity|]. cbn. f_equal. apply IH. now injection L. }
  apply G. now rewrite edges_length, map_length.
Qed.
Lemma wire_r : forall h prev, map cui_r (wire prev h) = map cui_r h.
Proof.
  intros h prev. unfold wire. rewrite map_map. cbn.
  assert (G : forall (a : list bool) (b : list ctu_in), length a = length b ->
    map (fun x => cui_r (snd x)) (combine a b) = map cui_r b).
  { induction a as [|x a IH]; intros [|y b] L; try discriminate; [reflexivity|]. cbn. f_equal. apply IH. now injection L. }
  apply G. now rewrite edges_length, map_length.
Qed.
Lemma last_cu_prev : forall h, last (map cui_cu h) false = last_cu h. Proof. reflexivity. Qed.
Lemma wire_snoc : forall h i, wire false (h ++ [i]) = wire false h ++ [CtuIn (cui_cu i && negb (last_cu h)) (cui_r i) (cui_pv i)].
Proof.
  intros h i. rewrite wire_app, last_cu_prev. f_equal. unfold wire. cbn [map]. rewrite edges_cons. reflexivity.
Qed.
Lemma level_counted : forall h, ctu_level (wire false h) = true <-> counted_before_reset h.
Proof.
  induction h as [|i h IH] using rev_ind.
  - split; [discriminate|]. intros (a & c & b & E & _). now destruct a.
  - rewrite wire_snoc, ctu_level_snoc. cbn [cui_r cui_cu]. destruct (cui_r i) eqn:R.
    + rewrite IH. split; intros (a & c & b & E & Rc & B & X).
      * exists a, c, (b ++ [i]). split; [now rewrite E, <- app_assoc|]. split; [exact Rc|].
        split; [apply Forall_app; split; [exact B|constructor; [exact R|constructor]]|exact X].
      * destruct b as [|j b] using rev_ind.
        -- change (a ++ c :: []) with (a ++ [c]) in E. apply app_inj_tail in E as [_ <-]. congruence.
        -- clear IHb. rewrite app_comm_cons, app_assoc in E. apply app_inj_tail in E as [E <-].
           apply Forall_app in B as [B _]. exists a, c, b. now split.
    + rewrite andb_true_iff, negb_true_iff. split.
      * intros [I L]. exists h, i, []. repeat split; try assumption. constructor.
      * intros (a & c & b & E & Rc & B & I & L). destruct b as [|j b] using rev_ind.
        -- change (a ++ c :: []) with (a ++ [c]) in E. apply app_inj_tail in E as [-> ->]. now split.
        -- clear IHb. rewrite app_comm_cons, app_assoc in E. apply app_inj_tail in E as [_ <-].
           apply Forall_app in B as [_ B]. inversion B. congruence.
Qed.
Lemma ends_with_map : forall h prev, ends_with (fun i => cui_r i = true) h -> ends_with (fun i => cui_r i = true) (wire prev h).
Proof.
  intros h prev [-> | (h' & x & -> & X)]; [now left|]. right. rewrite wire_app.
  exists (wire prev h'). eexists. split; [f_equal; unfold wire; cbn [map]; rewrite edges_cons; reflexivity|]. exact X.
Qed.
Lemma trigger_count : forall p t h1 h2, In t counter_types ->
  ends_with (fun i => cui_r i = true) h1 -> Forall (fun i => cui_r i = false) h2 ->
  let lost := counted_before_reset h1 /\ last_cu h1 = false /\ exists i r, h2 = i :: r /\ cui_cu i = true in
  let n := rising_edges (last_cu h1) (map cui_cu h2) in
  exists s, ctu_run p t ctu_default (through_trigger (h1 ++ h2)) = Ok s /\
    (lost -> ctu_cv s = Z.min (imax t) (n - 1)) /\ (~ lost -> ctu_cv s = Z.min (imax t) n).
Proof.
  intros p t h1 h2 T E R lost n. rewrite through_wire, wire_app, last_cu_prev.
  destruct (ctu_counts_lemma p t (wire false h1) (wire (last_cu h1) h2)) as (s & Run & V).
  - exact T.
  - now apply ends_with_map.
  - assert (F : Forall (fun b => b = false) (map cui_r (wire (last_cu h1) h2)))
      by (rewrite wire_r; now rewrite Forall_map).
    now rewrite Forall_map in F.
  - exists s. split; [exact Run|]. rewrite wire_cu, rising_edges_of_edges in V. fold n in V. rewrite V.
    assert (L : lost <-> ctu_level (wire false h1) && first_is (negb (last_cu h1)) (map cui_cu h2) = true).
    { unfold lost. rewrite andb_true_iff, level_counted. split.
      - intros (A & B & i & r & -> & I). split; [exact A|]. cbn. now rewrite I, B.
      - intros [A B]. split; [exact A|]. destruct h2 as [|i r]; [discriminate B|]. cbn in B.
        apply andb_true_iff in B as [I B]. apply negb_true_iff in B. split; [exact B|]. now exists i, r. }
    destruct (ctu_level (wire false h1) && first_is (negb (last_cu h1)) (map cui_cu h2)); cbn [bit]; split; intros H.
    + f_equal; lia.
    + exfalso. apply H. now apply L.
    + apply L in H. discriminate H.
    + f_equal; lia.
Qed.
Lemma iec_count : forall hi h1 h2, 0 <= hi -> ends_with (fun i => cui_r i = true) h1 ->
  Forall (fun i => cui_r i = false) h2 ->
  iec_ctu_cv hi false 0 (h1 ++ h2) = Z.min hi (rising_edges (last_cu h1) (map cui_cu h2)).
Proof.
  intros hi h1 h2 H E R.
  assert (A : forall l prev cv m, iec_ctu_cv hi prev cv (l ++ m) =
    iec_ctu_cv hi (last (map cui_cu l) prev) (iec_ctu_cv hi prev cv l) m).
  { induction l as [|i l IH]; intros prev cv m; [reflexivity|]. cbn [app iec_ctu_cv map]. rewrite IH. f_equal.
    symmetry. apply last_cons. }
  rewrite A. assert (Z0 : iec_ctu_cv hi false 0 h1 = 0).
  { destruct E as [-> | (h' & x & -> & X)]; [reflexivity|]. rewrite A. cbn. now rewrite X. }
  rewrite Z0, last_cu_prev. clear A Z0 E.
  assert (G : forall m prev cv, Forall (fun i => cui_r i = false) m -> 0 <= cv <= hi ->
    iec_ctu_cv hi prev cv m = Z.min hi (cv + rising_edges prev (map cui_cu m))).
  { induction m as [|i m IH]; intros prev cv F B; [cbn; lia|]. inversion F as [|? ? Fi Fm]. subst. cbn [iec_ctu_cv map rising_edges].
    rewrite Fi, IH by (try assumption; unfold bit; destruct (_ && _); lia).
    pose proof (rising_edges_nonneg (map cui_cu m) (cui_cu i)). unfold bit. destruct (_ && _); lia. }
  rewrite G by (try assumption; lia). f_equal. 
Qed.
