(** Proofs about timers wired to each other, to edge triggers and to bistables. *)
From Coq Require Import ZArith List Bool Lia.
From Verif Require Import Base ModelFB ModelTimers SpecFB SpecCircuit SpecBlink ProofFB ProofTimers ProofCircuit.
Import ListNotations.
Open Scope Z_scope.

(** * Q of a TON whose input has just become TRUE, or stays TRUE *)

Lemma ton_q_run : forall a f m c, clock_ok (a ++ f :: m ++ [c]) -> preset_ok (a ++ f :: m ++ [c]) ->
  (a = [] \/ exists b x, a = b ++ [x] /\ tc_in x = false) ->
  Forall (fun d => tc_in d = true) (f :: m ++ [c]) ->
  timer_q TON (a ++ f :: m ++ [c]) = (tc_pt c <? tc_t2 c - tc_t1 f).
Proof.
  intros a f m c C P S A.
  unfold timer_q. replace (a ++ f :: m ++ [c]) with ((a ++ f :: m) ++ [c]) in * by (now rewrite <- app_assoc).
  rewrite ton_lemma by assumption. rewrite <- app_assoc. cbn [app].
  assert (W : suffix_while tc_in (a ++ f :: m ++ [c]) = f :: m ++ [c]).
  { apply forallb_Forall in A. destruct S as [-> | (b & x & -> & T)].
    - now apply suffix_while_all_id.
    - rewrite <- app_assoc. cbn [app]. apply suffix_while_cut; [exact T|exact A]. }
  rewrite W. destruct (m ++ [c]) as [|g s] eqn:E; [now destruct m|]. reflexivity.
Qed.
Lemma ton_q_first : forall a f, clock_ok (a ++ [f]) -> preset_ok (a ++ [f]) ->
  (a = [] \/ exists b x, a = b ++ [x] /\ tc_in x = false) -> timer_q TON (a ++ [f]) = false.
Proof.
  intros a f C P S. unfold timer_q. rewrite ton_lemma by assumption. rewrite suffix_while_snoc.
  destruct (tc_in f); [|reflexivity].
  assert (suffix_while tc_in a = []) as ->; [|reflexivity].
  destruct S as [-> | (b & x & -> & T)]; [reflexivity|]. now rewrite suffix_while_snoc, T.
Qed.
Lemma ton_q_stays : forall pt h c, clock_ok (h ++ [c]) -> constant_pt pt (h ++ [c]) -> 0 <= pt < 2 ^ 63 ->
  timer_q TON h = true -> tc_in c = true -> timer_q TON (h ++ [c]) = true.
Proof.
  intros pt h c C K B Q I. pose proof (constant_preset_ok pt _ K B) as P.
  destruct h as [|e h _] using rev_ind; [discriminate Q|].
  destruct (ton_q_elim h e) as (pre & f & mid & E & A & L).
  - now apply clock_ok_app_l in C.
  - now apply preset_ok_app_l in P.
  - exact Q.
  - subst h.
    assert (S : ((pre ++ f :: mid) ++ [e]) ++ [c] = pre ++ f :: (mid ++ [e]) ++ [c]) by (rewrite <- !app_assoc; reflexivity).
    rewrite (constant_in pt _ e K) in L by (apply in_or_app; left; apply in_or_app; right; now left).
    assert (O : tc_t2 e <= tc_t2 c).
    { rewrite <- app_assoc in C. cbn [app] in C. apply (clock_ok_between _ e [c] c) in C; [lia|now left]. }
    rewrite S in C, K, P |- *. apply ton_q_intro; try assumption.
    + rewrite app_comm_cons in A |- *. apply Forall_app. split; [exact A|]. constructor; [exact I|constructor].
    + rewrite (constant_in pt _ c K) by (apply in_or_app; right; right; apply in_or_app; right; now left). lia.
Qed.

Section Generator.
  Variables (p1 p2 : Z).
  Hypotheses (P1 : 0 <= p1 < 2 ^ 63) (P2 : 0 <= p2 < 2 ^ 63).

  Definition good (l : list (tcall * tcall)) : Prop :=
    clock_ok (in_order l) /\ constant_pt p1 (map fst l) /\ constant_pt p2 (map snd l) /\ pulse_generator l.
  Lemma good_app : forall a b, good (a ++ b) -> good a.
  Proof.
    intros a b (C & K1 & K2 & G). repeat split.
    - rewrite in_order_app in C. apply clock_ok_app_l in C. apply C.
    - rewrite in_order_app in C. apply clock_ok_app_l in C. apply C.
    - rewrite map_app in K1. apply Forall_app in K1. apply K1.
    - rewrite map_app in K2. apply Forall_app in K2. apply K2.
    - destruct (G a0 c (b0 ++ b)) as [X _]; [now rewrite H, <- app_assoc|exact X].
    - destruct (G a0 c (b0 ++ b)) as [_ X]; [now rewrite H, <- app_assoc|exact X].
  Qed.
  Lemma good_first : forall l, good l -> clock_ok (map fst l) /\ constant_pt p1 (map fst l) /\ preset_ok (map fst l).
  Proof. intros l (C & K1 & _). apply clock_ok_series in C as [C _]. repeat split; try apply C; try assumption. now apply (constant_preset_ok p1). Qed.
  Lemma good_second : forall l, good l -> clock_ok (map snd l) /\ constant_pt p2 (map snd l) /\ preset_ok (map snd l).
  Proof. intros l (C & _ & K2 & _). apply clock_ok_series in C as [_ C]. repeat split; try apply C; try assumption. now apply (constant_preset_ok p2). Qed.
  Lemma on_in : forall a c b, good (a ++ c :: b) -> tc_in (fst c) = negb (off_q a).
  Proof. intros a c b (_ & _ & _ & G). now apply (G a c b). Qed.
  Lemma off_in : forall a c b, good (a ++ c :: b) -> tc_in (snd c) = on_q (a ++ [c]).
  Proof. intros a c b (_ & _ & _ & G). now apply (G a c b). Qed.
  Lemma map_one : forall A B (f : A -> B) a x m c, map f (a ++ x :: m ++ [c]) = map f a ++ f x :: map f m ++ [f c].
  Proof. intros. rewrite map_app. cbn [map]. now rewrite map_app. Qed.

  (** The TRUE phase. *)
  Lemma on_stays : forall a i m, good (a ++ i :: m) -> on_q (a ++ [i]) = true ->
    (forall m1 m2, m = m1 ++ m2 -> m2 <> [] -> off_q (a ++ i :: m1) = false) ->
    forall m1 m2, m = m1 ++ m2 -> on_q (a ++ i :: m1) = true.
  Proof.
    intros a i m G Q N. induction m1 as [|e m1 IH] using rev_ind; intros m2 E; [exact Q|].
    rewrite <- app_assoc in E. cbn [app] in E. specialize (IH _ E).
    assert (G' : good ((a ++ i :: m1) ++ [e])).
    { apply (good_app _ m2). rewrite E in G. replace ((((a ++ i :: m1) ++ [e]) ++ m2)) with (a ++ i :: m1 ++ e :: m2); [exact G|].
      now rewrite <- !app_assoc. }
    replace (a ++ i :: m1 ++ [e]) with ((a ++ i :: m1) ++ [e]) by (now rewrite <- app_assoc).
    destruct (good_first _ G') as (C & K & P). unfold on_q in *. rewrite map_app in C, K |- *. cbn [map] in *.
    apply (ton_q_stays p1); try assumption. rewrite (on_in (a ++ i :: m1) e [] G'), (N m1 (e :: m2) E) by discriminate. reflexivity.
  Qed.
  Lemma true_phase : forall a i m c, good (a ++ i :: m ++ [c]) -> on_q a = false -> on_q (a ++ [i]) = true ->
    (forall m1 m2, m = m1 ++ m2 -> off_q (a ++ i :: m1) = false) ->
    on_q (a ++ i :: m ++ [c]) = true /\ off_q (a ++ i :: m ++ [c]) = (p2 <? tc_t2 (snd c) - tc_t1 (snd i)).
  Proof.
    intros a i m c G QA QI N.
    assert (ON : forall m1 m2, m ++ [c] = m1 ++ m2 -> on_q (a ++ i :: m1) = true).
    { apply (on_stays a i (m ++ [c]) G QI). intros m1 m2 E NE. destruct m2 as [|y m2 _] using rev_ind; [congruence|].
      rewrite app_assoc in E. apply app_inj_tail in E as [E _]. now apply (N m1 m2). }
    split; [apply (ON (m ++ [c]) []); now rewrite app_nil_r|].
    destruct (good_second _ G) as (C & K & P). unfold off_q. rewrite map_one in *.
    rewrite (ton_q_run (map snd a) (snd i) (map snd m) (snd c)); try assumption.
    - now rewrite (constant_in p2 _ (snd c) K) by (apply in_or_app; right; right; apply in_or_app; right; now left).
    - destruct a as [|x a _] using rev_ind; [now left|]. right. exists (map snd a), (snd x). split; [now rewrite map_app|].
      rewrite (off_in a x (i :: m ++ [c])); [exact QA|]. now rewrite <- app_assoc in G.
    - constructor.
      + rewrite (off_in a i (m ++ [c]) G). exact QI.
      + change [snd c] with (map snd [c]). rewrite <- map_app. apply Forall_map. apply Forall_forall. intros d D.
        apply in_split in D as (m1 & m2 & E).
        rewrite (off_in (a ++ i :: m1) d m2).
        * rewrite <- app_assoc. cbn [app]. apply (ON (m1 ++ [d]) m2). now rewrite E, <- app_assoc.
        * replace ((a ++ i :: m1) ++ d :: m2) with (a ++ i :: m ++ [c]); [exact G|]. rewrite E, <- app_assoc. reflexivity.
  Qed.

  (** The FALSE phase. *)
  Lemma off_now : forall a x, good (a ++ [x]) -> off_q a = true -> on_q (a ++ [x]) = false /\ off_q (a ++ [x]) = false.
  Proof.
    intros a x G Q.
    assert (A : on_q (a ++ [x]) = false).
    { destruct (good_first _ G) as (C & K & P). unfold on_q. rewrite map_app in *. cbn [map] in *.
      apply ton_q_off; try assumption. rewrite (on_in a x [] G), Q. reflexivity. }
    split; [exact A|].
    destruct (good_second _ G) as (C & K & P). unfold off_q. rewrite map_app in *. cbn [map] in *.
    apply ton_q_off; try assumption. rewrite (off_in a x [] G). exact A.
  Qed.
  Lemma at_rest_off : forall a r, good (a ++ r) -> at_rest a -> on_q a = false /\ off_q a = false /\
    (map fst a = [] \/ exists b x, map fst a = b ++ [x] /\ tc_in x = false).
  Proof.
    intros a r G [->|(b & x & -> & Q)]; [repeat split; now left|].
    apply good_app in G. destruct (off_now b x G Q) as [A B]. split; [exact A|]. split; [exact B|]. right.
    exists (map fst b), (fst x). split; [now rewrite map_app|]. now rewrite (on_in b x [] G), Q.
  Qed.
  Lemma off_stays : forall a f m, good (a ++ f :: m) -> at_rest a ->
    (forall m1 m2, m = m1 ++ m2 -> m2 <> [] -> on_q (a ++ f :: m1) = false) ->
    forall m1 m2, m = m1 ++ m2 -> m2 <> [] -> off_q (a ++ f :: m1) = false.
  Proof.
    intros a f m G R N m1 m2 E NE.
    assert (G' : exists l e, a ++ f :: m1 = l ++ [e]).
    { destruct m1 as [|e m1 _] using rev_ind; [exists a, f; reflexivity|]. exists (a ++ f :: m1), e. now rewrite <- app_assoc. }
    destruct G' as (l & e & L). pose proof (N m1 m2 E NE) as Q. rewrite L in *.
    assert (G' : good (l ++ [e])) by (apply (good_app _ m2); rewrite <- L, <- app_assoc; cbn; rewrite <- E; exact G).
    destruct (good_second _ G') as (C & K & P). unfold off_q. rewrite map_app in *. cbn [map] in *.
    apply ton_q_off; try assumption. now rewrite (off_in l e [] G').
  Qed.
  Lemma false_phase : forall a f m c, good (a ++ f :: m ++ [c]) -> at_rest a ->
    (forall m1 m2, m = m1 ++ m2 -> on_q (a ++ f :: m1) = false) ->
    off_q (a ++ f :: m) = false /\ on_q (a ++ f :: m ++ [c]) = (p1 <? tc_t2 (fst c) - tc_t1 (fst f)).
  Proof.
    intros a f m c G R N.
    assert (N' : forall m1 m2, m ++ [c] = m1 ++ m2 -> m2 <> [] -> on_q (a ++ f :: m1) = false).
    { intros m1 m2 E NE. destruct m2 as [|y m2 _] using rev_ind; [congruence|].
      rewrite app_assoc in E. apply app_inj_tail in E as [E _]. now apply (N m1 m2). }
    pose proof (off_stays a f (m ++ [c]) G R N') as O.
    destruct (at_rest_off a _ G R) as (_ & QO & S).
    split; [now apply (O m [c])|].
    destruct (good_first _ G) as (C & K & P). unfold on_q. rewrite map_one in *.
    rewrite (ton_q_run (map fst a) (fst f) (map fst m) (fst c)); try assumption.
    - now rewrite (constant_in p1 _ (fst c) K) by (apply in_or_app; right; right; apply in_or_app; right; now left).
    - constructor.
      + rewrite (on_in a f (m ++ [c]) G), QO. reflexivity.
      + change [fst c] with (map fst [c]). rewrite <- map_app. apply Forall_map. apply Forall_forall. intros d D.
        apply in_split in D as (m1 & m2 & E).
        rewrite (on_in (a ++ f :: m1) d m2).
        * rewrite (O m1 (d :: m2) E) by discriminate. reflexivity.
        * replace ((a ++ f :: m1) ++ d :: m2) with (a ++ f :: m ++ [c]); [exact G|]. rewrite E, <- app_assoc. reflexivity.
  Qed.
  Lemma first_false : forall a f, good (a ++ [f]) -> at_rest a -> on_q (a ++ [f]) = false /\ off_q (a ++ [f]) = false.
  Proof.
    intros a f G R. destruct (at_rest_off a _ G R) as (_ & QO & S).
    assert (A : on_q (a ++ [f]) = false).
    { destruct (good_first _ G) as (C & K & P). unfold on_q. rewrite map_app in *. cbn [map] in *. now apply ton_q_first. }
    split; [exact A|]. destruct (good_second _ G) as (C & K & P). unfold off_q. rewrite map_app in *. cbn [map] in *.
    apply ton_q_off; try assumption. rewrite (off_in a f [] G). exact A.
  Qed.

  (** The lengths of the phases. *)
  Lemma fall_after_tick : forall b x, good (b ++ [x]) -> on_q b = true -> on_q (b ++ [x]) = false -> off_q b = true.
  Proof.
    intros b x G Q F. destruct (off_q b) eqn:O; [reflexivity|]. exfalso.
    destruct (good_first _ G) as (C & K & P). unfold on_q in *. rewrite map_app in *. cbn [map] in *.
    rewrite (ton_q_stays p1) in F; try assumption; [discriminate F|]. now rewrite (on_in b x [] G), O.
  Qed.
  Lemma true_length : forall a i m x, good (a ++ i :: m ++ [x]) -> on_q a = false ->
    (forall m1 m2, m = m1 ++ m2 -> on_q (a ++ i :: m1) = true) -> on_q (a ++ i :: m ++ [x]) = false ->
    exists m' e, m = m' ++ [e] /\ p2 < tc_t2 (snd e) - tc_t1 (snd i) /\
      forall d, In d m' -> tc_t2 (snd d) - tc_t1 (snd i) <= p2.
  Proof.
    intros a i m x G QA ON F.
    assert (E : a ++ i :: m ++ [x] = (a ++ i :: m) ++ [x]) by (now rewrite <- app_assoc).
    assert (O : off_q (a ++ i :: m) = true).
    { apply (fall_after_tick _ x); [now rewrite <- E|apply (ON m []); now rewrite app_nil_r|now rewrite <- E]. }
    assert (Gm : good (a ++ i :: m)) by (apply (good_app _ [x]); now rewrite <- E).
    assert (QI : on_q (a ++ [i]) = true) by (apply (ON [] m); reflexivity).
    assert (B : forall m1 d m2, m = m1 ++ d :: m2 -> off_q (a ++ i :: m1) = false).
    { intros m1 d m2 Em. destruct (off_q (a ++ i :: m1)) eqn:X; [|reflexivity]. exfalso.
      destruct (off_now (a ++ i :: m1) d) as [Y _]; [|exact X|].
      - apply (good_app _ m2). rewrite Em in Gm. replace (((a ++ i :: m1) ++ [d]) ++ m2) with (a ++ i :: m1 ++ d :: m2); [exact Gm|].
        now rewrite <- !app_assoc.
      - rewrite <- app_assoc in Y. cbn [app] in Y. rewrite (ON (m1 ++ [d]) m2) in Y; [discriminate Y|]. now rewrite Em, <- app_assoc. }
    assert (T : forall m1 d m2, m = m1 ++ d :: m2 -> off_q (a ++ i :: m1 ++ [d]) = (p2 <? tc_t2 (snd d) - tc_t1 (snd i))).
    { intros m1 d m2 Em. apply true_phase; try assumption.
      - apply (good_app _ m2). rewrite Em in Gm. replace ((a ++ i :: m1 ++ [d]) ++ m2) with (a ++ i :: m1 ++ d :: m2); [exact Gm|].
        rewrite <- !app_assoc. cbn. now rewrite <- app_assoc.
      - intros u v Em1. destruct v as [|w v].
        + rewrite app_nil_r in Em1. subst u. now apply (B m1 d m2).
        + apply (B u w (v ++ d :: m2)). rewrite Em, Em1, <- app_assoc. reflexivity. }
    destruct m as [|e m' _] using rev_ind.
    - exfalso.
      assert (X : off_q (a ++ [i]) = false).
      { destruct (good_second _ Gm) as (C & K & P). unfold off_q. rewrite map_app in *. cbn [map] in *.
        apply ton_q_first; try assumption. destruct a as [|y a _] using rev_ind; [now left|]. right.
        exists (map snd a), (snd y). split; [now rewrite map_app|]. rewrite (off_in a y [i]); [exact QA|]. now rewrite <- app_assoc in Gm. }
      congruence.
    - exists m', e. split; [reflexivity|]. split.
      + rewrite (T m' e []) in O by reflexivity. now apply Z.ltb_lt.
      + intros d D. apply in_split in D as (m1 & m2 & Em).
        assert (X : off_q (a ++ i :: m1 ++ [d]) = false).
        { destruct m2 as [|w m2]; [apply (B (m1 ++ [d]) e [])|apply (B (m1 ++ [d]) w (m2 ++ [e]))]; rewrite Em, <- !app_assoc; reflexivity. }
        rewrite (T m1 d (m2 ++ [e])) in X by (rewrite Em, <- app_assoc; reflexivity). now apply Z.ltb_ge.
  Qed.
  Lemma false_length : forall b x m j, good (b ++ x :: m ++ [j]) -> on_q b = true ->
    (forall m1 m2, m = m1 ++ m2 -> on_q (b ++ x :: m1) = false) -> on_q (b ++ x :: m ++ [j]) = true ->
    exists f m', m = f :: m' /\ p1 < tc_t2 (fst j) - tc_t1 (fst f) /\
      forall d, In d m' -> tc_t2 (fst d) - tc_t1 (fst f) <= p1.
  Proof.
    intros b x m j G QB OFF J.
    assert (E : b ++ x :: m ++ [j] = (b ++ [x]) ++ m ++ [j]) by (now rewrite <- app_assoc).
    assert (R : at_rest (b ++ [x])).
    { right. exists b, x. split; [reflexivity|]. apply (fall_after_tick b x); [|exact QB|apply (OFF [] m); reflexivity].
      apply (good_app _ (m ++ [j])). now rewrite <- E. }
    destruct m as [|f m'].
    - exfalso. cbn [app] in *. rewrite E in *. destruct (first_false _ _ G R) as [X _]. congruence.
    - exists f, m'. split; [reflexivity|].
      assert (T : forall m1 d m2, m' ++ [j] = m1 ++ d :: m2 -> on_q (b ++ x :: f :: m1 ++ [d]) = (p1 <? tc_t2 (fst d) - tc_t1 (fst f))).
      { intros m1 d m2 Em.
        assert (S : b ++ x :: f :: m1 ++ [d] = (b ++ [x]) ++ f :: m1 ++ [d]) by (now rewrite <- app_assoc).
        rewrite S. apply false_phase; [|exact R|].
        - apply (good_app _ m2). rewrite <- S. cbn [app] in G. rewrite Em in G.
          replace ((b ++ x :: f :: m1 ++ [d]) ++ m2) with (b ++ x :: f :: m1 ++ d :: m2); [exact G|].
          rewrite <- !app_assoc. cbn. now rewrite <- app_assoc.
        - intros u v Em1. rewrite <- app_assoc. cbn [app].
          destruct m2 as [|w m2 _] using rev_ind.
          + apply app_inj_tail in Em as [-> _]. apply (OFF (f :: u) v). cbn. now rewrite Em1.
          + rewrite app_comm_cons, app_assoc in Em. apply app_inj_tail in Em as [Em _].
            apply (OFF (f :: u) (v ++ d :: m2)). cbn. rewrite Em, Em1, <- app_assoc. reflexivity. }
      split.
      + cbn [app] in J. rewrite (T m' j []) in J by reflexivity. now apply Z.ltb_lt.
      + intros d D. apply in_split in D as (m1 & m2 & Em).
        assert (X : on_q (b ++ x :: f :: m1 ++ [d]) = false) by (apply (OFF (f :: m1 ++ [d]) m2); cbn; now rewrite Em, <- app_assoc).
        rewrite (T m1 d (m2 ++ [j])) in X by (rewrite Em, <- app_assoc; reflexivity). now apply Z.ltb_ge.
  Qed.
End Generator.

(** * Timers behind an edge trigger *)

Lemma edges_of : forall pre r, trig_outputs R_TRIG trigger_default (pre ++ r) =
  trig_outputs R_TRIG trigger_default pre ++ trig_outputs R_TRIG (Trigger false false (Signal (last pre false))) r.
Proof.
  assert (H : forall pre r t, trig_outputs R_TRIG t (pre ++ r) =
    trig_outputs R_TRIG t pre ++ trig_outputs R_TRIG (Trigger false false (Signal (last pre (current_value (tr_internal t))))) r).
  { induction pre as [|x pre IH]; intros r t.
    - destruct t as [c q [m]]. destruct r; reflexivity.
    - cbn [app trig_outputs]. rewrite IH, last_cons. destruct t as [c q [m]]. reflexivity. }
  intros pre r. apply (H pre r trigger_default).
Qed.
Lemma no_edge_spec : forall r m, rising_edges m r = 0 <->
  Forall (fun q => q = false) (trig_outputs R_TRIG (Trigger false false (Signal m)) r).
Proof.
  induction r as [|x r IH]; intros m; [split; [constructor|reflexivity]|]. cbn [rising_edges trig_outputs].
  pose proof (rising_edges_nonneg r x).
  assert (S : trig_outputs R_TRIG (trig_call R_TRIG (Trigger false false (Signal m)) x) r = trig_outputs R_TRIG (Trigger false false (Signal x)) r)
    by (destruct r; reflexivity).
  rewrite S. cbn -[Z.add]. rewrite Forall_cons_iff, <- IH. destruct x, m; cbn -[Z.add]; intuition; try lia; try discriminate.
Qed.
Lemma map_split : forall A B (f : A -> B) l a b, map f l = a ++ b -> length a = length (map f (firstn (length a) l)) /\
  map f (firstn (length a) l) = a /\ map f (skipn (length a) l) = b.
Proof.
  intros A B f l a b E. rewrite <- firstn_map, <- skipn_map, E.
  rewrite firstn_app, skipn_app, Nat.sub_diag, firstn_all, skipn_all. cbn. now rewrite app_nil_r.
Qed.
Lemma ins_app : forall (g : bool -> bool) pre r,
  map (fun c => tc_in (snd c)) (pre ++ r) = map g (trig_outputs R_TRIG trigger_default (map fst (pre ++ r))) ->
  map (fun c : bool * tcall => tc_in (snd c)) r =
  map g (trig_outputs R_TRIG (Trigger false false (Signal (before pre))) (map fst r)).
Proof.
  intros g pre r H. rewrite !map_app, edges_of, map_app in H.
  assert (L : length (map (fun c : bool * tcall => tc_in (snd c)) pre) = length (map g (trig_outputs R_TRIG trigger_default (map fst pre))))
    by (now rewrite !map_length, trig_outputs_length, map_length).
  apply (f_equal (skipn (length (map (fun c : bool * tcall => tc_in (snd c)) pre)))) in H.
  rewrite skipn_app, Nat.sub_diag, skipn_all in H. cbn [skipn app] in H. rewrite H, L, skipn_app, Nat.sub_diag, skipn_all. reflexivity.
Qed.
Lemma quiet_iff : forall pre r, fed_by_no_edges (pre ++ r) ->
  (no_edge_in pre r <-> Forall (fun d => tc_in d = true) (map snd r)).
Proof.
  intros pre r H. apply ins_app in H. unfold no_edge_in. rewrite no_edge_spec. rewrite !Forall_forall.
  assert (M : map tc_in (map snd r) = map negb (trig_outputs R_TRIG (Trigger false false (Signal (before pre))) (map fst r)))
    by (rewrite map_map; exact H). clear H.
  revert M. generalize (trig_outputs R_TRIG (Trigger false false (Signal (before pre))) (map fst r)) as q. generalize (map snd r) as l.
  induction l as [|c l IH]; intros [|b q] M; try discriminate M; [split; intros _ ? []|]. cbn in M. injection M as Mb M.
  specialize (IH _ M). split; intros H d [<-|D].
  - rewrite Mb, (H b) by now left. reflexivity.
  - apply IH; [|exact D]. intros z Z. apply H. now right.
  - apply negb_true_iff. rewrite <- Mb. apply H. now left.
  - apply IH; [|exact D]. intros z Z. apply H. now right.
Qed.
Lemma watchdog : forall pt cycles, 0 <= pt < 2 ^ 63 -> clock_ok (map snd cycles) -> constant_pt pt (map snd cycles) ->
  fed_by_no_edges cycles ->
  (timer_q TON (map snd cycles) = true <->
   exists pre f mid c, cycles = pre ++ f :: mid ++ [c] /\ no_edge_in pre (f :: mid ++ [c]) /\
     pt < tc_t2 (snd c) - tc_t1 (snd f)).
Proof.
  intros pt cycles B C K W. pose proof (constant_preset_ok pt _ K B) as P. split.
  - intros Q. destruct cycles as [|c cycles _] using rev_ind; [discriminate Q|].
    rewrite map_app in C, K, P, Q. cbn [map] in *.
    destruct (ton_q_elim _ _ C P Q) as (pre & f & mid & E & A & L).
    apply map_eq_app in E as (pre' & r & -> & <- & E). destruct r as [|f' mid']; [discriminate E|].
    cbn [map] in E. injection E as <- <-. exists pre', f', mid', c. split; [now rewrite <- app_assoc|]. split.
    + rewrite <- app_assoc in W. cbn [app] in W. apply (quiet_iff pre' (f' :: mid' ++ [c])) in W. apply W.
      cbn [map]. rewrite map_app. exact A.
    + now rewrite (constant_in pt _ (snd c) K) in L by (apply in_or_app; right; now left).
  - intros (pre & f & mid & c & -> & N & L). apply (quiet_iff _ _ W) in N.
    rewrite map_app in *. cbn [map] in *. rewrite map_app in *. cbn [map] in *.
    apply ton_q_intro; try assumption. now rewrite (constant_in pt _ (snd c) K) by (apply in_or_app; right; right; apply in_or_app; right; now left).
Qed.

Lemma edge_iff : forall pre k rest, fed_by_edges (pre ++ k :: rest) ->
  (tc_in (snd k) = true <-> fst k = true /\ before pre = false) /\
  (no_edge_in (pre ++ [k]) rest <-> Forall (fun d => tc_in d = false) (map snd rest)).
Proof.
  intros pre k rest H.
  assert (H' : map (fun c : bool * tcall => tc_in (snd c)) (pre ++ k :: rest) =
    map (fun b => b) (trig_outputs R_TRIG trigger_default (map fst (pre ++ k :: rest)))) by (rewrite map_id; exact H).
  split.
  - apply ins_app in H'. cbn in H'. injection H' as E _. rewrite E. destruct (fst k), (before pre); cbn; intuition congruence.
  - rewrite (app_cons_snoc _ pre k rest) in H'. apply ins_app in H'. rewrite map_id in H'. unfold no_edge_in. rewrite no_edge_spec.
    rewrite <- H'. rewrite !Forall_map. reflexivity.
Qed.
Lemma retriggerable : forall pt cycles, 0 <= pt < 2 ^ 63 -> clock_ok (map snd cycles) -> constant_pt pt (map snd cycles) ->
  fed_by_edges cycles ->
  (timer_q TOF (map snd cycles) = true <->
   exists pre k rest, cycles = pre ++ k :: rest /\ (fst k = true /\ before pre = false) /\ no_edge_in (pre ++ [k]) rest /\
     forall d m c, rest = d :: m ++ [c] -> tc_t2 (snd c) - tc_t1 (snd d) <= pt).
Proof.
  intros pt cycles B C K W. pose proof (constant_preset_ok pt _ K B) as P. split.
  - intros Q. destruct (tof_q_elim _ C P Q) as (pre & k & rest & E & I & A & L).
    apply map_eq_app in E as (pre' & r & -> & <- & E). destruct r as [|k' rest']; [discriminate E|].
    cbn [map] in E. injection E as <- <-. exists pre', k', rest'. split; [reflexivity|].
    destruct (edge_iff _ _ _ W) as [E1 E2]. split; [now apply E1|]. split; [now apply E2|].
    intros d m c ->. specialize (L (snd d) (map snd m) (snd c)). cbn [map] in L. rewrite map_app in L. specialize (L eq_refl).
    rewrite (constant_in pt _ (snd c) K) in L; [exact L|]. apply in_map. apply in_or_app. right. right. right. apply in_or_app. right. now left.
  - intros (pre & k & rest & -> & I & N & L). destruct (edge_iff _ _ _ W) as [E1 E2]. apply E1 in I. apply E2 in N.
    destruct rest as [|d rest].
    + unfold timer_q. rewrite map_app in *. cbn [map] in *. rewrite tof_lemma by assumption. now rewrite I.
    + destruct rest as [|c rest _] using rev_ind.
      * unfold timer_q. rewrite map_app in *. cbn [map] in *. inversion N as [|? ? Nd _]; subst.
        rewrite (app_cons_snoc _ (map snd pre) (snd k) [snd d]) in *. rewrite tof_lemma by assumption. rewrite Nd.
        rewrite existsb_app. cbn [existsb]. rewrite I, orb_true_r. rewrite suffix_while_snoc. rewrite Nd. cbn [negb].
        rewrite suffix_while_snoc, I. reflexivity.
      * rewrite map_app in *. cbn [map] in *. rewrite map_app in *. cbn [map] in *. apply tof_q_intro; try assumption.
        rewrite (constant_in pt _ (snd c) K) by (apply in_or_app; right; right; right; apply in_or_app; right; now left).
        now apply (L d rest c).
Qed.

(** * A timer behind a latch *)

Lemma latched_snoc : forall cycles s t c ack, latched s t (cycles ++ [(c, ack)]) =
  timer_q TON (t ++ map fst cycles ++ [c]) || (negb ack && latched s t cycles).
Proof.
  induction cycles as [|[d k] cycles IH]; intros s t c ack; [reflexivity|].
  cbn [app latched map fst]. rewrite IH. now rewrite <- app_assoc.
Qed.
Lemma latch : forall pt cycles s, 0 <= pt < 2 ^ 63 -> clock_ok (map fst cycles) -> constant_pt pt (map fst cycles) ->
  sr_output s = false ->
  (latched s [] cycles = true <->
   exists pre f mid c rest, cycles = pre ++ f :: mid ++ c :: rest /\
     Forall (fun d => tc_in (fst d) = true) (f :: mid ++ [c]) /\ pt < tc_t2 (fst c) - tc_t1 (fst f) /\
     Forall (fun d => snd d = false) rest).
Proof.
  intros pt cycles s B C K S. induction cycles as [|[e ack] cycles IH] using rev_ind.
  - cbn. rewrite S. split; [discriminate|]. intros (pre & f & mid & c & rest & E & _). now destruct pre.
  - pose proof (constant_preset_ok pt _ K B) as P. rewrite map_app in C, K, P. cbn [map fst] in C, K, P.
    assert (IH' := IH (clock_ok_app_l _ _ C) (proj1 (proj1 (Forall_app _ _ _) K))). clear IH.
    rewrite latched_snoc. cbn [app]. rewrite orb_true_iff, andb_true_iff, negb_true_iff. split.
    + intros [Q|[A L]].
      * destruct (ton_q_elim _ _ C P Q) as (pre & f & mid & E & A & L).
        apply map_eq_app in E as (pre' & r & -> & <- & E). destruct r as [|f' mid']; [discriminate E|].
        cbn [map] in E. injection E as <- <-. exists pre', f', mid', (e, ack), []. split; [now rewrite <- app_assoc|].
        split; [|split; [|constructor]].
        -- change (fst f' :: map fst mid' ++ [e]) with (map fst (f' :: mid') ++ map fst [(e, ack)]) in A.
           rewrite <- map_app in A. rewrite Forall_map in A. exact A.
        -- cbn [fst]. now rewrite (constant_in pt _ e K) in L by (apply in_or_app; right; now left).
      * apply IH' in L as (pre & f & mid & c & rest & -> & F & L & R). exists pre, f, mid, c, (rest ++ [(e, ack)]).
        split; [now rewrite <- app_assoc; cbn; rewrite <- app_assoc|]. split; [exact F|]. split; [exact L|].
        apply Forall_app. split; [exact R|]. constructor; [exact A|constructor].
    + intros (pre & f & mid & c & rest & E & F & L & R). destruct rest as [|z rest _] using rev_ind.
      * left. replace (pre ++ f :: mid ++ [c]) with ((pre ++ f :: mid) ++ [c]) in E by (now rewrite <- app_assoc).
        apply app_inj_tail in E as [-> <-]. rewrite map_app in *. cbn [map] in *. rewrite <- app_assoc in *. cbn [app] in *.
        apply ton_q_intro; try assumption.
        -- change (fst f :: map fst mid ++ [e]) with (map fst (f :: mid) ++ map fst [(e, ack)]). rewrite <- map_app, Forall_map. exact F.
        -- rewrite (constant_in pt _ e K) by (apply in_or_app; right; right; apply in_or_app; right; now left). exact L.
      * right. replace (pre ++ f :: mid ++ c :: rest ++ [z]) with ((pre ++ f :: mid ++ c :: rest) ++ [z]) in E
          by (rewrite <- app_assoc; cbn; now rewrite <- app_assoc).
        apply app_inj_tail in E as [-> <-]. apply Forall_app in R as [R Z]. inversion Z as [|? ? Za _]; subst. split; [exact Za|].
        apply IH'. exists pre, f, mid, c, rest. auto.
Qed.
