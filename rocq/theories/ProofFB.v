(** Proofs for triggers, bistables and counters. *)
From Coq Require Import ZArith List Bool Lia.
From Verif Require Import Base ModelFB ModelCounters SpecFB ProofBase.
Import ListNotations.
Open Scope Z_scope.

(** * Triggers *)

Lemma trig_outputs_length : forall f t l, length (trig_outputs f t l) = length l.
Proof. intros f t l. revert t. induction l; intros; cbn; auto. Qed.

Definition prev_from (b : bool) (l : list bool) (k : nat) : bool :=
  match k with O => b | S j => nth j l false end.

Lemma r_trig_gen : forall l t k, (k < length l)%nat ->
  nth k (trig_outputs R_TRIG t l) false
  = nth k l false && negb (prev_from (current_value (tr_internal t)) l k).
Proof.
  induction l as [|c l IH]; intros t k Hk; cbn in Hk; [lia|].
  destruct k as [|k]; cbn.
  - destruct c, (current_value (tr_internal t)); reflexivity.
  - rewrite IH by lia. cbn. destruct k; reflexivity.
Qed.

Lemma f_trig_gen : forall l t k, (k < length l)%nat ->
  nth k (trig_outputs F_TRIG t l) false
  = negb (nth k l false) && prev_from (current_value (tr_internal t)) l k.
Proof.
  induction l as [|c l IH]; intros t k Hk; cbn in Hk; [lia|].
  destruct k as [|k]; cbn.
  - destruct c, (current_value (tr_internal t)); reflexivity.
  - rewrite IH by lia. cbn. destruct k; reflexivity.
Qed.

Lemma r_trig_spec : forall l k, (k < length l)%nat ->
  nth k (trig_outputs R_TRIG trigger_default l) false = nth k l false && negb (previous l k).
Proof. intros. now rewrite r_trig_gen. Qed.

Lemma f_trig_spec : forall l k, (k < length l)%nat ->
  nth k (trig_outputs F_TRIG trigger_default l) false = negb (nth k l false) && previous l k.
Proof. intros. now rewrite f_trig_gen. Qed.

(** * Bistables *)

Lemma last_such_snoc : forall A f (l : list A) x,
  last_such f (l ++ [x]) = if f x then Some x else last_such f l.
Proof. intros. unfold last_such. rewrite rev_app_distr. reflexivity. Qed.

Lemma sr_spec : forall p ins,
  sr_output (sr_run SR p ins) =
  match last_such (fun i => fst i || snd i) ins with
  | Some (s, _) => s
  | None => sr_output p
  end.
Proof.
  intros p ins. induction ins as [|[s r] ins IH] using rev_ind; [reflexivity|].
  unfold sr_run in *. rewrite fold_left_app, last_such_snoc. cbn -[last_such].
  rewrite IH. destruct s, r; reflexivity.
Qed.

Lemma rs_spec : forall p ins,
  sr_output (sr_run RS p ins) =
  match last_such (fun i => fst i || snd i) ins with
  | Some (_, r) => negb r
  | None => sr_output p
  end.
Proof.
  intros p ins. induction ins as [|[s r] ins IH] using rev_ind; [reflexivity|].
  unfold sr_run in *. rewrite fold_left_app, last_such_snoc. cbn -[last_such].
  rewrite IH. destruct s, r; reflexivity.
Qed.

(** * Counters *)

Lemma counter_type_facts : forall t, In t counter_types ->
  0 < it_bits t /\ imin t <= 0 /\ 0 < imax t.
Proof.
  intros t H. cbn in H.
  repeat (destruct H as [<-|H]; [repeat split; vm_compute; congruence|]). contradiction.
Qed.

Lemma rising_edges_snoc : forall l p x,
  rising_edges p (l ++ [x]) =
  rising_edges p l + bit (x && negb (match l with [] => p | _ => last l false end)).
Proof.
  induction l as [|b l IH]; intros p x; cbn -[Z.add].
  - unfold bit. lia.
  - rewrite IH. destruct l as [|b0 l]; cbn -[Z.add last]; [lia|]. change (last (b :: b0 :: l) false) with (last (b0 :: l) false). lia.
Qed.

Lemma rising_edges_nonneg : forall l p, 0 <= rising_edges p l.
Proof.
  induction l as [|b l IH]; intros p; cbn -[Z.add]; [lia|].
  specialize (IH b). destruct (b && negb p); lia.
Qed.

(** ** CTU *)

Lemma ctu_run_snoc : forall p t h s i,
  ctu_run p t s (h ++ [i]) = obind (ctu_run p t s h) (fun s' => ctu_call p t s' i).
Proof.
  induction h as [|a h IH]; intros s i; cbn.
  - now destruct (ctu_call p t s i).
  - destruct (ctu_call p t s a); cbn; auto.
Qed.

Lemma ctu_step : forall p t s i, In t counter_types -> in_ity t (ctu_cv s) ->
  exists s', ctu_call p t s i = Ok s' /\
    ctu_cv s' = (if cui_r i then 0 else
       Z.min (imax t) (ctu_cv s + bit (cui_cu i && negb (current_value (ctu_internal s))))) /\
    ctu_q s' = (cui_pv i <=? ctu_cv s') /\
    current_value (ctu_internal s') =
      (if cui_r i then current_value (ctu_internal s) else cui_cu i) /\
    in_ity t (ctu_cv s').
Proof.
  intros p t s [cu r pv] Ht Hr. apply counter_type_facts in Ht. destruct Ht as (_ & Hlo & Hhi).
  unfold ctu_call, ctu. cbn. unfold in_ity in *.
  destruct r; cbn.
  - eexists. split; [reflexivity|]. cbn. repeat split; lia.
  - destruct cu, (current_value (ctu_internal s)) eqn:E; cbn -[Z.add];
      try (eexists; split; [reflexivity|]; cbn -[Z.add]; repeat split; lia).
    destruct (Z.ltb_spec (ctu_cv s) (imax t)); cbn -[Z.add].
    + rewrite arith_ok by (unfold in_ity; lia). cbn -[Z.add].
      eexists; split; [reflexivity|]; cbn -[Z.add]; repeat split; lia.
    + eexists; split; [reflexivity|]; cbn -[Z.add]; repeat split; lia.
Qed.

Lemma ctu_level_snoc : forall h i,
  ctu_level (h ++ [i]) = if cui_r i then ctu_level h else cui_cu i.
Proof.
  intros. unfold ctu_level. rewrite last_such_snoc. now destruct (cui_r i).
Qed.

Lemma ctu_inv : forall p t h, In t counter_types ->
  exists s, ctu_run p t ctu_default h = Ok s /\ in_ity t (ctu_cv s) /\
    current_value (ctu_internal s) = ctu_level h.
Proof.
  intros p t h Ht. induction h as [|i h IH] using rev_ind.
  - exists ctu_default. split; [reflexivity|]. split; [|reflexivity].
    apply counter_type_facts in Ht. unfold in_ity. cbn. lia.
  - destruct IH as (s & E & R & L).
    destruct (ctu_step p t s i Ht R) as (s' & E' & _ & _ & L' & R').
    exists s'. rewrite ctu_run_snoc, E. cbn. split; [exact E'|]. split; [exact R'|].
    rewrite L', ctu_level_snoc, L. reflexivity.
Qed.

Lemma ctu_level_app_noreset : forall h1 h2, Forall (fun i => cui_r i = false) h2 ->
  ctu_level (h1 ++ h2) =
  match map cui_cu h2 with [] => ctu_level h1 | l => last l false end.
Proof.
  intros h1 h2 H. destruct (snoc_cases _ h2) as [->|(h & x & ->)].
  - now rewrite app_nil_r.
  - rewrite app_assoc, ctu_level_snoc. apply Forall_app in H. destruct H as [_ H].
    inversion H as [|? ? Hx]; subst. rewrite Hx, map_app. cbn [map].
    rewrite <- (last_last (map cui_cu h) (cui_cu x) false) at 1.
    destruct (map cui_cu h); reflexivity.
Qed.

Lemma ctu_counts_lemma : forall p t h1 h2,
  In t counter_types ->
  ends_with (fun i => cui_r i = true) h1 ->
  Forall (fun i => cui_r i = false) h2 ->
  exists s, ctu_run p t ctu_default (h1 ++ h2) = Ok s /\
    ctu_cv s = Z.min (imax t) (rising_edges (ctu_level h1) (map cui_cu h2)).
Proof.
  intros p t h1 h2 Ht H1. induction h2 as [|i h2 IH] using rev_ind; intros H2.
  - rewrite app_nil_r. cbn. apply counter_type_facts in Ht as Hf.
    destruct H1 as [->|(h & x & -> & Hx)].
    + exists ctu_default. split; [reflexivity|]. cbn. lia.
    + destruct (ctu_inv p t h Ht) as (s & E & R & L).
      destruct (ctu_step p t s x Ht R) as (s' & E' & V & _).
      exists s'. rewrite ctu_run_snoc, E. split; [exact E'|]. rewrite V, Hx. lia.
  - apply Forall_app in H2. destruct H2 as [H2 Hi]. inversion Hi as [|? ? Hi' _]; subst.
    destruct (IH H2) as (s & E & V).
    destruct (ctu_inv p t (h1 ++ h2) Ht) as (s0 & E0 & R & L).
    rewrite E in E0. injection E0 as <-.
    destruct (ctu_step p t s i Ht R) as (s' & E' & V' & _).
    exists s'. rewrite app_assoc, ctu_run_snoc, E. split; [exact E'|].
    rewrite V', Hi', L, ctu_level_app_noreset, V by assumption.
    rewrite map_app. cbn [map]. rewrite rising_edges_snoc.
    set (b := cui_cu i && _).
    destruct (map cui_cu h2) as [|a l] eqn:Em.
    + subst b. apply counter_type_facts in Ht. cbn [rising_edges]. unfold bit.
      match goal with |- context [if ?b then 1 else 0] => destruct b end; lia.
    + subst b. cbn [last]. unfold bit. match goal with |- context [if ?b then 1 else 0] => destruct b end; lia.
Qed.

Lemma ctu_q_lemma : forall p t h i, In t counter_types ->
  exists s, ctu_run p t ctu_default (h ++ [i]) = Ok s /\ ctu_q s = (cui_pv i <=? ctu_cv s).
Proof.
  intros p t h i Ht. destruct (ctu_inv p t h Ht) as (s & E & R & L).
  destruct (ctu_step p t s i Ht R) as (s' & E' & _ & Q & _).
  exists s'. rewrite ctu_run_snoc, E. split; [exact E'|exact Q].
Qed.

Lemma split_at_last : forall A (f : A -> bool) (h : list A),
  exists h1 h2, h = h1 ++ h2 /\ ends_with (fun i => f i = true) h1 /\
                Forall (fun i => f i = false) h2.
Proof.
  intros A f h. induction h as [|i h IH] using rev_ind.
  - exists [], []. split; [reflexivity|]. split; [now left|constructor].
  - destruct (f i) eqn:E.
    + exists (h ++ [i]), []. split; [now rewrite app_nil_r|]. split; [|constructor].
      right. now exists h, i.
    + destruct IH as (h1 & h2 & -> & H1 & H2). exists h1, (h2 ++ [i]).
      split; [now rewrite app_assoc|]. split; [exact H1|].
      apply Forall_app. split; [exact H2|]. now constructor.
Qed.

(** ** CTD *)

Lemma ctd_run_snoc : forall p t h s i,
  ctd_run p t s (h ++ [i]) = obind (ctd_run p t s h) (fun s' => ctd_call p t s' i).
Proof.
  induction h as [|a h IH]; intros s i; cbn.
  - now destruct (ctd_call p t s i).
  - destruct (ctd_call p t s a); cbn; auto.
Qed.

Lemma ctd_step : forall p t s i, In t counter_types -> in_ity t (ctd_cv s) ->
  in_ity t (cdi_pv i) ->
  exists s', ctd_call p t s i = Ok s' /\
    ctd_cv s' = (if cdi_ld i then cdi_pv i else
       Z.max (imin t) (ctd_cv s - bit (cdi_cd i && negb (current_value (ctd_internal s))))) /\
    ctd_q s' = (ctd_cv s' <=? 0) /\
    current_value (ctd_internal s') =
      (if cdi_ld i then current_value (ctd_internal s) else cdi_cd i) /\
    in_ity t (ctd_cv s').
Proof.
  intros p t s [cd ld pv] Ht Hr Hp. apply counter_type_facts in Ht.
  destruct Ht as (_ & Hlo & Hhi).
  unfold ctd_call, ctd. cbn in *. unfold in_ity in *.
  destruct ld; cbn.
  - eexists. split; [reflexivity|]. cbn. repeat split; lia.
  - destruct cd, (current_value (ctd_internal s)) eqn:E; cbn -[Z.sub];
      try (eexists; split; [reflexivity|]; cbn -[Z.sub]; repeat split; lia).
    destruct (Z.ltb_spec (imin t) (ctd_cv s)); cbn -[Z.sub].
    + rewrite arith_ok by (unfold in_ity; lia). cbn -[Z.sub].
      eexists; split; [reflexivity|]; cbn -[Z.sub]; repeat split; lia.
    + eexists; split; [reflexivity|]; cbn -[Z.sub]; repeat split; lia.
Qed.

Lemma ctd_level_snoc : forall h i,
  ctd_level (h ++ [i]) = if cdi_ld i then ctd_level h else cdi_cd i.
Proof.
  intros. unfold ctd_level. rewrite last_such_snoc. now destruct (cdi_ld i).
Qed.

Lemma ctd_inv : forall p t h, In t counter_types ->
  Forall (fun i => in_ity t (cdi_pv i)) h ->
  exists s, ctd_run p t ctd_default h = Ok s /\ in_ity t (ctd_cv s) /\
    current_value (ctd_internal s) = ctd_level h.
Proof.
  intros p t h Ht. induction h as [|i h IH] using rev_ind; intros Hp.
  - exists ctd_default. split; [reflexivity|]. split; [|reflexivity].
    apply counter_type_facts in Ht. unfold in_ity. cbn. lia.
  - apply Forall_app in Hp. destruct Hp as [Hp Hi]. inversion Hi; subst.
    destruct (IH Hp) as (s & E & R & L).
    destruct (ctd_step p t s i Ht R) as (s' & E' & _ & _ & L' & R'); [assumption|].
    exists s'. rewrite ctd_run_snoc, E. cbn. split; [exact E'|]. split; [exact R'|].
    rewrite L', ctd_level_snoc, L. reflexivity.
Qed.

Lemma ctd_level_app_noload : forall h1 h2, Forall (fun i => cdi_ld i = false) h2 ->
  ctd_level (h1 ++ h2) =
  match map cdi_cd h2 with [] => ctd_level h1 | l => last l false end.
Proof.
  intros h1 h2 H. destruct (snoc_cases _ h2) as [->|(h & x & ->)].
  - now rewrite app_nil_r.
  - rewrite app_assoc, ctd_level_snoc. apply Forall_app in H. destruct H as [_ H].
    inversion H as [|? ? Hx]; subst. rewrite Hx, map_app. cbn [map].
    rewrite <- (last_last (map cdi_cd h) (cdi_cd x) false) at 1.
    destruct (map cdi_cd h); reflexivity.
Qed.

Lemma ctd_counts_lemma : forall p t h1 h2,
  In t counter_types ->
  Forall (fun i => in_ity t (cdi_pv i)) (h1 ++ h2) ->
  ends_with (fun i => cdi_ld i = true) h1 ->
  Forall (fun i => cdi_ld i = false) h2 ->
  exists s, ctd_run p t ctd_default (h1 ++ h2) = Ok s /\
    ctd_cv s = Z.max (imin t) (ctd_loaded h1 - rising_edges (ctd_level h1) (map cdi_cd h2)).
Proof.
  intros p t h1 h2 Ht Hp H1. induction h2 as [|i h2 IH] using rev_ind; intros H2.
  - rewrite app_nil_r in *. cbn -[Z.sub]. apply counter_type_facts in Ht as Hf.
    destruct H1 as [->|(h & x & -> & Hx)].
    + exists ctd_default. split; [reflexivity|]. cbn. lia.
    + apply Forall_app in Hp. destruct Hp as [Hp Hpx]. inversion Hpx as [|? ? Hpx' _]; subst.
      destruct (ctd_inv p t h Ht Hp) as (s & E & R & L).
      destruct (ctd_step p t s x Ht R Hpx') as (s' & E' & V & _).
      exists s'. rewrite ctd_run_snoc, E. split; [exact E'|]. rewrite V, Hx.
      unfold ctd_loaded. rewrite last_such_snoc, Hx. unfold in_ity in Hpx'. lia.
  - apply Forall_app in H2. destruct H2 as [H2 Hi]. inversion Hi as [|? ? Hi' _]; subst.
    rewrite app_assoc in Hp. apply Forall_app in Hp. destruct Hp as [Hp Hpi].
    inversion Hpi as [|? ? Hpi' _]; subst.
    destruct (IH Hp H2) as (s & E & V).
    destruct (ctd_inv p t (h1 ++ h2) Ht Hp) as (s0 & E0 & R & L).
    rewrite E in E0. injection E0 as <-.
    destruct (ctd_step p t s i Ht R Hpi') as (s' & E' & V' & _).
    exists s'. rewrite app_assoc, ctd_run_snoc, E. split; [exact E'|].
    rewrite V', Hi', L, ctd_level_app_noload, V by assumption.
    rewrite map_app. cbn [map]. rewrite rising_edges_snoc.
    destruct (map cdi_cd h2) as [|a l] eqn:Em.
    + apply counter_type_facts in Ht. cbn [rising_edges]. unfold bit.
      match goal with |- context [if ?b then 1 else 0] => destruct b end; lia.
    + cbn [last]. unfold bit. match goal with |- context [if ?b then 1 else 0] => destruct b end; lia.
Qed.

Lemma ctd_q_lemma : forall p t h i, In t counter_types ->
  Forall (fun i => in_ity t (cdi_pv i)) (h ++ [i]) ->
  exists s, ctd_run p t ctd_default (h ++ [i]) = Ok s /\ ctd_q s = (ctd_cv s <=? 0).
Proof.
  intros p t h i Ht Hp. apply Forall_app in Hp. destruct Hp as [Hp Hi].
  inversion Hi as [|? ? Hi' _]; subst.
  destruct (ctd_inv p t h Ht Hp) as (s & E & R & L).
  destruct (ctd_step p t s i Ht R Hi') as (s' & E' & _ & Q & _).
  exists s'. rewrite ctd_run_snoc, E. split; [exact E'|exact Q].
Qed.

(** ** CTUD *)

Lemma ctud_run_snoc : forall p t h s i,
  ctud_run p t s (h ++ [i]) = obind (ctud_run p t s h) (fun s' => ctud_call p t s' i).
Proof.
  induction h as [|a h IH]; intros s i; cbn.
  - now destruct (ctud_call p t s i).
  - destruct (ctud_call p t s a); cbn; auto.
Qed.

Lemma ctud_step : forall p t s i, In t counter_types -> in_ity t (cud_cv s) ->
  in_ity t (cudi_pv i) ->
  exists s', ctud_call p t s i = Ok s' /\
    cud_cv s' = (if cudi_r i then 0 else if cudi_ld i then cudi_pv i else
       clamp (imin t) (imax t)
         (cud_cv s + bit (cudi_cu i && negb (current_value (cud_up s)))
                   - bit (cudi_cd i && negb (current_value (cud_down s))))) /\
    cud_qu s' = (cudi_pv i <=? cud_cv s') /\
    cud_qd s' = (cud_cv s' <=? 0) /\
    current_value (cud_up s') =
      (if ctud_counts i then cudi_cu i else current_value (cud_up s)) /\
    current_value (cud_down s') =
      (if ctud_counts i then cudi_cd i else current_value (cud_down s)) /\
    in_ity t (cud_cv s').
Proof.
  intros p t s [cu cd r ld pv] Ht Hr Hp. apply counter_type_facts in Ht.
  destruct Ht as (_ & Hlo & Hhi).
  unfold ctud_call, ctud, ctud_counts. cbn in *. unfold in_ity, clamp in *.
  destruct r; [cbn; eexists; split; [reflexivity|]; cbn; repeat split; lia|].
  destruct ld; [cbn; eexists; split; [reflexivity|]; cbn; repeat split; lia|].
  destruct cu, (current_value (cud_up s)) eqn:Eu, cd, (current_value (cud_down s)) eqn:Ed;
    cbn -[Z.add Z.sub];
    try (eexists; split; [reflexivity|]; cbn -[Z.add Z.sub]; repeat split; lia).
  all: try destruct (Z.ltb_spec (cud_cv s) (imax t)); cbn -[Z.add Z.sub].
  all: try destruct (Z.ltb_spec (imin t) (cud_cv s)); cbn -[Z.add Z.sub].
  all: try rewrite arith_ok by (unfold in_ity; lia); cbn -[Z.add Z.sub].
  all: eexists; split; [reflexivity|]; cbn -[Z.add Z.sub]; repeat split; lia.
Qed.

Lemma ctud_levels_snoc : forall h i,
  ctud_cu_level (h ++ [i]) = (if ctud_counts i then cudi_cu i else ctud_cu_level h) /\
  ctud_cd_level (h ++ [i]) = (if ctud_counts i then cudi_cd i else ctud_cd_level h).
Proof.
  intros. unfold ctud_cu_level, ctud_cd_level. rewrite last_such_snoc.
  now destruct (ctud_counts i).
Qed.

Lemma ctud_inv : forall p t h, In t counter_types ->
  Forall (fun i => in_ity t (cudi_pv i)) h ->
  exists s, ctud_run p t ctud_default h = Ok s /\ in_ity t (cud_cv s) /\
    current_value (cud_up s) = ctud_cu_level h /\
    current_value (cud_down s) = ctud_cd_level h.
Proof.
  intros p t h Ht. induction h as [|i h IH] using rev_ind; intros Hp.
  - exists ctud_default. split; [reflexivity|]. split; [|split; reflexivity].
    apply counter_type_facts in Ht. unfold in_ity. cbn. lia.
  - apply Forall_app in Hp. destruct Hp as [Hp Hi]. inversion Hi; subst.
    destruct (IH Hp) as (s & E & R & L1 & L2).
    destruct (ctud_step p t s i Ht R) as (s' & E' & _ & _ & _ & U & D & R'); [assumption|].
    exists s'. rewrite ctud_run_snoc, E. cbn. split; [exact E'|]. split; [exact R'|].
    destruct (ctud_levels_snoc h i) as [-> ->]. rewrite U, D, L1, L2. split; reflexivity.
Qed.

Lemma ctud_call_lemma : forall p t h i, In t counter_types ->
  Forall (fun i => in_ity t (cudi_pv i)) (h ++ [i]) ->
  exists s s',
    ctud_run p t ctud_default h = Ok s /\
    ctud_run p t ctud_default (h ++ [i]) = Ok s' /\
    cud_cv s' = (if cudi_r i then 0 else if cudi_ld i then cudi_pv i else
       clamp (imin t) (imax t)
         (cud_cv s + bit (cudi_cu i && negb (ctud_cu_level h))
                   - bit (cudi_cd i && negb (ctud_cd_level h)))) /\
    cud_qu s' = (cudi_pv i <=? cud_cv s') /\
    cud_qd s' = (cud_cv s' <=? 0) /\
    in_ity t (cud_cv s').
Proof.
  intros p t h i Ht Hp. apply Forall_app in Hp. destruct Hp as [Hp Hi].
  inversion Hi as [|? ? Hi' _]; subst.
  destruct (ctud_inv p t h Ht Hp) as (s & E & R & L1 & L2).
  destruct (ctud_step p t s i Ht R Hi') as (s' & E' & V & Qu & Qd & _ & _ & R').
  exists s, s'. rewrite ctud_run_snoc, E. rewrite L1, L2 in V. repeat split; auto; apply R'.
Qed.

Lemma net_count_snoc : forall h1 h2 i,
  Forall (fun i => ctud_counts i = true) h2 ->
  net_count (ctud_cu_level h1) (ctud_cd_level h1) (h2 ++ [i]) =
  net_count (ctud_cu_level h1) (ctud_cd_level h1) h2
  + bit (cudi_cu i && negb (ctud_cu_level (h1 ++ h2)))
  - bit (cudi_cd i && negb (ctud_cd_level (h1 ++ h2))).
Proof.
  intros h1 h2 i H. unfold net_count. rewrite !map_app. cbn [map].
  rewrite !rising_edges_snoc.
  assert (A : ctud_cu_level (h1 ++ h2) =
    match map cudi_cu h2 with [] => ctud_cu_level h1 | _ => last (map cudi_cu h2) false end
    /\ ctud_cd_level (h1 ++ h2) =
    match map cudi_cd h2 with [] => ctud_cd_level h1 | _ => last (map cudi_cd h2) false end).
  { destruct (snoc_cases _ h2) as [->|(h & x & ->)].
    - now rewrite app_nil_r.
    - rewrite app_assoc. destruct (ctud_levels_snoc (h1 ++ h) x) as [-> ->].
      apply Forall_app in H. destruct H as [_ H]. inversion H as [|? ? Hx]; subst.
      rewrite Hx, !map_app. cbn [map].
      rewrite <- (last_last (map cudi_cu h) (cudi_cu x) false) at 1.
      rewrite <- (last_last (map cudi_cd h) (cudi_cd x) false) at 1.
      destruct (map cudi_cu h), (map cudi_cd h); split; reflexivity. }
  destruct A as [-> ->]. destruct (map cudi_cu h2), (map cudi_cd h2); lia.
Qed.

Lemma ctud_net_lemma : forall p t h1 h2 s, In t counter_types ->
  Forall (fun i => in_ity t (cudi_pv i)) (h1 ++ h2) ->
  Forall (fun i => ctud_counts i = true) h2 ->
  ctud_run p t ctud_default h1 = Ok s ->
  (forall a b, h2 = a ++ b ->
     in_ity t (cud_cv s + net_count (ctud_cu_level h1) (ctud_cd_level h1) a)) ->
  exists s', ctud_run p t ctud_default (h1 ++ h2) = Ok s' /\
    cud_cv s' = cud_cv s + net_count (ctud_cu_level h1) (ctud_cd_level h1) h2.
Proof.
  intros p t h1 h2 s Ht. induction h2 as [|i h2 IH] using rev_ind; intros Hp H2 E Hr.
  - rewrite app_nil_r. exists s. split; [exact E|]. unfold net_count. cbn. lia.
  - apply Forall_app in H2. destruct H2 as [H2 Hi]. inversion Hi as [|? ? Hi' _]; subst.
    rewrite app_assoc in Hp. assert (Hp' := Hp). apply Forall_app in Hp'.
    destruct Hp' as [Hp' _].
    destruct IH as (s' & E' & V'); auto.
    { intros a b Hab. apply (Hr a (b ++ [i])). now rewrite Hab, app_assoc. }
    destruct (ctud_call_lemma p t (h1 ++ h2) i Ht Hp) as (s0 & s1 & E0 & E1 & V & _).
    rewrite E' in E0. injection E0 as <-.
    exists s1. rewrite app_assoc. split; [exact E1|].
    rewrite V. unfold ctud_counts in Hi'. apply andb_true_iff in Hi'.
    destruct Hi' as [A B]. apply negb_true_iff in A, B. rewrite A, B.
    specialize (Hr (h2 ++ [i]) []). rewrite app_nil_r in Hr. specialize (Hr eq_refl).
    rewrite net_count_snoc in * by assumption. unfold in_ity, clamp in *. lia.
Qed.

(** ** C08: the IEC reading *)

Lemma iec_ctu_snoc : forall h hi prev cv i,
  iec_ctu_cv hi prev cv (h ++ [i]) =
  if cui_r i then 0 else
  Z.min hi (iec_ctu_cv hi prev cv h + bit (cui_cu i && negb (last (map cui_cu h) prev))).
Proof.
  induction h as [|a h IH]; intros; [reflexivity|].
  cbn -[last Z.add]. rewrite IH. replace (last (cui_cu a :: map cui_cu h) prev)
    with (last (map cui_cu h) (cui_cu a)); [reflexivity|].
  clear. revert a prev. induction h as [|b h IH]; intros; [reflexivity|].
  change (last (map cui_cu (b :: h)) (cui_cu a) = last (map cui_cu (b :: h)) prev).
  cbn [map]. rewrite <- (IH b (cui_cu a)), <- (IH b prev). reflexivity.
Qed.

Lemma ctu_gen_iec : forall p t h s prev, In t counter_types -> in_ity t (ctu_cv s) ->
  current_value (ctu_internal s) = prev -> cu_steady_in_reset prev h ->
  exists s', ctu_run p t s h = Ok s' /\ ctu_cv s' = iec_ctu_cv (imax t) prev (ctu_cv s) h.
Proof.
  induction h as [|i h IH]; intros s prev Ht R P H; cbn.
  - now exists s.
  - destruct H as [H0 H]. destruct (ctu_step p t s i Ht R) as (s' & E & V & _ & L & R').
    rewrite E. cbn. destruct (IH s' (cui_cu i) Ht R') as (s'' & E' & V'); auto.
    + rewrite L. destruct (cui_r i); auto. rewrite P. symmetry. auto.
    + exists s''. split; [exact E'|]. rewrite V', V, P. reflexivity.
Qed.

Lemma ctd_gen_iec : forall p t h s prev, In t counter_types -> in_ity t (ctd_cv s) ->
  Forall (fun i => in_ity t (cdi_pv i)) h ->
  current_value (ctd_internal s) = prev -> cd_steady_in_load prev h ->
  exists s', ctd_run p t s h = Ok s' /\ ctd_cv s' = iec_ctd_cv (imin t) prev (ctd_cv s) h.
Proof.
  induction h as [|i h IH]; intros s prev Ht R F P H; cbn.
  - now exists s.
  - destruct H as [H0 H]. inversion F; subst.
    destruct (ctd_step p t s i Ht R) as (s' & E & V & _ & L & R'); [assumption|].
    rewrite E. cbn. destruct (IH s' (cdi_cd i) Ht R') as (s'' & E' & V'); auto.
    + rewrite L. destruct (cdi_ld i); auto. symmetry. auto.
    + exists s''. split; [exact E'|]. rewrite V', V. reflexivity.
Qed.

Lemma ctud_gen_iec : forall p t h s pu pd, In t counter_types -> in_ity t (cud_cv s) ->
  Forall (fun i => in_ity t (cudi_pv i)) h ->
  current_value (cud_up s) = pu -> current_value (cud_down s) = pd -> ctud_steady pu pd h ->
  exists s', ctud_run p t s h = Ok s' /\
    cud_cv s' = iec_ctud_cv (imin t) (imax t) pu pd (cud_cv s) h.
Proof.
  induction h as [|i h IH]; intros s pu pd Ht R F P1 P2 H; cbn.
  - now exists s.
  - destruct H as [H0 H]. inversion F; subst.
    destruct (ctud_step p t s i Ht R) as (s' & E & V & _ & _ & L1 & L2 & R'); [assumption|].
    rewrite E. cbn. destruct (IH s' (cudi_cu i) (cudi_cd i) Ht R') as (s'' & E' & V'); auto.
    + rewrite L1. destruct (ctud_counts i); auto. symmetry. now apply H0.
    + rewrite L2. destruct (ctud_counts i); auto. symmetry. now apply H0.
    + exists s''. split; [exact E'|]. rewrite V', V. reflexivity.
Qed.

Lemma ctu_iec_lemma : forall p t h, In t counter_types -> cu_steady_in_reset false h ->
  exists s, ctu_run p t ctu_default h = Ok s /\ ctu_cv s = iec_ctu_cv (imax t) false 0 h.
Proof.
  intros. apply (ctu_gen_iec p t h ctu_default false); auto.
  destruct (counter_type_facts t); auto. unfold in_ity. cbn. lia.
Qed.

Lemma ctd_iec_lemma : forall p t h, In t counter_types ->
  Forall (fun i => in_ity t (cdi_pv i)) h -> cd_steady_in_load false h ->
  exists s, ctd_run p t ctd_default h = Ok s /\ ctd_cv s = iec_ctd_cv (imin t) false 0 h.
Proof.
  intros. apply (ctd_gen_iec p t h ctd_default false); auto.
  destruct (counter_type_facts t); auto. unfold in_ity. cbn. lia.
Qed.

Lemma ctud_iec_lemma : forall p t h, In t counter_types ->
  Forall (fun i => in_ity t (cudi_pv i)) h -> ctud_steady false false h ->
  exists s, ctud_run p t ctud_default h = Ok s /\
    cud_cv s = iec_ctud_cv (imin t) (imax t) false false 0 h.
Proof.
  intros. apply (ctud_gen_iec p t h ctud_default false false); auto.
  destruct (counter_type_facts t); auto. unfold in_ity. cbn. lia.
Qed.

Lemma c08_ctu_extra : forall p t, In t counter_types ->
  exists h s, ctu_run p t ctu_default h = Ok s /\
    iec_ctu_cv (imax t) false 0 h < ctu_cv s.
Proof.
  intros p t H. exists [CtuIn true true 5; CtuIn true false 5]. cbn in H.
  repeat (destruct H as [<-|H]; [destruct p; eexists; (split; [vm_compute; reflexivity|
    vm_compute; reflexivity])|]). contradiction.
Qed.

Lemma c08_ctu_missed : forall p t, In t counter_types ->
  exists h s, ctu_run p t ctu_default h = Ok s /\
    ctu_cv s < iec_ctu_cv (imax t) false 0 h.
Proof.
  intros p t H. exists [CtuIn true false 5; CtuIn false true 5; CtuIn true false 5].
  cbn in H.
  repeat (destruct H as [<-|H]; [destruct p; eexists; (split; [vm_compute; reflexivity|
    vm_compute; reflexivity])|]). contradiction.
Qed.

Lemma c08_ctd_extra : forall p t, In t counter_types ->
  exists h s, ctd_run p t ctd_default h = Ok s /\
    ctd_cv s < iec_ctd_cv (imin t) false 0 h.
Proof.
  intros p t H. exists [CtdIn true true 5; CtdIn true false 5]. cbn in H.
  repeat (destruct H as [<-|H]; [destruct p; eexists; (split; [vm_compute; reflexivity|
    vm_compute; reflexivity])|]). contradiction.
Qed.

Lemma c08_ctud_extra : forall p t, In t counter_types ->
  exists h s, ctud_run p t ctud_default h = Ok s /\
    iec_ctud_cv (imin t) (imax t) false false 0 h < cud_cv s.
Proof.
  intros p t H. exists [CtudIn true false true false 5; CtudIn true false false false 5].
  cbn in H.
  repeat (destruct H as [<-|H]; [destruct p; eexists; (split; [vm_compute; reflexivity|
    vm_compute; reflexivity])|]). contradiction.
Qed.
