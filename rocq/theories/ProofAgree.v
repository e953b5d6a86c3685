(** Proofs for C92: counters of different element types agree. *)
From Coq Require Import ZArith List Bool Lia.
From Verif Require Import Base ModelFB ModelCounters SpecFB ProofBase.
Import ListNotations.
Open Scope Z_scope.

Lemma arith_ok : forall p t z, in_ity t z -> arith p t z = Ok z.
Proof.
  intros p t z H. unfold arith, in_ityb. unfold in_ity in H.
  replace (imin t <=? z) with true by (symmetry; apply Z.leb_le; lia).
  replace (z <=? imax t) with true by (symmetry; apply Z.leb_le; lia). reflexivity.
Qed.

Lemma ctu_run_app : forall p t h1 h2 s,
  ctu_run p t s (h1 ++ h2) = let! s' := ctu_run p t s h1 in ctu_run p t s' h2.
Proof.
  induction h1 as [|i h1 IH]; intros h2 s; [reflexivity|]. cbn [app ctu_run].
  destruct (ctu_call p t s i); cbn [obind]; auto.
Qed.
Lemma ctd_run_app : forall p t h1 h2 s,
  ctd_run p t s (h1 ++ h2) = let! s' := ctd_run p t s h1 in ctd_run p t s' h2.
Proof.
  induction h1 as [|i h1 IH]; intros h2 s; [reflexivity|]. cbn [app ctd_run].
  destruct (ctd_call p t s i); cbn [obind]; auto.
Qed.
Lemma ctud_run_app : forall p t h1 h2 s,
  ctud_run p t s (h1 ++ h2) = let! s' := ctud_run p t s h1 in ctud_run p t s' h2.
Proof.
  induction h1 as [|i h1 IH]; intros h2 s; [reflexivity|]. cbn [app ctud_run].
  destruct (ctud_call p t s i); cbn [obind]; auto.
Qed.

Lemma ctu_one : forall p q t u s i, in_ity t (ctu_cv s) -> in_ity u (ctu_cv s) ->
  (forall s1, ctu_call p t s i = Ok s1 -> in_ity u (ctu_cv s1)) ->
  (forall s1, ctu_call q u s i = Ok s1 -> in_ity t (ctu_cv s1)) ->
  exists s1, ctu_call p t s i = Ok s1 /\ ctu_call q u s i = Ok s1.
Proof.
  intros p q t u s i T U HT HU. unfold ctu_call, ctu in *.
  cbn [ctu_r ctu_cu ctu_pv ctu_q ctu_cv ctu_internal] in *.
  destruct (cui_r i); [eexists; split; reflexivity|].
  destruct (rising_edge (ctu_internal s) (cui_cu i)) as [e sg].
  destruct e; cbn [andb] in *; [|eexists; split; reflexivity].
  unfold in_ity in T, U.
  destruct (ctu_cv s <? imax t) eqn:Et; [apply Z.ltb_lt in Et|apply Z.ltb_ge in Et];
  (destruct (ctu_cv s <? imax u) eqn:Eu; [apply Z.ltb_lt in Eu|apply Z.ltb_ge in Eu]).
  - rewrite !arith_ok by (unfold in_ity; lia). eexists; split; reflexivity.
  - rewrite arith_ok in HT by (unfold in_ity; lia). specialize (HT _ eq_refl).
    cbn [ctu_cv] in HT. unfold in_ity in HT. lia.
  - rewrite arith_ok in HU by (unfold in_ity; lia). specialize (HU _ eq_refl).
    cbn [ctu_cv] in HU. unfold in_ity in HU. lia.
  - eexists; split; reflexivity.
Qed.

Lemma ctd_one : forall p q t u s i, in_ity t (ctd_cv s) -> in_ity u (ctd_cv s) ->
  (forall s1, ctd_call p t s i = Ok s1 -> in_ity u (ctd_cv s1)) ->
  (forall s1, ctd_call q u s i = Ok s1 -> in_ity t (ctd_cv s1)) ->
  exists s1, ctd_call p t s i = Ok s1 /\ ctd_call q u s i = Ok s1.
Proof.
  intros p q t u s i T U HT HU. unfold ctd_call, ctd in *.
  cbn [ctd_ld ctd_cd ctd_pv ctd_q ctd_cv ctd_internal] in *.
  destruct (cdi_ld i); [eexists; split; reflexivity|].
  destruct (rising_edge (ctd_internal s) (cdi_cd i)) as [e sg].
  destruct e; cbn [andb] in *; [|eexists; split; reflexivity].
  unfold in_ity in T, U.
  destruct (imin t <? ctd_cv s) eqn:Et; [apply Z.ltb_lt in Et|apply Z.ltb_ge in Et];
  (destruct (imin u <? ctd_cv s) eqn:Eu; [apply Z.ltb_lt in Eu|apply Z.ltb_ge in Eu]).
  - rewrite !arith_ok by (unfold in_ity; lia). eexists; split; reflexivity.
  - rewrite arith_ok in HT by (unfold in_ity; lia). specialize (HT _ eq_refl).
    cbn [ctd_cv] in HT. unfold in_ity in HT. lia.
  - rewrite arith_ok in HU by (unfold in_ity; lia). specialize (HU _ eq_refl).
    cbn [ctd_cv] in HU. unfold in_ity in HU. lia.
  - eexists; split; reflexivity.
Qed.

Lemma ctud_one : forall p q t u s i, in_ity t (cud_cv s) -> in_ity u (cud_cv s) ->
  (forall s1, ctud_call p t s i = Ok s1 -> in_ity u (cud_cv s1)) ->
  (forall s1, ctud_call q u s i = Ok s1 -> in_ity t (cud_cv s1)) ->
  exists s1, ctud_call p t s i = Ok s1 /\ ctud_call q u s i = Ok s1.
Proof.
  intros p q t u s i T U HT HU. unfold ctud_call, ctud in *.
  cbn [cud_cu cud_cd cud_r cud_ld cud_pv cud_qu cud_qd cud_cv cud_up cud_down] in *.
  destruct (cudi_r i); [eexists; split; reflexivity|].
  destruct (cudi_ld i); [eexists; split; reflexivity|].
  destruct (rising_edge (cud_up s) (cudi_cu i)) as [e sg].
  destruct (rising_edge (cud_down s) (cudi_cd i)) as [e' sg'].
  unfold in_ity in T, U.
  destruct e, e'; cbn [andb negb] in *; try (eexists; split; reflexivity).
  - destruct (cud_cv s <? imax t) eqn:Et; [apply Z.ltb_lt in Et|apply Z.ltb_ge in Et];
    (destruct (cud_cv s <? imax u) eqn:Eu; [apply Z.ltb_lt in Eu|apply Z.ltb_ge in Eu]).
    + rewrite !arith_ok by (unfold in_ity; lia). eexists; split; reflexivity.
    + rewrite arith_ok in HT by (unfold in_ity; lia). specialize (HT _ eq_refl).
      cbn [cud_cv] in HT. unfold in_ity in HT. lia.
    + rewrite arith_ok in HU by (unfold in_ity; lia). specialize (HU _ eq_refl).
      cbn [cud_cv] in HU. unfold in_ity in HU. lia.
    + eexists; split; reflexivity.
  - destruct (imin t <? cud_cv s) eqn:Et; [apply Z.ltb_lt in Et|apply Z.ltb_ge in Et];
    (destruct (imin u <? cud_cv s) eqn:Eu; [apply Z.ltb_lt in Eu|apply Z.ltb_ge in Eu]).
    + rewrite !arith_ok by (unfold in_ity; lia). eexists; split; reflexivity.
    + rewrite arith_ok in HT by (unfold in_ity; lia). specialize (HT _ eq_refl).
      cbn [cud_cv] in HT. unfold in_ity in HT. lia.
    + rewrite arith_ok in HU by (unfold in_ity; lia). specialize (HU _ eq_refl).
      cbn [cud_cv] in HU. unfold in_ity in HU. lia.
    + eexists; split; reflexivity.
Qed.

(** [stays run r h]: after every call of the history the value is within type [r]. *)
Lemma ctu_agree : forall p q t u h, in_ity t 0 -> in_ity u 0 ->
  (forall h1 h2 s, h = h1 ++ h2 -> ctu_run p t ctu_default h1 = Ok s -> in_ity u (ctu_cv s)) ->
  (forall h1 h2 s, h = h1 ++ h2 -> ctu_run q u ctu_default h1 = Ok s -> in_ity t (ctu_cv s)) ->
  exists s, ctu_run p t ctu_default h = Ok s /\ ctu_run q u ctu_default h = Ok s.
Proof.
  intros p q t u h Zt Zu. induction h as [|i h IH] using rev_ind; intros HT HU.
  - exists ctu_default. split; reflexivity.
  - destruct IH as (s & ST & SU).
    { intros h1 h2 s E. apply (HT h1 (h2 ++ [i])). rewrite E, app_assoc. reflexivity. }
    { intros h1 h2 s E. apply (HU h1 (h2 ++ [i])). rewrite E, app_assoc. reflexivity. }
    pose proof (HU h [i] s eq_refl SU) as A. pose proof (HT h [i] s eq_refl ST) as B.
    destruct (ctu_one p q t u s i A B) as (s1 & S1 & S2).
    + intros s1 E. apply (HT (h ++ [i]) []); [symmetry; apply app_nil_r|].
      rewrite ctu_run_app, ST. cbn [obind ctu_run]. rewrite E. reflexivity.
    + intros s1 E. apply (HU (h ++ [i]) []); [symmetry; apply app_nil_r|].
      rewrite ctu_run_app, SU. cbn [obind ctu_run]. rewrite E. reflexivity.
    + exists s1. rewrite !ctu_run_app, ST, SU. cbn [obind ctu_run]. rewrite S1, S2. split; reflexivity.
Qed.

Lemma ctd_agree : forall p q t u h, in_ity t 0 -> in_ity u 0 ->
  (forall h1 h2 s, h = h1 ++ h2 -> ctd_run p t ctd_default h1 = Ok s -> in_ity u (ctd_cv s)) ->
  (forall h1 h2 s, h = h1 ++ h2 -> ctd_run q u ctd_default h1 = Ok s -> in_ity t (ctd_cv s)) ->
  exists s, ctd_run p t ctd_default h = Ok s /\ ctd_run q u ctd_default h = Ok s.
Proof.
  intros p q t u h Zt Zu. induction h as [|i h IH] using rev_ind; intros HT HU.
  - exists ctd_default. split; reflexivity.
  - destruct IH as (s & ST & SU).
    { intros h1 h2 s E. apply (HT h1 (h2 ++ [i])). rewrite E, app_assoc. reflexivity. }
    { intros h1 h2 s E. apply (HU h1 (h2 ++ [i])). rewrite E, app_assoc. reflexivity. }
    pose proof (HU h [i] s eq_refl SU) as A. pose proof (HT h [i] s eq_refl ST) as B.
    destruct (ctd_one p q t u s i A B) as (s1 & S1 & S2).
    + intros s1 E. apply (HT (h ++ [i]) []); [symmetry; apply app_nil_r|].
      rewrite ctd_run_app, ST. cbn [obind ctd_run]. rewrite E. reflexivity.
    + intros s1 E. apply (HU (h ++ [i]) []); [symmetry; apply app_nil_r|].
      rewrite ctd_run_app, SU. cbn [obind ctd_run]. rewrite E. reflexivity.
    + exists s1. rewrite !ctd_run_app, ST, SU. cbn [obind ctd_run]. rewrite S1, S2. split; reflexivity.
Qed.

Lemma ctud_agree : forall p q t u h, in_ity t 0 -> in_ity u 0 ->
  (forall h1 h2 s, h = h1 ++ h2 -> ctud_run p t ctud_default h1 = Ok s -> in_ity u (cud_cv s)) ->
  (forall h1 h2 s, h = h1 ++ h2 -> ctud_run q u ctud_default h1 = Ok s -> in_ity t (cud_cv s)) ->
  exists s, ctud_run p t ctud_default h = Ok s /\ ctud_run q u ctud_default h = Ok s.
Proof.
  intros p q t u h Zt Zu. induction h as [|i h IH] using rev_ind; intros HT HU.
  - exists ctud_default. split; reflexivity.
  - destruct IH as (s & ST & SU).
    { intros h1 h2 s E. apply (HT h1 (h2 ++ [i])). rewrite E, app_assoc. reflexivity. }
    { intros h1 h2 s E. apply (HU h1 (h2 ++ [i])). rewrite E, app_assoc. reflexivity. }
    pose proof (HU h [i] s eq_refl SU) as A. pose proof (HT h [i] s eq_refl ST) as B.
    destruct (ctud_one p q t u s i A B) as (s1 & S1 & S2).
    + intros s1 E. apply (HT (h ++ [i]) []); [symmetry; apply app_nil_r|].
      rewrite ctud_run_app, ST. cbn [obind ctud_run]. rewrite E. reflexivity.
    + intros s1 E. apply (HU (h ++ [i]) []); [symmetry; apply app_nil_r|].
      rewrite ctud_run_app, SU. cbn [obind ctud_run]. rewrite E. reflexivity.
    + exists s1. rewrite !ctud_run_app, ST, SU. cbn [obind ctud_run]. rewrite S1, S2. split; reflexivity.
Qed.
