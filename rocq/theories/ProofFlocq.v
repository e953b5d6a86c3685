(** Link between the standard library's [SpecFloat] operations used by the model and real
    numbers, through the Flocq library. *)
From Coq Require Import ZArith Bool Lia Reals Lra SpecFloat.
From Flocq Require Import Core Relative BinarySingleNaN.
Open Scope R_scope.

Section Link.
Variables prec emax : Z.
Context (Hprec : Prec_gt_0 prec) (Hmax : Prec_lt_emax prec emax).
Notation emin := (SpecFloat.emin prec emax).
Notation fexp := (SpecFloat.fexp prec emax).
Notation rnd := (round radix2 fexp ZnearestE).
Notation valid := (valid_binary prec emax).
Notation v := (SF2R radix2).

Instance fexp_valid : Valid_exp fexp := fexp_correct prec emax Hprec.

Lemma round_nearest_even_equiv : forall s m l,
  round_nearest_even m l = choice_mode mode_NE s m l.
Proof.
  intros s m l. case l; [reflexivity|intro c].
  case c; [|reflexivity..]. now simpl; unfold Round.cond_incr; case Z.even.
Qed.

Lemma binary_round_aux_equiv : forall sx mx ex lx,
  SpecFloat.binary_round_aux prec emax sx mx ex lx
  = BinarySingleNaN.binary_round_aux prec emax mode_NE sx mx ex lx.
Proof.
  intros. unfold SpecFloat.binary_round_aux, BinarySingleNaN.binary_round_aux.
  destruct (shr_fexp _ _ _ _ _) as [mrs' e']. simpl.
  now rewrite (round_nearest_even_equiv sx).
Qed.

Lemma binary_round_equiv : forall s m e,
  SpecFloat.binary_round prec emax s m e =
  BinarySingleNaN.binary_round prec emax mode_NE s m e.
Proof.
  intros. unfold SpecFloat.binary_round, BinarySingleNaN.binary_round, shl_align_fexp.
  destruct (shl_align _ _ _) as [mz ez]. apply binary_round_aux_equiv.
Qed.

Lemma binary_normalize_equiv : forall m e szero,
  SpecFloat.binary_normalize prec emax m e szero
  = B2SF (BinarySingleNaN.binary_normalize prec emax Hprec Hmax mode_NE m e szero).
Proof.
  intros [|p|p] e szero; [reflexivity|..]; simpl; rewrite B2SF_SF2B; apply binary_round_equiv.
Qed.

Lemma mul_equiv : forall x y, SFmul prec emax (B2SF x) (B2SF y)
  = B2SF (Bmult (prec_gt_0_ := Hprec) (prec_lt_emax_ := Hmax) mode_NE x y).
Proof.
  intros [sx|sx| |sx mx ex Bx] [sy|sy| |sy my ey By]; try reflexivity.
  simpl. rewrite B2SF_SF2B. apply binary_round_aux_equiv.
Qed.

Lemma add_equiv : forall x y, SFadd prec emax (B2SF x) (B2SF y)
  = B2SF (Bplus (prec_gt_0_ := Hprec) (prec_lt_emax_ := Hmax) mode_NE x y).
Proof.
  intros [sx|sx| |sx mx ex Bx] [sy|sy| |sy my ey By]; try reflexivity;
    try (simpl; now case Bool.eqb).
  apply binary_normalize_equiv.
Qed.

Lemma div_equiv : forall x y, SFdiv prec emax (B2SF x) (B2SF y)
  = B2SF (Bdiv (prec_gt_0_ := Hprec) (prec_lt_emax_ := Hmax) mode_NE x y).
Proof.
  intros [sx|sx| |sx mx ex Bx] [sy|sy| |sy my ey By]; try reflexivity.
  simpl. rewrite B2SF_SF2B. destruct (SFdiv_core_binary _ _ _ _ _ _) as [[mz ez] lz].
  apply binary_round_aux_equiv.
Qed.

Lemma sqrt_equiv : forall x, SFsqrt prec emax (B2SF x)
  = B2SF (Bsqrt (prec_gt_0_ := Hprec) (prec_lt_emax_ := Hmax) mode_NE x).
Proof.
  intros [sx|sx| |sx mx ex Bx]; try reflexivity; try (now case sx).
  case sx; [reflexivity|]. simpl. rewrite B2SF_SF2B.
  destruct (SFsqrt_core_binary _ _ _ _) as [[mz ez] lz]. apply binary_round_aux_equiv.
Qed.

(** The same, stated on valid [spec_float]s. *)
Lemma mul_sf : forall x y, valid x = true -> valid y = true ->
  is_finite_SF x = true -> is_finite_SF y = true ->
  (Rabs (rnd (v x * v y)) < bpow radix2 emax ->
   valid (SFmul prec emax x y) = true /\ is_finite_SF (SFmul prec emax x y) = true /\
   v (SFmul prec emax x y) = rnd (v x * v y) /\
   sign_SF (SFmul prec emax x y) = xorb (sign_SF x) (sign_SF y)) /\
  (bpow radix2 emax <= Rabs (rnd (v x * v y)) ->
   SFmul prec emax x y = S754_infinity (xorb (sign_SF x) (sign_SF y))).
Proof.
  intros x y Vx Vy Fx Fy.
  rewrite <- (B2SF_SF2B _ _ x Vx), <- (B2SF_SF2B _ _ y Vy).
  set (bx := SF2B x Vx). set (by_ := SF2B y Vy).
  assert (Fbx : is_finite bx = true) by (unfold bx; now rewrite is_finite_SF2B).
  assert (Fby : is_finite by_ = true) by (unfold by_; now rewrite is_finite_SF2B).
  rewrite mul_equiv. pose proof (Bmult_correct prec emax Hprec Hmax mode_NE bx by_) as C.
  change (round_mode mode_NE) with ZnearestE in C.
  assert (S : forall b : binary_float prec emax, sign_SF (B2SF b) = Bsign b) by (now intros []).
  rewrite !SF2R_B2SF, !S. split; intros H.
  - rewrite Rlt_bool_true in C by exact H. destruct C as (C1 & C2 & C3).
    rewrite Fbx, Fby in C2. rewrite is_finite_SF_B2SF.
    split; [apply valid_binary_B2SF|]. split; [exact C2|]. split; [exact C1|].
    apply C3. now destruct (Bmult _ _ _).
  - rewrite Rlt_bool_false in C by exact H. exact C.
Qed.

Lemma div_sf : forall x y, valid x = true -> valid y = true ->
  is_finite_SF x = true -> is_finite_SF y = true -> v y <> 0 ->
  (Rabs (rnd (v x / v y)) < bpow radix2 emax ->
   valid (SFdiv prec emax x y) = true /\ is_finite_SF (SFdiv prec emax x y) = true /\
   v (SFdiv prec emax x y) = rnd (v x / v y) /\
   sign_SF (SFdiv prec emax x y) = xorb (sign_SF x) (sign_SF y)) /\
  (bpow radix2 emax <= Rabs (rnd (v x / v y)) ->
   SFdiv prec emax x y = S754_infinity (xorb (sign_SF x) (sign_SF y))).
Proof.
  intros x y Vx Vy Fx Fy.
  rewrite <- (B2SF_SF2B _ _ x Vx), <- (B2SF_SF2B _ _ y Vy).
  set (bx := SF2B x Vx). set (by_ := SF2B y Vy).
  assert (Fbx : is_finite bx = true) by (unfold bx; now rewrite is_finite_SF2B).
  rewrite div_equiv. pose proof (Bdiv_correct prec emax Hprec Hmax mode_NE bx by_) as C.
  change (round_mode mode_NE) with ZnearestE in C.
  assert (S : forall b : binary_float prec emax, sign_SF (B2SF b) = Bsign b) by (now intros []).
  rewrite !SF2R_B2SF, !S. intros N. specialize (C N). split; intros H.
  - rewrite Rlt_bool_true in C by exact H. destruct C as (C1 & C2 & C3).
    rewrite Fbx in C2. rewrite is_finite_SF_B2SF.
    split; [apply valid_binary_B2SF|]. split; [exact C2|]. split; [exact C1|].
    apply C3. now destruct (Bdiv _ _ _).
  - rewrite Rlt_bool_false in C by exact H. exact C.
Qed.

Lemma add_sf : forall x y, valid x = true -> valid y = true ->
  is_finite_SF x = true -> is_finite_SF y = true ->
  Rabs (rnd (v x + v y)) < bpow radix2 emax ->
  valid (SFadd prec emax x y) = true /\ is_finite_SF (SFadd prec emax x y) = true /\
  v (SFadd prec emax x y) = rnd (v x + v y) /\
  (sign_SF x = false -> sign_SF y = false -> 0 <= v x -> 0 <= v y ->
   sign_SF (SFadd prec emax x y) = false).
Proof.
  intros x y Vx Vy Fx Fy.
  rewrite <- (B2SF_SF2B _ _ x Vx), <- (B2SF_SF2B _ _ y Vy).
  set (bx := SF2B x Vx). set (by_ := SF2B y Vy).
  assert (Fbx : is_finite bx = true) by (unfold bx; now rewrite is_finite_SF2B).
  assert (Fby : is_finite by_ = true) by (unfold by_; now rewrite is_finite_SF2B).
  rewrite add_equiv. pose proof (Bplus_correct prec emax Hprec Hmax mode_NE bx by_ Fbx Fby) as C.
  change (round_mode mode_NE) with ZnearestE in C.
  assert (S : forall b : binary_float prec emax, sign_SF (B2SF b) = Bsign b) by (now intros []).
  rewrite !SF2R_B2SF, !S. intros H.
  rewrite Rlt_bool_true in C by exact H. destruct C as (C1 & C2 & C3).
  rewrite is_finite_SF_B2SF.
  split; [apply valid_binary_B2SF|]. split; [exact C2|]. split; [exact C1|].
  intros Sx Sy Px Py. rewrite C3. case Rcompare_spec; intros K; [lra| |reflexivity].
  now rewrite Sx.
Qed.

Lemma norm_sf : forall m e,
  Rabs (rnd (F2R (Float radix2 m e))) < bpow radix2 emax ->
  valid (SpecFloat.binary_normalize prec emax m e false) = true /\
  is_finite_SF (SpecFloat.binary_normalize prec emax m e false) = true /\
  v (SpecFloat.binary_normalize prec emax m e false) = rnd (F2R (Float radix2 m e)) /\
  ((0 <= m)%Z -> sign_SF (SpecFloat.binary_normalize prec emax m e false) = false).
Proof.
  intros m e H. rewrite binary_normalize_equiv.
  pose proof (binary_normalize_correct prec emax Hprec Hmax mode_NE m e false) as C.
  cbv zeta in C. change (round_mode mode_NE) with ZnearestE in C.
  rewrite Rlt_bool_true in C by exact H. destruct C as (C1 & C2 & C3).
  rewrite is_finite_SF_B2SF, SF2R_B2SF.
  split; [apply valid_binary_B2SF|]. split; [exact C2|]. split; [exact C1|].
  assert (S : forall b : binary_float prec emax, sign_SF (B2SF b) = Bsign b) by (now intros []).
  intros M. rewrite S, C3. case Rcompare_spec; intros K; try reflexivity.
  exfalso. apply (F2R_ge_0 radix2 (Float radix2 m e)) in M. lra.
Qed.

Lemma sqrt_sf : forall x, valid x = true ->
  valid (SFsqrt prec emax x) = true /\
  v (SFsqrt prec emax x) = rnd (sqrt (v x)) /\
  (is_finite_SF x = true -> 0 <= v x -> is_finite_SF (SFsqrt prec emax x) = true).
Proof.
  intros x Vx. rewrite <- (B2SF_SF2B _ _ x Vx). set (bx := SF2B x Vx).
  rewrite sqrt_equiv. destruct (Bsqrt_correct prec emax Hprec Hmax mode_NE bx) as (C1 & C2 & _).
  change (round_mode mode_NE) with ZnearestE in C1.
  rewrite !is_finite_SF_B2SF, !SF2R_B2SF.
  split; [apply valid_binary_B2SF|]. split; [exact C1|].
  intros F P. rewrite C2. destruct bx as [s|s| |[] m e B]; try discriminate; try reflexivity.
  exfalso. assert (K : B2R (B754_finite true m e B) < 0) by (now apply F2R_lt_0). lra.
Qed.

(** ** Error of one rounding *)
Definition uro : R := / 2 * bpow radix2 (- prec + 1).
Definition eta : R := / 2 * bpow radix2 emin.

Lemma uro_pos : 0 < uro.
Proof. unfold uro. apply Rmult_lt_0_compat; [lra|apply bpow_gt_0]. Qed.
Lemma eta_pos : 0 < eta.
Proof. unfold eta. apply Rmult_lt_0_compat; [lra|apply bpow_gt_0]. Qed.

Lemma rnd_pos_normal : forall x, x = 0 \/ bpow radix2 (emin + prec - 1) <= x ->
  (1 - uro) * x <= rnd x <= (1 + uro) * x.
Proof.
  intros x [->|H].
  - rewrite round_0 by apply valid_rnd_N. lra.
  - pose proof (bpow_gt_0 radix2 (emin + prec - 1)) as P.
    pose proof (relative_error_N_FLT radix2 emin prec Hprec (fun n => negb (Z.even n)) x) as E.
    rewrite (Rabs_pos_eq x) in E by lra. specialize (E H).
    fold uro in E. change (FLT_exp emin prec) with fexp in E.
    apply Rabs_def2b in E || apply Rabs_le_inv in E. lra.
Qed.

Lemma rnd_pos : forall x, 0 <= x ->
  (1 - uro) * x - eta <= rnd x <= (1 + uro) * x + eta.
Proof.
  intros x Px.
  assert (P0 : (0 < prec)%Z) by exact Hprec.
  destruct (error_N_FLT radix2 emin prec P0 (fun n => negb (Z.even n)) x)
    as (d & h & D & H & _ & E).
  fold uro in D. fold eta in H. change (FLT_exp emin prec) with fexp in E. rewrite E.
  apply Rabs_le_inv in D, H.
  assert (- uro * x <= d * x <= uro * x).
  { split; apply Rmult_le_compat_r; lra. }
  lra.
Qed.

Lemma rnd_le : forall x y, x <= y -> rnd x <= rnd y.
Proof. intros. now apply round_le; [apply fexp_valid|apply valid_rnd_N|]. Qed.
Lemma rnd_nonneg : forall x, 0 <= x -> 0 <= rnd x.
Proof. intros x H. rewrite <- (round_0 radix2 fexp ZnearestE). now apply rnd_le. Qed.
End Link.
