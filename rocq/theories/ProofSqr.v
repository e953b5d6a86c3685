(** The square root of a rounded square. *)
From Coq Require Import ZArith Bool Lia Reals Lra SpecFloat.
From Flocq Require Import Core BinarySingleNaN.
From Verif Require Import Base ModelFloat ModelTimeNum ModelArith SpecScalar SpecTimeNum SpecReal SpecPow ProofFlocq ProofTimeNum ProofReal ProofReal2.
Open Scope R_scope.

Section Format.
Variable f : fmt.
Hypothesis Hf : binary_format f.
Notation prec := (f_prec f).
Notation emax := (f_emax f).
Notation fexp := (SpecFloat.fexp prec emax).
Notation rnd := (round radix2 fexp ZnearestE).
Local Existing Instance fexp_valid.

Lemma fexp_flt : forall e, fexp e = Z.max (e - prec) (f_emin f).
Proof. reflexivity. Qed.
Lemma low_exponent : (f_emin f + prec - 1 <= 0 /\ 1 < prec)%Z.
Proof. destruct Hf as [-> | ->]; split; vm_compute; (discriminate || reflexivity). Qed.

Lemma sqrt_sqr_pos : forall x, 0 < x -> generic_format radix2 fexp x -> min_normal f <= x * x -> rnd (sqrt (rnd (x * x))) = x.
Proof.
  intros x X G L. assert (VE : Valid_exp fexp) by exact (fexp_valid f Hf). destruct low_exponent as [LE PR].
  assert (GN : min_normal f <= x).
  { destruct (Rle_or_lt 1 x) as [H|H].
    - apply Rle_trans with 1; [|exact H]. change 1 with (bpow radix2 0). now apply bpow_le.
    - apply Rle_trans with (1 := L). rewrite <- (Rmult_1_r x) at 3. apply Rmult_le_compat_l; lra. }
  assert (M : bpow radix2 (mag radix2 x - 1) <= x < bpow radix2 (mag radix2 x)).
  { destruct (mag radix2 x) as [E M]. cbn. pose proof (M (Rgt_not_eq _ _ X)) as M'. rewrite (Rabs_pos_eq x) in M' by lra. exact M'. }
  remember (mag radix2 x : Z) as E eqn:ME'. symmetry in ME'.
  assert (EL : (f_emin f + prec <= E)%Z).
  { assert (bpow radix2 (f_emin f + prec - 1) < bpow radix2 E) by (eapply Rle_lt_trans; [exact GN|apply M]). apply lt_bpow in H. lia. }
  assert (X2 : bpow radix2 (2 * E - 2) <= x * x < bpow radix2 (2 * E)).
  { replace (2 * E - 2)%Z with ((E - 1) + (E - 1))%Z by lia. replace (2 * E)%Z with (E + E)%Z by lia. rewrite !bpow_plus.
    pose proof (bpow_gt_0 radix2 (E - 1)). split; [apply Rmult_le_compat; lra|apply Rmult_le_0_lt_compat; lra]. }
  assert (EL2 : (f_emin f + prec <= 2 * E)%Z).
  { assert (bpow radix2 (f_emin f + prec - 1) < bpow radix2 (2 * E)) by (eapply Rle_lt_trans; [exact L|apply X2]). apply lt_bpow in H. lia. }
  destruct (Req_dec x (bpow radix2 (E - 1))) as [EQ|NE].
  - assert (Q : x * x = bpow radix2 (2 * E - 2)) by (rewrite EQ, <- bpow_plus; f_equal; lia).
    rewrite (rnd_id f (x * x)); [|].
    + rewrite sqrt_square by lra. now apply rnd_id.
    + rewrite Q. apply generic_format_bpow. rewrite fexp_flt. rewrite Q in L. apply le_bpow in L. lia.
  - assert (XS : bpow radix2 (E - 1) < x) by lra.
    set (y := rnd (x * x)).
    assert (YL : bpow radix2 (2 * E - 2) <= y).
    { apply round_ge_generic; [exact VE|typeclasses eauto| |apply X2]. apply generic_format_bpow. rewrite fexp_flt. lia. }
    assert (YE : Rabs (y - x * x) <= / 2 * bpow radix2 (2 * E - prec)).
    { eapply Rle_trans; [apply error_le_half_ulp; exact VE|]. apply Rmult_le_compat_l; [lra|].
      rewrite ulp_neq_0 by (apply Rgt_not_eq; apply Rmult_lt_0_compat; lra). apply bpow_le. unfold cexp. rewrite fexp_flt.
      assert ((mag radix2 (x * x) <= 2 * E)%Z).
      { apply mag_le_bpow; [apply Rgt_not_eq; apply Rmult_lt_0_compat; lra|]. rewrite Rabs_pos_eq by (apply Rmult_le_pos; lra). apply X2. }
      lia. }
    assert (SY : bpow radix2 (E - 1) <= sqrt y).
    { rewrite <- (sqrt_square (bpow radix2 (E - 1))) by apply bpow_ge_0. apply sqrt_le_1_alt.
      rewrite <- bpow_plus. replace (E - 1 + (E - 1))%Z with (2 * E - 2)%Z by lia. exact YL. }
    assert (Y0 : 0 <= y) by (eapply Rle_trans; [apply bpow_ge_0|exact YL]).
    set (d := bpow radix2 (E - prec)).
    assert (DB : bpow radix2 (2 * E - prec) = d * bpow radix2 E) by (unfold d; rewrite <- bpow_plus; f_equal; lia).
    assert (SB : bpow radix2 E < sqrt y + x).
    { replace E with (1 + (E - 1))%Z by lia. rewrite bpow_plus. change (bpow radix2 1) with 2. lra. }
    assert (DD : Rabs (sqrt y - x) < d / 2).
    { assert (PE : Rabs (sqrt y - x) * (sqrt y + x) <= / 2 * (d * bpow radix2 E)).
      { rewrite <- DB. rewrite <- (Rabs_pos_eq (sqrt y + x)) by (pose proof (bpow_ge_0 radix2 (E - 1)); lra). rewrite <- Rabs_mult.
        replace ((sqrt y - x) * (sqrt y + x)) with (sqrt y * sqrt y - x * x) by ring. now rewrite sqrt_sqrt. }
      apply Rnot_le_lt. intros C. assert (DP : 0 < d) by apply bpow_gt_0. pose proof (bpow_gt_0 radix2 E) as BP.
      assert (d / 2 * bpow radix2 E < d / 2 * (sqrt y + x)) by (apply Rmult_lt_compat_l; lra).
      assert (d / 2 * (sqrt y + x) <= Rabs (sqrt y - x) * (sqrt y + x)) by (apply Rmult_le_compat_r; lra). lra. }
    assert (UX : ulp radix2 fexp x = d) by (rewrite ulp_neq_0 by lra; unfold cexp, d; f_equal; rewrite ME', fexp_flt; lia).
    apply Rabs_def2 in DD. apply Rle_antisym.
    + apply round_N_le_midp; [exact VE|exact G|]. rewrite succ_eq_pos by lra. rewrite UX. lra.
    + apply round_N_ge_midp; [exact VE|exact G|]. rewrite pred_eq_pos by lra. unfold pred_pos. rewrite ME'. rewrite Req_bool_false by exact NE. rewrite UX. lra.
Qed.
Lemma sqrt_sqr : forall x, generic_format radix2 fexp x -> min_normal f <= x * x -> rnd (sqrt (rnd (x * x))) = Rabs x.
Proof.
  intros x G L. destruct (Req_dec x 0) as [->|N].
  - exfalso. rewrite Rmult_0_l in L. unfold min_normal in L. pose proof (bpow_gt_0 radix2 (f_emin f + prec - 1)). lra.
  - assert (Q : x * x = Rabs x * Rabs x) by (rewrite <- Rabs_mult, Rabs_pos_eq; [reflexivity|apply Rle_0_sqr]).
    rewrite Q. apply sqrt_sqr_pos; [now apply Rabs_pos_lt|now apply generic_format_abs|now rewrite <- Q].
Qed.
End Format.
