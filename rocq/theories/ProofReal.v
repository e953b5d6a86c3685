(** Real-number facts about single floating-point operations. *)
From Coq Require Import ZArith Bool Lia Reals Lra SpecFloat.
From Flocq Require Import Core BinarySingleNaN.
From Verif Require Import Base ModelFloat ModelTimeNum ModelArith SpecScalar SpecTimeNum SpecReal
  ProofBase ProofFlocq ProofTimeNum ProofTimeAcc ModelST.
Open Scope R_scope.

Section Format.
Variable f : fmt.
Hypothesis Hf : binary_format f.
Notation prec := (f_prec f).
Notation emax := (f_emax f).
Notation valid := (valid_binary prec emax).
Notation fexp := (SpecFloat.fexp prec emax).
Notation rnd := (round radix2 fexp ZnearestE).
Notation v := (SF2R radix2).

Lemma Hprec : Prec_gt_0 prec.
Proof. destruct Hf as [-> | ->]; reflexivity. Qed.
Lemma Hmax : Prec_lt_emax prec emax.
Proof. destruct Hf as [-> | ->]; reflexivity. Qed.
Local Existing Instance Hprec.
Local Existing Instance Hmax.

Lemma fexp_valid : Valid_exp fexp.
Proof. apply (fexp_correct prec emax Hprec). Qed.
Local Existing Instance fexp_valid.
Lemma fexp_mono : Monotone_exp fexp.
Proof. apply (fexp_monotone prec emax). Qed.
Local Existing Instance fexp_mono.

Lemma fl_valid_sf : forall x, fl_valid f x -> fl_finite x = true ->
  valid (fl_sf x) = true /\ is_finite_SF (fl_sf x) = true.
Proof. intros [[s|s| |s m e]|s p] V F; try discriminate; simpl in *; auto. Qed.

Lemma sf_fl : forall s, valid s = true -> is_finite_SF s = true ->
  fl_valid f (FNum s) /\ fl_finite (FNum s) = true /\ fl_of_sf f s = FNum s.
Proof. intros [s|s| |s m e] V F; try discriminate; simpl in *; auto. Qed.

Lemma value_format : forall s, valid s = true -> generic_format radix2 fexp (v s).
Proof.
  intros s V. rewrite <- (B2SF_SF2B _ _ s V), SF2R_B2SF. apply generic_format_B2R.
Qed.

Lemma value_small : forall s, valid s = true -> Rabs (v s) < bpow radix2 emax.
Proof.
  intros s V. rewrite <- (B2SF_SF2B _ _ s V), SF2R_B2SF. apply abs_B2R_lt_emax.
Qed.

Lemma valid_canonical : forall s m e, valid (S754_finite s m e) = true ->
  canonical radix2 fexp (Float radix2 (cond_Zopp s (Zpos m)) e).
Proof.
  intros s m e V. apply (canonical_canonical_mantissa prec emax).
  unfold valid_binary, bounded in V. now apply andb_true_iff in V.
Qed.

Lemma value_finite : forall s m e,
  v (S754_finite s m e) = IZR (cond_Zopp s (Zpos m)) * bpow radix2 e.
Proof. reflexivity. Qed.

Lemma nearest_of_rnd : forall s r, valid s = true -> is_finite_SF s = true -> v s = rnd r ->
  nearest_even f (FNum s) r.
Proof.
  intros s r V F E. destruct (sf_fl s V F) as (A & B & _).
  split; [exact A|]. split; [exact B|]. intros y Vy Fy.
  destruct (fl_valid_sf y Vy Fy) as [Vy' Fy'].
  assert (N : Rnd_N_pt (generic_format radix2 fexp) r (rnd r))
    by (apply round_N_pt; typeclasses eauto).
  destruct N as [G N].
  change (fl_value (FNum s)) with (v s). rewrite E.
  split; [apply N; now apply value_format|].
  intros Dy Ey.
  assert (NEp : Rnd_NE_pt radix2 fexp r (rnd r)).
  { apply round_NE_pt. apply fexp_valid.
    change fexp with (FLT_exp (SpecFloat.emin prec emax) prec). apply exists_NE_FLT.
    right. destruct Hf as [-> | ->]; reflexivity. }
  destruct NEp as [_ [P|U]].
  - destruct P as (g & Eg & Cg & Zg).
    destruct s as [s|s| |s m e]; try discriminate; [reflexivity|].
    pose proof (valid_canonical s m e V) as C.
    assert (Q : g = Float radix2 (cond_Zopp s (Zpos m)) e).
    { apply (canonical_unique radix2 fexp); auto. rewrite <- Eg, <- E. reflexivity. }
    subst g. simpl in Zg. simpl. destruct s; exact Zg.
  - exfalso. apply Dy. apply U. split; [now apply value_format|].
    intros g Gg. unfold fl_value, sf_value in *. rewrite <- Ey. now apply N.
Qed.

(** Rounding of representable values. *)
Lemma rnd_id : forall r, generic_format radix2 fexp r -> rnd r = r.
Proof. intros. now apply round_generic; [typeclasses eauto|]. Qed.

Lemma dyadic_format : forall m e, (Z.abs m <= 2 ^ prec)%Z -> (SpecFloat.emin prec emax <= e)%Z ->
  generic_format radix2 fexp (IZR m * bpow radix2 e).
Proof.
  intros m e M E. change fexp with (FLT_exp (SpecFloat.emin prec emax) prec).
  assert (P : (0 < prec)%Z) by apply Hprec.
  destruct (Z.eq_dec (Z.abs m) (2 ^ prec)) as [Q|Q].
  - assert (K : generic_format radix2 (FLT_exp (SpecFloat.emin prec emax) prec)
                  (bpow radix2 (prec + e))).
    { apply generic_format_FLT_bpow; [apply Hprec|]. lia. }
    rewrite bpow_plus in K.
    assert (B : bpow radix2 prec = IZR (Z.abs m)).
    { rewrite Q. symmetry. apply (IZR_Zpower radix2). lia. }
    rewrite B in K. destruct (Z.abs_eq_or_opp m) as [H|H]; rewrite H in K; [exact K|].
    rewrite opp_IZR, Ropp_mult_distr_l_reverse in K. apply generic_format_opp in K.
    now rewrite Ropp_involutive in K.
  - apply generic_format_FLT. exists (Float radix2 m e); [reflexivity|simpl|exact E].
    change (Zpower_pos 2) with (Z.pow_pos 2). change (radix_val radix2) with 2%Z. lia.
Qed.

Lemma dyadic_small : forall m e, (Z.abs m <= 2 ^ prec)%Z -> (prec + e < emax)%Z ->
  Rabs (IZR m * bpow radix2 e) < bpow radix2 emax.
Proof.
  intros m e M E. rewrite Rabs_mult, <- abs_IZR, (Rabs_pos_eq (bpow _ _)) by apply bpow_ge_0.
  apply Rle_lt_trans with (bpow radix2 prec * bpow radix2 e).
  - apply Rmult_le_compat_r; [apply bpow_ge_0|].
    rewrite <- (IZR_Zpower radix2) by (pose proof Hprec as P; red in P; lia).
    apply IZR_le. exact M.
  - rewrite <- bpow_plus. now apply bpow_lt.
Qed.

(** [binary_normalize] with any sign of zero. *)
Lemma norm_any : forall m e s,
  Rabs (rnd (IZR m * bpow radix2 e)) < bpow radix2 emax ->
  let z := SpecFloat.binary_normalize prec emax m e s in
  valid z = true /\ is_finite_SF z = true /\ v z = rnd (IZR m * bpow radix2 e).
Proof.
  intros m e s H z. subst z.
  destruct (Z.eq_dec m 0) as [->|M].
  - simpl. rewrite Rmult_0_l, round_0; [|typeclasses eauto]. auto.
  - pose proof (norm_sf prec emax Hprec Hmax m e H) as (A & B & C & _).
    replace (SpecFloat.binary_normalize prec emax m e s) with (SpecFloat.binary_normalize prec emax m e false); auto.
    destruct m; [now destruct M|reflexivity|reflexivity].
Qed.

(** Integers to floats. *)
Lemma of_int_nearest : forall z, (Z.abs z < 2 ^ 127)%Z ->
  nearest_even f (FNum (f_of_int f z)) (IZR z).
Proof.
  intros z H.
  assert (B : Rabs (rnd (IZR z * bpow radix2 0)) < bpow radix2 emax).
  { rewrite Rmult_1_r. apply Rle_lt_trans with (bpow radix2 127).
    - apply abs_round_le_generic; [typeclasses eauto|typeclasses eauto| |].
      + apply generic_format_bpow. destruct Hf as [-> | ->]; vm_compute; discriminate.
      + rewrite <- abs_IZR. left. change (bpow radix2 127) with (IZR (2 ^ 127)).
        now apply IZR_lt.
    - apply bpow_lt. destruct Hf as [-> | ->]; reflexivity. }
  destruct (norm_any z 0 false B) as (V & F & E).
  rewrite Rmult_1_r in E. now apply nearest_of_rnd.
Qed.

Lemma of_int_exact : forall z, (Z.abs z <= 2 ^ prec)%Z ->
  let x := FNum (f_of_int f z) in
  fl_valid f x /\ fl_finite x = true /\ fl_value x = IZR z.
Proof.
  intros z H x.
  assert (G : rnd (IZR z * bpow radix2 0) = IZR z * bpow radix2 0).
  { apply rnd_id. apply dyadic_format; auto. destruct Hf as [-> | ->]; vm_compute; discriminate. }
  assert (B : Rabs (rnd (IZR z * bpow radix2 0)) < bpow radix2 emax).
  { rewrite G. apply dyadic_small; auto. destruct Hf as [-> | ->]; reflexivity. }
  destruct (norm_any z 0 false B) as (V & F & E).
  destruct (sf_fl _ V F) as (A1 & A2 & _).
  split; [exact A1|]. split; [exact A2|].
  change (fl_value x) with (v (f_of_int f z)). unfold f_of_int. rewrite E, G. simpl. ring.
Qed.

(** ** SQRT *)
Lemma sqrt_nearest : forall x, fl_valid f x -> fl_finite x = true -> 0 <= fl_value x ->
  nearest_even f (SQRT f x) (sqrt (fl_value x)).
Proof.
  intros x V F P. destruct (fl_valid_sf x V F) as [V' F'].
  destruct (sqrt_sf prec emax Hprec Hmax (fl_sf x) V') as (A & B & C).
  specialize (C F' P). unfold SQRT. destruct (sf_fl _ A C) as (_ & _ & ->).
  now apply nearest_of_rnd.
Qed.

Lemma value_neg : forall m e, v (S754_finite true m e) < 0.
Proof.
  intros m e. rewrite value_finite. simpl cond_Zopp.
  assert (0 < bpow radix2 e) by apply bpow_gt_0.
  assert (IZR (Zneg m) < 0) by now apply IZR_lt.
  rewrite <- (Rmult_0_l (bpow radix2 e)). now apply Rmult_lt_compat_r.
Qed.
Lemma value_pos : forall m e, 0 < v (S754_finite false m e).
Proof.
  intros m e. rewrite value_finite. simpl cond_Zopp.
  apply Rmult_lt_0_compat; [now apply IZR_lt|apply bpow_gt_0].
Qed.

Lemma sqrt_value : forall x, fl_valid f x -> fl_finite x = true -> 0 <= fl_value x ->
  fl_value (SQRT f x) = rnd (sqrt (fl_value x)).
Proof.
  intros x V F P. destruct (fl_valid_sf x V F) as [V' F'].
  destruct (sqrt_sf prec emax Hprec Hmax (fl_sf x) V') as (A & B & C).
  specialize (C F' P). unfold SQRT. destruct (sf_fl _ A C) as (_ & _ & ->). exact B.
Qed.

Lemma sqrt_mono : forall x y, fl_valid f x -> fl_valid f y -> fl_finite x = true ->
  fl_finite y = true -> 0 <= fl_value x <= fl_value y ->
  fl_value (SQRT f x) <= fl_value (SQRT f y).
Proof.
  intros x y Vx Vy Fx Fy H. rewrite !sqrt_value by (auto; lra).
  apply round_le; [typeclasses eauto..|]. apply sqrt_le_1; lra.
Qed.

Lemma sqrt_exact : forall x y, fl_valid f x -> fl_valid f y -> fl_finite x = true ->
  fl_finite y = true -> 0 <= fl_value y -> fl_value x = fl_value y * fl_value y ->
  fl_value (SQRT f x) = fl_value y.
Proof.
  intros x y Vx Vy Fx Fy P E.
  rewrite sqrt_value; auto; [|rewrite E; now apply Rmult_le_pos].
  rewrite E, sqrt_square by auto. apply rnd_id. apply value_format.
  now apply fl_valid_sf.
Qed.

Lemma sqrt_nan : forall x, fl_valid f x ->
  is_nan (SQRT f x) = is_nan x || (fl_neg x && negb (SFeqb (fl_sf x) (S754_zero false))).
Proof.
  intros [[s|s| |s m e]|s p] V; try reflexivity; try (destruct s; reflexivity).
  destruct s; [reflexivity|].
  assert (F : fl_finite (FNum (S754_finite false m e)) = true) by reflexivity.
  destruct (sqrt_nearest _ V F (Rlt_le _ _ (value_pos m e))) as (_ & Q & _).
  destruct (SQRT f (FNum (S754_finite false m e))) as [[]|]; try discriminate; reflexivity.
Qed.

Lemma sqrt_special : forall s,
  SQRT f (FNum (S754_zero s)) = FNum (S754_zero s) /\
  SQRT f (FNum (S754_infinity false)) = FNum (S754_infinity false).
Proof. intros s. split; reflexivity. Qed.

(** ** ROUND and truncation *)
Lemma bpow_scale : forall m k, (0 < k)%Z -> IZR m * bpow radix2 (- k) = IZR m / IZR (2 ^ k).
Proof.
  intros m k K. unfold Rdiv. rewrite bpow_opp. do 2 f_equal. symmetry.
  apply (IZR_Zpower radix2). lia.
Qed.

Lemma round_n_spec : forall m k, (0 < k)%Z ->
  let n := ((2 * Zpos m + 2 ^ k) / 2 ^ (k + 1))%Z in
  (0 <= n)%Z /\ (n <= Zpos m)%Z /\ nearest_int n (IZR (Zpos m) / IZR (2 ^ k)).
Proof.
  intros m k K n.
  assert (P : (0 < 2 ^ k)%Z) by (apply Z.pow_pos_nonneg; lia).
  assert (P2 : (2 ^ (k + 1) = 2 * 2 ^ k)%Z) by (rewrite Z.pow_add_r by lia; lia).
  assert (D := Z.div_mod (2 * Zpos m + 2 ^ k) (2 ^ (k + 1)) ltac:(lia)).
  assert (M := Z.mod_pos_bound (2 * Zpos m + 2 ^ k) (2 ^ (k + 1)) ltac:(lia)).
  fold n in D. set (r := ((2 * Zpos m + 2 ^ k) mod 2 ^ (k + 1))%Z) in *. clearbody r n.
  rewrite P2 in D, M. set (K2 := (2 ^ k)%Z) in *.
  assert (K3 : (2 <= K2)%Z).
  { unfold K2. replace k with (1 + (k - 1))%Z by lia. rewrite Z.pow_add_r by lia.
    assert (0 < 2 ^ (k - 1))%Z by (apply Z.pow_pos_nonneg; lia). lia. }
  clearbody K2.
  assert (N0 : (0 <= n)%Z) by nia.
  split; [exact N0|]. split; [nia|].
  apply IZR_lt in P.
  assert (E : (2 * K2 * n - 2 * Zpos m = K2 - r)%Z) by lia.
  assert (E2 : IZR n - IZR (Zpos m) / IZR K2 = (IZR K2 - IZR r) / (2 * IZR K2)).
  { rewrite <- minus_IZR, <- E, minus_IZR, !mult_IZR. field. lra. }
  destruct M as [M1 M2]. apply IZR_le in M1. apply IZR_lt in M2. rewrite mult_IZR in M2.
  unfold nearest_int. rewrite E2.
  assert (A : Rabs ((IZR K2 - IZR r) / (2 * IZR K2)) <= / 2).
  { apply Rabs_le. split; apply (Rmult_le_reg_r (2 * IZR K2)); try lra;
    unfold Rdiv; rewrite Rmult_assoc, Rinv_l by lra; lra. }
  split; [exact A|]. intros T.
  assert (R0 : IZR r = 0).
  { assert (X : Rabs ((IZR K2 - IZR r) / (2 * IZR K2)) * (2 * IZR K2) = IZR K2)
      by (rewrite T; field).
    rewrite <- (Rabs_pos_eq (2 * IZR K2)) in X at 2 by lra.
    rewrite <- Rabs_mult in X. unfold Rdiv in X. rewrite Rmult_assoc, Rinv_l in X by lra.
    rewrite Rmult_1_r in X. unfold Rabs in X. destruct (Rcase_abs _); lra. }
  assert (G : 0 < IZR n - IZR (Zpos m) / IZR K2).
  { rewrite E2, R0. apply Rmult_lt_0_compat; [lra|]. apply Rinv_0_lt_compat. lra. }
  assert (0 < IZR (Zpos m) / IZR K2).
  { apply Rmult_lt_0_compat; [now apply IZR_lt|]. now apply Rinv_0_lt_compat. }
  rewrite !Rabs_pos_eq by lra. lra.
Qed.

Lemma nearest_int_opp : forall n r, nearest_int n r -> nearest_int (- n) (- r).
Proof.
  intros n r [A B]. unfold nearest_int. rewrite opp_IZR, !Rabs_Ropp.
  replace (- IZR n - - r) with (- (IZR n - r)) by ring. rewrite Rabs_Ropp. auto.
Qed.

Lemma nearest_int_self : forall n, nearest_int n (IZR n).
Proof.
  intros n. unfold nearest_int. replace (IZR n - IZR n) with 0 by ring. rewrite Rabs_R0. lra.
Qed.

Lemma valid_mantissa : forall s m e, valid (S754_finite s m e) = true -> (Zpos m < 2 ^ prec)%Z.
Proof.
  intros s m e V. unfold valid_binary, bounded in V. apply andb_true_iff in V. destruct V as [V _].
  unfold canonical_mantissa in V. apply Zeq_bool_eq in V. unfold SpecFloat.fexp in V.
  assert (L : (Z.pos (digits2_pos m) <= prec)%Z) by lia.
  rewrite Digits.Zpos_digits2_pos in L.
  pose proof (Digits.Zdigits_correct radix2 (Zpos m)) as [_ D]. rewrite Z.abs_eq in D by lia.
  eapply Z.lt_le_trans; [exact D|]. apply (Z.pow_le_mono_r 2); lia.
Qed.

Lemma round_spec : forall x, fl_valid f x -> fl_finite x = true -> exists n,
  fl_valid f (ROUND f x) /\ fl_finite (ROUND f x) = true /\ fl_value (ROUND f x) = IZR n /\
  nearest_int n (fl_value x).
Proof.
  intros [[s|s| |s m e]|s p] V F; try discriminate.
  - exists 0%Z. repeat split; auto. apply (nearest_int_self 0). apply (nearest_int_self 0).
  - set (n := (if 0 <=? e then Zpos m * 2 ^ e else (2 * Zpos m + 2 ^ (- e)) / 2 ^ (- e + 1))%Z).
    set (sn := (if s then - n else n)%Z). exists sn.
    change (ROUND f (FNum (S754_finite s m e)))
      with (FNum (SpecFloat.binary_normalize prec emax sn 0 s)).
    assert (P : 0 < bpow radix2 e) by apply bpow_gt_0.
    assert (K : rnd (IZR sn) = IZR sn /\ Rabs (IZR sn) < bpow radix2 emax /\
                nearest_int sn (fl_value (FNum (S754_finite s m e)))).
    { unfold sn, n. destruct (Z.leb_spec 0 e) as [E|E].
      - assert (Q : IZR (if s then - (Zpos m * 2 ^ e) else Zpos m * 2 ^ e) =
                    v (S754_finite s m e)).
        { rewrite value_finite. rewrite <- (IZR_Zpower radix2 e E), <- mult_IZR. f_equal.
          change (radix_val radix2) with 2%Z. destruct s; simpl cond_Zopp; lia. }
        rewrite Q. split; [apply rnd_id; now apply value_format|].
        split; [now apply value_small|]. unfold fl_value, sf_value, fl_sf. rewrite <- Q.
        apply nearest_int_self.
      - destruct (round_n_spec m (- e) ltac:(lia)) as (N0 & N1 & N2).
        set (q := ((2 * Zpos m + 2 ^ (- e)) / 2 ^ (- e + 1))%Z) in *.
        pose proof (valid_mantissa _ _ _ V) as VM.
        assert (A : (Z.abs (if s then - q else q) <= 2 ^ prec)%Z) by (destruct s; lia).
        assert (G := dyadic_format _ 0 A).
        assert (S := dyadic_small _ 0 A). rewrite Rmult_1_r in G, S.
        split; [apply rnd_id; apply G; destruct Hf as [-> | ->]; vm_compute; discriminate|].
        split; [apply S; destruct Hf as [-> | ->]; reflexivity|].
        unfold fl_value, sf_value, fl_sf. rewrite value_finite.
        replace (bpow radix2 e) with (bpow radix2 (- - e)) by (f_equal; lia).
        rewrite bpow_scale by lia.
        destruct s; [|exact N2]. simpl cond_Zopp.
        replace (IZR (Zneg m) / IZR (2 ^ (- e))) with (- (IZR (Zpos m) / IZR (2 ^ (- e)))).
        + now apply nearest_int_opp.
        + change (Zneg m) with (- Zpos m)%Z. rewrite opp_IZR. unfold Rdiv. ring. }
    destruct K as (K1 & K2 & K3).
    destruct (norm_any sn 0 s) as (A & B & C).
    { rewrite Rmult_1_r, K1. exact K2. }
    rewrite Rmult_1_r, K1 in C. destruct (sf_fl _ A B) as (D1 & D2 & _). auto.
Qed.
End Format.

Lemma trunc_spec : forall x, fl_finite x = true -> exists n, fl_trunc x = Some n /\
  integer_part n (fl_value x).
Proof.
  intros [[s|s| |s m e]|s p] F; try discriminate.
  - exists 0%Z. split; [reflexivity|]. unfold integer_part, fl_value, sf_value. simpl.
    rewrite Rminus_0_r, Rabs_R0. lra.
  - exists (if s then - scale_trunc (Zpos m) e else scale_trunc (Zpos m) e)%Z.
    split; [reflexivity|].
    pose proof (scale_trunc_R (Zpos m) e ltac:(lia)) as H.
    assert (P : 0 < IZR (Zpos m) * bpow radix2 e)
      by (apply Rmult_lt_0_compat; [now apply IZR_lt|apply bpow_gt_0]).
    assert (T : 0 <= IZR (scale_trunc (Zpos m) e)).
    { apply IZR_le. unfold scale_trunc. destruct (0 <=? e)%Z eqn:E.
      - apply Z.mul_nonneg_nonneg; [lia|]. apply Z.pow_nonneg. lia.
      - apply Z.div_pos; [lia|]. apply Z.leb_gt in E. apply Z.pow_pos_nonneg; lia. }
    unfold integer_part, fl_value, sf_value, fl_sf.
    change (SF2R radix2 (S754_finite s m e)) with (IZR (cond_Zopp s (Zpos m)) * bpow radix2 e).
    set (a := IZR (Zpos m) * bpow radix2 e) in *. set (t := scale_trunc (Zpos m) e) in *.
    destruct s; simpl cond_Zopp.
    + change (Zneg m) with (- Zpos m)%Z. rewrite !opp_IZR.
      replace (- IZR (Zpos m) * bpow radix2 e) with (- a) by (unfold a; ring).
      rewrite !Rabs_Ropp. rewrite (Rabs_pos_eq (IZR t)), (Rabs_pos_eq a) by lra.
      split; [lra|]. split; [apply Rabs_def1; lra|].
      replace (- IZR t * - a) with (IZR t * a) by ring. apply Rmult_le_pos; lra.
    + fold a. rewrite (Rabs_pos_eq (IZR t)), (Rabs_pos_eq a) by lra.
      split; [lra|]. split; [apply Rabs_def1; lra|]. apply Rmult_le_pos; lra.
Qed.

Lemma trunc_int : forall x n, fl_finite x = true -> fl_value x = IZR n -> fl_trunc x = Some n.
Proof.
  intros x n F E. destruct (trunc_spec x F) as (k & K & A & B & _). rewrite K, E in *.
  f_equal. now apply near_int.
Qed.
