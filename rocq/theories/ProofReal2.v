(** Float format conversion, exact multiplication and integer powers. *)
From Coq Require Import ZArith Bool Lia Reals Lra SpecFloat.
From Flocq Require Import Core BinarySingleNaN.
From Verif Require Import Base ModelFloat ModelTimeNum ModelArith ModelST SpecScalar SpecTimeNum
  SpecReal ProofBase ProofFlocq ProofTimeNum ProofTimeAcc ProofReal.
Open Scope R_scope.

Lemma valid_exponent : forall f s m e, binary_format f ->
  valid_binary (f_prec f) (f_emax f) (S754_finite s m e) = true ->
  (f_emin f <= e <= f_emax f - f_prec f)%Z.
Proof.
  intros f s m e Hf V. unfold valid_binary, bounded in V. apply andb_true_iff in V.
  destruct V as [V W]. apply Z.leb_le in W. unfold canonical_mantissa in V.
  apply Zeq_bool_eq in V. unfold SpecFloat.fexp, SpecFloat.emin in V. unfold f_emin. lia.
Qed.

Lemma emin_eq : forall f, SpecFloat.emin (f_prec f) (f_emax f) = f_emin f.
Proof. reflexivity. Qed.

(** Two valid floats with the same value and sign are the same. *)
Lemma float_unique : forall f x y, binary_format f -> fl_valid f x -> fl_valid f y ->
  fl_finite x = true -> fl_finite y = true -> fl_value x = fl_value y -> fl_neg x = fl_neg y ->
  x = y.
Proof.
  intros f [[s|s| |s m e]|s p] [[t|t| |t n d]|t q] Hf Vx Vy Fx Fy E S; try discriminate.
  - simpl in S. now subst.
  - exfalso. unfold fl_value, sf_value, fl_sf in E. rewrite (value_finite t n d) in E.
    change (SF2R radix2 (S754_zero s)) with 0 in E.
    pose proof (bpow_gt_0 radix2 d). symmetry in E. apply Rmult_integral in E.
    destruct E as [E|E]; [|lra]. apply eq_IZR in E. destruct t; discriminate.
  - exfalso. unfold fl_value, sf_value, fl_sf in E. rewrite (value_finite s m e) in E.
    change (SF2R radix2 (S754_zero t)) with 0 in E.
    pose proof (bpow_gt_0 radix2 e). apply Rmult_integral in E.
    destruct E as [E|E]; [|lra]. apply eq_IZR in E. destruct s; discriminate.
  - assert (C := valid_canonical f s m e Vx). assert (D := valid_canonical f t n d Vy).
    assert (Q := canonical_unique _ _ _ _ C D E). injection Q as Q1 Q2. subst d.
    simpl in S. subst t. destruct s; injection Q1 as ->; reflexivity.
Qed.

(** Normalising an exactly representable number. *)
Lemma norm_exact : forall f m e s, binary_format f -> (Z.abs m <= 2 ^ f_prec f)%Z ->
  (f_emin f <= e)%Z -> (f_prec f + e < f_emax f)%Z ->
  let z := FNum (SpecFloat.binary_normalize (f_prec f) (f_emax f) m e s) in
  fl_valid f z /\ fl_finite z = true /\ fl_value z = IZR m * bpow radix2 e.
Proof.
  intros f m e s Hf M E1 E2 z.
  assert (G := dyadic_format f Hf m e M E1). assert (S := dyadic_small f Hf m e M E2).
  assert (R := rnd_id f _ G).
  destruct (norm_any f Hf m e s) as (A & B & C); [rewrite R; exact S|].
  destruct (sf_fl f _ A B) as (D1 & D2 & _). split; [exact D1|]. split; [exact D2|].
  rewrite R in C. exact C.
Qed.

Lemma norm_sign : forall f m e s z, SpecFloat.binary_normalize (f_prec f) (f_emax f) m e s = z ->
  fl_neg (FNum z) = true -> (m < 0)%Z \/ (m = 0%Z /\ s = true).
Proof.
  intros f m e s z E N. destruct m as [|p|p]; [right|exfalso|left; lia].
  - simpl in E. subst z. simpl in N. auto.
  - simpl in E. unfold SpecFloat.binary_round in E.
    destruct (shl_align p e _) as [m' e'].
    assert (K : forall m e l, fl_neg (FNum (SpecFloat.binary_round_aux (f_prec f) (f_emax f) false m e l)) = false).
    { intros. unfold SpecFloat.binary_round_aux.
      destruct (shr_fexp _ _ _ _ _) as [r1 e1]. destruct (shr_fexp _ _ _ e1 _) as [r2 e2].
      destruct (shr_m r2); try reflexivity. destruct (_ <=? _)%Z; reflexivity. }
    rewrite <- E, K in N. discriminate.
Qed.

(** REAL to LREAL is exact. *)
Lemma widen_exact : forall x, fl_valid F32 x -> fl_finite x = true ->
  let y := fl_convert F64 x in
  fl_valid F64 y /\ fl_finite y = true /\ fl_value y = fl_value x.
Proof.
  intros [[s|s| |s m e]|s p] V F y; try discriminate.
  - subst y. split; [reflexivity|]. split; reflexivity.
  - assert (M := valid_mantissa F32 _ _ _ V).
    destruct (valid_exponent F32 s m e (or_introl eq_refl) V) as [E1 E2].
    change (f_emin F32) with (-149)%Z in E1. change (f_emax F32 - f_prec F32)%Z with 104%Z in E2.
    change (f_prec F32) with 24%Z in M.
    destruct (norm_exact F64 (if s then Zneg m else Zpos m) e s (or_intror eq_refl))
      as (A & B & C).
    + change (f_prec F64) with 53%Z. destruct s; lia.
    + change (f_emin F64) with (-1074)%Z. lia.
    + change (f_prec F64) with 53%Z. change (f_emax F64) with 1024%Z. lia.
    + split; [exact A|]. split; [exact B|]. etransitivity; [exact C|]. destruct s; reflexivity.
Qed.

Lemma mul_sign : forall f x y z, SFmul (f_prec f) (f_emax f) x y = z -> is_finite_SF z = true ->
  is_finite_SF x = true -> is_finite_SF y = true -> sign_SF z = xorb (sign_SF x) (sign_SF y).
Proof.
  intros f x y z <- F Fx Fy.
  destruct x as [s|s| |s m e], y as [t|t| |t n d]; try discriminate; try reflexivity.
  simpl in *.
  assert (K : forall b m e l, is_finite_SF (SpecFloat.binary_round_aux (f_prec f) (f_emax f) b m e l) = true ->
     sign_SF (SpecFloat.binary_round_aux (f_prec f) (f_emax f) b m e l) = b).
  { intros b m0 e0 l. unfold SpecFloat.binary_round_aux.
    destruct (shr_fexp _ _ _ _ _) as [r1 e1]. destruct (shr_fexp _ _ _ e1 _) as [r2 e2].
    destruct (shr_m r2); try reflexivity; try discriminate. destruct (_ <=? _)%Z; reflexivity. }
  now apply K.
Qed.

(** A product that is representable is computed exactly. *)
Lemma mul_exact : forall f x y, binary_format f ->
  valid_binary (f_prec f) (f_emax f) x = true -> valid_binary (f_prec f) (f_emax f) y = true ->
  is_finite_SF x = true -> is_finite_SF y = true ->
  generic_format radix2 (SpecFloat.fexp (f_prec f) (f_emax f)) (SF2R radix2 x * SF2R radix2 y) ->
  Rabs (SF2R radix2 x * SF2R radix2 y) < bpow radix2 (f_emax f) ->
  let z := SFmul (f_prec f) (f_emax f) x y in
  valid_binary (f_prec f) (f_emax f) z = true /\ is_finite_SF z = true /\
  SF2R radix2 z = SF2R radix2 x * SF2R radix2 y /\ sign_SF z = xorb (sign_SF x) (sign_SF y).
Proof.
  intros f x y Hf Vx Vy Fx Fy G S z.
  destruct (mul_sf _ _ (Hprec f Hf) (Hmax f Hf) x y Vx Vy Fx Fy) as [M _].
  rewrite (rnd_id f _ G) in M. destruct (M S) as (A & B & C & D). auto.
Qed.

(** Values of the form [A * 2^J]. *)
Definition is_dy (f : fmt) (x : spec_float) (A J : Z) : Prop :=
  valid_binary (f_prec f) (f_emax f) x = true /\ is_finite_SF x = true /\
  SF2R radix2 x = IZR A * bpow radix2 J.

Lemma mul_dy : forall f x y A J B K, binary_format f -> is_dy f x A J -> is_dy f y B K ->
  (Z.abs (A * B) <= 2 ^ f_prec f)%Z -> (f_emin f <= J + K)%Z -> (f_prec f + (J + K) < f_emax f)%Z ->
  is_dy f (SFmul (f_prec f) (f_emax f) x y) (A * B) (J + K).
Proof.
  intros f x y A J B K Hf (V1 & F1 & E1) (V2 & F2 & E2) M G S.
  assert (E : SF2R radix2 x * SF2R radix2 y = IZR (A * B) * bpow radix2 (J + K)).
  { rewrite E1, E2, mult_IZR, bpow_plus. ring. }
  destruct (mul_exact f x y Hf V1 V2 F1 F2) as (Q1 & Q2 & Q3 & _).
  - rewrite E. now apply dyadic_format.
  - rewrite E. now apply dyadic_small.
  - split; [exact Q1|]. split; [exact Q2|]. now rewrite Q3.
Qed.

Lemma pow_abs_ge : forall A p, (Z.abs A <= Z.abs (A ^ Zpos p))%Z.
Proof.
  intros A p. rewrite Z.abs_pow. destruct (Z.eq_dec A 0) as [->|N].
  - simpl Z.abs at 1. apply Z.pow_nonneg. lia.
  - rewrite <- (Z.pow_1_r (Z.abs A)) at 1. apply Z.pow_le_mono_r; lia.
Qed.

(** [K + J * c] stays in the window when [K] and [K + J * n] do. *)
Lemma win_lo : forall J c n K lo, (0 <= c <= n)%Z -> (lo <= K)%Z -> (lo <= K + J * n)%Z ->
  (lo <= K + J * c)%Z.
Proof.
  intros J c n K lo C A B. destruct (Z.le_gt_cases 0 J).
  - assert (0 <= J * c)%Z by (apply Z.mul_nonneg_nonneg; lia). lia.
  - assert (J * n <= J * c)%Z by (apply Z.mul_le_mono_nonpos_l; lia). lia.
Qed.
Lemma win_hi : forall J c n K hi, (0 <= c <= n)%Z -> (K < hi)%Z -> (K + J * n < hi)%Z ->
  (K + J * c < hi)%Z.
Proof.
  intros J c n K hi C A B. destruct (Z.le_gt_cases 0 J).
  - assert (J * c <= J * n)%Z by (apply Z.mul_le_mono_nonneg_l; lia). lia.
  - assert (J * c <= 0)%Z by (apply Z.mul_nonpos_nonneg; lia). lia.
Qed.
Lemma win_fmt : forall f, binary_format f -> (f_emin f <= 0)%Z /\ (f_prec f < f_emax f)%Z.
Proof. intros f [-> | ->]; split; vm_compute; try discriminate; reflexivity. Qed.

Lemma pow_step_odd : forall A B p P,
  (Z.abs (A ^ Zpos p~1) <= P)%Z -> (Z.abs (B * A ^ Zpos p~1) <= P)%Z ->
  (B * A ^ Zpos p~1 = B * A * (A * A) ^ Zpos p)%Z /\
  (Z.abs (A * A) <= P)%Z /\ (Z.abs ((A * A) ^ Zpos p) <= P)%Z /\ (Z.abs (B * A) <= P)%Z /\
  (Z.abs (B * A * (A * A) ^ Zpos p) <= P)%Z.
Proof.
  intros A B p P P1 P2.
  assert (Q : (A ^ Zpos p~1 = A * (A * A) ^ Zpos p)%Z).
  { replace (Zpos p~1) with (1 + (Zpos p + Zpos p))%Z by lia.
    rewrite !Z.pow_add_r, Z.pow_1_r, Z.pow_mul_l by lia. reflexivity. }
  assert (N : (Z.abs (A * A) <= Z.abs ((A * A) ^ Zpos p))%Z) by apply pow_abs_ge.
  assert (NZ : A <> 0%Z -> (1 <= Z.abs ((A * A) ^ Zpos p))%Z).
  { intros NA. assert ((A * A) ^ Zpos p <> 0)%Z; [|lia]. apply Z.pow_nonzero; [|lia].
    intros X. apply Z.mul_eq_0 in X. tauto. }
  assert (X : (Z.abs ((A * A) ^ Zpos p) <= Z.abs (A * (A * A) ^ Zpos p))%Z).
  { rewrite Z.abs_mul. destruct (Z.eq_dec A 0) as [->|NA].
    - rewrite Z.pow_0_l by lia. reflexivity.
    - rewrite <- (Z.mul_1_l (Z.abs ((A * A) ^ _))) at 1.
      apply Z.mul_le_mono_nonneg_r; [apply Z.abs_nonneg|]. clear - NA. lia. }
  rewrite Q in *. replace (B * (A * (A * A) ^ Zpos p))%Z with (B * A * (A * A) ^ Zpos p)%Z in * by ring.
  assert (Y : (Z.abs (B * A) <= Z.abs (B * A * (A * A) ^ Zpos p))%Z).
  { rewrite (Z.abs_mul (B * A)). destruct (Z.eq_dec A 0) as [->|NA].
    - rewrite Z.mul_0_r. reflexivity.
    - rewrite <- (Z.mul_1_r (Z.abs (B * A))) at 1.
      apply Z.mul_le_mono_nonneg_l; [apply Z.abs_nonneg|auto]. }
  split; [reflexivity|].
  split; [eapply Z.le_trans; [exact N|]; eapply Z.le_trans; [exact X|exact P1]|].
  split; [eapply Z.le_trans; [exact X|exact P1]|].
  split; [eapply Z.le_trans; [exact Y|exact P2]|exact P2].
Qed.

Lemma powi_dy : forall f p a r A B J K, binary_format f ->
  is_dy f a A J -> is_dy f r B K ->
  (Z.abs (A ^ Zpos p) <= 2 ^ f_prec f)%Z -> (Z.abs (B * A ^ Zpos p) <= 2 ^ f_prec f)%Z ->
  (f_emin f <= J * Zpos p)%Z -> (f_prec f + J * Zpos p < f_emax f)%Z ->
  (f_emin f <= K)%Z -> (f_prec f + K < f_emax f)%Z ->
  (f_emin f <= K + J * Zpos p)%Z -> (f_prec f + (K + J * Zpos p) < f_emax f)%Z ->
  is_dy f (powi_loop f p a r) (B * A ^ Zpos p) (K + J * Zpos p).
Proof.
  intros f p. induction p as [p IH|p IH|]; intros a r A B J K Hf Da Dr P1 P2 L1 U1 L2 U2 L3 U3;
    destruct (win_fmt f Hf) as [W1 W2].
  - cbn [powi_loop].
    destruct (pow_step_odd A B p _ P1 P2) as (Q1 & Q2 & Q3 & Q4 & Q5). rewrite Q1.
    clear P1 P2 Q1.
    revert Q2 Q3 Q4 Q5.
    remember (Zpos p~1) as n eqn:En. assert (En' : (n = 1 + 2 * Zpos p)%Z) by lia. clear En.
    pose proof (win_lo J 2 n 0 (f_emin f) ltac:(lia) ltac:(lia) ltac:(lia)) as LO2.
    pose proof (win_hi J 2 n 0 (f_emax f - f_prec f) ltac:(lia) ltac:(lia) ltac:(lia)) as HI2.
    pose proof (win_lo J (2 * Zpos p) n 0 (f_emin f) ltac:(lia) ltac:(lia) ltac:(lia)) as LO3.
    pose proof (win_hi J (2 * Zpos p) n 0 (f_emax f - f_prec f) ltac:(lia) ltac:(lia) ltac:(lia)) as HI3.
    pose proof (win_lo J 1 n K (f_emin f) ltac:(lia) ltac:(lia) ltac:(lia)) as K1.
    pose proof (win_hi J 1 n K (f_emax f - f_prec f) ltac:(lia) ltac:(lia) ltac:(lia)) as K2.
    replace (J * (2 * Zpos p))%Z with ((J + J) * Zpos p)%Z in * by ring.
    replace (K + J * n)%Z with (K + J + (J + J) * Zpos p)%Z in * by (rewrite En'; ring).
    intros Q2 Q3 Q4 Q5.
    apply IH; auto; try (clear - LO3 HI3 K1 K2; lia).
    + apply mul_dy; auto; clear - LO2 HI2; lia.
    + apply mul_dy; auto; clear - K1 K2; lia.
  - cbn [powi_loop].
    assert (Q : (A ^ Zpos p~0 = (A * A) ^ Zpos p)%Z).
    { replace (Zpos p~0) with (Zpos p + Zpos p)%Z by lia.
      rewrite !Z.pow_add_r, Z.pow_mul_l by lia. reflexivity. }
    assert (N : (Z.abs (A * A) <= Z.abs ((A * A) ^ Zpos p))%Z) by apply pow_abs_ge.
    rewrite Q in *.
    pose proof (Z.le_trans _ _ _ N P1) as N'. clear Q N. revert P1 P2 N'.
    pose proof (win_lo J 2 (Zpos p~0) 0 (f_emin f) ltac:(lia) W1 ltac:(lia)) as LO2.
    pose proof (win_hi J 2 (Zpos p~0) 0 (f_emax f - f_prec f) ltac:(lia) ltac:(lia) ltac:(lia))
      as HI2.
    replace (J * Zpos p~0)%Z with ((J + J) * Zpos p)%Z in * by lia.
    intros P1 P2 N'.
    apply IH; auto. apply mul_dy; auto; clear - LO2 HI2; lia.
  - cbn [powi_loop]. rewrite Z.pow_1_r, Z.mul_1_r in *. now apply mul_dy.
Qed.

Lemma one_dy : forall f, binary_format f -> is_dy f (f_of_int f 1) 1 0.
Proof.
  intros f Hf. destruct (of_int_exact f Hf 1) as (A & B & C).
  - destruct Hf as [-> | ->]; vm_compute; discriminate.
  - destruct (fl_valid_sf f _ A B) as [D E]. split; [exact D|]. split; [exact E|].
    rewrite Rmult_1_r. exact C.
Qed.

Lemma expt_exact : forall f x n M J, binary_format f -> fl_valid f x -> fl_finite x = true ->
  fl_value x = IZR M * bpow radix2 J -> (0 <= n)%Z ->
  (Z.abs (M ^ n) <= 2 ^ f_prec f)%Z -> (f_emin f <= J * n)%Z -> (f_prec f + J * n < f_emax f)%Z ->
  let z := EXPT_DINT f x n in
  fl_valid f z /\ fl_finite z = true /\ fl_value z = fl_value x ^ Z.to_nat n.
Proof.
  intros f x n M J Hf V F E N P L U z.
  assert (D : is_dy f (powi f (fl_sf x) n) (M ^ n) (J * n)).
  { destruct n as [|p|p]; [|cbn [powi]|lia].
    - rewrite Z.mul_0_r. now apply one_dy.
    - destruct (fl_valid_sf f x V F) as [V' F'].
      rewrite <- (Z.mul_1_l (M ^ Zpos p)), <- (Z.add_0_l (J * Zpos p)).
      apply powi_dy; auto; try (rewrite ?Z.mul_1_l, ?Z.add_0_l; assumption).
      + split; [exact V'|]. split; [exact F'|exact E].
      + now apply one_dy.
      + destruct Hf as [-> | ->]; vm_compute; discriminate.
      + destruct Hf as [-> | ->]; reflexivity. }
  destruct D as (D1 & D2 & D3). unfold z, EXPT_DINT.
  destruct (sf_fl f _ D1 D2) as (Q1 & Q2 & ->). split; [exact Q1|]. split; [exact Q2|].
  unfold fl_value at 1, sf_value. cbn [fl_sf]. rewrite D3, E, Rpow_mult_distr. f_equal.
  - rewrite <- (Z2Nat.id n) at 1 by lia. now rewrite pow_IZR.
  - rewrite <- (Z2Nat.id n) at 1 by lia. generalize (Z.to_nat n). clear. intros k.
    induction k as [|k IH]; [now rewrite Z.mul_0_r|].
    rewrite Nat2Z.inj_succ, Z.mul_succ_r, bpow_plus, IH. simpl. ring.
Qed.

Lemma expt_recip : forall f x n M, binary_format f -> fl_valid f x -> fl_finite x = true ->
  fl_value x = IZR M -> M <> 0%Z -> (0 < n)%Z -> (Z.abs (M ^ n) <= 2 ^ f_prec f)%Z ->
  nearest_even f (EXPT_DINT f x (- n)) (/ (fl_value x ^ Z.to_nat n)).
Proof.
  intros f x n M Hf V F E M0 N P.
  destruct (expt_exact f x n M 0 Hf V F) as (A & B & C); auto; try lia.
  - rewrite Rmult_1_r. exact E.
  - destruct Hf as [-> | ->]; vm_compute; discriminate.
  - destruct Hf as [-> | ->]; reflexivity.
  - destruct n as [|p|p]; try lia. unfold EXPT_DINT in *. cbn [powi Z.opp] in *.
    set (r := powi_loop f p (fl_sf x) (f_of_int f 1)) in *.
    assert (R : is_dy f r (M ^ Zpos p) 0).
    { destruct (fl_valid_sf f _ A B) as [A' B'].
      assert (Q : fl_of_sf f r = FNum r) by (destruct r; try discriminate; reflexivity).
      rewrite Q in *. split; [exact A'|]. split; [exact B'|].
      change (SF2R radix2 r) with (fl_value (FNum r)). rewrite C, E, Rmult_1_r.
      rewrite <- (Z2Nat.id (Zpos p)) at 2 by lia. now rewrite pow_IZR. }
    destruct R as (R1 & R2 & R3). destruct (one_dy f Hf) as (O1 & O2 & O3).
    rewrite Rmult_1_r in R3, O3.
    assert (W : fl_value x ^ Z.to_nat (Zpos p) = IZR (M ^ Zpos p)).
    { rewrite E. rewrite <- (Z2Nat.id (Zpos p)) at 2 by lia. now rewrite pow_IZR. }
    rewrite W.
    assert (Z0 : IZR (M ^ Zpos p) <> 0) by (apply not_0_IZR; apply Z.pow_nonzero; lia).
    destruct (div_sf _ _ (Hprec f Hf) (Hmax f Hf) (f_of_int f 1) r O1 R1 O2 R2) as [D _].
    { now rewrite R3. }
    rewrite O3, R3 in D. unfold Rdiv in D. rewrite Rmult_1_l in D.
    destruct D as (D1 & D2 & D3 & _).
    { apply Rle_lt_trans with (bpow radix2 0).
      - apply abs_round_le_generic; [apply (fexp_valid f Hf)|apply valid_rnd_N| |].
        + apply generic_format_bpow. destruct Hf as [-> | ->]; vm_compute; discriminate.
        + rewrite Rabs_inv. simpl (bpow radix2 0). rewrite <- Rinv_1.
          apply Rinv_le; [lra|]. rewrite <- abs_IZR. apply IZR_le.
          assert (M ^ Zpos p <> 0)%Z by (apply Z.pow_nonzero; lia). lia.
      - apply bpow_lt. destruct Hf as [-> | ->]; reflexivity. }
    destruct (sf_fl f _ D1 D2) as (_ & _ & ->). now apply nearest_of_rnd.
Qed.

(** ** LREAL to REAL *)
Definition REAL_OVERFLOW : Z := (2 ^ 128 - 2 ^ 103)%Z.

Lemma norm_overflow : forall m e s, m <> 0%Z ->
  bpow radix2 128 <= Rabs (round radix2 (SpecFloat.fexp 24 128) ZnearestE (IZR m * bpow radix2 e)) ->
  SpecFloat.binary_normalize 24 128 m e s = S754_infinity (m <? 0)%Z.
Proof.
  intros m e s M H.
  assert (E0 : SpecFloat.binary_normalize 24 128 m e s = SpecFloat.binary_normalize 24 128 m e false)
    by (destruct m; [now destruct M|reflexivity|reflexivity]).
  rewrite E0.
  pose proof (Hprec F32 (or_introl eq_refl)) as P. pose proof (Hmax F32 (or_introl eq_refl)) as X.
  change (f_prec F32) with 24%Z in *. change (f_emax F32) with 128%Z in *.
  rewrite (binary_normalize_equiv 24 128 P X m e false).
  pose proof (binary_normalize_correct 24 128 P X mode_NE m e false) as C.
  change (round_mode mode_NE) with ZnearestE in C.
  cbv zeta in C. rewrite Rlt_bool_false in C by exact H.
  etransitivity; [exact C|]. unfold binary_overflow. simpl overflow_to_inf. cbv iota. f_equal.
  destruct (Z.ltb_spec m 0) as [L|L].
  - apply Rlt_bool_true. unfold F2R; simpl Fnum; simpl Fexp.
    rewrite <- (Rmult_0_l (bpow radix2 e)). apply Rmult_lt_compat_r; [apply bpow_gt_0|].
    now apply IZR_lt.
  - apply Rlt_bool_false. unfold F2R; simpl Fnum; simpl Fexp.
    apply Rmult_le_pos; [now apply IZR_le|apply bpow_ge_0].
Qed.

Lemma real_overflow_rnd : bpow radix2 128 <= round radix2 (SpecFloat.fexp 24 128) ZnearestE (IZR REAL_OVERFLOW).
Proof.
  apply Rnot_lt_le. intros L.
  assert (H0 : 0 <= round radix2 (SpecFloat.fexp 24 128) ZnearestE (IZR REAL_OVERFLOW)).
  { apply (rnd_nonneg 24 128 (Hprec F32 (or_introl eq_refl))). now apply IZR_le. }
  destruct (norm_any F32 (or_introl eq_refl) (2 ^ 25 - 1) 103 false) as (A & B & _).
  - change (f_prec F32) with 24%Z. change (f_emax F32) with 128%Z.
    replace (IZR (2 ^ 25 - 1) * bpow radix2 103) with (IZR REAL_OVERFLOW).
    + rewrite Rabs_pos_eq; auto.
    + rewrite <- (IZR_Zpower radix2) by lia. rewrite <- mult_IZR. reflexivity.
  - vm_compute in B. discriminate.
Qed.

Lemma real_no_overflow_rnd : forall r, Rabs r < IZR REAL_OVERFLOW ->
  Rabs (round radix2 (SpecFloat.fexp 24 128) ZnearestE r) < bpow radix2 128.
Proof.
  intros r H.
  assert (VE := fexp_valid F32 (or_introl eq_refl)).
  change (f_prec F32) with 24%Z in VE. change (f_emax F32) with 128%Z in VE.
  set (mx := IZR (2 ^ 128 - 2 ^ 104)).
  assert (G : generic_format radix2 (SpecFloat.fexp 24 128) mx).
  { pose proof (dyadic_format F32 (or_introl eq_refl) (2 ^ 24 - 1) 104) as D.
    change (f_prec F32) with 24%Z in D. change (f_emax F32) with 128%Z in D.
    replace mx with (IZR (2 ^ 24 - 1) * bpow radix2 104).
    - apply D; vm_compute; discriminate.
    - rewrite <- (IZR_Zpower radix2) by lia. rewrite <- mult_IZR. reflexivity. }
  assert (B : bpow radix2 128 = IZR (2 ^ 128)) by (rewrite <- (IZR_Zpower radix2) by lia; reflexivity).
  assert (M : mx < bpow radix2 128) by (rewrite B; apply IZR_lt; reflexivity).
  destruct (Rle_lt_dec (Rabs r) mx) as [L|L].
  - eapply Rle_lt_trans; [|exact M].
    apply abs_round_le_generic; auto. apply valid_rnd_N.
  - assert (N : Rnd_N_pt (generic_format radix2 (SpecFloat.fexp 24 128)) r
                (round radix2 (SpecFloat.fexp 24 128) ZnearestE r)) by (apply round_N_pt; auto).
    destruct N as [_ N]. set (q := round radix2 (SpecFloat.fexp 24 128) ZnearestE r) in *.
    apply Rnot_le_lt. intros Q.
    assert (H1 : IZR REAL_OVERFLOW = bpow radix2 128 - IZR (2 ^ 103)).
    { rewrite B, <- minus_IZR. reflexivity. }
    assert (H2 : mx = bpow radix2 128 - 2 * IZR (2 ^ 103)).
    { rewrite B. unfold mx. rewrite <- mult_IZR, <- minus_IZR. reflexivity. }
    destruct (Rle_lt_dec 0 r) as [S|S].
    + assert (0 <= q).
      { apply (rnd_nonneg 24 128 (Hprec F32 (or_introl eq_refl))); auto. }
      rewrite (Rabs_pos_eq q) in Q by auto. rewrite (Rabs_pos_eq r) in * by auto.
      specialize (N mx G). rewrite (Rabs_pos_eq (q - r)) in N by lra.
      rewrite (Rabs_left (mx - r)) in N by lra. lra.
    + rewrite (Rabs_left r) in * by auto.
      assert (q <= 0).
      { unfold q. rewrite <- (Ropp_involutive r). rewrite round_NE_opp.
        assert (0 <= round radix2 (SpecFloat.fexp 24 128) ZnearestE (- r)); [|lra].
        apply (rnd_nonneg 24 128 (Hprec F32 (or_introl eq_refl))). lra. }
      rewrite (Rabs_left1 q) in Q by auto.
      specialize (N (- mx) (generic_format_opp _ _ _ G)).
      rewrite (Rabs_left1 (q - r)) in N by lra. rewrite (Rabs_pos_eq (- mx - r)) in N by lra. lra.
Qed.

Lemma narrow_spec : forall x, fl_valid F64 x -> fl_finite x = true ->
  let y := fl_convert F32 x in
  (Rabs (fl_value x) < IZR REAL_OVERFLOW -> nearest_even F32 y (fl_value x)) /\
  (IZR REAL_OVERFLOW <= Rabs (fl_value x) -> y = FNum (S754_infinity (fl_neg x))).
Proof.
  intros [[s|s| |s m e]|s p] V F y; try discriminate.
  - split.
    + intros _. apply nearest_of_rnd; [now left|reflexivity|reflexivity|].
      unfold fl_value, sf_value. simpl. symmetry. apply round_0. apply valid_rnd_N.
    + unfold fl_value, sf_value. simpl. rewrite Rabs_R0. intros H. apply le_IZR in H.
      vm_compute in H. now destruct H.
  - set (z := (if s then Zneg m else Zpos m)).
    assert (Ez : IZR z * bpow radix2 e = fl_value (FNum (S754_finite s m e)))
      by (unfold z; destruct s; reflexivity).
    change y with (FNum (SpecFloat.binary_normalize 24 128 z e s)).
    split; intros H.
    + rewrite <- Ez in *. destruct (norm_any F32 (or_introl eq_refl) z e s) as (A & B & C).
      * now apply real_no_overflow_rnd.
      * apply nearest_of_rnd; auto. now left.
    + f_equal. rewrite norm_overflow.
      * unfold z. now destruct s.
      * unfold z. now destruct s.
      * rewrite Ez. eapply Rle_trans; [exact real_overflow_rnd|].
        set (r := fl_value _) in *. destruct (Rle_lt_dec 0 r) as [S|S].
        -- rewrite Rabs_pos_eq in H by auto. eapply Rle_trans; [|apply Rle_abs].
           apply (rnd_le 24 128 (Hprec F32 (or_introl eq_refl))). exact H.
        -- rewrite Rabs_left in H by auto.
           rewrite <- (Ropp_involutive r) at 1. rewrite round_NE_opp, Rabs_Ropp.
           eapply Rle_trans; [|apply Rle_abs].
           apply (rnd_le 24 128 (Hprec F32 (or_introl eq_refl))). exact H.
Qed.

(** Converting there and back. *)
Lemma neg_of_value : forall x, fl_finite x = true -> fl_value x <> 0 ->
  fl_neg x = true <-> fl_value x < 0.
Proof.
  intros [[s|s| |s m e]|s p] F N; try discriminate.
  - exfalso. apply N. reflexivity.
  - destruct s.
    + split; auto. intros _. apply value_neg.
    + split; [discriminate|]. pose proof (value_pos m e) as P. intros Q. exfalso.
      change (fl_value (FNum (S754_finite false m e)))
        with (SF2R radix2 (S754_finite false m e)) in Q. lra.
Qed.

Lemma widen_narrow : forall x, fl_valid F32 x -> is_nan x = false ->
  fl_convert F32 (fl_convert F64 x) = x.
Proof.
  intros x V N.
  destruct (fl_finite x) eqn:F.
  2: { destruct x as [[s|s| |s m e]|s p]; try discriminate; reflexivity. }
  destruct (widen_exact x V F) as (A & B & C).
  destruct x as [[s|s| |s m e]|s p]; try discriminate; [reflexivity|].
  set (x := FNum (S754_finite s m e)) in *. set (y := fl_convert F64 x) in *.
  assert (X0 : fl_value x <> 0).
  { unfold x, fl_value, sf_value, fl_sf.
    destruct s; [pose proof (value_neg m e)|pose proof (value_pos m e)]; lra. }
  assert (G : generic_format radix2 (SpecFloat.fexp 24 128) (fl_value x))
    by (apply (value_format F32); exact V).
  assert (R : round radix2 (SpecFloat.fexp 24 128) ZnearestE (fl_value x) = fl_value x)
    by (apply round_generic; auto; apply valid_rnd_N).
  assert (S := value_small F32 _ V). change (SF2R radix2 (S754_finite s m e)) with (fl_value x) in S.
  assert (Q : exists t n d, y = FNum (S754_finite t n d)).
  { destruct y as [[t|t| |t n d]|t q]; try discriminate; [|eauto].
    exfalso. apply X0. rewrite <- C. reflexivity. }
  destruct Q as (t & n & d & Q). rewrite Q in *.
  set (z := (if t then Zneg n else Zpos n)).
  assert (Ez : IZR z * bpow radix2 d = fl_value x)
    by (rewrite <- C; unfold z; destruct t; reflexivity).
  change (fl_convert F32 (FNum (S754_finite t n d)))
    with (FNum (SpecFloat.binary_normalize 24 128 z d t)).
  destruct (norm_any F32 (or_introl eq_refl) z d t) as (P1 & P2 & P3).
  { change (f_prec F32) with 24%Z. change (f_emax F32) with 128%Z. rewrite Ez, R. exact S. }
  change (f_prec F32) with 24%Z in *. change (f_emax F32) with 128%Z in *.
  rewrite Ez, R in P3. destruct (sf_fl F32 _ P1 P2) as (T1 & T2 & _).
  apply (float_unique F32); auto; [now left|].
  apply eq_true_iff_eq. rewrite !neg_of_value; auto.
  - change (fl_value (FNum (SpecFloat.binary_normalize 24 128 z d t)))
      with (SF2R radix2 (SpecFloat.binary_normalize 24 128 z d t)). now rewrite P3.
  - change (fl_value (FNum (SpecFloat.binary_normalize 24 128 z d t)))
      with (SF2R radix2 (SpecFloat.binary_normalize 24 128 z d t)). now rewrite P3.
Qed.
