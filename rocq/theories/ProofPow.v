(** Lemmas for PropertiesPow.v: the repeated squaring of [powi]. *)
From Coq Require Import ZArith List Bool Lia SpecFloat Reals Lra.
From Flocq Require Import Core BinarySingleNaN.
From Verif Require Import Base ModelFloat ModelTimeNum ModelArith SpecScalar SpecTimeNum SpecReal SpecMono
  SpecPow ProofBase ProofTimeNum ProofFlocq ProofReal ProofReal2 ProofTimeAcc.
Import ListNotations.
Open Scope R_scope.

(** ** Sign symmetry *)
Lemma round_aux_opp : forall p e s m x l,
  SpecFloat.binary_round_aux p e (negb s) m x l = SFopp (SpecFloat.binary_round_aux p e s m x l).
Proof.
  intros p e s m x l. unfold SpecFloat.binary_round_aux.
  destruct (shr_fexp p e m x l) as [mrs' e']. destruct (shr_fexp p e _ e' loc_Exact) as [mrs'' e''].
  destruct (shr_m mrs''); try reflexivity. destruct (e'' <=? e - p)%Z; reflexivity.
Qed.
Lemma mul_opp_l : forall p e a b, SFmul p e (SFopp a) b = SFopp (SFmul p e a b).
Proof.
  intros p e [s|s| |s m x] [t|t| |t n y]; cbn [SFopp SFmul]; try reflexivity;
    rewrite <- ?negb_xorb_l; try reflexivity. apply round_aux_opp.
Qed.
Lemma mul_opp_r : forall p e a b, SFmul p e a (SFopp b) = SFopp (SFmul p e a b).
Proof.
  intros p e [s|s| |s m x] [t|t| |t n y]; cbn [SFopp SFmul]; try reflexivity;
    rewrite <- ?negb_xorb_r; try reflexivity. apply round_aux_opp.
Qed.
Lemma opp_opp : forall a, SFopp (SFopp a) = a.
Proof. intros [s|s| |s m x]; cbn; now rewrite ?negb_involutive. Qed.
Lemma div_opp_r : forall p e a b, SFdiv p e a (SFopp b) = SFopp (SFdiv p e a b).
Proof.
  intros p e [s|s| |s m x] [t|t| |t n y]; cbn [SFopp SFdiv]; try reflexivity;
    rewrite <- ?negb_xorb_r; try reflexivity.
  destruct (SFdiv_core_binary _ _ _ _ _ _) as [[q y'] l]. apply round_aux_opp.
Qed.
Lemma loop_opp_r : forall f b a r, powi_loop f b a (SFopp r) = SFopp (powi_loop f b a r).
Proof.
  intros f b. induction b as [b IH|b IH|]; intros a r; cbn [powi_loop].
  - now rewrite mul_opp_l, IH.
  - apply IH.
  - apply mul_opp_l.
Qed.
Lemma loop_opp_a : forall f b a r, powi_loop f b (SFopp a) r =
  if Z.odd (Zpos b) then SFopp (powi_loop f b a r) else powi_loop f b a r.
Proof.
  intros f [b|b|] a r; cbn [powi_loop Z.odd].
  - rewrite mul_opp_r, mul_opp_l, mul_opp_r, opp_opp, loop_opp_r. reflexivity.
  - now rewrite mul_opp_l, mul_opp_r, opp_opp.
  - apply mul_opp_r.
Qed.
Lemma powi_opp : forall f a n, powi f (SFopp a) n = if Z.odd n then SFopp (powi f a n) else powi f a n.
Proof.
  intros f a [|b|b]; cbn [powi].
  - reflexivity.
  - apply loop_opp_a.
  - rewrite loop_opp_a. change (Z.odd (Zneg b)) with (Z.odd (Zpos b)).
    destruct (Z.odd (Zpos b)); [apply div_opp_r|reflexivity].
Qed.

Section P.
Variable f : fmt.
Hypothesis Hf : binary_format f.
Notation prec := (f_prec f).
Notation emax := (f_emax f).
Notation u := (uro prec).
Notation v := (SF2R radix2).
Notation valid := (valid_binary prec emax).
Notation fexp := (SpecFloat.fexp prec emax).
Notation rnd := (round radix2 fexp ZnearestE).
Notation B := (bpow radix2 emax).
Notation mul := (SFmul prec emax).
Let Hp : Prec_gt_0 prec. Proof. destruct Hf as [-> | ->]; reflexivity. Qed.
Let Hm : Prec_lt_emax prec emax. Proof. destruct Hf as [-> | ->]; reflexivity. Qed.

(** Non-negative data, infinity included, and their magnitude. *)
Definition good (s : spec_float) : Prop := valid s = true /\ sign_SF s = false /\ s <> S754_nan.
Definition ext (s : spec_float) : R := match s with S754_infinity _ => B | _ => v s end.

Lemma B_pos : 0 < B. Proof. apply bpow_gt_0. Qed.
Lemma B_gt_1 : 1 < B.
Proof. pose proof (emax_big f Hf). lra. Qed.
Lemma rnd_1 : rnd 1 = 1.
Proof.
  apply rnd_id. replace 1 with (1 * bpow radix2 0) by (cbn; lra).
  apply dyadic_format; [exact Hf| |]; destruct Hf as [-> | ->]; discriminate.
Qed.
Lemma rnd_B : rnd B = B.
Proof.
  apply round_generic; [typeclasses eauto|]. apply generic_format_bpow.
  destruct Hf as [-> | ->]; discriminate.
Qed.

Lemma good_cases : forall s, good s -> s = S754_infinity false \/ (is_finite_SF s = true /\ 0 <= v s < B).
Proof.
  intros s (V & S & N). destruct s as [t|t| |t m e]; cbn in S; try congruence; subst t; [right|now left|right].
  - cbn. pose proof B_pos. split; [reflexivity|lra].
  - split; [reflexivity|]. split.
    + apply F2R_ge_0. easy.
    + apply Rle_lt_trans with (1 := Rle_abs _). now apply value_small.
Qed.
Lemma ext_range : forall s, good s -> 0 <= ext s <= B.
Proof.
  intros s G. pose proof B_pos. destruct (good_cases s G) as [->|[F R]]; [cbn; lra|].
  destruct s; try discriminate; cbn [ext]; lra.
Qed.
Lemma ext_finite : forall s, is_finite_SF s = true -> ext s = v s.
Proof. now intros []. Qed.

Lemma mul_law : forall a b, good a -> good b ->
  (1 <= ext a /\ 1 <= ext b) \/ (ext a <= 1 /\ ext b <= 1) ->
  good (mul a b) /\ ext (mul a b) = Rmin B (rnd (ext a * ext b)).
Proof.
  intros a b Ga Gb H. pose proof B_gt_1 as B1.
  pose proof (ext_range a Ga) as Ra. pose proof (ext_range b Gb) as Rb.
  destruct Ga as (Va & Sa & Na). destruct Gb as (Vb & Sb & Nb).
  assert (OV : forall e, 1 <= e -> Rmin B (rnd (B * e)) = B /\ Rmin B (rnd (e * B)) = B).
  { intros e E. assert (B <= rnd (B * e)).
    { rewrite <- rnd_B at 1. apply rnd_le; [exact Hp|]. rewrite <- (Rmult_1_r B) at 1.
      apply Rmult_le_compat_l; lra. }
    rewrite (Rmult_comm e). rewrite Rmin_left by assumption. now split. }
  assert (GI : good (S754_infinity false)) by (repeat split; discriminate).
  destruct (is_finite_SF a) eqn:Fa; [destruct (is_finite_SF b) eqn:Fb|].
  - destruct (mul_sf prec emax Hp Hm a b Va Vb Fa Fb) as [M1 M2].
    rewrite (ext_finite a Fa), (ext_finite b Fb) in *.
    assert (P : 0 <= rnd (v a * v b)) by (apply rnd_nonneg; [exact Hp|apply Rmult_le_pos; lra]).
    rewrite Rabs_pos_eq in M1, M2 by exact P. rewrite Sa, Sb in M1, M2. cbn [xorb] in M1, M2.
    destruct (Rlt_or_le (rnd (v a * v b)) B) as [L|L].
    + destruct (M1 L) as (A1 & A2 & A3 & A4). rewrite Rmin_right by lra.
      split; [|now rewrite (ext_finite _ A2)]. repeat split; auto. intros E. rewrite E in A2. discriminate.
    + rewrite (M2 L), Rmin_left by exact L. split; [exact GI|reflexivity].
  - destruct b as [t|t| |t m e]; try discriminate; [|congruence]. cbn in Sb. subst t.
    cbn [ext] in *. destruct H as [[H1 H2]|[_ H]]; [|lra].
    rewrite (proj2 (OV _ H1)).
    destruct a as [t|t| |t m e]; try discriminate; cbn in Sa; subst t.
    + cbn in H1. lra.
    + cbn. split; [exact GI|reflexivity].
  - destruct a as [t|t| |t m e]; try discriminate; [|congruence]. cbn in Sa. subst t.
    cbn [ext] in *. destruct H as [[H1 H2]|[H _]]; [|lra].
    rewrite (proj1 (OV _ H2)).
    destruct b as [t|t| |t m e]; try congruence; cbn in Sb; subst t.
    + cbn in H2. lra.
    + cbn. split; [exact GI|reflexivity].
    + cbn. split; [exact GI|reflexivity].
Qed.

(** [big]: everything is at least 1; otherwise everything is at most 1. *)
Definition side (big : bool) (s : spec_float) : Prop := if big then 1 <= ext s else ext s <= 1.
Lemma mul_side : forall big a b, good a -> good b -> side big a -> side big b ->
  good (mul a b) /\ side big (mul a b) /\ ext (mul a b) = Rmin B (rnd (ext a * ext b)).
Proof.
  intros big a b Ga Gb Ha Hb. destruct (mul_law a b Ga Gb) as [G E].
  { destruct big; cbn in *; tauto. }
  split; [exact G|]. split; [|exact E]. unfold side in *. rewrite E. pose proof B_gt_1.
  pose proof (ext_range a Ga). pose proof (ext_range b Gb). destruct big.
  - apply Rmin_glb; [lra|]. rewrite <- rnd_1 at 1. apply rnd_le; [exact Hp|]. nra.
  - apply Rle_trans with (1 := Rmin_r _ _). rewrite <- rnd_1. apply rnd_le; [exact Hp|]. nra.
Qed.
Lemma loop_side : forall big b a r, good a -> good r -> side big a -> side big r ->
  good (powi_loop f b a r) /\ side big (powi_loop f b a r).
Proof.
  intros big b. induction b as [b IH|b IH|]; intros a r Ga Gr Ha Hr; cbn [powi_loop].
  - destruct (mul_side big a a) as (G1 & S1 & _); auto.
    destruct (mul_side big r a) as (G2 & S2 & _); auto.
  - destruct (mul_side big a a) as (G1 & S1 & _); auto.
  - destruct (mul_side big r a) as (G2 & S2 & _); auto.
Qed.
Lemma loop_mono : forall big b a r a' r', good a -> good r -> good a' -> good r' ->
  side big a -> side big r -> side big a' -> side big r' -> ext a <= ext a' -> ext r <= ext r' ->
  ext (powi_loop f b a r) <= ext (powi_loop f b a' r').
Proof.
  intros big b.
  assert (M : forall a r a' r', good a -> good r -> good a' -> good r' ->
    side big a -> side big r -> side big a' -> side big r' -> ext a <= ext a' -> ext r <= ext r' ->
    ext (mul r a) <= ext (mul r' a')).
  { intros a r a' r' Ga Gr Ga' Gr' Ha Hr Ha' Hr' La Lr.
    destruct (mul_side big r a) as (_ & _ & ->); auto.
    destruct (mul_side big r' a') as (_ & _ & ->); auto.
    apply Rle_min_compat_l. apply rnd_le; [exact Hp|].
    pose proof (ext_range a Ga). pose proof (ext_range r Gr). apply Rmult_le_compat; lra. }
  assert (Q : forall a r, good a -> good r -> side big a -> side big r -> good (mul r a) /\ side big (mul r a)).
  { intros a r Ga Gr Ha Hr. destruct (mul_side big r a Gr Ga Hr Ha) as (X & Y & _). exact (conj X Y). }
  induction b as [b IH|b IH|]; intros a r a' r' Ga Gr Ga' Gr' Ha Hr Ha' Hr' La Lr; cbn [powi_loop].
  - destruct (Q a a Ga Ga Ha Ha). destruct (Q a r Ga Gr Ha Hr).
    destruct (Q a' a' Ga' Ga' Ha' Ha'). destruct (Q a' r' Ga' Gr' Ha' Hr').
    apply IH; auto.
  - destruct (Q a a Ga Ga Ha Ha). destruct (Q a' a' Ga' Ga' Ha' Ha'). apply IH; auto.
  - apply M; auto.
Qed.

Lemma one_good : good (f_of_int f 1) /\ v (f_of_int f 1) = 1 /\ is_finite_SF (f_of_int f 1) = true /\
  ext (f_of_int f 1) = 1.
Proof.
  assert (E : v (f_of_int f 1) = 1) by (destruct Hf as [-> | ->]; cbn; unfold F2R; cbn; lra).
  split.
  { unfold good. destruct Hf as [-> | ->]; (split; [reflexivity|split; [reflexivity|]]); vm_compute; intros X; discriminate X. }
  split; [exact E|].
  assert (F : is_finite_SF (f_of_int f 1) = true) by (destruct Hf as [-> | ->]; reflexivity).
  split; [exact F|]. now rewrite ext_finite.
Qed.
Lemma side_one : forall big, side big (f_of_int f 1).
Proof. intros []; unfold side; destruct one_good as (_ & _ & _ & ->); lra. Qed.
Lemma side_ex : forall s, exists big, side big s.
Proof. intros s. destruct (Rle_or_lt 1 (ext s)); [now exists true|exists false; cbn; lra]. Qed.

(** The positive powers of non-negative data. *)
Lemma pow_good : forall b a, good a -> good (powi_loop f b a (f_of_int f 1)).
Proof.
  intros b a G. destruct (side_ex a) as [big S].
  apply (loop_side big b a (f_of_int f 1)); auto using side_one. apply one_good.
Qed.
Lemma pow_mono : forall b a a', good a -> good a' -> ext a <= ext a' ->
  ext (powi_loop f b a (f_of_int f 1)) <= ext (powi_loop f b a' (f_of_int f 1)).
Proof.
  intros b a a' G G' L. destruct one_good as (G1 & _).
  destruct (Rle_or_lt 1 (ext a)) as [H|H]; [|destruct (Rle_or_lt (ext a') 1) as [H'|H']].
  - apply (loop_mono true); auto using side_one; cbn; lra.
  - apply (loop_mono false); auto using side_one; cbn; lra.
  - apply Rle_trans with 1.
    + apply (loop_side false b a (f_of_int f 1)); auto using side_one. cbn. lra.
    + apply (loop_side true b a' (f_of_int f 1)); auto using side_one. cbn. lra.
Qed.

(** Reciprocals. *)
Lemma div_law : forall r, good r ->
  good (SFdiv prec emax (f_of_int f 1) r) /\
  ext (SFdiv prec emax (f_of_int f 1) r) =
    match r with S754_zero _ => B | S754_infinity _ => 0 | _ => Rmin B (rnd (/ ext r)) end.
Proof.
  intros r G. destruct one_good as (G1 & E1 & F1 & _).
  destruct (good_cases r G) as [->|[F R]].
  { replace (SFdiv prec emax (f_of_int f 1) (S754_infinity false)) with (S754_zero false)
      by (destruct Hf as [-> | ->]; reflexivity). split; [repeat split; discriminate|reflexivity]. }
  destruct G as (V & S & N). destruct r as [s|s| |s m e]; try discriminate; cbn in S; subst s.
  { replace (SFdiv prec emax (f_of_int f 1) (S754_zero false)) with (S754_infinity false)
      by (destruct Hf as [-> | ->]; reflexivity). split; [repeat split; discriminate|reflexivity]. }
  set (r := S754_finite false m e) in *.
  assert (P : 0 < v r) by (apply F2R_gt_0; easy).
  destruct G1 as (V1 & S1 & _).
  destruct (div_sf prec emax Hp Hm _ r V1 V F1 F ltac:(lra)) as [D1 D2].
  rewrite E1, S1 in D1, D2. unfold Rdiv in D1, D2. rewrite Rmult_1_l in D1, D2.
  assert (Q : 0 <= rnd (/ v r)) by (apply rnd_nonneg; [exact Hp|]; left; now apply Rinv_0_lt_compat).
  rewrite Rabs_pos_eq in D1, D2 by exact Q. change (ext r) with (v r).
  destruct (Rlt_or_le (rnd (/ v r)) B) as [L|L].
  - destruct (D1 L) as (A1 & A2 & A3 & A4). rewrite Rmin_right by lra.
    split; [|now rewrite (ext_finite _ A2)]. split; [exact A1|]. split; [exact A4|].
    intros E. rewrite E in A2. discriminate.
  - rewrite (D2 L), Rmin_left by exact L. split; [|reflexivity]. repeat split; discriminate.
Qed.
Lemma div_anti : forall r r', good r -> good r' -> ext r <= ext r' ->
  ext (SFdiv prec emax (f_of_int f 1) r') <= ext (SFdiv prec emax (f_of_int f 1) r).
Proof.
  intros r r' G G' L. destruct (div_law r G) as [D E]. destruct (div_law r' G') as [D' E'].
  pose proof (ext_range _ D) as R. pose proof (ext_range _ D') as R'.
  destruct (good_cases r' G') as [->|[F' V']]; [rewrite E'; lra|].
  destruct (good_cases r G) as [->|[F V]]; [rewrite (ext_finite r' F') in L; cbn [ext] in L; lra|].
  destruct r as [s|s| |s m e]; try discriminate; [rewrite E; lra|].
  rewrite E, E'. assert (P : 0 < v (S754_finite s m e)).
  { destruct G as (_ & S & _). cbn in S. subst s. apply F2R_gt_0. easy. }
  assert (I : forall x, x <= / ext (S754_finite s m e) -> Rmin B (rnd x) <= Rmin B (rnd (/ ext (S754_finite s m e)))).
  { intros x X. apply Rle_min_compat_l. now apply rnd_le. }
  destruct r' as [s'|s'| |s' m' e']; try discriminate.
  - change (v (S754_finite s m e) <= 0) in L. lra.
  - apply I. apply Rinv_le; [exact P|exact L].
Qed.

Lemma powi_good : forall a n, good a -> good (powi f a n).
Proof.
  intros a [|b|b] G; cbn [powi]; [apply one_good|now apply pow_good|].
  apply div_law. now apply pow_good.
Qed.
Lemma powi_mono : forall a a' n, good a -> good a' -> ext a <= ext a' ->
  if (0 <=? n)%Z then ext (powi f a n) <= ext (powi f a' n) else ext (powi f a' n) <= ext (powi f a n).
Proof.
  intros a a' [|b|b] G G' L; cbn [powi Z.leb Z.compare]; [lra|now apply pow_mono|].
  apply div_anti; auto using pow_good, pow_mono.
Qed.

(** ** Accuracy *)
Lemma ext_rnd : forall a, good a -> rnd (ext a) = ext a.
Proof.
  intros a G. destruct (good_cases a G) as [->|[F _]]; [apply rnd_B|]. rewrite (ext_finite a F).
  apply rnd_id. apply value_format. apply G.
Qed.
Lemma mul_one : forall a, good a -> ext (mul (f_of_int f 1) a) = ext a /\ good (mul (f_of_int f 1) a).
Proof.
  intros a G. destruct (side_ex a) as [big S]. destruct one_good as (G1 & _ & _ & E1).
  destruct (mul_side big (f_of_int f 1) a G1 G (side_one big) S) as (X & _ & E).
  split; [|exact X]. rewrite E, E1, Rmult_1_l, (ext_rnd a G). apply Rmin_right. now apply ext_range.
Qed.

Section A.
Variables (X : R) (N : nat).
Hypothesis X0 : 0 < X.
Hypothesis Lo : min_normal f <= ((1 - u) * X) ^ N.
Hypothesis Hi : ((1 + u) * X) ^ N < B.

Definition near (c m : nat) (s : spec_float) : Prop :=
  (1 - u) ^ c * X ^ m <= ext s <= (1 + u) ^ c * X ^ m.

Lemma pow_between : forall y m, 0 < y -> (m <= N)%nat -> (y ^ m <= 1 \/ y ^ m <= y ^ N) /\ (1 <= y ^ m \/ y ^ N <= y ^ m).
Proof.
  intros y m Y M. destruct (Rle_or_lt 1 y) as [H|H].
  - split; [right; now apply Rle_pow|left]. apply pow_R1_Rle. exact H.
  - split.
    + left. rewrite <- (pow1 m). apply pow_incr. lra.
    + right. replace N with (m + (N - m))%nat by lia. rewrite pow_add.
      rewrite <- (Rmult_1_r (y ^ m)) at 2. apply Rmult_le_compat_l; [left; now apply pow_lt|].
      rewrite <- (pow1 (N - m)). apply pow_incr. lra.
Qed.
Lemma mn_small : min_normal f <= 1.
Proof.
  unfold min_normal. change 1 with (bpow radix2 0). apply bpow_le.
  destruct Hf as [-> | ->]; vm_compute; discriminate.
Qed.
Lemma in_range : forall c m, (c <= m <= N)%nat ->
  min_normal f <= (1 - u) ^ c * X ^ m /\ (1 + u) ^ c * X ^ m < B.
Proof.
  intros c m H. pose proof (u_small f Hf) as U. pose proof mn_small as M. pose proof B_gt_1 as B1.
  split.
  - apply Rle_trans with (((1 - u) * X) ^ m).
    + destruct (proj2 (pow_between ((1 - u) * X) m ltac:(apply Rmult_lt_0_compat; lra) ltac:(lia))); lra.
    + rewrite Rpow_mult_distr. apply Rmult_le_compat_r; [left; now apply pow_lt|].
      replace m with (c + (m - c))%nat at 1 by lia. rewrite pow_add.
      rewrite <- (Rmult_1_r ((1 - u) ^ c)) at 2. apply Rmult_le_compat_l; [apply pow_le; lra|].
      apply Rle_trans with (1 ^ (m - c)); [apply pow_incr; lra|rewrite pow1; lra].
  - apply Rle_lt_trans with (((1 + u) * X) ^ m).
    + rewrite Rpow_mult_distr. apply Rmult_le_compat_r; [left; now apply pow_lt|].
      apply Rle_pow; [lra|lia].
    + destruct (proj1 (pow_between ((1 + u) * X) m ltac:(apply Rmult_lt_0_compat; lra) ltac:(lia))); lra.
Qed.

Lemma mul_near : forall big c1 m1 r c2 m2 a, good r -> good a -> side big r -> side big a ->
  near c1 m1 r -> near c2 m2 a -> (c1 + c2 + 1 <= m1 + m2 <= N)%nat ->
  near (c1 + c2 + 1) (m1 + m2) (mul r a).
Proof.
  intros big c1 m1 r c2 m2 a Gr Ga Sr Sa [R1 R2] [A1 A2] H. pose proof (u_small f Hf) as U.
  destruct (mul_side big r a Gr Ga Sr Sa) as (_ & _ & E). unfold near. rewrite E.
  pose proof (ext_range r Gr) as P. pose proof (ext_range a Ga) as Q.
  assert (Z1 : forall c m, 0 <= (1 - u) ^ c * X ^ m) by (intros; apply Rmult_le_pos; apply pow_le; lra).
  assert (L : (1 - u) ^ (c1 + c2) * X ^ (m1 + m2) <= ext r * ext a).
  { rewrite !pow_add. replace (_ * _ * (_ * _)) with (((1 - u) ^ c1 * X ^ m1) * ((1 - u) ^ c2 * X ^ m2)) by ring.
    apply Rmult_le_compat; auto. }
  assert (G : ext r * ext a <= (1 + u) ^ (c1 + c2) * X ^ (m1 + m2)).
  { rewrite !pow_add. replace (_ * _ * (_ * _)) with (((1 + u) ^ c1 * X ^ m1) * ((1 + u) ^ c2 * X ^ m2)) by ring.
    apply Rmult_le_compat; tauto. }
  destruct (in_range (c1 + c2) (m1 + m2) ltac:(lia)) as [I1 _].
  destruct (in_range (c1 + c2 + 1) (m1 + m2) ltac:(lia)) as [_ I2].
  assert (S : (1 - u) * (ext r * ext a) <= rnd (ext r * ext a) <= (1 + u) * (ext r * ext a)).
  { apply rnd_pos_normal; [exact Hp|right]. unfold min_normal in I1.
    change (f_emin f) with (SpecFloat.emin prec emax) in I1. lra. }
  assert (K : (1 + u) * (ext r * ext a) <= (1 + u) ^ (c1 + c2 + 1) * X ^ (m1 + m2)).
  { rewrite (pow_add _ (c1 + c2) 1), pow_1. rewrite (Rmult_comm ((1 + u) ^ (c1 + c2))), Rmult_assoc.
    apply Rmult_le_compat_l; lra. }
  assert (J : (1 - u) ^ (c1 + c2 + 1) * X ^ (m1 + m2) <= (1 - u) * (ext r * ext a)).
  { rewrite (pow_add _ (c1 + c2) 1), pow_1. rewrite (Rmult_comm ((1 - u) ^ (c1 + c2))), Rmult_assoc.
    apply Rmult_le_compat_l; lra. }
  rewrite Rmin_right by lra. lra.
Qed.

Lemma near_eq : forall c m c' m' s, near c m s -> c = c' -> m = m' -> near c' m' s.
Proof. intros c m c' m' s H <- <-. exact H. Qed.

Lemma loop_near : forall big b k j a r, good r -> good a -> side big r -> side big a ->
  near k (S k) a -> near j (S j) r -> (S j + S k * Pos.to_nat b <= N)%nat ->
  near (j + S k * Pos.to_nat b) (S j + S k * Pos.to_nat b) (powi_loop f b a r).
Proof.
  intros big b. induction b as [b IH|b IH|]; intros k j a r Gr Ga Sr Sa NA NR H; cbn [powi_loop].
  - rewrite Pos2Nat.inj_xI in *.
    destruct (mul_side big a a Ga Ga Sa Sa) as (G1 & S1 & _).
    destruct (mul_side big r a Gr Ga Sr Sa) as (G2 & S2 & _).
    pose proof (Pos2Nat.is_pos b).
    eapply near_eq; [apply (IH (2 * k + 1)%nat (j + k + 1)%nat); auto| |]; try nia.
    + eapply near_eq; [apply (mul_near big k (S k) a k (S k) a); auto; nia|nia|nia].
    + eapply near_eq; [apply (mul_near big j (S j) r k (S k) a); auto; nia|nia|nia].
  - rewrite Pos2Nat.inj_xO in *. pose proof (Pos2Nat.is_pos b).
    destruct (mul_side big a a Ga Ga Sa Sa) as (G1 & S1 & _).
    eapply near_eq; [apply (IH (2 * k + 1)%nat j); auto| |]; try nia.
    eapply near_eq; [apply (mul_near big k (S k) a k (S k) a); auto; nia|nia|nia].
  - rewrite Pos2Nat.inj_1 in *.
    eapply near_eq; [apply (mul_near big j (S j) r k (S k) a); auto; nia|nia|nia].
Qed.
Lemma loop_one_near : forall big b k a, good a -> side big a -> near k (S k) a ->
  (S k * Pos.to_nat b <= N)%nat ->
  near (S k * Pos.to_nat b - 1) (S k * Pos.to_nat b) (powi_loop f b a (f_of_int f 1)).
Proof.
  intros big b. induction b as [b IH|b IH|]; intros k a Ga Sa NA H; cbn [powi_loop].
  - rewrite Pos2Nat.inj_xI in *. pose proof (Pos2Nat.is_pos b).
    destruct (mul_side big a a Ga Ga Sa Sa) as (G1 & S1 & _).
    destruct (mul_one a Ga) as [E1 G2].
    eapply near_eq; [apply (loop_near big b (2 * k + 1)%nat k); auto| |]; try nia.
    + unfold side in *. now rewrite E1.
    + eapply near_eq; [apply (mul_near big k (S k) a k (S k) a); auto; nia|nia|nia].
    + unfold near. rewrite E1. exact NA.
  - rewrite Pos2Nat.inj_xO in *. pose proof (Pos2Nat.is_pos b).
    destruct (mul_side big a a Ga Ga Sa Sa) as (G1 & S1 & _).
    eapply near_eq; [apply (IH (2 * k + 1)%nat); auto| |]; try nia.
    eapply near_eq; [apply (mul_near big k (S k) a k (S k) a); auto; nia|nia|nia].
  - rewrite Pos2Nat.inj_1 in *. unfold near. rewrite (proj1 (mul_one a Ga)).
    eapply near_eq; [exact NA|nia|nia].
Qed.
End A.

Lemma pow_near : forall a b, good a -> 0 < ext a ->
  min_normal f <= ((1 - u) * ext a) ^ Pos.to_nat b -> ((1 + u) * ext a) ^ Pos.to_nat b < B ->
  near (ext a) (Pos.to_nat b - 1) (Pos.to_nat b) (powi_loop f b a (f_of_int f 1)).
Proof.
  intros a b G P L H. destruct (side_ex a) as [big S].
  rewrite <- (Nat.mul_1_l (Pos.to_nat b)) at 1 2.
  apply (loop_one_near (ext a) (Pos.to_nat b) P L H big b 0 a G S); [|lia].
  unfold near. simpl. lra.
Qed.
End P.

(** ** In terms of [fl] *)
Lemma of_good : forall f s, good f s -> fl_of_sf f s = FNum s.
Proof. intros f [s|s| |s m e] (_ & _ & N); try reflexivity. congruence. Qed.
Lemma abs_good : forall f x, fl_valid f x -> is_nan x = false ->
  good f (SFabs (fl_sf x)) /\
  fl_sf x = (if fl_neg x then SFopp (SFabs (fl_sf x)) else SFabs (fl_sf x)).
Proof.
  intros f [[s|s| |s m e]|s p] V N; try discriminate; cbn in *.
  - split; [repeat split; discriminate|now destruct s].
  - split; [repeat split; discriminate|now destruct s].
  - split; [repeat split; [exact V|discriminate]|now destruct s].
Qed.
Lemma expt_split : forall f x n, fl_valid f x -> is_nan x = false ->
  powi f (fl_sf x) n = if fl_neg x && Z.odd n then SFopp (powi f (SFabs (fl_sf x)) n) else powi f (SFabs (fl_sf x)) n.
Proof.
  intros f x n V N. destruct (abs_good f x V N) as [G E]. rewrite E at 1.
  destruct (fl_neg x); cbn [andb]; [apply powi_opp|reflexivity].
Qed.

Lemma expt_sign : forall f x n, binary_format f -> fl_valid f x -> is_nan x = false ->
  let y := EXPT_DINT f x n in
  fl_valid f y /\ is_nan y = false /\ fl_neg y = fl_neg x && Z.odd n.
Proof.
  intros f x n Hf V N. cbv zeta. unfold EXPT_DINT. rewrite (expt_split f x n V N).
  destruct (abs_good f x V N) as [G _]. pose proof (powi_good f Hf _ n G) as P.
  destruct (powi f (SFabs (fl_sf x)) n) as [s|s| |s m e]; destruct P as (P1 & P2 & P3); try congruence;
    cbn in P2; subst s; destruct (fl_neg x && Z.odd n); repeat split; assumption.
Qed.

Lemma loop_nan : forall f b a r, a = S754_nan \/ r = S754_nan -> powi_loop f b a r = S754_nan.
Proof.
  assert (R : forall p e r, SFmul p e r S754_nan = S754_nan) by (now intros p e []).
  assert (L : forall p e r, SFmul p e S754_nan r = S754_nan) by (now intros p e []).
  intros f b. induction b as [b IH|b IH|]; intros a r [->| ->]; cbn [powi_loop]; rewrite ?R, ?L; auto.
Qed.
Lemma expt_nan : forall f x n, is_nan x = true -> n <> 0%Z -> is_nan (EXPT_DINT f x n) = true.
Proof.
  intros f x n H N. unfold EXPT_DINT.
  assert (E : fl_sf x = S754_nan) by (destruct x as [[]|]; try discriminate; reflexivity). rewrite E.
  assert (D : forall p e r, SFdiv p e r S754_nan = S754_nan) by (now intros p e []).
  destruct n as [|b|b]; [congruence| |]; cbn [powi]; rewrite loop_nan by (now left); [reflexivity|].
  now rewrite D.
Qed.
Lemma expt_zero : forall f x, binary_format f -> EXPT_DINT f x 0 = fl_one f.
Proof. intros f x [-> | ->]; reflexivity. Qed.

Lemma expt_opposite : forall f x n, binary_format f -> fl_valid f x -> is_nan x = false ->
  EXPT_DINT f (fl_opp x) n = if Z.odd n then fl_opp (EXPT_DINT f x n) else EXPT_DINT f x n.
Proof.
  intros f x n Hf V N. destruct (expt_sign f x n Hf V N) as (_ & NY & _). unfold EXPT_DINT in *.
  assert (E : fl_sf (fl_opp x) = SFopp (fl_sf x)) by (now destruct x).
  rewrite E, powi_opp. destruct (Z.odd n); [|reflexivity].
  destruct (powi f (fl_sf x) n); try reflexivity. discriminate.
Qed.

Lemma ext_at_most : forall f x x', binary_format f -> fl_valid f x -> fl_valid f x' -> fl_neg x = false -> fl_neg x' = false ->
  at_most x x' -> good f (fl_sf x) /\ good f (fl_sf x') /\ ext f (fl_sf x) <= ext f (fl_sf x').
Proof.
  intros f x x' Hf V V' S S' (N & N' & H).
  destruct (abs_good f x V N) as [G E]. destruct (abs_good f x' V' N') as [G' E'].
  rewrite S in E. rewrite S' in E'. rewrite E, E'. split; [exact G|]. split; [exact G'|].
  rewrite <- E in G. rewrite <- E' in G'. rewrite <- E, <- E'.
  destruct H as [->|[->|(F & F' & L)]]; [discriminate| |].
  - cbn [fl_sf ext]. now apply ext_range.
  - rewrite !ext_finite; [exact L| |]; [destruct x' as [[]|]|destruct x as [[]|]]; try discriminate; reflexivity.
Qed.
Lemma at_most_ext : forall f s s', good f s -> good f s' -> ext f s <= ext f s' -> at_most (FNum s) (FNum s').
Proof.
  intros f s s' G G' L.
  assert (N : forall z, good f z -> is_nan (FNum z) = false) by (intros [] (_ & _ & Z); congruence || reflexivity).
  split; [now apply N|]. split; [now apply N|]. right.
  destruct (good_cases f s' G') as [->|[F' R']]; [now left|].
  destruct (good_cases f s G) as [->|[F R]].
  - exfalso. cbn [ext] in L. rewrite ext_finite in L by exact F'. lra.
  - right. rewrite !ext_finite in L by assumption.
    split; [destruct s; try discriminate; reflexivity|]. split; [destruct s'; try discriminate; reflexivity|exact L].
Qed.
Lemma expt_monotone : forall f x x' n, binary_format f -> fl_valid f x -> fl_valid f x' ->
  fl_neg x = false -> fl_neg x' = false -> at_most x x' ->
  if (0 <=? n)%Z then at_most (EXPT_DINT f x n) (EXPT_DINT f x' n) else at_most (EXPT_DINT f x' n) (EXPT_DINT f x n).
Proof.
  intros f x x' n Hf V V' S S' H. destruct (ext_at_most f x x' Hf V V' S S' H) as (G & G' & L).
  pose proof (powi_good f Hf _ n G) as P. pose proof (powi_good f Hf _ n G') as P'.
  pose proof (powi_mono f Hf _ _ n G G' L) as M.
  unfold EXPT_DINT. rewrite (of_good f _ P), (of_good f _ P').
  destruct (0 <=? n)%Z; now apply (at_most_ext f).
Qed.

Lemma finite_ext : forall f x, fl_valid f x -> fl_finite x = true ->
  is_nan x = false /\ ext f (SFabs (fl_sf x)) = Rabs (fl_value x).
Proof.
  intros f x V F. split; [destruct x as [[]|]; try discriminate; reflexivity|].
  destruct (abs_facts f x V F) as (_ & A & _ & E & _).
  replace (fl_sf (fl_abs x)) with (SFabs (fl_sf x)) in * by (destruct x as [[]|]; reflexivity).
  rewrite ext_finite by exact A. exact E.
Qed.
(** Magnitude of the result. *)
Lemma expt_abs : forall f x n, binary_format f -> fl_valid f x -> is_nan x = false ->
  ext f (powi f (SFabs (fl_sf x)) n) < beyond f ->
  fl_finite (EXPT_DINT f x n) = true /\
  Rabs (fl_value (EXPT_DINT f x n)) = ext f (powi f (SFabs (fl_sf x)) n).
Proof.
  intros f x n Hf V N L. destruct (abs_good f x V N) as [G _]. pose proof (powi_good f Hf _ n G) as P.
  unfold EXPT_DINT. rewrite (expt_split f x n V N). set (s := powi f (SFabs (fl_sf x)) n) in *.
  destruct (good_cases f s P) as [E|[F R]]; [rewrite E in L; unfold beyond in L; cbn in L; lra|].
  rewrite (ext_finite f s F). destruct s as [t|t| |t m e]; try discriminate;
    destruct P as (_ & P2 & _); cbn in P2; subst t.
  - destruct (_ && _); split; try reflexivity; unfold fl_value, sf_value; cbn; apply Rabs_R0.
  - destruct (_ && _); (split; [reflexivity|]); unfold fl_value, sf_value; cbn [fl_of_sf fl_sf SFopp negb].
    + cbn [SF2R cond_Zopp] in *. change (Z.neg m) with (- Z.pos m)%Z. rewrite F2R_Zopp, Rabs_Ropp.
      apply Rabs_pos_eq. apply R.
    + apply Rabs_pos_eq. apply R.
Qed.
Lemma expt_accuracy : forall f x n, binary_format f -> fl_valid f x -> fl_finite x = true -> (0 < n)%Z ->
  let X := Rabs (fl_value x) in let N := Z.to_nat n in
  0 < X -> min_normal f <= ((1 - roundoff f) * X) ^ N -> ((1 + roundoff f) * X) ^ N < beyond f ->
  let y := EXPT_DINT f x n in
  fl_finite y = true /\ after_roundings f (N - 1) (Rabs (fl_value y)) (X ^ N).
Proof.
  intros f x n Hf V F Hn. cbv zeta. intros X0 L H. destruct (finite_ext f x V F) as [N E].
  destruct (abs_good f x V N) as [G _]. destruct n as [|b|b]; try lia. cbn [Z.to_nat] in *.
  rewrite <- E in *. rewrite <- (u_eq f) in *.
  pose proof (pow_near f Hf (SFabs (fl_sf x)) b G X0 L H) as [A1 A2].
  assert (LB : ext f (powi f (SFabs (fl_sf x)) (Z.pos b)) < beyond f).
  { cbn [powi]. apply Rle_lt_trans with (1 := A2).
    destruct (in_range f Hf (ext f (SFabs (fl_sf x))) (Pos.to_nat b) X0 L H (Pos.to_nat b - 1) (Pos.to_nat b)) as [_ I].
    - pose proof (Pos2Nat.is_pos b). lia.
    - exact I. }
  destruct (expt_abs f x (Z.pos b) Hf V N LB) as [B1 B2]. split; [exact B1|]. rewrite B2.
  unfold after_roundings. rewrite <- (u_eq f). cbn [powi]. split; assumption.
Qed.

Lemma expt_accuracy_negative : forall f x n, binary_format f -> fl_valid f x -> fl_finite x = true -> (0 < n)%Z ->
  let X := Rabs (fl_value x) in let N := Z.to_nat n in
  0 < X -> min_normal f <= ((1 - roundoff f) * X) ^ N -> ((1 + roundoff f) * X) ^ N <= / min_normal f ->
  let y := EXPT_DINT f x (- n) in
  fl_finite y = true /\
  exists p, after_roundings f (N - 1) p (X ^ N) /\ after_roundings f 1 (Rabs (fl_value y)) (/ p).
Proof.
  intros f x n Hf V F Hn. cbv zeta. intros X0 L H.
  assert (MB : / min_normal f < beyond f).
  { unfold min_normal, beyond. rewrite <- bpow_opp. apply bpow_lt. destruct Hf as [-> | ->]; reflexivity. }
  destruct (finite_ext f x V F) as [N E].
  destruct (abs_good f x V N) as [G _]. destruct n as [|b|b]; try lia. cbn [Z.to_nat Z.opp] in *.
  rewrite <- E in *. unfold after_roundings. rewrite <- (u_eq f) in *.
  pose proof (u_small f Hf) as U.
  assert (H' : ((1 + uro (f_prec f)) * ext f (SFabs (fl_sf x))) ^ Pos.to_nat b < bpow radix2 (f_emax f))
    by (unfold beyond in MB; lra).
  pose proof (pow_near f Hf (SFabs (fl_sf x)) b G X0 L H') as [A1 A2].
  destruct (in_range f Hf (ext f (SFabs (fl_sf x))) (Pos.to_nat b) X0 L H' (Pos.to_nat b - 1) (Pos.to_nat b)) as [I1 _].
  { pose proof (Pos2Nat.is_pos b). lia. }
  set (r := powi_loop f b (SFabs (fl_sf x)) (f_of_int f 1)) in *.
  pose proof (pow_good f Hf b _ G) as Gr. fold r in Gr.
  assert (R1 : min_normal f <= ext f r) by lra.
  assert (R2 : ext f r <= / min_normal f).
  { apply Rle_trans with (1 := A2). apply Rle_trans with (2 := H). rewrite Rpow_mult_distr.
    apply Rmult_le_compat_r; [left; now apply pow_lt|]. apply Rle_pow; [lra|lia]. }
  assert (M0 : 0 < min_normal f) by apply bpow_gt_0.
  destruct (div_law f Hf r Gr) as [D1 D2].
  assert (D3 : ext f (SFdiv (f_prec f) (f_emax f) (f_of_int f 1) r) =
    Rmin (bpow radix2 (f_emax f)) (round radix2 (SpecFloat.fexp (f_prec f) (f_emax f)) ZnearestE (/ ext f r))).
  { destruct r as [s|s| |s m e]; try exact D2; cbn [ext] in R1, R2.
    - cbn in R1. lra.
    - unfold beyond in MB. lra. }
  clear D2.
  assert (Hp : Prec_gt_0 (f_prec f)) by (destruct Hf as [-> | ->]; reflexivity).
  assert (Q : min_normal f <= / ext f r).
  { rewrite <- (Rinv_inv (min_normal f)). apply Rinv_le; lra. }
  assert (Q2 : / ext f r <= / min_normal f) by (apply Rinv_le; lra).
  assert (S : (1 - uro (f_prec f)) * / ext f r <= round radix2 (SpecFloat.fexp (f_prec f) (f_emax f)) ZnearestE (/ ext f r)
    <= (1 + uro (f_prec f)) * / ext f r).
  { apply rnd_pos_normal; [exact Hp|right]. exact Q. }
  assert (T : (1 + uro (f_prec f)) * / ext f r < beyond f).
  { apply Rle_lt_trans with (2 * / min_normal f).
    - apply Rmult_le_compat; try lra.
    - unfold min_normal, beyond. rewrite <- bpow_opp. change 2 with (bpow radix2 1). rewrite <- bpow_plus.
      apply bpow_lt. destruct Hf as [-> | ->]; reflexivity. }
  unfold beyond in T. rewrite Rmin_right in D3 by lra.
  assert (LB : ext f (powi f (SFabs (fl_sf x)) (Z.neg b)) < beyond f).
  { cbn [powi]. fold r. rewrite D3. unfold beyond. lra. }
  destruct (expt_abs f x (Z.neg b) Hf V N LB) as [B1 B2]. split; [exact B1|].
  exists (ext f r). split; [split; assumption|]. rewrite B2. cbn [powi]. fold r. rewrite D3, !pow_1. exact S.
Qed.
