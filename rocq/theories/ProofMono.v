(** Proofs: conversions and TIME times/divided by a float preserve the order of numbers. *)
From Coq Require Import ZArith Bool Lia Reals Lra Psatz SpecFloat.
From Flocq Require Import Core BinarySingleNaN.
From Verif Require Import Base ModelFloat ModelTimeNum SpecScalar SpecTimeNum SpecReal
  ProofBase ProofDate ProofFlocq ProofTimeNum ProofTimeAcc ProofReal.
Open Scope R_scope.

(** * Rounding to integers *)
Lemma nearest_int_mono : forall a b r s, nearest_int a r -> nearest_int b s -> r <= s -> (a <= b)%Z.
Proof.
  intros a b r s [A1 A2] [B1 B2] L. destruct (Z_le_gt_dec a b) as [|G]; [assumption|exfalso].
  assert (H : IZR b + 1 <= IZR a) by (rewrite <- plus_IZR; apply IZR_le; lia).
  apply Rabs_le_inv in A1, B1.
  assert (r = s /\ IZR a - r = / 2 /\ IZR b - s = - / 2) as (-> & Ha & Hb) by lra.
  assert (E1 : Rabs s < Rabs (IZR a)) by (apply A2; rewrite Ha; apply Rabs_pos_eq; lra).
  assert (E2 : Rabs s < Rabs (IZR b)) by (apply B2; rewrite Hb, Rabs_left; lra).
  assert (X : IZR 0 < IZR a < IZR 1).
  { unfold Rabs in E1, E2. destruct (Rcase_abs s), (Rcase_abs (IZR a)), (Rcase_abs (IZR b)); lra. }
  destruct X as [X1 X2]. apply lt_IZR in X1, X2. lia.
Qed.
Lemma integer_part_mono : forall a b r s, integer_part a r -> integer_part b s -> r <= s -> (a <= b)%Z.
Proof.
  intros a b r s (A1 & A2 & A3) (B1 & B2 & B3) L. destruct (Z_le_gt_dec a b) as [|G]; [assumption|exfalso].
  assert (H : IZR b + 1 <= IZR a) by (rewrite <- plus_IZR; apply IZR_le; lia).
  apply Rabs_lt_inv in A2, B2.
  assert (C : (a <= 0 \/ 1 <= a)%Z) by lia. destruct C as [C|C].
  - assert (b <= -1)%Z by lia. assert (IZR a <= 0) by (apply IZR_le; exact C). assert (IZR b <= -1) by (now apply IZR_le).
    assert (s <= 0) by nra. rewrite !Rabs_left1 in B1 by lra. lra.
  - assert (1 <= IZR a) by (now apply IZR_le). assert (0 <= r) by nra. rewrite !Rabs_pos_eq in A1 by lra. lra.
Qed.
Lemma floor_scale : forall m e, (0 <= m)%Z -> scale_trunc m e = Zfloor (IZR m * bpow radix2 e).
Proof.
  intros m e M. symmetry. apply Zfloor_imp. rewrite plus_IZR. pose proof (scale_trunc_R m e M). lra.
Qed.
Lemma nearest_scale : forall m e, (0 <= m)%Z -> scale_round m e = ZnearestE (IZR m * bpow radix2 e).
Proof.
  intros m e M. unfold scale_round. destruct (Z.leb_spec 0 e) as [E|E].
  - rewrite <- (IZR_Zpower radix2 e E), <- mult_IZR. symmetry. apply (Znearest_imp (fun n => negb (Z.even n))).
    replace (_ - _) with 0 by (simpl (radix_val radix2); ring). rewrite Rabs_R0. lra.
  - pose proof (floor_scale m e M) as F. unfold scale_trunc in F. destruct (Z.leb_spec 0 e); [lia|].
    rewrite bpow_neg in * by lia. set (k := (2 ^ (- e))%Z) in *.
    assert (K : (0 < k)%Z) by (apply Z.pow_pos_nonneg; lia). pose proof (IZR_lt _ _ K) as KR.
    pose proof (Z.div_mod m k ltac:(lia)) as D. pose proof (Z.mod_pos_bound m k K) as B.
    set (q := (m / k)%Z) in *. set (r := (m mod k)%Z) in *.
    assert (X : IZR m * / IZR k = IZR q + IZR r / IZR k) by (rewrite D, plus_IZR, mult_IZR; field; lra).
    unfold Znearest. rewrite <- F.
    assert (C : (2 * r < k \/ 2 * r = k \/ k < 2 * r)%Z) by lia.
    assert (N : forall a, (2 * r < k)%Z -> a = IZR r / IZR k -> a < / 2).
    { intros a L ->. apply IZR_lt in L. rewrite mult_IZR in L. apply Rmult_lt_reg_r with (IZR k); [exact KR|].
      unfold Rdiv. rewrite Rmult_assoc, Rinv_l by lra. lra. }
    assert (P : forall a, (k < 2 * r)%Z -> a = IZR r / IZR k -> / 2 < a).
    { intros a L ->. apply IZR_lt in L. rewrite mult_IZR in L. apply Rmult_lt_reg_r with (IZR k); [exact KR|].
      unfold Rdiv. rewrite Rmult_assoc, Rinv_l by lra. lra. }
    assert (CE : (0 < r)%Z -> Zceil (IZR m * / IZR k) = (q + 1)%Z).
    { intros R0. apply Zceil_imp. rewrite X. replace (q + 1 - 1)%Z with q by ring. rewrite plus_IZR.
      assert (0 < IZR r / IZR k <= 1); [|lra]. apply IZR_lt in R0. split.
      - apply Rdiv_lt_0_compat; lra.
      - apply Rmult_le_reg_r with (IZR k); [exact KR|]. unfold Rdiv. rewrite Rmult_assoc, Rinv_l by lra.
        assert (IZR r <= IZR k) by (apply IZR_le; lia). lra. }
    destruct C as [C|[C|C]].
    + destruct (Z.ltb_spec (2 * r) k); [|lia]. rewrite Rcompare_Lt; [reflexivity|]. apply N; [exact C|]. rewrite X. ring.
    + destruct (Z.ltb_spec (2 * r) k); [lia|]. destruct (Z.ltb_spec k (2 * r)); [lia|]. rewrite Rcompare_Eq.
      * rewrite CE by lia. now destruct (Z.even q).
      * rewrite X. rewrite <- C, mult_IZR. assert (IZR r <> 0) by (apply IZR_neq; lia). field. lra.
    + destruct (Z.ltb_spec (2 * r) k); [lia|]. destruct (Z.ltb_spec k (2 * r)); [|lia].
      rewrite Rcompare_Gt; [symmetry; apply CE; lia|]. apply P; [exact C|]. rewrite X. ring.
Qed.

(** * A second more *)
Lemma exact_int : forall f, binary_format f -> forall z, (Z.abs z <= 2 ^ f_prec f)%Z ->
  round radix2 (SpecFloat.fexp (f_prec f) (f_emax f)) ZnearestE (IZR z) = IZR z.
Proof.
  intros f Hf z H. apply (rnd_id f). rewrite <- (Rmult_1_r (IZR z)). apply (dyadic_format f Hf z 0 H).
  destruct Hf as [-> | ->]; cbn; lia.
Qed.
Notation fexp32 := (SpecFloat.fexp 24 128).
Notation rnd32 := (round radix2 fexp32 ZnearestE).
Local Instance valid32 : Valid_exp fexp32 := ProofReal.fexp_valid F32 (or_introl eq_refl).
Lemma ties_even : forall j, ZnearestE (IZR j + / 2) = if Z.even j then j else (j + 1)%Z.
Proof.
  intros j. unfold Znearest. replace (Zfloor (IZR j + / 2)) with j by (symmetry; apply Zfloor_imp; rewrite plus_IZR; lra).
  rewrite Rcompare_Eq by ring.
  replace (Zceil (IZR j + / 2)) with (j + 1)%Z by (symmetry; apply Zceil_imp; replace (j + 1 - 1)%Z with j by ring; rewrite plus_IZR; lra).
  now destruct (Z.even j).
Qed.
Lemma binade : forall r, 16777216 <= r < 33554432 -> rnd32 r = IZR (ZnearestE (r / 2)) * 2.
Proof.
  intros r H. assert (M : mag_val radix2 r (mag radix2 r) = 25%Z).
  { apply mag_unique_pos. change (bpow radix2 (25 - 1)) with 16777216. change (bpow radix2 25) with 33554432. lra. }
  unfold round, scaled_mantissa, cexp. rewrite M. change (fexp32 25) with 1%Z. unfold F2R. cbn [Fnum Fexp].
  change (bpow radix2 (- (1))) with (/ 2). change (bpow radix2 1) with 2. reflexivity.
Qed.
Lemma multiple_of_4 : forall x, generic_format radix2 fexp32 x -> 33554432 <= x -> exists a, x = IZR a * 4.
Proof.
  intros x G B. rewrite G. unfold F2R. cbn [Fnum Fexp]. set (m := Ztrunc _). unfold cexp.
  assert (M : (26 <= mag_val radix2 x (mag radix2 x))%Z).
  { apply mag_ge_bpow. change (bpow radix2 (26 - 1)) with 33554432. rewrite Rabs_pos_eq; lra. }
  set (k := mag_val radix2 x (mag radix2 x)) in *. assert (E : (2 <= fexp32 k)%Z) by (unfold SpecFloat.fexp, SpecFloat.emin; lia).
  exists (m * 2 ^ (fexp32 k - 2))%Z. rewrite mult_IZR, (IZR_Zpower radix2) by lia.
  change 4 with (bpow radix2 2). rewrite Rmult_assoc, <- bpow_plus. do 2 f_equal. ring.
Qed.
Lemma absorbed : forall x, generic_format radix2 fexp32 x -> 33554432 <= x -> rnd32 (x + 1) = x.
Proof.
  intros x G B.
  assert (R : x <= rnd32 (x + 1)).
  { rewrite <- (rnd_id F32 x G) at 1. apply (rnd_le 24 128 eq_refl). lra. }
  assert (N : Rabs (rnd32 (x + 1) - (x + 1)) <= Rabs (x - (x + 1))).
  { exact (proj2 (round_N_pt radix2 fexp32 (fun n => negb (Z.even n)) (x + 1)) x G). }
  replace (x - (x + 1)) with (-1) in N by ring. rewrite (Rabs_left (-1)) in N by lra. apply Rabs_le_inv in N.
  assert (G' : generic_format radix2 fexp32 (rnd32 (x + 1))) by (apply generic_format_round; typeclasses eauto).
  destruct (multiple_of_4 x G B) as [a A]. destruct (multiple_of_4 _ G' ltac:(lra)) as [b E]. rewrite E in *. rewrite A in *.
  f_equal. f_equal. assert (H : IZR (b - a) * 4 <= 2 /\ 0 <= IZR (b - a) * 4) by (rewrite minus_IZR; lra).
  assert (b - a < 1)%Z by (apply lt_IZR; lra). assert (-1 < b - a)%Z by (apply lt_IZR; lra). lia.
Qed.
Lemma second_more : forall f, binary_format f -> forall s, (0 <= s <= 9223372037)%Z ->
  let rnd := round radix2 (SpecFloat.fexp (f_prec f) (f_emax f)) ZnearestE in
  rnd (rnd (IZR s) + 1) <= rnd (IZR (s + 1)).
Proof.
  intros f Hf s Hs rnd. destruct (Z_le_gt_dec s (2 ^ f_prec f)) as [E|E].
  { unfold rnd. rewrite (exact_int f Hf s) by lia. rewrite plus_IZR. lra. }
  destruct Hf as [-> | ->]; [|cbn in E; lia]. change (f_prec F32) with 24%Z in *. change (f_emax F32) with 128%Z in *.
  change (2 ^ 24)%Z with 16777216%Z in E. unfold rnd. clear rnd.
  assert (LE : rnd32 (IZR s) <= rnd32 (IZR (s + 1))) by (apply (rnd_le 24 128 eq_refl), IZR_le; lia).
  assert (G : generic_format radix2 fexp32 (rnd32 (IZR s))) by (apply generic_format_round; typeclasses eauto).
  assert (BIG : 33554432 <= rnd32 (IZR s) -> rnd32 (rnd32 (IZR s) + 1) <= rnd32 (IZR (s + 1))).
  { intros B. now rewrite absorbed. }
  destruct (Z_lt_ge_dec s 33554432) as [L|L].
  2: { apply BIG. replace 33554432 with (rnd32 (IZR 33554432)).
       - apply (rnd_le 24 128 eq_refl), IZR_le. lia.
       - apply (rnd_id F32). replace (IZR 33554432) with (IZR 1 * bpow radix2 25) by (cbn; lra).
         apply (dyadic_format F32 (or_introl eq_refl)); cbn; lia. }
  destruct (Z.even s) eqn:Ev.
  - apply Z.even_spec in Ev. destruct Ev as [j ->].
    assert (X : rnd32 (IZR (2 * j)) = IZR (2 * j)).
    { apply (rnd_id F32). replace (IZR (2 * j)) with (IZR j * bpow radix2 1) by (rewrite mult_IZR; cbn; lra).
      apply (dyadic_format F32 (or_introl eq_refl)); cbn; lia. }
    rewrite X, <- plus_IZR. apply Rle_refl.
  - assert (O : Z.odd s = true) by (now rewrite <- Z.negb_even, Ev). apply Z.odd_spec in O. destruct O as [j ->].
    assert (R : 16777216 <= IZR (2 * j + 1) < 33554432) by (split; [apply IZR_le|apply IZR_lt]; lia).
    pose proof (binade _ R) as X. replace (IZR (2 * j + 1) / 2) with (IZR j + / 2) in X by (rewrite plus_IZR, mult_IZR; field).
    rewrite ties_even in X. set (i := if Z.even j then j else (j + 1)%Z) in *.
    assert (Ei : Z.even i = true).
    { unfold i. destruct (Z.even j) eqn:Ej; [exact Ej|]. rewrite Z.even_add, Ej. reflexivity. }
    assert (Bi : (8388608 <= i <= 16777216)%Z) by (unfold i; destruct (Z.even j); lia).
    destruct (Z.eq_dec i 16777216) as [->|Ni]; [apply BIG; rewrite X; cbn; lra|].
    assert (Y : rnd32 (rnd32 (IZR (2 * j + 1)) + 1) = rnd32 (IZR (2 * j + 1))).
    { rewrite X at 1. rewrite binade.
      - replace ((IZR i * 2 + 1) / 2) with (IZR i + / 2) by field. rewrite ties_even, Ei. now symmetry.
      - assert (8388608 <= IZR i) by (apply IZR_le; lia). assert (IZR i <= 16777215) by (apply IZR_le; lia). lra. }
    now rewrite Y.
Qed.

(** * Durations *)
Section Mono.
Variable f : fmt.
Hypothesis Hf : binary_format f.
Notation prec := (f_prec f).
Notation emax := (f_emax f).
Notation v := (SF2R radix2).
Notation valid := (valid_binary prec emax).
Notation rnd := (round radix2 (SpecFloat.fexp prec emax) ZnearestE).
Let Hp : Prec_gt_0 prec. Proof. destruct Hf as [-> | ->]; reflexivity. Qed.
Let Hm : Prec_lt_emax prec emax. Proof. destruct Hf as [-> | ->]; reflexivity. Qed.

Lemma rnd_le' : forall x y, x <= y -> rnd x <= rnd y. Proof. exact (rnd_le prec emax Hp). Qed.
Lemma rnd_0 : rnd 0 = 0. Proof. apply round_0. typeclasses eauto. Qed.
Lemma of_int_value : forall z, (0 <= z <= 18446744073709551616000000000)%Z -> v (f_of_int f z) = rnd (IZR z).
Proof.
  intros z H. assert (Z0 : 0 <= IZR z) by (apply IZR_le; lia).
  assert (F : F2R (Float radix2 z 0) = IZR z) by (unfold F2R; cbn; lra).
  destruct (norm_sf prec emax Hp Hm z 0) as (_ & _ & C & _); [|now rewrite F in C].
  rewrite F, Rabs_pos_eq by (apply rnd_nonneg; [exact Hp|exact Z0]).
  assert (IZR z <= 18446744073709551616000000000) by (apply IZR_le; lia).
  pose proof (emax_big f Hf). pose proof (u_small f Hf). pose proof (rnd_pos prec emax Hp (IZR z) Z0). pose proof (eta_small f Hf).
  assert (uro prec * IZR z <= 1 * IZR z) by (apply Rmult_le_compat_r; lra). lra.
Qed.
Definition secs (n : Z) : R := rnd (IZR (n / NANOS_PER_SEC)).
Definition part (n : Z) : R := rnd (rnd (IZR (n mod NANOS_PER_SEC)) / 1000000000).
Lemma part_range : forall n, 0 <= part n <= 1.
Proof.
  intros n. assert (B : (0 <= n mod NANOS_PER_SEC < NANOS_PER_SEC)%Z) by (apply Z.mod_pos_bound; reflexivity).
  change (0 <= n mod NANOS_PER_SEC < 1000000000)%Z in B.
  assert (G : rnd 1000000000 = 1000000000).
  { rewrite <- (giga_value f Hf) at 2. rewrite (of_int_value NANOS_PER_SEC) by (unfold NANOS_PER_SEC; lia). reflexivity. }
  assert (X : 0 <= rnd (IZR (n mod NANOS_PER_SEC)) <= 1000000000).
  { split; [apply rnd_nonneg; [exact Hp|apply IZR_le; lia]|]. apply Rle_trans with (rnd 1000000000); [apply rnd_le', IZR_le; lia|lra]. }
  assert (O : rnd 1 = 1) by (apply (exact_int f Hf 1); destruct Hf as [-> | ->]; cbn; lia).
  unfold part. split; [apply rnd_nonneg; [exact Hp|lra]|]. apply Rle_trans with (rnd 1); [apply rnd_le'|]; lra.
Qed.
Lemma as_secs_value : forall n, (0 <= n <= 9223372036854775808)%Z -> v (as_secs_f f n) = rnd (secs n + part n).
Proof.
  intros n Hn. unfold as_secs_f, secs.
  set (S := (n / NANOS_PER_SEC)%Z). set (N := (n mod NANOS_PER_SEC)%Z).
  assert (HS : (0 <= S <= 9223372037)%Z) by (unfold S, NANOS_PER_SEC; dlia).
  assert (HN : (0 <= N < 1000000000)%Z) by (unfold N, NANOS_PER_SEC; dlia).
  destruct (of_int_sf f Hf S ltac:(lia)) as (V1 & F1 & S1 & B1).
  destruct (of_int_sf f Hf N ltac:(lia)) as (V2 & F2 & S2 & _).
  destruct (of_int_sf f Hf NANOS_PER_SEC ltac:(unfold NANOS_PER_SEC; lia)) as (V3 & F3 & S3 & _).
  pose proof (part_range n) as P. unfold part in P |- *. fold N in P |- *.
  pose proof (giga_value f Hf) as G. pose proof (emax_big f Hf) as BG. pose proof (u_small f Hf) as U.
  destruct (div_sf prec emax Hp Hm _ _ V2 V3 F2 F3 ltac:(rewrite G; lra)) as [DV _].
  rewrite G, (of_int_value N ltac:(lia)) in DV.
  destruct DV as (V4 & F4 & W4 & _); [rewrite Rabs_pos_eq; lra|].
  assert (LS : IZR S <= 9223372037) by (apply IZR_le; lia). assert (GS : 0 <= IZR S) by (apply IZR_le; lia).
  assert (U2 : (1 + uro prec) * IZR S <= 2 * IZR S) by (apply Rmult_le_compat_r; lra).
  destruct (add_sf prec emax Hp Hm _ _ V1 V4 F1 F4) as (_ & _ & W5 & _).
  - assert (U3 : 0 * IZR S <= (1 - uro prec) * IZR S) by (apply Rmult_le_compat_r; lra). rewrite W4.
    set (w := v (f_of_int f S) + _). assert (W : 0 <= w <= 100000000000) by (unfold w; lra).
    rewrite Rabs_pos_eq by (apply rnd_nonneg; [exact Hp|lra]). pose proof (rnd_pos prec emax Hp w ltac:(lra)).
    pose proof (eta_small f Hf). assert (uro prec * w <= 1 * w) by (apply Rmult_le_compat_r; lra). lra.
  - rewrite W5, W4, (of_int_value S ltac:(lia)). reflexivity.
Qed.
Lemma as_secs_mono : forall n m, (0 <= n <= m)%Z -> (m <= 9223372036854775808)%Z -> v (as_secs_f f n) <= v (as_secs_f f m).
Proof.
  intros n m H M. rewrite !as_secs_value by lia. pose proof (part_range n) as P. pose proof (part_range m) as Q.
  assert (D : (n / NANOS_PER_SEC <= m / NANOS_PER_SEC)%Z) by (apply Z.div_le_mono; [reflexivity|lia]).
  destruct (Z.eq_dec (n / NANOS_PER_SEC) (m / NANOS_PER_SEC)) as [E|E].
  - apply rnd_le'. unfold secs, part. rewrite E. apply Rplus_le_compat_l, rnd_le', Rmult_le_compat_r; [lra|]. apply rnd_le', IZR_le.
    assert (K : (NANOS_PER_SEC <> 0)%Z) by discriminate. pose proof (Z.div_mod n _ K). pose proof (Z.div_mod m _ K). rewrite E in *. lia.
  - apply Rle_trans with (rnd (secs n + 1)); [apply rnd_le'; lra|].
    apply Rle_trans with (rnd (IZR (n / NANOS_PER_SEC + 1))).
    + apply (second_more f Hf). unfold NANOS_PER_SEC. dlia.
    + rewrite <- (Rplus_0_r (rnd (IZR _))). apply Rle_trans with (rnd (secs m)).
      * rewrite Rplus_0_r. unfold secs. rewrite (rnd_id f (rnd (IZR (m / NANOS_PER_SEC)))).
        -- apply rnd_le', IZR_le. lia.
        -- apply generic_format_round; [apply (ProofReal.fexp_valid f Hf)|typeclasses eauto].
      * apply rnd_le'. lra.
Qed.
Lemma from_secs_value : forall g x r, valid x = true -> is_finite_SF x = true -> sign_SF x = false -> from_secs_f g f x = Ok r ->
  r = match g with
      | DurRound => ZnearestE (v x * 1000000000)
      | DurTrunc => Zfloor (v x * 1000000000)
      | DurMul => Zfloor (rnd (v x * 1000000000))
      end.
Proof.
  intros g x r Vx Fx Sx H.
  destruct (finite_cases x Fx Sx) as [->|(m & e & ->)].
  { injection H as <-. cbn [SF2R]. rewrite Rmult_0_l, rnd_0. change 0 with (IZR 0). destruct g; rewrite ?Zfloor_IZR; try reflexivity.
    symmetry. apply Zrnd_IZR. typeclasses eauto. }
  pose proof (finite_value m e) as FV.
  assert (MG : IZR (Zpos m * NANOS_PER_SEC) * bpow radix2 e = v (S754_finite false m e) * 1000000000).
  { rewrite mult_IZR, FV. unfold NANOS_PER_SEC. ring. }
  assert (MP : (0 <= Zpos m * NANOS_PER_SEC)%Z) by (unfold NANOS_PER_SEC; lia).
  destruct g; cbn [from_secs_f] in H.
  - destruct (_ <? _)%Z in H; [|discriminate]. assert (E : scale_round (Zpos m * NANOS_PER_SEC) e = r) by congruence.
    rewrite <- E, <- MG. now apply nearest_scale.
  - destruct (_ <? _)%Z in H; [|discriminate]. assert (E : scale_trunc (Zpos m * NANOS_PER_SEC) e = r) by congruence.
    rewrite <- E, <- MG. now apply floor_scale.
  - destruct (of_int_sf f Hf NANOS_PER_SEC ltac:(unfold NANOS_PER_SEC; lia)) as (V3 & F3 & S3 & _).
    pose proof (giga_value f Hf) as G. set (x := S754_finite false m e) in *. set (c := f_of_int f NANOS_PER_SEC) in *.
    destruct (mul_sf prec emax Hp Hm x c Vx V3 Fx F3) as [M1 M2]. rewrite G in M1, M2.
    rewrite Sx, S3 in M1, M2. cbn [xorb] in M1, M2.
    destruct (Rlt_or_le (Rabs (rnd (v x * 1000000000))) (bpow radix2 emax)) as [L|L].
    + destruct (M1 L) as (V5 & F5 & W5 & S5). rewrite <- W5. set (y := SFmul prec emax x c) in *.
      destruct (finite_cases y F5 S5) as [Ey|(m' & e' & Ey)]; rewrite Ey in *.
      * injection H as <-. cbn [SF2R]. change 0 with (IZR 0). now rewrite Zfloor_IZR.
      * rewrite (finite_value m' e'). destruct (SFltb _ _) in H; [|discriminate]. injection H as <-. now apply floor_scale.
    + rewrite (M2 L) in H. discriminate H.
Qed.
Lemma from_secs_mono : forall g x y r s, valid x = true -> is_finite_SF x = true -> sign_SF x = false ->
  valid y = true -> is_finite_SF y = true -> sign_SF y = false -> v x <= v y ->
  from_secs_f g f x = Ok r -> from_secs_f g f y = Ok s -> (r <= s)%Z.
Proof.
  intros g x y r s V1 F1 S1 V2 F2 S2 L A B. apply from_secs_value in A, B; try assumption. rewrite A, B.
  assert (L' : v x * 1000000000 <= v y * 1000000000) by lra. destruct g.
  - apply Zrnd_le; [typeclasses eauto|exact L'].
  - now apply Zfloor_le.
  - apply Zfloor_le. now apply rnd_le'.
Qed.
(** The result of the operation on the seconds: rounded, or infinity. *)
Definition rounds_to (z : spec_float) (y : R) : Prop :=
  (bpow radix2 emax <= rnd y /\ z = S754_infinity false) \/
  (valid z = true /\ is_finite_SF z = true /\ sign_SF z = false /\ v z = rnd y).
Lemma magnitude_mono : forall g z w a b r s, rounds_to z a -> rounds_to w b -> a <= b ->
  from_secs_f g f z = Ok r -> from_secs_f g f w = Ok s -> (r <= s)%Z.
Proof.
  intros g z w a b r s [[_ ->]|(V1 & F1 & S1 & E1)] [[_ ->]|(V2 & F2 & S2 & E2)] L A B; try discriminate A; try discriminate B.
  apply (from_secs_mono g z w r s); try assumption. rewrite E1, E2. now apply rnd_le'.
Qed.
End Mono.
Lemma mul_rounds : forall f t x, binary_format f -> (0 <= t <= 9223372036854775808)%Z -> fl_valid f x -> fl_finite x = true ->
  rounds_to f (SFmul (f_prec f) (f_emax f) (fl_sf (fl_abs x)) (as_secs_f f t)) (SF2R radix2 (as_secs_f f t) * Rabs (fl_value x)).
Proof.
  intros f t x Hf Ht V F. destruct (abs_facts f x V F) as (Va & Fa & Sa & Ea & Ex).
  assert (Hp : Prec_gt_0 (f_prec f)) by (destruct Hf as [-> | ->]; reflexivity).
  assert (Hm : Prec_lt_emax (f_prec f) (f_emax f)) by (destruct Hf as [-> | ->]; reflexivity).
  destruct (as_secs_acc f Hf t Ht) as (Vs & Fs & Ss & Bs).
  destruct (mul_sf _ _ Hp Hm _ _ Va Vs Fa Fs) as [M1 M2].
  rewrite Ea, (Rmult_comm (Rabs (fl_value x))) in M1, M2. rewrite Sa, Ss in M1, M2. cbn [xorb] in M1, M2.
  assert (P : 0 <= SF2R radix2 (as_secs_f f t) * Rabs (fl_value x)).
  { apply Rmult_le_pos; [|apply Rabs_pos]. apply Rle_trans with (2 := proj1 Bs).
    apply Rmult_le_pos; [|apply Rmult_le_pos; [apply IZR_le; lia|lra]]. apply pow_le. pose proof (u_small f Hf). lra. }
  rewrite Rabs_pos_eq in M1, M2 by (now apply rnd_nonneg).
  destruct (Rlt_or_le (round radix2 (SpecFloat.fexp (f_prec f) (f_emax f)) ZnearestE
       (SF2R radix2 (as_secs_f f t) * Rabs (fl_value x))) (bpow radix2 (f_emax f))) as [L|L].
  - right. destruct (M1 L) as (A & B & C & D). auto.
  - left. auto.
Qed.
Lemma div_rounds : forall f t x, binary_format f -> (0 <= t <= 9223372036854775808)%Z -> fl_valid f x -> fl_finite x = true -> fl_value x <> 0 ->
  rounds_to f (SFdiv (f_prec f) (f_emax f) (as_secs_f f t) (fl_sf (fl_abs x))) (SF2R radix2 (as_secs_f f t) * / Rabs (fl_value x)).
Proof.
  intros f t x Hf Ht V F N. destruct (abs_facts f x V F) as (Va & Fa & Sa & Ea & Ex).
  assert (NA : 0 < Rabs (fl_value x)) by (now apply Rabs_pos_lt).
  assert (Hp : Prec_gt_0 (f_prec f)) by (destruct Hf as [-> | ->]; reflexivity).
  assert (Hm : Prec_lt_emax (f_prec f) (f_emax f)) by (destruct Hf as [-> | ->]; reflexivity).
  destruct (as_secs_acc f Hf t Ht) as (Vs & Fs & Ss & Bs).
  destruct (div_sf _ _ Hp Hm _ _ Vs Va Fs Fa ltac:(rewrite Ea; lra)) as [M1 M2].
  rewrite Ea in M1, M2. unfold Rdiv in M1, M2. rewrite Sa, Ss in M1, M2. cbn [xorb] in M1, M2.
  assert (P : 0 <= SF2R radix2 (as_secs_f f t) * / Rabs (fl_value x)).
  { apply Rmult_le_pos; [|left; now apply Rinv_0_lt_compat]. apply Rle_trans with (2 := proj1 Bs).
    apply Rmult_le_pos; [|apply Rmult_le_pos; [apply IZR_le; lia|lra]]. apply pow_le. pose proof (u_small f Hf). lra. }
  rewrite Rabs_pos_eq in M1, M2 by (now apply rnd_nonneg).
  destruct (Rlt_or_le (round radix2 (SpecFloat.fexp (f_prec f) (f_emax f)) ZnearestE
       (SF2R radix2 (as_secs_f f t) * / Rabs (fl_value x))) (bpow radix2 (f_emax f))) as [L|L].
  - right. destruct (M1 L) as (A & B & C & D). auto.
  - left. auto.
Qed.
Lemma positive_float : forall f x, fl_valid f x -> fl_finite x = true -> 0 < fl_value x -> fl_neg x = false /\ Rabs (fl_value x) = fl_value x.
Proof.
  intros f x V F P. split; [|apply Rabs_pos_eq; lra]. destruct (abs_facts f x V F) as (_ & _ & _ & _ & E).
  rewrite (Rabs_pos_eq (fl_value x)) in E by lra. destruct (fl_neg x); [lra|reflexivity].
Qed.
Lemma time_float_mono : forall op g f t t' x x' r r', in_ity i64 t -> in_ity i64 t' -> fl_neg x = false -> fl_neg x' = false ->
  (t <= t')%Z -> (x = x' \/ (0 <= t)%Z) ->
  (forall r r' a b, ((0 <= a <= b)%Z /\ (a = Z.abs t /\ b = Z.abs t' \/ x = x' /\ (a = Z.abs t' /\ b = Z.abs t))) ->
     from_secs_f g f (op (as_secs_f f a) (fl_sf (fl_abs x))) = Ok r ->
     from_secs_f g f (op (as_secs_f f b) (fl_sf (fl_abs x'))) = Ok r' -> (r <= r')%Z) ->
  time_float op g f t x = Ok r -> time_float op g f t' x' = Ok r' -> (r <= r')%Z.
Proof.
  intros op g f t t' x x' r r' T T' N N' L X M A B. unfold time_float in A, B. rewrite N in A. rewrite N' in B.
  destruct (from_secs_f g f (op (as_secs_f f (Z.abs t)) (fl_sf (fl_abs x)))) as [a| |] eqn:EA; try discriminate A.
  destruct (from_secs_f g f (op (as_secs_f f (Z.abs t')) (fl_sf (fl_abs x')))) as [b| |] eqn:EB; try discriminate B.
  pose proof (from_secs_nonneg _ _ _ _ EA). pose proof (from_secs_nonneg _ _ _ _ EB).
  cbn [obind] in A, B. destruct (checked_spec i64 a) as [[_ Ca]|[_ Ca]]; rewrite Ca in A; [|discriminate].
  destruct (checked_spec i64 b) as [[_ Cb]|[_ Cb]]; rewrite Cb in B; [|discriminate]. cbn [unwrap obind] in A, B.
  destruct (Z.ltb_spec t 0), (Z.ltb_spec t' 0); cbn [xorb] in A, B; injection A as <-; injection B as <-; try lia.
  - destruct X as [<-|X]; [|lia]. assert (b <= a)%Z; [|lia]. apply (M b a (Z.abs t') (Z.abs t)); [split; [lia|right; auto]|exact EB|exact EA].
  - apply (M a b (Z.abs t) (Z.abs t')); [split; [lia|left; auto]|exact EA|exact EB].
Qed.
Lemma mul_time_mono : forall g f t t' x x' r r', binary_format f -> in_ity i64 t -> in_ity i64 t' ->
  fl_valid f x -> fl_finite x = true -> fl_valid f x' -> fl_finite x' = true -> 0 < fl_value x <= fl_value x' ->
  (t <= t')%Z -> (x = x' \/ (0 <= t)%Z) ->
  MUL_TIME_REAL g f t x = Ok r -> MUL_TIME_REAL g f t' x' = Ok r' -> (r <= r')%Z.
Proof.
  intros g f t t' x x' r r' Hf T T' V F V' F' P L X. destruct (positive_float f x V F ltac:(lra)) as [N A].
  destruct (positive_float f x' V' F' ltac:(lra)) as [N' A']. apply time_float_mono; try assumption.
  rewrite i64_range in T, T'. intros r0 r0' a b (Lab & K) E E'.
  assert (Ba : (b <= 9223372036854775808)%Z) by lia.
  eapply magnitude_mono; [exact Hf|apply (mul_rounds f a x); [exact Hf|lia|exact V|exact F]|
    apply (mul_rounds f b x'); [exact Hf|lia|exact V'|exact F']| |exact E|exact E'].
  pose proof (as_secs_mono f Hf a b Lab Ba) as S. rewrite A, A'. apply Rmult_le_compat; try lra.
  destruct (as_secs_acc f Hf a ltac:(lia)) as (_ & _ & _ & Bs). apply Rle_trans with (2 := proj1 Bs).
  apply Rmult_le_pos; [|apply Rmult_le_pos; [apply IZR_le; lia|lra]]. apply pow_le. pose proof (u_small f Hf). lra.
Qed.
Lemma div_time_mono : forall g f t t' x x' r r', binary_format f -> in_ity i64 t -> in_ity i64 t' ->
  fl_valid f x -> fl_finite x = true -> fl_valid f x' -> fl_finite x' = true -> 0 < fl_value x' <= fl_value x ->
  (t <= t')%Z -> (x = x' \/ (0 <= t)%Z) ->
  DIV_TIME_REAL g f t x = Ok r -> DIV_TIME_REAL g f t' x' = Ok r' -> (r <= r')%Z.
Proof.
  intros g f t t' x x' r r' Hf T T' V F V' F' P L X. destruct (positive_float f x V F ltac:(lra)) as [N A].
  destruct (positive_float f x' V' F' ltac:(lra)) as [N' A']. apply time_float_mono; try assumption.
  rewrite i64_range in T, T'. intros r0 r0' a b (Lab & K) E E'.
  assert (Ba : (b <= 9223372036854775808)%Z) by lia.
  eapply magnitude_mono; [exact Hf|apply (div_rounds f a x); [exact Hf|lia|exact V|exact F|lra]|
    apply (div_rounds f b x'); [exact Hf|lia|exact V'|exact F'|lra]| |exact E|exact E'].
  pose proof (as_secs_mono f Hf a b Lab Ba) as S. rewrite A, A'. apply Rmult_le_compat; [| |exact S|apply Rinv_le; lra].
  - destruct (as_secs_acc f Hf a ltac:(lia)) as (_ & _ & _ & Bs). apply Rle_trans with (2 := proj1 Bs).
    apply Rmult_le_pos; [|apply Rmult_le_pos; [apply IZR_le; lia|lra]]. apply pow_le. pose proof (u_small f Hf). lra.
  - left. apply Rinv_0_lt_compat. lra.
Qed.
