(** Accuracy of TIME times/divided by a float. *)
From Coq Require Import ZArith Bool Lia Reals Lra Psatz SpecFloat.
From Flocq Require Import Core BinarySingleNaN.
From Verif Require Import Base ModelFloat ModelTimeNum SpecScalar SpecTimeNum SpecReal
  ProofBase ProofDate ProofFlocq ProofTimeNum.
Open Scope R_scope.

Lemma bpow_neg : forall e, (e < 0)%Z -> bpow radix2 e = / IZR (2 ^ (- e)).
Proof.
  intros e E. replace e with (- (- e))%Z at 1 by lia. rewrite bpow_opp.
  now rewrite <- (IZR_Zpower radix2 (- e)) by lia.
Qed.

Lemma scale_trunc_R : forall m e, (0 <= m)%Z ->
  0 <= IZR m * bpow radix2 e - IZR (scale_trunc m e) < 1.
Proof.
  intros m e M. unfold scale_trunc. destruct (Z.leb_spec 0 e) as [E|E].
  - rewrite mult_IZR, <- (IZR_Zpower radix2 e E). simpl (radix_val radix2). lra.
  - assert (P : (0 < 2 ^ (- e))%Z) by (apply Z.pow_pos_nonneg; lia).
    rewrite (bpow_neg e) by lia.
    pose proof (Z.div_mod m (2 ^ (- e)) ltac:(lia)) as D.
    pose proof (Z.mod_pos_bound m (2 ^ (- e)) P) as B.
    set (k := (2 ^ (- e))%Z) in *. set (q := (m / k)%Z) in *. set (r := (m mod k)%Z) in *.
    apply IZR_lt in P. destruct B as [B1 B2]. apply IZR_le in B1. apply IZR_lt in B2.
    rewrite D, plus_IZR, mult_IZR.
    replace ((IZR k * IZR q + IZR r) * / IZR k) with (IZR q + IZR r * / IZR k) by (field; lra).
    assert (0 <= IZR r * / IZR k < 1).
    { split; [apply Rmult_le_pos; [lra|]; left; now apply Rinv_0_lt_compat|].
      apply (Rmult_lt_reg_r (IZR k)); [lra|]. rewrite Rmult_assoc, Rinv_l by lra. lra. }
    lra.
Qed.

Lemma scale_round_R : forall m e, (0 <= m)%Z ->
  Rabs (IZR (scale_round m e) - IZR m * bpow radix2 e) <= / 2.
Proof.
  intros m e M. unfold scale_round. destruct (Z.leb_spec 0 e) as [E|E].
  - rewrite mult_IZR, <- (IZR_Zpower radix2 e E). simpl (radix_val radix2).
    rewrite Rminus_diag_eq by reflexivity. rewrite Rabs_R0. lra.
  - assert (P : (0 < 2 ^ (- e))%Z) by (apply Z.pow_pos_nonneg; lia).
    rewrite (bpow_neg e) by lia.
    pose proof (Z.div_mod m (2 ^ (- e)) ltac:(lia)) as D.
    pose proof (Z.mod_pos_bound m (2 ^ (- e)) P) as B.
    set (k := (2 ^ (- e))%Z) in *. set (q := (m / k)%Z) in *. set (r := (m mod k)%Z) in *.
    assert (X : IZR m * / IZR k = IZR q + IZR r * / IZR k).
    { apply IZR_lt in P. rewrite D, plus_IZR, mult_IZR. field. lra. }
    rewrite X.
    assert (L : (2 * r <= k)%Z -> IZR r * / IZR k <= / 2).
    { intros H. apply IZR_le in H. rewrite mult_IZR in H. apply IZR_lt in P.
      apply (Rmult_le_reg_r (IZR k)); [lra|]. rewrite Rmult_assoc, Rinv_l by lra. lra. }
    assert (G : (k <= 2 * r)%Z -> / 2 <= IZR r * / IZR k).
    { intros H. apply IZR_le in H. rewrite mult_IZR in H. apply IZR_lt in P.
      apply (Rmult_le_reg_r (IZR k)); [lra|]. rewrite Rmult_assoc, Rinv_l by lra. lra. }
    assert (U : 0 <= IZR r * / IZR k <= 1).
    { destruct B as [B1 B2]. apply IZR_le in B1. apply IZR_lt in B2. apply IZR_lt in P.
      split; [apply Rmult_le_pos; [lra|]; left; now apply Rinv_0_lt_compat|].
      apply (Rmult_le_reg_r (IZR k)); [lra|]. rewrite Rmult_assoc, Rinv_l by lra. lra. }
    apply Rabs_le.
    destruct (Z.ltb_spec (2 * r) k); [specialize (L ltac:(lia)); lra|].
    specialize (G ltac:(lia)).
    destruct (Z.ltb_spec k (2 * r)); [rewrite plus_IZR; lra|].
    specialize (L ltac:(lia)).
    destruct (Z.even q); [|rewrite plus_IZR]; lra.
Qed.

Section Acc.
Variable f : fmt.
Hypothesis Hf : binary_format f.
Notation prec := (f_prec f).
Notation emax := (f_emax f).
Notation u := (uro prec).
Notation eta := (eta prec emax).
Notation v := (SF2R radix2).
Notation valid := (valid_binary prec emax).
Notation rnd := (round radix2 (SpecFloat.fexp prec emax) ZnearestE).

Let Hp : Prec_gt_0 prec. Proof. destruct Hf as [-> | ->]; reflexivity. Qed.
Let Hm : Prec_lt_emax prec emax. Proof. destruct Hf as [-> | ->]; reflexivity. Qed.

Lemma u_eq : u = roundoff f.
Proof.
  unfold uro, roundoff. change (/ 2) with (bpow radix2 (-1)). rewrite <- bpow_plus.
  f_equal. lia.
Qed.
Lemma u_small : 0 < u <= / 16777216.
Proof.
  split; [apply uro_pos|]. rewrite u_eq. unfold roundoff.
  change (/ 16777216) with (bpow radix2 (-24)). apply bpow_le.
  destruct Hf as [-> | ->]; cbn; lia.
Qed.
Lemma eta_small : 0 < eta <= / 10000000000000.
Proof.
  split; [apply eta_pos|]. unfold ProofFlocq.eta.
  assert (bpow radix2 (SpecFloat.emin prec emax) <= bpow radix2 (-60)).
  { apply bpow_le. destruct Hf as [-> | ->]; unfold SpecFloat.emin; cbn; lia. }
  assert (bpow radix2 (-60) <= / 100000000000000).
  { change (bpow radix2 (-60)) with (/ 1152921504606846976). lra. }
  lra.
Qed.
Lemma normal_small : bpow radix2 (SpecFloat.emin prec emax + prec - 1) <= / 10000000000.
Proof.
  apply Rle_trans with (bpow radix2 (-60)).
  - apply bpow_le. destruct Hf as [-> | ->]; unfold SpecFloat.emin; cbn; lia.
  - change (bpow radix2 (-60)) with (/ 1152921504606846976). lra.
Qed.
Lemma emax_big : 1000000000000000000000000000000 <= bpow radix2 emax.
Proof.
  apply Rle_trans with (bpow radix2 120).
  - change (bpow radix2 120) with (IZR (Z.pow_pos 2 120)). apply IZR_le. vm_compute. discriminate.
  - apply bpow_le. destruct Hf as [-> | ->]; cbn; lia.
Qed.

Lemma rnd_step : forall x, 0 <= x -> (x = 0 \/ / 10000000000 <= x) ->
  (1 - u) * x <= rnd x <= (1 + u) * x.
Proof.
  intros x _ H. apply rnd_pos_normal; [exact Hp|]. destruct H as [->|H]; [now left|right].
  pose proof normal_small. lra.
Qed.

Lemma of_int_sf : forall z, (0 <= z <= 18446744073709551616000000000)%Z ->
  let s := f_of_int f z in
  valid s = true /\ is_finite_SF s = true /\ sign_SF s = false /\
  (1 - u) * IZR z <= v s <= (1 + u) * IZR z.
Proof.
  intros z H s.
  assert (Z0 : 0 <= IZR z) by (apply IZR_le; lia).
  assert (R : (1 - u) * IZR z <= rnd (IZR z) <= (1 + u) * IZR z).
  { apply rnd_step; [exact Z0|]. destruct (Z.eq_dec z 0) as [->|N]; [now left|right].
    apply Rle_trans with 1; [lra|]. apply IZR_le. lia. }
  assert (F : F2R (Float radix2 z 0) = IZR z) by (unfold F2R; cbn; lra).
  destruct (norm_sf prec emax Hp Hm z 0) as (A & B & C & D).
  - rewrite F. rewrite Rabs_pos_eq by (apply rnd_nonneg; [exact Hp|exact Z0]).
    assert (IZR z <= 18446744073709551616000000000) by (apply IZR_le; lia).
    pose proof emax_big. pose proof u_small.
    assert (u * IZR z <= 1 * IZR z) by (apply Rmult_le_compat_r; lra). lra.
  - rewrite F in C. unfold s, f_of_int. repeat split; auto; try (rewrite C; lra).
    apply D. lia.
Qed.

Lemma giga_value : v (f_of_int f NANOS_PER_SEC) = 1000000000.
Proof.
  destruct Hf as [-> | ->].
  - replace (f_of_int F32 NANOS_PER_SEC) with (S754_finite false 15625000 6) by reflexivity.
    unfold SF2R, F2R. cbn. lra.
  - replace (f_of_int F64 NANOS_PER_SEC) with (S754_finite false 8388608000000000 (-23)) by reflexivity.
    unfold SF2R, F2R. cbn. lra.
Qed.

Lemma as_secs_acc : forall n, (0 <= n <= 9223372036854775808)%Z ->
  let s := as_secs_f f n in
  valid s = true /\ is_finite_SF s = true /\ sign_SF s = false /\
  (1 - u) ^ 3 * (IZR n / 1000000000) <= v s <= (1 + u) ^ 3 * (IZR n / 1000000000).
Proof.
  intros n Hn s. unfold s, as_secs_f.
  pose proof u_small as U. pose proof emax_big as BG.
  set (S := (n / NANOS_PER_SEC)%Z). set (N := (n mod NANOS_PER_SEC)%Z).
  assert (HS : (0 <= S <= 9223372037)%Z) by (unfold S, NANOS_PER_SEC; dlia).
  assert (HN : (0 <= N < 1000000000)%Z) by (unfold N, NANOS_PER_SEC; dlia).
  assert (T : IZR n / 1000000000 = IZR S + IZR N / 1000000000).
  { replace n with (1000000000 * S + N)%Z by (unfold S, N, NANOS_PER_SEC; dlia).
    rewrite plus_IZR, mult_IZR. field. }
  destruct (of_int_sf S ltac:(lia)) as (V1 & F1 & S1 & B1).
  destruct (of_int_sf N ltac:(lia)) as (V2 & F2 & S2 & B2).
  destruct (of_int_sf NANOS_PER_SEC ltac:(unfold NANOS_PER_SEC; lia)) as (V3 & F3 & S3 & _).
  pose proof giga_value as G.
  set (a := f_of_int f S) in *. set (b := f_of_int f N) in *.
  set (c := f_of_int f NANOS_PER_SEC) in *.
  assert (PS : IZR S = 0 \/ 1 <= IZR S).
  { destruct (Z.eq_dec S 0) as [->|]; [now left|right]. apply IZR_le. lia. }
  assert (PN : IZR N = 0 \/ 1 <= IZR N).
  { destruct (Z.eq_dec N 0) as [->|]; [now left|right]. apply IZR_le. lia. }
  assert (LS : IZR S <= 9223372037) by (apply IZR_le; lia).
  assert (LN : IZR N <= 1000000000) by (apply IZR_le; lia).
  assert (U2 : forall z, 0 <= z -> (1 + u) * z <= 2 * z)
    by (intros; apply Rmult_le_compat_r; lra).
  assert (U3 : forall z, 0 <= z -> / 2 * z <= (1 - u) * z)
    by (intros; apply Rmult_le_compat_r; lra).
  pose proof (U2 (IZR N) ltac:(lra)). pose proof (U3 (IZR N) ltac:(lra)).
  pose proof (U3 (IZR S) ltac:(lra)).
  (* quotient *)
  assert (Q0 : 0 <= v b / 1000000000) by lra.
  assert (Q : (1 - u) * (v b / 1000000000) <= rnd (v b / 1000000000) <= (1 + u) * (v b / 1000000000)).
  { apply rnd_step; [exact Q0|]. destruct PN as [E|E]; [left|right]; [rewrite E in B2; lra|].
    lra. }
  destruct (div_sf prec emax Hp Hm b c V2 V3 F2 F3 ltac:(rewrite G; lra)) as [DV _].
  rewrite G, S2, S3 in DV. cbn [xorb] in DV.
  destruct DV as (V4 & F4 & W4 & S4).
  { rewrite Rabs_pos_eq by (apply rnd_nonneg; [exact Hp|exact Q0]).
    pose proof (U2 _ Q0). lra. }
  set (q := SFdiv prec emax b c) in *.
  (* sum *)
  set (M := IZR N / 1000000000) in *.
  assert (M0 : 0 <= M) by (unfold M; lra).
  assert (S0 : 0 <= IZR S) by lra.
  assert (W0 : 0 <= v q) by (rewrite W4; apply rnd_nonneg; [exact Hp|exact Q0]).
  assert (A0 : 0 <= v a) by lra.
  assert (BQ : (1 - u) ^ 2 * (IZR N / 1000000000) <= v q <= (1 + u) ^ 2 * (IZR N / 1000000000)).
  { rewrite W4. split.
    - apply Rle_trans with (2 := proj1 Q). simpl. rewrite Rmult_1_r, Rmult_assoc.
      apply Rmult_le_compat_l; [lra|]. lra.
    - apply Rle_trans with (1 := proj2 Q). simpl. rewrite Rmult_1_r, Rmult_assoc.
      apply Rmult_le_compat_l; [lra|]. lra. }
  assert (SM : (1 - u) * (v a + v q) <= rnd (v a + v q) <= (1 + u) * (v a + v q)).
  { apply rnd_step; [lra|]. destruct PS as [ES|ES].
    - destruct PN as [EN|EN].
      + left. rewrite ES in B1. rewrite EN in BQ. lra.
      + right. assert (/ 2 * (IZR N / 1000000000) <= v q); [|lra].
        apply Rle_trans with (2 := proj1 BQ). apply Rmult_le_compat_r; [lra|]. nra.
    - right. lra. }
  destruct (add_sf prec emax Hp Hm a q V1 V4 F1 F4) as (V5 & F5 & W5 & S5).
  { rewrite Rabs_pos_eq by (apply rnd_nonneg; [exact Hp|lra]).
    pose proof (U2 _ S0). assert (v q <= 4).
    { apply Rle_trans with (1 := proj2 BQ). simpl. rewrite Rmult_1_r, Rmult_assoc.
      pose proof (U2 _ M0). assert (M1 : 0 <= (1 + u) * M) by (apply Rmult_le_pos; lra).
      pose proof (U2 _ M1). unfold M in *. lra. }
    pose proof (U2 (v a + v q) ltac:(lra)). lra. }
  split; [exact V5|]. split; [exact F5|]. split; [now apply S5|].
  rewrite W5, T.
  split.
  - apply Rle_trans with (2 := proj1 SM).
    replace ((1 - u) ^ 3) with ((1 - u) * (1 - u) ^ 2) by ring. rewrite Rmult_assoc.
    apply Rmult_le_compat_l; [lra|]. rewrite Rmult_plus_distr_l.
    apply Rplus_le_compat; [|exact (proj1 BQ)]. apply Rle_trans with (2 := proj1 B1).
    apply Rmult_le_compat_r; [lra|]. simpl. rewrite Rmult_1_r.
    rewrite <- (Rmult_1_r (1 - u)) at 3. apply Rmult_le_compat_l; lra.
  - apply Rle_trans with (1 := proj2 SM).
    replace ((1 + u) ^ 3) with ((1 + u) * (1 + u) ^ 2) by ring. rewrite Rmult_assoc.
    apply Rmult_le_compat_l; [lra|]. rewrite Rmult_plus_distr_l.
    apply Rplus_le_compat; [|exact (proj2 BQ)]. apply Rle_trans with (1 := proj2 B1).
    apply Rmult_le_compat_r; [lra|]. simpl. rewrite Rmult_1_r.
    rewrite <- (Rmult_1_r (1 + u)) at 1. apply Rmult_le_compat_l; lra.
Qed.

Lemma ltb_sf : forall x y, valid x = true -> valid y = true ->
  is_finite_SF x = true -> is_finite_SF y = true -> v x < v y -> SFltb x y = true.
Proof.
  intros x y Vx Vy Fx Fy L.
  rewrite <- (B2SF_SF2B _ _ x Vx), <- (B2SF_SF2B _ _ y Vy) in *.
  rewrite is_finite_SF_B2SF in *. rewrite !SF2R_B2SF in L.
  change (Bltb (SF2B x Vx) (SF2B y Vy) = true). rewrite Bltb_correct by assumption.
  now apply Rlt_bool_true.
Qed.

Lemma finite_cases : forall x, is_finite_SF x = true -> sign_SF x = false ->
  x = S754_zero false \/ exists m e, x = S754_finite false m e.
Proof.
  intros [s|s| |s m e] F S; try discriminate; cbn in S; subst s; [now left|right; eauto].
Qed.

Lemma finite_value : forall m e, v (S754_finite false m e) = IZR (Zpos m) * bpow radix2 e.
Proof. reflexivity. Qed.

Lemma from_secs_acc : forall g x, valid x = true -> is_finite_SF x = true -> sign_SF x = false ->
  (forall r, from_secs_f g f x = Ok r ->
   match g with
   | DurRound => v x * 1000000000 - / 2 <= IZR r <= v x * 1000000000 + / 2
   | DurTrunc => v x * 1000000000 - 1 <= IZR r <= v x * 1000000000
   | DurMul => (1 - u) * (v x * 1000000000) - eta - 1 <= IZR r
               <= (1 + u) * (v x * 1000000000) + eta
   end) /\
  (v x <= 1000000000000000000 -> exists r, from_secs_f g f x = Ok r).
Proof.
  intros g x Vx Fx Sx. pose proof u_small as U. pose proof eta_small as E0.
  destruct (finite_cases x Fx Sx) as [->|(m & e & ->)].
  { split.
    - intros r H. injection H as <-. cbn [SF2R]. destruct g; lra.
    - intros _. now exists 0%Z. }
  pose proof (finite_value m e) as FV.
  assert (VP : 0 <= v (S754_finite false m e)).
  { rewrite FV. apply Rmult_le_pos; [now apply IZR_le|apply bpow_ge_0]. }
  set (x := S754_finite false m e) in *.
  assert (TR : v x <= 1000000000000000000 -> (scale_trunc (Zpos m) e < 2 ^ 64)%Z).
  { intros B. apply lt_IZR. pose proof (scale_trunc_R (Zpos m) e ltac:(lia)) as T.
    rewrite <- FV in T. change (IZR (2 ^ 64)) with 18446744073709551616. lra. }
  assert (MG : IZR (Zpos m * NANOS_PER_SEC) * bpow radix2 e = v x * 1000000000).
  { rewrite mult_IZR, FV. unfold NANOS_PER_SEC. ring. }
  assert (MP : (0 <= Zpos m * NANOS_PER_SEC)%Z) by (unfold NANOS_PER_SEC; lia).
  destruct g; cbn [from_secs_f x].
  - fold x. split.
    + intros r. destruct (_ <? _)%Z; [|discriminate]. intros H.
      assert (E : scale_round (Zpos m * NANOS_PER_SEC) e = r) by congruence. rewrite <- E.
      pose proof (scale_round_R (Zpos m * NANOS_PER_SEC) e MP) as R. rewrite MG in R.
      apply Rabs_le_inv in R. lra.
    + intros B. apply TR in B. apply Z.ltb_lt in B. rewrite B. eauto.
  - fold x. split.
    + intros r. destruct (_ <? _)%Z; [|discriminate]. intros H.
      assert (E : scale_trunc (Zpos m * NANOS_PER_SEC) e = r) by congruence. rewrite <- E.
      pose proof (scale_trunc_R (Zpos m * NANOS_PER_SEC) e MP) as R. rewrite MG in R. lra.
    + intros B. apply TR in B. apply Z.ltb_lt in B. rewrite B. eauto.
  - fold x.
    destruct (of_int_sf NANOS_PER_SEC ltac:(unfold NANOS_PER_SEC; lia)) as (V3 & F3 & S3 & _).
    pose proof giga_value as G.
    destruct (of_int_sf (2 ^ 64 * NANOS_PER_SEC) ltac:(unfold NANOS_PER_SEC; lia)) as (V4 & F4 & S4 & B4).
    set (c := f_of_int f NANOS_PER_SEC) in *.
    set (mx := f_of_int f (2 ^ 64 * NANOS_PER_SEC)) in *.
    destruct (mul_sf prec emax Hp Hm x c Vx V3 Fx F3) as [M1 M2].
    rewrite G in M1, M2. set (V := v x * 1000000000) in *.
    assert (V0 : 0 <= V) by (unfold V; lra).
    pose proof (rnd_pos prec emax Hp V V0) as RP.
    pose proof (rnd_nonneg prec emax Hp V V0) as RN.
    rewrite Rabs_pos_eq in M1, M2 by exact RN.
    rewrite Sx, S3 in M1, M2. cbn [xorb] in M1, M2.
    destruct (Rlt_or_le (rnd V) (bpow radix2 emax)) as [L|L].
    + destruct (M1 L) as (V5 & F5 & W5 & S5).
      set (y := SFmul prec emax x c) in *.
      destruct (finite_cases y F5 S5) as [Ey|(m' & e' & Ey)]; rewrite Ey in *.
      * split; [|eauto]. intros r H. injection H as <-. cbn [SF2R] in W5. lra.
      * pose proof (finite_value m' e') as FV'.
        pose proof (scale_trunc_R (Zpos m') e' ltac:(lia)) as T. rewrite <- FV', W5 in T. split.
        -- intros r. destruct (SFltb _ _); [|discriminate]. intros H. injection H as <-. lra.
        -- intros B. rewrite ltb_sf; eauto. rewrite W5.
           assert (V <= 1000000000000000000000000000) by (unfold V; lra).
           assert (u * V <= / 16777216 * V) by (apply Rmult_le_compat_r; lra).
           change (IZR (2 ^ 64 * NANOS_PER_SEC)) with 18446744073709551616000000000 in B4. lra.
    + rewrite (M2 L). split; [intros r H; discriminate|]. intros B. exfalso.
      pose proof emax_big. assert (V <= 1000000000000000000000000000) by (unfold V; lra).
      assert (u * V <= / 16777216 * V) by (apply Rmult_le_compat_r; lra). lra.
Qed.

Lemma pow_bounds :
  1 - 4001 / 1000 * u <= (1 - u) ^ 4 /\ (1 + u) ^ 4 <= 1 + 4001 / 1000 * u /\
  1 - 5001 / 1000 * u <= (1 - u) ^ 5 /\ (1 + u) ^ 5 <= 1 + 5001 / 1000 * u.
Proof.
  pose proof u_small as U. set (x := u) in *.
  assert (H2 : 0 <= x ^ 2 <= x * / 16777216) by (simpl; nra).
  assert (H3 : 0 <= x ^ 3 <= x ^ 2) by (simpl in *; nra).
  assert (H4 : 0 <= x ^ 4 <= x ^ 2) by (simpl in *; nra).
  assert (H5 : 0 <= x ^ 5 <= x ^ 2) by (simpl in *; nra).
  replace ((1 - x) ^ 4) with (1 - 4 * x + 6 * x ^ 2 - 4 * x ^ 3 + x ^ 4) by ring.
  replace ((1 + x) ^ 4) with (1 + 4 * x + 6 * x ^ 2 + 4 * x ^ 3 + x ^ 4) by ring.
  replace ((1 - x) ^ 5) with (1 - 5 * x + 10 * x ^ 2 - 10 * x ^ 3 + 5 * x ^ 4 - x ^ 5) by ring.
  replace ((1 + x) ^ 5) with (1 + 5 * x + 10 * x ^ 2 + 10 * x ^ 3 + 5 * x ^ 4 + x ^ 5) by ring.
  lra.
Qed.

(** The whole computation on magnitudes, [Y] being the real factor. *)
Lemma magnitude_acc : forall g n Y z, (0 <= n <= 9223372036854775808)%Z -> 0 <= Y ->
  (bpow radix2 emax <= rnd (v (as_secs_f f n) * Y) /\ z = S754_infinity false) \/
  (valid z = true /\ is_finite_SF z = true /\ sign_SF z = false /\
   v z = rnd (v (as_secs_f f n) * Y)) ->
  (forall r, from_secs_f g f z = Ok r -> Rabs (IZR r - IZR n * Y) <= time_error g f (IZR n * Y)) /\
  (IZR n * Y <= 10000000000000000000 -> exists r, from_secs_f g f z = Ok r).
Proof.
  intros g n Y z Hn HY Hz. pose proof u_small as U. pose proof eta_small as E0.
  pose proof pow_bounds as (P1 & P2 & P3 & P4).
  destruct (as_secs_acc n Hn) as (_ & _ & _ & A). set (s := v (as_secs_f f n)) in *.
  set (W := IZR n * Y).
  assert (N0 : 0 <= IZR n) by (apply IZR_le; lia).
  assert (W0 : 0 <= W) by (now apply Rmult_le_pos).
  assert (C3 : 0 <= (1 - u) ^ 3) by (apply pow_le; lra).
  assert (D : (1 - u) ^ 3 * (W / 1000000000) <= s * Y <= (1 + u) ^ 3 * (W / 1000000000)).
  { replace (W / 1000000000) with (IZR n / 1000000000 * Y) by (unfold W; field).
    rewrite <- !Rmult_assoc. split; apply Rmult_le_compat_r; lra. }
  assert (S0 : 0 <= s * Y).
  { apply Rle_trans with (2 := proj1 D). apply Rmult_le_pos; lra. }
  pose proof (rnd_pos prec emax Hp (s * Y) S0) as RP.
  assert (Q : (1 - u) ^ 4 * (W / 1000000000) - eta <= rnd (s * Y)
              <= (1 + u) ^ 4 * (W / 1000000000) + eta).
  { replace ((1 - u) ^ 4) with ((1 - u) * (1 - u) ^ 3) by ring.
    replace ((1 + u) ^ 4) with ((1 + u) * (1 + u) ^ 3) by ring. rewrite !Rmult_assoc.
    assert ((1 - u) * ((1 - u) ^ 3 * (W / 1000000000)) <= (1 - u) * (s * Y))
      by (apply Rmult_le_compat_l; lra).
    assert ((1 + u) * (s * Y) <= (1 + u) * ((1 + u) ^ 3 * (W / 1000000000)))
      by (apply Rmult_le_compat_l; lra).
    lra. }
  assert (UW : 0 <= u * W <= / 16777216 * W).
  { split; [apply Rmult_le_pos|apply Rmult_le_compat_r]; lra. }
  assert (K1 : W - 4001 / 1000 * u * W <= (1 - u) ^ 4 * W).
  { replace (W - 4001 / 1000 * u * W) with ((1 - 4001 / 1000 * u) * W) by ring.
    apply Rmult_le_compat_r; lra. }
  assert (K2 : (1 + u) ^ 4 * W <= W + 4001 / 1000 * u * W).
  { replace (W + 4001 / 1000 * u * W) with ((1 + 4001 / 1000 * u) * W) by ring.
    apply Rmult_le_compat_r; lra. }
  destruct Hz as [[O ->]|(Vz & Fz & Sz & Ez)].
  { split; [intros r H; discriminate|]. intros B. exfalso. pose proof emax_big. lra. }
  destruct (from_secs_acc g z Vz Fz Sz) as [R1 R2]. rewrite Ez in R1, R2. split.
  - intros r H. specialize (R1 r H). unfold time_error. rewrite <- u_eq.
    rewrite (Rabs_pos_eq W) by exact W0. apply Rabs_le. destruct g; [lra|lra|].
    assert (K3 : W - 5001 / 1000 * u * W <= (1 - u) ^ 5 * W).
    { replace (W - 5001 / 1000 * u * W) with ((1 - 5001 / 1000 * u) * W) by ring.
      apply Rmult_le_compat_r; lra. }
    assert (K4 : (1 + u) ^ 5 * W <= W + 5001 / 1000 * u * W).
    { replace (W + 5001 / 1000 * u * W) with ((1 + 5001 / 1000 * u) * W) by ring.
      apply Rmult_le_compat_r; lra. }
    assert (L1 : (1 - u) * ((1 - u) ^ 4 * W - eta * 1000000000) <= (1 - u) * (rnd (s * Y) * 1000000000))
      by (apply Rmult_le_compat_l; lra).
    assert (L2 : (1 + u) * (rnd (s * Y) * 1000000000) <= (1 + u) * ((1 + u) ^ 4 * W + eta * 1000000000))
      by (apply Rmult_le_compat_l; lra).
    replace ((1 - u) ^ 5 * W) with ((1 - u) * ((1 - u) ^ 4 * W)) in K3 by ring.
    replace ((1 + u) ^ 5 * W) with ((1 + u) * ((1 + u) ^ 4 * W)) in K4 by ring.
    assert (0 <= u * eta <= eta).
    { split; [apply Rmult_le_pos; lra|]. rewrite <- (Rmult_1_l eta) at 2.
      apply Rmult_le_compat_r; lra. }
    lra.
  - intros B. apply R2. lra.
Qed.
End Acc.

Lemma abs_facts : forall f x, fl_valid f x -> fl_finite x = true ->
  let a := fl_sf (fl_abs x) in
  valid_binary (f_prec f) (f_emax f) a = true /\ is_finite_SF a = true /\ sign_SF a = false /\
  SF2R radix2 a = Rabs (fl_value x) /\
  (fl_value x = (if fl_neg x then -1 else 1) * Rabs (fl_value x)).
Proof.
  intros f [[s|s| |s m e]|] V F; try discriminate; cbn in *.
  - unfold fl_value, sf_value. cbn. rewrite Rabs_R0. repeat split; ring.
  - unfold fl_value, sf_value. cbn [fl_sf SF2R]. repeat split; auto.
    + destruct s; cbn [cond_Zopp].
      * change (Z.neg m) with (- Z.pos m)%Z. rewrite F2R_Zopp, Rabs_Ropp.
        symmetry. apply Rabs_pos_eq. now apply F2R_ge_0.
      * symmetry. apply Rabs_pos_eq. now apply F2R_ge_0.
    + destruct s; cbn [cond_Zopp].
      * change (Z.neg m) with (- Z.pos m)%Z. rewrite F2R_Zopp, Rabs_Ropp.
        rewrite Rabs_pos_eq by (now apply F2R_ge_0). ring.
      * rewrite Rabs_pos_eq by (now apply F2R_ge_0). ring.
Qed.

Lemma time_error_abs : forall g f x y, Rabs x = Rabs y -> time_error g f x = time_error g f y.
Proof. intros g f x y H. unfold time_error. now rewrite H. Qed.

Lemma time_float_acc : forall op g f t x Y, binary_format f -> in_ity i64 t ->
  0 <= Y ->
  let z := op (as_secs_f f (Z.abs t)) (fl_sf (fl_abs x)) in
  (bpow radix2 (f_emax f) <=
     round radix2 (SpecFloat.fexp (f_prec f) (f_emax f)) ZnearestE
       (SF2R radix2 (as_secs_f f (Z.abs t)) * Y) /\ z = S754_infinity false) \/
  (valid_binary (f_prec f) (f_emax f) z = true /\ is_finite_SF z = true /\ sign_SF z = false /\
   SF2R radix2 z = round radix2 (SpecFloat.fexp (f_prec f) (f_emax f)) ZnearestE
       (SF2R radix2 (as_secs_f f (Z.abs t)) * Y)) ->
  let y := IZR t * ((if fl_neg x then -1 else 1) * Y) in
  (forall r, time_float op g f t x = Ok r -> Rabs (IZR r - y) <= time_error g f y) /\
  (Rabs y + time_error g f y <= 9223372036854775807 -> exists r, time_float op g f t x = Ok r).
Proof.
  intros op g f t x Y Hf Ht HY z Hz y. rewrite i64_range in Ht.
  destruct (magnitude_acc f Hf g (Z.abs t) Y z ltac:(lia) HY Hz) as [M1 M2].
  set (W := IZR (Z.abs t) * Y) in *.
  assert (W0 : 0 <= W) by (apply Rmult_le_pos; [apply IZR_le; lia|exact HY]).
  set (sg := if xorb (t <? 0)%Z (fl_neg x) then -1 else 1).
  assert (Ey : y = sg * W).
  { unfold y, W, sg. destruct (Z.ltb_spec t 0).
    - rewrite Z.abs_neq by lia. rewrite opp_IZR. destruct (fl_neg x); cbn [xorb]; ring.
    - rewrite Z.abs_eq by lia. destruct (fl_neg x); cbn [xorb]; ring. }
  assert (As : Rabs sg = 1).
  { unfold sg. destruct (xorb _ _); [rewrite Rabs_left|rewrite Rabs_pos_eq]; lra. }
  assert (Ay : Rabs y = W) by (rewrite Ey, Rabs_mult, As, Rabs_pos_eq; lra).
  assert (TE : time_error g f y = time_error g f W).
  { apply time_error_abs. rewrite Ay, Rabs_pos_eq; lra. }
  rewrite TE, Ay. unfold time_float. fold z. split.
  - intros r. destruct (from_secs_f g f z) as [n| |] eqn:E; try discriminate. cbn [obind].
    destruct (checked_spec i64 n) as [[B ->]|[_ ->]]; [|discriminate]. cbn [unwrap obind].
    intros R. assert (Er : IZR r = sg * IZR n).
    { unfold sg. destruct (xorb _ _); injection R as <-; rewrite ?opp_IZR; ring. }
    rewrite Er, Ey. replace (sg * IZR n - sg * W) with (sg * (IZR n - W)) by ring.
    rewrite Rabs_mult, As, Rmult_1_l. now apply M1.
  - intros B.
    assert (P : 0 <= time_error g f W).
    { unfold time_error. assert (0 <= roundoff f * Rabs W).
      { apply Rmult_le_pos; [apply bpow_ge_0|apply Rabs_pos]. }
      destruct g; lra. }
    destruct (M2 ltac:(lra)) as [n E]. rewrite E. cbn [obind].
    pose proof (M1 n E) as A. apply Rabs_le_inv in A.
    apply from_secs_nonneg in E.
    destruct (checked_spec i64 n) as [[_ ->]|[N _]].
    + cbn [unwrap obind]. eauto.
    + exfalso. apply N. rewrite i64_range. split; [lia|]. apply le_IZR. lra.
Qed.

Lemma mul_accuracy : forall g f t x, binary_format f -> in_ity i64 t ->
  fl_valid f x -> fl_finite x = true ->
  let y := IZR t * fl_value x in
  (forall r, MUL_TIME_REAL g f t x = Ok r -> Rabs (IZR r - y) <= time_error g f y) /\
  (Rabs y + time_error g f y <= 9223372036854775807 -> exists r, MUL_TIME_REAL g f t x = Ok r).
Proof.
  intros g f t x Hf Ht V F y.
  destruct (abs_facts f x V F) as (Va & Fa & Sa & Ea & Ex).
  unfold y. rewrite Ex. apply time_float_acc; auto using Rabs_pos.
  assert (Hp : Prec_gt_0 (f_prec f)) by (destruct Hf as [-> | ->]; reflexivity).
  assert (Hm : Prec_lt_emax (f_prec f) (f_emax f)) by (destruct Hf as [-> | ->]; reflexivity).
  rewrite i64_range in Ht.
  destruct (as_secs_acc f Hf (Z.abs t) ltac:(lia)) as (Vs & Fs & Ss & Bs).
  destruct (mul_sf _ _ Hp Hm _ _ Va Vs Fa Fs) as [M1 M2].
  rewrite Ea, (Rmult_comm (Rabs (fl_value x))) in M1, M2.
  rewrite Sa, Ss in M1, M2. cbn [xorb] in M1, M2.
  assert (P : 0 <= SF2R radix2 (as_secs_f f (Z.abs t)) * Rabs (fl_value x)).
  { apply Rmult_le_pos; [|apply Rabs_pos]. apply Rle_trans with (2 := proj1 Bs).
    apply Rmult_le_pos; [|apply Rmult_le_pos; [apply IZR_le; lia|lra]].
    apply pow_le. pose proof (u_small f Hf). lra. }
  rewrite Rabs_pos_eq in M1, M2 by (now apply rnd_nonneg).
  destruct (Rlt_or_le (round radix2 (SpecFloat.fexp (f_prec f) (f_emax f)) ZnearestE
       (SF2R radix2 (as_secs_f f (Z.abs t)) * Rabs (fl_value x))) (bpow radix2 (f_emax f))) as [L|L].
  - right. destruct (M1 L) as (A & B & C & D). auto.
  - left. auto.
Qed.

Lemma div_accuracy : forall g f t x, binary_format f -> in_ity i64 t ->
  fl_valid f x -> fl_finite x = true -> fl_value x <> 0 ->
  let y := IZR t / fl_value x in
  (forall r, DIV_TIME_REAL g f t x = Ok r -> Rabs (IZR r - y) <= time_error g f y) /\
  (Rabs y + time_error g f y <= 9223372036854775807 -> exists r, DIV_TIME_REAL g f t x = Ok r).
Proof.
  intros g f t x Hf Ht V F N y.
  destruct (abs_facts f x V F) as (Va & Fa & Sa & Ea & Ex).
  assert (NA : 0 < Rabs (fl_value x)) by (now apply Rabs_pos_lt).
  assert (Ey : y = IZR t * ((if fl_neg x then -1 else 1) * / Rabs (fl_value x))).
  { unfold y. rewrite Ex at 1. destruct (fl_neg x); field; lra. }
  rewrite Ey. apply time_float_acc; auto.
  { left. now apply Rinv_0_lt_compat. }
  assert (Hp : Prec_gt_0 (f_prec f)) by (destruct Hf as [-> | ->]; reflexivity).
  assert (Hm : Prec_lt_emax (f_prec f) (f_emax f)) by (destruct Hf as [-> | ->]; reflexivity).
  rewrite i64_range in Ht.
  destruct (as_secs_acc f Hf (Z.abs t) ltac:(lia)) as (Vs & Fs & Ss & Bs).
  destruct (div_sf _ _ Hp Hm _ _ Vs Va Fs Fa ltac:(rewrite Ea; lra)) as [M1 M2].
  rewrite Ea in M1, M2. unfold Rdiv in M1, M2.
  rewrite Sa, Ss in M1, M2. cbn [xorb] in M1, M2.
  assert (P : 0 <= SF2R radix2 (as_secs_f f (Z.abs t)) * / Rabs (fl_value x)).
  { apply Rmult_le_pos; [|left; now apply Rinv_0_lt_compat]. apply Rle_trans with (2 := proj1 Bs).
    apply Rmult_le_pos; [|apply Rmult_le_pos; [apply IZR_le; lia|lra]].
    apply pow_le. pose proof (u_small f Hf). lra. }
  rewrite Rabs_pos_eq in M1, M2 by (now apply rnd_nonneg).
  destruct (Rlt_or_le (round radix2 (SpecFloat.fexp (f_prec f) (f_emax f)) ZnearestE
       (SF2R radix2 (as_secs_f f (Z.abs t)) * / Rabs (fl_value x))) (bpow radix2 (f_emax f))) as [L|L].
  - right. destruct (M1 L) as (A & B & C & D). auto.
  - left. auto.
Qed.

Lemma one_value : forall f, binary_format f ->
  fl_valid f (fl_one f) /\ fl_finite (fl_one f) = true /\ fl_value (fl_one f) = 1.
Proof.
  intros f [-> | ->]; (split; [reflexivity|]); (split; [reflexivity|]);
    unfold fl_value, sf_value, fl_one, SF2R, F2R; cbn; lra.
Qed.

Lemma near_int : forall r t : Z, Rabs (IZR r - IZR t) < 1 -> r = t.
Proof.
  intros r t H. rewrite <- minus_IZR in H. apply Rabs_def2 in H. destruct H as [A B].
  change 1 with (IZR 1) in A. change (-1) with (IZR (-1)) in B.
  rewrite <- opp_IZR in B || idtac. apply lt_IZR in A. apply lt_IZR in B. lia.
Qed.

Lemma div_by_inf : forall g f t s, binary_format f -> in_ity i64 t ->
  DIV_TIME_REAL g f t (FNum (S754_infinity s)) = Ok 0%Z.
Proof.
  intros g f t s Hf Ht. rewrite i64_range in Ht.
  destruct (as_secs_acc f Hf (Z.abs t) ltac:(lia)) as (Vs & Fs & Ss & _).
  unfold DIV_TIME_REAL, time_float. cbn [fl_abs fl_sf SFabs].
  destruct (finite_cases _ Fs Ss) as [->|(m & e & ->)]; cbn [SFdiv xorb from_secs_f obind].
  - change (checked i64 0) with (Some 0%Z). cbn [unwrap obind]. now destruct (xorb _ _).
  - change (checked i64 0) with (Some 0%Z). cbn [unwrap obind]. now destruct (xorb _ _).
Qed.
