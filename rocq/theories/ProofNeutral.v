(** TIME times or divided by one: exact up to sharp limits (C39). *)
From Coq Require Import ZArith List Bool Lia SpecFloat Reals Lra.
From Flocq Require Import Core BinarySingleNaN.
From Verif Require Import Base ModelFloat ModelTimeNum SpecScalar SpecTimeNum SpecReal
  ProofBase ProofTimeNum ProofFlocq ProofReal ProofTimeAcc ProofDate.
Import ListNotations.
Open Scope R_scope.

Section N.
Variable f : fmt.
Hypothesis Hf : binary_format f.
Notation prec := (f_prec f).
Notation emax := (f_emax f).
Notation v := (SF2R radix2).
Notation valid := (valid_binary prec emax).
Notation fexp := (SpecFloat.fexp prec emax).
Notation rnd := (round radix2 fexp ZnearestE).
Let Hp : Prec_gt_0 prec. Proof. destruct Hf as [-> | ->]; reflexivity. Qed.
Let Hm : Prec_lt_emax prec emax. Proof. destruct Hf as [-> | ->]; reflexivity. Qed.
Let VE : Valid_exp fexp. Proof. apply (ProofReal.fexp_valid f Hf). Qed.

Lemma half_ulp : forall x k, 0 <= x <= bpow radix2 k -> (SpecFloat.emin prec emax <= k - prec)%Z ->
  Rabs (rnd x - x) <= / 2 * bpow radix2 (k - prec).
Proof.
  intros x k [X0 X1] K.
  assert (P : 0 <= / 2 * bpow radix2 (k - prec)) by (pose proof (bpow_ge_0 radix2 (k - prec)); lra).
  destruct (Req_dec x 0) as [->|N0].
  { rewrite round_0 by typeclasses eauto. rewrite Rminus_0_r, Rabs_R0. exact P. }
  destruct (Req_dec x (bpow radix2 k)) as [->|N1].
  { rewrite round_generic; [rewrite Rminus_diag_eq, Rabs_R0 by reflexivity; exact P|typeclasses eauto|].
    apply generic_format_bpow. unfold SpecFloat.fexp. pose proof Hp. unfold Prec_gt_0 in *. lia. }
  apply Rle_trans with (/ 2 * ulp radix2 fexp x).
  { apply error_le_half_ulp. exact VE. }
  apply Rmult_le_compat_l; [lra|]. rewrite ulp_neq_0 by exact N0. apply bpow_le.
  unfold cexp, SpecFloat.fexp. assert (mag radix2 x <= k)%Z; [|lia].
  apply mag_le_bpow; [exact N0|]. rewrite Rabs_pos_eq; lra.
Qed.

Lemma of_int_exact : forall z, (0 <= z <= 2 ^ prec)%Z -> (z <= 18446744073709551616)%Z ->
  v (f_of_int f z) = IZR z.
Proof.
  intros z Z1 Z2.
  assert (F : F2R (Float radix2 z 0) = IZR z) by (unfold F2R; cbn; lra).
  assert (G : rnd (IZR z) = IZR z).
  { apply rnd_id. replace (IZR z) with (IZR z * bpow radix2 0) by (cbn; lra).
    apply dyadic_format; [exact Hf|lia|]. destruct Hf as [-> | ->]; unfold SpecFloat.emin; cbn; lia. }
  destruct (norm_sf prec emax Hp Hm z 0) as (A & B & C & D).
  - rewrite F, G, Rabs_pos_eq by (apply IZR_le; lia). apply IZR_le in Z2.
    pose proof (emax_big f Hf). lra.
  - unfold f_of_int. now rewrite C, F, G.
Qed.

(** Seconds of [n] nanoseconds: the exact whole seconds plus the rounded fraction, rounded. *)
Lemma as_secs_value : forall n, (0 <= n <= 9223372036854775808)%Z ->
  (n / NANOS_PER_SEC <= 2 ^ prec)%Z -> (n mod NANOS_PER_SEC <= 2 ^ prec)%Z ->
  v (as_secs_f f n) =
  rnd (IZR (n / NANOS_PER_SEC) + rnd (IZR (n mod NANOS_PER_SEC) / 1000000000)).
Proof.
  intros n Hn H1 H2. unfold as_secs_f. pose proof (emax_big f Hf) as BG.
  set (S := (n / NANOS_PER_SEC)%Z) in *. set (N := (n mod NANOS_PER_SEC)%Z) in *.
  assert (HS : (0 <= S <= 9223372037)%Z) by (unfold S, NANOS_PER_SEC; dlia).
  assert (HN : (0 <= N < 1000000000)%Z) by (unfold N, NANOS_PER_SEC; dlia).
  destruct (of_int_sf f Hf S ltac:(lia)) as (V1 & F1 & S1 & _).
  destruct (of_int_sf f Hf N ltac:(lia)) as (V2 & F2 & S2 & _).
  destruct (of_int_sf f Hf NANOS_PER_SEC ltac:(unfold NANOS_PER_SEC; lia)) as (V3 & F3 & S3 & _).
  pose proof (giga_value f Hf) as G.
  pose proof (of_int_exact S ltac:(lia) ltac:(lia)) as E1.
  pose proof (of_int_exact N ltac:(lia) ltac:(lia)) as E2.
  set (a := f_of_int f S) in *. set (b := f_of_int f N) in *.
  set (c := f_of_int f NANOS_PER_SEC) in *.
  assert (N0 : 0 <= IZR N <= 1000000000) by (split; apply IZR_le; lia).
  assert (S0 : 0 <= IZR S <= 9223372037) by (split; apply IZR_le; lia).
  assert (one : rnd 1 = 1).
  { apply rnd_id. replace 1 with (1 * bpow radix2 0) by (cbn; lra).
    apply dyadic_format; [exact Hf| |]; destruct Hf as [-> | ->]; unfold SpecFloat.emin; cbn; lia. }
  assert (Q : 0 <= rnd (IZR N / 1000000000) <= 1).
  { split; [apply rnd_nonneg; [exact Hp|lra]|]. rewrite <- one. apply rnd_le; [exact Hp|lra]. }
  destruct (div_sf prec emax Hp Hm b c V2 V3 F2 F3 ltac:(rewrite G; lra)) as [DV _].
  rewrite G, E2 in DV.
  destruct DV as (V4 & F4 & W4 & S4); [rewrite Rabs_pos_eq; lra|].
  destruct (add_sf prec emax Hp Hm a (SFdiv prec emax b c) V1 V4 F1 F4) as (_ & _ & W5 & _).
  - rewrite W4, E1. set (q := rnd (IZR N / 1000000000)) in *.
    pose proof (rnd_pos prec emax Hp (IZR S + q) ltac:(lra)) as R.
    pose proof (u_small f Hf). pose proof (eta_small f Hf).
    rewrite Rabs_pos_eq by (apply rnd_nonneg; [exact Hp|lra]).
    assert ((1 + uro prec) * (IZR S + q) <= 2 * (IZR S + q)) by (apply Rmult_le_compat_r; lra). lra.
  - now rewrite W5, W4, E1.
Qed.
End N.

(** The sharp limits: 2^23 s and 2^-6 s. *)
Definition neutral_limit (f : fmt) : Z := if (f_mw f =? f_mw F64)%Z then 8388608000000000 else 15625000.

Lemma as_secs_near : forall f n, binary_format f -> (0 <= n <= neutral_limit f)%Z ->
  Rabs (SF2R radix2 (as_secs_f f n) * 1000000000 - IZR n) < / 2.
Proof.
  intros f n Hf Hn.
  assert (D : IZR n = IZR (n / NANOS_PER_SEC) * 1000000000 + IZR (n mod NANOS_PER_SEC)).
  { rewrite <- mult_IZR, <- plus_IZR. f_equal. unfold NANOS_PER_SEC. dlia. }
  assert (HN : (0 <= n mod NANOS_PER_SEC < 1000000000)%Z) by (unfold NANOS_PER_SEC; dlia).
  assert (N0 : 0 <= IZR (n mod NANOS_PER_SEC) <= 999999999) by (split; apply IZR_le; lia).
  destruct Hf as [-> | ->]; cbn [neutral_limit f_mw F32 F64 Z.eqb Pos.eqb] in Hn.
  - change (neutral_limit F32) with 15625000%Z in Hn.
    assert (Z0 : (n / NANOS_PER_SEC = 0)%Z) by (unfold NANOS_PER_SEC; dlia).
    assert (ZN : (n mod NANOS_PER_SEC = n)%Z) by (unfold NANOS_PER_SEC; dlia).
    rewrite as_secs_value; [|now left|lia|rewrite Z0; discriminate|rewrite ZN; cbn; lia].
    rewrite Z0, ZN, Rplus_0_l.
    assert (B : 0 <= IZR n <= 15625000) by (split; apply IZR_le; lia).
    rewrite (round_generic _ _ _ (round _ _ _ _))
      by (apply generic_format_round; [apply (ProofReal.fexp_valid F32 ltac:(now left))|typeclasses eauto]).
    pose proof (half_ulp F32 ltac:(now left) (IZR n / 1000000000) (-6)) as H.
    change (bpow radix2 (-6)) with (/ 64) in H.
    change (bpow radix2 (-6 - f_prec F32)) with (/ 1073741824) in H.
    specialize (H ltac:(lra) ltac:(discriminate)). apply Rabs_le_inv in H.
    apply Rabs_def1; lra.
  - change (neutral_limit F64) with 8388608000000000%Z in Hn.
    assert (HS : (0 <= n / NANOS_PER_SEC <= 8388608)%Z) by (unfold NANOS_PER_SEC; dlia).
    rewrite as_secs_value; [|now right|lia|cbn; lia|cbn; lia].
    set (S := (n / NANOS_PER_SEC)%Z) in *. set (N := (n mod NANOS_PER_SEC)%Z) in *.
    pose proof (half_ulp F64 ltac:(now right) (IZR N / 1000000000) 0) as H.
    change (bpow radix2 0) with 1 in H.
    change (bpow radix2 (0 - f_prec F64)) with (/ 9007199254740992) in H.
    specialize (H ltac:(lra) ltac:(discriminate)). apply Rabs_le_inv in H.
    set (q := round _ _ _ (IZR N / 1000000000)) in *.
    assert (Hp : Prec_gt_0 (f_prec F64)) by reflexivity.
    assert (Q0 : 0 <= q) by (apply rnd_nonneg; [exact Hp|lra]).
    assert (Q1 : IZR S + q <= 8388608).
    { destruct (Z.eq_dec S 8388608) as [E|E].
      - assert (EN : N = 0%Z) by (unfold N, S, NANOS_PER_SEC in *; dlia).
        assert (q = 0). { unfold q. rewrite EN. unfold Rdiv. rewrite Rmult_0_l. apply round_0. typeclasses eauto. }
        rewrite E. lra.
      - assert (IZR S <= 8388607) by (apply IZR_le; lia).
        assert (q <= 1); [|lra]. unfold q.
        assert (one : round radix2 (SpecFloat.fexp (f_prec F64) (f_emax F64)) ZnearestE 1 = 1).
        { apply (rnd_id F64). replace 1 with (1 * bpow radix2 0) by (cbn; lra).
          apply (dyadic_format F64); [now right| |]; discriminate. }
        rewrite <- one. apply rnd_le; [exact Hp|lra]. }
    assert (S0 : 0 <= IZR S) by (apply IZR_le; lia).
    pose proof (half_ulp F64 ltac:(now right) (IZR S + q) 23) as J.
    change (bpow radix2 23) with 8388608 in J.
    change (bpow radix2 (23 - f_prec F64)) with (/ 1073741824) in J.
    specialize (J ltac:(lra) ltac:(discriminate)). apply Rabs_le_inv in J.
    apply Rabs_def1; lra.
Qed.

Lemma neutral_mag : forall f n z, binary_format f -> (0 <= n <= neutral_limit f)%Z ->
  valid_binary (f_prec f) (f_emax f) z = true -> is_finite_SF z = true -> sign_SF z = false ->
  SF2R radix2 z = SF2R radix2 (as_secs_f f n) -> from_secs_f DurRound f z = Ok n.
Proof.
  intros f n z Hf Hn V F S E. pose proof (as_secs_near f n Hf Hn) as A. rewrite <- E in A.
  assert (L : (neutral_limit f <= 8388608000000000)%Z) by (destruct Hf as [-> | ->]; discriminate).
  destruct (from_secs_acc f Hf DurRound z V F S) as [P Q].
  assert (B : IZR n <= 8388608000000000) by (apply IZR_le; lia).
  apply Rabs_def2 in A. destruct (Q ltac:(lra)) as [r R]. rewrite R. f_equal. apply near_int.
  specialize (P r R). cbn beta iota in P. apply Rabs_def1; lra.
Qed.

Lemma neutral_sharp : forall t f, binary_format f -> (Z.abs t <= neutral_limit f)%Z ->
  MUL_TIME_REAL DurRound f t (fl_one f) = Ok t /\ DIV_TIME_REAL DurRound f t (fl_one f) = Ok t.
Proof.
  intros t f Hf Ht.
  assert (L : (neutral_limit f <= 8388608000000000)%Z) by (destruct Hf as [-> | ->]; discriminate).
  assert (Hp : Prec_gt_0 (f_prec f)) by (destruct Hf as [-> | ->]; reflexivity).
  assert (Hm : Prec_lt_emax (f_prec f) (f_emax f)) by (destruct Hf as [-> | ->]; reflexivity).
  destruct (one_value f Hf) as (V & F & E).
  destruct (abs_facts f (fl_one f) V F) as (Va & Fa & Sa & Ea & Ex).
  rewrite E in Ea. rewrite Rabs_R1 in Ea.
  destruct (as_secs_acc f Hf (Z.abs t) ltac:(lia)) as (Vs & Fs & Ss & Bs).
  set (s := as_secs_f f (Z.abs t)) in *.
  assert (G : round radix2 (SpecFloat.fexp (f_prec f) (f_emax f)) ZnearestE (SF2R radix2 s) = SF2R radix2 s).
  { apply rnd_id. now apply value_format. }
  assert (Lt : Rabs (SF2R radix2 s) < bpow radix2 (f_emax f)).
  { rewrite <- (B2SF_SF2B _ _ s Vs), SF2R_B2SF. apply abs_B2R_lt_emax. }
  assert (X : forall op, from_secs_f DurRound f (op s (fl_sf (fl_abs (fl_one f)))) = Ok (Z.abs t) ->
    time_float op DurRound f t (fl_one f) = Ok t).
  { intros op Eo. unfold time_float. fold s. rewrite Eo. cbn [obind].
    destruct (checked_spec i64 (Z.abs t)) as [[_ ->]|[N _]]; [|exfalso; apply N; rewrite i64_range; lia].
    cbn [unwrap obind]. replace (fl_neg (fl_one f)) with false by (destruct Hf as [-> | ->]; reflexivity).
    rewrite xorb_false_r. f_equal. destruct (Z.ltb_spec t 0); lia. }
  split; apply X.
  - destruct (mul_sf _ _ Hp Hm _ _ Va Vs Fa Fs) as [M _].
    rewrite Ea, Rmult_1_l, G, Sa, Ss in M. destruct (M Lt) as (A & B & C & D).
    apply neutral_mag; auto. lia.
  - destruct (div_sf _ _ Hp Hm _ _ Vs Va Fs Fa ltac:(rewrite Ea; lra)) as [M _].
    rewrite Ea in M. unfold Rdiv in M. rewrite Rinv_1, Rmult_1_r, G, Sa, Ss in M. destruct (M Lt) as (A & B & C & D).
    apply neutral_mag; auto. lia.
Qed.
