(** TIME times/divided by a float, without rounding: whole numbers of 1/512 s (1/8 s for REAL). *)
From Coq Require Import ZArith Bool List Lia Reals Lra SpecFloat.
From Flocq Require Import Core BinarySingleNaN.
From Verif Require Import Base ModelFloat ModelTimeNum SpecScalar SpecTimeNum SpecReal SpecTicks
  ProofBase ProofDate ProofFlocq ProofTimeNum ProofTimeAcc ProofReal ProofReal2.
Open Scope R_scope.

Lemma trunc_exact : forall m e z, (0 <= m)%Z -> IZR m * bpow radix2 e = IZR z -> scale_trunc m e = z.
Proof.
  intros m e z M E. pose proof (scale_trunc_R m e M) as T. rewrite E in T. apply near_int. apply Rabs_def1; lra.
Qed.
Lemma round_exact : forall m e z, (0 <= m)%Z -> IZR m * bpow radix2 e = IZR z -> scale_round m e = z.
Proof.
  intros m e z M E. pose proof (scale_round_R m e M) as T. rewrite E in T. apply near_int. lra.
Qed.

Definition sf_same (a b : spec_float) : bool :=
  match a, b with
  | S754_zero s, S754_zero t => Bool.eqb s t
  | S754_finite s m e, S754_finite s' m' e' => Bool.eqb s s' && Pos.eqb m m' && Z.eqb e e'
  | _, _ => false
  end.
Lemma sf_same_eq : forall a b, sf_same a b = true -> a = b.
Proof.
  intros [s|s| |s m e] [s'|s'| |s' m' e'] H; try discriminate H; cbn in H.
  - now apply eqb_prop in H as ->.
  - apply andb_true_iff in H as [H K]. apply andb_true_iff in H as [H L].
    apply eqb_prop in H as ->. apply Pos.eqb_eq in L as ->. now apply Z.eqb_eq in K as ->.
Qed.
(** The fraction [j/512] of a second. *)
Definition fraction (f : fmt) (j : Z) : bool :=
  sf_same (SFdiv (f_prec f) (f_emax f) (f_of_int f (j * 1953125)) (f_of_int f NANOS_PER_SEC))
    (SpecFloat.binary_normalize (f_prec f) (f_emax f) j (-9) false).
Lemma fractions_64 : forallb (fun j => fraction F64 (Z.of_nat j)) (seq 0 512) = true.
Proof. vm_compute. reflexivity. Qed.
Lemma fractions_32 : forallb (fun j => fraction F32 (64 * Z.of_nat j)) (seq 0 8) = true.
Proof. vm_compute. reflexivity. Qed.

Section Exact.
Variable f : fmt.
Hypothesis Hf : binary_format f.
Notation prec := (f_prec f).
Notation emax := (f_emax f).
Notation v := (SF2R radix2).
Notation valid := (valid_binary prec emax).
Notation rnd := (round radix2 (SpecFloat.fexp prec emax) ZnearestE).

Lemma fraction_exact : forall j, (0 <= j < 512)%Z -> (f = F32 -> j mod 64 = 0)%Z ->
  SFdiv prec emax (f_of_int f (j * 1953125)) (f_of_int f NANOS_PER_SEC) = SpecFloat.binary_normalize prec emax j (-9) false.
Proof.
  intros j J G. apply sf_same_eq. change (fraction f j = true). destruct Hf as [E|E]; rewrite E.
  - specialize (G E). replace j with (64 * Z.of_nat (Z.to_nat (j / 64)))%Z by (rewrite Z2Nat.id; Z.div_mod_to_equations; lia).
    pose proof (proj1 (forallb_forall _ _) fractions_32) as A. apply A. apply in_seq. Z.div_mod_to_equations; lia.
  - replace j with (Z.of_nat (Z.to_nat j)) by lia.
    pose proof (proj1 (forallb_forall _ _) fractions_64) as A. apply A. apply in_seq. lia.
Qed.

Definition dyadic9 (x : spec_float) (k : Z) : Prop :=
  valid x = true /\ is_finite_SF x = true /\ sign_SF x = false /\ v x = IZR k * bpow radix2 (-9).

Lemma emin_low : (SpecFloat.emin prec emax <= -9)%Z.
Proof. destruct Hf as [-> | ->]; unfold SpecFloat.emin; cbn; lia. Qed.
Lemma top : (prec + 0 < emax)%Z /\ (prec + -9 < emax)%Z.
Proof. destruct Hf as [-> | ->]; cbn; lia. Qed.

Lemma normalized : forall m e, (0 <= m <= 2 ^ prec)%Z -> (e = 0 \/ e = -9)%Z ->
  let x := SpecFloat.binary_normalize prec emax m e false in
  valid x = true /\ is_finite_SF x = true /\ sign_SF x = false /\ v x = IZR m * bpow radix2 e.
Proof.
  intros m e M E x. pose proof emin_low as L. pose proof top as T.
  assert (G : rnd (F2R (Float radix2 m e)) = IZR m * bpow radix2 e).
  { unfold F2R. cbn [Fnum Fexp]. apply (rnd_id f). apply (dyadic_format f Hf); lia. }
  destruct (norm_sf prec emax (Hprec f Hf) (Hmax f Hf) m e) as (A & B & C & D).
  - rewrite G. apply (dyadic_small f Hf); destruct E as [-> | ->]; lia.
  - rewrite G in C. repeat split; auto. apply D. lia.
Qed.

Lemma secs_exact : forall k, (0 <= k <= 2 ^ prec)%Z -> (k * 1953125 <= 9223372036854775808)%Z -> (f = F32 -> k mod 64 = 0)%Z ->
  dyadic9 (as_secs_f f (k * 1953125)) k.
Proof.
  intros k K B G. unfold as_secs_f.
  assert (D : (k * 1953125 / NANOS_PER_SEC = k / 512)%Z) by (unfold NANOS_PER_SEC; Z.div_mod_to_equations; lia).
  assert (M : (k * 1953125) mod NANOS_PER_SEC = (k mod 512 * 1953125)%Z) by (unfold NANOS_PER_SEC; Z.div_mod_to_equations; lia).
  rewrite D, M, (fraction_exact (k mod 512)); [|Z.div_mod_to_equations; lia|intros E; specialize (G E); Z.div_mod_to_equations; lia].
  assert (J : (k mod 512 <= k)%Z) by (Z.div_mod_to_equations; lia).
  assert (J0 : (0 <= k mod 512)%Z) by (Z.div_mod_to_equations; lia).
  assert (S : (0 <= k / 512 <= k)%Z) by (Z.div_mod_to_equations; lia).
  destruct (normalized (k / 512) 0 ltac:(lia) ltac:(now left)) as (V1 & F1 & S1 & E1). fold (f_of_int f (k / 512)) in *.
  destruct (normalized (k mod 512) (-9) ltac:(lia) ltac:(now right)) as (V2 & F2 & S2 & E2).
  set (a := f_of_int f (k / 512)) in *. set (b := SpecFloat.binary_normalize prec emax (k mod 512) (-9) false) in *. clearbody a b.
  assert (E : v a + v b = IZR k * bpow radix2 (-9)).
  { rewrite E1, E2. replace (IZR k) with (512 * IZR (k / 512) + IZR (k mod 512)).
    - change (bpow radix2 0) with 1. change (bpow radix2 (-9)) with (/ 512). lra.
    - rewrite <- mult_IZR, <- plus_IZR. f_equal. symmetry. apply Z.div_mod. lia. }
  assert (G2 : rnd (v a + v b) = IZR k * bpow radix2 (-9)).
  { rewrite E. apply (rnd_id f). apply (dyadic_format f Hf); [lia|apply emin_low]. }
  destruct (add_sf prec emax (Hprec f Hf) (Hmax f Hf) a b V1 V2 F1 F2) as (V5 & F5 & W5 & S5).
  - rewrite G2. apply (dyadic_small f Hf); [lia|apply top].
  - split; [exact V5|]. split; [exact F5|]. split; [|now rewrite W5].
    apply S5; auto; [rewrite E1|rewrite E2]; (apply Rmult_le_pos; [apply IZR_le; lia|apply bpow_ge_0]).
Qed.

Lemma giga_facts : valid (f_of_int f NANOS_PER_SEC) = true /\ is_finite_SF (f_of_int f NANOS_PER_SEC) = true /\ sign_SF (f_of_int f NANOS_PER_SEC) = false.
Proof. destruct (of_int_sf f Hf NANOS_PER_SEC ltac:(unfold NANOS_PER_SEC; lia)) as (A & B & C & _). auto. Qed.

Lemma from_exact : forall g x n, dyadic9 x n -> (0 <= n)%Z -> (n * 1953125 < 9223372036854775808)%Z ->
  (g = DurMul -> n * 1953125 <= 2 ^ prec)%Z -> from_secs_f g f x = Ok (n * 1953125)%Z.
Proof.
  intros g x n (V & F & S & E) N B D.
  assert (G : forall q, q * bpow radix2 (-9) * 1000000000 = q * 1953125) by (intros q; change (bpow radix2 (-9)) with (/ 512); lra).
  destruct (finite_cases x F S) as [->|(m & e & ->)].
  { cbn [SF2R] in E. assert (n = 0)%Z as ->.
    { apply eq_IZR. change (bpow radix2 (-9)) with (/ 512) in E. lra. }
    reflexivity. }
  pose proof (finite_value m e) as FV.
  assert (MG : IZR (Zpos m * NANOS_PER_SEC) * bpow radix2 e = IZR (n * 1953125)).
  { rewrite mult_IZR, (mult_IZR n), <- G, <- E, FV. unfold NANOS_PER_SEC. ring. }
  assert (TR : (scale_trunc (Zpos m) e <? 2 ^ 64)%Z = true).
  { apply Z.ltb_lt, lt_IZR. pose proof (scale_trunc_R (Zpos m) e ltac:(lia)) as T. rewrite <- FV, E in T.
    apply IZR_lt in B. rewrite mult_IZR in B. change (bpow radix2 (-9)) with (/ 512) in T. change (IZR (2 ^ 64)) with 18446744073709551616. lra. }
  destruct g; cbn [from_secs_f].
  - rewrite TR. f_equal. apply round_exact; [unfold NANOS_PER_SEC; lia|exact MG].
  - rewrite TR. f_equal. apply trunc_exact; [unfold NANOS_PER_SEC; lia|exact MG].
  - specialize (D eq_refl). set (x := S754_finite false m e) in *. destruct giga_facts as (V3 & F3 & S3). pose proof (giga_value f Hf) as GV.
    destruct (of_int_sf f Hf (2 ^ 64 * NANOS_PER_SEC) ltac:(unfold NANOS_PER_SEC; lia)) as (V4 & F4 & S4 & B4).
    assert (P : v x * v (f_of_int f NANOS_PER_SEC) = IZR (n * 1953125) * bpow radix2 0).
    { rewrite GV, E, G, mult_IZR. change (bpow radix2 0) with 1. ring. }
    destruct (mul_exact f x _ Hf V V3 F F3) as (A1 & A2 & A3 & A4).
    + rewrite P. apply (dyadic_format f Hf); [lia|]. pose proof emin_low. lia.
    + rewrite P. apply (dyadic_small f Hf); [lia|apply top].
    + rewrite S, S3 in A4. cbn [xorb] in A4. set (y := SFmul prec emax x (f_of_int f NANOS_PER_SEC)) in *.
      rewrite P in A3. change (bpow radix2 0) with 1 in A3. rewrite Rmult_1_r in A3.
      destruct (finite_cases y A2 A4) as [Ey|(m' & e' & Ey)]; rewrite Ey in *.
      * cbn [SF2R] in A3. f_equal. apply eq_IZR. exact A3.
      * rewrite (ltb_sf f); auto.
        -- f_equal. apply trunc_exact; [lia|]. now rewrite <- (finite_value m' e').
        -- rewrite A3. apply IZR_lt in B. pose proof (u_small f Hf) as U.
           change (IZR (2 ^ 64 * NANOS_PER_SEC)) with 18446744073709551616000000000 in B4.
           assert (/ 2 * 18446744073709551616000000000 <= (1 - uro prec) * 18446744073709551616000000000) by (apply Rmult_le_compat_r; lra). lra.
Qed.

(** The sign of the result. *)
Lemma float_exact : forall op g k n x Y, in_ity i64 (k * 1953125) -> in_ity i64 (n * 1953125) ->
  (Z.abs k <= 2 ^ prec)%Z -> (f = F32 -> k mod 64 = 0)%Z -> (Z.abs n <= 2 ^ prec)%Z -> (g = DurMul -> Z.abs n * 1953125 <= 2 ^ prec)%Z ->
  0 <= Y -> IZR n = IZR k * ((if fl_neg x then -1 else 1) * Y) ->
  (forall s, dyadic9 s (Z.abs k) -> dyadic9 (op s (fl_sf (fl_abs x))) (Z.abs n)) ->
  time_float op g f (k * 1953125) x = Ok (n * 1953125)%Z.
Proof.
  intros op g k n x Y Ik In K G N D HY E O. rewrite i64_range in Ik, In. unfold time_float.
  assert (A : (Z.abs (k * 1953125) = Z.abs k * 1953125)%Z) by lia. rewrite A.
  assert (G' : (f = F32 -> Z.abs k mod 64 = 0)%Z) by (intros F; specialize (G F); Z.div_mod_to_equations; lia).
  pose proof (O _ (secs_exact (Z.abs k) ltac:(lia) ltac:(lia) G')) as R.
  rewrite (from_exact g _ (Z.abs n) R ltac:(lia) ltac:(lia) D). cbn [obind].
  destruct (checked_spec i64 (Z.abs n * 1953125)) as [[_ ->]|[C _]]; [|exfalso; apply C; rewrite i64_range; lia].
  cbn [unwrap obind]. f_equal.
  assert (S : IZR n = (if xorb (k * 1953125 <? 0)%Z (fl_neg x) then -1 else 1) * (IZR (Z.abs k) * Y)).
  { rewrite E. destruct (Z.ltb_spec (k * 1953125) 0).
    - rewrite (Z.abs_neq k) by lia. rewrite opp_IZR. destruct (fl_neg x); cbn [xorb]; ring.
    - rewrite (Z.abs_eq k) by lia. destruct (fl_neg x); cbn [xorb]; ring. }
  assert (P : 0 <= IZR (Z.abs k) * Y) by (apply Rmult_le_pos; [apply IZR_le; lia|exact HY]).
  destruct (xorb _ _).
  - assert (n <= 0)%Z by (apply le_IZR; lra). lia.
  - assert (0 <= n)%Z by (apply le_IZR; lra). lia.
Qed.
End Exact.

(** A multiple of 1/512 s (1/8 s for REAL) of at most 24 or 53 bits, times or divided by a number, if the result is
    another multiple of 1/512 s of that size. *)
Section Statements.
Variable f : fmt.
Hypothesis Hf : binary_format f.

Lemma mul_time_exact : forall g k n x, fl_valid f x -> fl_finite x = true ->
  in_ity i64 (k * 1953125) -> in_ity i64 (n * 1953125) ->
  (Z.abs k <= 2 ^ f_prec f)%Z -> (f = F32 -> k mod 64 = 0)%Z -> (Z.abs n <= 2 ^ f_prec f)%Z ->
  (g = DurMul -> Z.abs n * 1953125 <= 2 ^ f_prec f)%Z ->
  IZR n = IZR k * fl_value x -> MUL_TIME_REAL g f (k * 1953125) x = Ok (n * 1953125)%Z.
Proof.
  intros g k n x V F Ik In K G N D E. destruct (abs_facts f x V F) as (Va & Fa & Sa & Ea & Ex).
  apply (float_exact f Hf _ g k n x (Rabs (fl_value x))); auto using Rabs_pos; [now rewrite <- Ex|].
  intros s (V1 & F1 & S1 & E1).
  assert (Q : SF2R radix2 (fl_sf (fl_abs x)) * SF2R radix2 s = IZR (Z.abs n) * bpow radix2 (-9)).
  { rewrite Ea, E1. replace (IZR (Z.abs n)) with (IZR (Z.abs k) * Rabs (fl_value x)); [ring|]. now rewrite !abs_IZR, E, Rabs_mult. }
  destruct (mul_exact f _ s Hf Va V1 Fa F1) as (A & B & C & H).
  - rewrite Q. apply (dyadic_format f Hf); [lia|apply (emin_low f Hf)].
  - rewrite Q. apply (dyadic_small f Hf); [lia|apply (top f Hf)].
  - rewrite Sa, S1 in H. split; [exact A|]. split; [exact B|]. split; [exact H|]. now rewrite C.
Qed.
Lemma div_time_exact : forall g k n x, fl_valid f x -> fl_finite x = true -> fl_value x <> 0 ->
  in_ity i64 (k * 1953125) -> in_ity i64 (n * 1953125) ->
  (Z.abs k <= 2 ^ f_prec f)%Z -> (f = F32 -> k mod 64 = 0)%Z -> (Z.abs n <= 2 ^ f_prec f)%Z ->
  (g = DurMul -> Z.abs n * 1953125 <= 2 ^ f_prec f)%Z ->
  IZR n = IZR k / fl_value x -> DIV_TIME_REAL g f (k * 1953125) x = Ok (n * 1953125)%Z.
Proof.
  intros g k n x V F X Ik In K G N D E. destruct (abs_facts f x V F) as (Va & Fa & Sa & Ea & Ex).
  assert (X' : 0 < Rabs (fl_value x)) by now apply Rabs_pos_lt.
  apply (float_exact f Hf _ g k n x (/ Rabs (fl_value x))); auto.
  { left. now apply Rinv_0_lt_compat. }
  { rewrite E. pattern (fl_value x) at 1. rewrite Ex. destruct (fl_neg x); field; lra. }
  intros s (V1 & F1 & S1 & E1).
  assert (Q : SF2R radix2 s / SF2R radix2 (fl_sf (fl_abs x)) = IZR (Z.abs n) * bpow radix2 (-9)).
  { rewrite Ea, E1. replace (IZR (Z.abs n)) with (IZR (Z.abs k) / Rabs (fl_value x)); [field; lra|]. rewrite !abs_IZR, E. unfold Rdiv. now rewrite Rabs_mult, Rabs_inv. }
  destruct (div_sf _ _ (Hprec f Hf) (Hmax f Hf) s _ V1 Va F1 Fa ltac:(rewrite Ea; lra)) as [M _]. rewrite Q in M.
  rewrite (rnd_id f) in M by (apply (dyadic_format f Hf); [lia|apply (emin_low f Hf)]).
  destruct M as (A & B & C & H); [apply (dyadic_small f Hf); [lia|apply (top f Hf)]|].
  rewrite Sa, S1 in H. now repeat split.
Qed.
End Statements.
Lemma time_exact : forall g f a b x, binary_format f -> in_ity i64 a -> in_ity i64 b -> fl_valid f x -> fl_finite x = true -> unrounded g f a b ->
  (IZR b = IZR a * fl_value x -> MUL_TIME_REAL g f a x = Ok b) /\
  (fl_value x <> 0 -> IZR b = IZR a / fl_value x -> DIV_TIME_REAL g f a x = Ok b).
Proof.
  intros g f a b x Hf Ia Ib V F ((k & -> & K) & G & (n & -> & N) & D). rewrite !(mult_IZR _ 1953125).
  assert (G' : (f = F32 -> k mod 64 = 0)%Z) by (intros E; specialize (G E); Z.div_mod_to_equations; lia).
  assert (D' : (g = DurMul -> Z.abs n * 1953125 <= 2 ^ f_prec f)%Z) by (intros E; specialize (D E); lia).
  split.
  - intros E. apply mul_time_exact; auto. apply (Rmult_eq_reg_r 1953125); lra.
  - intros X E. apply div_time_exact; auto. apply (Rmult_eq_reg_r 1953125); [|lra]. rewrite E. field. exact X.
Qed.
(** Results that have no room. *)
Lemma time_overflow : forall g f a x, binary_format f -> in_ity i64 a -> fl_valid f x -> fl_finite x = true ->
  (9223372036854775808 + time_error g f (IZR a * fl_value x) < Rabs (IZR a * fl_value x) -> MUL_TIME_REAL g f a x = Panic) /\
  (fl_value x <> 0 -> 9223372036854775808 + time_error g f (IZR a / fl_value x) < Rabs (IZR a / fl_value x) -> DIV_TIME_REAL g f a x = Panic).
Proof.
  intros g f a x Hf Ia V F.
  assert (C : forall op y, (forall r, time_float op g f a x = Ok r -> Rabs (IZR r - y) <= time_error g f y) ->
    9223372036854775808 + time_error g f y < Rabs y -> time_float op g f a x = Panic).
  { intros op y A L. unfold time_float in *. destruct (from_secs_f g f _) as [n| |] eqn:E; [|reflexivity|].
    - cbn [obind] in *. destruct (checked_spec i64 n) as [[I J]|[_ ->]]; [|reflexivity]. rewrite J in A. cbn [unwrap obind] in A. specialize (A _ eq_refl).
      exfalso. rewrite i64_range in I. assert (R : Rabs (IZR (if xorb (a <? 0)%Z (fl_neg x) then (- n)%Z else n)) <= 9223372036854775808).
      { rewrite <- abs_IZR. apply IZR_le. destruct (xorb _ _); lia. }
      set (r := IZR _) in *. clearbody r. revert A R L. generalize (time_error g f y). intros t. unfold Rabs.
      destruct (Rcase_abs (r - y)), (Rcase_abs r), (Rcase_abs y); lra.
    - exfalso. clear -E. unfold from_secs_f in E. revert E. generalize (op (as_secs_f f (Z.abs a)) (fl_sf (fl_abs x))). intros [| | |[] m e]; try discriminate.
      destruct g; [destruct (_ <? _)%Z; discriminate..|]. destruct (SFmul _ _ _ _) as [| | |[] m' e']; try discriminate. destruct (SFltb _ _); discriminate. }
  split.
  - apply C. exact (proj1 (mul_accuracy g f a x Hf Ia V F)).
  - intros X. apply C. exact (proj1 (div_accuracy g f a x Hf Ia V F X)).
Qed.
