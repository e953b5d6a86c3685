(** TIME times/divided by a float if only the last step rounds. *)
From Coq Require Import ZArith Bool List Lia Reals Lra SpecFloat.
From Flocq Require Import Core BinarySingleNaN.
From Verif Require Import Base ModelFloat ModelTimeNum ModelExtra SpecScalar SpecTimeNum SpecReal SpecTicks SpecExtra
  ProofBase ProofDate ProofFlocq ProofTimeNum ProofTimeAcc ProofReal ProofReal2 ProofTimeExact ProofExtra3 ProofExtra5 ProofTermE SpecOnce.
Open Scope R_scope.

Lemma scale_even : forall m e, (0 <= m)%Z -> nearest_int_even (scale_round m e) (IZR m * bpow radix2 e).
Proof.
  intros m e M. destruct (Z.leb_spec 0 e) as [E|E].
  - unfold scale_round. destruct (Z.leb_spec 0 e); [|lia]. unfold nearest_int_even. rewrite mult_IZR, <- (IZR_Zpower radix2 e E). simpl (radix_val radix2).
    rewrite Rminus_diag_eq, Rabs_R0 by reflexivity. split; [lra|intros; lra].
  - assert (P : (0 < 2 ^ (- e))%Z) by (apply Z.pow_pos_nonneg; lia).
    assert (S : scale_round m e = half_even m (2 ^ (- e))).
    { unfold scale_round, half_even. destruct (Z.leb_spec 0 e); [lia|]. cbv zeta. set (r := (m mod 2 ^ (- e))%Z). clearbody r.
      destruct (Z.ltb_spec (2 * r) (2 ^ (- e))); [reflexivity|]. destruct (Z.eqb_spec (2 * r) (2 ^ (- e))), (Z.ltb_spec (2 ^ (- e)) (2 * r)); try lia; reflexivity. }
    rewrite S, (bpow_neg e E). exact (half_even_spec m (2 ^ (- e)) M P).
Qed.
Lemma nearest_opp : forall n y, nearest_int_even n y -> nearest_int_even (- n) (- y).
Proof.
  intros n y [A B]. unfold nearest_int_even. rewrite opp_IZR. replace (- IZR n - - y) with (- (IZR n - y)) by ring. rewrite Rabs_Ropp, Z.even_opp. now split.
Qed.
Lemma nearest_sign : forall n y, nearest_int_even n y -> (0 <= y -> (0 <= n)%Z) /\ (y <= 0 -> (n <= 0)%Z).
Proof.
  intros n y [A B]. apply abs_le in A. split; intros Y.
  - destruct (Z_lt_le_dec n 0) as [L|L]; [|exact L]. assert (IZR n <= -1) by (apply IZR_le; lia). lra.
  - destruct (Z_lt_le_dec 0 n) as [L|L]; [|exact L]. assert (1 <= IZR n) by (apply IZR_le; lia). lra.
Qed.

Lemma part_unique : forall n n' y, 0 <= y -> (0 <= n)%Z -> IZR n <= y < IZR n + 1 -> integer_part n' y -> n = n'.
Proof.
  intros n n' y Y N B (A & C & D). rewrite (Rabs_pos_eq y Y) in A. apply Rabs_def2 in C. pose proof (Rle_abs (IZR n')) as E.
  assert (n < n' + 1)%Z by (apply lt_IZR; rewrite plus_IZR; lra). assert (n' < n + 1)%Z by (apply lt_IZR; rewrite plus_IZR; lra). lia.
Qed.

(** The results of the conversion to nanoseconds that the number [y] allows. *)
Definition rounded (g : durgen) (b : Z) (y : R) : Prop :=
  match g with DurRound => nearest_int_even b y | DurTrunc => integer_part b y | DurMul => False end.

Lemma rounded_sign : forall g b y, rounded g b y -> (0 <= y -> (0 <= b)%Z) /\ (y <= 0 -> (b <= 0)%Z).
Proof.
  intros [| |] b y H; cbn [rounded] in H; [now apply nearest_sign| |contradiction].
  destruct H as (A & B & C). apply Rabs_def2 in B. split; intros Y.
  - destruct (Z_lt_le_dec b 0) as [L|L]; [|exact L]. assert (IZR b <= -1) by (apply IZR_le; lia). lra.
  - destruct (Z_lt_le_dec 0 b) as [L|L]; [|exact L]. assert (1 <= IZR b) by (apply IZR_le; lia). lra.
Qed.
Lemma rounded_opp : forall g b y, rounded g b y -> rounded g (- b) (- y).
Proof.
  intros [| |] b y H; cbn [rounded] in *; [now apply nearest_opp| |exact H].
  destruct H as (A & B & C). unfold integer_part. rewrite opp_IZR, !Rabs_Ropp. replace (- IZR b - - y) with (- (IZR b - y)) by ring. rewrite Rabs_Ropp.
  repeat split; auto. lra.
Qed.
Lemma rounded_abs : forall g b y, rounded g b y -> rounded g (Z.abs b) (Rabs y).
Proof.
  intros g b y H. destruct (rounded_sign g b y H) as [P N]. destruct (Rle_or_lt 0 y) as [Y|Y].
  - rewrite Rabs_pos_eq, Z.abs_eq by auto. exact H.
  - rewrite Rabs_left, Z.abs_neq by (try apply N; lra). now apply rounded_opp.
Qed.
Lemma rounded_near : forall g b y, rounded g b y -> Rabs (IZR b - y) <= 1.
Proof. intros [| |] b y H; cbn [rounded] in H; [destruct H; lra|destruct H as (_ & H & _); lra|contradiction]. Qed.

Section Once.
Variable f : fmt.
Hypothesis Hf : binary_format f.
Notation prec := (f_prec f).
Notation emax := (f_emax f).
Notation v := (SF2R radix2).
Notation valid := (valid_binary prec emax).

Lemma from_once : forall g x y b, is_finite_SF x = true -> sign_SF x = false -> v x * 1000000000 = y ->
  rounded g b y -> (0 <= b < 9223372036854775808)%Z -> from_secs_f g f x = Ok b.
Proof.
  intros g x y b F S E N B.
  destruct (finite_cases x F S) as [->|(m & e & ->)].
  { cbn [SF2R] in E. assert (y = 0) by lra. subst y. pose proof (rounded_sign g b _ N) as [_ Q]. rewrite H in Q. specialize (Q (Rle_refl 0)).
    assert (b = 0)%Z as -> by lia. reflexivity. }
  pose proof (finite_value m e) as FV. rewrite FV in E.
  assert (MG : IZR (Zpos m * NANOS_PER_SEC) * bpow radix2 e = y) by (rewrite mult_IZR, <- E; unfold NANOS_PER_SEC; ring).
  pose proof (rounded_near g b y N) as R. apply abs_le in R.
  assert (B' : IZR b < 9223372036854775808) by (apply IZR_lt; lia).
  assert (P : 0 < IZR (Zpos m) * bpow radix2 e) by (apply Rmult_lt_0_compat; [now apply IZR_lt|apply bpow_gt_0]).
  assert (TR : (scale_trunc (Zpos m) e <? 2 ^ 64)%Z = true).
  { apply Z.ltb_lt, lt_IZR. pose proof (scale_trunc_R (Zpos m) e ltac:(lia)) as T. change (IZR (2 ^ 64)) with 18446744073709551616. lra. }
  destruct g; cbn [from_secs_f rounded] in *; [| |contradiction]; rewrite TR; f_equal.
  - apply (nearest_even_unique _ _ y); [rewrite <- MG; apply scale_even; unfold NANOS_PER_SEC; lia|exact N].
  - pose proof (scale_trunc_R (Zpos m * NANOS_PER_SEC) e ltac:(unfold NANOS_PER_SEC; lia)) as T. rewrite MG in T.
    apply (part_unique _ _ y); auto; [lra| |lra].
    assert (0 < scale_trunc (Zpos m * NANOS_PER_SEC) e + 1)%Z by (apply lt_IZR; rewrite plus_IZR; lra). lia.
Qed.

Lemma float_once : forall op g k x Y b, in_ity i64 (k * 1953125) ->
  (Z.abs k <= 2 ^ prec)%Z -> (f = F32 -> k mod 64 = 0)%Z -> 0 <= Y ->
  let y := IZR (k * 1953125) * ((if fl_neg x then -1 else 1) * Y) in
  (forall s, dyadic9 f s (Z.abs k) -> is_finite_SF (op s (fl_sf (fl_abs x))) = true /\ sign_SF (op s (fl_sf (fl_abs x))) = false /\ 
     v (op s (fl_sf (fl_abs x))) * 1000000000 = Rabs y) ->
  rounded g b y -> (Z.abs b < 9223372036854775808)%Z -> time_float op g f (k * 1953125) x = Ok b.
Proof.
  intros op g k x Y b Ik K G HY y O N B. rewrite i64_range in Ik. unfold time_float.
  assert (A : (Z.abs (k * 1953125) = Z.abs k * 1953125)%Z) by lia. rewrite A.
  assert (G' : (f = F32 -> Z.abs k mod 64 = 0)%Z) by (intros F; specialize (G F); Z.div_mod_to_equations; lia).
  destruct (O _ (secs_exact f Hf (Z.abs k) ltac:(lia) ltac:(lia) G')) as (F & S & E).
  rewrite (from_once g _ _ (Z.abs b) F S E (rounded_abs g b y N) ltac:(lia)). cbn [obind].
  destruct (checked_spec i64 (Z.abs b)) as [[_ ->]|[C _]]; [|exfalso; apply C; rewrite i64_range; lia].
  cbn [unwrap obind]. f_equal.
  assert (Q : y = (if xorb (k * 1953125 <? 0)%Z (fl_neg x) then -1 else 1) * (IZR (Z.abs (k * 1953125)) * Y)).
  { unfold y. destruct (Z.ltb_spec (k * 1953125) 0).
    - rewrite (Z.abs_neq (k * 1953125)) by lia. rewrite opp_IZR. destruct (fl_neg x); cbn [xorb]; ring.
    - rewrite (Z.abs_eq (k * 1953125)) by lia. destruct (fl_neg x); cbn [xorb]; ring. }
  assert (P : 0 <= IZR (Z.abs (k * 1953125)) * Y) by (apply Rmult_le_pos; [apply IZR_le; lia|exact HY]).
  destruct (rounded_sign g b y N) as [L M]. destruct (xorb _ _).
  - assert (b <= 0)%Z by (apply M; lra). lia.
  - assert (0 <= b)%Z by (apply L; lra). lia.
Qed.
End Once.

Lemma seconds_room : forall f y, binary_format f -> seconds f y ->
  generic_format radix2 (SpecFloat.fexp (f_prec f) (f_emax f)) (Rabs y / 1000000000) /\ Rabs (Rabs y / 1000000000) < bpow radix2 (f_emax f).
Proof.
  intros f y Hf (s & V & F & E). destruct (abs_facts f s V F) as (Va & Fa & Sa & Ea & Ex).
  assert (Q : Rabs y / 1000000000 = SF2R radix2 (fl_sf (fl_abs s))).
  { rewrite Ea, <- E, Rabs_mult, (Rabs_pos_eq 1000000000) by lra. field. }
  rewrite Q. split; [exact (value_format f _ Va)|].
  rewrite <- (B2SF_SF2B _ _ _ Va), SF2R_B2SF. apply abs_B2R_lt_emax.
Qed.
Lemma nanos : forall k, IZR (Z.abs (k * 1953125)) = IZR (Z.abs k) * bpow radix2 (-9) * 1000000000.
Proof. intros k. rewrite Z.abs_mul, mult_IZR. change (bpow radix2 (-9)) with (/ 512). change (IZR (Z.abs 1953125)) with 1953125. lra. Qed.

Lemma mul_time_once : forall g f k b x, binary_format f -> fl_valid f x -> fl_finite x = true -> in_ity i64 (k * 1953125) ->
  (Z.abs k <= 2 ^ f_prec f)%Z -> (f = F32 -> k mod 64 = 0)%Z -> seconds f (IZR (k * 1953125) * fl_value x) ->
  rounded g b (IZR (k * 1953125) * fl_value x) -> (Z.abs b < 9223372036854775808)%Z -> MUL_TIME_REAL g f (k * 1953125) x = Ok b.
Proof.
  intros g f k b x Hf V F Ik K G W N B. destruct (abs_facts f x V F) as (Va & Fa & Sa & Ea & Ex).
  apply (float_once f Hf _ g k x (Rabs (fl_value x))); auto using Rabs_pos; rewrite <- Ex; [|exact N].
  intros s (V1 & F1 & S1 & E1). destruct (seconds_room f _ Hf W) as [W1 W2].
  assert (Q : SF2R radix2 (fl_sf (fl_abs x)) * SF2R radix2 s = Rabs (IZR (k * 1953125) * fl_value x) / 1000000000).
  { rewrite Ea, E1, Rabs_mult, <- abs_IZR, nanos. field. }
  rewrite <- Q in W1, W2. destruct (mul_exact f _ s Hf Va V1 Fa F1 W1 W2) as (A & C & D & H).
  rewrite Sa, S1 in H. split; [exact C|]. split; [exact H|]. rewrite D, Q. field.
Qed.
Lemma div_time_once : forall g f k b x, binary_format f -> fl_valid f x -> fl_finite x = true -> fl_value x <> 0 -> in_ity i64 (k * 1953125) ->
  (Z.abs k <= 2 ^ f_prec f)%Z -> (f = F32 -> k mod 64 = 0)%Z -> seconds f (IZR (k * 1953125) / fl_value x) ->
  rounded g b (IZR (k * 1953125) / fl_value x) -> (Z.abs b < 9223372036854775808)%Z -> DIV_TIME_REAL g f (k * 1953125) x = Ok b.
Proof.
  intros g f k b x Hf V F X Ik K G W N B. destruct (abs_facts f x V F) as (Va & Fa & Sa & Ea & Ex).
  assert (X' : 0 < Rabs (fl_value x)) by now apply Rabs_pos_lt.
  assert (I : (if fl_neg x then -1 else 1) * / Rabs (fl_value x) = / fl_value x).
  { pattern (fl_value x) at 2. rewrite Ex. destruct (fl_neg x); field; lra. }
  apply (float_once f Hf _ g k x (/ Rabs (fl_value x))); auto; try rewrite I; [left; now apply Rinv_0_lt_compat| |exact N].
  intros s (V1 & F1 & S1 & E1). destruct (seconds_room f _ Hf W) as [W1 W2].
  assert (Q : SF2R radix2 s / SF2R radix2 (fl_sf (fl_abs x)) = Rabs (IZR (k * 1953125) / fl_value x) / 1000000000).
  { unfold Rdiv. rewrite Ea, E1, Rabs_mult, <- abs_IZR, nanos, Rabs_inv. field. lra. }
  rewrite <- Q in W1, W2.
  destruct (div_sf _ _ (Hprec f Hf) (Hmax f Hf) s _ V1 Va F1 Fa ltac:(rewrite Ea; lra)) as [M _].
  rewrite (rnd_id f) in M by exact W1. destruct (M W2) as (A & C & D & H).
  rewrite Sa, S1 in H. split; [exact C|]. split; [exact H|]. unfold Rdiv in D, Q. rewrite D, Q. unfold Rdiv. field.
Qed.
Lemma time_once : forall f a b x, binary_format f -> in_ity i64 a -> (Z.abs b < 2 ^ 63)%Z -> fl_valid f x -> fl_finite x = true ->
  ticks f a -> (f = F32 -> a mod 125000000 = 0)%Z ->
  (seconds f (IZR a * fl_value x) ->
     (nearest_int_even b (IZR a * fl_value x) -> MUL_TIME_REAL DurRound f a x = Ok b) /\
     (integer_part b (IZR a * fl_value x) -> MUL_TIME_REAL DurTrunc f a x = Ok b)) /\
  (fl_value x <> 0 -> seconds f (IZR a / fl_value x) ->
     (nearest_int_even b (IZR a / fl_value x) -> DIV_TIME_REAL DurRound f a x = Ok b) /\
     (integer_part b (IZR a / fl_value x) -> DIV_TIME_REAL DurTrunc f a x = Ok b)).
Proof.
  intros f a b x Hf Ia Ib V F (k & -> & K) G. change (2 ^ 63)%Z with 9223372036854775808%Z in Ib.
  assert (G' : (f = F32 -> k mod 64 = 0)%Z) by (intros E; specialize (G E); Z.div_mod_to_equations; lia).
  split; [intros W|intros X W]; split; intros N.
  - now apply mul_time_once.
  - now apply mul_time_once.
  - now apply div_time_once.
  - now apply div_time_once.
Qed.
