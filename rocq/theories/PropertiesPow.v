(** Property C109: EXPT with an integer exponent, for all arguments. *)
From Coq Require Import String ZArith List Bool Lia SpecFloat Reals Lra.
From Flocq Require Import Core.
From Verif Require Import Base ModelFloat ModelTimeNum ModelChrono ModelArith ModelST SpecScalar SpecTimeNum
  SpecST SpecReal SpecMono SpecPow ProofTimeAcc ProofST ProofST2 ProofReal ProofReal2 ProofPow.
Import ListNotations.
Open Scope string_scope.
Open Scope Z_scope.

(** A number to an integer power is a number of the same type; it is negative exactly for a
    negative base and an odd exponent. *)
Theorem C109_sign : forall v X f x n, List.In (X, f) float_names -> fl_valid f x -> is_nan x = false ->
  in_ity i32 n ->
  exists y, st_call v ("EXPT__" ++ X ++ "__DINT") [VFl x; VInt n] = Ok (VFl y) /\
    fl_valid f y /\ is_nan y = false /\ fl_neg y = fl_neg x && Z.odd n.
Proof.
  intros v X f x n HX V N R. exists (EXPT_DINT f x n). split; [now apply expt_dint|].
  apply expt_sign; auto. now apply (float_names_fmt X).
Qed.
Print Assumptions C109_sign.
(** NaN stays NaN, except that everything to the power 0 is 1. *)
Theorem C109_nan : forall v X f x n, List.In (X, f) float_names -> in_ity i32 n ->
  exists y, st_call v ("EXPT__" ++ X ++ "__DINT") [VFl x; VInt n] = Ok (VFl y) /\
    (n = 0 -> y = fl_one f) /\ (n <> 0 -> is_nan x = true -> is_nan y = true).
Proof.
  intros v X f x n HX R. exists (EXPT_DINT f x n). split; [now apply expt_dint|].
  split; [intros ->; apply expt_zero; now apply (float_names_fmt X)|intros N I; now apply expt_nan].
Qed.
Print Assumptions C109_nan.
(** The opposite base gives the same power (even exponent) or the opposite power (odd). *)
Theorem C109_opposite : forall v X f x n, List.In (X, f) float_names -> fl_valid f x -> is_nan x = false ->
  in_ity i32 n ->
  exists y, st_call v ("EXPT__" ++ X ++ "__DINT") [VFl x; VInt n] = Ok (VFl y) /\
    st_call v ("EXPT__" ++ X ++ "__DINT") [VFl (fl_opp x); VInt n] =
      Ok (VFl (if Z.odd n then fl_opp y else y)).
Proof.
  intros v X f x n HX V N R. exists (EXPT_DINT f x n). split; [now apply expt_dint|].
  rewrite (expt_dint v X f (fl_opp x) n HX R).
  rewrite expt_opposite; auto. now apply (float_names_fmt X).
Qed.
Print Assumptions C109_opposite.
(** A larger base has a larger power, for a negative exponent a smaller one. *)
Theorem C109_monotone : forall v X f x x' n, List.In (X, f) float_names -> fl_valid f x -> fl_valid f x' ->
  fl_neg x = false -> fl_neg x' = false -> at_most x x' -> in_ity i32 n ->
  exists y y', st_call v ("EXPT__" ++ X ++ "__DINT") [VFl x; VInt n] = Ok (VFl y) /\
    st_call v ("EXPT__" ++ X ++ "__DINT") [VFl x'; VInt n] = Ok (VFl y') /\
    (0 <= n -> at_most y y') /\ (n < 0 -> at_most y' y).
Proof.
  intros v X f x x' n HX V V' S S' H R. exists (EXPT_DINT f x n), (EXPT_DINT f x' n).
  split; [now apply expt_dint|]. split; [now apply expt_dint|].
  pose proof (expt_monotone f x x' n (float_names_fmt _ _ HX) V V' S S' H) as M.
  destruct (Z.leb_spec 0 n); split; intros; try lia; exact M.
Qed.
Print Assumptions C109_monotone.
(** Accuracy: the power of [n] is off by at most [n - 1] roundings, unless the power leaves the
    range of normal numbers. *)
Theorem C109_accuracy : forall v X f x n, List.In (X, f) float_names -> fl_valid f x -> fl_finite x = true ->
  in_ity i32 n -> 0 < n ->
  let b := Rabs (fl_value x) in let N := Z.to_nat n in
  (0 < b)%R -> (min_normal f <= ((1 - roundoff f) * b) ^ N)%R -> (((1 + roundoff f) * b) ^ N < beyond f)%R ->
  exists y, st_call v ("EXPT__" ++ X ++ "__DINT") [VFl x; VInt n] = Ok (VFl y) /\
    fl_finite y = true /\ after_roundings f (N - 1) (Rabs (fl_value y)) (b ^ N).
Proof.
  intros v X f x n HX V F R Hn b N B0 L H. exists (EXPT_DINT f x n). split; [now apply expt_dint|].
  exact (expt_accuracy f x n (float_names_fmt _ _ HX) V F Hn B0 L H).
Qed.
Print Assumptions C109_accuracy.
(** A negative exponent: one more rounding, of the reciprocal. *)
Theorem C109_accuracy_negative : forall v X f x n, List.In (X, f) float_names -> fl_valid f x -> fl_finite x = true ->
  in_ity i32 (- n) -> 0 < n ->
  let b := Rabs (fl_value x) in let N := Z.to_nat n in
  (0 < b)%R -> (min_normal f <= ((1 - roundoff f) * b) ^ N)%R -> (((1 + roundoff f) * b) ^ N <= / min_normal f)%R ->
  exists y p, st_call v ("EXPT__" ++ X ++ "__DINT") [VFl x; VInt (- n)] = Ok (VFl y) /\
    fl_finite y = true /\ after_roundings f (N - 1) p (b ^ N) /\ after_roundings f 1 (Rabs (fl_value y)) (/ p).
Proof.
  intros v X f x n HX V F R Hn b N B0 L H.
  destruct (expt_accuracy_negative f x n (float_names_fmt _ _ HX) V F Hn B0 L H) as (A & p & P & Q).
  exists (EXPT_DINT f x (- n)), p. split; [now apply expt_dint|]. exact (conj A (conj P Q)).
Qed.
Print Assumptions C109_accuracy_negative.

(** 3.0 to the power 20 is 3486784401; the REAL result is 3486784256. *)
Example C109_accuracy_example :
  let x := from_bits F32 1077936128 in
  fl_valid F32 x /\ fl_finite x = true /\ in_ity i32 20 /\ in_ity i32 (- 20) /\
  fl_value x = 3%R /\
  (min_normal F32 <= ((1 - roundoff F32) * 3) ^ 20)%R /\ (((1 + roundoff F32) * 3) ^ 20 < beyond F32)%R /\
  (((1 + roundoff F32) * 3) ^ 20 <= / min_normal F32)%R /\
  EXPT_DINT F32 x 20 = from_bits F32 1330631707.
Proof.
  intros x. split; [reflexivity|]. split; [reflexivity|]. split; [split; discriminate|]. split; [split; discriminate|].
  assert (U : roundoff F32 = (/ 16777216)%R) by reflexivity.
  assert (P : (((1 + roundoff F32) * 3) ^ 20 <= bpow radix2 40)%R).
  { apply Rle_trans with (4 ^ 20)%R; [apply pow_incr; rewrite U; lra|].
    change (bpow radix2 40) with 1099511627776%R. rewrite pow_IZR. apply IZR_le. discriminate. }
  split.
  { change x with (FNum (S754_finite false 12582912 (-22))).
    unfold fl_value, sf_value, fl_sf. rewrite value_finite.
    rewrite (bpow_opp radix2 22 : bpow radix2 (-22) = _). change (bpow radix2 22) with (IZR 4194304).
    simpl cond_Zopp. lra. }
  split.
  { apply Rle_trans with (bpow radix2 0); [apply bpow_le; discriminate|].
    change (bpow radix2 0) with 1%R. apply pow_R1_Rle. rewrite U. lra. }
  split; [apply Rle_lt_trans with (1 := P); apply bpow_lt; reflexivity|].
  split; [|vm_compute; reflexivity].
  apply Rle_trans with (1 := P). unfold min_normal. rewrite <- bpow_opp. apply bpow_le. discriminate.
Qed.
(** -2.0, NaN, infinities; 1.5 and 2.5 are ordered, and so are their powers. *)
Example C109_example : forall v,
  st_call v "EXPT__REAL__DINT" [VFl (from_bits F32 3221225472); VInt 3] = Ok (VFl (from_bits F32 3238002688)) /\
  st_call v "EXPT__REAL__DINT" [VFl (FNum (S754_infinity true)); VInt (-3)] = Ok (VFl (FNum (S754_zero true))) /\
  st_call v "EXPT__REAL__DINT" [VFl (FNan false 4194304); VInt 0] = Ok (VFl (fl_one F32)) /\
  (* overflow and underflow *)
  st_call v "EXPT__REAL__DINT" [VFl (from_bits F32 3221225472); VInt 2147483647] = Ok (VFl (FNum (S754_infinity true))) /\
  st_call v "EXPT__REAL__DINT" [VFl (from_bits F32 3221225472); VInt (-2147483648)] = Ok (VFl (FNum (S754_zero false))).
Proof. intros v. repeat split; vm_compute; reflexivity. Qed.
