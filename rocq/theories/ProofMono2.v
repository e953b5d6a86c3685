(** Proofs: conversions preserve the order of numbers, through the exported names. *)
From Coq Require Import String ZArith List Bool Lia Reals Lra SpecFloat.
From Flocq Require Import Core BinarySingleNaN.
From Verif Require Import Base ModelFloat ModelTimeNum ModelST ModelLink ModelLib SpecScalar SpecTimeNum SpecReal SpecST SpecLib SpecLink SpecMono
  ProofBase ProofDate ProofFlocq ProofTimeNum ProofTimeAcc ProofReal ProofReal2 ProofST ProofST2 ProofLib ProofName3 ProofMono
  PropertiesST PropertiesTimeNum.
Import ListNotations.
Open Scope list_scope.
Open Scope string_scope.
Open Scope R_scope.

Lemma nearest_even_mono : forall f x y r s, nearest_even f x r -> nearest_even f y s -> r < s -> fl_value x <= fl_value y.
Proof.
  intros f x y r s (V1 & F1 & N1) (V2 & F2 & N2) L. destruct (Rle_lt_dec (fl_value x) (fl_value y)) as [|G]; [assumption|exfalso].
  destruct (N1 y V2 F2) as [A _]. destruct (N2 x V1 F1) as [B _].
  unfold Rabs in A, B. repeat destruct (Rcase_abs _) in A; repeat destruct (Rcase_abs _) in B; lra.
Qed.
Lemma int_real_mono : forall v X s Y f z z', List.In (X, s) numeric_names -> List.In (Y, f) float_names ->
  in_ity s z -> in_ity s z' -> (z <= z')%Z ->
  exists x x', st_call v (to X Y) [VInt z] = Ok (VFl x) /\ st_call v (to X Y) [VInt z'] = Ok (VFl x') /\ fl_value x <= fl_value x'.
Proof.
  intros v X s Y f z z' HX HY R R' L.
  destruct (C76_int_to_float v X s Y f z HX HY R) as (x & E & N & _). destruct (C76_int_to_float v X s Y f z' HX HY R') as (x' & E' & N' & _).
  exists x, x'. split; [exact E|]. split; [exact E'|]. destruct (Z.eq_dec z z') as [Q|Q].
  - rewrite Q in E. rewrite E in E'. injection E' as <-. apply Rle_refl.
  - apply (nearest_even_mono f x x' (IZR z) (IZR z') N N'). apply IZR_lt. lia.
Qed.
Lemma time_lreal_mono : forall v X z z', List.In X ["TIME"; "LTIME"] -> in_ity i64 z -> in_ity i64 z' -> (z <= z')%Z ->
  exists x x', st_call v (to X "LREAL") [VInt z] = Ok (VFl x) /\ st_call v (to X "LREAL") [VInt z'] = Ok (VFl x') /\ fl_value x <= fl_value x'.
Proof.
  intros v X z z' HX R R' L.
  destruct (C76_time_to_lreal v X z HX R) as (x & E & N & _). destruct (C76_time_to_lreal v X z' HX R') as (x' & E' & N' & _).
  exists x, x'. split; [exact E|]. split; [exact E'|]. destruct (Z.eq_dec z z') as [Q|Q].
  - rewrite Q in E. rewrite E in E'. injection E' as <-. apply Rle_refl.
  - apply (nearest_even_mono F64 x x' (IZR z) (IZR z') N N'). apply IZR_lt. lia.
Qed.
Lemma to_int_mono : forall t (b : bool) k (o : outcome val) (z : Z), o = (if in_ityb t k then Ok (VInt k) else Ub) -> o = Ok (VInt z) -> z = k.
Proof. intros t b k o z -> H. destruct (in_ityb t k); [|discriminate]. now injection H as <-. Qed.
Lemma real_int_mono : forall v X f Y t x x' z z', List.In (X, f) float_names -> List.In (Y, t) numeric_names ->
  fl_valid f x -> fl_finite x = true -> fl_valid f x' -> fl_finite x' = true -> fl_value x <= fl_value x' ->
  st_call v (to X Y) [VFl x] = Ok (VInt z) -> st_call v (to X Y) [VFl x'] = Ok (VInt z') -> (z <= z')%Z.
Proof.
  intros v X f Y t x x' z z' HX HY V F V' F' L E E'.
  destruct (C68_real_to_int v X f Y t x HX HY V F) as (k & K & Q). destruct (C68_real_to_int v X f Y t x' HX HY V' F') as (k' & K' & Q').
  apply (to_int_mono t true k) in E; [|exact Q]. apply (to_int_mono t true k') in E'; [|exact Q']. subst.
  exact (nearest_int_mono k k' _ _ K K' L).
Qed.
Lemma lreal_time_mono : forall v Y x x' z z', List.In Y ["TIME"; "LTIME"] ->
  fl_valid F64 x -> fl_finite x = true -> fl_valid F64 x' -> fl_finite x' = true -> fl_value x <= fl_value x' ->
  st_call v (to "LREAL" Y) [VFl x] = Ok (VInt z) -> st_call v (to "LREAL" Y) [VFl x'] = Ok (VInt z') -> (z <= z')%Z.
Proof.
  intros v Y x x' z z' HY V F V' F' L E E'.
  destruct (C68_lreal_to_time v Y x HY V F) as (k & K & Q). destruct (C68_lreal_to_time v Y x' HY V' F') as (k' & K' & Q').
  apply (to_int_mono i64 true k) in E; [|exact Q]. apply (to_int_mono i64 true k') in E'; [|exact Q']. subst.
  exact (nearest_int_mono k k' _ _ K K' L).
Qed.
Lemma trunc_mono : forall v X f x x' z z', List.In (X, f) float_names ->
  fl_finite x = true -> fl_finite x' = true -> fl_value x <= fl_value x' ->
  st_call v ("TRUNC__" ++ X) [VFl x] = Ok (VInt z) -> st_call v ("TRUNC__" ++ X) [VFl x'] = Ok (VInt z') -> (z <= z')%Z.
Proof.
  intros v X f x x' z z' HX F F' L E E'.
  destruct (C68_trunc v X f x HX F) as (k & K & Q). destruct (C68_trunc v X f x' HX F') as (k' & K' & Q').
  apply (to_int_mono i64 true k) in E; [|exact Q]. apply (to_int_mono i64 true k') in E'; [|exact Q']. subst.
  exact (integer_part_mono k k' _ _ K K' L).
Qed.
Lemma round_mono : forall v X f x x', List.In (X, f) float_names ->
  fl_valid f x -> fl_finite x = true -> fl_valid f x' -> fl_finite x' = true -> fl_value x <= fl_value x' ->
  exists y y', st_call v ("ROUND__" ++ X) [VFl x] = Ok (VFl y) /\ st_call v ("ROUND__" ++ X) [VFl x'] = Ok (VFl y') /\ fl_value y <= fl_value y'.
Proof.
  intros v X f x x' HX V F V' F' L.
  destruct (C68_round v X f x HX V F) as (y & k & E & _ & _ & Q & N). destruct (C68_round v X f x' HX V' F') as (y' & k' & E' & _ & _ & Q' & N').
  exists y, y'. split; [exact E|]. split; [exact E'|]. rewrite Q, Q'. apply IZR_le. exact (nearest_int_mono k k' _ _ N N' L).
Qed.

(** * Between the floating-point formats *)
Lemma not_finite : forall x, is_nan x = false -> fl_finite x = true \/ exists s, x = FNum (S754_infinity s).
Proof. intros [[s|s| |s m e]|s p] H; try discriminate H; [now left|right; now exists s|now left]. Qed.
Lemma real_lreal_mono : forall v x x', fl_valid F32 x -> fl_valid F32 x' -> at_most x x' ->
  exists y y', st_call v "REAL_TO_LREAL" [VFl x] = Ok (VFl y) /\ st_call v "REAL_TO_LREAL" [VFl x'] = Ok (VFl y') /\ at_most y y'.
Proof.
  intros v x x' V V' (N & N' & O). exists (fl_convert F64 x), (fl_convert F64 x').
  split; [now apply real_to_lreal|]. split; [now apply real_to_lreal|].
  assert (NN : forall z, fl_valid F32 z -> is_nan z = false -> is_nan (fl_convert F64 z) = false).
  { intros z Vz Nz. destruct (not_finite z Nz) as [F|[s ->]]; [|reflexivity].
    destruct (widen_exact z Vz F) as (_ & G & _). destruct (fl_convert F64 z) as [[]|]; try discriminate G; reflexivity. }
  split; [now apply NN|]. split; [now apply NN|].
  destruct O as [-> |[-> |(F & F' & L)]]; [now left|right; now left|right; right].
  destruct (widen_exact x V F) as (_ & G & E). destruct (widen_exact x' V' F') as (_ & G' & E').
  rewrite E, E'. auto.
Qed.
Lemma nearest_zero : forall f x, binary_format f -> nearest_even f x 0 -> fl_value x = 0.
Proof.
  intros f x Hf (_ & _ & N). destruct (N (FNum (S754_zero false)) eq_refl eq_refl) as [A _].
  change (fl_value (FNum (S754_zero false))) with 0 in A. rewrite Rminus_0_r, Rminus_0_r, Rabs_R0 in A.
  unfold Rabs in A. destruct (Rcase_abs (fl_value x)); lra.
Qed.
Lemma same_number : forall f x y, binary_format f -> fl_valid f x -> fl_finite x = true -> fl_valid f y -> fl_finite y = true ->
  fl_value x = fl_value y -> fl_value x <> 0 -> x = y.
Proof.
  intros f x y Hf V F V' F' E N. apply (float_unique f); try assumption.
  pose proof (neg_of_value x F N) as A. pose proof (neg_of_value y F' ltac:(now rewrite <- E)) as B. rewrite <- E in B.
  destruct (fl_neg x), (fl_neg y); try reflexivity; exfalso; [assert (X : true = true) by reflexivity; apply A, B in X|
    assert (X : true = true) by reflexivity; apply B, A in X]; discriminate X.
Qed.
Lemma lreal_real_mono : forall v x x', fl_valid F64 x -> fl_valid F64 x' -> at_most x x' ->
  exists y y', st_call v "LREAL_TO_REAL" [VFl x] = Ok (VFl y) /\ st_call v "LREAL_TO_REAL" [VFl x'] = Ok (VFl y') /\ at_most y y'.
Proof.
  intros v x x' V V' (N & N' & O). exists (fl_convert F32 x), (fl_convert F32 x').
  split; [apply lreal_to_real|]. split; [apply lreal_to_real|].
  assert (M : (IZR (2 ^ 128 - 2 ^ 103) > 0)) by (apply IZR_lt; reflexivity).
  assert (NN : forall z, fl_valid F64 z -> is_nan z = false -> is_nan (fl_convert F32 z) = false).
  { intros z Vz Nz. destruct (not_finite z Nz) as [F|[s ->]]; [|reflexivity].
    destruct (narrow_spec z Vz F) as [A B]. destruct (Rlt_or_le (Rabs (fl_value z)) (IZR REAL_OVERFLOW)) as [C|C].
    - destruct (A C) as (_ & G & _). destruct (fl_convert F32 z) as [[]|]; try discriminate G; reflexivity.
    - rewrite (B C). reflexivity. }
  split; [now apply NN|]. split; [now apply NN|].
  destruct O as [-> |[-> |(F & F' & L)]]; [now left|right; now left|].
  change (2 ^ 128 - 2 ^ 103)%Z with REAL_OVERFLOW in M.
  destruct (narrow_spec x V F) as [A B]. destruct (narrow_spec x' V' F') as [A' B'].
  destruct (Rlt_or_le (Rabs (fl_value x)) (IZR REAL_OVERFLOW)) as [C|C], (Rlt_or_le (Rabs (fl_value x')) (IZR REAL_OVERFLOW)) as [C'|C'].
  - specialize (A C). specialize (A' C'). right; right. split; [apply A|]. split; [apply A'|].
    destruct (Rle_lt_or_eq_dec _ _ L) as [S|E]; [exact (nearest_even_mono F32 _ _ _ _ A A' S)|].
    destruct (Req_dec (fl_value x) 0) as [Z|Z].
    + rewrite Z in A. rewrite <- E, Z in A'. rewrite (nearest_zero F32 _ (or_introl eq_refl) A), (nearest_zero F32 _ (or_introl eq_refl) A'). apply Rle_refl.
    + rewrite (same_number F64 x x' (or_intror eq_refl) V F V' F' E Z). apply Rle_refl.
  - right; left. rewrite (B' C'). f_equal. f_equal. assert (0 < fl_value x').
    { unfold Rabs in C, C'. destruct (Rcase_abs (fl_value x)), (Rcase_abs (fl_value x')); lra. }
    pose proof (neg_of_value x' F' ltac:(lra)) as Q. destruct (fl_neg x'); [|reflexivity]. assert (fl_value x' < 0) by now apply Q. lra.
  - left. rewrite (B C). f_equal. f_equal. assert (S : fl_value x < 0).
    { unfold Rabs in C, C'. destruct (Rcase_abs (fl_value x)), (Rcase_abs (fl_value x')); lra. }
    apply (neg_of_value x F); lra.
  - destruct (Rlt_or_le (fl_value x) 0) as [S|S].
    + left. rewrite (B C). f_equal. f_equal. apply (neg_of_value x F); lra.
    + right; left. rewrite (B' C'). f_equal. f_equal. assert (0 < fl_value x').
      { unfold Rabs in C, C'. destruct (Rcase_abs (fl_value x)), (Rcase_abs (fl_value x')); lra. }
      pose proof (neg_of_value x' F' ltac:(lra)) as Q. destruct (fl_neg x'); [|reflexivity]. assert (fl_value x' < 0) by now apply Q. lra.
Qed.

(** * TIME times and divided by REAL and LREAL *)
Lemma product_mono : forall P F X f t t' x x' r r', List.In F products -> List.In (X, f) float_names ->
  of_type S_TIME t -> of_type S_TIME t' -> fl_valid f x -> fl_finite x = true -> fl_valid f x' -> fl_finite x' = true ->
  0 < fl_value x <= fl_value x' -> (t <= t')%Z -> (x = x' \/ (0 <= t)%Z) ->
  SpecLib.result (rust_call P (F ++ "__" ++ X) [VZ t; VF x]) = Int r ->
  SpecLib.result (rust_call P (F ++ "__" ++ X) [VZ t'; VF x']) = Int r' -> (r <= r')%Z.
Proof.
  intros P F X f t t' x x' r r' G I T T' V FX V' FX' L Lt Q.
  assert (BF : binary_format f) by now apply (float_names_fmt X).
  assert (E : forall t x, rust_call P (F ++ "__" ++ X) [VZ t; VF x] =
              obind (MUL_TIME_REAL (p_durgen P) f t x) (fun r => Ok (VZ r, [VZ t; VF x]))).
  { intros. two_reals I; repeat (destruct G as [<-|G]; [reflexivity|]); destruct G. }
  rewrite !E. intros A B.
  destruct (MUL_TIME_REAL (p_durgen P) f t x) as [a| |] eqn:Ea; [|discriminate A|discriminate A].
  destruct (MUL_TIME_REAL (p_durgen P) f t' x') as [b| |] eqn:Eb; [|discriminate B|discriminate B].
  cbn in A, B. injection A as <-. injection B as <-.
  exact (mul_time_mono (p_durgen P) f t t' x x' a b BF T T' V FX V' FX' L Lt Q Ea Eb).
Qed.
Lemma quotient_mono : forall P F X f t t' x x' r r', List.In F quotients -> List.In (X, f) float_names ->
  of_type S_TIME t -> of_type S_TIME t' -> fl_valid f x -> fl_finite x = true -> fl_valid f x' -> fl_finite x' = true ->
  0 < fl_value x' <= fl_value x -> (t <= t')%Z -> (x = x' \/ (0 <= t)%Z) ->
  SpecLib.result (rust_call P (F ++ "__" ++ X) [VZ t; VF x]) = Int r ->
  SpecLib.result (rust_call P (F ++ "__" ++ X) [VZ t'; VF x']) = Int r' -> (r <= r')%Z.
Proof.
  intros P F X f t t' x x' r r' G I T T' V FX V' FX' L Lt Q.
  assert (BF : binary_format f) by now apply (float_names_fmt X).
  assert (E : forall t x, rust_call P (F ++ "__" ++ X) [VZ t; VF x] =
              obind (DIV_TIME_REAL (p_durgen P) f t x) (fun r => Ok (VZ r, [VZ t; VF x]))).
  { intros. two_reals I; repeat (destruct G as [<-|G]; [reflexivity|]); destruct G. }
  rewrite !E. intros A B.
  destruct (DIV_TIME_REAL (p_durgen P) f t x) as [a| |] eqn:Ea; [|discriminate A|discriminate A].
  destruct (DIV_TIME_REAL (p_durgen P) f t' x') as [b| |] eqn:Eb; [|discriminate B|discriminate B].
  cbn in A, B. injection A as <-. injection B as <-.
  exact (div_time_mono (p_durgen P) f t t' x x' a b BF T T' V FX V' FX' L Lt Q Ea Eb).
Qed.
