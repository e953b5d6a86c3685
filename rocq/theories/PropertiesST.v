(** Properties C64-C69, C71, C74-C77: the conversion and arithmetic functions written in ST and
    the float functions they call.  [st_call v name args] is a call of the library function
    [name]; [v] is the chrono generation (only the date functions depend on it). *)
From Coq Require Import ZArith List Bool Lia String SpecFloat Reals Lra.
From Flocq Require Import Core BinarySingleNaN.
From Verif Require Import Base ModelFloat ModelChrono ModelDate ModelTimeNum ModelArith ModelST
  SpecDate SpecScalar SpecTimeNum SpecST SpecReal ProofBase ProofTimeNum ProofTimeAcc ProofReal ProofReal2
  ProofDate ProofST ProofST2.
Import ListNotations.
Open Scope string_scope.
Open Scope Z_scope.

(** ** C64 *)
Theorem C64_conversion_value : forall v X s Y t z,
  In (X, s) int_names -> In (Y, t) int_names -> X <> Y -> in_ity s z ->
  exists r, st_call v (to X Y) [VInt z] = Ok (VInt r) /\ in_ity t r /\
    r mod 2 ^ it_bits t = z mod 2 ^ it_bits t /\ (in_ity t z -> r = z).
Proof. exact int_conv_spec. Qed.
Theorem C64_round_trip : forall v X s Y t z,
  In (X, s) int_names -> In (Y, t) int_names -> X <> Y -> it_bits s <= it_bits t -> in_ity s z ->
  obind (st_call v (to X Y) [VInt z]) (fun r => st_call v (to Y X) [r]) = Ok (VInt z).
Proof. exact int_round_trip. Qed.
Example C64_example : forall v, In ("DINT", i32) int_names /\ In ("UINT", u16) int_names /\
  in_ity i32 (-70000) /\
  st_call v "DINT_TO_UINT" [VInt (-70000)] = Ok (VInt 61072) /\
  st_call v "DINT_TO_UINT" [VInt 60000] = Ok (VInt 60000) /\
  st_call v "SINT_TO_LWORD" [VInt (-1)] = Ok (VInt 18446744073709551615) /\
  st_call v "LWORD_TO_SINT" [VInt 18446744073709551615] = Ok (VInt (-1)).
Proof.
  intros v. split; [simpl; tauto|]. split; [simpl; tauto|]. split; [split; discriminate|].
  repeat split.
Qed.
Print Assumptions C64_conversion_value.
Print Assumptions C64_round_trip.

(** ** C65 *)
Theorem C65_bool_to_int : forall v X s b, In (X, s) int_names ->
  st_call v (to "BOOL" X) [VInt (Z.b2z b)] = Ok (VInt (Z.b2z b)).
Proof. exact bool_to_int. Qed.
Theorem C65_bool_round_trip : forall v X b, In X ["LINT"; "DINT"; "BYTE"; "WORD"; "DWORD"; "LWORD"] ->
  obind (st_call v (to "BOOL" X) [VInt (Z.b2z b)]) (fun r => st_call v (to X "BOOL") [r]) =
  Ok (VInt (Z.b2z b)).
Proof.
  intros v X b H. simpl in H.
  repeat (destruct H as [H|H]; [subst X; destruct b; reflexivity|]). destruct H.
Qed.
Theorem C65_nonzero_test : forall v z,
  (in_ity i64 z -> st_call v "LINT_TO_BOOL" [VInt z] = Ok (VInt (Z.b2z (negb (z =? 0))))) /\
  (in_ity i32 z -> st_call v "DINT_TO_BOOL" [VInt z] = Ok (VInt (Z.b2z (negb (z =? 0))))).
Proof.
  intros v z. split; intros R.
  - rewrite lint_to_bool by exact R. now destruct (z =? 0).
  - rewrite dint_to_bool by exact R. now destruct (z =? 0).
Qed.
Theorem C65_bit_types_on_bits : forall v X s b, In (X, s) bit_names ->
  st_call v (to X "BOOL") [VInt (Z.b2z b)] = Ok (VInt (Z.b2z b)).
Proof.
  intros v X s b H. rewrite (bit_to_bool v X s); [now destruct b|exact H|].
  simpl in H. repeat (destruct H as [H|H]; [injection H as <- <-; destruct b; split; discriminate|]).
  destruct H.
Qed.
Example C65_example : forall v, st_call v "LINT_TO_BOOL" [VInt (-256)] = Ok (VInt 1) /\
  st_call v "DINT_TO_BOOL" [VInt 0] = Ok (VInt 0) /\ st_call v "BOOL_TO_WORD" [VInt 1] = Ok (VInt 1).
Proof. intros v. repeat split. Qed.
Print Assumptions C65_bool_to_int.
Print Assumptions C65_bool_round_trip.
Print Assumptions C65_nonzero_test.
Print Assumptions C65_bit_types_on_bits.

(** ** C66: false, the bit types test only the lowest bit. *)
Theorem C66_bit_type_to_bool_refuted : exists z, forall v X s, In (X, s) bit_names ->
  in_ity s z /\ z <> 0 /\ st_call v (to X "BOOL") [VInt z] = Ok (VInt 0).
Proof.
  exists 2. intros v X s H. simpl in H.
  repeat (destruct H as [H|H]; [injection H as <- <-; repeat split; discriminate|]). destruct H.
Qed.
Theorem C66_lowest_bit_partial : forall v X s z, In (X, s) bit_names -> in_ity s z ->
  st_call v (to X "BOOL") [VInt z] = Ok (VInt (Z.b2z (Z.odd z))).
Proof.
  intros v X s z H R. rewrite (bit_to_bool v X s z H R). now rewrite Zmod_odd; destruct (Z.odd z).
Qed.
Example C66_example : forall v, st_call v "BYTE_TO_BOOL" [VInt 254] = Ok (VInt 0) /\
  st_call v "LWORD_TO_BOOL" [VInt 3] = Ok (VInt 1).
Proof. intros v. repeat split. Qed.
Print Assumptions C66_bit_type_to_bool_refuted.
Print Assumptions C66_lowest_bit_partial.

(** ** C67: false at the smallest value of each type. *)
Theorem C67_abs_refuted : forall v, exists z, in_ity i32 z /\
  st_call v "ABS__DINT" [VInt z] = Ok (VInt z) /\ z < 0.
Proof. intros v. exists (-2147483648). repeat split; discriminate. Qed.
Theorem C67_abs_int_partial : forall v X s z,
  In (X, s) [("SINT", i8); ("INT", i16); ("DINT", i32); ("LINT", i64)] -> in_ity s z ->
  st_call v ("ABS__" ++ X) [VInt z] = Ok (VInt (if z =? imin s then imin s else Z.abs z)).
Proof. exact abs_int. Qed.
Theorem C67_abs_float_partial : forall v X f x, In (X, f) float_names ->
  fl_valid f x -> fl_finite x = true ->
  exists y, st_call v ("ABS__" ++ X) [VFl x] = Ok (VFl y) /\ fl_valid f y /\ fl_finite y = true /\
    fl_value y = Rabs (fl_value x) /\ (fl_value x <> 0%R -> fl_neg y = false).
Proof.
  intros v X f x HX. destruct HX as [HX|[HX|[]]]; injection HX as <- <-;
    [apply abs_real|apply abs_lreal].
Qed.
Example C67_example : forall v, st_call v "ABS__SINT" [VInt (-127)] = Ok (VInt 127) /\
  st_call v "ABS__SINT" [VInt (-128)] = Ok (VInt (-128)) /\
  st_call v "ABS__LINT" [VInt (-5)] = Ok (VInt 5) /\
  (* -3.0 *)
  st_call v "ABS__REAL" [VFl (from_bits F32 3225419776)] = Ok (VFl (from_bits F32 1077936128)) /\
  (* the sign of -0.0 survives *)
  st_call v "ABS__LREAL" [VFl (FNum (S754_zero true))] = Ok (VFl (FNum (S754_zero true))).
Proof. intros v. repeat split; vm_compute; reflexivity. Qed.
Print Assumptions C67_abs_refuted.
Print Assumptions C67_abs_int_partial.
Print Assumptions C67_abs_float_partial.

(** ** C68.  A result outside the target type is undefined (LLVM poison), modelled as [Ub]. *)
Theorem C68_real_to_int : forall v X f Y t x, In (X, f) float_names -> In (Y, t) numeric_names ->
  fl_valid f x -> fl_finite x = true ->
  exists k, nearest_int k (fl_value x) /\
    st_call v (to X Y) [VFl x] = if in_ityb t k then Ok (VInt k) else Ub.
Proof.
  intros v X f Y t x HX HY V F.
  exact (real_to_int v X f (to X Y) t x HX (round_ext X f Y t HX HY) V F).
Qed.
Theorem C68_lreal_to_time : forall v Y x, In Y ["TIME"; "LTIME"] ->
  fl_valid F64 x -> fl_finite x = true ->
  exists k, nearest_int k (fl_value x) /\
    st_call v (to "LREAL" Y) [VFl x] = if in_ityb i64 k then Ok (VInt k) else Ub.
Proof.
  intros v Y x HY V F.
  exact (real_to_int v "LREAL" F64 _ i64 x ltac:(simpl; tauto) (lreal_to_time_ext Y HY) V F).
Qed.
Theorem C68_trunc : forall v X f x, In (X, f) float_names -> fl_finite x = true ->
  exists k, integer_part k (fl_value x) /\
    st_call v ("TRUNC__" ++ X) [VFl x] = if in_ityb i64 k then Ok (VInt k) else Ub.
Proof. exact trunc_call. Qed.
Theorem C68_round : forall v X f x, In (X, f) float_names -> fl_valid f x -> fl_finite x = true ->
  exists y k, st_call v ("ROUND__" ++ X) [VFl x] = Ok (VFl y) /\ fl_valid f y /\
    fl_finite y = true /\ fl_value y = IZR k /\ nearest_int k (fl_value x).
Proof.
  intros v X f x HX V F.
  destruct (round_spec f (float_names_fmt _ _ HX) x V F) as (k & A & B & C & D).
  exists (ROUND f x), k. split; [|exact (conj A (conj B (conj C D)))].
  destruct HX as [HX|[HX|[]]]; injection HX as <- <-; reflexivity.
Qed.
(** The vocabulary determines the result. *)
Theorem C68_nearest_unique : forall a b r, nearest_int a r -> nearest_int b r -> a = b.
Proof. exact nearest_int_unique. Qed.
Example C68_example : forall v,
  let x := from_bits F32 3223322624 (* -2.5 *) in
  fl_valid F32 x /\ fl_finite x = true /\
  st_call v "REAL_TO_INT" [VFl x] = Ok (VInt (-3)) /\
  st_call v "TRUNC__REAL" [VFl x] = Ok (VInt (-2)) /\
  st_call v "REAL_TO_USINT" [VFl x] = Ub /\
  (* the largest LREAL below 0.5 rounds to 0 *)
  st_call v "LREAL_TO_LINT" [VFl (from_bits F64 4602678819172646911)] = Ok (VInt 0).
Proof. intros v x. repeat split; vm_compute; reflexivity. Qed.
Print Assumptions C68_real_to_int.
Print Assumptions C68_lreal_to_time.
Print Assumptions C68_trunc.
Print Assumptions C68_round.
Print Assumptions C68_nearest_unique.

(** ** C69: false, the exponent is narrowed to DINT. *)
Theorem C69_exponent_refuted : forall v, exists x,
  fl_value x = 2%R /\ fl_finite x = true /\ fl_valid F32 x /\
  in_ity u64 (2 ^ 32) /\
  st_call v "EXPT__REAL__ULINT" [VFl x; VInt (2 ^ 32)] =
    st_call v "EXPT__REAL__ULINT" [VFl x; VInt 0] /\
  (* 2.0 to the power 4294967295 is 0.5 *)
  st_call v "EXPT__REAL__UDINT" [VFl x; VInt 4294967295] = Ok (VFl (from_bits F32 1056964608)).
Proof.
  intros v. exists (from_bits F32 1073741824). split; [|repeat split; try discriminate].
  change (from_bits F32 1073741824) with (FNum (S754_finite false 8388608 (-22))).
  unfold fl_value, sf_value, fl_sf. rewrite value_finite.
  rewrite (bpow_opp radix2 22 : bpow radix2 (-22) = _). change (bpow radix2 22) with (IZR 4194304).
  simpl cond_Zopp. lra.
Qed.
Theorem C69_exponent_partial : forall v X f Y t x n, In (X, f) float_names ->
  In (Y, t) [("USINT", u8); ("UINT", u16); ("UDINT", u32); ("ULINT", u64); ("SINT", i8); ("INT", i16); ("LINT", i64)] ->
  in_ity t n ->
  st_call v ("EXPT__" ++ X ++ "__" ++ Y) [VFl x; VInt n] =
  st_call v ("EXPT__" ++ X ++ "__DINT") [VFl x; VInt (wrap i32 n)] /\
  (in_ity i32 n -> st_call v ("EXPT__" ++ X ++ "__" ++ Y) [VFl x; VInt n] =
                   st_call v ("EXPT__" ++ X ++ "__DINT") [VFl x; VInt n]).
Proof.
  intros v X f Y t x n HX HY R.
  rewrite (expt_wrapper v X f Y t x n HX HY R). split.
  - rewrite (expt_dint v X f x (wrap i32 n) HX); [reflexivity|now apply wrap_range].
  - intros S. rewrite (expt_dint v X f x n HX S). now rewrite wrap_id.
Qed.
Example C69_example : forall v,
  (* 3.0 ^ 4 = 81.0 *)
  st_call v "EXPT__LREAL__LINT" [VFl (from_bits F64 4613937818241073152); VInt 4] =
  Ok (VFl (from_bits F64 4635400285215260672)).
Proof. intros v. vm_compute. reflexivity. Qed.
Print Assumptions C69_exponent_refuted.
Print Assumptions C69_exponent_partial.

(** ** C71 *)
Theorem C71_sqrt_nearest : forall v X f x, In (X, f) float_names ->
  fl_valid f x -> fl_finite x = true -> (0 <= fl_value x)%R ->
  exists y, st_call v ("SQRT__" ++ X) [VFl x] = Ok (VFl y) /\
    nearest_even f y (sqrt (fl_value x)).
Proof.
  intros v X f x HX V F P. exists (SQRT f x). split; [now apply sqrt_call|].
  apply sqrt_nearest; auto. now apply (float_names_fmt X).
Qed.
Theorem C71_sqrt_nan : forall v X f x, In (X, f) float_names -> fl_valid f x ->
  exists y, st_call v ("SQRT__" ++ X) [VFl x] = Ok (VFl y) /\
    (is_nan y = true <->
     is_nan x = true \/ x = FNum (S754_infinity true) \/ (fl_finite x = true /\ (fl_value x < 0)%R)).
Proof.
  intros v X f x HX V. exists (SQRT f x). split; [now apply sqrt_call|].
  rewrite (sqrt_nan f (float_names_fmt _ _ HX) x V).
  destruct x as [[[]|[]| |s m e]|s p]; simpl is_nan; simpl fl_neg; simpl fl_sf; simpl fl_finite.
  - split; [discriminate|]. intros [H|[H|[_ H]]]; try discriminate. unfold fl_value in H. simpl in H. lra.
  - split; [discriminate|]. intros [H|[H|[_ H]]]; try discriminate. unfold fl_value in H. simpl in H. lra.
  - split; auto.
  - split; [discriminate|]. intros [H|[H|[H _]]]; discriminate.
  - split; auto.
  - destruct s; simpl.
    + split; auto. intros _. right. right. split; [reflexivity|]. apply value_neg.
    + split; [discriminate|]. intros [H|[H|[_ H]]]; try discriminate.
      pose proof (value_pos m e) as Q. unfold fl_value, sf_value, fl_sf in H. lra.
  - split; auto.
Qed.
Theorem C71_sqrt_monotone : forall v X f x y, In (X, f) float_names ->
  fl_valid f x -> fl_valid f y -> fl_finite x = true -> fl_finite y = true ->
  (0 <= fl_value x <= fl_value y)%R ->
  exists a b, st_call v ("SQRT__" ++ X) [VFl x] = Ok (VFl a) /\
    st_call v ("SQRT__" ++ X) [VFl y] = Ok (VFl b) /\ (fl_value a <= fl_value b)%R.
Proof.
  intros v X f x y HX Vx Vy Fx Fy H. exists (SQRT f x), (SQRT f y).
  split; [now apply sqrt_call|]. split; [now apply sqrt_call|].
  apply sqrt_mono; auto. now apply (float_names_fmt X).
Qed.
Theorem C71_sqrt_exact_on_squares : forall v X f x y, In (X, f) float_names ->
  fl_valid f x -> fl_valid f y -> fl_finite x = true -> fl_finite y = true ->
  fl_value x = (fl_value y * fl_value y)%R ->
  exists a, st_call v ("SQRT__" ++ X) [VFl x] = Ok (VFl a) /\ fl_value a = Rabs (fl_value y).
Proof.
  intros v X f x y HX Vx Vy Fx Fy E. exists (SQRT f x). split; [now apply sqrt_call|].
  assert (Hf := float_names_fmt _ _ HX).
  rewrite (sqrt_value f Hf x Vx Fx) by (rewrite E; apply Rle_0_sqr).
  rewrite E. fold (Rsqr (fl_value y)). rewrite sqrt_Rsqr_abs. apply rnd_id.
  apply Generic_fmt.generic_format_abs. apply value_format. now apply fl_valid_sf.
Qed.
Theorem C71_sqrt_special : forall v X f s, In (X, f) float_names ->
  st_call v ("SQRT__" ++ X) [VFl (FNum (S754_zero s))] = Ok (VFl (FNum (S754_zero s))) /\
  st_call v ("SQRT__" ++ X) [VFl (FNum (S754_infinity false))] = Ok (VFl (FNum (S754_infinity false))).
Proof.
  intros v X f s HX. rewrite !(sqrt_call v X f) by exact HX.
  destruct (sqrt_special f s) as [-> ->]. split; reflexivity.
Qed.
Example C71_example : forall v,
  let x := from_bits F32 1073741824 (* 2.0 *) in
  fl_valid F32 x /\ fl_finite x = true /\
  st_call v "SQRT__REAL" [VFl x] = Ok (VFl (from_bits F32 1068827891)) (* 1.41421354 *) /\
  (* sqrt 6.25 = 2.5 *)
  st_call v "SQRT__LREAL" [VFl (from_bits F64 4618722892845154304)] =
    Ok (VFl (from_bits F64 4612811918334230528)) /\
  st_call v "SQRT__REAL" [VFl (from_bits F32 3212836864)] = Ok (VFl (FNan false 4194304)).
Proof. intros v x. repeat split; vm_compute; reflexivity. Qed.
Print Assumptions C71_sqrt_nearest.
Print Assumptions C71_sqrt_nan.
Print Assumptions C71_sqrt_monotone.
Print Assumptions C71_sqrt_exact_on_squares.
Print Assumptions C71_sqrt_special.

(** ** C74: EXPT with an integer exponent.  [x = M * 2^J]. *)
Theorem C74_expt_exact : forall v X f x n M J, In (X, f) float_names ->
  fl_valid f x -> fl_finite x = true -> fl_value x = (IZR M * bpow radix2 J)%R ->
  in_ity i32 n -> 0 <= n -> Z.abs (M ^ n) <= 2 ^ f_prec f ->
  f_emin f <= J * n -> f_prec f + J * n < f_emax f ->
  exists y, st_call v ("EXPT__" ++ X ++ "__DINT") [VFl x; VInt n] = Ok (VFl y) /\
    fl_valid f y /\ fl_finite y = true /\ fl_value y = (fl_value x ^ Z.to_nat n)%R.
Proof.
  intros v X f x n M J HX V F E R N P L U. exists (EXPT_DINT f x n).
  split; [now apply expt_dint|]. apply (expt_exact f x n M J); auto.
  now apply (float_names_fmt X).
Qed.
Theorem C74_expt_reciprocal : forall v X f x n M, In (X, f) float_names ->
  fl_valid f x -> fl_finite x = true -> fl_value x = IZR M -> M <> 0 ->
  in_ity i32 (- n) -> 0 < n -> Z.abs (M ^ n) <= 2 ^ f_prec f ->
  exists y, st_call v ("EXPT__" ++ X ++ "__DINT") [VFl x; VInt (- n)] = Ok (VFl y) /\
    nearest_even f y (/ (fl_value x ^ Z.to_nat n))%R.
Proof.
  intros v X f x n M HX V F E Z R N P. exists (EXPT_DINT f x (- n)).
  split; [now apply expt_dint|]. apply (expt_recip f x n M); auto.
  now apply (float_names_fmt X).
Qed.
Example C74_example : forall v,
  let x := from_bits F32 1077936128 (* 3.0 *) in
  fl_valid F32 x /\ fl_finite x = true /\ fl_value x = (IZR 3 * bpow radix2 0)%R /\
  Z.abs (3 ^ 15) <= 2 ^ f_prec F32 /\ f_emin F32 <= 0 * 15 /\ f_prec F32 + 0 * 15 < f_emax F32 /\
  (* 14348907.0 *)
  st_call v "EXPT__REAL__DINT" [VFl x; VInt 15] = Ok (VFl (from_bits F32 1264251499)) /\
  (* 3^-2 = 0.11111111 *)
  st_call v "EXPT__REAL__DINT" [VFl x; VInt (-2)] = Ok (VFl (from_bits F32 1038323257)).
Proof.
  intros v x. split; [reflexivity|]. split; [reflexivity|]. split.
  { change x with (FNum (S754_finite false 12582912 (-22))).
    unfold fl_value, sf_value, fl_sf. rewrite value_finite.
    rewrite (bpow_opp radix2 22 : bpow radix2 (-22) = _). change (bpow radix2 22) with (IZR 4194304).
    change (bpow radix2 0) with 1%R. simpl cond_Zopp. lra. }
  repeat split; vm_compute; (discriminate || reflexivity).
Qed.
Print Assumptions C74_expt_exact.
Print Assumptions C74_expt_reciprocal.

(** ** C75: date and time values as integers and as each other *)
Theorem C75_time_to_int : forall v X Y t z, In X time_names ->
  In (Y, t) [("LINT", i64); ("ULINT", u64); ("LWORD", u64)] -> in_ity i64 z ->
  exists r, st_call v (to X Y) [VInt z] = Ok (VInt r) /\ in_ity t r /\
    r mod 2 ^ 64 = z mod 2 ^ 64 /\ (in_ity t z -> r = z).
Proof.
  intros v X Y t z HX HY R. exists (wrap t z). split; [now apply time_to_int|].
  assert (B : it_bits t = 64 /\ 0 < it_bits t).
  { simpl in HY. destruct HY as [H|[H|[H|[]]]]; injection H as <- <-; split; reflexivity. }
  destruct B as [B64 B]. split; [now apply wrap_range|]. split.
  - destruct (wrap_cong t z B) as [k ->]. rewrite B64. apply Z.mod_add. discriminate.
  - intros I. now apply wrap_id.
Qed.
Theorem C75_round_trip : forall v X Y z, In X time_names -> In Y ["ULINT"; "LWORD"] ->
  in_ity i64 z ->
  obind (st_call v (to X Y) [VInt z]) (fun r => st_call v (to Y X) [r]) = Ok (VInt z).
Proof.
  intros v X Y z HX HY R.
  assert (H : In (Y, u64) [("ULINT", u64); ("LWORD", u64)])
    by (destruct HY as [<-|[<-|[]]]; simpl; tauto).
  rewrite (time_to_int v X Y u64 z HX) by (simpl in *; tauto). cbn [obind].
  rewrite (int_to_time v X Y u64 _ HX H) by (now apply wrap_range).
  now rewrite wrap_wrap.
Qed.
Theorem C75_lint_round_trip : forall v X z,
  In X ["TIME"; "LTIME"; "DATE"; "LDATE"; "TOD"; "LTOD"] -> in_ity i64 z ->
  st_call v (to X "LINT") [VInt z] = Ok (VInt z) /\ st_call v (to "LINT" X) [VInt z] = Ok (VInt z).
Proof.
  intros v X z HX R. split; [|now apply lint_to_time].
  rewrite (time_to_int v X "LINT" i64 z); [now rewrite wrap_id| |simpl; tauto|exact R].
  simpl in *. tauto.
Qed.
Theorem C75_long_and_short_types_agree : forall v X Y z,
  In (X, Y) [("TIME", "LTIME"); ("LTIME", "TIME"); ("DT", "LDT"); ("LDT", "DT"); ("TOD", "LTOD"); ("LTOD", "TOD")] ->
  in_ity i64 z -> st_call v (to X Y) [VInt z] = Ok (VInt z).
Proof. exact time_alias. Qed.
(** Whole days and the remainder of the day; aborts when the day starts before the first
    representable value (less than a day from the lower end). *)
Theorem C75_date_and_time_parts : forall v X Y z, In X ["DT"; "LDT"] -> In Y ["TOD"; "LTOD"] ->
  in_ity i64 z ->
  st_call v (to X Y) [VInt z] = Ok (VInt (z mod 86400000000000)) /\
  st_call v (to X "DATE") [VInt z] =
    (if in_ityb i64 (z - z mod 86400000000000) then Ok (VInt (z - z mod 86400000000000)) else Panic).
Proof.
  intros v X Y z HX HY R. destruct (dt_parts v X z HX R) as (A & B & C).
  rewrite A. pose proof (Z.mod_pos_bound z 86400000000000 ltac:(lia)) as M.
  assert (W : wrap i64 (z mod 86400000000000) = z mod 86400000000000).
  { apply wrap_id; [reflexivity|]. split; cbn; lia. }
  split.
  - destruct HY as [<-|[<-|[]]]; rewrite ?B, ?C, dt_to_tod; change DAY with 86400000000000; cbn [obind]; now rewrite W.
  - rewrite dt_to_date. change DAY with 86400000000000.
    replace (z / 86400000000000 * 86400000000000) with (z - z mod 86400000000000)
      by (rewrite Z.mod_eq by lia; lia).
    destruct (in_ityb i64 (z - z mod 86400000000000)) eqn:E; [|reflexivity].
    cbn [obind]. rewrite wrap_id; [reflexivity|reflexivity|]. now apply in_ityb_iff.
Qed.
Example C75_example : forall v, in_ity i64 (-1) /\
  st_call v "DT_TO_LWORD" [VInt (-1)] = Ok (VInt 18446744073709551615) /\
  st_call v "TIME_TO_LINT" [VInt (-1)] = Ok (VInt (-1)) /\
  st_call v "DT_TO_DATE" [VInt (-1)] = Ok (VInt (-86400000000000)) /\
  st_call v "LDT_TO_TOD" [VInt (-1)] = Ok (VInt 86399999999999) /\
  st_call v "DT_TO_DATE" [VInt (-9223372036854775808)] = Panic.
Proof.
  intros v. split; [split; discriminate|].
  destruct (C75_date_and_time_parts v "DT" "TOD" (-1)) as [_ A]; [simpl; tauto..|split; discriminate|].
  destruct (C75_date_and_time_parts v "LDT" "TOD" (-1)) as [B _]; [simpl; tauto..|split; discriminate|].
  destruct (C75_date_and_time_parts v "DT" "TOD" (-9223372036854775808)) as [_ C];
    [simpl; tauto..|split; discriminate|].
  split; [reflexivity|]. split; [reflexivity|]. repeat split; assumption.
Qed.
Print Assumptions C75_time_to_int.
Print Assumptions C75_round_trip.
Print Assumptions C75_lint_round_trip.
Print Assumptions C75_long_and_short_types_agree.
Print Assumptions C75_date_and_time_parts.

(** ** C76: integers (and TIME) to floats *)
Theorem C76_int_to_float : forall v X s Y f z, In (X, s) numeric_names -> In (Y, f) float_names ->
  in_ity s z -> exists x, st_call v (to X Y) [VInt z] = Ok (VFl x) /\
    nearest_even f x (IZR z) /\ (Z.abs z <= 2 ^ f_prec f -> fl_value x = IZR z).
Proof. exact int_to_real_spec. Qed.
Theorem C76_int_float_int : forall v X s Y f z, In (X, s) numeric_names -> In (Y, f) float_names ->
  in_ity s z -> Z.abs z <= 2 ^ f_prec f ->
  obind (st_call v (to X Y) [VInt z]) (fun r => st_call v (to Y X) [r]) = Ok (VInt z).
Proof. exact int_real_int. Qed.
Theorem C76_time_to_lreal : forall v X z, In X ["TIME"; "LTIME"] -> in_ity i64 z ->
  exists x, st_call v (to X "LREAL") [VInt z] = Ok (VFl x) /\ nearest_even F64 x (IZR z) /\
    (Z.abs z <= 2 ^ 53 -> st_call v (to "LREAL" X) [VFl x] = Ok (VInt z)).
Proof.
  intros v X z HX R. exists (FNum (f_of_int F64 z)). split; [now apply time_to_lreal|]. split.
  - apply of_int_nearest; [now right|]. apply (ity_abs i64); [simpl; tauto|exact R].
  - intros H. destruct (of_int_exact F64 (or_intror eq_refl) z H) as (A & B & C).
    destruct (C68_lreal_to_time v X _ HX A B) as (k & K & ->).
    replace k with z.
    + apply in_ityb_iff in R. now rewrite R.
    + apply (nearest_int_unique z k (fl_value (FNum (f_of_int F64 z)))); auto.
      now apply nearest_int_exact.
Qed.
Example C76_example : forall v, In ("DINT", i32) numeric_names /\ In ("REAL", F32) float_names /\
  in_ity i32 16777217 /\
  (* 2^24 + 1 is a tie and rounds to even *)
  st_call v "DINT_TO_REAL" [VInt 16777217] = Ok (VFl (from_bits F32 1266679808)) /\
  st_call v "REAL_TO_DINT" [VFl (from_bits F32 1266679808)] = Ok (VInt 16777216) /\
  Z.abs (-16777215) <= 2 ^ f_prec F32 /\
  (* the largest LINT does not come back: 2^63 is outside the type *)
  obind (st_call v "LINT_TO_LREAL" [VInt 9223372036854775807])
    (fun r => st_call v "LREAL_TO_LINT" [r]) = Ub.
Proof.
  intros v. split; [simpl; tauto|]. split; [simpl; tauto|]. split; [split; discriminate|].
  repeat split; vm_compute; (discriminate || reflexivity).
Qed.
Print Assumptions C76_int_to_float.
Print Assumptions C76_int_float_int.
Print Assumptions C76_time_to_lreal.

(** ** C77: REAL and LREAL *)
Theorem C77_real_to_lreal : forall v x, fl_valid F32 x -> fl_finite x = true ->
  exists y, st_call v "REAL_TO_LREAL" [VFl x] = Ok (VFl y) /\ fl_valid F64 y /\
    fl_finite y = true /\ fl_value y = fl_value x.
Proof.
  intros v x V F. exists (fl_convert F64 x). split; [now apply real_to_lreal|now apply widen_exact].
Qed.
(** Nearest REAL below 2^128 - 2^103 (half-way between the largest REAL and 2^128), infinity
    from there on. *)
Theorem C77_lreal_to_real : forall v x, fl_valid F64 x -> fl_finite x = true ->
  exists y, st_call v "LREAL_TO_REAL" [VFl x] = Ok (VFl y) /\
    ((Rabs (fl_value x) < IZR (2 ^ 128 - 2 ^ 103))%R -> nearest_even F32 y (fl_value x)) /\
    ((IZR (2 ^ 128 - 2 ^ 103) <= Rabs (fl_value x))%R -> y = FNum (S754_infinity (fl_neg x))).
Proof.
  intros v x V F. exists (fl_convert F32 x). split; [apply lreal_to_real|].
  exact (narrow_spec x V F).
Qed.
Theorem C77_round_trip : forall v x, fl_valid F32 x -> is_nan x = false ->
  obind (st_call v "REAL_TO_LREAL" [VFl x]) (fun r => st_call v "LREAL_TO_REAL" [r]) = Ok (VFl x).
Proof.
  intros v x V N. rewrite real_to_lreal by exact V. cbn [obind]. rewrite lreal_to_real.
  now rewrite widen_narrow.
Qed.
(** NaN becomes a quiet NaN with the same sign. *)
Theorem C77_nan : forall v X Y f g x, In (X, f, Y, g) [("REAL", F32, "LREAL", F64); ("LREAL", F64, "REAL", F32)] ->
  fl_valid f x -> is_nan x = true ->
  exists y, st_call v (to X Y) [VFl x] = Ok (VFl y) /\ fl_valid g y /\ is_nan y = true /\ fl_neg y = fl_neg x /\
    Z.testbit (to_bits g y) (f_mw g - 1) = true.
Proof.
  intros v X Y f g x I V N. destruct x as [[s|s| |s m e]|s p]; try discriminate; try contradiction.
  destruct I as [I|[I|[]]]; injection I as <- <- <- <-.
  - eexists. split; [exact (real_to_lreal v _ V)|]. destruct s; repeat split; vm_compute; reflexivity.
  - eexists. split; [exact (lreal_to_real v _)|]. destruct s; repeat split; vm_compute; reflexivity.
Qed.
Print Assumptions C77_nan.
Example C77_nan_example : forall v, fl_valid F32 (FNan true 1) /\ is_nan (FNan true 1) = true /\
  st_call v "REAL_TO_LREAL" [VFl (FNan true 1)] = Ok (VFl (FNan true (2 ^ 51))).
Proof. intros v. repeat split; vm_compute; reflexivity. Qed.
Example C77_example : forall v,
  let x := from_bits F32 1 (* smallest subnormal *) in
  fl_valid F32 x /\ fl_finite x = true /\ is_nan x = false /\
  st_call v "REAL_TO_LREAL" [VFl x] = Ok (VFl (from_bits F64 3936146074321813504)) /\
  (* 0.1 *)
  st_call v "LREAL_TO_REAL" [VFl (from_bits F64 4591870180066957722)] = Ok (VFl (from_bits F32 1036831949)) /\
  (* 1e300 *)
  st_call v "LREAL_TO_REAL" [VFl (from_bits F64 9095660309132218269)] = Ok (VFl (FNum (S754_infinity false))).
Proof. intros v x. repeat split; vm_compute; reflexivity. Qed.
Print Assumptions C77_real_to_lreal.
Print Assumptions C77_lreal_to_real.
Print Assumptions C77_round_trip.
