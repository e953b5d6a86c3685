(** Properties C36-C39: TIME multiplied or divided by a number.
    [g] ranges over the generations of [Duration::from_secs_fN], see [ModelTimeNum.durgen]. *)
From Coq Require Import ZArith List Bool Lia SpecFloat Reals Lra.
From Verif Require Import Base ModelFloat ModelTimeNum SpecScalar SpecTimeNum SpecReal SpecTicks
  ProofBase ProofTimeNum ProofTimeAcc ProofNeutral ProofTimeExact.
Import ListNotations.
Open Scope Z_scope.

(** ** C36 *)
Theorem C36_mul_exact_or_abort : forall t k,
  MUL_TIME_SIGNED t k = if in_ityb i64 (t * k) then Ok (t * k) else Panic.
Proof. exact mul_signed_lemma. Qed.
Theorem C36_div_truncates : forall t k, in_ity i64 t ->
  (k = 0 \/ (t = imin i64 /\ k = -1) -> DIV_TIME_SIGNED t k = Panic) /\
  (k <> 0 -> ~ (t = imin i64 /\ k = -1) ->
   exists q r, DIV_TIME_SIGNED t k = Ok q /\ t = q * k + r /\ Z.abs r < Z.abs k /\
     (r = 0 \/ Z.sgn r = Z.sgn t)).
Proof.
  intros t k H. destruct (div_signed_lemma t k H) as [P Q]. split; [exact P|].
  intros K N. destruct (quot_law t k K) as (r & R). exists (Z.quot t k), r.
  split; [now apply Q|exact R].
Qed.
Theorem C36_div_inverts_mul : forall t k r, in_ity i64 t -> k <> 0 ->
  MUL_TIME_SIGNED t k = Ok r -> ~ (r = imin i64 /\ k = -1) -> DIV_TIME_SIGNED r k = Ok t.
Proof.
  intros t k r H K E N. rewrite mul_signed_lemma in E.
  destruct (in_ityb i64 (t * k)) eqn:B; [|discriminate]. injection E as <-.
  rewrite in_ityb_iff in B. destruct (div_signed_lemma (t * k) k B) as [_ Q].
  rewrite Q by assumption. f_equal. now apply Z.quot_mul.
Qed.
Example C36_example : in_ity i64 (-7) /\ MUL_TIME_SIGNED (-7) 2 = Ok (-14) /\
  DIV_TIME_SIGNED (-7) 2 = Ok (-3) /\ DIV_TIME_SIGNED 7 0 = Panic /\
  DIV_TIME_SIGNED (-9223372036854775808) (-1) = Panic /\
  MUL_TIME_SIGNED 4611686018427387904 2 = Panic /\
  MUL_TIME_SIGNED (-4611686018427387904) 2 = Ok (-9223372036854775808).
Proof. repeat split; discriminate. Qed.
Print Assumptions C36_mul_exact_or_abort.
Print Assumptions C36_div_truncates.
Print Assumptions C36_div_inverts_mul.

(** ** C37: false for factors of 2^63 and more, which always abort. *)
Theorem C37_unsigned_refuted : exists k, in_ity u64 k /\ k <> 0 /\
  in_ity i64 (0 * k) /\ MUL_TIME_UNSIGNED 0 k = Panic /\
  in_ity i64 (-1 * k) /\ MUL_TIME_UNSIGNED (-1) k = Panic /\
  in_ity i64 (Z.quot 5 k) /\ DIV_TIME_UNSIGNED 5 k = Panic.
Proof. exists 9223372036854775808. vm_compute. repeat split; discriminate. Qed.
Theorem C37_unsigned_exact_partial : forall t k, in_ity i64 t -> in_ity u64 k ->
  MUL_TIME_UNSIGNED t k =
    (if (k <? 2 ^ 63) && in_ityb i64 (t * k) then Ok (t * k) else Panic) /\
  DIV_TIME_UNSIGNED t k =
    (if (0 <? k) && (k <? 2 ^ 63) then Ok (Z.quot t k) else Panic).
Proof.
  intros t k T [K _]. change (imin u64) with 0 in K.
  split; [now apply mul_unsigned_lemma|now apply div_unsigned_lemma].
Qed.
Theorem C37_narrow_factor_partial : forall u t k, In u [u8; u16; u32] ->
  in_ity i64 t -> in_ity u k ->
  (in_ity i64 (t * k) -> MUL_TIME_UNSIGNED t k = Ok (t * k)) /\
  (~ in_ity i64 (t * k) -> MUL_TIME_UNSIGNED t k = Panic) /\
  (k <> 0 -> DIV_TIME_UNSIGNED t k = Ok (Z.quot t k)) /\
  (k = 0 -> DIV_TIME_UNSIGNED t k = Panic).
Proof.
  intros u t k U T K.
  assert (B : 0 <= k < 2 ^ 63).
  { destruct U as [<-|[<-|[<-|[]]]]; unfold in_ity in K; cbn in K; lia. }
  destruct (C37_unsigned_exact_partial t k T) as [M D].
  { unfold in_ity. cbn. lia. }
  rewrite M, D. destruct (Z.ltb_spec k (2 ^ 63)); [|lia]. cbn [andb]. rewrite andb_true_r.
  rewrite <- in_ityb_iff. destruct (in_ityb i64 (t * k)), (Z.ltb_spec 0 k);
    repeat split; intros; try reflexivity; try congruence; try lia.
Qed.
Example C37_example : In u32 [u8; u16; u32] /\ in_ity u32 4294967295 /\
  MUL_TIME_UNSIGNED (-3) 4294967295 = Ok (-12884901885) /\
  DIV_TIME_UNSIGNED (-3) 2 = Ok (-1) /\ DIV_TIME_UNSIGNED 3 0 = Panic.
Proof. vm_compute. repeat split; try discriminate. tauto. Qed.
Print Assumptions C37_unsigned_refuted.
Print Assumptions C37_unsigned_exact_partial.
Print Assumptions C37_narrow_factor_partial.

(** ** C38 *)
Theorem C38_sign_symmetry : forall g f t x, binary_format f ->
  MUL_TIME_REAL g f (- t) x = omap Z.opp (MUL_TIME_REAL g f t x) /\
  MUL_TIME_REAL g f t (fl_opp x) = omap Z.opp (MUL_TIME_REAL g f t x) /\
  DIV_TIME_REAL g f (- t) x = omap Z.opp (DIV_TIME_REAL g f t x) /\
  DIV_TIME_REAL g f t (fl_opp x) = omap Z.opp (DIV_TIME_REAL g f t x).
Proof.
  intros g f t x Hf. repeat split.
  - apply tf_opp_t. rewrite (mul_zero g f x Hf : time_float _ _ _ _ _ = _).
    destruct (_ || _); tauto.
  - apply tf_opp_x. apply mul_op_nan.
  - apply tf_opp_t. rewrite (div_zero g f x Hf : time_float _ _ _ _ _ = _).
    destruct (_ || _); tauto.
  - apply tf_opp_x. apply div_op_nan.
Qed.
Theorem C38_result_sign : forall g f t x r,
  MUL_TIME_REAL g f t x = Ok r \/ DIV_TIME_REAL g f t x = Ok r ->
  in_ity i64 r /\ r <> imin i64 /\ (if xorb (t <? 0) (fl_neg x) then r <= 0 else 0 <= r).
Proof. intros g f t x r [H|H]; eapply tf_sign; exact H. Qed.
Theorem C38_zero_time : forall g f x, binary_format f ->
  MUL_TIME_REAL g f 0 x = (if is_nan x || is_infinite x then Panic else Ok 0) /\
  DIV_TIME_REAL g f 0 x = (if is_nan x || SFeqb (fl_sf x) (S754_zero false) then Panic else Ok 0).
Proof. intros. split; [now apply mul_zero|now apply div_zero]. Qed.
Theorem C38_aborts : forall g f t x,
  (is_nan x = true -> MUL_TIME_REAL g f t x = Panic /\ DIV_TIME_REAL g f t x = Panic) /\
  (is_infinite x = true -> MUL_TIME_REAL g f t x = Panic) /\
  (forall s, DIV_TIME_REAL g f t (FNum (S754_zero s)) = Panic).
Proof.
  intros g f t x. split; [|split].
  - intros N. split; apply tf_nan; auto using mul_op_nan, div_op_nan.
  - intros I. destruct x as [[s|s| |s m e]|]; try discriminate. apply mul_inf.
  - intros s. apply div_by_zero.
Qed.
Theorem C38_divide_by_infinity : forall g f t s, binary_format f -> in_ity i64 t ->
  DIV_TIME_REAL g f t (FNum (S754_infinity s)) = Ok 0.
Proof. exact div_by_inf. Qed.
(** -2.5 as LREAL, 1.5 as REAL, from their bit patterns. *)
Example C38_example : binary_format F32 /\ in_ity i64 (-1500) /\
  MUL_TIME_REAL DurRound F64 (-1500) (from_bits F64 13836183955150569472) = Ok 3750 /\
  MUL_TIME_REAL DurRound F64 1500 (from_bits F64 13836183955150569472) = Ok (-3750) /\
  DIV_TIME_REAL DurRound F32 (-3000000000) (from_bits F32 1069547520) = Ok (-2000000000) /\
  MUL_TIME_REAL DurTrunc F32 5 (from_bits F32 2143289344) = Panic.
Proof. split; [now left|]. split; [split; discriminate|]. vm_compute. repeat split. Qed.
Print Assumptions C38_sign_symmetry.
Print Assumptions C38_result_sign.
Print Assumptions C38_zero_time.
Print Assumptions C38_aborts.
Print Assumptions C38_divide_by_infinity.

(** ** C39: false in both precisions; large values even abort. *)
Theorem C39_neutral_factor_refuted : forall g,
  MUL_TIME_REAL g F32 1000000001 (fl_one F32) = Ok 1000000000 /\
  DIV_TIME_REAL g F32 1000000001 (fl_one F32) = Ok 1000000000 /\
  MUL_TIME_REAL g F64 9000000000000000001 (fl_one F64) = Ok 9000000000000000000 /\
  DIV_TIME_REAL g F64 9000000000000000001 (fl_one F64) = Ok 9000000000000000000 /\
  MUL_TIME_REAL g F64 9223372036854775807 (fl_one F64) = Panic /\
  DIV_TIME_REAL g F64 9223372036854775807 (fl_one F64) = Panic.
Proof. intros []; vm_compute; repeat split. Qed.
Print Assumptions C39_neutral_factor_refuted.
(** With the current [Duration] it is true up to 2^23 s (97 days) for LREAL and up to 2^-6 s
    (15.625 ms) for REAL, and these limits are sharp. *)
Theorem C39_neutral_factor_partial : forall t f,
  (f = F64 /\ Z.abs t <= 8388608000000000) \/ (f = F32 /\ Z.abs t <= 15625000) ->
  MUL_TIME_REAL DurRound f t (fl_one f) = Ok t /\ DIV_TIME_REAL DurRound f t (fl_one f) = Ok t.
Proof.
  intros t f [[-> H]|[-> H]]; apply neutral_sharp; try exact H; [now right|now left].
Qed.
Theorem C39_limits_refuted :
  MUL_TIME_REAL DurRound F64 8388608000000001 (fl_one F64) = Ok 8388608000000002 /\
  DIV_TIME_REAL DurRound F64 8388608000000001 (fl_one F64) = Ok 8388608000000002 /\
  MUL_TIME_REAL DurRound F32 15625001 (fl_one F32) = Ok 15625002 /\
  DIV_TIME_REAL DurRound F32 15625001 (fl_one F32) = Ok 15625002.
Proof. vm_compute. repeat split. Qed.
(** With the older ones it already fails for the smallest times. *)
Theorem C39_older_std_refuted :
  MUL_TIME_REAL DurTrunc F32 1 (fl_one F32) = Ok 0 /\
  MUL_TIME_REAL DurTrunc F64 3 (fl_one F64) = Ok 2 /\
  DIV_TIME_REAL DurTrunc F64 3 (fl_one F64) = Ok 2 /\
  MUL_TIME_REAL DurMul F32 15 (fl_one F32) = Ok 14 /\
  MUL_TIME_REAL DurMul F64 15 (fl_one F64) = Ok 14.
Proof. vm_compute. repeat split. Qed.
Example C39_example : Z.abs (-8388607999999999) <= 8388608000000000 /\
  MUL_TIME_REAL DurRound F64 (-8388607999999999) (fl_one F64) = Ok (-8388607999999999).
Proof. split; [discriminate|reflexivity]. Qed.
Print Assumptions C39_neutral_factor_partial.
Print Assumptions C39_limits_refuted.
Print Assumptions C39_older_std_refuted.

(** ** C73 *)
Open Scope R_scope.
Theorem C73_mul_accuracy : forall g f t x, binary_format f -> in_ity i64 t ->
  fl_valid f x -> fl_finite x = true ->
  let y := IZR t * fl_value x in
  (forall r, MUL_TIME_REAL g f t x = Ok r -> Rabs (IZR r - y) <= time_error g f y) /\
  (Rabs y + time_error g f y <= 9223372036854775807 -> exists r, MUL_TIME_REAL g f t x = Ok r).
Proof. exact mul_accuracy. Qed.
Theorem C73_div_accuracy : forall g f t x, binary_format f -> in_ity i64 t ->
  fl_valid f x -> fl_finite x = true -> fl_value x <> 0 ->
  let y := IZR t / fl_value x in
  (forall r, DIV_TIME_REAL g f t x = Ok r -> Rabs (IZR r - y) <= time_error g f y) /\
  (Rabs y + time_error g f y <= 9223372036854775807 -> exists r, DIV_TIME_REAL g f t x = Ok r).
Proof. exact div_accuracy. Qed.
Example C73_example : fl_valid F64 (fl_one F64) /\ fl_finite (fl_one F64) = true /\
  fl_value (fl_one F64) <> 0 /\ fl_valid F32 (from_bits F32 1069547520) /\
  fl_finite (from_bits F32 1069547520) = true.
Proof.
  destruct (one_value F64 (or_intror eq_refl)) as (A & B & C).
  split; [exact A|]. split; [exact B|]. split; [rewrite C; lra|]. split; reflexivity.
Qed.
Print Assumptions C73_mul_accuracy.
Print Assumptions C73_div_accuracy.
(** Nothing is rounded between whole numbers of 1/512 s ([unrounded], SpecTicks.v). *)
Theorem C73_exact : forall g f a b x, binary_format f -> in_ity i64 a -> in_ity i64 b -> fl_valid f x -> fl_finite x = true -> unrounded g f a b ->
  (IZR b = IZR a * fl_value x -> MUL_TIME_REAL g f a x = Ok b) /\
  (fl_value x <> 0 -> IZR b = IZR a / fl_value x -> DIV_TIME_REAL g f a x = Ok b).
Proof. exact time_exact. Qed.
(** A result too large for a TIME aborts. *)
Theorem C73_overflow : forall g f a x, binary_format f -> in_ity i64 a -> fl_valid f x -> fl_finite x = true ->
  (9223372036854775808 + time_error g f (IZR a * fl_value x) < Rabs (IZR a * fl_value x) -> MUL_TIME_REAL g f a x = Panic) /\
  (fl_value x <> 0 -> 9223372036854775808 + time_error g f (IZR a / fl_value x) < Rabs (IZR a / fl_value x) -> DIV_TIME_REAL g f a x = Panic).
Proof. exact time_overflow. Qed.
(** A limit on 1/512 s: with REAL, 9/512 s times 1.0 is not the same duration. *)
Example C73_exact_limit : exists a x, fl_valid F32 x /\ fl_finite x = true /\ fl_value x = 1 /\ ticks F32 a /\ in_ity i64 a /\ MUL_TIME_REAL DurRound F32 a x <> Ok a.
Proof.
  exists (9 * 1953125)%Z, (fl_one F32). destruct (one_value F32 (or_introl eq_refl)) as (A & B & C).
  split; [exact A|]. split; [exact B|]. split; [exact C|]. split; [exists 9%Z; split; [reflexivity|discriminate]|]. split; [split; discriminate|vm_compute; discriminate].
Qed.
(** 1.5 s times 1.5 (REAL) is 2.25 s. *)
Example C73_exact_example : forall g, unrounded g F32 1500000000 2250000000 \/ g = DurMul.
Proof. intros []; [left..|now right]; (split; [exists 768%Z; split; [reflexivity|discriminate]|]; split; [reflexivity|]; split; [exists 1152%Z; split; [reflexivity|discriminate]|discriminate]). Qed.
Example C73_exact_run : MUL_TIME_REAL DurRound F32 1500000000 (from_bits F32 1069547520) = Ok 2250000000%Z.
Proof. vm_compute. reflexivity. Qed.
Print Assumptions C73_exact.
Print Assumptions C73_overflow.
