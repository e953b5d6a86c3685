(** Lemmas about TIME times/divided by a number. *)
From Coq Require Import ZArith Bool Lia SpecFloat.
From Verif Require Import Base ModelFloat ModelTimeNum SpecTimeNum ProofBase ProofDate.
Open Scope Z_scope.

Lemma mul_signed_lemma : forall t k, MUL_TIME_SIGNED t k =
  if in_ityb i64 (t * k) then Ok (t * k) else Panic.
Proof.
  intros. unfold MUL_TIME_SIGNED, checked. now destruct (in_ityb i64 (t * k)).
Qed.

Lemma quot_range : forall t k, in_ity i64 t -> k <> 0 ->
  ~ (t = imin i64 /\ k = -1) -> in_ity i64 (Z.quot t k).
Proof.
  intros t k H K N. rewrite i64_range in *. change (imin i64) with (-9223372036854775808) in N.
  destruct (Z.eq_dec k (-1)) as [->|K1].
  { change (-1) with (- (1)). rewrite Z.quot_opp_r, Z.quot_1_r by discriminate. lia. }
  assert (A : Z.abs (Z.quot t k) <= Z.abs t).
  { rewrite <- Z.quot_abs by exact K. rewrite <- (Z.quot_1_r (Z.abs t)) at 2.
    apply Z.quot_le_compat_l; lia. }
  destruct (Z.eq_dec k 1) as [->|K2]; [rewrite Z.quot_1_r; lia|].
  assert (B : t < 0 -> Z.abs (Z.quot t k) <= Z.abs t - 1).
  { intros T. rewrite <- Z.quot_abs by exact K.
    assert (Z.quot (Z.abs t) (Z.abs k) < Z.abs t); [|lia].
    apply Z.quot_lt; lia. }
  lia.
Qed.

Lemma div_signed_lemma : forall t k, in_ity i64 t ->
  (k = 0 \/ (t = imin i64 /\ k = -1) -> DIV_TIME_SIGNED t k = Panic) /\
  (k <> 0 -> ~ (t = imin i64 /\ k = -1) -> DIV_TIME_SIGNED t k = Ok (Z.quot t k)).
Proof.
  intros t k H. unfold DIV_TIME_SIGNED, checked_div_i64, checked. split.
  - intros [->|[-> ->]]; reflexivity.
  - intros K N. destruct (Z.eqb_spec k 0); [contradiction|].
    pose proof (quot_range t k H K N) as R. rewrite <- in_ityb_iff in R. now rewrite R.
Qed.

Lemma quot_law : forall t k, k <> 0 ->
  exists r, t = Z.quot t k * k + r /\ Z.abs r < Z.abs k /\ (r = 0 \/ Z.sgn r = Z.sgn t).
Proof.
  intros t k K. exists (Z.rem t k). split; [pose proof (Z.quot_rem t k K); lia|].
  split; [now apply Z.rem_bound_abs|].
  destruct (Z.eq_dec (Z.rem t k) 0); [now left|right]. now apply Z.rem_sign_nz.
Qed.

Lemma mul_unsigned_lemma : forall t k, 0 <= k -> MUL_TIME_UNSIGNED t k =
  if (k <? 2 ^ 63) && in_ityb i64 (t * k) then Ok (t * k) else Panic.
Proof.
  intros t k K. unfold MUL_TIME_UNSIGNED, checked, in_ityb at 1.
  change (imin i64) with (-9223372036854775808). change (imax i64) with 9223372036854775807.
  destruct (Z.leb_spec (-9223372036854775808) k); [|lia].
  destruct (Z.leb_spec k 9223372036854775807); destruct (Z.ltb_spec k (2 ^ 63)); try lia;
    cbn [andb unwrap obind]; [|reflexivity].
  now destruct (in_ityb i64 (t * k)).
Qed.

Lemma div_unsigned_lemma : forall t k, in_ity i64 t -> 0 <= k -> DIV_TIME_UNSIGNED t k =
  if (0 <? k) && (k <? 2 ^ 63) then Ok (Z.quot t k) else Panic.
Proof.
  intros t k T K. unfold DIV_TIME_UNSIGNED, checked at 1, in_ityb at 1.
  change (imin i64) with (-9223372036854775808). change (imax i64) with 9223372036854775807.
  destruct (Z.leb_spec (-9223372036854775808) k); [|lia].
  destruct (Z.leb_spec k 9223372036854775807); destruct (Z.ltb_spec k (2 ^ 63)); try lia;
    cbn [andb unwrap obind].
  - destruct (div_signed_lemma t k T) as [P Q]. unfold DIV_TIME_SIGNED in *.
    destruct (Z.ltb_spec 0 k); cbn [andb]; [apply Q; lia|apply P; lia].
  - now rewrite andb_false_r.
Qed.

(** ** Floating-point factors *)
Lemma scale_trunc_nonneg : forall m e, 0 <= m -> 0 <= scale_trunc m e.
Proof.
  intros m e M. unfold scale_trunc. destruct (Z.leb_spec 0 e).
  - apply Z.mul_nonneg_nonneg; lia.
  - apply Z.div_pos; [lia|]. apply Z.pow_pos_nonneg; lia.
Qed.

Lemma scale_round_nonneg : forall m e, 0 <= m -> 0 <= scale_round m e.
Proof.
  intros m e M. unfold scale_round. destruct (Z.leb_spec 0 e).
  - apply Z.mul_nonneg_nonneg; lia.
  - assert (0 <= m / 2 ^ (- e)) by (apply Z.div_pos; [lia|]; apply Z.pow_pos_nonneg; lia).
    destruct (_ <? _); [lia|]. destruct (_ <? _); [lia|]. destruct (Z.even _); lia.
Qed.

Lemma from_secs_nonneg : forall g f x r, from_secs_f g f x = Ok r -> 0 <= r.
Proof.
  intros g f x r. unfold from_secs_f. destruct x as [s|s| |s m e]; try discriminate.
  - intros E. injection E as <-. lia.
  - destruct s; [discriminate|]. unfold NANOS_PER_SEC. destruct g.
    + destruct (_ <? _); [|discriminate]. intros E. injection E as <-. now apply scale_round_nonneg.
    + destruct (_ <? _); [|discriminate]. intros E. injection E as <-. now apply scale_trunc_nonneg.
    + destruct (SFmul _ _ _ _) as [s'|s'| |s' m' e']; try discriminate.
      * intros E. injection E as <-. lia.
      * destruct s'; [discriminate|]. destruct (SFltb _ _); [|discriminate].
        intros E. injection E as <-. now apply scale_trunc_nonneg.
Qed.

Lemma from_secs_bad : forall g f x,
  (forall s, x <> S754_zero s) -> (forall m e, x <> S754_finite false m e) ->
  from_secs_f g f x = Panic.
Proof.
  intros g f x Z F. destruct x as [s|s| |[] m e]; try reflexivity.
  - now elim (Z s).
  - now elim (F m e).
Qed.

Lemma as_secs_zero : forall f, f = F32 \/ f = F64 -> as_secs_f f 0 = S754_zero false.
Proof. intros f [-> | ->]; reflexivity. Qed.

Lemma fl_abs_opp : forall x, fl_abs (fl_opp x) = fl_abs x.
Proof. now intros [[]|]. Qed.
Lemma fl_neg_opp : forall x, is_nan x = false -> fl_neg (fl_opp x) = negb (fl_neg x).
Proof. intros [[]|] H; try reflexivity; discriminate. Qed.

Section TimeFloat.
Variable op : spec_float -> spec_float -> spec_float.
Hypothesis op_nan : forall x, op x S754_nan = S754_nan.
Variable g : durgen.

Lemma tf_nan : forall f t x, is_nan x = true -> time_float op g f t x = Panic.
Proof.
  intros f t x N. unfold time_float.
  assert (E : fl_sf (fl_abs x) = S754_nan) by (destruct x as [[]|]; try discriminate; reflexivity).
  now rewrite E, op_nan.
Qed.

Lemma tf_opp_x : forall f t x,
  time_float op g f t (fl_opp x) = omap Z.opp (time_float op g f t x).
Proof.
  intros f t x. destruct (is_nan x) eqn:N.
  - rewrite !tf_nan; [reflexivity|exact N|]. now destruct x as [[]|].
  - unfold time_float. rewrite fl_abs_opp, fl_neg_opp by exact N.
    destruct (from_secs_f _ _ _); try reflexivity. cbn [obind].
    destruct (checked i64 a); [|reflexivity]. cbn [unwrap obind omap].
    destruct (t <? 0), (fl_neg x); cbn [xorb negb]; f_equal; lia.
Qed.

Lemma tf_opp_t : forall f t x,
  (time_float op g f 0 x = Ok 0 \/ time_float op g f 0 x = Panic) ->
  time_float op g f (- t) x = omap Z.opp (time_float op g f t x).
Proof.
  intros f t x Z0. destruct (Z.eq_dec t 0) as [->|T].
  - change (- 0) with 0. destruct Z0 as [-> | ->]; reflexivity.
  - unfold time_float. rewrite Z.abs_opp.
    destruct (from_secs_f _ _ _); try reflexivity. cbn [obind].
    destruct (checked i64 a); [|reflexivity]. cbn [unwrap obind omap].
    destruct (Z.ltb_spec (- t) 0), (Z.ltb_spec t 0), (fl_neg x); cbn [xorb negb]; try lia;
      f_equal; lia.
Qed.

Lemma tf_sign : forall f t x r, time_float op g f t x = Ok r ->
  in_ity i64 r /\ r <> imin i64 /\
  (if xorb (t <? 0) (fl_neg x) then r <= 0 else 0 <= r).
Proof.
  intros f t x r. unfold time_float.
  destruct (from_secs_f g f _) as [n| |] eqn:E; try discriminate. cbn [obind].
  apply from_secs_nonneg in E.
  destruct (checked_spec i64 n) as [[B ->]|[_ ->]]; [|discriminate]. cbn [unwrap obind].
  intros R. injection R as <-. rewrite !i64_range in *. change (imin i64) with (-9223372036854775808).
  destruct (xorb _ _); lia.
Qed.
End TimeFloat.

Lemma mul_op_nan : forall f x, (fun secs rhs => SFmul (f_prec f) (f_emax f) rhs secs) x S754_nan = S754_nan.
Proof. reflexivity. Qed.
Lemma div_op_nan : forall f x, (fun secs rhs => SFdiv (f_prec f) (f_emax f) secs rhs) x S754_nan = S754_nan.
Proof. now intros f []. Qed.

Lemma mul_zero : forall g f x, f = F32 \/ f = F64 ->
  MUL_TIME_REAL g f 0 x = if is_nan x || is_infinite x then Panic else Ok 0.
Proof.
  intros g f x Hf. unfold MUL_TIME_REAL, time_float. change (Z.abs 0) with 0.
  rewrite as_secs_zero by exact Hf. cbn [Z.ltb Z.compare].
  destruct x as [[s|s| |s m e]|]; try reflexivity; cbn; destruct s; reflexivity.
Qed.

Lemma div_zero : forall g f x, f = F32 \/ f = F64 ->
  DIV_TIME_REAL g f 0 x = if is_nan x || SFeqb (fl_sf x) (S754_zero false) then Panic else Ok 0.
Proof.
  intros g f x Hf. unfold DIV_TIME_REAL, time_float. change (Z.abs 0) with 0.
  rewrite as_secs_zero by exact Hf. cbn [Z.ltb Z.compare].
  destruct x as [[s|s| |s m e]|]; try reflexivity; cbn; destruct s; reflexivity.
Qed.

Lemma mul_inf : forall g f t s, MUL_TIME_REAL g f t (FNum (S754_infinity s)) = Panic.
Proof.
  intros. unfold MUL_TIME_REAL, time_float. cbn [fl_abs fl_sf SFabs].
  destruct (as_secs_f f (Z.abs t)) as [s'|s'| |s' m e]; cbn [SFmul]; now rewrite from_secs_bad.
Qed.

Lemma div_by_zero : forall g f t s, DIV_TIME_REAL g f t (FNum (S754_zero s)) = Panic.
Proof.
  intros. unfold DIV_TIME_REAL, time_float. cbn [fl_abs fl_sf SFabs].
  destruct (as_secs_f f (Z.abs t)) as [s'|s'| |s' m e]; cbn [SFdiv]; now rewrite from_secs_bad.
Qed.
