(** Conversions, roots, powers, selection and times with REAL and LREAL in expressions. *)
From Coq Require Import String Ascii ZArith Lia List Bool SpecFloat Reals Lra.
From Flocq Require Import Core BinarySingleNaN.
From Verif Require Import Base ModelFloat ModelScalar ModelArith ModelTimeNum ModelText ModelString ModelExtra ModelDate ModelChrono ModelST ModelWrap ModelLink ModelLib
  ModelApi SpecScalar SpecTimeNum SpecReal SpecPow SpecST SpecDate SpecText SpecLink SpecConv SpecLib SpecName SpecWrap SpecCall SpecExpr SpecNum ProofBase ProofScalar
  ProofFlocq ProofReal ProofReal2 ProofST ProofST2 ProofLib ProofLib2 ProofConv ProofName ProofName3 ProofApi3 ProofCall2 ProofCall4 ProofExpr ProofExpr2 ProofExpr3 ProofExpr4 ProofSqr ProofNum.
Import ListNotations.
Open Scope string_scope.
Open Scope list_scope.
Open Scope Z_scope.
Local Opaque call value_in api.

Lemma typedb : forall t s z, bounds t = (imin s, imax s) -> of_type t z <-> in_ityb s z = true.
Proof. intros t s z B. unfold of_type. rewrite B, in_ityb_iff. reflexivity. Qed.

(** * TRUNC and conversions to integers *)
Lemma trunc_whole : forall P r t e q, List.In t reals -> number P r t e q ->
  exists k, integer_part k q /\ (of_type S_LINT k -> whole P r S_LINT (Call "TRUNC" [e]) k) /\ (~ of_type S_LINT k -> value_in P r (Call "TRUNC" [e]) = Ub).
Proof.
  intros P r t e q T (v & E & V & F & <-).
  destruct (trunc_call (p_chrono P) (type_name t) (fmt_of t) v (real_named t T) F) as (k & K & A). exists k. split; [exact K|].
  change ("TRUNC__" ++ type_name t)%string with ("TRUNC" ++ "__" ++ type_name t)%string in A. rewrite <- (one_type "TRUNC" t T) in A.
  assert (Q : value_in P r (Call "TRUNC" [e]) = if in_ityb i64 k then Ok (S_LINT, VZ k) else Ub).
  { rewrite (value_1 P r _ _ _ E), (bodied_call P "TRUNC" [(t, VF v)] (instance_name "TRUNC" [t]) S_LINT [VFl v] (trunc_checked t T) eq_refl).
    rewrite A. destruct (in_ityb i64 k); reflexivity. }
  rewrite (typedb S_LINT i64 k eq_refl). split; intros I; [split; [now rewrite Q, I|now apply (typedb S_LINT i64 k eq_refl)]|].
  rewrite Q. destruct (in_ityb i64 k); [now destruct I|reflexivity].
Qed.
Lemma int_named : forall a, List.In a integers -> List.In (type_name a, ity_of a) numeric_names.
Proof. intros a A. cbn in A. repeat (destruct A as [<-|A]; [cbn; tauto|]). destruct A. Qed.
Lemma int_bounds : forall a, List.In a integers -> bounds a = (imin (ity_of a), imax (ity_of a)).
Proof. intros a A. cbn in A. repeat (destruct A as [<-|A]; [reflexivity|]). destruct A. Qed.
Lemma real_conv : forall a t, List.In a integers -> List.In t reals -> st_conv a t = true /\ st_conv t a = true.
Proof.
  intros a t A T. destruct real_conv_checked as (H & _). rewrite forallb_forall in H. specialize (H a A). rewrite forallb_forall in H.
  specialize (H t T). now apply andb_true_iff in H.
Qed.
Lemma to_whole : forall P r t a e q, List.In t reals -> List.In a integers -> number P r t e q ->
  exists k, nearest_int k q /\ (of_type a k -> whole P r a (Call (conversion_name t a) [e]) k) /\
    (~ of_type a k -> value_in P r (Call (conversion_name t a) [e]) = Ub).
Proof.
  intros P r t a e q T A (v & E & V & F & <-).
  destruct (real_to_int (p_chrono P) (type_name t) (fmt_of t) (to (type_name t) (type_name a)) (ity_of a) v (real_named t T)
    (round_ext _ _ _ _ (real_named t T) (int_named a A)) V F) as (k & K & C). exists k. split; [exact K|].
  unfold to in C. fold (conversion_name t a) in C.
  assert (Q : value_in P r (Call (conversion_name t a) [e]) = if in_ityb (ity_of a) k then Ok (a, VZ k) else Ub).
  { rewrite (value_1 P r _ _ _ E), (conv_call P t a (VF v) (VFl v) (proj2 (real_conv a t A T)) eq_refl), C. destruct (in_ityb (ity_of a) k); reflexivity. }
  pose proof (typedb a (ity_of a) k (int_bounds a A)) as B.
  rewrite B. split; intros I; [split; [now rewrite Q, I|now apply B]|].
  rewrite Q. destruct (in_ityb (ity_of a) k); [now destruct I|reflexivity].
Qed.
(** * Conversions to REAL and LREAL *)
Lemma of_whole : forall P r t a e z, List.In t reals -> List.In a integers -> whole P r a e z ->
  nearest P r t (Call (conversion_name a t) [e]) (IZR z) /\
  (Z.abs z <= 2 ^ f_prec (fmt_of t) -> number P r t (Call (conversion_name a t) [e]) (IZR z)).
Proof.
  intros P r t a e z T A (E & I).
  assert (I' : in_ity (ity_of a) z) by (apply ity_typed; [|exact I]; cbn in A |- *; tauto).
  destruct (int_to_real_spec (p_chrono P) _ _ _ _ z (int_named a A) (real_named t T) I') as (x & C & N & X).
  unfold to in C. fold (conversion_name a t) in C.
  assert (Q : value_in P r (Call (conversion_name a t) [e]) = Ok (t, VF x)).
  { rewrite (value_1 P r _ _ _ E), (conv_call P a t (VZ z) (VInt z) (proj1 (real_conv a t A T)) eq_refl), C. reflexivity. }
  split; [now exists x|]. intros L. exists x. split; [exact Q|]. destruct N as (V & F & _). repeat split; try assumption. now apply X.
Qed.
Lemma widen_number : forall P r e q, number P r S_REAL e q -> number P r S_LREAL (Call "REAL_TO_LREAL" [e]) q.
Proof.
  intros P r e q (v & E & V & F & <-). destruct (widen_exact v V F) as (A & B & C). exists (fl_convert F64 v). split; [|auto].
  destruct real_conv_checked as (_ & H1 & _). rewrite (value_1 P r _ _ _ E).
  pose proof (conv_call P S_REAL S_LREAL (VF v) (VFl v) H1 eq_refl) as C1. change (conversion_name S_REAL S_LREAL) with "REAL_TO_LREAL" in C1.
  rewrite C1, real_to_lreal by exact V. reflexivity.
Qed.
Lemma narrow_number : forall P r e q, number P r S_LREAL e q -> (Rabs q < IZR REAL_OVERFLOW)%R -> nearest P r S_REAL (Call "LREAL_TO_REAL" [e]) q.
Proof.
  intros P r e q (v & E & V & F & <-) L. destruct (narrow_spec v V F) as [A _]. exists (fl_convert F32 v). split; [|now apply A].
  destruct real_conv_checked as (_ & _ & H1). rewrite (value_1 P r _ _ _ E).
  pose proof (conv_call P S_LREAL S_REAL (VF v) (VFl v) H1 eq_refl) as C1. change (conversion_name S_LREAL S_REAL) with "LREAL_TO_REAL" in C1.
  rewrite C1, lreal_to_real. reflexivity.
Qed.

(** * SQRT and EXPT *)
Lemma sqrt_e : forall P r t e v, List.In t reals -> value_in P r e = Ok (t, VF v) -> value_in P r (Call "SQRT" [e]) = Ok (t, VF (SQRT (fmt_of t) v)).
Proof.
  intros P r t e v T E. rewrite (value_1 P r _ _ _ E), (generic_call P "SQRT" [(t, VF v)] (instance_name "SQRT" [t]) t (sqrt_checked t T)).
  cbn [map snd]. destruct T as [<-|[<-|[]]]; vm_compute instance_name; name_of; reflexivity.
Qed.
Lemma sqrt_number : forall P r t e q, List.In t reals -> number P r t e q -> (0 <= q)%R -> nearest P r t (Call "SQRT" [e]) (sqrt q).
Proof.
  intros P r t e q T (v & E & V & F & <-) G. exists (SQRT (fmt_of t) v). split; [now apply sqrt_e|].
  apply sqrt_nearest; auto. now apply real_fmt.
Qed.
Lemma sqrt_ordered : forall P r t e e' q q', List.In t reals -> number P r t e q -> number P r t e' q' -> (0 <= q <= q')%R ->
  exists p p', number P r t (Call "SQRT" [e]) p /\ number P r t (Call "SQRT" [e']) p' /\ (0 <= p <= p')%R.
Proof.
  intros P r t e e' q q' T (v & E & V & F & <-) (w & E' & V' & F' & <-) G. pose proof (real_fmt t T) as B.
  exists (fl_value (SQRT (fmt_of t) v)), (fl_value (SQRT (fmt_of t) w)).
  destruct (sqrt_nearest (fmt_of t) B v V F ltac:(lra)) as (V1 & F1 & _). destruct (sqrt_nearest (fmt_of t) B w V' F' ltac:(lra)) as (V2 & F2 & _).
  split; [exists (SQRT (fmt_of t) v); repeat split; try assumption; now apply sqrt_e|].
  split; [exists (SQRT (fmt_of t) w); repeat split; try assumption; now apply sqrt_e|].
  split; [|now apply sqrt_mono]. rewrite sqrt_value by (auto; lra).
  apply round_ge_generic; [exact (fexp_valid _ B)|typeclasses eauto|apply generic_format_0|apply sqrt_pos].
Qed.
Lemma small_named : forall u, List.In u small_ints ->
  List.In (type_name u, ity_of u) [("USINT", u8); ("UINT", u16); ("UDINT", u32); ("ULINT", u64); ("SINT", i8); ("INT", i16); ("LINT", i64)].
Proof. intros u U. cbn in U. repeat (destruct U as [<-|U]; [cbn; tauto|]). destruct U. Qed.
Lemma two_types : forall t u, List.In t reals -> List.In u small_ints -> instance_name "EXPT" [t; u] = ("EXPT__" ++ type_name t ++ "__" ++ type_name u)%string.
Proof. intros t u T U. destruct T as [<-|[<-|[]]]; cbn in U; repeat (destruct U as [<-|U]; [reflexivity|]); destruct U. Qed.
Lemma expt_e : forall P r t u e i v n, List.In t reals -> List.In u integers -> value_in P r e = Ok (t, VF v) -> whole P r u i n -> of_type S_DINT n ->
  value_in P r (Call "EXPT" [e; i]) = Ok (t, VF (EXPT_DINT (fmt_of t) v n)).
Proof.
  intros P r t u e i v n T U E (Ei & I) D. rewrite (value_2 P r _ _ _ _ _ E Ei).
  assert (C : u = S_DINT \/ List.In u small_ints) by (cbn in U |- *; intuition (subst; auto)).
  destruct C as [->|S].
  - rewrite (declared_call P "EXPT" [(t, VF v); (S_DINT, VZ n)] (instance_name "EXPT" [t; S_DINT]) t (expt_checked t T)).
    cbn [map snd]. destruct T as [<-|[<-|[]]]; vm_compute instance_name; name_of; reflexivity.
  - rewrite (bodied_call P "EXPT" [(t, VF v); (u, VZ n)] (instance_name "EXPT" [t; u]) t [VFl v; VInt n] (expt_small_checked t u T S) eq_refl).
    rewrite (two_types t u T S).
    assert (I' : in_ity (ity_of u) n) by (apply ity_typed; [|exact I]; cbn in U |- *; tauto).
    pose proof (expt_wrapper (p_chrono P) (type_name t) (fmt_of t) (type_name u) (ity_of u) v n (real_named t T) (small_named u S) I') as W.
    rewrite W. rewrite wrap_id; [reflexivity|reflexivity|exact D].
Qed.
Lemma power_number : forall P r t u e i n M J, List.In t reals -> List.In u integers -> number P r t e (IZR M * bpow radix2 J)%R -> whole P r u i n ->
  of_type S_DINT n -> 0 <= n -> Z.abs (M ^ n) <= 2 ^ f_prec (fmt_of t) -> f_emin (fmt_of t) <= J * n -> f_prec (fmt_of t) + J * n < f_emax (fmt_of t) ->
  number P r t (Call "EXPT" [e; i]) ((IZR M * bpow radix2 J) ^ Z.to_nat n)%R.
Proof.
  intros P r t u e i n M J T U (v & E & V & F & Q) W D N A B C.
  destruct (expt_exact (fmt_of t) v n M J (real_fmt t T) V F Q N A B C) as (X & Y & Z).
  exists (EXPT_DINT (fmt_of t) v n). split; [exact (expt_e P r t u e i v n T U E W D)|]. repeat split; try assumption. now rewrite Z, Q.
Qed.
Lemma square_value : forall f v, binary_format f -> fl_valid f v -> fl_finite v = true ->
  (Rabs (round radix2 (SpecFloat.fexp (f_prec f) (f_emax f)) ZnearestE (fl_value v * fl_value v)) < bpow radix2 (f_emax f))%R ->
  fl_valid f (EXPT_DINT f v 2) /\ fl_finite (EXPT_DINT f v 2) = true /\
  fl_value (EXPT_DINT f v 2) = round radix2 (SpecFloat.fexp (f_prec f) (f_emax f)) ZnearestE (fl_value v * fl_value v).
Proof.
  intros f v Hf V F S. destruct (fl_valid_sf f v V F) as [V' F'].
  destruct (mul_sf _ _ (Hprec f Hf) (Hmax f Hf) (fl_sf v) (fl_sf v) V' V' F' F') as [M _]. destruct (M S) as (A & B & C & _).
  destruct (one_dy f Hf) as (V1 & F1 & E1). rewrite Rmult_1_r in E1.
  set (y := SFmul (f_prec f) (f_emax f) (fl_sf v) (fl_sf v)) in *.
  destruct (mul_exact f (f_of_int f 1) y Hf V1 A F1 B) as (A2 & B2 & C2 & _).
  - rewrite E1, Rmult_1_l. now apply value_format.
  - rewrite E1, Rmult_1_l. now apply value_small.
  - unfold EXPT_DINT, powi, powi_loop. cbv zeta. fold y. destruct (sf_fl f _ A2 B2) as (P1 & P2 & ->). repeat split; try assumption.
    unfold fl_value, sf_value in *. cbn [fl_sf]. rewrite C2, E1, Rmult_1_l. exact C.
Qed.
Lemma square_root : forall P r t u e i q w, List.In t reals -> List.In u integers -> number P r t e q -> whole P r u i 2 ->
  (min_normal (fmt_of t) <= q * q)%R -> fl_valid (fmt_of t) w -> fl_finite w = true -> (q * q <= fl_value w)%R ->
  nearest P r t (Call "EXPT" [e; i]) (q * q) /\ number P r t (Call "SQRT" [Call "EXPT" [e; i]]) (Rabs q).
Proof.
  intros P r t u e i q w T U (v & E & V & F & <-) W L Vw Fw H. pose proof (real_fmt t T) as Hf. set (f := fmt_of t) in *.
  assert (VE := fexp_valid f Hf).
  assert (D : of_type S_DINT 2) by (split; discriminate).
  destruct (fl_valid_sf f w Vw Fw) as [Vw' Fw'].
  assert (S : (Rabs (round radix2 (SpecFloat.fexp (f_prec f) (f_emax f)) ZnearestE (fl_value v * fl_value v)) < bpow radix2 (f_emax f))%R).
  { rewrite Rabs_pos_eq.
    - eapply Rle_lt_trans with (fl_value w).
      + apply round_le_generic; [exact VE|typeclasses eauto|now apply value_format|exact H].
      + eapply Rle_lt_trans; [apply Rle_abs|]. now apply value_small.
    - apply round_ge_generic; [exact VE|typeclasses eauto|apply generic_format_0|]. apply Rle_0_sqr. }
  destruct (square_value f v Hf V F S) as (A & B & C).
  pose proof (expt_e P r t u e i v 2 T U E W D) as X. fold f in X.
  split.
  - exists (EXPT_DINT f v 2). split; [exact X|]. destruct (fl_valid_sf f _ A B) as [A' B'].
    replace (EXPT_DINT f v 2) with (FNum (fl_sf (EXPT_DINT f v 2))) by (destruct (EXPT_DINT f v 2) as [|]; [reflexivity|discriminate B]).
    now apply nearest_of_rnd.
  - destruct (fl_valid_sf f v V F) as [V' _].
    assert (G : (0 <= fl_value (EXPT_DINT f v 2))%R).
    { rewrite C. apply round_ge_generic; [exact VE|typeclasses eauto|apply generic_format_0|]. apply Rle_0_sqr. }
    destruct (sqrt_nearest f Hf (EXPT_DINT f v 2) A B G) as (V2 & F2 & _).
    exists (SQRT f (EXPT_DINT f v 2)). split; [now apply sqrt_e|]. repeat split; try assumption.
    rewrite (sqrt_value f Hf _ A B G), C. apply sqrt_sqr; [exact Hf| |exact L]. now apply value_format.
Qed.
(** * MAX, MIN and LIMIT *)
Lemma value_order : forall f x y, binary_format f -> fl_valid f x -> fl_valid f y -> fl_finite x = true -> fl_finite y = true ->
  SFcompare (fl_sf x) (fl_sf y) = Some (Rcompare (fl_value x) (fl_value y)).
Proof.
  intros f x y Hf Vx Vy Fx Fy. destruct (fl_valid_sf f x Vx Fx) as [Vx' Fx']. destruct (fl_valid_sf f y Vy Fy) as [Vy' Fy'].
  pose proof (Bcompare_correct (f_prec f) (f_emax f) (SF2B _ Vx') (SF2B _ Vy')) as B. unfold Bcompare in B.
  rewrite !B2SF_SF2B, !B2R_SF2B, !is_finite_SF2B in B. exact (B Fx' Fy').
Qed.
Lemma value_leb : forall f x y, binary_format f -> fl_valid f x -> fl_valid f y -> fl_finite x = true -> fl_finite y = true ->
  SFleb (fl_sf x) (fl_sf y) = true <-> (fl_value x <= fl_value y)%R.
Proof.
  intros f x y Hf Vx Vy Fx Fy. unfold SFleb. rewrite (value_order f x y Hf Vx Vy Fx Fy).
  destruct (Rcompare_spec (fl_value x) (fl_value y)); split; intros; try reflexivity; try discriminate; lra.
Qed.
Lemma value_ltb : forall f x y, binary_format f -> fl_valid f x -> fl_valid f y -> fl_finite x = true -> fl_finite y = true ->
  SFltb (fl_sf x) (fl_sf y) = true <-> (fl_value x < fl_value y)%R.
Proof.
  intros f x y Hf Vx Vy Fx Fy. unfold SFltb. rewrite (value_order f x y Hf Vx Vy Fx Fy).
  destruct (Rcompare_spec (fl_value x) (fl_value y)); split; intros; try reflexivity; try discriminate; lra.
Qed.
Lemma finite_fnum : forall f v, fl_finite v = true -> fl_of_sf f (fl_sf v) = v.
Proof. intros f [[s|s| |s m e]|s p] F; try discriminate; reflexivity. Qed.
Lemma limit_number : forall P r t e1 e e2 a q b, List.In t reals -> number P r t e1 a -> number P r t e q -> number P r t e2 b -> (a <= b)%R ->
  number P r t (Call "LIMIT" [e1; e; e2]) (Rmax a (Rmin q b)).
Proof.
  intros P r t e1 e e2 a q b T (x & E1 & V1 & F1 & <-) (v & E & V & F & <-) (y & E2 & V2 & F2 & <-) H. pose proof (real_fmt t T) as Hf.
  assert (C : value_in P r (Call "LIMIT" [e1; e; e2]) = Ok (t, VF (fl_of_sf (fmt_of t) (LIMIT_float (fl_sf x) (fl_sf v) (fl_sf y))))).
  { rewrite (value_3 P r _ _ _ _ _ _ _ E1 E E2).
    rewrite (generic_call P "LIMIT" [(t, VF x); (t, VF v); (t, VF y)] (instance_name "LIMIT" [t]) t (limit_checked t T)).
    cbn [map snd]. destruct T as [<-|[<-|[]]]; vm_compute instance_name; name_of; reflexivity. }
  unfold LIMIT_float in C.
  destruct (SFltb (fl_sf v) (fl_sf x)) eqn:L1.
  - apply (value_ltb (fmt_of t) v x Hf V V1 F F1) in L1. rewrite (finite_fnum (fmt_of t) x F1) in C. exists x. repeat split; try assumption.
    rewrite Rmin_left by lra. rewrite Rmax_left; lra.
  - assert (N1 : ~ (fl_value v < fl_value x)%R) by (rewrite <- (value_ltb (fmt_of t) v x Hf V V1 F F1); congruence).
    destruct (SFltb (fl_sf y) (fl_sf v)) eqn:L2.
    + apply (value_ltb (fmt_of t) y v Hf V2 V F2 F) in L2. rewrite (finite_fnum (fmt_of t) y F2) in C. exists y. repeat split; try assumption.
      rewrite Rmin_right by lra. rewrite Rmax_right; lra.
    + assert (N2 : ~ (fl_value y < fl_value v)%R) by (rewrite <- (value_ltb (fmt_of t) y v Hf V2 V F2 F); congruence).
      rewrite (finite_fnum (fmt_of t) v F) in C. exists v. repeat split; try assumption. rewrite Rmin_left by lra. rewrite Rmax_right; lra.
Qed.
