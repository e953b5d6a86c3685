(** Real numbers in the programs of SpecComplete.v: the rounded numbers exist, and lie between the same representable bounds. *)
From Coq Require Import String ZArith List Bool Lia Reals Lra SpecFloat.
From Flocq Require Import Core BinarySingleNaN.
From Verif Require Import Base ModelFloat ModelTimeNum ModelArith ModelST ModelLayout ModelLink ModelLib SpecScalar SpecTimeNum SpecReal SpecExtra SpecLib SpecApi SpecCall SpecExpr SpecNum SpecTerm
  ProofBase ProofFlocq ProofTimeNum ProofTimeAcc ProofReal ProofReal2 ProofMono ProofMath ProofTermR ProofExtra5.
Import ListNotations.
Open Scope R_scope.

Lemma reals_format : forall t, List.In t reals -> binary_format (fmt_of t).
Proof. intros t [<-|[<-|[]]]; [left|right]; reflexivity. Qed.
Lemma rounds_between : forall t q p b, SpecTerm.rounds_to t q p -> representable_real t b -> (b <= q -> b <= p) /\ (q <= b -> p <= b).
Proof.
  intros t q p b (v & (V & F & N) & <-) (w & W & WF & <-). destruct (N w W WF) as [D _]. split; intros L.
  - destruct (Rle_lt_dec (fl_value w) (fl_value v)) as [H|H]; [exact H|exfalso]. rewrite (Rabs_left (fl_value v - q)), (Rabs_left1 (fl_value w - q)) in D by lra. lra.
  - destruct (Rle_lt_dec (fl_value v) (fl_value w)) as [H|H]; [exact H|exfalso]. rewrite (Rabs_right (fl_value v - q)), (Rabs_right (fl_value w - q)) in D by lra. lra.
Qed.
Lemma rounding_exists : forall t q lo hi, List.In t reals -> representable_real t lo -> representable_real t hi -> lo <= q <= hi ->
  exists p, SpecTerm.rounds_to t q p /\ lo <= p <= hi.
Proof.
  intros t q lo hi T L H B. pose proof (reals_format t T) as BF. assert (E : exists p, SpecTerm.rounds_to t q p).
  { exists (fl_value (of_real (fmt_of t) q)). exists (of_real (fmt_of t) q). split; [|reflexivity]. apply (of_real_nearest _ q BF).
    destruct L as (v & V & VF & <-). destruct H as (w & W & WF & <-).
    destruct (fl_valid_sf _ v V VF) as [V' _]. destruct (fl_valid_sf _ w W WF) as [W' _].
    pose proof (value_small _ _ V') as SV. pose proof (value_small _ _ W') as SW. change (SF2R radix2 (fl_sf v)) with (fl_value v) in SV. change (SF2R radix2 (fl_sf w)) with (fl_value w) in SW.
    pose proof (value_format _ _ V') as GV. pose proof (value_format _ _ W') as GW. change (SF2R radix2 (fl_sf v)) with (fl_value v) in GV. change (SF2R radix2 (fl_sf w)) with (fl_value w) in GW.
    pose proof (fexp_valid _ BF) as VE.
    assert (R1 : fl_value v <= rnd_to (fmt_of t) q) by (apply round_ge_generic; [exact VE|typeclasses eauto|exact GV|lra]).
    assert (R2 : rnd_to (fmt_of t) q <= fl_value w) by (apply round_le_generic; [exact VE|typeclasses eauto|exact GW|lra]).
    apply Rabs_def2 in SV, SW. apply Rabs_def1; lra. }
  destruct E as [p E]. exists p. split; [exact E|]. split; [apply (proj1 (rounds_between t q p lo E L)); lra|apply (proj2 (rounds_between t q p hi E H)); lra].
Qed.
Lemma nearest_exists : forall q lo hi, IZR lo <= q <= IZR hi -> exists n, nearest_int n q /\ (lo <= n <= hi)%Z.
Proof.
  intros q lo hi B.
  assert (P : forall r, 0 <= r -> exists n, nearest_int n r).
  { intros r R. destruct (archimed (r + / 2)) as [A1 A2]. exists (up (r + / 2) - 1)%Z.
    assert (N : 0 <= IZR (up (r + / 2) - 1)) by (apply IZR_le; assert (0 < up (r + / 2))%Z by (apply lt_IZR; lra); lia).
    rewrite minus_IZR in *. split; [rewrite minus_IZR; apply Rabs_le; lra|]. rewrite minus_IZR. rewrite (Rabs_right r), (Rabs_right (IZR (up (r + / 2)) - 1)) by lra.
    unfold Rabs. destruct (Rcase_abs _); lra. }
  assert (E : exists n, nearest_int n q).
  { destruct (Rle_lt_dec 0 q) as [Q|Q]; [exact (P q Q)|]. destruct (P (- q)) as [n N]; [lra|]. exists (- n)%Z. rewrite <- (Ropp_involutive q). now apply nearest_int_opp. }
  destruct E as [n E]. exists n. split; [exact E|]. split; [exact (nearest_int_mono lo n _ _ (nearest_int_self lo) E (proj1 B))|exact (nearest_int_mono n hi _ _ E (nearest_int_self hi) (proj2 B))].
Qed.
Lemma part_exists : forall q lo hi, IZR lo <= q <= IZR hi -> exists n, integer_part n q /\ (lo <= n <= hi)%Z.
Proof.
  intros q lo hi B.
  assert (S : forall k, integer_part k (IZR k)).
  { intros k. split; [apply Rle_refl|]. split; [replace (IZR k - IZR k) with 0 by ring; rewrite Rabs_R0; lra|]. exact (Rle_0_sqr (IZR k)). }
  assert (P : forall r, 0 <= r -> exists n, integer_part n r).
  { intros r R. destruct (archimed r) as [A1 A2]. exists (up r - 1)%Z.
    assert (N : 0 <= IZR (up r - 1)) by (apply IZR_le; assert (0 < up r)%Z by (apply lt_IZR; lra); lia).
    unfold integer_part. rewrite minus_IZR in *. rewrite (Rabs_right (IZR (up r) - 1)), (Rabs_right r) by lra. split; [lra|]. split; [apply Rabs_def1; lra|]. now apply Rmult_le_pos. }
  assert (E : exists n, integer_part n q).
  { destruct (Rle_lt_dec 0 q) as [Q|Q]; [exact (P q Q)|]. destruct (P (- q)) as (n & N1 & N2 & N3); [lra|]. exists (- n)%Z. unfold integer_part. rewrite opp_IZR.
    rewrite Rabs_Ropp in N1 |- *. replace (- IZR n - q) with (- (IZR n - - q)) by ring. rewrite Rabs_Ropp. split; [exact N1|]. split; [exact N2|lra]. }
  destruct E as [n E]. exists n. split; [exact E|]. split; [exact (integer_part_mono lo n _ _ (S lo) E (proj1 B))|exact (integer_part_mono n hi _ _ E (S hi) (proj2 B))].
Qed.
Lemma zero_one : forall t, List.In t reals -> representable_real t 0 /\ representable_real t 1.
Proof.
  intros t [<-|[<-|[]]]; (split; [exists (FNum (S754_zero false)); split; [reflexivity|split; reflexivity]|]).
  - exists (FNum (S754_finite false 8388608 (-23))). split; [vm_compute; reflexivity|]. split; [reflexivity|]. unfold fl_value, sf_value. cbn [fl_sf SF2R cond_Zopp]. unfold F2R. cbn [Fnum Fexp].
    change (IZR 8388608) with (IZR (2 ^ 23)). rewrite (IZR_Zpower radix2) by discriminate. rewrite <- bpow_plus. reflexivity.
  - exists (FNum (S754_finite false 4503599627370496 (-52))). split; [vm_compute; reflexivity|]. split; [reflexivity|]. unfold fl_value, sf_value. cbn [fl_sf SF2R cond_Zopp]. unfold F2R. cbn [Fnum Fexp].
    change (IZR 4503599627370496) with (IZR (2 ^ 52)). rewrite (IZR_Zpower radix2) by discriminate. rewrite <- bpow_plus. reflexivity.
Qed.
Lemma sqrt_exists : forall t q hi, List.In t reals -> representable_real t q -> 0 <= q <= hi -> 1 <= hi -> exists p, SpecTerm.rounds_to t (sqrt q) p /\ 0 <= p <= hi.
Proof.
  intros t q hi T V [Q B] H. destruct (zero_one t T) as [E0 E1]. pose proof (sqrt_pos q) as S0. destruct (Rle_lt_dec 1 q) as [G|G].
  - assert (S1 : 1 <= sqrt q) by (rewrite <- sqrt_1; now apply sqrt_le_1_alt). pose proof (sqrt_sqrt q Q) as S2.
    assert (S : sqrt q <= q) by nra.
    destruct (rounding_exists t (sqrt q) 0 q T E0 V (conj S0 S)) as (p & N & R). exists p. split; [exact N|lra].
  - assert (S : sqrt q <= 1) by (rewrite <- sqrt_1; apply sqrt_le_1_alt; lra).
    destruct (rounding_exists t (sqrt q) 0 1 T E0 E1 (conj S0 S)) as (p & N & R). exists p. split; [exact N|lra].
Qed.
Lemma narrow_fits : forall q lo hi, representable_real S_REAL lo -> representable_real S_REAL hi -> lo <= q <= hi -> Rabs q < IZR (2 ^ 128 - 2 ^ 103).
Proof.
  intros q lo hi (v & V & VF & <-) (w & W & WF & <-) B. pose proof (below_max F32 v (or_introl eq_refl) V VF) as M1. pose proof (below_max F32 w (or_introl eq_refl) W WF) as M2.
  rewrite (mph_int F32 (or_introl eq_refl)) in M1, M2. replace (IZR (2 ^ 128 - 2 ^ 103)) with (IZR ((2 ^ (f_prec F32 + 1) - 1) * 2 ^ (f_emax F32 - f_prec F32 - 1))) by (f_equal; vm_compute; reflexivity).
  match goal with |- _ < ?x => set (c := x) in * end. pose proof (Rle_abs (fl_value w)). pose proof (Rle_abs (- fl_value v)) as N. rewrite Rabs_Ropp in N. apply Rabs_def1; lra.
Qed.
Lemma small_exact : forall t z, List.In t reals -> (Z.abs z < 2 ^ 24)%Z -> representable_real t (IZR z).
Proof.
  intros t z T L. pose proof (reals_format t T) as BF.
  destruct (format_float (fmt_of t) BF (IZR z)) as (s & V & F & E).
  - change (SpecFloat.fexp (f_prec (fmt_of t)) (f_emax (fmt_of t))) with (FLT_exp (SpecFloat.emin (f_prec (fmt_of t)) (f_emax (fmt_of t))) (f_prec (fmt_of t))).
    apply generic_format_FLT. exists (Float radix2 z 0); [unfold F2R; cbn; ring| |]; destruct T as [<-|[<-|[]]]; try (cbn; lia); vm_compute; discriminate.
  - apply Rlt_le_trans with (bpow radix2 24); [rewrite <- abs_IZR, <- (IZR_Zpower radix2) by discriminate; now apply IZR_lt|]. apply bpow_le. destruct T as [<-|[<-|[]]]; vm_compute; discriminate.
  - destruct (sf_fl (fmt_of t) s V F) as (A & B & _). exists (FNum s). exact (conj A (conj B E)).
Qed.
Lemma rounded : forall t q p, SpecTerm.rounds_to t q p -> representable_real t p.
Proof. intros t q p (v & (V & F & _) & <-). exists v. exact (conj V (conj F eq_refl)). Qed.
Lemma widened : forall q, representable_real S_REAL q -> representable_real S_LREAL q.
Proof. intros q (v & V & F & <-). destruct (widen_exact v V F) as (A & B & C). exists (fl_convert F64 v). exact (conj A (conj B C)). Qed.
