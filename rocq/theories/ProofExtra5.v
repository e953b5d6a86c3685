(** Reading back the text of a float. *)
From Coq Require Import String ZArith List Bool Lia Reals Lra SpecFloat.
From Flocq Require Import Core BinarySingleNaN.
From Verif Require Import Base ModelText ModelString ModelFloat ModelST ModelExtra SpecScalar SpecTimeNum SpecReal SpecText SpecExtra
  ProofBase ProofFlocq ProofReal ProofReal2 ProofString ProofString2 ProofExtra ProofExtra2 ProofExtra3 ProofExtra4.
Import ListNotations.
Open Scope list_scope.
Open Scope R_scope.

Lemma abs_le : forall a b, Rabs a <= b -> - b <= a <= b.
Proof. intros a b H. unfold Rabs in H. destruct (Rcase_abs a); lra. Qed.
Lemma sign_text_ok : forall b, In (sign_text b) [[]; str "+"] /\ b = false \/ sign_text b = str "-" /\ b = true.
Proof. intros []; [now right|]. left. split; [now left|reflexivity]. Qed.
Lemma digits_join : forall is fs i f, canonical is i -> fixed 6 fs f -> numeral 10 (is ++ fs) (i * 1000000 + f).
Proof.
  intros is fs i f [[N D] _] [L F]. split; [destruct is; [congruence|discriminate]|].
  pose proof (digits_app 10 _ _ D _ _ F) as A. rewrite L in A. exact A.
Qed.
Lemma fixed6_number : forall s x, fixed6_text s x -> exists m,
  number_text s (fl_negative x) m (-6) /\ nearest_int_even m (Rabs (fl_value x) * 1000000).
Proof.
  intros s x (is & fs & i & f & -> & C & F & N). exists (i * 1000000 + f)%Z. split; [|exact N].
  exists (sign_text (fl_negative x)), is, (str "."), fs, [], 0%Z.
  rewrite app_nil_r. split; [reflexivity|]. split; [apply sign_text_ok|]. split; [now left|].
  split; [now apply digits_join|]. split; [now left|]. destruct F as [-> _]. reflexivity.
Qed.
Lemma exp6_number : forall s x, exp6_text s x -> exists m k,
  number_text s (fl_negative x) m (k - 6) /\ (0 <= k)%Z /\ (1000000 <= m < 10000000)%Z /\
  nearest_int_even m (Rabs (fl_value x) * 1000000 / IZR (10 ^ k)).
Proof.
  intros s x (ds & fs & ks & d & f & k & -> & D & P & F & K & N & _). exists (d * 1000000 + f)%Z, k.
  pose proof (proj2 D) as D'. pose proof (proj2 F) as F'. pose proof (digits_bound 10 _ _ eq_refl D') as BD. pose proof (digits_bound 10 _ _ eq_refl F') as BF.
  pose proof (digits_nonneg 10 _ _ eq_refl F') as ZF.
  rewrite (proj1 D) in BD. rewrite (proj1 F) in BF. cbn in BD, BF.
  split; [|split; [|split; [|exact N]]].
  - exists (sign_text (fl_negative x)), ds, (str "."), fs, (str "e" ++ ks), k.
    split; [reflexivity|]. split; [apply sign_text_ok|]. split; [now left|].
    split.
    { split; [destruct ds; [destruct D; discriminate|discriminate]|].
      pose proof (digits_app 10 _ _ D' _ _ F') as A. rewrite (proj1 F) in A. exact A. }
    split.
    { right. exists (str "e"), [], ks, k. split; [now left|]. split; [reflexivity|]. destruct K as [K _]. split; [exact K|].
      left. split; [now left|reflexivity]. }
    rewrite (proj1 F). reflexivity.
  - destruct K as [[_ K] _]. now apply digits_nonneg in K.
  - lia.
Qed.
Lemma signed_value : forall x, fl_finite x = true ->
  fl_value x = (if fl_negative x then -1 else 1) * Rabs (fl_value x).
Proof.
  intros [[s|s| |s m e]|s p] F; try discriminate; cbn [fl_negative].
  - unfold fl_value, sf_value, fl_sf, SF2R. rewrite Rabs_R0. destruct s; ring.
  - rewrite abs_value_frac, value_frac. destruct s; [rewrite opp_IZR|]; unfold Rdiv; ring.
Qed.

Lemma mph_int : forall f, binary_format f ->
  max_plus_half f = IZR ((2 ^ (f_prec f + 1) - 1) * 2 ^ (f_emax f - f_prec f - 1)).
Proof.
  intros f Hf. rewrite (mph_half f Hf), mult_IZR. f_equal. symmetry. apply (IZR_Zpower radix2). destruct Hf as [-> | ->]; discriminate.
Qed.
Definition max_fl (f : fmt) : Z := ((2 ^ f_prec f - 1) * 2 ^ (f_emax f - f_prec f))%Z.
Lemma max_fl_le : forall f x, binary_format f -> fl_valid f x -> fl_finite x = true ->
  Rabs (fl_value x) <= IZR (max_fl f).
Proof.
  intros f x Hf V F. destruct (fl_valid_sf f x V F) as [V' _].
  destruct x as [[s|s| |s m e]|s p]; try discriminate.
  - unfold fl_value, sf_value, fl_sf, SF2R. rewrite Rabs_R0. apply IZR_le.
    destruct Hf as [-> | ->]; vm_compute; discriminate.
  - cbn [fl_sf] in V'. change (bounded (f_prec f) (f_emax f) m e = true) in V'.
    pose proof (bounded_le_emax_minus_prec (f_prec f) (f_emax f) (Hprec f Hf) m e V') as B.
    unfold fl_value, sf_value, fl_sf, SF2R. rewrite <- F2R_Zabs, abs_cond_Zopp. change (Z.abs (Zpos m)) with (Zpos m).
    assert (E : bpow radix2 (f_emax f) = IZR (2 ^ f_prec f) * bpow radix2 (f_emax f - f_prec f)).
    { rewrite (IZR_Zpower radix2) by (destruct Hf as [-> | ->]; discriminate). rewrite <- bpow_plus. f_equal. lia. }
    assert (E2 : IZR (2 ^ (f_emax f - f_prec f)) = bpow radix2 (f_emax f - f_prec f)).
    { apply (IZR_Zpower radix2). destruct Hf as [-> | ->]; discriminate. }
    unfold max_fl. rewrite mult_IZR, minus_IZR, E2.
    set (t := F2R _) in *. lra.
Qed.
Lemma below_max : forall f x, binary_format f -> fl_valid f x -> fl_finite x = true ->
  Rabs (fl_value x) + 1 <= max_plus_half f.
Proof.
  intros f x Hf V F. pose proof (max_fl_le f x Hf V F) as L. rewrite (mph_int f Hf).
  assert (IZR (max_fl f + 1) <= IZR ((2 ^ (f_prec f + 1) - 1) * 2 ^ (f_emax f - f_prec f - 1))).
  { apply IZR_le. destruct Hf as [-> | ->]; vm_compute; discriminate. }
  rewrite plus_IZR in H. lra.
Qed.

(** The float read back is the float nearest to the text, hence at most as far from the text as
    the float that was written. *)
Lemma read_back : forall f s neg m e x, binary_format f -> fl_valid f x -> fl_finite x = true -> number_text s neg m e ->
  Rabs (number_value neg m e) < max_plus_half f ->
  forall d, reads d s -> exists y, string_to_float f d = Ok y /\ fl_negative y = neg /\ fl_valid f y /\ fl_finite y = true /\
    Rabs (fl_value y - fl_value x) <= 2 * Rabs (fl_value x - number_value neg m e).
Proof.
  intros f s neg m e x Hf V F T B d R. exists (FNum (scaled f neg m e)). split.
  - apply (string_to_float_spec _ _ _ _ R). left. now exists neg, m, e.
  - destruct (scaled_rounded f Hf neg m e (number_nonneg _ _ _ _ T)) as (S & N & _). destruct (N B) as (Vy & Fy & M).
    destruct (M x V F) as [M1 _]. set (r := number_value neg m e) in *. set (y := FNum (scaled f neg m e)) in *.
    split; [exact S|]. split; [exact Vy|]. split; [exact Fy|].
    replace (fl_value y - fl_value x) with ((fl_value y - r) - (fl_value x - r)) by ring.
    eapply Rle_trans; [apply Rabs_triang|]. rewrite Rabs_Ropp. lra.
Qed.
Lemma number_value_abs : forall neg m e, (0 <= m)%Z -> Rabs (number_value neg m e) = IZR m * powerRZ 10 e.
Proof.
  intros neg m e M. unfold number_value. rewrite Rmult_assoc, Rabs_mult.
  rewrite (Rabs_pos_eq (IZR m * _)) by (apply Rmult_le_pos; [now apply IZR_le|apply powerRZ_le; lra]).
  destruct neg; [rewrite Rabs_left by lra|rewrite Rabs_pos_eq by lra]; ring.
Qed.
Lemma value_number : forall x m e, fl_finite x = true ->
  Rabs (fl_value x - number_value (fl_negative x) m e) = Rabs (Rabs (fl_value x) - IZR m * powerRZ 10 e).
Proof.
  intros x m e F. rewrite (signed_value x F) at 1. unfold number_value.
  replace ((if fl_negative x then -1 else 1) * Rabs (fl_value x) - (if fl_negative x then -1 else 1) * IZR m * powerRZ 10 e)
    with ((if fl_negative x then -1 else 1) * (Rabs (fl_value x) - IZR m * powerRZ 10 e)) by ring.
  rewrite Rabs_mult. destruct (fl_negative x); [rewrite (Rabs_left (-1)) by lra|rewrite (Rabs_pos_eq 1) by lra]; ring.
Qed.
Lemma pow_minus6 : forall k, (0 <= k)%Z -> powerRZ 10 (k - 6) = IZR (10 ^ k) / 1000000.
Proof.
  intros k K. replace (k - 6)%Z with (k + -6)%Z by lia. rewrite powerRZ_add by lra. rewrite rpow10, rpow10.
  rewrite !Z.max_l, !Z.max_r by lia. change (10 ^ 0)%Z with 1%Z. change (Z.max (-6) 0) with 0%Z. change (Z.max (- -6) 0) with 6%Z.
  change (10 ^ 0)%Z with 1%Z. change (10 ^ 6)%Z with 1000000%Z. field.
Qed.

(** Six decimals read back. *)
Lemma fixed6_back : forall f s z x d, binary_format f -> fl_valid f x -> fl_finite x = true ->
  fl_value z = fl_value x -> fl_negative z = fl_negative x -> fixed6_text s z -> reads d s ->
  exists y, string_to_float f d = Ok y /\ fl_negative y = fl_negative x /\ fl_finite y = true /\
    Rabs (fl_value y - fl_value x) <= / 1000000 /\
    ((exists n, fl_value x * 1000000 = IZR n) -> fl_value y = fl_value x).
Proof.
  intros f s z x d Hf V F Z1 Z2 T R. destruct (fixed6_number _ _ T) as (m & N & M & _). rewrite Z1 in M. rewrite Z2 in N.
  pose proof (number_nonneg _ _ _ _ N) as P.
  assert (E6 : powerRZ 10 (-6) = / 1000000).
  { change (-6)%Z with (0 - 6)%Z. rewrite pow_minus6 by lia. change (10 ^ 0)%Z with 1%Z. field. }
  assert (D : Rabs (Rabs (fl_value x) - IZR m * powerRZ 10 (-6)) = Rabs (IZR m - Rabs (fl_value x) * 1000000) / 1000000).
  { rewrite E6. replace (Rabs (fl_value x) - IZR m * / 1000000) with (- ((IZR m - Rabs (fl_value x) * 1000000) / 1000000)) by field.
    rewrite Rabs_Ropp. unfold Rdiv. rewrite Rabs_mult. f_equal. apply Rabs_pos_eq. lra. }
  assert (B : Rabs (number_value (fl_negative x) m (-6)) < max_plus_half f).
  { rewrite number_value_abs by exact P. rewrite E6. pose proof (below_max f x Hf V F) as L.
    apply abs_le in M as [M1 M2]. lra. }
  destruct (read_back f s _ _ _ x Hf V F N B d R) as (y & Y & S & _ & FY & A). exists y.
  rewrite value_number, D in A by exact F.
  split; [exact Y|]. split; [exact S|]. split; [exact FY|]. split; [lra|].
  intros [n X].
  assert (K : IZR m - Rabs (fl_value x) * 1000000 = 0).
  { assert (exists n', Rabs (fl_value x) * 1000000 = IZR n') as [n' EN].
    { exists (Z.abs n). rewrite abs_IZR, <- X, Rabs_mult. rewrite (Rabs_pos_eq 1000000) by lra. reflexivity. }
    rewrite EN in *. rewrite <- minus_IZR, <- abs_IZR in M. rewrite <- minus_IZR. f_equal.
    assert (Z.abs (m - n') < 1)%Z by (apply lt_IZR; lra). lia. }
  rewrite K, Rabs_R0 in A. assert (Z0 : Rabs (fl_value y - fl_value x) <= 0) by lra.
  apply abs_le in Z0. lra.
Qed.
Definition top (f : fmt) : Z * Z := if f_prec f =? 24 then (3402823, 38)%Z else (1797693, 308)%Z.
Lemma top_spec : forall f, binary_format f -> let '(c, k) := top f in
  (1000000 <= c < 9999994)%Z /\ (0 <= k)%Z /\ IZR c * IZR (10 ^ k) < max_plus_half f * 1000000 /\
  IZR (max_fl f) * 1000000 < (IZR c + / 2) * IZR (10 ^ k).
Proof.
  intros f Hf. rewrite (mph_int f Hf).
  assert (G : forall a a' b c : Z, (c * b < a * 1000000)%Z -> (2 * a' * 1000000 < (2 * c + 1) * b)%Z ->
    IZR c * IZR b < IZR a * 1000000 /\ IZR a' * 1000000 < (IZR c + / 2) * IZR b).
  { intros a a' b c A B. apply IZR_lt in A, B. repeat rewrite ?plus_IZR, ?mult_IZR in A. repeat rewrite ?plus_IZR, ?mult_IZR in B. split; lra. }
  destruct Hf as [-> | ->]; (split; [cbn; lia|split; [cbn; lia|apply G; vm_compute; reflexivity]]).
Qed.
(** Seven significant digits read back. *)
Lemma exp6_back : forall f s z x d, binary_format f -> fl_valid f x -> fl_finite x = true ->
  fl_value z = fl_value x -> fl_negative z = fl_negative x -> exp6_text s z -> reads d s ->
  exists y, string_to_float f d = Ok y /\ fl_negative y = fl_negative x /\ fl_finite y = true /\
    Rabs (fl_value y - fl_value x) <= Rabs (fl_value x) / 999999.
Proof.
  intros f s z x d Hf V F Z1 Z2 T R. destruct (exp6_number _ _ T) as (m & k & N & K & MB & M & _). rewrite Z1 in M. rewrite Z2 in N.
  assert (P10 : 0 < IZR (10 ^ k)) by (apply IZR_lt, Z.pow_pos_nonneg; lia).
  set (a := Rabs (fl_value x)) in *. set (q := IZR (10 ^ k)) in *.
  assert (M' : Rabs (IZR m * q - a * 1000000) <= q / 2).
  { replace (IZR m * q - a * 1000000) with ((IZR m - a * 1000000 / q) * q) by (field; lra).
    rewrite Rabs_mult, (Rabs_pos_eq q) by lra. apply Rmult_le_compat_r with (r := q) in M; lra. }
  pose proof (max_fl_le f x Hf V F) as L. fold a in L.
  assert (M1 : 1000000 <= IZR m) by (now apply IZR_le). assert (M2 : IZR m <= 9999999) by (apply IZR_le; lia).
  pose proof (abs_le _ _ M') as [Q1 Q2].
  assert (B : IZR m * q < max_plus_half f * 1000000).
  { pose proof (top_spec f Hf) as TS. destruct (top f) as [c kk]. destruct TS as (C & K0 & T1 & T2).
    assert (C1 : 1000000 <= IZR c) by (now apply IZR_le). assert (C2 : IZR c <= 9999993) by (apply IZR_le; lia).
    destruct (Z.lt_trichotomy k kk) as [H|[->|H]].
    - assert (X : (10 ^ k * 10 <= 10 ^ kk)%Z).
      { rewrite Z.mul_comm, <- Z.pow_succ_r by lia. apply Z.pow_le_mono_r; lia. }
      apply IZR_le in X. rewrite mult_IZR in X. fold q in X.
      assert (IZR m * q <= 10000000 * q) by (apply Rmult_le_compat_r; lra).
      assert (1000000 * IZR (10 ^ kk) <= IZR c * IZR (10 ^ kk)) by (apply Rmult_le_compat_r; lra). lra.
    - fold q in T1, T2. assert (IZR m * q < (IZR c + 1) * q) by lra.
      assert (IZR m < IZR c + 1) by (apply Rmult_lt_reg_r with q; assumption).
      rewrite <- plus_IZR in H0. apply lt_IZR in H0. assert (IZR m <= IZR c) by (apply IZR_le; lia).
      assert (IZR m * q <= IZR c * q) by (apply Rmult_le_compat_r; lra). lra.
    - exfalso. assert (X : (10 ^ kk * 10 <= 10 ^ k)%Z).
      { rewrite Z.mul_comm, <- Z.pow_succ_r by lia. apply Z.pow_le_mono_r; lia. }
      apply IZR_le in X. rewrite mult_IZR in X. fold q in X.
      assert (P11 : 0 < IZR (10 ^ kk)) by (apply IZR_lt, Z.pow_pos_nonneg; lia).
      assert (1000000 * q <= IZR m * q) by (apply Rmult_le_compat_r; lra).
      assert ((IZR c + / 2) * IZR (10 ^ kk) <= 9999994 * IZR (10 ^ kk)) by (apply Rmult_le_compat_r; lra). lra. }
  assert (PW : powerRZ 10 (k - 6) = q / 1000000) by now apply pow_minus6.
  destruct (read_back f s _ _ _ x Hf V F N) with (d := d) as (y & Y & S & _ & FY & A); [|exact R|].
  { rewrite number_value_abs, PW by lia. lra. }
  exists y. split; [exact Y|]. split; [exact S|]. split; [exact FY|].
  rewrite value_number, PW in A by exact F. fold a in A.
  replace (a - IZR m * (q / 1000000)) with (- ((IZR m * q - a * 1000000) / 1000000)) in A by field.
  rewrite Rabs_Ropp in A. unfold Rdiv in A at 1. rewrite Rabs_mult, (Rabs_pos_eq (/ 1000000)) in A by lra.
  assert (1000000 * q <= IZR m * q) by (apply Rmult_le_compat_r; lra). lra.
Qed.

(** * The WSTRING results *)
Definition ascii (s : list Z) : Prop := Forall (fun c => 0 <= c < 128)%Z s.
Lemma ascii_digits : forall l n, digits 10 l n -> ascii l.
Proof. intros l n D. apply digits10_range in D. eapply Forall_impl; [|exact D]. cbv beta. lia. Qed.
Lemma ascii_lit : forall s, forallb (fun c => (0 <=? c) && (c <? 128))%Z (str s) = true -> ascii (str s).
Proof. intros s H. apply Forall_forall. intros c I. rewrite forallb_forall in H. apply H in I. lia. Qed.
Lemma ascii_app : forall a b, ascii a -> ascii b -> ascii (a ++ b).
Proof. intros a b A B. apply Forall_app. now split. Qed.
Lemma ascii_canonical_int : forall s z, canonical_int s z -> ascii s.
Proof.
  intros s z [[_ [[_ D] _]]|(_ & r & -> & [[_ D] _])]; [now apply ascii_digits in D|].
  apply ascii_app; [now apply ascii_lit|now apply ascii_digits in D].
Qed.
Lemma ascii_time : forall s v, time_text s v -> ascii s.
Proof.
  intros s v H. unfold time_text in H.
  assert (U : Forall (fun u => ascii (fst (fst u))) time_units) by (unfold time_units; repeat (apply Forall_cons; [now apply ascii_lit|]); apply Forall_nil).
  revert U. induction H as [|u r s v _ IH|u w lim r s v n ds _ _ [[_ D] _] _ IH]; intros U; [constructor|..]; apply Forall_cons_iff in U as [U1 U].
  - now apply IH.
  - apply ascii_app; [now apply ascii_digits in D|]. apply ascii_app; [exact U1|now apply IH].
Qed.
Lemma ascii_date : forall s y m d, date_text s y m d -> ascii s.
Proof.
  intros s y m d (ys & ms & ds & -> & [_ Y] & [_ M] & [_ D]). apply ascii_digits in Y, M, D.
  apply ascii_app; [exact Y|]. apply ascii_app; [now apply ascii_lit|]. apply ascii_app; [exact M|].
  apply ascii_app; [now apply ascii_lit|exact D].
Qed.
Lemma ascii_clock : forall s h m sec ns, clock_text s h m sec ns -> ascii s.
Proof.
  intros s h m sec ns (hs & ms & ss & fs & -> & [_ H] & [_ M] & [_ S] & F). apply ascii_digits in H, M, S.
  apply ascii_app; [exact H|]. apply ascii_app; [now apply ascii_lit|]. apply ascii_app; [exact M|].
  apply ascii_app; [now apply ascii_lit|]. apply ascii_app; [exact S|].
  destruct F as [[-> _]|(w & ds & k & _ & -> & [_ D] & _)]; [constructor|].
  apply ascii_app; [now apply ascii_lit|now apply ascii_digits in D].
Qed.
Lemma ascii_number : forall s neg m e, number_text s neg m e -> ascii s.
Proof.
  intros s neg m e T. apply number_text_iff in T as (sign & l & -> & S & M).
  apply ascii_app; [now apply f_sign_ascii in S|now apply mantissa_ascii in M].
Qed.
Lemma ascii_units : forall k s, ascii s -> units k s = s.
Proof.
  intros k s A. induction A as [|c s C _ IH]; [destruct k; reflexivity|].
  unfold units in *. cbn [flat_map]. rewrite IH. destruct k.
  - unfold utf8_char. destruct (Z.ltb_spec c 128); [reflexivity|lia].
  - unfold utf16_char. destruct (Z.ltb_spec c 65536); [reflexivity|lia].
Qed.
Lemma ascii_holds : forall k d s, reads d s -> ascii s -> holds k d s.
Proof.
  intros k d s [N [rest ->]] A. split.
  - unfold ascii, text in *. rewrite Forall_forall in *. intros c I. specialize (N c I). specialize (A c I). cbv beta in *. unfold is_scalar. lia.
  - rewrite ascii_units by exact A. now exists rest.
Qed.
Lemma wide_text : forall r d s, r = Ok d -> reads d s -> ascii s -> (length s <= 2048)%nat ->
  exists w, to_wstring r = Ok w /\ reads w s.
Proof.
  intros r d s -> R A L. unfold to_wstring. cbn [obind]. rewrite (s2w_text d s st_string (ascii_holds STRING d s R A)).
  rewrite ascii_units by exact A. rewrite st_string_length. destruct (Nat.leb_spec (length s) 2049); [|lia].
  eexists. split; [reflexivity|]. split; [exact (proj1 R)|]. unfold st_string. rewrite skipn_zeros.
  rewrite zeros_pos by lia. now eexists.
Qed.
Lemma wide_int : forall z r d s, (Z.abs z < 10 ^ 20)%Z -> r = Ok d -> reads d s -> canonical_int s z ->
  exists w, to_wstring r = Ok w /\ reads w s.
Proof.
  intros z r d s B E R C. apply (wide_text r d s E R); [now apply ascii_canonical_int in C|].
  pose proof (canonical_int_length _ _ 20 C ltac:(lia) B). lia.
Qed.
