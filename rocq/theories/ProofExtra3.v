(** Proofs about the text of floating-point numbers. *)
From Coq Require Import String ZArith List Bool Lia Reals Lra SpecFloat.
From Flocq Require Import Core BinarySingleNaN.
From Verif Require Import Base ModelText ModelString ModelFloat ModelST ModelExtra SpecScalar SpecTimeNum SpecReal SpecText SpecExtra
  ProofBase ProofFlocq ProofReal ProofReal2 ProofString ProofExtra ProofExtra2.
Import ListNotations.
Open Scope list_scope.
Open Scope R_scope.

Lemma half_even_spec : forall n d, (0 <= n)%Z -> (0 < d)%Z -> nearest_int_even (half_even n d) (IZR n / IZR d).
Proof.
  intros n d N D. assert (Dr : 0 < IZR d) by now apply IZR_lt.
  assert (E : IZR n / IZR d = IZR (n / d) + IZR (n mod d) / IZR d).
  { rewrite (Z.div_mod n d) at 1 by lia. rewrite plus_IZR, mult_IZR. field. lra. }
  pose proof (Z.mod_pos_bound n d D) as B. set (q := (n / d)%Z) in *. set (r := (n mod d)%Z) in *.
  rewrite E. unfold half_even, nearest_int_even. fold q r. cbv zeta.
  assert (F : forall x, IZR x / IZR d * IZR d = IZR x) by (intros; field; lra).
  assert (R0 : 0 <= IZR r / IZR d).
  { apply Rmult_le_pos; [apply IZR_le; lia|]. left. now apply Rinv_0_lt_compat. }
  destruct (Z.ltb_spec (2 * r) d) as [L|L].
  - assert (IZR r / IZR d < / 2).
    { apply Rmult_lt_reg_r with (IZR d); [exact Dr|]. rewrite F. apply IZR_lt in L. rewrite mult_IZR in L. lra. }
    replace (IZR q - (IZR q + IZR r / IZR d)) with (- (IZR r / IZR d)) by ring. rewrite Rabs_Ropp, Rabs_pos_eq by exact R0.
    split; [lra|]. intros K. exfalso. lra.
  - destruct (Z.eqb_spec (2 * r) d) as [Q|Q].
    + assert (H : IZR r / IZR d = / 2).
      { apply Rmult_eq_reg_r with (IZR d); [|lra]. rewrite F. rewrite <- Q, mult_IZR. field. }
      rewrite H. destruct (Z.even q) eqn:EV.
      * replace (IZR q - (IZR q + / 2)) with (- / 2) by ring. rewrite Rabs_Ropp, Rabs_pos_eq by lra. now split; [lra|].
      * rewrite plus_IZR. replace (IZR q + 1 - (IZR q + / 2)) with (/ 2) by lra. rewrite Rabs_pos_eq by lra.
        split; [lra|]. intros _. rewrite Z.even_add, EV. reflexivity.
    + assert (H : / 2 < IZR r / IZR d < 1).
      { split; apply Rmult_lt_reg_r with (IZR d); try exact Dr; rewrite F.
        - assert (L' : (d < 2 * r)%Z) by lia. apply IZR_lt in L'. rewrite mult_IZR in L'. lra.
        - rewrite Rmult_1_l. apply IZR_lt. lia. }
      rewrite plus_IZR. replace (IZR q + 1 - (IZR q + IZR r / IZR d)) with (1 - IZR r / IZR d) by ring.
      rewrite Rabs_pos_eq by lra. split; [lra|]. intros K. exfalso. lra.
Qed.
Lemma half_even_bounds : forall n d a, (0 <= n)%Z -> (0 < d)%Z ->
  ((a * d <= n)%Z -> (a <= half_even n d)%Z) /\ ((n <= a * d)%Z -> (half_even n d <= a)%Z).
Proof.
  intros n d a N D. pose proof (Z.mod_pos_bound n d D) as B. pose proof (Z.div_mod n d ltac:(lia)) as E.
  unfold half_even. set (q := (n / d)%Z) in *. set (r := (n mod d)%Z) in *. cbv zeta. split; intros H.
  - assert (a <= q)%Z by nia. destruct (_ <? _)%Z; [lia|]. destruct (_ =? _)%Z; [destruct (Z.even q)|]; lia.
  - assert (q <= a)%Z by nia.
    assert (X : (q = a -> r = 0)%Z) by nia.
    destruct (Z.ltb_spec (2 * r) d); [lia|]. destruct (Z.eqb_spec (2 * r) d); [destruct (Z.even q)|]; lia.
Qed.

Lemma fl_den_pos : forall e, (0 < fl_den e)%Z.
Proof. intros. apply Z.pow_pos_nonneg; lia. Qed.
Lemma fl_num_pos : forall m e, (0 < fl_num m e)%Z.
Proof. intros. apply Z.mul_pos_pos; [lia|]. apply Z.pow_pos_nonneg; lia. Qed.
Lemma bpow_frac : forall e, bpow radix2 e = IZR (2 ^ Z.max e 0) / IZR (2 ^ Z.max (- e) 0).
Proof.
  intros e. destruct (Z.le_gt_cases 0 e) as [H|H].
  - rewrite Z.max_l, Z.max_r by lia. cbn [Z.pow]. rewrite (IZR_Zpower radix2) by exact H. field.
  - rewrite Z.max_r, Z.max_l by lia. cbn [Z.pow]. rewrite (IZR_Zpower radix2) by lia.
    rewrite bpow_opp. field. apply Rgt_not_eq, bpow_gt_0.
Qed.
Lemma value_frac : forall s m e, fl_value (FNum (S754_finite s m e)) =
  IZR (if s then - fl_num m e else fl_num m e) / IZR (fl_den e).
Proof.
  intros s m e. unfold fl_value, sf_value, fl_sf. rewrite value_finite, bpow_frac. unfold fl_num, fl_den.
  assert (D : IZR (2 ^ Z.max (- e) 0) <> 0) by (apply IZR_neq; pose proof (fl_den_pos e); unfold fl_den in *; lia).
  destruct s; cbn [cond_Zopp]; rewrite ?opp_IZR, mult_IZR; field; exact D.
Qed.
Lemma abs_value_frac : forall s m e, Rabs (fl_value (FNum (S754_finite s m e))) = IZR (fl_num m e) / IZR (fl_den e).
Proof.
  intros s m e. rewrite value_frac. pose proof (fl_num_pos m e). pose proof (fl_den_pos e).
  assert (0 < IZR (fl_den e)) by now apply IZR_lt. assert (0 < IZR (fl_num m e)) by now apply IZR_lt.
  assert (P : 0 < IZR (fl_num m e) / IZR (fl_den e)) by (apply Rdiv_lt_0_compat; assumption).
  destruct s; [rewrite opp_IZR; unfold Rdiv; rewrite Ropp_mult_distr_l_reverse, Rabs_Ropp|]; apply Rabs_pos_eq; unfold Rdiv in *; lra.
Qed.
Lemma frac_lt : forall a d c, (0 < d)%Z -> (IZR a / IZR d < IZR c <-> (a < c * d)%Z).
Proof.
  intros a d c D. assert (Dr : 0 < IZR d) by now apply IZR_lt. split; intros H.
  - apply lt_IZR. rewrite mult_IZR. apply (Rmult_lt_compat_r (IZR d)) in H; [|exact Dr].
    unfold Rdiv in H. rewrite Rmult_assoc, Rinv_l in H by lra. lra.
  - apply Rmult_lt_reg_r with (IZR d); [exact Dr|]. unfold Rdiv. rewrite Rmult_assoc, Rinv_l by lra.
    apply IZR_lt in H. rewrite mult_IZR in H. lra.
Qed.
Lemma floor_lt_spec : forall x c, fl_finite x = true -> (floor_lt x c = true <-> fl_value x < IZR c).
Proof.
  intros [[s|s| |s m e]|s p] c F; try discriminate.
  - cbn [floor_lt]. unfold fl_value, sf_value, fl_sf, SF2R. split; intros H.
    + apply IZR_lt. lia.
    + apply lt_IZR in H. lia.
  - cbn [floor_lt]. rewrite value_frac, frac_lt by apply fl_den_pos. pose proof (fl_den_pos e).
    set (a := (if s then (- fl_num m e)%Z else fl_num m e)) in *.
    pose proof (Z.div_mod a (fl_den e) ltac:(lia)). pose proof (Z.mod_pos_bound a (fl_den e) ltac:(lia)).
    rewrite Z.ltb_lt. split; intros; nia.
Qed.

(** The fixed notation. *)
Lemma number_shape : forall n, (0 <= n)%Z -> exists i f, canonical (dec_nat (n / 1000000)) i /\ fixed 6 (pad 6 (n mod 1000000)) f /\
  (i = n / 1000000)%Z /\ (i * 1000000 + f = n)%Z.
Proof.
  intros n N. exists (n / 1000000)%Z, (n mod 1000000)%Z. split; [apply dec_nat_canonical; apply Z.div_pos; lia|].
  split; [apply pad_fixed; [lia|]; change (10 ^ Z.of_nat 6)%Z with 1000000%Z; apply Z.mod_pos_bound; lia|].
  split; [reflexivity|]. pose proof (Z.div_mod n 1000000 ltac:(lia)). lia.
Qed.
Definition micro (x : fl) : Z :=
  match x with FNum (S754_finite _ m e) => half_even (fl_num m e * 1000000) (fl_den e) | _ => 0%Z end.
Lemma fixed6_shape : forall x, fl_finite x = true ->
  fmt_fixed6 x = minus (fl_negative x) ++ dec_nat (micro x / 1000000) ++ str "." ++ pad 6 (micro x mod 1000000).
Proof. intros [[s|s| |s m e]|s p] F; try discriminate; reflexivity. Qed.
Lemma micro_nonneg : forall x, (0 <= micro x)%Z.
Proof.
  intros [[s|s| |s m e]|s p]; cbn [micro]; try lia.
  pose proof (fl_num_pos m e) as P. assert (Q : (0 <= fl_num m e * 1000000)%Z) by lia.
  apply (proj1 (half_even_bounds _ _ 0 Q (fl_den_pos e))). lia.
Qed.
Lemma micro_spec : forall x, fl_finite x = true -> nearest_int_even (micro x) (Rabs (fl_value x) * 1000000).
Proof.
  intros [[s|s| |s m e]|s p] F; try discriminate; cbn [micro].
  - unfold fl_value, sf_value, fl_sf, SF2R. rewrite Rabs_R0, Rmult_0_l. unfold nearest_int_even. rewrite Rminus_0_r, Rabs_R0.
    split; [lra|]. reflexivity.
  - rewrite abs_value_frac. pose proof (fl_num_pos m e). pose proof (fl_den_pos e).
    replace (IZR (fl_num m e) / IZR (fl_den e) * 1000000) with (IZR (fl_num m e * 1000000) / IZR (fl_den e)).
    + apply half_even_spec; lia.
    + rewrite mult_IZR. field. apply IZR_neq. lia.
Qed.
Lemma fixed6_ok : forall x, fl_finite x = true -> fixed6_text (fmt_fixed6 x) x.
Proof.
  intros x F. rewrite fixed6_shape by exact F. destruct (number_shape _ (micro_nonneg x)) as (i & f & C & P & _ & E).
  exists (dec_nat (micro x / 1000000)), (pad 6 (micro x mod 1000000)), i, f. split; [reflexivity|].
  split; [exact C|]. split; [exact P|]. rewrite E. now apply micro_spec.
Qed.
Lemma minus_len : forall s, length (minus s) = if s then 1%nat else 0%nat.
Proof. now intros []. Qed.
Lemma minus_nz : forall s, Forall (fun c => c <> 0%Z) (minus s).
Proof. intros []; repeat constructor; lia. Qed.
Lemma fixed6_nz : forall x, fl_finite x = true -> Forall (fun c => c <> 0%Z) (fmt_fixed6 x).
Proof.
  intros x F. rewrite fixed6_shape by exact F. destruct (number_shape _ (micro_nonneg x)) as (i & f & [[_ C] _] & [_ P] & _).
  apply digits10_nz in C, P. apply Forall_app. split; [apply minus_nz|]. apply Forall_app. split; [exact C|].
  apply Forall_app. split; [now apply lit_nz|exact P].
Qed.
Lemma fixed6_length : forall x, fl_finite x = true ->
  length (fmt_fixed6 x) = ((if fl_negative x then 1 else 0) + length (dec_nat (micro x / 1000000)) + 7)%nat.
Proof.
  intros x F. rewrite fixed6_shape by exact F. destruct (number_shape _ (micro_nonneg x)) as (i & f & _ & [P _] & _).
  rewrite !app_length, P, minus_len. change (length (str ".")) with 1%nat. lia.
Qed.
(** Integer part of the rounded value. *)
Lemma f64_mantissa : forall s m e, fl_valid F64 (FNum (S754_finite s m e)) -> (Zpos m < 2 ^ 53)%Z /\ (e <= 971)%Z.
Proof.
  intros s m e V. split; [exact (valid_mantissa F64 _ _ _ V)|].
  destruct (valid_exponent F64 s m e (or_intror eq_refl) V) as [_ E]. exact E.
Qed.
Lemma micro_int : forall x c, fl_valid F64 x -> fl_finite x = true -> (2 ^ 53 < c)%Z ->
  (Rabs (fl_value x) < IZR c <-> (micro x / 1000000 < c)%Z).
Proof.
  intros [[s|s| |s m e]|s p] c V F C; try discriminate; cbn [micro].
  - unfold fl_value, sf_value, fl_sf, SF2R. rewrite Rabs_R0. split; intros; [cbn; lia|apply IZR_lt; lia].
  - destruct (f64_mantissa _ _ _ V) as [M _]. rewrite abs_value_frac, frac_lt by apply fl_den_pos.
    destruct (Z.le_gt_cases 0 e) as [E|E].
    + unfold fl_den, fl_num. rewrite Z.max_l, Z.max_r by lia. rewrite Z.pow_0_r, Z.mul_1_r.
      set (n := (Zpos m * 2 ^ e)%Z). assert (0 < n)%Z by (unfold n; apply Z.mul_pos_pos; [lia|apply Z.pow_pos_nonneg; lia]).
      assert (H1 := proj1 (half_even_bounds (n * 1000000) 1 (n * 1000000) ltac:(lia) ltac:(lia)) ltac:(lia)).
      assert (H2 := proj2 (half_even_bounds (n * 1000000) 1 (n * 1000000) ltac:(lia) ltac:(lia)) ltac:(lia)).
      replace (half_even (n * 1000000) 1) with (n * 1000000)%Z by lia. rewrite Z.div_mul by lia. reflexivity.
    + pose proof (fl_den_pos e) as D.
      assert (S : (fl_num m e <= 2 ^ 53 * fl_den e)%Z).
      { unfold fl_num. rewrite Z.max_r by lia. rewrite Z.pow_0_r. nia. }
      assert (U := proj2 (half_even_bounds (fl_num m e * 1000000) (fl_den e) (2 ^ 53 * 1000000) ltac:(pose proof (fl_num_pos m e); lia) D) ltac:(lia)).
      split; intros _.
      * apply Z.div_lt_upper_bound; lia.
      * nia.
Qed.
Lemma canonical_ge : forall l n w, canonical l n -> (0 <= w)%Z -> (10 ^ w <= n)%Z -> (w < Z.of_nat (length l))%Z.
Proof.
  intros l n w C W H. apply canonical_upper in C. assert (10 ^ w < 10 ^ Z.of_nat (length l))%Z by lia.
  apply Z.pow_lt_mono_r_iff in H0; lia.
Qed.

(** The exponential notation. *)
Lemma exp6_ok : forall m e, fl_valid F64 (FNum (S754_finite false m e)) -> (fl_den e <= fl_num m e)%Z ->
  let x := FNum (S754_finite false m e) in
  exp6_text (fmt_exp6 x) x /\ (length (fmt_exp6 x) <= 30)%nat /\ Forall (fun c => c <> 0%Z) (fmt_exp6 x).
Proof.
  intros m e V L x. destruct (f64_mantissa _ _ _ V) as [M EX]. pose proof (fl_den_pos e) as D. pose proof (fl_num_pos m e) as N.
  set (fl := (fl_num m e / fl_den e)%Z). assert (F1 : (1 <= fl)%Z) by (apply Z.div_le_lower_bound; lia).
  pose proof (Z.div_mod (fl_num m e) (fl_den e) ltac:(lia)) as DM. fold fl in DM.
  pose proof (Z.mod_pos_bound (fl_num m e) (fl_den e) D) as MB.
  pose proof (dec_nat_canonical fl ltac:(lia)) as C.
  assert (K0 : (0 <= Z.of_nat (length (dec_nat fl)) - 1 <= 308)%Z).
  { split; [destruct C as [[NE _] _]; destruct (dec_nat fl); [congruence|cbn [length]; lia]|].
    assert (fl < 10 ^ 309)%Z.
    { apply Z.div_lt_upper_bound; [lia|].
      assert (fl_num m e < 2 ^ 1024)%Z.
      { unfold fl_num. assert (2 ^ Z.max e 0 <= 2 ^ 971)%Z by (apply Z.pow_le_mono_r; lia).
        assert (0 < 2 ^ Z.max e 0)%Z by (apply Z.pow_pos_nonneg; lia).
        change (2 ^ 1024)%Z with (2 ^ (53 + 971))%Z. rewrite (Z.pow_add_r 2 53 971) by lia. nia. }
      assert (2 ^ 1024 < 10 ^ 309)%Z by (vm_compute; reflexivity). nia. }
    apply canonical_length with (w := 309%Z) in C; lia. }
  set (k := (Z.of_nat (length (dec_nat fl)) - 1)%Z) in *.
  assert (LO : (10 ^ k <= fl)%Z) by (apply canonical_lower; [exact C|lia]).
  assert (HI : (fl < 10 ^ (k + 1))%Z).
  { apply canonical_upper in C. unfold k. now replace (Z.of_nat (length (dec_nat fl)) - 1 + 1)%Z with (Z.of_nat (length (dec_nat fl))) by lia. }
  rewrite Z.pow_add_r in HI by lia. rewrite Z.pow_1_r in HI.
  assert (P : (0 < 10 ^ k)%Z) by (apply Z.pow_pos_nonneg; lia).
  set (n := half_even (fl_num m e * 1000000) (fl_den e * 10 ^ k)).
  assert (NB : (1000000 <= n <= 10000000)%Z).
  { assert (A1 : (fl_den e * 10 ^ k <= fl_den e * fl)%Z) by (apply Z.mul_le_mono_nonneg_l; lia).
    assert (A2 : (fl_den e * (fl + 1) <= fl_den e * (10 ^ k * 10))%Z) by (apply Z.mul_le_mono_nonneg_l; lia).
    assert (A3 : (0 < fl_den e * 10 ^ k)%Z) by (apply Z.mul_pos_pos; lia).
    assert (A4 : (0 <= fl_num m e * 1000000)%Z) by lia.
    split; [apply (proj1 (half_even_bounds _ _ 1000000 A4 A3))|apply (proj2 (half_even_bounds _ _ 10000000 A4 A3))]; lia. }
  assert (NS : nearest_int_even n (Rabs (fl_value x) * 1000000 / IZR (10 ^ k))).
  { unfold x. rewrite abs_value_frac.
    replace (IZR (fl_num m e) / IZR (fl_den e) * 1000000 / IZR (10 ^ k)) with (IZR (fl_num m e * 1000000) / IZR (fl_den e * 10 ^ k)).
    - apply half_even_spec; [lia|]. apply Z.mul_pos_pos; lia.
    - rewrite !mult_IZR. field. split; apply IZR_neq; lia. }
  assert (SHAPE : forall q j, (1000000 <= q < 10000000)%Z -> (0 <= j <= 309)%Z ->
     nearest_int_even q (Rabs (fl_value x) * 1000000 / IZR (10 ^ j)) -> 10000000 - / 2 <= Rabs (fl_value x) * 10000000 / IZR (10 ^ j) ->
     fmt_exp6 x = minus false ++ dec_nat (q / 1000000) ++ str "." ++ pad 6 (q mod 1000000) ++ str "e" ++ dec_int j ->
     exp6_text (fmt_exp6 x) x /\ (length (fmt_exp6 x) <= 30)%nat /\ Forall (fun c => c <> 0%Z) (fmt_exp6 x)).
  { intros q j Q J NJ LJ0 ->. destruct (number_shape q ltac:(lia)) as (i & f & Ci & Pf & I & E).
    destruct (dec_int_canonical j) as [[_ Cj]|[? _]]; [|lia].
    assert (I1 : (1 <= i <= 9)%Z) by (rewrite I; split; [apply Z.div_le_lower_bound|apply Zlt_succ_le, Z.div_lt_upper_bound]; lia).
    assert (L1 : length (dec_nat (q / 1000000)) = 1%nat).
    { apply canonical_length with (w := 1%Z) in Ci as L1; [|cbn; lia..]. destruct Ci as [[Ne _] _].
      destruct (dec_nat (q / 1000000)); [congruence|]. cbn [length] in *. lia. }
    assert (LJ : (Z.of_nat (length (dec_int j)) <= 3)%Z) by (apply canonical_length with (n := j); [exact Cj|cbn; lia..]).
    split; [|split].
    - exists (dec_nat (q / 1000000)), (pad 6 (q mod 1000000)), (dec_int j), i, f, j. split; [reflexivity|].
      split; [split; [exact L1|apply Ci]|]. split; [lia|]. split; [exact Pf|]. split; [exact Cj|]. rewrite E. exact (conj NJ LJ0).
    - rewrite !app_length, L1, (proj1 Pf). change (length (str ".")) with 1%nat. change (length (str "e")) with 1%nat. cbn [minus length]. lia.
    - destruct Ci as [[_ Ci] _], Pf as [_ Pf], Cj as [[_ Cj] _]. apply digits10_nz in Ci, Pf, Cj.
      apply Forall_app; split; [apply minus_nz|]. apply Forall_app; split; [exact Ci|].
      apply Forall_app; split; [now apply lit_nz|]. apply Forall_app; split; [exact Pf|].
      apply Forall_app; split; [now apply lit_nz|exact Cj]. }
  assert (FE : fmt_exp6 x = if (n =? 10000000)%Z then minus false ++ dec_nat (1000000 / 1000000) ++ str "." ++ pad 6 (1000000 mod 1000000) ++ str "e" ++ dec_int (k + 1)
                else minus false ++ dec_nat (n / 1000000) ++ str "." ++ pad 6 (n mod 1000000) ++ str "e" ++ dec_int k) by reflexivity.
  destruct (Z.eqb_spec n 10000000) as [E10|N10].
  - apply (SHAPE 1000000%Z (k + 1)%Z); [lia|lia| | |exact FE].
    2: { rewrite E10 in NS. destruct NS as [NS _]. rewrite Z.pow_add_r by lia. rewrite Z.pow_1_r, mult_IZR.
      replace (Rabs (fl_value x) * 10000000 / (IZR (10 ^ k) * 10)) with (Rabs (fl_value x) * 1000000 / IZR (10 ^ k)) by (field; apply IZR_neq; lia).
      apply Rabs_le_inv in NS. lra. }
    rewrite E10 in NS. destruct NS as [NS _]. rewrite Z.pow_add_r by lia. rewrite Z.pow_1_r, mult_IZR.
    set (r := Rabs (fl_value x) * 1000000) in *.
    replace (r / (IZR (10 ^ k) * 10)) with (r / IZR (10 ^ k) / 10) by (field; apply IZR_neq; lia).
    set (y := r / IZR (10 ^ k)) in *. apply Rabs_le_inv in NS.
    assert (A : Rabs (1000000 - y / 10) < / 2) by (apply Rabs_def1; lra).
    split; [lra|]. intros K. exfalso. lra.
  - apply (SHAPE n k); [lia|lia|exact NS| |exact FE].
    assert (A : IZR (10 ^ k) <= Rabs (fl_value x)).
    { unfold x. rewrite abs_value_frac. apply Rle_trans with (IZR fl); [now apply IZR_le|].
      apply Rmult_le_reg_r with (IZR (fl_den e)); [now apply IZR_lt|]. unfold Rdiv. rewrite Rmult_assoc, Rinv_l by (apply IZR_neq; lia).
      rewrite Rmult_1_r, <- mult_IZR. apply IZR_le. lia. }
    assert (B : 0 < IZR (10 ^ k)) by now apply IZR_lt.
    apply Rle_trans with 10000000; [lra|]. apply Rmult_le_reg_r with (IZR (10 ^ k)); [exact B|]. unfold Rdiv. rewrite Rmult_assoc, Rinv_l by lra. lra.
Qed.
