(** Proofs for selectors, shifts, endianness, BCD and bit patterns. *)
From Coq Require Import ZArith List Bool Lia SpecFloat.
From Verif Require Import Base ModelFloat ModelScalar SpecScalar ProofBase.
Import ListNotations.
Open Scope Z_scope.

(** * MAX / MIN *)

Lemma fold_max_spec : forall l x,
  let r := fold_left (fun a b => if b <? a then a else b) l x in
  (r = x \/ In r l) /\ x <= r /\ forall y, In y l -> y <= r.
Proof.
  induction l as [|a l IH]; intros x; cbn.
  - split; [now left|]. split; [lia|tauto].
  - destruct (Z.ltb_spec a x) as [H|H]; cbn in *.
    + destruct (IH x) as (A & B & C). split; [tauto|]. split; [exact B|].
      intros y [<-|Hy]; [lia|auto].
    + destruct (IH a) as (A & B & C). split; [intuition|]. split; [lia|].
      intros y [<-|Hy]; auto.
Qed.

Lemma fold_min_spec : forall l x,
  let r := fold_left (fun a b => if b <? a then b else a) l x in
  (r = x \/ In r l) /\ r <= x /\ forall y, In y l -> r <= y.
Proof.
  induction l as [|a l IH]; intros x; cbn.
  - split; [now left|]. split; [lia|tauto].
  - destruct (Z.ltb_spec a x) as [H|H]; cbn in *.
    + destruct (IH a) as (A & B & C). split; [intuition|]. split; [lia|].
      intros y [<-|Hy]; auto.
    + destruct (IH x) as (A & B & C). split; [tauto|]. split; [exact B|].
      intros y [<-|Hy]; [lia|auto].
Qed.

Lemma raw_slice_ok : forall A (mem : list A) size, 0 <= size <= Z.of_nat (length mem) ->
  raw_slice mem size = Ok (firstn (Z.to_nat size) mem).
Proof.
  intros. unfold raw_slice. destruct (Z.leb_spec size (Z.of_nat (length mem))); [reflexivity|lia].
Qed.

Lemma firstn_nonempty : forall A (mem : list A) size, 0 < size <= Z.of_nat (length mem) ->
  exists a l, firstn (Z.to_nat size) mem = a :: l.
Proof.
  intros A mem size H. destruct mem as [|a mem]; [cbn in H; lia|].
  destruct (Z.to_nat size) eqn:E; [lia|]. cbn. eauto.
Qed.

Lemma max_lemma : forall mem size, 0 < size <= Z.of_nat (length mem) ->
  exists r, MAX_ord size (Some mem) = Ok r /\
    In r (firstn (Z.to_nat size) mem) /\
    forall y, In y (firstn (Z.to_nat size) mem) -> y <= r.
Proof.
  intros mem size H. unfold MAX_ord. rewrite raw_slice_ok by lia. cbn.
  destruct (firstn_nonempty _ mem size H) as (a & l & ->). cbn -[Z.ltb].
  destruct (fold_max_spec l a) as (A & B & C).
  eexists. split; [reflexivity|]. split; [intuition|]. intros y [<-|Hy]; auto.
Qed.

Lemma min_lemma : forall mem size, 0 < size <= Z.of_nat (length mem) ->
  exists r, MIN_ord size (Some mem) = Ok r /\
    In r (firstn (Z.to_nat size) mem) /\
    forall y, In y (firstn (Z.to_nat size) mem) -> r <= y.
Proof.
  intros mem size H. unfold MIN_ord. rewrite raw_slice_ok by lia. cbn.
  destruct (firstn_nonempty _ mem size H) as (a & l & ->). cbn -[Z.ltb].
  destruct (fold_min_spec l a) as (A & B & C).
  eexists. split; [reflexivity|]. split; [intuition|]. intros y [<-|Hy]; auto.
Qed.

Lemma limit_lemma : forall mn v mx, mn <= mx ->
  let r := LIMIT_ord mn v mx in
  mn <= r <= mx /\ (r = v <-> mn <= v <= mx) /\
  (forall y, mn <= y <= mx -> Z.abs (r - v) <= Z.abs (y - v)) /\
  LIMIT_ord mn r mx = r.
Proof.
  intros mn v mx H. unfold LIMIT_ord. cbv zeta.
  destruct (Z.ltb_spec v mn), (Z.ltb_spec mx v); try lia;
    repeat split; intros; try lia;
    repeat match goal with |- context [Z.ltb ?a ?b] => destruct (Z.ltb_spec a b) end; lia.
Qed.

Lemma limit_monotone : forall mn v w mx, v <= w -> mn <= mx ->
  LIMIT_ord mn v mx <= LIMIT_ord mn w mx.
Proof.
  intros. unfold LIMIT_ord.
  destruct (Z.ltb_spec v mn), (Z.ltb_spec mx v), (Z.ltb_spec w mn), (Z.ltb_spec mx w); lia.
Qed.

Lemma limit_inverted : forall mn v mx, mx < mn ->
  LIMIT_ord mn v mx = (if v <? mn then mn else mx).
Proof.
  intros. unfold LIMIT_ord. destruct (Z.ltb_spec v mn), (Z.ltb_spec mx v); lia.
Qed.

(** * Float order *)

Lemma sfleb_trans : forall x y z, SFleb x y = true -> SFleb y z = true -> SFleb x z = true.
Proof.
  unfold SFleb.
  intros [[]|[]| |[] mx ex] [[]|[]| |[] my ey] [[]|[]| |[] mz ez];
    cbn -[Z.compare Pos.compare_cont]; intros H1 H2; try discriminate; try reflexivity;
    change Pos.compare_cont with Pos.compare_cont in *;
    change (Pos.compare_cont Eq mx my) with (Pos.compare mx my) in *;
    change (Pos.compare_cont Eq my mz) with (Pos.compare my mz) in *;
    change (Pos.compare_cont Eq mx mz) with (Pos.compare mx mz) in *.
  - destruct (Z.compare_spec ex ey), (Z.compare_spec ey ez); try discriminate;
      destruct (Z.compare_spec ex ez); try lia; try reflexivity.
    destruct (Pos.compare_spec mx my); try discriminate;
      destruct (Pos.compare_spec my mz); try discriminate;
      destruct (Pos.compare_spec mx mz); try lia; reflexivity.
  - destruct (Z.compare_spec ex ey), (Z.compare_spec ey ez); try discriminate;
      destruct (Z.compare_spec ex ez); try lia; try reflexivity.
    destruct (Pos.compare_spec mx my); try discriminate;
      destruct (Pos.compare_spec my mz); try discriminate;
      destruct (Pos.compare_spec mx mz); try lia; reflexivity.
Qed.

Lemma sfcompare_none : forall x y, SFcompare x y = None <-> sf_nan x || sf_nan y = true.
Proof.
  intros [[]|[]| |[] mx ex] [[]|[]| |[] my ey]; cbn -[Z.compare Pos.compare_cont];
    try (split; discriminate); try tauto;
    destruct (ex ?= ey); split; discriminate.
Qed.

Lemma sfcompare_swap : forall x y c, SFcompare x y = Some c -> SFcompare y x = Some (CompOpp c).
Proof.
  intros [[]|[]| |[] mx ex] [[]|[]| |[] my ey] c;
    cbn -[Z.compare Pos.compare_cont]; intros H; try discriminate;
    try (injection H as <-; reflexivity).
  - rewrite (Z.compare_antisym ex ey). destruct (ex ?= ey); cbn [CompOpp];
      injection H as <-; try reflexivity.
    change (Pos.compare_cont Eq my mx) with (Pos.compare my mx).
    change (Pos.compare_cont Eq mx my) with (Pos.compare mx my).
    rewrite (Pos.compare_antisym mx my). reflexivity.
  - rewrite (Z.compare_antisym ex ey). destruct (ex ?= ey); cbn [CompOpp];
      injection H as <-; try reflexivity.
    change (Pos.compare_cont Eq my mx) with (Pos.compare my mx).
    change (Pos.compare_cont Eq mx my) with (Pos.compare mx my).
    rewrite (Pos.compare_antisym mx my). reflexivity.
Qed.

Lemma sfleb_refl : forall x, sf_nan x = false -> SFleb x x = true.
Proof.
  unfold SFleb.
  intros [[]|[]| |[] m e] H; cbn -[Z.compare Pos.compare_cont]; try discriminate; try reflexivity;
    rewrite Z.compare_refl;
    change (Pos.compare_cont Eq m m) with (Pos.compare m m); rewrite Pos.compare_refl; reflexivity.
Qed.

Lemma fmax_facts : forall tie x y,
  (fmax tie x y = x \/ fmax tie x y = y) /\
  sf_nan (fmax tie x y) = sf_nan x && sf_nan y /\
  (sf_nan x = false -> SFleb x (fmax tie x y) = true) /\
  (sf_nan y = false -> SFleb y (fmax tie x y) = true).
Proof.
  intros tie x y. unfold fmax. destruct (SFcompare x y) as [c|] eqn:E.
  - pose proof (sfcompare_swap x y c E) as E'.
    assert (N : sf_nan x || sf_nan y = false).
    { destruct (sf_nan x || sf_nan y) eqn:N; [|reflexivity].
      apply sfcompare_none in N. congruence. }
    apply orb_false_iff in N. destruct N as [Nx Ny].
    destruct c; [destruct (tie x y)| |]; rewrite ?Nx, ?Ny; repeat split; auto;
      intros; auto using sfleb_refl; unfold SFleb; rewrite ?E, ?E'; reflexivity.
  - apply sfcompare_none in E.
    destruct (sf_nan x) eqn:Nx; cbn in E.
    + destruct x; try discriminate. repeat split; auto using sfleb_refl; discriminate.
    + rewrite E. replace (match x with S754_nan => y | _ => x end) with x
        by (destruct x; [reflexivity|reflexivity|discriminate|reflexivity]).
      repeat split; auto using sfleb_refl; discriminate.
Qed.

Lemma fmin_facts : forall tie x y,
  (fmin tie x y = x \/ fmin tie x y = y) /\
  sf_nan (fmin tie x y) = sf_nan x && sf_nan y /\
  (sf_nan x = false -> SFleb (fmin tie x y) x = true) /\
  (sf_nan y = false -> SFleb (fmin tie x y) y = true).
Proof.
  intros tie x y. unfold fmin. destruct (SFcompare x y) as [c|] eqn:E.
  - pose proof (sfcompare_swap x y c E) as E'.
    assert (N : sf_nan x || sf_nan y = false).
    { destruct (sf_nan x || sf_nan y) eqn:N; [|reflexivity].
      apply sfcompare_none in N. congruence. }
    apply orb_false_iff in N. destruct N as [Nx Ny].
    destruct c; [destruct (tie x y)| |]; rewrite ?Nx, ?Ny; repeat split; auto;
      intros; auto using sfleb_refl; unfold SFleb; rewrite ?E, ?E'; reflexivity.
  - apply sfcompare_none in E.
    destruct (sf_nan x) eqn:Nx; cbn in E.
    + destruct x; try discriminate. repeat split; auto using sfleb_refl; discriminate.
    + rewrite E. replace (match x with S754_nan => y | _ => x end) with x
        by (destruct x; [reflexivity|reflexivity|discriminate|reflexivity]).
      repeat split; auto using sfleb_refl; discriminate.
Qed.

Section Fold.
  Variable f : spec_float -> spec_float -> spec_float.
  Variable le : spec_float -> spec_float -> bool.
  Hypothesis le_trans : forall x y z, le x y = true -> le y z = true -> le x z = true.
  Hypothesis le_refl : forall x, sf_nan x = false -> le x x = true.
  Hypothesis facts : forall x y,
    (f x y = x \/ f x y = y) /\ sf_nan (f x y) = sf_nan x && sf_nan y /\
    (sf_nan x = false -> le x (f x y) = true) /\ (sf_nan y = false -> le y (f x y) = true).

  Lemma fold_float : forall l x,
    let r := fold_left f l x in
    In r (x :: l) /\ sf_nan r = forallb sf_nan (x :: l) /\
    forall y, In y (x :: l) -> sf_nan y = false -> le y r = true.
  Proof.
    induction l as [|a l IH]; intros x.
    - cbn. split; [now left|]. split; [now rewrite andb_true_r|].
      intros y [<-|[]] H. now apply le_refl.
    - destruct (facts x a) as (F1 & F2 & F3 & F4). specialize (IH (f x a)). cbn in IH |- *.
      destruct IH as (A & B & C). split.
      + destruct A as [A|A]; [|auto]. rewrite <- A. destruct F1 as [->| ->]; auto.
      + split; [rewrite B, F2; now rewrite andb_assoc|].
        intros y [<-|[<-|Hy]] Hn.
        * specialize (F3 Hn). apply (le_trans _ _ _ F3). apply C; [now left|].
          rewrite F2, Hn. reflexivity.
        * specialize (F4 Hn). apply (le_trans _ _ _ F4). apply C; [now left|].
          rewrite F2, Hn. apply andb_false_r.
        * apply C; auto.
  Qed.
End Fold.

Lemma max_float_lemma : forall tie mem size, 0 < size <= Z.of_nat (length mem) ->
  exists r, MAX_float tie size (Some mem) = Ok r /\
    In r (firstn (Z.to_nat size) mem) /\
    sf_nan r = forallb sf_nan (firstn (Z.to_nat size) mem) /\
    forall y, In y (firstn (Z.to_nat size) mem) -> sf_nan y = false -> SFleb y r = true.
Proof.
  intros tie mem size H. unfold MAX_float. rewrite raw_slice_ok by lia. cbn [obind].
  destruct (firstn_nonempty _ mem size H) as (a & l & ->). cbn [reduce unwrap].
  eexists. split; [reflexivity|].
  apply (fold_float (fmax tie) SFleb sfleb_trans sfleb_refl (fmax_facts tie) l a).
Qed.

Lemma min_float_lemma : forall tie mem size, 0 < size <= Z.of_nat (length mem) ->
  exists r, MIN_float tie size (Some mem) = Ok r /\
    In r (firstn (Z.to_nat size) mem) /\
    sf_nan r = forallb sf_nan (firstn (Z.to_nat size) mem) /\
    forall y, In y (firstn (Z.to_nat size) mem) -> sf_nan y = false -> SFleb r y = true.
Proof.
  intros tie mem size H. unfold MIN_float. rewrite raw_slice_ok by lia. cbn [obind].
  destruct (firstn_nonempty _ mem size H) as (a & l & ->). cbn [reduce unwrap].
  eexists. split; [reflexivity|].
  apply (fold_float (fmin tie) (fun x y => SFleb y x)
    (fun x y z A B => sfleb_trans z y x B A) sfleb_refl (fmin_facts tie) l a).
Qed.

Lemma sfltb_nan : forall x y, SFltb x y = true -> sf_nan x = false /\ sf_nan y = false.
Proof.
  intros x y H. apply orb_false_iff. destruct (sf_nan x || sf_nan y) eqn:E; [|reflexivity].
  apply sfcompare_none in E. unfold SFltb in H. rewrite E in H. discriminate.
Qed.

Lemma sfltb_false_leb : forall x y, sf_nan x = false -> sf_nan y = false ->
  SFltb x y = false -> SFleb y x = true.
Proof.
  intros x y Nx Ny H. unfold SFltb, SFleb in *.
  destruct (SFcompare x y) as [c|] eqn:E.
  - rewrite (sfcompare_swap _ _ _ E). destruct c; cbn; congruence.
  - apply sfcompare_none in E. rewrite Nx, Ny in E. discriminate.
Qed.

Lemma limit_float_nan : forall mn v mx, sf_nan (LIMIT_float mn v mx) = sf_nan v.
Proof.
  intros. unfold LIMIT_float.
  destruct (SFltb v mn) eqn:A; [apply sfltb_nan in A; destruct A; congruence|].
  destruct (SFltb mx v) eqn:B; [apply sfltb_nan in B; destruct B; congruence|]. reflexivity.
Qed.

Lemma limit_float_range : forall mn v mx, sf_nan v = false -> SFleb mn mx = true ->
  SFleb mn (LIMIT_float mn v mx) = true /\ SFleb (LIMIT_float mn v mx) mx = true /\
  (SFleb mn v = true -> SFleb v mx = true -> LIMIT_float mn v mx = v).
Proof.
  intros mn v mx Nv H.
  assert (N : sf_nan mn = false /\ sf_nan mx = false).
  { apply orb_false_iff. destruct (sf_nan mn || sf_nan mx) eqn:E; [|reflexivity].
    apply sfcompare_none in E. unfold SFleb in H. rewrite E in H. discriminate. }
  destruct N as [Nn Nx]. unfold LIMIT_float.
  destruct (SFltb v mn) eqn:A.
  - split; [now apply sfleb_refl|]. split; [exact H|]. intros C _. exfalso.
    unfold SFltb, SFleb in *. destruct (SFcompare v mn) as [c|] eqn:E; [|discriminate].
    rewrite (sfcompare_swap _ _ _ E) in C. destruct c; discriminate.
  - destruct (SFltb mx v) eqn:B.
    + split; [exact H|]. split; [now apply sfleb_refl|]. intros _ C. exfalso.
      unfold SFltb, SFleb in *. destruct (SFcompare mx v) as [c|] eqn:E; [|discriminate].
      rewrite (sfcompare_swap _ _ _ E) in C. destruct c; discriminate.
    + split; [now apply sfltb_false_leb|]. split; [now apply sfltb_false_leb|reflexivity].
Qed.

(** * Shifts and rotations *)

Lemma testbit_high : forall w x i, in_width w x -> 0 <= w <= i -> Z.testbit x i = false.
Proof.
  intros w x i [H0 H1] Hi. destruct (Z.eq_dec x 0) as [->|Hx]; [apply Z.bits_0|].
  apply Z.bits_above_log2; [lia|]. apply Z.log2_lt_pow2; [lia|].
  apply Z.lt_le_trans with (2 ^ w); [lia|]. apply Z.pow_le_mono_r; lia.
Qed.

Lemma shl_lemma : forall p w x n, 0 <= n < w ->
  exists r, SHL p w x n = Ok r /\ r = (x * 2 ^ n) mod 2 ^ w /\ in_width w r /\
    forall i, 0 <= i < w -> Z.testbit r i = (n <=? i) && Z.testbit x (i - n).
Proof.
  intros p w x n H. unfold SHL. destruct (Z.ltb_spec n w); [|lia].
  eexists. split; [reflexivity|]. split; [now rewrite Z.shiftl_mul_pow2 by lia|].
  split; [apply Z.mod_pos_bound, Z.pow_pos_nonneg; lia|].
  intros i Hi. rewrite Z.mod_pow2_bits_low by lia. rewrite Z.shiftl_spec by lia.
  destruct (Z.leb_spec n i); [reflexivity|]. now rewrite Z.testbit_neg_r by lia.
Qed.

Lemma shr_lemma : forall p w x n, in_width w x -> 0 <= n < w ->
  exists r, SHR p w x n = Ok r /\ r = x / 2 ^ n /\ in_width w r /\
    forall i, 0 <= i < w -> Z.testbit r i = (i + n <? w) && Z.testbit x (i + n).
Proof.
  intros p w x n Hx H. unfold SHR. destruct (Z.ltb_spec n w); [|lia].
  eexists. split; [reflexivity|]. split; [now rewrite Z.shiftr_div_pow2 by lia|].
  split.
  - rewrite Z.shiftr_div_pow2 by lia. destruct Hx. assert (0 < 2 ^ n) by (apply Z.pow_pos_nonneg; lia).
    split; [apply Z.div_pos; lia|]. apply Z.le_lt_trans with x; [|lia].
    apply Z.div_le_upper_bound; nia.
  - intros i Hi. rewrite Z.shiftr_spec by lia. destruct (Z.ltb_spec (i + n) w); [reflexivity|].
    now rewrite (testbit_high w) by (auto; lia).
Qed.

Lemma shl_beyond : forall w x n, 0 < w <= n ->
  SHL Debug w x n = Panic /\ SHL Release w x n = SHL Release w x (n mod w) /\
  SHR Debug w x n = Panic /\ SHR Release w x n = SHR Release w x (n mod w).
Proof.
  intros w x n H. unfold SHL, SHR. pose proof (Z.mod_pos_bound n w).
  destruct (Z.ltb_spec n w); [lia|]. destruct (Z.ltb_spec (n mod w) w); [|lia].
  repeat split.
Qed.

Lemma rol_range : forall w x n, 0 < w -> in_width w x -> in_width w (ROL w x n).
Proof.
  intros w x n Hw Hx. unfold ROL. cbv zeta. pose proof (Z.mod_pos_bound n w Hw) as Hk.
  set (k := n mod w) in *. split.
  - apply Z.lor_nonneg. split; [apply Z.mod_pos_bound, Z.pow_pos_nonneg; lia|].
    rewrite Z.shiftr_nonneg. destruct Hx; lia.
  - set (y := Z.lor _ _). assert (Hy : 0 <= y).
    { apply Z.lor_nonneg. split; [apply Z.mod_pos_bound, Z.pow_pos_nonneg; lia|].
      rewrite Z.shiftr_nonneg. destruct Hx; lia. }
    destruct (Z.eq_dec y 0) as [->|]; [apply Z.pow_pos_nonneg; lia|].
    apply Z.log2_lt_pow2; [lia|]. destruct (Z.lt_ge_cases (Z.log2 y) w) as [|Hge]; [assumption|].
    exfalso. assert (T : Z.testbit y (Z.log2 y) = true) by (apply Z.bit_log2; lia).
    unfold y in T at 1. rewrite Z.lor_spec, Z.mod_pow2_bits_high, Z.shiftr_spec in T by lia.
    rewrite (testbit_high w) in T by (auto; lia). discriminate.
Qed.

Lemma rol_bits : forall w x n i, 0 < w -> in_width w x -> 0 <= i < w ->
  Z.testbit (ROL w x n) i = Z.testbit x ((i - n) mod w).
Proof.
  intros w x n i Hw Hx Hi. unfold ROL. cbv zeta. pose proof (Z.mod_pos_bound n w Hw) as Hk.
  rewrite Z.lor_spec, Z.mod_pow2_bits_low, Z.shiftl_spec, Z.shiftr_spec by lia.
  rewrite Zminus_mod, (Z.mod_small i w) by lia. set (k := n mod w) in *.
  destruct (Z.le_gt_cases k i).
  - rewrite (testbit_high w x (i + (w - k))) by (auto; lia). rewrite orb_false_r.
    f_equal. symmetry. apply Z.mod_small. lia.
  - rewrite Z.testbit_neg_r by lia. cbn [orb]. f_equal.
    rewrite <- (Z_mod_plus_full _ 1). rewrite Z.mod_small; lia.
Qed.

Lemma ror_rol : forall w x n, 0 < w -> in_width w x -> ROR w x n = ROL w x (- n).
Proof.
  intros w x n Hw Hx. unfold ROR, ROL. cbv zeta. pose proof (Z.mod_pos_bound n w Hw) as Hk.
  destruct (Z.eq_dec (n mod w) 0) as [E|E].
  - rewrite E, Z.mod_opp_l_z by lia. rewrite Z.sub_0_r.
    rewrite Z.shiftr_0_r, Z.shiftl_0_r.
    replace (Z.shiftl x w mod 2 ^ w) with 0.
    2:{ rewrite Z.shiftl_mul_pow2 by lia. symmetry. apply Z.mod_mul. apply Z.pow_nonzero; lia. }
    rewrite (Z.mod_small x) by exact Hx. rewrite Z.lor_0_r.
    replace (Z.shiftr x w) with 0; [now rewrite Z.lor_0_r|].
    rewrite Z.shiftr_div_pow2 by lia. symmetry. apply Z.div_small. exact Hx.
  - rewrite Z.mod_opp_l_nz by lia. rewrite Z.lor_comm. f_equal. f_equal. lia.
Qed.

Lemma ror_bits : forall w x n i, 0 < w -> in_width w x -> 0 <= i < w ->
  Z.testbit (ROR w x n) i = Z.testbit x ((i + n) mod w).
Proof.
  intros. rewrite ror_rol, rol_bits by assumption. f_equal. f_equal. lia.
Qed.

Lemma width_ext : forall w x y, 0 < w -> in_width w x -> in_width w y ->
  (forall i, 0 <= i < w -> Z.testbit x i = Z.testbit y i) -> x = y.
Proof.
  intros w x y Hw Hx Hy H. apply Z.bits_inj'. intros i Hi.
  destruct (Z.lt_ge_cases i w); [apply H; lia|].
  now rewrite !(testbit_high w) by (auto; lia).
Qed.

Lemma rol_rol : forall w x m n, 0 < w -> in_width w x ->
  ROL w (ROL w x m) n = ROL w x (m + n).
Proof.
  intros w x m n Hw Hx. apply (width_ext w); auto using rol_range.
  intros i Hi. rewrite !rol_bits by (auto using rol_range; apply Z.mod_pos_bound; lia).
  f_equal. rewrite Zminus_mod_idemp_l. f_equal. lia.
Qed.

Lemma rol_0 : forall w x, 0 < w -> in_width w x -> ROL w x 0 = x.
Proof.
  intros w x Hw Hx. apply (width_ext w); auto using rol_range.
  intros i Hi. rewrite rol_bits by auto. f_equal. rewrite Z.sub_0_r. apply Z.mod_small. lia.
Qed.

Lemma ror_of_rol : forall w x n, 0 < w -> in_width w x ->
  ROR w (ROL w x n) n = x /\ ROL w (ROR w x n) n = x.
Proof.
  intros w x n Hw Hx. rewrite !ror_rol by auto using rol_range. rewrite !rol_rol by auto.
  split; [replace (n + - n) with 0 by lia|replace (- n + n) with 0 by lia]; now apply rol_0.
Qed.

Lemma rol_mod : forall w x n, 0 < w -> ROL w x n = ROL w x (n mod w) /\
  ROR w x n = ROR w x (n mod w).
Proof.
  intros. unfold ROL, ROR. rewrite Z.mod_mod by lia. split; reflexivity.
Qed.

(** * Bytes *)

Lemma le_bytes_length : forall n x, length (le_bytes n x) = n.
Proof. induction n; intros; cbn; auto. Qed.

Lemma le_bytes_range : forall n x, Forall (fun b => 0 <= b < 256) (le_bytes n x).
Proof.
  induction n; intros; cbn -[Z.modulo Z.div]; constructor; auto.
  apply Z.mod_pos_bound. lia.
Qed.

Lemma of_le_le : forall n x, of_le_bytes (le_bytes n x) = x mod 256 ^ Z.of_nat n.
Proof.
  induction n as [|n IH]; intros x.
  - cbn. now rewrite Z.mod_1_r.
  - cbn [le_bytes of_le_bytes]. rewrite IH.
    rewrite Nat2Z.inj_succ, Z.pow_succ_r by lia.
    rewrite Z.rem_mul_r; [lia|lia|]. apply Z.pow_pos_nonneg; lia.
Qed.

Lemma le_of_le : forall l, Forall (fun b => 0 <= b < 256) l ->
  le_bytes (length l) (of_le_bytes l) = l.
Proof.
  induction l as [|b l IH]; intros H; [reflexivity|].
  inversion H as [|? ? Hb Hl]; subst. cbn [length le_bytes of_le_bytes].
  rewrite (Z.mul_comm 256), Z.mod_add, Z.div_add by lia.
  rewrite Z.mod_small, Z.div_small, Z.add_0_l by lia. f_equal. now apply IH.
Qed.

Lemma of_le_range : forall l, Forall (fun b => 0 <= b < 256) l ->
  0 <= of_le_bytes l < 256 ^ Z.of_nat (length l).
Proof.
  intros l H. rewrite <- (le_of_le l H) at 1 2. rewrite of_le_le.
  apply Z.mod_pos_bound. apply Z.pow_pos_nonneg; lia.
Qed.

Lemma endian_type_facts : forall t, In t endian_types ->
  0 < it_bits t /\ 256 ^ Z.of_nat (Z.to_nat (it_bits t / 8)) = 2 ^ it_bits t.
Proof.
  intros t H. cbn in H.
  repeat (destruct H as [<-|H]; [split; [reflexivity|vm_compute; reflexivity]|]). contradiction.
Qed.

Lemma wrap_mod : forall t x, 0 < it_bits t -> (wrap t x) mod 2 ^ it_bits t = x mod 2 ^ it_bits t.
Proof.
  intros t x H. destruct (wrap_cong t x H) as [k ->]. apply Z_mod_plus_full.
Qed.

Lemma wrap_of_mod : forall t x, 0 < it_bits t -> wrap t (x mod 2 ^ it_bits t) = wrap t x.
Proof.
  intros [s b] x H. unfold wrap. cbn [it_signed it_bits] in *. destruct s.
  - rewrite Zplus_mod_idemp_l. reflexivity.
  - apply Z.mod_mod. apply Z.pow_nonzero; lia.
Qed.

Lemma swap_bytes_le : forall t x, In t endian_types ->
  le_bytes (Z.to_nat (it_bits t / 8)) (swap_bytes t x mod 2 ^ it_bits t) =
  rev (le_bytes (Z.to_nat (it_bits t / 8)) (x mod 2 ^ it_bits t)).
Proof.
  intros t x Ht. destruct (endian_type_facts t Ht) as [Hb Hp].
  unfold swap_bytes, of_be_bytes. rewrite wrap_mod by assumption.
  set (n := Z.to_nat (it_bits t / 8)) in *. set (u := x mod 2 ^ it_bits t).
  assert (F : Forall (fun b => 0 <= b < 256) (rev (le_bytes n u))).
  { apply Forall_rev, le_bytes_range. }
  pose proof (of_le_range _ F) as R. rewrite rev_length, le_bytes_length, Hp in R.
  rewrite Z.mod_small by exact R.
  rewrite <- (le_of_le _ F) at 2. now rewrite rev_length, le_bytes_length.
Qed.

Lemma swap_swap : forall t x, In t endian_types -> in_ity t x ->
  swap_bytes t (swap_bytes t x) = x.
Proof.
  intros t x Ht Hx. destruct (endian_type_facts t Ht) as [Hb Hp].
  unfold swap_bytes at 1. unfold of_be_bytes. rewrite swap_bytes_le by assumption.
  rewrite rev_involutive, of_le_le, Hp, Z.mod_mod by (apply Z.pow_nonzero; lia).
  rewrite wrap_of_mod by assumption. now apply wrap_id.
Qed.

Lemma to_big_memory : forall h t x, In t endian_types ->
  memory_bytes h t (TO_BIG_ENDIAN h t x) =
    rev (le_bytes (Z.to_nat (it_bits t / 8)) (x mod 2 ^ it_bits t)) /\
  memory_bytes h t (TO_LITTLE_ENDIAN h t x) =
    le_bytes (Z.to_nat (it_bits t / 8)) (x mod 2 ^ it_bits t).
Proof.
  intros h t x Ht. unfold memory_bytes, TO_BIG_ENDIAN, TO_LITTLE_ENDIAN, to_be, to_le.
  destruct h; cbv zeta; rewrite ?swap_bytes_le by assumption; rewrite ?rev_involutive;
    split; reflexivity.
Qed.

Lemma from_to_swap : forall h t x, 
  FROM_BIG_ENDIAN h t (TO_BIG_ENDIAN h t x) = swap_bytes t x /\
  FROM_LITTLE_ENDIAN h t (TO_LITTLE_ENDIAN h t x) = swap_bytes t x.
Proof. intros [] t x; split; reflexivity. Qed.

Lemma cross_inverse : forall h t x, In t endian_types -> in_ity t x ->
  FROM_LITTLE_ENDIAN h t (TO_BIG_ENDIAN h t x) = x /\
  FROM_BIG_ENDIAN h t (TO_LITTLE_ENDIAN h t x) = x.
Proof.
  intros [] t x Ht Hx; unfold FROM_LITTLE_ENDIAN, FROM_BIG_ENDIAN, TO_BIG_ENDIAN,
    TO_LITTLE_ENDIAN, to_be, to_le; split; auto using swap_swap.
Qed.

Lemma float_endian_id : forall n x, 0 <= x < 256 ^ Z.of_nat n ->
  TO_BIG_ENDIAN_float n x = x /\ TO_LITTLE_ENDIAN_float n x = x /\
  FROM_BIG_ENDIAN_float n x = x /\ FROM_LITTLE_ENDIAN_float n x = x.
Proof.
  intros n x H. unfold TO_BIG_ENDIAN_float, TO_LITTLE_ENDIAN_float, FROM_BIG_ENDIAN_float,
    FROM_LITTLE_ENDIAN_float, of_be_bytes, be_bytes. rewrite rev_involutive, of_le_le.
  rewrite Z.mod_small by exact H. repeat split.
Qed.

(** * BCD *)

Lemma bcd_loop_spec : forall k x i, 0 <= i ->
  bcd_loop x i k = true <-> forall j, i <= j < i + Z.of_nat k -> nibble x j <= 9.
Proof.
  assert (N : forall x i, 0 <= i -> Z.land (Z.shiftr x (4 * i)) 15 = nibble x i).
  { intros x i Hi. unfold nibble. change 15 with (Z.ones 4). rewrite Z.land_ones by lia.
    rewrite Z.shiftr_div_pow2 by lia. change 16 with (2 ^ 4). rewrite <- Z.pow_mul_r by lia.
    reflexivity. }
  induction k as [|k IH]; intros x i Hi; cbn [bcd_loop].
  - split; [intros; lia|reflexivity].
  - rewrite N by assumption. destruct (Z.ltb_spec 9 (nibble x i)).
    + split; [discriminate|]. intros A. specialize (A i). lia.
    + rewrite IH by lia. split; intros A j Hj.
      * destruct (Z.eq_dec j i) as [->|]; [assumption|]. apply A. lia.
      * apply A. lia.
Qed.

Lemma nibble_succ : forall x i, 0 <= i -> nibble x (i + 1) = nibble (x / 16) i.
Proof.
  intros x i Hi. unfold nibble. rewrite Z.pow_add_r, Z.pow_1_r, Z.mul_comm by lia.
  rewrite Z.div_div; [reflexivity|lia|apply Z.pow_pos_nonneg; lia].
Qed.

Lemma bcd_exists : forall k x, 0 <= x < 16 ^ Z.of_nat k ->
  (forall j, 0 <= j < Z.of_nat k -> nibble x j <= 9) ->
  exists n, 0 <= n < 10 ^ Z.of_nat k /\ x = bcd_encode k n.
Proof.
  induction k as [|k IH]; intros x Hx H.
  - exists 0. cbn in *. lia.
  - rewrite Nat2Z.inj_succ, Z.pow_succ_r in Hx by lia.
    destruct (IH (x / 16)) as (n & Hn & E).
    + split; [apply Z.div_pos; lia|]. apply Z.div_lt_upper_bound; lia.
    + intros j Hj. rewrite <- nibble_succ by lia. apply H. lia.
    + exists (x mod 16 + 10 * n).
      assert (D : 0 <= x mod 16 <= 9).
      { pose proof (Z.mod_pos_bound x 16). specialize (H 0). unfold nibble in H.
        rewrite Z.pow_0_r, Z.div_1_r in H. lia. }
      rewrite Nat2Z.inj_succ, Z.pow_succ_r by lia. split; [lia|].
      cbn [bcd_encode]. rewrite (Z.mul_comm 10), Z.mod_add, Z.div_add by lia.
      rewrite (Z.mod_small (x mod 16)), (Z.div_small (x mod 16)) by lia.
      rewrite Z.add_0_l, <- E. pose proof (Z.div_mod x 16). lia.
Qed.

Lemma bcd_encode_nibbles : forall k n,
  0 <= bcd_encode k n < 16 ^ Z.of_nat k /\
  forall j, 0 <= j < Z.of_nat k -> nibble (bcd_encode k n) j <= 9.
Proof.
  induction k as [|k IH]; intros n.
  - cbn. split; intros; lia.
  - cbn [bcd_encode]. destruct (IH (n / 10)) as [R N].
    pose proof (Z.mod_pos_bound n 10) as M.
    rewrite Nat2Z.inj_succ, Z.pow_succ_r by lia. split; [lia|].
    intros j Hj. destruct (Z.eq_dec j 0) as [->|].
    + unfold nibble. rewrite Z.pow_0_r, Z.div_1_r, Z.mul_comm, Z.mod_add by lia.
      rewrite Z.mod_small by lia. lia.
    + replace j with ((j - 1) + 1) by lia. rewrite nibble_succ by lia.
      rewrite (Z.mul_comm 16), Z.div_add, Z.div_small, Z.add_0_l by lia. apply N. lia.
Qed.

Lemma bcd_lemma : forall w x, In w bit_widths -> in_width w x ->
  (IS_VALID_BCD w x = true <-> forall j, 0 <= j < w / 4 -> nibble x j <= 9) /\
  (IS_VALID_BCD w x = true <->
   exists n, 0 <= n < 10 ^ (w / 4) /\ x = bcd_encode (Z.to_nat (w / 4)) n).
Proof.
  intros w x Hw Hx. unfold IS_VALID_BCD.
  assert (F : Z.of_nat (Z.to_nat (w / 4)) = w / 4 /\ 16 ^ (w / 4) = 2 ^ w).
  { cbn in Hw. repeat (destruct Hw as [<-|Hw]; [split; vm_compute; reflexivity|]). contradiction. }
  destruct F as [F1 F2].
  assert (A : bcd_loop x 0 (Z.to_nat (w / 4)) = true <->
              forall j, 0 <= j < w / 4 -> nibble x j <= 9).
  { rewrite bcd_loop_spec by lia. rewrite F1, Z.add_0_l. reflexivity. }
  split; [exact A|]. rewrite A. split.
  - intros H. destruct (bcd_exists (Z.to_nat (w / 4)) x) as (n & Hn & E);
      rewrite ?F1 in *; [rewrite F2; exact Hx|exact H|eauto].
  - intros (n & _ & ->) j Hj. apply bcd_encode_nibbles. now rewrite F1.
Qed.

(** * Bit patterns of floats *)

Lemma digits2_bounds : forall p,
  2 ^ (Zpos (digits2_pos p) - 1) <= Zpos p < 2 ^ Zpos (digits2_pos p).
Proof.
  induction p as [p IH|p IH|]; cbn [digits2_pos].
  - rewrite Pos2Z.inj_succ. replace (Z.succ (Zpos (digits2_pos p)) - 1)
      with (Z.succ (Zpos (digits2_pos p) - 1)) by lia.
    rewrite !Z.pow_succ_r by lia. lia.
  - rewrite Pos2Z.inj_succ. replace (Z.succ (Zpos (digits2_pos p)) - 1)
      with (Z.succ (Zpos (digits2_pos p) - 1)) by lia.
    rewrite !Z.pow_succ_r by lia. lia.
  - cbn. lia.
Qed.

Lemma valid_finite : forall f s p e, 0 < f_mw f ->
  valid_binary (f_prec f) (f_emax f) (S754_finite s p e) = true ->
  f_emin f <= e <= f_emax f - f_prec f /\ Zpos p < 2 * 2 ^ f_mw f /\
  (Zpos p < 2 ^ f_mw f -> e = f_emin f).
Proof.
  intros f s p e Hmw H. cbn in H. unfold bounded, canonical_mantissa in H.
  apply andb_true_iff in H. destruct H as [H1 H2]. apply Zeq_bool_eq in H1. apply Z.leb_le in H2.
  unfold fexp, emin in H1. fold (f_emin f) in H1.
  pose proof (digits2_bounds p) as D. set (d := Zpos (digits2_pos p)) in *.
  assert (Hd : 0 < d) by (unfold d; lia).
  unfold f_prec in *.
  assert (Dle : d <= f_mw f + 1) by lia.
  split; [lia|]. split.
  - apply Z.lt_le_trans with (2 ^ d); [lia|].
    rewrite <- (Z.pow_succ_r 2 (f_mw f)) by lia. apply Z.pow_le_mono_r; lia.
  - intros Hp. destruct (Z.eq_dec d (f_mw f + 1)) as [E|]; [|lia].
    exfalso. rewrite E in D. replace (f_mw f + 1 - 1) with (f_mw f) in D by lia. lia.
Qed.

Definition fmt_ok (f : fmt) : Prop := 0 < f_mw f /\ 1 < f_ew f.

Lemma F32_ok : fmt_ok F32. Proof. split; reflexivity. Qed.
Lemma F64_ok : fmt_ok F64. Proof. split; reflexivity. Qed.

Lemma fields : forall f s e m, fmt_ok f -> 0 <= e < 2 ^ f_ew f -> 0 <= m < 2 ^ f_mw f ->
  let b := pack f s e m in
  0 <= b < 2 ^ f_width f /\
  Z.testbit b (f_mw f + f_ew f) = s /\
  (b / 2 ^ f_mw f) mod 2 ^ f_ew f = e /\ b mod 2 ^ f_mw f = m.
Proof.
  intros f s e m [H1 H2] He Hm. cbv zeta. unfold pack.
  assert (PM : 0 < 2 ^ f_mw f) by (apply Z.pow_pos_nonneg; lia).
  assert (PE : 0 < 2 ^ f_ew f) by (apply Z.pow_pos_nonneg; lia).
  assert (W : 2 ^ f_width f = 2 * (2 ^ f_ew f * 2 ^ f_mw f)).
  { unfold f_width. rewrite !Z.pow_add_r by lia. lia. }
  rewrite Z.pow_add_r by lia.
  set (M := 2 ^ f_mw f) in *. set (E := 2 ^ f_ew f) in *.
  assert (D : ((if s then M * E else 0) + e * M + m) / M = (if s then E else 0) + e).
  { replace ((if s then M * E else 0) + e * M + m) with (m + ((if s then E else 0) + e) * M)
      by (destruct s; lia).
    rewrite Z.div_add, Z.div_small by lia. lia. }
  split; [rewrite W; destruct s; nia|]. split; [|split].
  - rewrite Z.testbit_eqb by lia. rewrite Z.pow_add_r by lia. fold M E.
    rewrite <- Z.div_div by lia. rewrite D.
    destruct s.
    + replace (E + e) with (e + 1 * E) by lia. rewrite Z.div_add, Z.div_small by lia. reflexivity.
    + rewrite Z.div_small by lia. reflexivity.
  - rewrite D. destruct s.
    + replace (E + e) with (e + 1 * E) by lia. rewrite Z.mod_add, Z.mod_small by lia. reflexivity.
    + rewrite Z.mod_small by lia. lia.
  - replace ((if s then M * E else 0) + e * M + m) with (m + ((if s then E else 0) + e) * M)
      by (destruct s; lia).
    rewrite Z.mod_add, Z.mod_small by lia. reflexivity.
Qed.

Lemma pack_fields : forall f b, fmt_ok f -> 0 <= b < 2 ^ f_width f ->
  b = pack f (Z.testbit b (f_mw f + f_ew f)) ((b / 2 ^ f_mw f) mod 2 ^ f_ew f)
        (b mod 2 ^ f_mw f).
Proof.
  intros f b [H1 H2] Hb. unfold pack.
  assert (PM : 0 < 2 ^ f_mw f) by (apply Z.pow_pos_nonneg; lia).
  assert (PE : 0 < 2 ^ f_ew f) by (apply Z.pow_pos_nonneg; lia).
  assert (W : 2 ^ f_width f = 2 * (2 ^ f_ew f * 2 ^ f_mw f)).
  { unfold f_width. rewrite !Z.pow_add_r by lia. lia. }
  rewrite Z.testbit_eqb by lia. rewrite Z.pow_add_r by lia.
  set (M := 2 ^ f_mw f) in *. set (E := 2 ^ f_ew f) in *.
  rewrite <- Z.div_div by lia.
  pose proof (Z.div_mod b M). pose proof (Z.div_mod (b / M) E).
  assert (Q : 0 <= b / M / E < 2).
  { split; [apply Z.div_pos; [apply Z.div_pos|]; lia|].
    apply Z.div_lt_upper_bound; [lia|]. apply Z.div_lt_upper_bound; lia. }
  destruct (Z.eqb_spec ((b / M / E) mod 2) 1) as [A|A].
  - assert (b / M / E = 1) by (rewrite Z.mod_small in A by lia; exact A). nia.
  - assert (b / M / E = 0) by (rewrite Z.mod_small in A by lia; lia). nia.
Qed.

Lemma bits_roundtrip : forall f b, fmt_ok f -> 0 <= b < 2 ^ f_width f ->
  to_bits f (from_bits f b) = b.
Proof.
  intros f b Hf Hb. rewrite (pack_fields f b Hf Hb) at 2.
  assert (Hf' := Hf). destruct Hf' as [H1 H2].
  assert (PM : 0 < 2 ^ f_mw f) by (apply Z.pow_pos_nonneg; lia).
  assert (PE : 0 < 2 ^ f_ew f) by (apply Z.pow_pos_nonneg; lia).
  unfold from_bits. cbv zeta.
  set (s := Z.testbit b _). set (e := (b / _) mod _). set (m := b mod _).
  assert (He : 0 <= e < 2 ^ f_ew f) by (apply Z.mod_pos_bound; lia).
  assert (Hm : 0 <= m < 2 ^ f_mw f) by (apply Z.mod_pos_bound; lia).
  destruct (Z.eqb_spec e 0) as [->|E0].
  - destruct m as [|p|p]; [reflexivity| |lia]. cbn [to_bits].
    destruct (Z.ltb_spec (Zpos p) (2 ^ f_mw f)); [reflexivity|lia].
  - destruct (Z.eqb_spec e (2 ^ f_ew f - 1)) as [->|E1].
    + destruct m as [|p|p]; [reflexivity|reflexivity|lia].
    + destruct (m + 2 ^ f_mw f) as [|p|p] eqn:E; [lia| |lia]. cbn [to_bits].
      destruct (Z.ltb_spec (Zpos p) (2 ^ f_mw f)); [lia|]. f_equal; lia.
Qed.

Lemma value_roundtrip : forall f x, fmt_ok f -> fl_valid f x ->
  from_bits f (to_bits f x) = x /\ 0 <= to_bits f x < 2 ^ f_width f.
Proof.
  intros f x Hf Hx. assert (Hf' := Hf). destruct Hf' as [H1 H2].
  assert (PM : 0 < 2 ^ f_mw f) by (apply Z.pow_pos_nonneg; lia).
  assert (PE : 4 <= 2 ^ f_ew f).
  { replace 4 with (2 ^ 2) by reflexivity. apply Z.pow_le_mono_r; lia. }
  assert (EE : 2 ^ f_ew f = 2 * f_emax f).
  { unfold f_emax. rewrite <- Z.pow_succ_r by lia. f_equal. lia. }
  destruct x as [[s|s| |s p e]|s p]; cbn [to_bits fl_valid] in *.
  - destruct (fields f s 0 0 Hf) as (A & B & C & D); [lia|lia|]. split; [|exact A].
    unfold from_bits. rewrite B, C, D. reflexivity.
  - destruct (fields f s (2 ^ f_ew f - 1) 0 Hf) as (A & B & C & D); [lia|lia|].
    split; [|exact A]. unfold from_bits. rewrite B, C, D.
    destruct (Z.eqb_spec (2 ^ f_ew f - 1) 0); [lia|]. rewrite Z.eqb_refl. reflexivity.
  - contradiction.
  - apply valid_finite in Hx; [|assumption]. destruct Hx as (V1 & V2 & V3).
    destruct (Z.ltb_spec (Zpos p) (2 ^ f_mw f)) as [L|L].
    + destruct (fields f s 0 (Zpos p) Hf) as (A & B & C & D); [lia|lia|]. split; [|exact A].
      unfold from_bits. rewrite B, C, D. cbn [Z.eqb]. now rewrite V3.
    + destruct (fields f s (e - f_emin f + 1) (Zpos p - 2 ^ f_mw f) Hf) as (A & B & C & D).
      * unfold f_emin in *. lia.
      * lia.
      * split; [|exact A]. unfold from_bits. rewrite B, C, D.
        destruct (Z.eqb_spec (e - f_emin f + 1) 0); [lia|].
        destruct (Z.eqb_spec (e - f_emin f + 1) (2 ^ f_ew f - 1));
          [unfold f_emin in *; lia|].
        replace (Zpos p - 2 ^ f_mw f + 2 ^ f_mw f) with (Zpos p) by lia.
        do 2 f_equal. lia.
  - destruct (fields f s (2 ^ f_ew f - 1) (Zpos p) Hf) as (A & B & C & D); [lia|lia|].
    split; [|exact A]. unfold from_bits. rewrite B, C, D.
    destruct (Z.eqb_spec (2 ^ f_ew f - 1) 0); [lia|]. rewrite Z.eqb_refl. reflexivity.
Qed.

Lemma valid_lemma : forall f b, fmt_ok f -> 0 <= b < 2 ^ f_width f ->
  IS_VALID (from_bits f b) = negb (exponent_field f b =? 2 ^ f_ew f - 1).
Proof.
  intros f b [H1 H2] Hb. unfold IS_VALID, from_bits, exponent_field. cbv zeta.
  assert (PM : 0 < 2 ^ f_mw f) by (apply Z.pow_pos_nonneg; lia).
  assert (PE : 4 <= 2 ^ f_ew f).
  { replace 4 with (2 ^ 2) by reflexivity. apply Z.pow_le_mono_r; lia. }
  pose proof (Z.mod_pos_bound b (2 ^ f_mw f) PM) as Hm.
  set (s := Z.testbit b _). set (e := (b / _) mod _). set (m := b mod _) in *.
  destruct (Z.eqb_spec e 0) as [->|E0].
  - destruct (Z.eqb_spec 0 (2 ^ f_ew f - 1)); [lia|]. now destruct m.
  - destruct (Z.eqb_spec e (2 ^ f_ew f - 1)) as [->|E1]; [now destruct m|].
    destruct (m + 2 ^ f_mw f) eqn:E; try lia. reflexivity.
Qed.
