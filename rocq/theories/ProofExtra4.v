(** LREAL_TO_STRING as a whole, and parsing of decimal literals. *)
From Coq Require Import String ZArith List Bool Lia Reals Lra SpecFloat.
From Flocq Require Import Core BinarySingleNaN.
From Verif Require Import Base ModelText ModelString ModelFloat ModelST ModelExtra SpecScalar SpecTimeNum SpecReal SpecText SpecExtra
  ProofBase ProofFlocq ProofReal ProofReal2 ProofString ProofExtra ProofExtra2 ProofExtra3.
Import ListNotations.
Open Scope list_scope.
Open Scope R_scope.

Lemma neg_sign : forall x, fl_finite x = true -> fl_value x < 0 -> fl_negative x = true.
Proof.
  intros [[s|s| |[] m e]|s p] F H; try discriminate; try reflexivity.
  - unfold fl_value, sf_value, fl_sf, SF2R in H. lra.
  - pose proof (value_pos m e) as P. unfold fl_value, sf_value, fl_sf in H. lra.
Qed.
Lemma big_frac : forall s m e c, (1 <= c)%Z -> IZR c <= fl_value (FNum (S754_finite s m e)) ->
  s = false /\ (fl_den e <= fl_num m e)%Z.
Proof.
  intros s m e c C H. rewrite value_frac in H. pose proof (fl_den_pos e) as D. pose proof (fl_num_pos m e) as N.
  assert (K : ~ ((if s then - fl_num m e else fl_num m e) < c * fl_den e)%Z).
  { intros K. apply (frac_lt _ _ c D) in K. lra. }
  destruct s; [nia|]. split; [reflexivity|nia].
Qed.
Lemma lreal_text : forall x, fl_valid F64 x -> fl_finite x = true -> IZR (- 10 ^ 73) < fl_value x ->
  exists d s, LREAL_TO_STRING x = Ok d /\ reads d s /\
    (fl_value x < IZR (10 ^ 14) -> fixed6_text s x) /\ (IZR (10 ^ 14) <= fl_value x -> exp6_text s x).
Proof.
  intros x V F L. unfold LREAL_TO_STRING, LREAL_TO_STRING_EXT, float_to_string.
  destruct (floor_lt x (10 ^ 14)) eqn:B.
  - apply floor_lt_spec in B; [|exact F].
    assert (A : Rabs (fl_value x) < IZR (10 ^ 73)).
    { rewrite opp_IZR in L. assert (IZR (10 ^ 14) < IZR (10 ^ 73)) by (apply IZR_lt; reflexivity). apply Rabs_def1; lra. }
    apply (micro_int x _ V F) in A; [|reflexivity].
    assert (LEN : (length (fmt_fixed6 x) <= 81)%nat).
    { rewrite fixed6_length by exact F. destruct (number_shape _ (micro_nonneg x)) as (i & f & C & _ & I & _). rewrite <- I in A.
      apply canonical_length with (w := 73%Z) in C; [|lia|exact A|lia]. destruct (fl_negative x); lia. }
    destruct (write_zero _ LEN (fixed6_nz x F)) as [d [W R]]. exists d, (fmt_fixed6 x). split; [exact W|]. split; [exact R|].
    split; [intros _; now apply fixed6_ok|]. intros. lra.
  - assert (G : IZR (10 ^ 14) <= fl_value x).
    { apply Rnot_lt_le. intros K. apply floor_lt_spec in K; [congruence|exact F]. }
    destruct x as [[s|s| |s m e]|s p]; try discriminate.
    destruct (big_frac s m e (10 ^ 14) ltac:(discriminate) G) as [-> K]. destruct (exp6_ok m e V K) as (T & LEN & NZ).
    destruct (write_zero _ ltac:(eapply Nat.le_trans; [exact LEN|lia]) NZ) as [d [W R]].
    exists d. eexists. split; [exact W|]. split; [exact R|]. split; [intros; lra|]. intros _. exact T.
Qed.
Lemma lreal_abort : forall x, fl_valid F64 x -> fl_finite x = true -> fl_value x <= IZR (- 10 ^ 73) ->
  forall dest, (81 <= length dest)%nat -> LREAL_TO_STRING_EXT x dest = Panic.
Proof.
  intros x V F L dest DL. unfold LREAL_TO_STRING_EXT, float_to_string.
  assert (N0 : IZR (- 10 ^ 73) < 0) by (apply IZR_lt; reflexivity).
  assert (B : floor_lt x (10 ^ 14) = true).
  { apply floor_lt_spec; [exact F|]. assert (0 < IZR (10 ^ 14)) by (apply IZR_lt; reflexivity). lra. }
  rewrite B. unfold write_buf. change DEFAULT_STRING_LEN with 81%nat.
  destruct (Nat.ltb_spec (length dest) 81); [lia|].
  destruct (Nat.ltb_spec 81 (length (fmt_fixed6 x))); [reflexivity|]. exfalso.
  rewrite fixed6_length, neg_sign in H0 by (first [exact F|lra]).
  assert (~ (micro x / 1000000 < 10 ^ 73)%Z).
  { intros K. apply (micro_int x _ V F) in K; [|reflexivity]. rewrite Rabs_left in K by lra. rewrite opp_IZR in L. lra. }
  destruct (number_shape _ (micro_nonneg x)) as (i & f & C & _ & I & _). rewrite <- I in H1.
  apply canonical_ge with (w := 73%Z) in C; lia.
Qed.
Lemma lreal_nonfinite : forall x, fl_finite x = false -> fl_valid F64 x ->
  exists d, LREAL_TO_STRING x = Ok d /\
    reads d (match x with FNum (S754_infinity false) => str "inf" | FNum (S754_infinity true) => str "-inf" | _ => str "NaN" end).
Proof.
  intros [[s|[]| |s m e]|s p] F V; try discriminate; try contradiction; apply write_zero; try (cbn; lia); now apply lit_nz.
Qed.
Lemma real_small : forall x, fl_valid F32 x -> fl_finite x = true -> Rabs (fl_value x) < IZR (10 ^ 73).
Proof.
  intros x V F. destruct (fl_valid_sf F32 x V F) as [V' _].
  pose proof (value_small F32 _ V') as S. unfold fl_value, sf_value.
  eapply Rlt_trans; [exact S|]. change (f_emax F32) with 128%Z. rewrite <- (IZR_Zpower radix2) by lia. apply IZR_lt. reflexivity.
Qed.
Lemma real_text : forall x, fl_valid F32 x -> fl_finite x = true ->
  let y := fl_convert F64 x in
  exists d s, REAL_TO_STRING x = Ok d /\ reads d s /\ fl_value y = fl_value x /\
    (fl_value x < IZR (10 ^ 14) -> fixed6_text s y) /\ (IZR (10 ^ 14) <= fl_value x -> exp6_text s y).
Proof.
  intros x V F y. destruct (widen_exact x V F) as (A & B & C). fold y in A, B, C.
  pose proof (real_small x V F) as S. apply Rabs_def2 in S as [_ S]. rewrite <- opp_IZR in S. rewrite <- C in S.
  destruct (lreal_text y A B S) as (d & s & D & R & T1 & T2). rewrite C in T1, T2. exists d, s. exact (conj D (conj R (conj C (conj T1 T2)))).
Qed.

(** * Parsing *)
Lemma take_digits_spec : forall l d r, take_digits l = (d, r) -> l = d ++ r /\ Forall digitp d /\ nodigit_head r.
Proof.
  induction l as [|c l IH]; intros d r E; cbn [take_digits] in E.
  - injection E as <- <-. split; [reflexivity|]. split; [constructor|exact I].
  - unfold between in E. destruct (Z.leb_spec 48 c), (Z.leb_spec c 57); cbn [andb] in E;
      try (injection E as <- <-; split; [reflexivity|]; split; [constructor|cbn; unfold digitp; lia]).
    destruct (take_digits l) as [d' q] eqn:T. injection E as <- <-. destruct (IH d' q eq_refl) as (-> & D & N).
    split; [reflexivity|]. split; [|exact N]. constructor; [split; assumption|exact D].
Qed.
Lemma take_digits_intro : forall d r, Forall digitp d -> nodigit_head r -> take_digits (d ++ r) = (d, r).
Proof.
  intros d r D N. destruct (take_digits (d ++ r)) as [d' r'] eqn:E. apply take_digits_spec in E as (E & D' & N').
  apply split_digits in E as [-> ->]; try assumption. reflexivity.
Qed.
Lemma digitp_of : forall c, digitp c -> digit_of 10 c (c - 48).
Proof. intros c [? ?]. split; [lia|]. left. lia. Qed.
Lemma dec_value_digits : forall l, Forall digitp l -> digits 10 l (dec_value l).
Proof.
  intros l. induction l as [|c l IH] using rev_ind; intros H; [constructor|].
  apply Forall_app in H as [H C]. apply Forall_cons_iff in C as [C _]. unfold dec_value. rewrite fold_left_app. cbn [fold_left].
  apply digits_snoc; [now apply IH|]. now apply digitp_of.
Qed.
Lemma dec_value_eq : forall l v, digits 10 l v -> dec_value l = v.
Proof.
  intros l v D. apply (digits_fun 10 l); [|exact D]. apply dec_value_digits. now apply digits10_range in D.
Qed.

Definition mantissa (l : list Z) (m e : Z) : Prop :=
  exists is dot fs es k, l = is ++ dot ++ fs ++ es /\
    (dot = str "." \/ dot = [] /\ fs = []) /\ numeral 10 (is ++ fs) m /\
    exponent_text es k /\ (e = k - Z.of_nat (length fs))%Z.
(** What follows the digits. *)
Definition tail_ok (es : list Z) : Prop := nodigit_head es /\ (forall r, es <> 46%Z :: r).
Lemma exponent_tail : forall es k, exponent_text es k -> tail_ok es.
Proof.
  intros es k [[-> _]|(c & sign & ds & v & C & -> & _)].
  - split; [exact I|discriminate].
  - destruct C as [<-|[<-|[]]]; (split; [cbn; unfold digitp; lia|discriminate]).
Qed.
Definition parse_exp (r : list Z) : option Z :=
  match r with
  | [] => Some 0%Z
  | c :: r' =>
      if (c =? 101)%Z || (c =? 69)%Z then
        let '(neg, r') := match r' with 43%Z :: q => (false, q) | 45%Z :: q => (true, q) | _ => (false, r') end in
        let '(es, rest) := take_digits r' in
        match es, rest with
        | _ :: _, [] => Some (if neg then - dec_value es else dec_value es)%Z
        | _, _ => None
        end
      else None
  end.
Lemma split_sign : forall r : list Z, (match r with 43%Z :: q => (false, q) | 45%Z :: q => (true, q) | _ => (false, r) end) =
  match r with c :: q => if (c =? 43)%Z then (false, q) else if (c =? 45)%Z then (true, q) else (false, r) | [] => (false, r) end.
Proof.
  intros [|c q]; [reflexivity|]. destruct (Z.eqb_spec c 43) as [->|A]; [reflexivity|]. destruct (Z.eqb_spec c 45) as [->|B]; [reflexivity|].
  destruct c as [|p|p]; try reflexivity. do 6 (destruct p; try reflexivity); congruence.
Qed.
Lemma parse_exp_spec : forall es k, parse_exp es = Some k <-> exponent_text es k.
Proof.
  intros es k. split.
  - destruct es as [|c r]; cbn [parse_exp].
    + intros E. injection E as <-. now left.
    + rewrite split_sign. destruct ((c =? 101)%Z || (c =? 69)%Z) eqn:C; [|discriminate]. intros H. right.
      assert (CC : exists c', In c' [str "e"; str "E"] /\ [c] = c').
      { apply orb_prop in C as [C|C]; apply Z.eqb_eq in C; subst c; eexists; (split; [|reflexivity]); [now left|right; now left]. }
      destruct CC as (c' & IN & <-).
      assert (GO : forall (neg : bool) q, (let '(es, rest) := take_digits q in match es, rest with
          | _ :: _, [] => Some (if neg then - dec_value es else dec_value es)%Z | _, _ => None end) = Some k ->
          exists v, numeral 10 q v /\ k = (if neg then - v else v)%Z).
      { intros neg q E. destruct (take_digits q) as [ds rest] eqn:T. destruct ds as [|d ds]; [discriminate|].
        destruct rest; [|discriminate]. apply take_digits_spec in T as (-> & D & _). rewrite app_nil_r.
        injection E as <-. exists (dec_value (d :: ds)). split; [|reflexivity]. split; [discriminate|now apply dec_value_digits]. }
      destruct r as [|x q]; [discriminate H|].
      destruct (Z.eqb_spec x 43) as [->|X1].
      { apply (GO false) in H as (v & N & ->). exists [c], (str "+"), q, v. split; [exact IN|]. split; [reflexivity|]. split; [exact N|]. left.
        split; [right; now left|reflexivity]. }
      destruct (Z.eqb_spec x 45) as [->|X2].
      { apply (GO true) in H as (v & N & ->). exists [c], (str "-"), q, v. split; [exact IN|]. split; [reflexivity|]. split; [exact N|]. now right. }
      apply (GO false) in H as (v & N & ->). exists [c], [], (x :: q), v. split; [exact IN|]. split; [reflexivity|]. split; [exact N|]. left.
      split; [now left|reflexivity].
  - intros [[-> ->]|(c & sign & ds & v & C & -> & [N D] & S)]; [reflexivity|].
    assert (Dd := D). apply digits10_range in Dd. apply dec_value_eq in D.
    assert (T : take_digits ds = (ds, [])) by (rewrite <- (app_nil_r ds) at 1; now apply take_digits_intro).
    assert (C1 : exists c', c = [c'] /\ ((c' =? 101)%Z || (c' =? 69)%Z) = true).
    { destruct C as [<-|[<-|[]]]; eexists; split; reflexivity. }
    destruct C1 as (c' & -> & C1). cbn [app parse_exp]. rewrite C1, split_sign.
    destruct ds as [|d ds]; [congruence|].
    destruct S as [[[<-|[<-|[]]] ->]|[-> ->]].
    + cbn [app]. apply Forall_cons_iff in Dd as [Dd _].
      destruct (Z.eqb_spec d 43); [lia|]. destruct (Z.eqb_spec d 45); [lia|]. now rewrite T, D.
    + change (str "+" ++ d :: ds) with (43%Z :: d :: ds). cbn [Z.eqb Pos.eqb]. now rewrite T, D.
    + change (str "-" ++ d :: ds) with (45%Z :: d :: ds). cbn [Z.eqb Pos.eqb]. now rewrite T, D.
Qed.
Lemma parse_number_eq : forall l, parse_number l =
  let '(i, r) := take_digits l in
  let '(fr, r) := match r with c :: r' => if (c =? 46)%Z then take_digits r' else ([], r) | [] => ([], r) end in
  match i ++ fr with
  | [] => None
  | ds => match parse_exp r with Some k => Some (dec_value ds, (- Z.of_nat (length fr) + k)%Z) | None => None end
  end.
Proof.
  intros l. unfold parse_number. destruct (take_digits l) as [i r].
  assert (E : (match r with 46%Z :: r' => take_digits r' | _ => ([], r) end) =
              match r with c :: r' => if (c =? 46)%Z then take_digits r' else ([], r) | [] => ([], r) end).
  { destruct r as [|c q]; [reflexivity|]. destruct (Z.eqb_spec c 46) as [->|A]; [reflexivity|].
    destruct c as [|p|p]; try reflexivity. do 6 (destruct p; try reflexivity); congruence. }
  rewrite E. destruct (match r with c :: r' => if (c =? 46)%Z then take_digits r' else ([], r) | [] => ([], r) end) as [fr q].
  destruct (i ++ fr) as [|d ds]; [reflexivity|]. cbv zeta. destruct q as [|c q]; cbn [parse_exp].
  - now rewrite Z.add_0_r.
  - destruct ((c =? 101)%Z || (c =? 69)%Z); [|reflexivity]. rewrite split_sign.
    destruct (match q with c0 :: q0 => if (c0 =? 43)%Z then (false, q0) else if (c0 =? 45)%Z then (true, q0) else (false, q) | [] => (false, q) end) as [neg q'].
    destruct (take_digits q') as [[|e es] [|x rest]]; reflexivity.
Qed.
Lemma parse_number_spec : forall l m e, parse_number l = Some (m, e) <-> mantissa l m e.
Proof.
  intros l m e. rewrite parse_number_eq. split.
  - destruct (take_digits l) as [i r] eqn:T. apply take_digits_spec in T as (-> & I & NR).
    assert (GO : forall dot fr q, (dot = str "." \/ dot = [] /\ fr = []) -> r = dot ++ fr ++ q -> Forall digitp fr ->
      (match i ++ fr with [] => None | ds => match parse_exp q with Some k => Some (dec_value ds, (- Z.of_nat (length fr) + k)%Z) | None => None end end) = Some (m, e) ->
      mantissa (i ++ r) m e).
    { intros dot fr q DOT -> FR H. destruct (i ++ fr) as [|d ds] eqn:AP; [discriminate|].
      destruct (parse_exp q) as [k|] eqn:PE; [|discriminate]. injection H as <- <-. apply parse_exp_spec in PE.
      exists i, dot, fr, q, k. split; [reflexivity|]. split; [exact DOT|]. rewrite AP. split; [|split; [exact PE|lia]].
      split; [discriminate|]. apply dec_value_digits. rewrite <- AP. apply Forall_app. now split. }
    destruct r as [|c q].
    + apply (GO [] [] []); [now right|reflexivity|constructor].
    + destruct (Z.eqb_spec c 46) as [->|C].
      * destruct (take_digits q) as [fr q'] eqn:T. apply take_digits_spec in T as (-> & FR & _).
        apply (GO (str ".") fr q'); [now left|reflexivity|exact FR].
      * apply (GO [] [] (c :: q)); [now right|reflexivity|constructor].
  - intros (i & dot & fr & es & k & -> & DOT & [NE D] & EX & ->).
    apply digits10_range in D as DD. apply Forall_app in DD as [DI DF]. destruct (exponent_tail _ _ EX) as [T1 T2].
    assert (NH : nodigit_head (dot ++ fr ++ es)).
    { destruct DOT as [->|[-> ->]]; [cbn; unfold digitp; lia|exact T1]. }
    rewrite take_digits_intro by assumption. apply parse_exp_spec in EX.
    assert (E2 : (match dot ++ fr ++ es with c :: r' => if (c =? 46)%Z then take_digits r' else ([], dot ++ fr ++ es) | [] => ([], dot ++ fr ++ es) end) = (fr, es)).
    { destruct DOT as [->|[-> ->]].
      - change (str "." ++ fr ++ es) with (46%Z :: fr ++ es). cbn [Z.eqb Pos.eqb]. now apply take_digits_intro.
      - cbn [app]. destruct es as [|c q]; [reflexivity|]. destruct (Z.eqb_spec c 46) as [->|]; [now destruct (T2 q)|reflexivity]. }
    rewrite E2, EX. apply dec_value_eq in D. destruct (i ++ fr) as [|d ds]; [congruence|]. rewrite D. f_equal. f_equal. lia.
Qed.

(** * Rounding *)
Section Rounding.
Variable f : fmt.
Hypothesis Hf : binary_format f.
Notation prec := (f_prec f).
Notation emax := (f_emax f).
Notation fexp := (SpecFloat.fexp prec emax).
Notation rnd := (round radix2 fexp ZnearestE).
Local Instance Hprec_ : Prec_gt_0 prec := Hprec f Hf.
Local Instance Hmax_ : Prec_lt_emax prec emax := Hmax f Hf.
Local Instance fexp_valid_ : Valid_exp fexp := fexp_valid f Hf.

Lemma mph_half : max_plus_half f = IZR (2 ^ (prec + 1) - 1) * bpow radix2 (emax - prec - 1).
Proof.
  unfold max_plus_half. pose proof (Hprec f Hf) as P. red in P.
  replace (emax - prec)%Z with (emax - prec - 1 + 1)%Z at 1 by lia. rewrite bpow_plus.
  change (bpow radix2 1) with 2. rewrite Z.pow_add_r by lia. rewrite minus_IZR, mult_IZR. change (IZR (2 ^ 1)) with 2. field.
Qed.
Lemma mph_pos : 0 < max_plus_half f.
Proof.
  rewrite mph_half. apply Rmult_lt_0_compat; [|apply bpow_gt_0]. apply IZR_lt. destruct Hf as [-> | ->]; reflexivity.
Qed.
Lemma mph_overflow : bpow radix2 emax <= rnd (max_plus_half f).
Proof.
  apply Rnot_lt_le. intros L.
  assert (H0 : 0 <= rnd (max_plus_half f)) by (apply (rnd_nonneg prec emax (Hprec f Hf)); left; apply mph_pos).
  destruct (norm_any f Hf (2 ^ (prec + 1) - 1) (emax - prec - 1) false) as (_ & B & _).
  - rewrite <- mph_half, Rabs_pos_eq; assumption.
  - destruct Hf as [-> | ->]; vm_compute in B; discriminate.
Qed.
Lemma big_overflow : forall r, max_plus_half f <= Rabs r -> bpow radix2 emax <= Rabs (rnd r).
Proof.
  intros r H. eapply Rle_trans; [exact mph_overflow|].
  destruct (Rle_lt_dec 0 r) as [S|S].
  - rewrite (Rabs_pos_eq r) in H by exact S. eapply Rle_trans; [|apply Rle_abs]. now apply (rnd_le prec emax (Hprec f Hf)).
  - rewrite (Rabs_left r) in H by exact S. rewrite <- (Ropp_involutive r), round_NE_opp, Rabs_Ropp.
    eapply Rle_trans; [|apply Rle_abs]. now apply (rnd_le prec emax (Hprec f Hf)).
Qed.
Lemma small_no_overflow : forall r, Rabs r < max_plus_half f -> Rabs (rnd r) < bpow radix2 emax.
Proof.
  intros r H. set (u := bpow radix2 (emax - prec)). assert (U : 0 < u) by apply bpow_gt_0.
  pose proof (Hprec f Hf) as P0. red in P0.
  set (mx := IZR (2 ^ prec - 1) * u).
  assert (G : generic_format radix2 fexp mx).
  { apply (dyadic_format f Hf); [|destruct Hf as [-> | ->]; vm_compute; discriminate].
    rewrite Z.abs_eq; [lia|]. pose proof (Z.pow_pos_nonneg 2 prec). lia. }
  assert (B : bpow radix2 emax = IZR (2 ^ prec) * u).
  { rewrite (IZR_Zpower radix2) by lia. unfold u. rewrite <- bpow_plus. f_equal. lia. }
  assert (M : mx = bpow radix2 emax - u) by (rewrite B; unfold mx; rewrite minus_IZR; ring).
  assert (H1 : max_plus_half f = bpow radix2 emax - u / 2) by (unfold max_plus_half; fold u; rewrite B; field).
  destruct (Rle_lt_dec (Rabs r) mx) as [L|L].
  - eapply Rle_lt_trans; [|assert (K : mx < bpow radix2 emax) by lra; exact K].
    apply abs_round_le_generic; auto; try apply valid_rnd_N; apply fexp_valid_.
  - assert (N : Rnd_N_pt (generic_format radix2 fexp) r (rnd r)) by (apply round_N_pt; apply fexp_valid_).
    destruct N as [_ N]. set (q := rnd r) in *. apply Rnot_le_lt. intros Q.
    destruct (Rle_lt_dec 0 r) as [S|S].
    + assert (0 <= q) by (now apply (rnd_nonneg prec emax (Hprec f Hf))).
      rewrite (Rabs_pos_eq q) in Q by auto. rewrite (Rabs_pos_eq r) in * by auto.
      specialize (N mx G). rewrite (Rabs_pos_eq (q - r)) in N by lra. rewrite (Rabs_left (mx - r)) in N by lra. lra.
    + rewrite (Rabs_left r) in * by auto.
      assert (q <= 0).
      { unfold q. rewrite <- (Ropp_involutive r). rewrite round_NE_opp.
        assert (0 <= rnd (- r)); [|lra]. apply (rnd_nonneg prec emax (Hprec f Hf)). lra. }
      rewrite (Rabs_left1 q) in Q by auto.
      specialize (N (- mx) (generic_format_opp _ _ _ G)).
      rewrite (Rabs_left1 (q - r)) in N by lra. rewrite (Rabs_pos_eq (- mx - r)) in N by lra. lra.
Qed.
Lemma div_rounded : forall neg n d,
  rounded f (FNum (SFdiv prec emax (S754_finite neg n 0) (S754_finite false d 0))) neg
    (IZR (cond_Zopp neg (Zpos n)) / IZR (Zpos d)).
Proof.
  intros neg n d. pose proof (Bdiv_correct_aux prec emax _ _ mode_NE neg n 0 false d 0) as C. cbv zeta in C.
  change (round_mode mode_NE) with ZnearestE in C.
  assert (E : SFdiv prec emax (S754_finite neg n 0) (S754_finite false d 0) =
    (let '(mz, ez, lz) := SFdiv_core_binary prec emax (Zpos n) 0 (Zpos d) 0 in
     BinarySingleNaN.binary_round_aux prec emax mode_NE (xorb neg false) mz ez lz)).
  { unfold SFdiv. destruct (SFdiv_core_binary _ _ _ _ _ _) as [[mz ez] lz]. apply binary_round_aux_equiv. }
  rewrite <- E in C. rewrite xorb_false_r in C. unfold F2R in C. cbn [Fnum Fexp cond_Zopp] in C.
  change (bpow radix2 0) with 1 in C. rewrite !Rmult_1_r in C.
  set (z := SFdiv prec emax (S754_finite neg n 0) (S754_finite false d 0)) in *. clearbody z. clear E.
  set (r := IZR (cond_Zopp neg (Zpos n)) / IZR (Zpos d)) in *. destruct C as [V C].
  destruct (Rlt_le_dec (Rabs r) (max_plus_half f)) as [L|L].
  - rewrite Rlt_bool_true in C by now apply small_no_overflow. destruct C as (C1 & C2 & C3). split; [|split].
    + rewrite <- C3. destruct z; try discriminate; reflexivity.
    + intros _. now apply nearest_of_rnd.
    + intros. lra.
  - rewrite Rlt_bool_false in C by now apply big_overflow. unfold binary_overflow in C. simpl overflow_to_inf in C. cbv iota in C.
    rewrite C. split; [reflexivity|]. split; [intros; lra|reflexivity].
Qed.
Lemma rpow10 : forall e, powerRZ 10 e = IZR (10 ^ Z.max e 0) / IZR (10 ^ Z.max (- e) 0).
Proof.
  intros e. destruct (Z.le_gt_cases 0 e) as [H|H].
  - rewrite Z.max_l, Z.max_r by lia. change (10 ^ 0)%Z with 1%Z.
    assert (G : forall n, powerRZ 10 (Z.of_nat n) = IZR (10 ^ Z.of_nat n)).
    { intros n. rewrite <- pow_powerRZ, pow_IZR. reflexivity. }
    rewrite <- (Z2Nat.id e H), G. field.
  - rewrite Z.max_r, Z.max_l by lia. change (10 ^ 0)%Z with 1%Z.
    assert (G : forall n, powerRZ 10 (Z.of_nat n) = IZR (10 ^ Z.of_nat n)).
    { intros n. rewrite <- pow_powerRZ, pow_IZR. reflexivity. }
    replace e with (- (- e))%Z at 1 by lia. rewrite powerRZ_neg'.
    rewrite <- (Z2Nat.id (- e)) by lia. rewrite G. unfold Rdiv. lra.
Qed.
Lemma scaled_rounded : forall neg m e, (0 <= m)%Z -> rounded f (FNum (scaled f neg m e)) neg (number_value neg m e).
Proof.
  intros neg m e M. unfold scaled, number_value. rewrite rpow10.
  assert (A : (0 < 10 ^ Z.max e 0)%Z) by (apply Z.pow_pos_nonneg; lia).
  assert (D : (0 < 10 ^ Z.max (- e) 0)%Z) by (apply Z.pow_pos_nonneg; lia).
  set (a := (10 ^ Z.max e 0)%Z) in *. destruct (10 ^ Z.max (- e) 0)%Z as [|d|d]; try lia.
  destruct (m * a)%Z as [|n|n] eqn:E; [|..].
  - assert (m = 0)%Z as -> by nia. rewrite Rmult_0_r, Rmult_0_l. split; [reflexivity|]. split.
    + intros _. apply nearest_of_rnd; [exact Hf|reflexivity|reflexivity|]. cbn [SF2R]. symmetry. apply round_0. apply valid_rnd_N.
    + rewrite Rabs_R0. pose proof mph_pos. intros. lra.
  - replace ((if neg then -1 else 1) * IZR m * (IZR a / IZR (Zpos d))) with (IZR (cond_Zopp neg (Zpos n)) / IZR (Zpos d)).
    + apply div_rounded.
    + rewrite <- E. destruct neg; cbn [cond_Zopp]; rewrite ?opp_IZR, mult_IZR; field; apply IZR_neq; lia.
  - nia.
Qed.
End Rounding.

(** * STRING_TO_LREAL / STRING_TO_REAL *)
Definition f_sign (sign : list Z) (neg : bool) : Prop :=
  In sign [[]; str "+"] /\ neg = false \/ sign = str "-" /\ neg = true.
Lemma number_text_iff : forall s neg m e, number_text s neg m e <->
  exists sign l, s = sign ++ l /\ f_sign sign neg /\ mantissa l m e.
Proof.
  intros s neg m e. split.
  - intros (sign & is & dot & fs & es & k & -> & S & D & N & X & E). exists sign, (is ++ dot ++ fs ++ es). split; [reflexivity|].
    split; [exact S|]. exists is, dot, fs, es, k. exact (conj eq_refl (conj D (conj N (conj X E)))).
  - intros (sign & l & -> & S & is & dot & fs & es & k & -> & D & N & X & E). exists sign, is, dot, fs, es, k.
    exact (conj eq_refl (conj S (conj D (conj N (conj X E))))).
Qed.
Definition alpha_head (l : list Z) : Prop := match l with [] => False | c :: _ => c <> 43%Z /\ c <> 45%Z end.
Lemma mantissa_head : forall l m e, mantissa l m e -> alpha_head l.
Proof.
  intros l m e (is & dot & fs & es & k & -> & D & [N X] & _). apply digits10_range in X.
  destruct is as [|c is].
  - destruct D as [->|[-> ->]]; [|cbn in N; congruence]. change (str "." ++ fs ++ es) with (46%Z :: fs ++ es). cbn [app alpha_head]. lia.
  - cbn [app] in *. apply Forall_cons_iff in X as [X _]. cbn [alpha_head]. lia.
Qed.
Lemma same_word_lower : forall w word, Forall (fun d => 97 <= d <= 122)%Z word -> (map to_lower w = word <-> same_word w word).
Proof.
  intros w word F. revert w. induction F as [|d word D _ IH]; intros w.
  - split; intros H; [destruct w; [constructor|discriminate]|now inversion H].
  - split; intros H.
    + destruct w as [|c w]; [discriminate|]. cbn [map] in H. injection H as H1 H2. constructor; [|now apply IH].
      unfold to_lower, between in H1. destruct (Z.leb_spec 65 c), (Z.leb_spec c 90); cbn [andb] in H1; lia.
    + inversion H as [|c d' w' word' C W]; subst. cbn [map]. f_equal; [|now apply IH]. unfold to_lower, between.
      destruct (Z.leb_spec 65 c), (Z.leb_spec c 90); cbn [andb]; lia.
Qed.
Lemma list_eqb_iff : forall a b, list_eqb a b = true <-> a = b.
Proof.
  induction a as [|x a IH]; intros [|y b]; cbn [list_eqb]; split; intros H; try discriminate; try reflexivity.
  - apply andb_prop in H as [X H]. apply Z.eqb_eq in X. apply IH in H. congruence.
  - injection H as -> ->. rewrite Z.eqb_refl. now apply IH.
Qed.
Lemma word_lower : forall s, forallb (fun d => (97 <=? d) && (d <=? 122))%Z (str s) = true -> Forall (fun d => 97 <= d <= 122)%Z (str s).
Proof. intros s H. apply Forall_forall. intros c I. rewrite forallb_forall in H. apply H in I. lia. Qed.
Definition quiet_nan (f : fmt) (neg : bool) : fl := FNan neg (2 ^ Z.to_pos (f_mw f - 1))%positive.
Definition special_value (f : fmt) (neg nan : bool) : fl := if nan then quiet_nan f neg else FNum (S754_infinity neg).
Definition special_word (w : list Z) (nan : bool) : Prop :=
  exists word, same_word w word /\ (nan = false /\ In word [str "inf"; str "infinity"] \/ nan = true /\ word = str "nan").
Lemma special_text_iff : forall s neg nan, special_text s neg nan <->
  exists sign w, s = sign ++ w /\ f_sign sign neg /\ special_word w nan.
Proof.
  intros s neg nan. split.
  - intros (sign & w & word & -> & S & W & H). exists sign, w. split; [reflexivity|]. split; [exact S|]. exists word. now split.
  - intros (sign & w & -> & S & word & W & H). exists sign, w, word. exact (conj eq_refl (conj S (conj W H))).
Qed.
Lemma parse_inf_nan_spec : forall f neg w x, parse_inf_nan f neg w = Some x <->
  exists nan, special_word w nan /\ x = special_value f neg nan.
Proof.
  intros f neg w x. unfold parse_inf_nan. cbv zeta.
  assert (I1 := same_word_lower w (str "inf") (word_lower "inf" eq_refl)).
  assert (I2 := same_word_lower w (str "infinity") (word_lower "infinity" eq_refl)).
  assert (I3 := same_word_lower w (str "nan") (word_lower "nan" eq_refl)).
  rewrite <- !list_eqb_iff in *.
  split.
  - destruct (list_eqb (map to_lower w) (str "inf")) eqn:E1; [|destruct (list_eqb (map to_lower w) (str "infinity")) eqn:E2]; cbn [orb].
    + intros H. injection H as <-. exists false. split; [|reflexivity]. exists (str "inf"). split; [now apply I1|]. left. split; [reflexivity|now left].
    + intros H. injection H as <-. exists false. split; [|reflexivity]. exists (str "infinity"). split; [now apply I2|]. left. split; [reflexivity|right; now left].
    + destruct (list_eqb (map to_lower w) (str "nan")) eqn:E3; [|discriminate]. intros H. injection H as <-. exists true.
      split; [|reflexivity]. exists (str "nan"). split; [now apply I3|]. now right.
  - intros (nan & (word & W & H) & ->). destruct H as [[-> [<-|[<-|[]]]]|[-> ->]].
    + apply I1 in W. now rewrite W.
    + apply I2 in W. rewrite W, orb_true_r. reflexivity.
    + apply I3 in W. rewrite W. apply list_eqb_iff in W. rewrite W. reflexivity.
Qed.
Lemma special_head : forall w nan, special_word w nan -> alpha_head w /\ forall c r, w = c :: r -> (65 <= c)%Z.
Proof.
  intros w nan (word & W & H).
  assert (exists d t, word = d :: t /\ (97 <= d <= 122)%Z) as (d & t & -> & D).
  { destruct H as [[_ [<-|[<-|[]]]]|[_ ->]]; do 2 eexists; (split; [reflexivity|cbn; lia]). }
  inversion W as [|c d' w' t' C _]; subst. split; [cbn; lia|]. intros c0 r0 E. injection E as <- _. lia.
Qed.
Lemma mantissa_not_special : forall l m e nan, mantissa l m e -> special_word l nan -> False.
Proof.
  intros l m e nan M S. destruct (special_head _ _ S) as [_ H]. destruct M as (is & dot & fs & es & k & -> & D & [N X] & _).
  apply digits10_range in X. destruct is as [|c is].
  - destruct D as [->|[-> ->]]; [|cbn in N; congruence]. specialize (H 46%Z _ eq_refl). lia.
  - cbn [app] in *. apply Forall_cons_iff in X as [X _]. specialize (H c _ eq_refl). lia.
Qed.
Lemma parse_float_spec : forall f s x, parse_float f s = Some x <->
  (exists neg m e, number_text s neg m e /\ x = FNum (scaled f neg m e)) \/
  (exists neg nan, special_text s neg nan /\ x = special_value f neg nan).
Proof.
  intros f s x.
  assert (SG : forall sign neg l, f_sign sign neg -> alpha_head l ->
    parse_float f (sign ++ l) = match parse_number l with Some (m, e) => Some (FNum (scaled f neg m e)) | None => parse_inf_nan f neg l end).
  { intros sign neg l S A. destruct l as [|c l]; [contradiction|]. destruct A as [A1 A2].
    destruct S as [[[<-|[<-|[]]] ->]|[-> ->]].
    - cbn [app parse_float]. destruct (Z.eqb_spec c 45); [congruence|]. destruct (Z.eqb_spec c 43); [congruence|]. reflexivity.
    - reflexivity.
    - reflexivity. }
  split.
  - destruct s as [|c r]; [discriminate|].
    assert (SP : exists sign neg l, c :: r = sign ++ l /\ f_sign sign neg /\ neg = (c =? 45)%Z /\
                   l = if (c =? 45)%Z || (c =? 43)%Z then r else c :: r).
    { destruct (Z.eqb_spec c 45) as [->|C1]; [exists (str "-"), true, r; repeat split; now right|].
      destruct (Z.eqb_spec c 43) as [->|C2]; [exists (str "+"), false, r; repeat split; left; split; [right; now left|reflexivity]|].
      exists [], false, (c :: r). repeat split. left. split; [now left|reflexivity]. }
    destruct SP as (sign & neg & l & E & S & NEG & L). rewrite E.
    assert (PF : parse_float f (sign ++ l) = match parse_number l with Some (m, e) => Some (FNum (scaled f neg m e)) | None => parse_inf_nan f neg l end).
    { rewrite <- E. cbn [parse_float]. cbv zeta. rewrite NEG, L. destruct (c =? 45)%Z, (c =? 43)%Z; reflexivity. }
    rewrite PF.
    destruct (parse_number l) as [[m e]|] eqn:P.
    + intros H. injection H as <-. apply parse_number_spec in P. left. exists neg, m, e. split; [|reflexivity].
      apply number_text_iff. now exists sign, l.
    + intros H. apply parse_inf_nan_spec in H as (nan & W & ->). right. exists neg, nan. split; [|reflexivity].
      apply special_text_iff. now exists sign, l.
  - intros [(neg & m & e & T & ->)|(neg & nan & T & ->)].
    + apply number_text_iff in T as (sign & l & -> & S & M). rewrite (SG _ _ _ S (mantissa_head _ _ _ M)).
      apply parse_number_spec in M. now rewrite M.
    + apply special_text_iff in T as (sign & l & -> & S & W). rewrite (SG _ _ _ S (proj1 (special_head _ _ W))).
      destruct (parse_number l) as [[m e]|] eqn:P; [exfalso; apply parse_number_spec in P; eapply mantissa_not_special; eassumption|].
      apply parse_inf_nan_spec. now exists nan.
Qed.
Lemma mantissa_ascii : forall l m e, mantissa l m e -> Forall (fun c => 0 <= c < 128)%Z l.
Proof.
  intros l m e (is & dot & fs & es & k & -> & D & [_ N] & X & _).
  assert (A : forall s, Forall digitp s -> Forall (fun c => 0 <= c < 128)%Z s).
  { intros s H. eapply Forall_impl; [|exact H]. unfold digitp. lia. }
  apply digits10_range in N. apply Forall_app in N as [N1 N2].
  apply Forall_app; split; [now apply A|]. apply Forall_app; split.
  { destruct D as [->|[-> _]]; [|constructor]. apply Forall_cons; [cbn; lia|constructor]. }
  apply Forall_app; split; [now apply A|].
  destruct X as [[-> _]|(c & sign & ds & v & C & -> & [_ V] & S)]; [constructor|].
  apply Forall_app; split; [destruct C as [<-|[<-|[]]]; (apply Forall_cons; [cbn; lia|constructor])|].
  apply Forall_app; split; [|now apply digits10_range, A in V].
  destruct S as [[[<-|[<-|[]]] _]|[-> _]]; [constructor| |]; (apply Forall_cons; [cbn; lia|constructor]).
Qed.
Lemma special_ascii : forall w nan, special_word w nan -> Forall (fun c => 0 <= c < 128)%Z w.
Proof.
  intros w nan (word & W & H).
  assert (L : Forall (fun d => 97 <= d <= 122)%Z word).
  { destruct H as [[_ [<-|[<-|[]]]]|[_ ->]]; now apply word_lower. }
  clear H. revert L. induction W as [|c d w word C _ IH]; intros L; constructor; apply Forall_cons_iff in L as [L1 L2]; [lia|].
  now apply IH.
Qed.
Lemma f_sign_ascii : forall sign neg, f_sign sign neg -> Forall (fun c => 0 <= c < 128)%Z sign.
Proof. intros sign neg [[[<-|[<-|[]]] _]|[-> _]]; [constructor| |]; (apply Forall_cons; [cbn; lia|constructor]). Qed.
Lemma string_to_float_spec : forall f src s x, reads src s -> (string_to_float f src = Ok x <->
  (exists neg m e, number_text s neg m e /\ x = FNum (scaled f neg m e)) \/
  (exists neg nan, special_text s neg nan /\ x = special_value f neg nan)).
Proof.
  intros f src s x R. rewrite <- parse_float_spec. unfold string_to_float. rewrite (reads_slice_ _ _ R). cbn [obind].
  split.
  - destruct (utf8_decode s); [|discriminate]. destruct (parse_float f s); [|discriminate]. intros H. now injection H as ->.
  - intros H. assert (A : Forall (fun c => 0 <= c < 128)%Z s).
    { apply parse_float_spec in H as [(neg & m & e & T & _)|(neg & nan & T & _)].
      - apply number_text_iff in T as (sign & l & -> & S & M). apply Forall_app; split; [now apply f_sign_ascii in S|now apply mantissa_ascii in M].
      - apply special_text_iff in T as (sign & l & -> & S & M). apply Forall_app; split; [now apply f_sign_ascii in S|now apply special_ascii in M]. }
    rewrite (ascii_decode _ A), H. reflexivity.
Qed.
Lemma string_to_float_total : forall f src s, reads src s -> string_to_float f src = Panic \/ exists x, string_to_float f src = Ok x.
Proof.
  intros f src s R. unfold string_to_float. rewrite (reads_slice_ _ _ R). cbn [obind].
  destruct (utf8_decode s); [|now left]. destruct (parse_float f s) as [x|]; [right; now exists x|now left].
Qed.
Lemma number_nonneg : forall s neg m e, number_text s neg m e -> (0 <= m)%Z.
Proof. intros s neg m e (sign & is & dot & fs & es & k & _ & _ & _ & [_ D] & _). now apply digits_nonneg in D. Qed.
