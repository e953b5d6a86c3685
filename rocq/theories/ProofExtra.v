(** Proofs about the text of integers. *)
From Coq Require Import String ZArith List Bool Lia.
From Verif Require Import Base ModelText ModelString ModelExtra SpecText SpecExtra ProofBase ProofText ProofString
  ProofString2 ProofString3.
Import ListNotations.
Open Scope list_scope.
Open Scope Z_scope.

(** * Positional notation *)
Lemma digit_fun : forall r c d d', digit_of r c d -> digit_of r c d' -> d = d'.
Proof. intros r c d d' [? ?] [? ?]. lia. Qed.
Lemma digits_fun : forall r l v, digits r l v -> forall v', digits r l v' -> v = v'.
Proof.
  induction 1; intros v' H'.
  - inversion H'; [reflexivity|]. now destruct l.
  - inversion H'. { now destruct l. }
    apply app_inj_tail in H1 as [-> ->]. rewrite (IHdigits _ H2). now rewrite (digit_fun _ _ _ _ H0 H3).
Qed.
Lemma digits_nonneg : forall r l v, 0 < r -> digits r l v -> 0 <= v.
Proof. induction 2; [lia|]. destruct H1. nia. Qed.
Lemma digits_bound : forall r l v, 0 < r -> digits r l v -> v < r ^ Z.of_nat (length l).
Proof.
  induction 2; [cbn; lia|]. rewrite app_length. cbn [length]. rewrite Nat.add_1_r, Nat2Z.inj_succ, Z.pow_succ_r by lia.
  destruct H1. nia.
Qed.
(** Horner evaluation. *)
Definition horner (r : Z) (f : Z -> Z) (l : list Z) (a : Z) : Z := fold_left (fun a b => a * r + f b) l a.
Definition dval (b : Z) : Z := if between 48 b 57 then b - 48 else if between 97 b 122 then b - 87 else if between 65 b 90 then b - 55 else 99.
Lemma to_digit_spec : forall r b d, 0 < r <= 16 -> (to_digit r b = Some d <-> digit_of r b d).
Proof.
  intros r b d R. unfold to_digit, digit_of, between.
  destruct (Z.leb_spec 48 b), (Z.leb_spec b 57), (Z.leb_spec 97 b), (Z.leb_spec b 122), (Z.leb_spec 65 b), (Z.leb_spec b 90);
  cbn [andb]; match goal with |- context [?x <? r] => destruct (Z.ltb_spec x r) end;
  (split; [intros E; try discriminate; injection E as <-|intros E; try (f_equal)]); try lia.
Qed.
Lemma digits_cons : forall r l v c d, digit_of r c d -> digits r l v ->
  digits r (c :: l) (d * r ^ Z.of_nat (length l) + v).
Proof.
  intros r l v c d Hc H. induction H.
  - cbn. replace (d * 1 + 0) with (0 * r + d) by lia. apply (digits_snoc r [] 0 c d); [constructor|exact Hc].
  - change (c :: l ++ [c0]) with ((c :: l) ++ [c0]). rewrite app_length. cbn [length].
    rewrite Nat.add_1_r, Nat2Z.inj_succ, Z.pow_succ_r by lia.
    replace (d * (r * r ^ Z.of_nat (length l)) + (v * r + d0)) with ((d * r ^ Z.of_nat (length l) + v) * r + d0) by lia.
    now apply digits_snoc.
Qed.
Lemma digits_app : forall r a u, digits r a u -> forall b v, digits r b v ->
  digits r (a ++ b) (u * r ^ Z.of_nat (length b) + v).
Proof.
  intros r a u Ha b v Hb. induction Hb.
  - rewrite app_nil_r. cbn. now replace (u * 1 + 0) with u by lia.
  - rewrite app_assoc, app_length. cbn [length]. rewrite Nat.add_1_r, Nat2Z.inj_succ, Z.pow_succ_r by lia.
    replace (u * (r * r ^ Z.of_nat (length l)) + (v * r + d)) with ((u * r ^ Z.of_nat (length l) + v) * r + d) by lia.
    now apply digits_snoc.
Qed.
Lemma digits_inv_cons : forall r c l v, digits r (c :: l) v -> exists d w, digit_of r c d /\ digits r l w /\
  v = d * r ^ Z.of_nat (length l) + w.
Proof.
  intros r c l. induction l as [|x l IH] using rev_ind; intros v H.
  - inversion H. destruct l; [|destruct l; discriminate]. injection H0 as ->. inversion H1; [|now destruct l].
    subst. exists d, 0. split; [exact H2|]. split; [constructor|]. cbn. lia.
  - inversion H. change (c :: l ++ [x]) with ((c :: l) ++ [x]) in H0. apply app_inj_tail in H0 as [-> ->].
    apply IH in H1 as [e [w [E [D ->]]]]. exists e, (w * r + d). split; [exact E|]. split; [now apply digits_snoc|].
    rewrite app_length. cbn [length]. rewrite Nat.add_1_r, Nat2Z.inj_succ, Z.pow_succ_r by lia. lia.
Qed.
Lemma digits_char : forall r l v, digits r l v -> Forall (fun c => exists d, digit_of r c d) l.
Proof. induction 1; [constructor|]. apply Forall_app. split; [exact IHdigits|]. repeat constructor. now exists d. Qed.
Lemma digits_inv_app : forall r a b v, digits r (a ++ b) v -> exists u w, digits r a u /\ digits r b w /\
  v = u * r ^ Z.of_nat (length b) + w.
Proof.
  intros r a. induction a as [|c a IH]; intros b v H.
  - exists 0, v. split; [constructor|]. split; [exact H|]. lia.
  - cbn [app] in H. apply digits_inv_cons in H as [d [w [D [W ->]]]]. apply IH in W as [u [w' [U [W' ->]]]].
    exists (d * r ^ Z.of_nat (length a) + u), w'. split; [now apply digits_cons|]. split; [exact W'|].
    rewrite app_length, Nat2Z.inj_add, Z.pow_add_r by lia. lia.
Qed.
Lemma digits_exists : forall r l, Forall (fun c => exists d, digit_of r c d) l -> exists v, digits r l v.
Proof.
  intros r l H. induction H as [|c l [d D] _ [v V]]; [exists 0; constructor|].
  eexists. now apply digits_cons; eassumption.
Qed.

(** * Display *)
Lemma dec_loop_acc : forall f n acc, dec_loop f n acc = dec_loop f n [] ++ acc.
Proof.
  induction f as [|f IH]; intros n acc; [reflexivity|]. cbn [dec_loop].
  destruct (n <? 10); [reflexivity|]. rewrite IH, (IH _ [_]). now rewrite <- app_assoc.
Qed.
Lemma dec_digit : forall d, 0 <= d < 10 -> digit_of 10 (48 + d) d.
Proof. intros d H. split; [lia|]. left. lia. Qed.
Lemma dec_loop_spec : forall f n, 0 <= n < 2 ^ Z.of_nat f -> (0 < f)%nat ->
  numeral 10 (dec_loop f n []) n /\ (forall r, dec_loop f n [] = 48 :: r -> n = 0 /\ r = []).
Proof.
  induction f as [|f IH]; intros n H F; [lia|]. cbn [dec_loop]. destruct (Z.ltb_spec n 10) as [L|L].
  - rewrite Z.mod_small by lia. split.
    + split; [discriminate|]. apply (digits_snoc 10 [] 0 (48 + n) n); [constructor|]. now apply dec_digit.
    + intros r E. assert (E1 : 48 + n = 48) by congruence. assert (r = []) by congruence. split; [lia|assumption].
  - rewrite dec_loop_acc. rewrite Nat2Z.inj_succ, Z.pow_succ_r in H by lia.
    assert (Q : 1 <= n / 10 < 2 ^ Z.of_nat f).
    { split; [apply Z.div_le_lower_bound; lia|]. assert (0 < 2 ^ Z.of_nat f) by (apply Z.pow_pos_nonneg; lia). apply Z.div_lt_upper_bound; lia. }
    destruct f; [cbn in Q; lia|].
    destruct (IH (n / 10)) as [[N D] Z0]; [lia|lia|]. split.
    + split; [now destruct (dec_loop _ _ _)|]. rewrite (Z.div_mod n 10) at 3 by lia. rewrite (Z.mul_comm 10).
      apply digits_snoc; [exact D|]. apply dec_digit. apply Z.mod_pos_bound. lia.
    + intros r E. destruct (dec_loop (S f) (n / 10) []) as [|c l]; [now destruct N|].
      injection E as -> _. specialize (Z0 _ eq_refl). lia.
Qed.
Lemma log2_fuel : forall n, 0 <= n -> n < 2 ^ Z.of_nat (S (Z.to_nat (Z.log2 n))).
Proof.
  intros n H. rewrite Nat2Z.inj_succ, Z2Nat.id by apply Z.log2_nonneg.
  destruct (Z.eq_dec n 0) as [->|]; [reflexivity|]. apply Z.log2_spec. lia.
Qed.
Lemma dec_nat_canonical : forall n, 0 <= n -> canonical (dec_nat n) n.
Proof.
  intros n H. destruct (dec_loop_spec (S (Z.to_nat (Z.log2 n))) n) as [N Z0].
  - split; [exact H|]. now apply log2_fuel.
  - lia.
  - split; [exact N|]. intros r E. now apply Z0 in E.
Qed.
Lemma dec_int_canonical : forall z, canonical_int (dec_int z) z.
Proof.
  intros z. unfold dec_int. destruct (Z.ltb_spec z 0).
  - right. split; [lia|]. exists (dec_nat (- z)). split; [reflexivity|]. apply dec_nat_canonical. lia.
  - left. split; [lia|]. now apply dec_nat_canonical.
Qed.

(** Length of canonical numerals. *)
Lemma canonical_lower : forall l n, canonical l n -> 0 < n -> 10 ^ (Z.of_nat (length l) - 1) <= n.
Proof.
  intros l n [[N D] C] P. destruct l as [|c l]; [contradiction|].
  apply digits_inv_cons in D as [d [w [E [W ->]]]]. apply digits_nonneg in W as W0; [|lia].
  cbn [length]. replace (Z.of_nat (S (length l)) - 1) with (Z.of_nat (length l)) by lia.
  assert (d <> 0).
  { intros ->. destruct E as [_ E]. assert (c = 48) as -> by lia. rewrite (C _ eq_refl) in W. inversion W; [|now destruct l0].
    subst. lia. }
  destruct E. assert (0 < 10 ^ Z.of_nat (length l)) by (apply Z.pow_pos_nonneg; lia). nia.
Qed.
Lemma canonical_length : forall l n w, canonical l n -> 0 <= w -> n < 10 ^ w -> (0 < w) -> Z.of_nat (length l) <= w.
Proof.
  intros l n w H W B P. destruct (Z.le_gt_cases (Z.of_nat (length l)) w); [assumption|].
  assert (0 <= n) by (apply (digits_nonneg 10 l); [lia|apply H]).
  destruct (Z.eq_dec n 0) as [->|].
  - destruct H as [[N D] C]. destruct l as [|c l]; [contradiction|].
    destruct l as [|c' l]; [cbn in H0; lia|]. exfalso.
    apply digits_inv_cons in D as [d [v [E [D V]]]]. apply digits_nonneg in D; [|lia].
    assert (0 < 10 ^ Z.of_nat (length (c' :: l))) by (apply Z.pow_pos_nonneg; lia).
    destruct E as [E1 E2]. assert (d = 0) as -> by nia. assert (c = 48) as -> by lia. now specialize (C _ eq_refl).
  - apply canonical_lower in H as L; [|lia].
    assert (10 ^ w <= 10 ^ (Z.of_nat (length l) - 1)) by (apply Z.pow_le_mono_r; lia). lia.
Qed.
Lemma canonical_upper : forall l n, canonical l n -> n < 10 ^ Z.of_nat (length l).
Proof. intros l n [[_ D] _]. apply digits_bound in D; [exact D|lia]. Qed.
Lemma digit10_nonzero : forall c, (exists d, digit_of 10 c d) -> 48 <= c <= 57.
Proof. intros c [d [? ?]]. lia. Qed.
Lemma digits10_range : forall l v, digits 10 l v -> Forall (fun c => 48 <= c <= 57) l.
Proof. intros l v H. apply digits_char in H. eapply Forall_impl; [|exact H]. intros c. apply digit10_nonzero. Qed.
Lemma digits_nz : forall r l v, digits r l v -> Forall (fun c => c <> 0) l.
Proof. intros r l v H. apply digits_char in H. eapply Forall_impl; [|exact H]. intros c [d [? ?]]. lia. Qed.
Lemma digits10_nz : forall l v, digits 10 l v -> Forall (fun c => c <> 0) l.
Proof. intros l v H. eapply digits_nz; eassumption. Qed.
Lemma canonical_int_nz : forall l z, canonical_int l z -> Forall (fun c => c <> 0) l.
Proof.
  intros l z [[_ [[_ D] _]]|[_ [r [-> [[_ D] _]]]]].
  - now apply digits10_nz in D.
  - apply digits10_nz in D. constructor; [discriminate|exact D].
Qed.
Lemma canonical_int_length : forall l z w, canonical_int l z -> 0 < w -> Z.abs z < 10 ^ w -> Z.of_nat (length l) <= w + 1.
Proof.
  intros l z w [[P C]|[P [r [-> C]]]] W B.
  - apply canonical_length with (w := w) in C; lia.
  - apply canonical_length with (w := w) in C; [|lia..].
    change (str "-" ++ r) with (45 :: r). cbn [length]. lia.
Qed.
Lemma canonical_unique_aux : forall l, forall l' n, digits 10 l n -> digits 10 l' n -> length l = length l' -> l = l'.
Proof.
  intros l. induction l as [|c l IH]; intros [|c' l'] n D D' L; try discriminate; [reflexivity|].
  injection L as L. apply digits_inv_cons in D as [d [w [E [D ->]]]]. apply digits_inv_cons in D' as [d' [w' [E' [D' V]]]].
  assert (B := digits_bound 10 l w ltac:(lia) D). assert (B' := digits_bound 10 l' w' ltac:(lia) D').
  assert (P := digits_nonneg 10 l w ltac:(lia) D). assert (P' := digits_nonneg 10 l' w' ltac:(lia) D').
  rewrite L in *. assert (d = d' /\ w = w') as [<- <-].
  { set (b := 10 ^ Z.of_nat (length l')) in *. assert (d = d'); [|split; [exact H|]; subst; lia].
    assert (d < d' \/ d = d' \/ d' < d) as [H|[H|H]] by lia; [nia|exact H|nia]. }
  f_equal; [|now apply (IH l' w)]. destruct E as [E0 E], E' as [_ E']. lia.
Qed.
Lemma canonical_unique : forall l l' n, canonical l n -> canonical l' n -> l = l'.
Proof.
  intros l l' n C C'. assert (P : 0 <= n) by (apply (digits_nonneg 10 l); [lia|apply C]).
  apply (canonical_unique_aux l l' n); [apply C|apply C'|].
  destruct (Z.eq_dec n 0) as [->|].
  - assert (F : forall x, canonical x 0 -> length x = 1%nat).
    { intros x X. apply canonical_length with (w := 1) in X as L; [|cbn; lia..]. destruct X as [[N _] _].
      destruct x; [contradiction|]. cbn [length] in *. lia. }
    now rewrite (F l), (F l').
  - apply canonical_lower in C as A; [|lia]. apply canonical_lower in C' as A'; [|lia].
    apply canonical_upper in C as B. apply canonical_upper in C' as B'.
    assert (length l <> O /\ length l' <> O) as [? ?].
    { destruct C as [[N _] _], C' as [[N' _] _]. destruct l, l'; try contradiction. cbn. lia. }
    assert (Z.of_nat (length l) - 1 < Z.of_nat (length l')) by (apply (Z.pow_lt_mono_r_iff 10); lia).
    assert (Z.of_nat (length l') - 1 < Z.of_nat (length l)) by (apply (Z.pow_lt_mono_r_iff 10); lia).
    lia.
Qed.

(** * Writing into the destination *)
Lemma write_buf_ok : forall t dest, (81 <= length dest)%nat -> (length t <= 81)%nat ->
  write_buf t dest = Ok (t ++ skipn (length t) dest).
Proof.
  intros t dest D T. unfold write_buf. change DEFAULT_STRING_LEN with 81%nat.
  destruct (Nat.ltb_spec (length dest) 81); [lia|]. destruct (Nat.ltb_spec 81 (length t)); [lia|]. reflexivity.
Qed.
Lemma skipn_zeros : forall n m, skipn n (zeros m) = zeros (m - n).
Proof.
  induction n as [|n IH]; intros m; [now rewrite Nat.sub_0_r|]. destruct m; [reflexivity|]. cbn. apply IH.
Qed.
Lemma zeros_pos : forall n, (0 < n)%nat -> zeros n = 0 :: zeros (n - 1).
Proof. intros [|n] H; [lia|]. cbn. now rewrite Nat.sub_0_r. Qed.
Lemma length_zeros : forall n, length (zeros n) = n.
Proof. intros. apply repeat_length. Qed.
Lemma st_string_length : length st_string = 2049%nat.
Proof. apply length_zeros. Qed.
Lemma write_zero : forall t, (length t <= 81)%nat -> Forall (fun c => c <> 0) t ->
  exists d, write_buf t st_string = Ok d /\ reads d t.
Proof.
  intros t T N. eexists. split.
  - apply write_buf_ok; [|exact T]. rewrite st_string_length. lia.
  - split; [exact N|]. exists (zeros (2048 - length t)). f_equal. unfold st_string. rewrite skipn_zeros.
    rewrite zeros_pos by lia. f_equal. f_equal. lia.
Qed.
Lemma reads_stale : forall t dest, (length t < length dest)%nat -> Forall (fun c => c <> 0) t ->
  (reads (t ++ skipn (length t) dest) t <-> nth (length t) dest 1 = 0).
Proof.
  intros t dest L N. assert (E : skipn (length t) dest = nth (length t) dest 1 :: skipn (S (length t)) dest).
  { clear N. revert dest L. induction t as [|c t IH]; intros dest L; destruct dest; cbn in *; try lia; [reflexivity|].
    apply IH. lia. }
  split.
  - intros [_ [rest R]]. apply app_inv_head in R. rewrite E in R. now injection R.
  - intros Z0. split; [exact N|]. exists (skipn (S (length t)) dest). now rewrite E, Z0.
Qed.

(** * Parsing *)
Lemma radix_loop_spec : forall t r, 0 < r <= 16 -> imin t <= 0 <= imax t -> forall ds (neg : bool) acc z,
  (if neg then acc <= 0 else 0 <= acc) ->
  (radix_loop t neg r ds acc = Some z <-> exists v, digits r ds v /\
     z = acc * r ^ Z.of_nat (length ds) + (if neg then - v else v) /\ (ds <> [] -> in_ity t z)).
Proof.
  intros t r R I ds. induction ds as [|c ds IH]; intros neg acc z A; cbn [radix_loop].
  - split.
    + intros E. injection E as <-. exists 0. split; [constructor|]. split; [cbn; destruct neg; lia|]. now intros [].
    + intros [v [D [-> _]]]. inversion D; [|now destruct l]. subst v. f_equal. cbn. destruct neg; lia.
  - destruct (to_digit r c) as [d|] eqn:T.
    2:{ split; [discriminate|]. intros [v [D _]]. exfalso. apply digits_inv_cons in D as [d [w [E _]]].
        apply to_digit_spec in E; [congruence|exact R]. }
    apply to_digit_spec in T; [|exact R]. assert (Td := proj1 T).
    assert (POW : 1 <= r ^ Z.of_nat (length ds)) by (apply (Z.pow_le_mono_r r 0); lia).
    assert (MONO : forall w, digits r ds w -> forall q, q = acc * r ^ Z.of_nat (length (c :: ds)) + (if neg then - (d * r ^ Z.of_nat (length ds) + w) else d * r ^ Z.of_nat (length ds) + w) ->
       in_ity t q -> in_ity t (acc * r) /\ in_ity t (if neg then acc * r - d else acc * r + d)).
    { intros w W q Q H. apply digits_nonneg in W; [|lia]. cbn [length] in Q.
      rewrite Nat2Z.inj_succ, Z.pow_succ_r in Q by lia. set (b := r ^ Z.of_nat (length ds)) in *.
      unfold in_ity in *. destruct neg.
      - assert (q <= acc * r - d) by nia. assert (acc * r <= 0) by nia. lia.
      - assert (acc * r + d <= q) by nia. assert (0 <= acc * r) by nia. lia. }
    unfold checked at 1.
    destruct (in_ityb t (acc * r)) eqn:B1.
    2:{ split; [discriminate|]. intros [v [D [Z0 F]]]. exfalso. apply digits_inv_cons in D as [d' [w [E [W ->]]]].
        rewrite (digit_fun _ _ _ _ E T) in *. specialize (F ltac:(discriminate)).
        destruct (MONO w W z Z0 F) as [M _]. apply in_ityb_iff in M. congruence. }
    unfold checked.
    destruct (in_ityb t (if neg then acc * r - d else acc * r + d)) eqn:B2.
    2:{ split; [discriminate|]. intros [v [D [Z0 F]]]. exfalso. apply digits_inv_cons in D as [d' [w [E [W ->]]]].
        rewrite (digit_fun _ _ _ _ E T) in *. specialize (F ltac:(discriminate)).
        destruct (MONO w W z Z0 F) as [_ M]. apply in_ityb_iff in M. congruence. }
    rewrite IH by (destruct neg; nia). apply in_ityb_iff in B2.
    assert (P : Z.of_nat (length (c :: ds)) = Z.succ (Z.of_nat (length ds))) by (cbn [length]; lia).
    split.
    + intros [w [W [Z0 F]]]. exists (d * r ^ Z.of_nat (length ds) + w). split; [now apply digits_cons|].
      rewrite P, Z.pow_succ_r by lia. split; [destruct neg; lia|]. intros _.
      destruct ds as [|x ds]; [|apply F; discriminate]. inversion W; [|now destruct l]. subst w. rewrite Z0. cbn [length].
      replace (r ^ Z.of_nat 0) with 1 by reflexivity. destruct neg; rewrite ?Z.mul_1_r, ?Z.add_0_r; exact B2.
    + intros [v [D [Z0 F]]]. apply digits_inv_cons in D as [d' [w [E [W ->]]]].
      rewrite (digit_fun _ _ _ _ E T) in *. exists w. split; [exact W|]. rewrite P, Z.pow_succ_r in Z0 by lia.
      split; [destruct neg; lia|]. intros _. apply F. discriminate.
Qed.

Definition signed (sign : list Z) (v z : Z) : Prop :=
  (In sign [[]; str "+"] /\ z = v) \/ (sign = str "-" /\ z = - v).
Lemma numeral_head : forall r c l v, 0 < r <= 16 -> numeral r (c :: l) v -> c <> 43 /\ c <> 45.
Proof. intros r c l v R [_ D]. apply digits_inv_cons in D as [d [w [[? ?] _]]]. lia. Qed.
Lemma from_str_radix_spec : forall t r, 0 < r <= 16 -> imin t <= 0 <= imax t -> forall l z,
  from_str_radix t r l = Some z <->
  exists sign ds v, l = sign ++ ds /\ numeral r ds v /\ signed sign v z /\ in_ity t z.
Proof.
  intros t r R I l z.
  assert (LOOP : forall (neg : bool) ds, ds <> [] -> (radix_loop t neg r ds 0 = Some z <->
            exists v, numeral r ds v /\ z = (if neg then - v else v) /\ in_ity t z)).
  { intros neg ds N. rewrite radix_loop_spec by (try exact R; try exact I; destruct neg; lia).
    split; intros [v H]; exists v.
    - destruct H as [D [E F]]. rewrite Z.mul_0_l, Z.add_0_l in E. split; [split; assumption|]. split; [exact E|]. now apply F.
    - destruct H as [[_ D] [E F]]. rewrite Z.mul_0_l, Z.add_0_l. now split. }
  assert (NOSIGN : forall b q, b <> 43 -> b <> 45 -> (radix_loop t false r (b :: q) 0 = Some z <->
     exists sign ds v, b :: q = sign ++ ds /\ numeral r ds v /\ signed sign v z /\ in_ity t z)).
  { intros b q B1 B2. rewrite LOOP by discriminate. split.
    - intros [v [N [E F]]]. exists [], (b :: q), v. repeat (split; [first [reflexivity|exact N|exact F]|]).
      split; [|exact F]. left. split; [now left|exact E].
    - intros [sign [ds [v [E [N [S F]]]]]]. destruct S as [[[<-|[<-|[]]] ->]|[-> ->]].
      + cbn in E. subst ds. exists v. now split.
      + cbn in E. injection E as E _. congruence.
      + cbn in E. injection E as E _. congruence. }
  assert (SIGN : forall b (neg : bool) q, b = (if neg then 45 else 43) -> q <> [] -> (radix_loop t neg r q 0 = Some z <->
     exists sign ds v, b :: q = sign ++ ds /\ numeral r ds v /\ signed sign v z /\ in_ity t z)).
  { intros b neg q -> Q. rewrite LOOP by exact Q. split.
    - intros [v [N [E F]]]. exists [if neg then 45 else 43], q, v. split; [reflexivity|]. split; [exact N|].
      split; [|exact F]. destruct neg; [right|left]; (split; [|exact E]); [reflexivity|right; now left].
    - intros [sign [ds [v [E [N [S F]]]]]]. destruct S as [[[<-|[<-|[]]] ->]|[-> ->]].
      + cbn in E. subst ds. apply numeral_head in N; [|exact R]. destruct neg; lia.
      + cbn in E. injection E as E ->. destruct neg; [discriminate|]. exists v. now split.
      + cbn in E. injection E as E ->. destruct neg; [|discriminate]. exists v. now split. }
  destruct l as [|b [|c q]]; cbn [from_str_radix].
  - split; [discriminate|]. intros [sign [ds [v [E [[N _] _]]]]]. symmetry in E. now apply app_eq_nil in E.
  - destruct (Z.eqb_spec b 43) as [->|B1].
    { split; [discriminate|]. intros [sign [ds [v [E [N [S F]]]]]]. exfalso.
      destruct S as [[[<-|[<-|[]]] ->]|[-> ->]]; cbn in E.
      - subst ds. apply numeral_head in N; [lia|exact R].
      - injection E as <-. now destruct N.
      - discriminate. }
    destruct (Z.eqb_spec b 45) as [->|B2].
    { split; [discriminate|]. intros [sign [ds [v [E [N [S F]]]]]]. exfalso.
      destruct S as [[[<-|[<-|[]]] ->]|[-> ->]]; cbn in E.
      - subst ds. apply numeral_head in N; [lia|exact R].
      - discriminate.
      - injection E as <-. now destruct N. }
    cbn [orb]. now apply NOSIGN.
  - destruct (Z.eqb_spec b 43) as [->|B1]; [now apply (SIGN 43 false)|].
    destruct (Z.eqb_spec b 45) as [->|B2]; [now apply (SIGN 45 true)|]. now apply NOSIGN.
Qed.

Lemma strip_spec : forall p l q, strip p l = Some q <-> l = p ++ q.
Proof.
  induction p as [|a p IH]; intros l q; cbn [strip app].
  - split; intros H; [now injection H|now subst].
  - destruct l as [|b l]; [split; discriminate|]. destruct (Z.eqb_spec a b) as [->|N].
    + rewrite IH. split; [now intros ->|]. intros E. now injection E.
    + split; [discriminate|]. intros E. injection E as E _. congruence.
Qed.
Lemma strip_none : forall p l, strip p l = None <-> forall q, l <> p ++ q.
Proof.
  intros p l. destruct (strip p l) as [q|] eqn:E.
  - apply strip_spec in E. split; [discriminate|]. intros H. now destruct (H q).
  - split; [|reflexivity]. intros _ q Q. apply strip_spec in Q. congruence.
Qed.
Lemma split_radix_prefix : forall s rest r, split_radix s = (rest, r) ->
  exists p, s = p ++ rest /\ radix_prefix p r.
Proof.
  intros s rest r. unfold split_radix, match_prefix.
  repeat (match goal with |- context [strip ?p s] => destruct (strip p s) eqn:?H; [intros E; injection E as <- <-;
     exists p; split; [now apply strip_spec|]; unfold radix_prefix, In; now tauto|clear H] end).
  intros E. injection E as <- <-. exists []. split; [reflexivity|]. now left.
Qed.
Lemma strip_app : forall p q, strip p (p ++ q) = Some q.
Proof. intros. now apply strip_spec. Qed.
Lemma split_radix_intro : forall p rest r, radix_prefix p r -> p <> [] -> split_radix (p ++ rest) = (rest, r).
Proof.
  intros p rest r H N. destruct H as [[-> _]|[[H ->]|[[-> ->]|[H ->]]]]; [congruence| |reflexivity|];
  (repeat destruct H as [<-|H]; try contradiction); reflexivity.
Qed.
Lemma strip_decimal : forall p s, existsb (fun c => (57 <? c) || (c =? 35)) p = true ->
  Forall (fun c => 43 <= c <= 57 /\ c <> 35) s -> strip p s = None.
Proof.
  intros p s E F. apply strip_none. intros q ->. apply Forall_app in F as [F _].
  apply existsb_exists in E as [c [I C]]. rewrite Forall_forall in F. apply F in I. lia.
Qed.
Lemma split_radix_decimal : forall s, Forall (fun c => 43 <= c <= 57 /\ c <> 35) s -> split_radix s = (s, 10).
Proof. intros s F. unfold split_radix, match_prefix. now rewrite !strip_decimal by (first [exact F|reflexivity]). Qed.
Lemma radix_range : forall p r, radix_prefix p r -> 0 < r <= 16.
Proof. intros p r [[_ ->]|[[_ ->]|[[_ ->]|[_ ->]]]]; lia. Qed.
Lemma ascii_decode : forall l, Forall (fun c => 0 <= c < 128) l -> utf8_decode l = Some l.
Proof.
  intros l H. rewrite <- (decode8_text l).
  - f_equal. induction H as [|c l C _ IH]; [reflexivity|]. cbn [flat_map]. rewrite <- IH. unfold utf8_char.
    destruct (Z.ltb_spec c 128); [reflexivity|lia].
  - eapply Forall_impl; [|exact H]. cbv beta. unfold is_scalar. lia.
Qed.
Lemma digits_ascii : forall r l v, digits r l v -> Forall (fun c => 0 <= c < 128) l.
Proof. intros r l v H. apply digits_char in H. eapply Forall_impl; [|exact H]. cbv beta. intros c [d [? ?]]. lia. Qed.
Lemma signed_ascii : forall sign v z, signed sign v z -> Forall (fun c => 0 <= c < 128) sign.
Proof. intros sign v z [[[<-|[<-|[]]] _]|[-> _]]; repeat constructor; lia. Qed.
Lemma reads_slice_ : forall src s, reads src s -> ptr_to_slice src = Ok s.
Proof. intros src s [N [rest ->]]. now apply slice_of. Qed.

Lemma string_to_int_spec : forall t src s, imin t <= 0 <= imax t -> reads src s -> forall z,
  string_to_int t src = Ok z <-> int_text s z /\ in_ity t z.
Proof.
  intros t src s I RD z. unfold string_to_int. rewrite (reads_slice_ _ _ RD). cbn [obind].
  destruct (split_radix s) as [rest r] eqn:S. split.
  - destruct (utf8_decode rest); [|discriminate]. intros H.
    destruct (split_radix_prefix _ _ _ S) as [p [E P]].
    destruct (from_str_radix t r rest) as [z'|] eqn:F; [|discriminate]. injection H as ->.
    apply from_str_radix_spec in F; [|now apply radix_range in P|exact I].
    destruct F as [sign [ds [v [-> [N [G B]]]]]]. split; [|exact B]. exists p, r, sign, ds, v. exact (conj E (conj P (conj N G))).
  - intros [[p [r' [sign [ds [v [E [P [N G]]]]]]]] B].
    assert (S' : split_radix s = (sign ++ ds, r')).
    { rewrite E. destruct p as [|a p]; [|now apply split_radix_intro].
      destruct P as [[_ ->]|[[H _]|[[H _]|[H _]]]].
      - cbn [app]. apply split_radix_decimal. apply Forall_app. split.
        + destruct G as [[[<-|[<-|[]]] _]|[-> _]]; [apply Forall_nil| |]; (apply Forall_cons; [cbn; lia|apply Forall_nil]).
        + destruct N as [_ N]. apply digits10_range in N. eapply Forall_impl; [|exact N]. cbv beta. lia.
      - exfalso. cbn in H. now repeat destruct H as [H|H].
      - discriminate.
      - exfalso. cbn in H. now repeat destruct H as [H|H]. }
    rewrite S in S'. injection S' as -> ->.
    assert (A : utf8_decode (sign ++ ds) = Some (sign ++ ds)).
    { apply ascii_decode. apply Forall_app. split; [now apply signed_ascii in G|]. destruct N as [_ N]. now apply digits_ascii in N. }
    rewrite A. replace (from_str_radix t r' (sign ++ ds)) with (Some z); [reflexivity|].
    symmetry. apply from_str_radix_spec; [now apply radix_range in P|exact I|]. exists sign, ds, v. exact (conj eq_refl (conj N (conj G B))).
Qed.
Lemma string_to_int_total : forall t src s, reads src s -> string_to_int t src = Panic \/ exists z, string_to_int t src = Ok z.
Proof.
  intros t src s RD. unfold string_to_int. rewrite (reads_slice_ _ _ RD). cbn [obind].
  destruct (split_radix s) as [rest r]. destruct (utf8_decode rest); [|now left].
  destruct (from_str_radix t r rest) as [z|]; [right; now exists z|now left].
Qed.
