(** UTF-8 and UTF-16: the codec of the model against the arithmetic specification. *)
From Coq Require Import ZArith List Bool Lia.
From Verif Require Import Base ModelText ModelString SpecText ProofBase.
Import ListNotations.
Open Scope Z_scope.

(** ** Bits as arithmetic *)
Lemma land_ones' : forall a n, 0 <= n -> Z.land a (2 ^ n - 1) = a mod 2 ^ n.
Proof. intros a n H. rewrite <- Z.land_ones by exact H. now rewrite Z.ones_equiv, Z.sub_1_r. Qed.
Lemma land_l : forall a n, 0 <= n -> Z.land (a * 2 ^ n) (2 ^ n - 1) = 0.
Proof. intros a n H. rewrite land_ones' by exact H. apply Z.mod_mul. lia. Qed.

Lemma lor_add : forall a n b, 0 <= n -> 0 <= b < 2 ^ n -> Z.lor (Z.shiftl a n) b = a * 2 ^ n + b.
Proof.
  intros a n b H B. rewrite Z.shiftl_mul_pow2 by exact H.
  rewrite Z.add_nocarry_lxor.
  - symmetry. apply Z.lxor_lor. rewrite <- (Z.mod_small b (2 ^ n)) by exact B.
    rewrite <- Z.land_ones, (Z.land_comm b), Z.land_assoc, Z.land_ones by exact H.
    rewrite Z.mod_mul by lia. apply Z.land_0_l.
  - rewrite <- (Z.mod_small b (2 ^ n)) by exact B.
    rewrite <- Z.land_ones, (Z.land_comm b), Z.land_assoc, Z.land_ones by exact H.
    rewrite Z.mod_mul by lia. apply Z.land_0_l.
Qed.
(** The same with the tag on the right. *)
Lemma tag_add : forall x tag n, 0 <= n -> 0 <= x < 2 ^ n ->
  Z.lor x (tag * 2 ^ n) = tag * 2 ^ n + x.
Proof.
  intros x tag n H B. rewrite Z.lor_comm, <- Z.shiftl_mul_pow2 by exact H.
  rewrite lor_add by assumption. now rewrite Z.shiftl_mul_pow2.
Qed.

Lemma tag_cont : forall x, Z.lor (Z.land x 0x3F) 0x80 = 0x80 + x mod 64.
Proof.
  intros x. change 0x3F with (2 ^ 6 - 1). rewrite land_ones' by lia.
  change 0x80 with (2 * 2 ^ 6) at 1. rewrite tag_add; [reflexivity|lia|].
  apply Z.mod_pos_bound. lia.
Qed.

Ltac divs := Z.div_mod_to_equations; lia.

Lemma encode_utf8_spec : forall c, is_scalar c -> encode_utf8 c = utf8_char c.
Proof.
  intros c S. unfold encode_utf8, utf8_char. rewrite !tag_cont.
  rewrite !Z.shiftr_div_pow2 by lia.
  change (2 ^ 6) with 64. change (2 ^ 12) with 4096. change (2 ^ 18) with 262144.
  assert (R : 0 <= c < 0x110000) by (unfold is_scalar in S; lia).
  destruct (Z.ltb_spec c 0x80); [reflexivity|].
  destruct (Z.ltb_spec c 0x800).
  { f_equal. change 0x1F with (2 ^ 5 - 1). rewrite land_ones' by lia.
    change 0xC0 with (6 * 2 ^ 5) at 1. rewrite tag_add; [|lia|apply Z.mod_pos_bound; lia].
    rewrite Z.mod_small; [reflexivity|]. change (2 ^ 5) with 32. divs. }
  destruct (Z.ltb_spec c 0x10000).
  { f_equal. change 0xF with (2 ^ 4 - 1). rewrite land_ones' by lia.
    change 0xE0 with (14 * 2 ^ 4) at 1. rewrite tag_add; [|lia|apply Z.mod_pos_bound; lia].
    rewrite Z.mod_small; [reflexivity|]. change (2 ^ 4) with 16. divs. }
  f_equal. change 0x7 with (2 ^ 3 - 1). rewrite land_ones' by lia.
  change 0xF0 with (30 * 2 ^ 3) at 1. rewrite tag_add; [|lia|apply Z.mod_pos_bound; lia].
  rewrite Z.mod_small; [reflexivity|]. change (2 ^ 3) with 8. divs.
Qed.

Lemma encode_utf16_spec : forall c, is_scalar c -> encode_utf16 c = utf16_char c.
Proof.
  intros c S. unfold encode_utf16, utf16_char.
  assert (R : 0 <= c < 0x110000) by (unfold is_scalar in S; lia).
  destruct (Z.ltb_spec c 0x10000); [reflexivity|].
  set (d := c - 0x10000). rewrite Z.shiftr_div_pow2 by lia.
  assert (D : 0 <= d < 0x100000) by (unfold d; lia).
  f_equal; [|f_equal].
  - rewrite Z.lor_comm. change 0xD800 with (54 * 2 ^ 10). rewrite tag_add; [reflexivity|lia|].
    change (2 ^ 10) with 1024. divs.
  - rewrite Z.lor_comm. change 0x3FF with (2 ^ 10 - 1). rewrite land_ones' by lia.
    change 0xDC00 with (55 * 2 ^ 10). rewrite tag_add; [reflexivity|lia|].
    apply Z.mod_pos_bound. lia.
Qed.

Lemma char2_spec : forall b0 b1, char2 b0 b1 = b0 mod 32 * 64 + b1 mod 64.
Proof.
  intros. unfold char2. change 0x1F with (2 ^ 5 - 1). change 0x3F with (2 ^ 6 - 1).
  rewrite !land_ones' by lia. rewrite lor_add; [reflexivity|lia|apply Z.mod_pos_bound; lia].
Qed.
Lemma char3_spec : forall b0 b1 b2,
  char3 b0 b1 b2 = b0 mod 32 * 4096 + b1 mod 64 * 64 + b2 mod 64.
Proof.
  intros. unfold char3. change 0x1F with (2 ^ 5 - 1). change 0x3F with (2 ^ 6 - 1).
  rewrite !land_ones' by lia.
  rewrite (lor_add (b1 mod _)); [|lia|apply Z.mod_pos_bound; lia].
  change (2 ^ 5) with 32. change (2 ^ 6) with 64.
  rewrite lor_add; [change (2 ^ 12) with 4096; lia|lia|change (2 ^ 12) with 4096; divs].
Qed.
Lemma char4_spec : forall b0 b1 b2 b3,
  char4 b0 b1 b2 b3 = b0 mod 8 * 262144 + b1 mod 64 * 4096 + b2 mod 64 * 64 + b3 mod 64.
Proof.
  intros. unfold char4. change 0x7 with (2 ^ 3 - 1). change 0x3F with (2 ^ 6 - 1).
  rewrite !land_ones' by lia.
  rewrite (lor_add (b1 mod _)); [|lia|apply Z.mod_pos_bound; lia].
  rewrite (lor_add (b1 mod _ * _ + _)); [|lia|apply Z.mod_pos_bound; lia].
  change (2 ^ 3) with 8. change (2 ^ 6) with 64.
  rewrite lor_add; [change (2 ^ 18) with 262144; lia|lia|change (2 ^ 18) with 262144; divs].
Qed.

Lemma between_iff : forall lo x hi, between lo x hi = true <-> lo <= x <= hi.
Proof. intros. unfold between. rewrite andb_true_iff, !Z.leb_le. lia. Qed.
Lemma between_not : forall lo x hi, between lo x hi = false <-> ~ (lo <= x <= hi).
Proof. intros. rewrite <- between_iff. destruct (between lo x hi); split; congruence. Qed.
Ltac btw H := first [rewrite (proj2 (between_iff _ _ _)) by H | rewrite (proj2 (between_not _ _ _)) by H].

(** ** Decoding the encoding of one character *)
Lemma utf8_decode_char : forall c l, is_scalar c ->
  utf8_decode (utf8_char c ++ l) = option_map (cons c) (utf8_decode l).
Proof.
  intros c l S. assert (R : 0 <= c < 0x110000) by (unfold is_scalar in S; lia).
  unfold utf8_char.
  destruct (Z.ltb_spec c 0x80).
  { cbn [app utf8_decode]. rewrite (proj2 (between_iff _ _ _)) by lia. reflexivity. }
  destruct (Z.ltb_spec c 0x800).
  { cbn [app utf8_decode].
    rewrite (proj2 (between_not 0 _ _)) by divs.
    rewrite (proj2 (between_iff 0xC2 _ _)) by divs.
    unfold is_cont. rewrite (proj2 (between_iff 0x80 _ _)) by divs.
    rewrite char2_spec. f_equal. f_equal. divs. }
  destruct (Z.ltb_spec c 0x10000).
  { cbn [app utf8_decode].
    rewrite (proj2 (between_not 0 _ _)) by divs.
    rewrite (proj2 (between_not 0xC2 _ _)) by divs.
    rewrite (proj2 (between_iff 0xE0 _ _)) by divs.
    unfold is_cont. rewrite (proj2 (between_iff 0x80 (0x80 + c mod 64) _)) by divs.
    rewrite andb_true_r.
    assert (T : second3 (0xE0 + c / 4096) (0x80 + c / 64 mod 64) = true).
    { unfold second3. rewrite !orb_true_iff, !andb_true_iff, !between_iff, !Z.eqb_eq.
      unfold is_scalar in S. divs. }
    rewrite T, char3_spec. f_equal. f_equal. divs. }
  cbn [app utf8_decode].
  rewrite (proj2 (between_not 0 _ _)) by divs.
  rewrite (proj2 (between_not 0xC2 _ _)) by divs.
  rewrite (proj2 (between_not 0xE0 _ _)) by divs.
  unfold is_cont. rewrite (proj2 (between_iff 0x80 (0x80 + c / 64 mod 64) _)) by divs.
  rewrite (proj2 (between_iff 0x80 (0x80 + c mod 64) _)) by divs. rewrite !andb_true_r.
  assert (T : second4 (0xF0 + c / 262144) (0x80 + c / 4096 mod 64) = true).
  { unfold second4. rewrite !orb_true_iff, !andb_true_iff, !between_iff, !Z.eqb_eq. divs. }
  rewrite T, char4_spec. f_equal. f_equal. divs.
Qed.

(** ** What decodes is the encoding of scalars *)
Lemma list_len_ind : forall (P : list Z -> Prop),
  (forall l, (forall m, (length m < length l)%nat -> P m) -> P l) -> forall l, P l.
Proof.
  intros P H l. assert (G : forall n m, (length m < n)%nat -> P m).
  { induction n; intros m L; [lia|]. apply H. intros m' L'. apply IHn. lia. }
  apply (G (S (length l))). lia.
Qed.

Lemma utf8_decode_inv : forall l t, utf8_decode l = Some t ->
  Forall is_scalar t /\ l = flat_map utf8_char t.
Proof.
  induction l as [l IH] using list_len_ind. intros t D.
  destruct l as [|b0 l0]; [injection D as <-; split; [constructor|reflexivity]|].
  assert (K : forall c pre m, b0 :: l0 = pre ++ m -> (length m < length (b0 :: l0))%nat ->
    is_scalar c -> pre = utf8_char c -> option_map (cons c) (utf8_decode m) = Some t ->
    Forall is_scalar t /\ b0 :: l0 = flat_map utf8_char t).
  { intros c pre m E Lm Sc Ep Dm. destruct (utf8_decode m) as [t'|] eqn:Em; [|discriminate].
    injection Dm as <-. destruct (IH m Lm t' Em) as [A B]. split; [now constructor|].
    cbn [flat_map]. rewrite E, Ep, B. reflexivity. }
  cbn [utf8_decode] in D.
  destruct (between 0 b0 0x7F) eqn:B0.
  { apply between_iff in B0. apply (K b0 [b0] l0); [reflexivity|simpl; lia|unfold is_scalar; lia| |exact D].
    unfold utf8_char. destruct (Z.ltb_spec b0 0x80); [reflexivity|lia]. }
  apply between_not in B0.
  destruct l0 as [|b1 l1]; [discriminate|].
  destruct (between 0xC2 b0 0xDF) eqn:B2.
  { apply between_iff in B2. destruct (is_cont b1) eqn:C1; [|discriminate].
    apply between_iff in C1.
    apply (K (char2 b0 b1) [b0; b1] l1); [reflexivity|simpl; lia| | |exact D]; rewrite char2_spec.
    - unfold is_scalar. divs.
    - unfold utf8_char. set (c := b0 mod 32 * 64 + b1 mod 64).
      assert (Ec : c = (b0 - 0xC0) * 64 + (b1 - 0x80)) by (unfold c; divs). clearbody c.
      destruct (Z.ltb_spec c 0x80); [lia|]. destruct (Z.ltb_spec c 0x800); [|lia].
      subst c. f_equal; [divs|]. f_equal. divs. }
  apply between_not in B2.
  destruct l1 as [|b2 l2]; [discriminate|].
  destruct (between 0xE0 b0 0xEF) eqn:B3.
  { apply between_iff in B3. destruct (second3 b0 b1 && is_cont b2) eqn:C; [|discriminate].
    apply andb_true_iff in C. destruct C as [C1 C2]. apply between_iff in C2.
    unfold second3 in C1. rewrite !orb_true_iff, !andb_true_iff, !between_iff, !Z.eqb_eq in C1.
    set (c := char3 b0 b1 b2) in D.
    assert (Ec : c = (b0 - 0xE0) * 4096 + (b1 - 0x80) * 64 + (b2 - 0x80)).
    { unfold c. rewrite char3_spec.
      replace (b0 mod 32) with (b0 - 0xE0) by divs.
      replace (b1 mod 64) with (b1 - 0x80) by divs.
      replace (b2 mod 64) with (b2 - 0x80) by divs. reflexivity. }
    clearbody c.
    apply (K c [b0; b1; b2] l2); [reflexivity|simpl; lia| | |exact D].
    - unfold is_scalar. lia.
    - unfold utf8_char.
      destruct (Z.ltb_spec c 0x80); [lia|]. destruct (Z.ltb_spec c 0x800); [lia|].
      destruct (Z.ltb_spec c 0x10000); [|lia].
      subst c. f_equal; [divs|]. f_equal; [divs|]. f_equal. divs. }
  apply between_not in B3.
  destruct l2 as [|b3 l3]; [discriminate|].
  destruct (second4 b0 b1 && is_cont b2 && is_cont b3) eqn:C; [|discriminate].
  apply andb_true_iff in C. destruct C as [C C3]. apply andb_true_iff in C. destruct C as [C1 C2].
  apply between_iff in C2. apply between_iff in C3.
  unfold second4 in C1. rewrite !orb_true_iff, !andb_true_iff, !between_iff, !Z.eqb_eq in C1.
  set (c := char4 b0 b1 b2 b3) in D.
  assert (Ec : c = (b0 - 0xF0) * 262144 + (b1 - 0x80) * 4096 + (b2 - 0x80) * 64 + (b3 - 0x80)).
  { unfold c. rewrite char4_spec.
    replace (b0 mod 8) with (b0 - 0xF0) by divs.
    replace (b1 mod 64) with (b1 - 0x80) by divs.
    replace (b2 mod 64) with (b2 - 0x80) by divs.
    replace (b3 mod 64) with (b3 - 0x80) by divs. reflexivity. }
  clearbody c.
  apply (K c [b0; b1; b2; b3] l3); [reflexivity|simpl; lia| | |exact D].
  - unfold is_scalar. lia.
  - unfold utf8_char.
    destruct (Z.ltb_spec c 0x80); [lia|]. destruct (Z.ltb_spec c 0x800); [lia|].
    destruct (Z.ltb_spec c 0x10000); [lia|].
    subst c. f_equal; [divs|]. f_equal; [divs|]. f_equal; [divs|]. f_equal. divs.
Qed.

(** ** UTF-16 *)
Lemma surrogate_test : forall u, 0 <= u < 65536 ->
  (Z.land u 0xF800 =? 0xD800) = between 0xD800 u 0xDFFF.
Proof.
  intros u H. change 0xF800 with (Z.shiftl 31 11).
  assert (E : Z.land u (Z.shiftl 31 11) = u / 2048 * 2048).
  { assert (Hu : u = Z.lor (Z.shiftl (u / 2048) 11) (u mod 2048)).
    { rewrite lor_add; [change (2 ^ 11) with 2048; divs|lia|apply Z.mod_pos_bound; lia]. }
    rewrite Hu at 1. rewrite Z.land_lor_distr_l, <- Z.shiftl_land.
    replace (Z.land (u mod 2048) (Z.shiftl 31 11)) with 0.
    - rewrite Z.lor_0_r. change 31 with (2 ^ 5 - 1). rewrite land_ones' by lia.
      rewrite Z.mod_small by (change (2 ^ 5) with 32; divs).
      now rewrite Z.shiftl_mul_pow2 by lia.
    - symmetry. rewrite Z.shiftl_mul_pow2 by lia. change 2048 with (2 ^ 11).
      rewrite <- Z.land_ones, <- Z.land_assoc, (Z.land_comm _ (31 * _)), Z.land_ones by lia.
      rewrite Z.mod_mul by lia. apply Z.land_0_r. }
  rewrite E. destruct (between 0xD800 u 0xDFFF) eqn:B.
  - apply between_iff in B. apply Z.eqb_eq. divs.
  - apply between_not in B. apply Z.eqb_neq. divs.
Qed.

Lemma pair_value : forall u v, 0xD800 <= u <= 0xDBFF -> 0xDC00 <= v <= 0xDFFF ->
  Z.lor (Z.shiftl (Z.land u 0x3FF) 10) (Z.land v 0x3FF) + 0x10000 =
  (u - 0xD800) * 1024 + (v - 0xDC00) + 0x10000.
Proof.
  intros u v U V. change 0x3FF with (2 ^ 10 - 1). rewrite !land_ones' by lia.
  rewrite lor_add; [|lia|apply Z.mod_pos_bound; lia]. change (2 ^ 10) with 1024.
  replace (u mod 1024) with (u - 0xD800) by divs. replace (v mod 1024) with (v - 0xDC00) by divs.
  reflexivity.
Qed.

Lemma utf16_decode_char : forall c l, is_scalar c ->
  decode_utf16 (utf16_char c ++ l) = Some c :: decode_utf16 l.
Proof.
  intros c l S. assert (R : 0 <= c < 0x110000) by (unfold is_scalar in S; lia).
  unfold utf16_char. destruct (Z.ltb_spec c 0x10000).
  - cbn [app decode_utf16]. rewrite surrogate_test by lia.
    rewrite (proj2 (between_not _ _ _)) by (unfold is_scalar in S; lia). reflexivity.
  - set (u := 0xD800 + (c - 0x10000) / 1024). set (v := 0xDC00 + (c - 0x10000) mod 1024).
    assert (U : 0xD800 <= u <= 0xDBFF) by (unfold u; divs).
    assert (V : 0xDC00 <= v <= 0xDFFF) by (unfold v; divs).
    cbn [app decode_utf16]. rewrite surrogate_test by lia.
    rewrite (proj2 (between_iff _ _ _)) by lia. cbn [negb].
    destruct (Z.leb_spec 0xDC00 u); [lia|].
    destruct (Z.ltb_spec v 0xDC00); [lia|]. destruct (Z.ltb_spec 0xDFFF v); [lia|]. cbn [orb].
    rewrite pair_value by assumption. f_equal. f_equal. unfold u, v. divs.
Qed.

Lemma utf16_decode_parse : forall l, Forall (fun u => 0 <= u < 65536) l ->
  utf16_parse l (decode_utf16 l).
Proof.
  induction l as [l IH] using list_len_ind. intros F.
  destruct l as [|u l0]; [constructor|]. inversion F as [|? ? Hu F0]; subst.
  cbn [decode_utf16]. rewrite surrogate_test by exact Hu.
  destruct (between 0xD800 u 0xDFFF) eqn:B; cbn [negb].
  2: { apply between_not in B.
       change (u :: l0) with ([u] ++ l0).
       replace [u] with (utf16_char u) by (unfold utf16_char; destruct (Z.ltb_spec u 0x10000); [reflexivity|lia]).
       apply parse_char; [unfold is_scalar; lia|]. apply IH; [simpl; lia|exact F0]. }
  apply between_iff in B.
  destruct (Z.leb_spec 0xDC00 u).
  { apply parse_low; [unfold low_surrogate; lia|]. apply IH; [simpl; lia|exact F0]. }
  assert (Hh : high_surrogate u) by (unfold high_surrogate; lia).
  destruct l0 as [|v l1].
  { apply parse_high; [exact Hh|discriminate|constructor]. }
  inversion F0 as [|? ? Hv F1]; subst.
  destruct ((v <? 0xDC00) || (0xDFFF <? v)) eqn:C.
  { apply parse_high; [exact Hh| |].
    - intros w r E. injection E as <- _. unfold low_surrogate.
      apply orb_true_iff in C. rewrite !Z.ltb_lt in C. lia.
    - apply IH; [simpl; lia|exact F0]. }
  apply orb_false_iff in C. rewrite !Z.ltb_ge in C.
  unfold high_surrogate in Hh. rewrite pair_value by lia.
  set (c := (u - 0xD800) * 1024 + (v - 0xDC00) + 0x10000).
  change (u :: v :: l1) with ([u; v] ++ l1).
  replace [u; v] with (utf16_char c).
  - apply parse_char; [unfold is_scalar, c; lia|]. apply IH; [simpl; lia|exact F1].
  - unfold utf16_char. destruct (Z.ltb_spec c 0x10000); [unfold c in *; lia|].
    unfold c. f_equal; [divs|]. f_equal. divs.
Qed.

Lemma parse_all_some : forall l items, utf16_parse l items -> forall t, items = map Some t ->
  Forall is_scalar t /\ l = flat_map utf16_char t.
Proof.
  induction 1 as [|c l items Sc P IH|u l items Hh N P IH|u l items Hl P IH]; intros t E.
  - destruct t; [split; [constructor|reflexivity]|discriminate].
  - destruct t as [|d t]; [discriminate|]. injection E as <- E. destruct (IH t E) as [A B].
    split; [now constructor|]. cbn [flat_map]. now rewrite B.
  - destruct t; discriminate.
  - destruct t; discriminate.
Qed.

Lemma parse_scalars : forall l items, utf16_parse l items ->
  Forall (fun i => match i with Some c => is_scalar c | None => True end) items.
Proof. induction 1; constructor; auto. Qed.

(** Parsing is deterministic. *)
Lemma parse_decode : forall l items, utf16_parse l items ->
  decode_utf16 l = items.
Proof.
  induction 1 as [|c l items Sc P IH|u l items Hh N P IH|u l items Hl P IH].
  - reflexivity.
  - rewrite utf16_decode_char by exact Sc. now rewrite IH.
  - unfold high_surrogate in Hh. cbn [decode_utf16]. rewrite surrogate_test by lia.
    rewrite (proj2 (between_iff _ _ _)) by lia. cbn [negb].
    destruct (Z.leb_spec 0xDC00 u); [lia|].
    destruct l as [|v r]; [inversion P; subst; [reflexivity|]|].
    + destruct (utf16_char c) eqn:E; [|discriminate]. exfalso. unfold utf16_char in E.
      destruct (c <? 65536); discriminate.
    + specialize (N v r eq_refl). unfold low_surrogate in N.
      replace ((v <? 0xDC00) || (0xDFFF <? v)) with true; [now rewrite <- IH|].
      symmetry. apply orb_true_iff. rewrite !Z.ltb_lt. lia.
  - unfold low_surrogate in Hl. cbn [decode_utf16]. rewrite surrogate_test by lia.
    rewrite (proj2 (between_iff _ _ _)) by lia. cbn [negb].
    destruct (Z.leb_spec 0xDC00 u); [now rewrite IH|lia].
Qed.
