(** FIND, comparison, well-formedness of results, conversions. *)
From Coq Require Import ZArith List Bool Lia Sorting.Sorted.
From Verif Require Import Base ModelText ModelString SpecText ProofBase ProofText ProofString.
Import ListNotations.
Open Scope Z_scope.

(** ** Self-synchronisation *)
Definition parse (k : kind) (l : list Z) : option (list (option Z)) :=
  match k with
  | STRING => option_map (map Some) (utf8_decode l)
  | WSTRING => Some (decode_utf16 l)
  end.
Lemma parse_char : forall k c l, is_scalar c ->
  parse k (enc k c ++ l) = option_map (cons (Some c)) (parse k l).
Proof.
  intros [] c l S; cbn [parse enc].
  - rewrite utf8_decode_char by exact S. now destruct (utf8_decode l).
  - rewrite utf16_decode_char by exact S. reflexivity.
Qed.
Lemma parse_units : forall k t, Forall is_scalar t -> parse k (units k t) = Some (map Some t).
Proof.
  intros k t S. induction S as [|c t Sc S IH]; [destruct k; reflexivity|].
  rewrite units_cons, parse_char by exact Sc. now rewrite IH.
Qed.

Lemma enc_prefix : forall k c d X t, is_scalar c -> is_scalar d -> Forall is_scalar t ->
  enc k d ++ X = enc k c ++ units k t -> d = c /\ X = units k t.
Proof.
  intros k c d X t Sc Sd St E. assert (P := f_equal (parse k) E).
  rewrite !parse_char, parse_units in P by assumption. cbn [option_map] in P.
  destruct (parse k X); cbn [option_map] in P; [|discriminate].
  injection P as P _. subst d. split; [reflexivity|]. now apply app_inv_head in E.
Qed.
Lemma units_prefix : forall k ns hs b, Forall is_scalar ns -> Forall is_scalar hs ->
  units k hs = units k ns ++ b -> exists tb, hs = ns ++ tb /\ b = units k tb.
Proof.
  intros k ns hs b Sn. revert hs b. induction Sn as [|d ns Sd Sn IH]; intros hs b Sh E.
  - exists hs. split; [reflexivity|]. rewrite (units_enc k []) in E. symmetry. exact E.
  - destruct Sh as [|c hs Sc Sh].
    + rewrite units_cons in E. destruct (enc_shape k d Sd) as (u & r & Eu & _).
      rewrite Eu, (units_enc k []) in E. discriminate.
    + rewrite !units_cons, <- app_assoc in E. symmetry in E.
      apply enc_prefix in E; try assumption. destruct E as [-> E]. symmetry in E.
      destruct (IH hs b Sh E) as (tb & -> & ->). now exists tb.
Qed.
Lemma units_inj : forall k a b, Forall is_scalar a -> Forall is_scalar b ->
  units k a = units k b -> a = b.
Proof.
  intros k a b Sa Sb E. assert (P := f_equal (parse k) E).
  rewrite !parse_units in P by assumption. injection P as P. now apply map_Some_inj.
Qed.

Lemma units_occurs : forall k ns hs a b, ns <> [] -> Forall is_scalar ns -> Forall is_scalar hs ->
  units k hs = a ++ units k ns ++ b ->
  exists ta tb, hs = ta ++ ns ++ tb /\ a = units k ta /\ b = units k tb.
Proof.
  intros k ns hs a b N Sn Sh. revert a b.
  destruct ns as [|d ns]; [congruence|]. clear N. assert (Sd : is_scalar d) by now inversion Sn.
  destruct (enc_shape k d Sd) as (v & w & Ed & Hv & _).
  remember (units k (d :: ns)) as n eqn:En.
  assert (Hn : exists n', n = v :: n') by (rewrite En, units_cons, Ed; now eexists).
  destruct Hn as (n' & Hn).
  induction Sh as [|c hs Sc Sh IH]; intros a b E.
  - rewrite (units_enc k []), Hn in E. destruct a; discriminate.
  - destruct a as [|x a].
    + rewrite En in E.
      destruct (units_prefix k (d :: ns) (c :: hs) b Sn) as (tb & E1 & E2); [now constructor|exact E|].
      exists [], tb. split; [exact E1|]. split; [now rewrite units_enc|exact E2].
    + destruct (enc_shape k c Sc) as (u & r & Ec & _ & Hr & _).
      rewrite units_cons, Ec in E. cbn [app] in E. injection E as <- E.
      assert (A : exists a', a = r ++ a' /\ units k hs = a' ++ n ++ b).
      { clear IH Ec En. revert a E. induction Hr as [|y r [Hy _] Hr IHr]; intros a E.
        - exists a. split; [reflexivity|exact E].
        - destruct a as [|z a].
          + rewrite Hn in E. cbn [app] in E. injection E as E _. congruence.
          + cbn [app] in E. injection E as <- E. destruct (IHr a E) as (a' & -> & E').
            now exists a'. }
      destruct A as (a' & -> & E'). destruct (IH a' b E') as (ta & tb & -> & -> & ->).
      exists (c :: ta), tb. split; [reflexivity|]. split; [|reflexivity].
      rewrite units_cons, Ec. reflexivity.
Qed.

(** ** Searching *)
Lemma list_eqb_iff : forall a b, list_eqb a b = true <-> a = b.
Proof.
  induction a as [|x a IH]; intros [|y b]; cbn [list_eqb]; try (split; [discriminate|discriminate]);
    [split; reflexivity|].
  rewrite andb_true_iff, Z.eqb_eq, IH. split; [intros [-> ->]; reflexivity|].
  intros E. injection E as -> ->. auto.
Qed.
Lemma occurs_0 : forall n h, occurs_at n h 0 <-> exists b, h = n ++ b.
Proof.
  intros n h. split.
  - intros (a & b & E & L). destruct a; [|discriminate]. now exists b.
  - intros (b & ->). exists [], b. split; reflexivity.
Qed.
Lemma occurs_S : forall n x h i, occurs_at n (x :: h) (S i) <-> occurs_at n h i.
Proof.
  intros n x h i. split.
  - intros (a & b & E & L). destruct a as [|y a]; [discriminate|]. injection E as _ E.
    injection L as L. exists a, b. auto.
  - intros (a & b & -> & L). exists (x :: a), b. split; [reflexivity|]. cbn. now rewrite L.
Qed.
Lemma occurs_len : forall n h i, occurs_at n h i -> (i + length n <= length h)%nat.
Proof. intros n h i (a & b & -> & <-). rewrite !app_length. lia. Qed.
Lemma head_test : forall n h, list_eqb (firstn (length n) h) n = true <-> exists b, h = n ++ b.
Proof.
  intros n h. rewrite list_eqb_iff. split.
  - intros E. exists (skipn (length n) h). rewrite <- E at 1. symmetry. apply firstn_skipn.
  - intros (b & ->). rewrite firstn_app, Nat.sub_diag, firstn_all. apply app_nil_r.
Qed.

Lemma position_spec : forall n h, n <> [] ->
  match position n h with
  | Some i => first_at n h i
  | None => forall i, ~ occurs_at n h i
  end.
Proof.
  intros n h N. induction h as [|x h IH].
  - destruct n as [|y n]; [congruence|]. cbn. intros i O. apply occurs_len in O. cbn in O. lia.
  - cbn [position].
    destruct (Nat.ltb_spec (length (x :: h)) (length n)).
    { intros i O. apply occurs_len in O. lia. }
    destruct (list_eqb (firstn (length n) (x :: h)) n) eqn:T.
    + apply head_test in T. split; [now apply occurs_0|]. intros; lia.
    + assert (H0 : ~ occurs_at n (x :: h) 0).
      { rewrite occurs_0, <- head_test. congruence. }
      destruct (position n h) as [i|]; cbn [option_map].
      * destruct IH as [O F]. split; [now apply occurs_S|]. intros [|m] Om; [contradiction|].
        apply occurs_S, F in Om. lia.
      * intros [|i] O; [contradiction|]. rewrite occurs_S in O. exact (IH i O).
Qed.

Lemma units_length_le : forall k t, Forall is_scalar t -> (length t <= length (units k t))%nat.
Proof.
  intros k t S. induction S as [|c t Sc S IH]; [cbn; lia|].
  rewrite units_cons, app_length. destruct (enc_shape k c Sc) as (u & r & -> & _). cbn. lia.
Qed.
Lemma units_nil : forall k t, Forall is_scalar t -> units k t = [] -> t = [].
Proof.
  intros k t S E. assert (L := units_length_le k t S). rewrite E in L. destruct t; [reflexivity|cbn in L; lia].
Qed.
Lemma units_nil' : forall k, units k [] = [].
Proof. intros k. now rewrite units_enc. Qed.

Lemma holds_slice : forall k src t, holds k src t -> ptr_to_slice src = Ok (units k t).
Proof. intros k src t [T (rest & ->)]. apply slice_of. now apply units_nonzero. Qed.

Lemma index_count : forall k idx t rest, Forall is_scalar t -> idx = length (units k t) ->
  match k with
  | STRING => let! cs := unwrap (utf8_decode (firstn idx (units k t ++ rest))) in
              Ok (Z.of_nat (length cs))
  | WSTRING => Ok (count (decode_utf16 (firstn idx (units k t ++ rest))))
  end = Ok (Z.of_nat (length t)).
Proof.
  intros k idx t rest S ->.
  rewrite firstn_app, Nat.sub_diag, firstn_all, app_nil_r. destruct k; unfold units.
  - now rewrite decode8_text.
  - now rewrite decode16_text, count_map.
Qed.

Lemma find_text : forall p k src1 src2 hs ns, holds k src1 hs -> holds k src2 ns ->
  (ns = [] /\ FIND p k src1 src2 = Ok 0) \/
  (ns <> [] /\ (forall i, ~ occurs_at ns hs i) /\ FIND p k src1 src2 = Ok 0) \/
  (ns <> [] /\ exists i, first_at ns hs i /\
     FIND p k src1 src2 = arith p i32 (wrap i32 (Z.of_nat i) + 1)).
Proof.
  intros p k src1 src2 hs ns H1 H2. unfold FIND.
  rewrite (holds_slice _ _ _ H1), (holds_slice _ _ _ H2). cbn [obind].
  assert (Sh := text_scalar _ (proj1 H1)). assert (Sn := text_scalar _ (proj1 H2)).
  destruct ns as [|d ns'] eqn:En.
  { left. split; [reflexivity|]. rewrite (units_nil' k). cbn [length].
    now rewrite !orb_true_r. }
  rewrite <- En in *. assert (N : ns <> []) by (rewrite En; discriminate). clear En d ns'.
  right.
  assert (Nu : units k ns <> []) by (intros E; now apply units_nil in E).
  (* character-level occurrences are unit-level occurrences *)
  assert (Up : forall ta tb, hs = ta ++ ns ++ tb ->
                 occurs_at (units k ns) (units k hs) (length (units k ta))).
  { intros ta tb ->. exists (units k ta), (units k tb). rewrite !units_app. auto. }
  assert (PS := position_spec (units k ns) (units k hs) Nu).
  destruct (Nat.ltb_spec (length (units k hs)) (length (units k ns))).
  { cbn [orb]. left. split; [exact N|]. split; [|reflexivity].
    intros i (ta & tb & E & _). specialize (Up ta tb E). apply occurs_len in Up. lia. }
  cbn [orb]. destruct (Nat.eqb_spec (length (units k hs)) 0).
  { cbn [orb]. left. split; [exact N|]. split; [|reflexivity].
    intros i (ta & tb & E & _). specialize (Up ta tb E). apply occurs_len in Up.
    destruct (units k ns); [congruence|cbn in *; lia]. }
  cbn [orb]. destruct (Nat.eqb_spec (length (units k ns)) 0).
  { destruct (units k ns); [congruence|discriminate]. }
  destruct (position (units k ns) (units k hs)) as [idx|].
  - right. split; [exact N|]. destruct PS as [(a & b & E & L) F].
    destruct (units_occurs k ns hs a b N Sn Sh E) as (ta & tb & E' & -> & ->).
    exists (length ta). split.
    + split; [exists ta, tb; auto|]. intros m (ta' & tb' & E'' & <-).
      specialize (F _ (Up ta' tb' E'')). rewrite <- L in F.
      (* ta and ta' are prefixes of hs; compare lengths of their units *)
      destruct (Nat.le_gt_cases (length ta) (length ta')) as [G|G]; [exact G|exfalso].
      assert (P : exists z, z <> [] /\ ta = ta' ++ z).
      { exists (skipn (length ta') ta). split.
        - intros Z0. apply (f_equal (@length Z)) in Z0. rewrite skipn_length in Z0. cbn in Z0. lia.
        - rewrite <- (firstn_skipn (length ta') ta) at 1. f_equal.
          assert (Q : firstn (length ta') hs = ta').
          { rewrite E'', firstn_app, Nat.sub_diag, firstn_all. apply app_nil_r. }
          rewrite <- Q at 2. rewrite E', firstn_app.
          replace (length ta' - length ta)%nat with 0%nat by lia. symmetry. apply app_nil_r. }
      destruct P as (z & Nz & ->). rewrite units_app, app_length in F.
      assert (Sz : Forall is_scalar z).
      { rewrite E' in Sh. apply Forall_app in Sh. destruct Sh as [Sh _].
        now apply Forall_app in Sh. }
      assert (Lz := units_length_le k z Sz). destruct z; [congruence|cbn [length] in Lz; lia].
    + assert (Sta : Forall is_scalar ta).
      { rewrite E' in Sh. now apply Forall_app in Sh. }
      rewrite E', units_app. rewrite (index_count k idx ta (units k (ns ++ tb)) Sta (eq_sym L)).
      reflexivity.
  - left. split; [exact N|]. split; [|reflexivity].
    intros i (ta & tb & E & _). now apply (PS _ (Up ta tb E)).
Qed.

(** ** Comparison *)
Lemma cmp_spec : forall a b, CompareSpec (a = b) (lex_lt a b) (lex_lt b a) (slice_cmp a b).
Proof.
  induction a as [|x a IH]; intros [|y b]; cbn [slice_cmp].
  - now constructor.
  - constructor. left. now exists y, b.
  - constructor. left. now exists x, a.
  - destruct (Z.compare_spec x y) as [->|L|L].
    + destruct (IH b) as [->|L|L]; constructor; [reflexivity|..].
      * destruct L as [(c & r & ->)|(p & u & v & r & s & -> & -> & L)]; [left; now exists c, r|].
        right. now exists (y :: p), u, v, r, s.
      * destruct L as [(c & r & ->)|(p & u & v & r & s & -> & -> & L)]; [left; now exists c, r|].
        right. now exists (y :: p), u, v, r, s.
    + constructor. right. now exists [], x, y, a, b.
    + constructor. right. now exists [], y, x, b, a.
Qed.
Lemma cmp_refl : forall a, slice_cmp a a = Eq.
Proof. induction a as [|x a IH]; [reflexivity|]. cbn. now rewrite Z.compare_refl. Qed.
Lemma cmp_antisym : forall a b, slice_cmp b a = CompOpp (slice_cmp a b).
Proof.
  induction a as [|x a IH]; intros [|y b]; try reflexivity. cbn.
  rewrite (Z.compare_antisym x y). destruct (x ?= y); cbn; [apply IH|reflexivity..].
Qed.
Lemma cmp_eq : forall a b, slice_cmp a b = Eq -> a = b.
Proof.
  induction a as [|x a IH]; intros [|y b] E; try discriminate; [reflexivity|].
  cbn in E. destruct (Z.compare_spec x y) as [->|L|L]; try discriminate. f_equal. now apply IH.
Qed.
Lemma lex_cmp : forall a b, lex_lt a b -> slice_cmp a b = Lt.
Proof.
  intros a b [(c & r & ->)|(p & x & y & r & s & -> & -> & L)].
  - induction a as [|x a IH]; [reflexivity|]. cbn. now rewrite Z.compare_refl.
  - induction p as [|z p IH]; cbn.
    + apply Z.compare_lt_iff in L. now rewrite L.
    + now rewrite Z.compare_refl.
Qed.
Lemma cmp_lt_iff : forall a b, slice_cmp a b = Lt <-> lex_lt a b.
Proof.
  intros a b. split; [|apply lex_cmp]. intros E. destruct (cmp_spec a b); congruence.
Qed.
Lemma cmp_gt_iff : forall a b, slice_cmp a b = Gt <-> lex_lt b a.
Proof.
  intros a b. rewrite <- cmp_lt_iff, (cmp_antisym a b).
  destruct (slice_cmp a b); cbn; split; congruence.
Qed.
Lemma cmp_eq_iff : forall a b, slice_cmp a b = Eq <-> a = b.
Proof. intros a b. split; [apply cmp_eq|intros ->; apply cmp_refl]. Qed.
Lemma cmp_lt_trans : forall a b c, slice_cmp a b = Lt -> slice_cmp b c = Lt -> slice_cmp a c = Lt.
Proof.
  induction a as [|x a IH]; intros [|y b] [|z c] H1 H2; cbn in *; try congruence.
  destruct (Z.compare_spec x y) as [->|L1|L1]; try discriminate.
  - destruct (Z.compare_spec y z) as [->|L2|L2]; try discriminate.
    + now apply (IH b).
    + reflexivity.
  - destruct (Z.compare_spec y z) as [->|L2|L2]; try discriminate.
    + apply Z.compare_lt_iff in L1. now rewrite L1.
    + assert (L : x < z) by lia. apply Z.compare_lt_iff in L. now rewrite L.
Qed.
Lemma lex_trans : forall a b c, lex_lt a b -> lex_lt b c -> lex_lt a c.
Proof. intros a b c. rewrite <- !cmp_lt_iff. apply cmp_lt_trans. Qed.
Lemma lex_irrefl : forall a, ~ lex_lt a a.
Proof. intros a. rewrite <- cmp_lt_iff, cmp_refl. discriminate. Qed.

Lemma reads_slice : forall src s, reads src s -> ptr_to_slice src = Ok s.
Proof. intros src s [N (rest & ->)]. now apply slice_of. Qed.
Lemma holds_reads : forall k src t, holds k src t -> reads src (units k t).
Proof. intros k src t [T R]. split; [now apply units_nonzero|exact R]. Qed.

(** All pairs from adjacent pairs. *)
Lemma all_pairs_cons : forall R x l, all_pairs R (x :: l) <-> Forall (R x) l /\ all_pairs R l.
Proof.
  intros R x l. split.
  - intros H. split.
    + apply Forall_forall. intros y Iy. apply in_split in Iy. destruct Iy as (l2 & l3 & ->).
      apply (H [] x l2 y l3). reflexivity.
    + intros l1 a l2 b l3 ->. apply (H (x :: l1) a l2 b l3). reflexivity.
  - intros [F H] [|z l1] a l2 b l3 E.
    + injection E as <- ->. rewrite Forall_forall in F. apply F. apply in_app_iff. right. now left.
    + injection E as <- ->. now apply (H l1 a l2 b l3).
Qed.
Lemma all_pairs_nil : forall R, all_pairs R [].
Proof. intros R [|? ?] x l2 y l3 E; discriminate. Qed.

Lemma compare_loop_spec : forall f R, (forall a b, f (slice_cmp a b) = true <-> R a b) ->
  (forall a b c, R a b -> R b c -> R a c) ->
  forall strs argv extra prev, Forall2 reads argv strs ->
  exists b, compare_loop f (length strs) prev (argv ++ extra) = Ok b /\
    (b = true <-> all_pairs R (prev :: strs)).
Proof.
  intros f R HR Tr strs argv extra prev H. revert prev.
  induction H as [|a s argv strs Hs H IH]; intros prev.
  - exists true. split; [reflexivity|]. split; [intros _|reflexivity].
    apply all_pairs_cons. split; [constructor|apply all_pairs_nil].
  - cbn [length app compare_loop]. rewrite (reads_slice _ _ Hs). cbn [obind].
    destruct (f (slice_cmp prev s)) eqn:Fp; cbn [negb].
    + destruct (IH s) as (b & E & I). exists b. split; [exact E|]. rewrite I.
      apply HR in Fp. rewrite (all_pairs_cons R prev). split; [|tauto].
      intros A. split; [|exact A]. constructor; [exact Fp|].
      apply all_pairs_cons in A. destruct A as [A _]. eapply Forall_impl; [|exact A].
      intros y. now apply Tr.
    + exists false. split; [reflexivity|]. split; [discriminate|]. intros A.
      apply all_pairs_cons in A. destruct A as [A _]. inversion A as [|? ? A1 _]; subst.
      apply HR in A1. congruence.
Qed.
Lemma compare_spec : forall f R, (forall a b, f (slice_cmp a b) = true <-> R a b) ->
  (forall a b c, R a b -> R b c -> R a c) ->
  forall strs argv extra, Forall2 reads argv strs -> (2 <= length strs)%nat ->
  exists b, compare f (Z.of_nat (length strs)) (argv ++ extra) = Ok b /\
    (b = true <-> all_pairs R strs).
Proof.
  intros f R HR Tr strs argv extra H L. destruct H as [|a s argv strs Hs H]; [cbn in L; lia|].
  unfold compare. destruct (Z.ltb_spec (Z.of_nat (length (s :: strs))) 2); [lia|].
  cbn [app]. rewrite (reads_slice _ _ Hs). cbn [obind].
  replace (Z.to_nat (Z.of_nat (length (s :: strs)) - 1)) with (length strs) by (cbn [length]; lia).
  apply (compare_loop_spec f R HR Tr strs argv extra s H).
Qed.
Lemma compare_2 : forall f a b s t, reads a s -> reads b t ->
  compare f 2 [a; b] = Ok (f (slice_cmp s t)).
Proof.
  intros f a b s t Ha Hb. unfold compare. cbn [Z.ltb Z.compare].
  change (2 <? 2) with false. cbn match. rewrite (reads_slice _ _ Ha). cbn [obind].
  change (Z.to_nat (2 - 1)) with 1%nat. cbn [compare_loop]. rewrite (reads_slice _ _ Hb). cbn [obind].
  destruct (f (slice_cmp s t)); reflexivity.
Qed.
Lemma compare_few : forall f argc argv, argc < 2 -> compare f argc argv = Panic.
Proof. intros f argc argv H. unfold compare. now destruct (Z.ltb_spec argc 2); [|lia]. Qed.

(** ** Order of encodings *)
Lemma cmp_app : forall p a b, slice_cmp (p ++ a) (p ++ b) = slice_cmp a b.
Proof. induction p as [|x p IH]; intros a b; [reflexivity|]. cbn. now rewrite Z.compare_refl. Qed.
Lemma cmp_head : forall x y a b, x < y -> slice_cmp (x :: a) (y :: b) = Lt.
Proof. intros x y a b H. cbn. apply Z.compare_lt_iff in H. now rewrite H. Qed.
Lemma cmp_same : forall x y a b, x = y -> slice_cmp (x :: a) (y :: b) = slice_cmp a b.
Proof. intros x y a b ->. cbn. now rewrite Z.compare_refl. Qed.

Ltac lead := first [apply cmp_head; divs | rewrite cmp_same by divs].
Lemma utf8_order : forall c d X Y, is_scalar c -> is_scalar d -> c < d ->
  slice_cmp (utf8_char c ++ X) (utf8_char d ++ Y) = Lt.
Proof.
  intros c d X Y Sc Sd L.
  assert (Rc : 0 <= c <= 0x10FFFF) by (unfold is_scalar in Sc; lia).
  assert (Rd : 0 <= d <= 0x10FFFF) by (unfold is_scalar in Sd; lia). clear Sc Sd.
  unfold utf8_char.
  destruct (Z.ltb_spec c 0x80).
  { destruct (Z.ltb_spec d 0x80); [apply cmp_head; lia|].
    destruct (Z.ltb_spec d 0x800); [apply cmp_head; divs|].
    destruct (Z.ltb_spec d 0x10000); apply cmp_head; divs. }
  destruct (Z.ltb_spec d 0x80); [lia|].
  destruct (Z.ltb_spec c 0x800).
  { destruct (Z.ltb_spec d 0x800).
    - cbn [app]. destruct (Z.lt_total (c / 64) (d / 64)) as [E|[E|E]]; [lead| |divs].
      rewrite cmp_same by lia. apply cmp_head. divs.
    - destruct (Z.ltb_spec d 0x10000); apply cmp_head; divs. }
  destruct (Z.ltb_spec d 0x800); [lia|].
  destruct (Z.ltb_spec c 0x10000).
  { destruct (Z.ltb_spec d 0x10000); [|apply cmp_head; divs].
    cbn [app]. destruct (Z.lt_total (c / 4096) (d / 4096)) as [E|[E|E]]; [apply cmp_head; lia| |divs].
    rewrite cmp_same by lia.
    destruct (Z.lt_total (c / 64) (d / 64)) as [E1|[E1|E1]]; [apply cmp_head; divs| |divs].
    rewrite cmp_same by (rewrite E1; reflexivity). apply cmp_head. divs. }
  destruct (Z.ltb_spec d 0x10000); [lia|].
  cbn [app]. destruct (Z.lt_total (c / 262144) (d / 262144)) as [E|[E|E]]; [apply cmp_head; lia| |divs].
  rewrite cmp_same by lia.
  destruct (Z.lt_total (c / 4096) (d / 4096)) as [E1|[E1|E1]]; [apply cmp_head; divs| |divs].
  rewrite cmp_same by (rewrite E1; reflexivity).
  destruct (Z.lt_total (c / 64) (d / 64)) as [E2|[E2|E2]]; [apply cmp_head; divs| |divs].
  rewrite cmp_same by (rewrite E2; reflexivity). apply cmp_head. divs.
Qed.

Lemma units8_order : forall s t, Forall is_scalar s -> Forall is_scalar t ->
  slice_cmp (units STRING s) (units STRING t) = slice_cmp s t.
Proof.
  intros s t Ss. revert t. induction Ss as [|c s Sc Ss IH]; intros t St.
  - destruct St as [|d t Sd St]; [reflexivity|]. rewrite units_cons, units_nil'.
    destruct (enc_shape STRING d Sd) as (u & r & -> & _). reflexivity.
  - destruct St as [|d t Sd St].
    + rewrite units_cons, units_nil'. destruct (enc_shape STRING c Sc) as (u & r & -> & _). reflexivity.
    + rewrite !units_cons. cbn [slice_cmp enc]. destruct (Z.compare_spec c d) as [->|L|L].
      * rewrite cmp_app. now apply IH.
      * now apply utf8_order.
      * rewrite cmp_antisym. rewrite utf8_order by assumption. reflexivity.
Qed.
Lemma units16_bmp : forall t, Forall (fun c => c < 0x10000) t -> units WSTRING t = t.
Proof.
  intros t H. induction H as [|c t L H IH]; [reflexivity|]. rewrite units_cons, IH. cbn [enc].
  unfold utf16_char. destruct (Z.ltb_spec c 0x10000); [reflexivity|lia].
Qed.

(** ** Results are well-formed *)
Definition good (i : option Z) : Prop := match i with Some c => is_scalar c /\ c <> 0 | None => True end.
Lemma decode_good : forall k src items, Forall (unit_ok k) src -> decode k src = Ok items ->
  Forall good items.
Proof.
  intros k src items U D. unfold decode in D.
  destruct (slice_cases src) as [(s & rest & -> & N & E)|[_ E]]; rewrite E in D; cbn [obind] in D;
    [|discriminate].
  apply Forall_app in U. destruct U as [U _]. destruct k.
  - destruct (utf8_decode s) as [t|] eqn:Dt; [|discriminate]. cbn in D. injection D as <-.
    apply utf8_decode_inv in Dt. destruct Dt as [S ->]. clear -S N.
    induction S as [|c t Sc S IH]; [constructor|]. cbn [map flat_map] in *.
    apply Forall_app in N. destruct N as [N1 N2]. constructor; [|now apply IH].
    split; [exact Sc|]. intros ->. inversion N1. congruence.
  - injection D as <-. assert (P := utf16_decode_parse s U). clear -P N.
    induction P as [|c l items Sc P IH|u l items Hh Hn P IH|u l items Hl P IH].
    + constructor.
    + apply Forall_app in N. destruct N as [N1 N2]. constructor; [|now apply IH].
      split; [exact Sc|]. intros ->. inversion N1. congruence.
    + constructor; [exact I|]. apply IH. now inversion N.
    + constructor; [exact I|]. apply IH. now inversion N.
Qed.
Lemma encode_loop_items : forall k items d d', encode_loop k items d = Ok d' ->
  Forall good items -> exists t, text t /\ items = map Some t.
Proof.
  intros k items. induction items as [|i items IH]; intros d d' E G.
  - exists []. split; [constructor|reflexivity].
  - inversion G as [|? ? Gi G']; subst. cbn [encode_loop] in E. destruct i as [c|]; [|discriminate].
    cbn [unwrap obind] in E. destruct (put_all (encode_char k c) d) as [d1| |]; try discriminate.
    cbn [obind] in E. destruct (IH d1 d' E G') as (t & T & ->). exists (c :: t).
    split; [now constructor|reflexivity].
Qed.
Lemma encode_items : forall k items d d', encode k items d = Ok d' ->
  Forall good items -> exists t, text t /\ items = map Some t.
Proof.
  intros k items d d' E G. unfold encode in E.
  destruct (encode_loop k items d) as [d1| |] eqn:E1; try discriminate.
  now apply (encode_loop_items k items d d1).
Qed.
Lemma encode_to_good : forall k items dest dest', encode_to k items dest = Ok dest' ->
  Forall good items -> well_written k dest dest'.
Proof.
  intros k items dest dest' E G. unfold encode_to in E.
  destruct (encode k items ([], dest)) as [d1| |] eqn:E1; try discriminate.
  destruct (encode_items k items _ _ E1 G) as (t & T & ->).
  rewrite encode_spec in E1 by (now apply text_scalar).
  destruct (Nat.ltb_spec (length (units k t)) (length dest)); [|discriminate].
  injection E1 as <-. injection E as <-. exists t. split; [exact T|]. split; [assumption|reflexivity].
Qed.
Lemma Forall_firstn : forall A (P : A -> Prop) n l, Forall P l -> Forall P (firstn n l).
Proof. intros A P n l H. rewrite <- (firstn_skipn n l) in H. now apply Forall_app in H. Qed.
Lemma Forall_skipn : forall A (P : A -> Prop) n l, Forall P l -> Forall P (skipn n l).
Proof. intros A P n l H. rewrite <- (firstn_skipn n l) in H. now apply Forall_app in H. Qed.

Ltac good_step :=
  match goal with
  | H : Panic = Ok _ |- _ => discriminate H
  | H : Ub = Ok _ |- _ => discriminate H
  | H : (if ?b then _ else _) = Ok _ |- _ => destruct b
  | H : obind (decode ?k ?s) _ = Ok _ |- _ =>
      let E := fresh "D" in destruct (decode k s) eqn:E; cbn [obind] in H
  | H : obind (arith ?p ?t ?x) _ = Ok _ |- _ => destruct (arith p t x); cbn [obind] in H
  | H : encode_to _ _ _ = Ok _ |- _ => apply (encode_to_good _ _ _ _ H)
  end.
Ltac good_items :=
  match goal with
  | |- Forall good (_ ++ _) => apply Forall_app; split; good_items
  | |- Forall good (firstn _ _) => apply Forall_firstn; good_items
  | |- Forall good (skipn _ _) => apply Forall_skipn; good_items
  | U : Forall (unit_ok _) ?s, D : decode _ ?s = Ok ?x |- Forall good ?x => exact (decode_good _ _ _ U D)
  end.

Section WellFormed.
Variables (p : profile) (k : kind) (src1 src2 : list Z) (L P : Z) (dest dest' : list Z).
Hypothesis (U1 : Forall (unit_ok k) src1) (U2 : Forall (unit_ok k) src2).
Lemma left_good : LEFT_EXT k src1 L dest = Ok dest' -> well_written k dest dest'.
Proof using U1. unfold LEFT_EXT. intros H. repeat good_step. good_items. Qed.
Lemma right_good : RIGHT_EXT k src1 L dest = Ok dest' -> well_written k dest dest'.
Proof using U1. unfold RIGHT_EXT. intros H. repeat good_step. good_items. Qed.
Lemma mid_good : MID_EXT p k src1 L P dest = Ok dest' -> well_written k dest dest'.
Proof using U1. unfold MID_EXT. intros H. repeat good_step. good_items. Qed.
Lemma insert_good : INSERT_EXT k src1 src2 P dest = Ok dest' -> well_written k dest dest'.
Proof using U1 U2. unfold INSERT_EXT. intros H. repeat good_step. good_items. Qed.
Lemma delete_good : DELETE_EXT p k src1 L P dest = Ok dest' -> well_written k dest dest'.
Proof using U1. unfold DELETE_EXT. intros H. repeat good_step. good_items. Qed.
Lemma replace_good : REPLACE_EXT p k src1 src2 L P dest = Ok dest' -> well_written k dest dest'.
Proof using U1 U2. unfold REPLACE_EXT. intros H. repeat good_step. good_items. Qed.
End WellFormed.

Lemma concat_good_loop : forall k n argv b a d', Forall (Forall (unit_ok k)) argv -> (0 < n)%nat ->
  concat_loop k n argv (b, a) = Ok d' ->
  exists t, text t /\ (length (units k t) < length a)%nat /\
    d' = (b ++ units k t, 0 :: skipn (length (units k t) + 1) a).
Proof.
  intros k n. induction n as [|n IH]; intros argv b a d' U N E; [lia|]. clear N.
  cbn [concat_loop] in E. destruct argv as [|s argv]; [discriminate|].
  inversion U as [|? ? Us U']; subst.
  destruct (decode k s) as [items| |] eqn:D; try discriminate. cbn [obind] in E.
  destruct (encode k items (b, a)) as [d1| |] eqn:E1; try discriminate. cbn [obind] in E.
  destruct (encode_items k items _ _ E1 (decode_good _ _ _ Us D)) as (t & T & ->).
  rewrite encode_spec in E1 by (now apply text_scalar).
  destruct (Nat.ltb_spec (length (units k t)) (length a)) as [Hl|]; [|discriminate].
  injection E1 as <-. destruct n as [|n].
  - injection E as <-. exists t. auto.
  - apply IH in E; [|exact U'|lia]. destruct E as (t2 & T2 & L2 & ->).
    exists (t ++ t2). cbn [length] in L2. rewrite skipn_length in L2.
    rewrite units_app, app_length. split; [now apply text_app|]. split; [lia|].
    rewrite <- app_assoc. do 2 f_equal. rewrite Nat.add_1_r at 1. cbn [skipn].
    rewrite skipn_skipn. f_equal. lia.
Qed.
Lemma concat_good : forall k dest argc argv dest', 1 <= argc ->
  Forall (Forall (unit_ok k)) argv -> CONCAT k (Some dest) argc (Some argv) = Ok dest' ->
  well_written k dest dest'.
Proof.
  intros k dest argc argv dest' A U E. unfold CONCAT in E.
  destruct (concat_loop k (Z.to_nat argc) argv ([], dest)) as [d1| |] eqn:E1; try discriminate.
  apply concat_good_loop in E1; [|exact U|lia]. destruct E1 as (t & T & L & ->).
  injection E as <-. exists t. split; [exact T|]. split; [exact L|reflexivity].
Qed.

(** ** Conversions *)
Lemma w2s_parse : forall src s items dest, reads src s -> utf16_parse s items ->
  WSTRING_TO_STRING_EXT src dest =
  write STRING (map (fun i => match i with Some c => c | None => 0xFFFD end) items) dest.
Proof.
  intros src s items dest R P. unfold WSTRING_TO_STRING_EXT, decode.
  rewrite (reads_slice _ _ R). cbn [obind]. rewrite (parse_decode _ _ P).
  unfold write. rewrite <- encode_to_spec.
  - f_equal. rewrite map_map. reflexivity.
  - assert (G := parse_scalars _ _ P). clear -G. induction G as [|i items G1 G IH]; [constructor|].
    cbn [map]. constructor; [|exact IH]. destruct i; [exact G1|unfold is_scalar; lia].
Qed.
Lemma text_parse : forall t, Forall is_scalar t -> utf16_parse (units WSTRING t) (map Some t).
Proof.
  intros t S. induction S as [|c t Sc S IH]; [constructor|].
  rewrite units_cons. cbn [map]. now constructor.
Qed.
Lemma w2s_text : forall src t dest, holds WSTRING src t ->
  WSTRING_TO_STRING_EXT src dest = write STRING t dest.
Proof.
  intros src t dest H. rewrite (w2s_parse src (units WSTRING t) (map Some t)).
  - now rewrite map_map, map_id.
  - now apply holds_reads.
  - apply text_parse, text_scalar, H.
Qed.
Lemma s2w_text : forall src t dest, holds STRING src t ->
  STRING_TO_WSTRING_EXT src dest =
  if (length (units WSTRING t) <=? length dest)%nat
  then Ok (units WSTRING t ++ skipn (length (units WSTRING t)) dest) else Ub.
Proof.
  intros src t dest H. unfold STRING_TO_WSTRING_EXT. rewrite (decode_holds _ _ _ H). cbn [obind].
  rewrite encode_loop_spec by (apply text_scalar, H).
  destruct (length (units WSTRING t) <=? length dest)%nat; reflexivity.
Qed.

(** ** Packaged results *)
Lemma write_delivers : forall k t dest, delivers k t dest (write k t dest).
Proof.
  intros k t dest. unfold delivers, write, fits. split; intros F.
  - now rewrite (proj2 (Nat.ltb_lt _ _) F).
  - destruct (Nat.ltb_spec (length (units k t)) (length dest)); [lia|reflexivity].
Qed.
Lemma fits_sub : forall k a b c dest, fits k (a ++ b ++ c) dest -> fits k b dest.
Proof. intros k a b c dest. unfold fits. rewrite !units_app, !app_length. lia. Qed.
Lemma fits_firstn : forall k n t dest, fits k t dest -> fits k (firstn n t) dest.
Proof.
  intros k n t dest F. apply (fits_sub k [] (firstn n t) (skipn n t)). cbn [app].
  now rewrite firstn_skipn.
Qed.
Lemma fits_skipn : forall k n t dest, fits k t dest -> fits k (skipn n t) dest.
Proof.
  intros k n t dest F. apply (fits_sub k (firstn n t) (skipn n t) []). rewrite app_nil_r.
  now rewrite firstn_skipn.
Qed.
Lemma first_at_unique : forall n h i j, first_at n h i -> first_at n h j -> i = j.
Proof. intros n h i j [Oi Fi] [Oj Fj]. apply Nat.le_antisymm; auto. Qed.

Lemma find_result : forall p k src1 src2 hs ns, holds k src1 hs -> holds k src2 ns -> slen hs < 2 ^ 31 ->
  (ns = [] \/ (forall i, ~ occurs_at ns hs i) -> FIND p k src1 src2 = Ok 0) /\
  (forall i, ns <> [] -> first_at ns hs i -> FIND p k src1 src2 = Ok (Z.of_nat i + 1)).
Proof.
  intros p k src1 src2 hs ns H1 H2 L. unfold slen in L. change (2 ^ 31) with 2147483648 in L.
  destruct (find_text p k src1 src2 hs ns H1 H2) as [[N F]|[(N & O & F)|(N & i & Fi & F)]].
  - split; [auto|]. intros i N'. congruence.
  - split; [auto|]. intros i _ [Oi _]. now apply O in Oi.
  - split.
    + intros [->|O]; [congruence|]. destruct Fi as [Oi _]. now apply O in Oi.
    + intros j _ Fj. rewrite <- (first_at_unique _ _ _ _ Fi Fj), F.
      destruct Fi as [Oi _]. apply occurs_len in Oi.
      assert (0 < length ns)%nat by (destruct ns; [congruence|cbn; lia]).
      rewrite wrap_len by (change (2 ^ 31) with 2147483648; lia).
      apply arith_ok. change (-2147483648 <= Z.of_nat i + 1 <= 2147483647). lia.
Qed.

Lemma all_pairs_map : forall (S R : list Z -> list Z -> Prop) g l,
  (forall x y, In x l -> In y l -> (S (g x) (g y) <-> R x y)) ->
  (all_pairs S (map g l) <-> all_pairs R l).
Proof.
  intros S R g l. induction l as [|x l IH]; intros H.
  - split; intros _; apply all_pairs_nil.
  - cbn [map]. rewrite !all_pairs_cons, IH by (intros; apply H; now right).
    assert (E : Forall (S (g x)) (map g l) <-> Forall (R x) l).
    { rewrite !Forall_forall. split; intros F y Iy.
      - apply H; [now left|now right|]. apply F. now apply in_map.
      - apply in_map_iff in Iy. destruct Iy as (z & <- & Iz). apply H; [now left|now right|auto]. }
    now rewrite E.
Qed.

Definition op_rel (f : comparison -> bool) (a b : list Z) : Prop := f (slice_cmp a b) = true.
Lemma gt_rel : forall a b, is_gt (slice_cmp a b) = true <-> lex_lt b a.
Proof. intros a b. rewrite <- cmp_gt_iff. destruct (slice_cmp a b); cbn; split; congruence. Qed.
Lemma lt_rel : forall a b, is_lt (slice_cmp a b) = true <-> lex_lt a b.
Proof. intros a b. rewrite <- cmp_lt_iff. destruct (slice_cmp a b); cbn; split; congruence. Qed.
Lemma eq_rel : forall a b, is_eq (slice_cmp a b) = true <-> a = b.
Proof. intros a b. rewrite <- cmp_eq_iff. destruct (slice_cmp a b); cbn; split; congruence. Qed.
Lemma le_rel : forall a b, is_le (slice_cmp a b) = true <-> lex_le a b.
Proof.
  intros a b. unfold lex_le. rewrite <- cmp_eq_iff, <- cmp_lt_iff.
  destruct (slice_cmp a b); cbn; intuition congruence.
Qed.
Lemma ge_rel : forall a b, is_ge (slice_cmp a b) = true <-> lex_le b a.
Proof.
  intros a b. unfold lex_le. rewrite <- cmp_gt_iff, <- (cmp_eq_iff b a), (cmp_antisym a b).
  destruct (slice_cmp a b); cbn; intuition congruence.
Qed.
Lemma le_trans : forall a b c, lex_le a b -> lex_le b c -> lex_le a c.
Proof.
  intros a b c [->|L1] [->|L2]; unfold lex_le; auto. right. now apply (lex_trans a b c).
Qed.

Lemma nary : forall strs argv extra, Forall2 reads argv strs -> (2 <= length strs)%nat ->
  let n := Z.of_nat (length strs) in
  (exists r, GT_STR n (argv ++ extra) = Ok r /\ (r = true <-> all_pairs (fun a b => lex_lt b a) strs)) /\
  (exists r, GE_STR n (argv ++ extra) = Ok r /\ (r = true <-> all_pairs (fun a b => lex_le b a) strs)) /\
  (exists r, EQ_STR n (argv ++ extra) = Ok r /\ (r = true <-> all_pairs eq strs)) /\
  (exists r, LE_STR n (argv ++ extra) = Ok r /\ (r = true <-> all_pairs lex_le strs)) /\
  (exists r, LT_STR n (argv ++ extra) = Ok r /\ (r = true <-> all_pairs lex_lt strs)).
Proof.
  intros strs argv extra H L n.
  split; [|split; [|split; [|split]]]; apply compare_spec; try assumption.
  - apply gt_rel.
  - intros a b c A B. now apply (lex_trans c b a).
  - apply ge_rel.
  - intros a b c A B. now apply (le_trans c b a).
  - apply eq_rel.
  - intros a b c -> ->. reflexivity.
  - apply le_rel.
  - apply le_trans.
  - apply lt_rel.
  - apply lex_trans.
Qed.

Lemma two_strings : forall a b s t, reads a s -> reads b t ->
  exists lt eq gt, LT_STR 2 [a; b] = Ok lt /\ EQ_STR 2 [a; b] = Ok eq /\ GT_STR 2 [a; b] = Ok gt /\
    GE_STR 2 [a; b] = Ok (negb lt) /\ LE_STR 2 [a; b] = Ok (negb gt) /\ NE_STR a b = Ok (negb eq) /\
    In (lt, eq, gt) [(true, false, false); (false, true, false); (false, false, true)] /\
    (lt = true <-> lex_lt s t) /\ (eq = true <-> s = t) /\ (gt = true <-> lex_lt t s).
Proof.
  intros a b s t Ha Hb. unfold LT_STR, EQ_STR, GT_STR, GE_STR, LE_STR, NE_STR.
  rewrite !(compare_2 _ a b s t Ha Hb), (reads_slice _ _ Ha), (reads_slice _ _ Hb).
  exists (is_lt (slice_cmp s t)), (is_eq (slice_cmp s t)), (is_gt (slice_cmp s t)).
  assert (A := lt_rel s t). assert (B := eq_rel s t). assert (C := gt_rel s t).
  split; [reflexivity|]. split; [reflexivity|]. split; [reflexivity|].
  split; [now destruct (slice_cmp s t)|]. split; [now destruct (slice_cmp s t)|].
  split; [cbn [obind]; now destruct (slice_cmp s t)|].
  split; [destruct (slice_cmp s t); cbn; auto|]. auto.
Qed.

Lemma holds_forall2 : forall k argv ts, Forall2 (holds k) argv ts ->
  Forall2 reads argv (map (units k) ts) /\ Forall text ts.
Proof.
  intros k argv ts H. induction H as [|a t argv ts Ht H [IH1 IH2]]; [split; constructor|].
  cbn [map]. split; constructor; auto; [now apply holds_reads|apply Ht].
Qed.
Lemma units8_lex : forall s t, text s -> text t ->
  (lex_lt (units STRING s) (units STRING t) <-> lex_lt s t).
Proof.
  intros s t Ts Tt. rewrite <- !cmp_lt_iff, units8_order by (now apply text_scalar). reflexivity.
Qed.
Lemma units_eq_iff : forall k s t, text s -> text t -> (units k s = units k t <-> s = t).
Proof.
  intros k s t Ts Tt. split; [|now intros ->]. now apply units_inj; apply text_scalar.
Qed.
