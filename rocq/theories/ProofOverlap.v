(** Proofs: the string functions when source and destination overlap. *)
From Coq Require Import ZArith Lia List Bool.
From Verif Require Import Base ModelText ModelString ModelOverlap SpecText SpecWrap SpecOverlap ProofBase ProofText ProofString.
Import ListNotations.
Open Scope Z_scope.

(** * Memory *)
Definition at_ (m : list Z) (p : nat) (us : list Z) : Prop :=
  forall i u, nth_error us i = Some u -> nth_error m (p + i) = Some u.
Definition over (m : list Z) (d : nat) (us : list Z) : list Z := firstn d m ++ us ++ skipn (d + length us) m.
Lemma nth_ext : forall (a b : list Z), (forall i, nth_error a i = nth_error b i) -> a = b.
Proof.
  induction a as [|x a IH]; intros [|y b] H; [reflexivity|specialize (H O); discriminate H..|].
  pose proof (H O) as E. injection E as ->. f_equal. apply IH. intros i. exact (H (S i)).
Qed.
Lemma nth_firstn : forall (l : list Z) n i, nth_error (firstn n l) i = if (i <? n)%nat then nth_error l i else None.
Proof.
  induction l as [|x l IH]; intros [|n] [|i]; try reflexivity; [now destruct (S i <? S n)%nat|].
  cbn [firstn nth_error]. rewrite IH. now change (S i <? S n)%nat with (i <? n)%nat.
Qed.
Lemma nth_skipn : forall (l : list Z) n i, nth_error (skipn n l) i = nth_error l (n + i).
Proof. induction l as [|x l IH]; intros [|n] i; try reflexivity; [now destruct i|]. cbn [skipn]. rewrite IH. reflexivity. Qed.
Lemma nth_over : forall m d us i, (d + length us <= length m)%nat ->
  nth_error (over m d us) i = if (d <=? i)%nat && (i <? d + length us)%nat then nth_error us (i - d) else nth_error m i.
Proof.
  intros m d us i H. unfold over.
  assert (L : length (firstn d m) = d) by (rewrite firstn_length; lia).
  destruct (Nat.leb_spec d i); cbn [andb].
  - rewrite nth_error_app2 by lia. rewrite L. destruct (Nat.ltb_spec i (d + length us)).
    + now rewrite nth_error_app1 by lia.
    + rewrite nth_error_app2 by lia. rewrite nth_skipn. f_equal. lia.
  - rewrite nth_error_app1 by lia. rewrite nth_firstn. destruct (Nat.ltb_spec i d); [reflexivity|lia].
Qed.
Lemma over_length : forall m d us, (d + length us <= length m)%nat -> length (over m d us) = length m.
Proof. intros m d us H. unfold over. rewrite !app_length, firstn_length, skipn_length. lia. Qed.
Lemma over_nil : forall m d, over m d [] = m.
Proof. intros. unfold over. cbn. rewrite Nat.add_0_r. apply firstn_skipn. Qed.
Lemma over_over : forall m d a b, (d + length a + length b <= length m)%nat -> over (over m d a) (d + length a) b = over m d (a ++ b).
Proof.
  intros m d a b H. apply nth_ext. intros i. rewrite !nth_over; rewrite ?over_length, ?app_length; try lia.
  destruct (Nat.leb_spec (d + length a) i), (Nat.leb_spec d i), (Nat.ltb_spec i (d + length a + length b)),
    (Nat.ltb_spec i (d + length a)), (Nat.ltb_spec i (d + (length a + length b))); cbn [andb]; try lia; try reflexivity.
  - rewrite nth_error_app2 by lia. f_equal. lia.
  - rewrite nth_error_app1 by lia. reflexivity.
Qed.
Lemma over_same : forall m d us, at_ m d us -> (d + length us <= length m)%nat -> over m d us = m.
Proof.
  intros m d us A H. apply nth_ext. intros i. rewrite nth_over by exact H.
  destruct (Nat.leb_spec d i), (Nat.ltb_spec i (d + length us)); cbn [andb]; try reflexivity.
  destruct (nth_error us (i - d)) as [u|] eqn:E.
  - apply A in E. now replace (d + (i - d))%nat with i in E by lia.
  - apply nth_error_None in E. lia.
Qed.
Lemma at_app : forall m p a b, at_ m p (a ++ b) <-> at_ m p a /\ at_ m (p + length a) b.
Proof.
  intros m p a b. split.
  - intros H. split; intros i u E.
    + apply H. rewrite nth_error_app1; [exact E|]. apply nth_error_Some. congruence.
    + rewrite <- Nat.add_assoc. apply H. rewrite nth_error_app2 by lia. now replace (length a + i - length a)%nat with i by lia.
  - intros [A B] i u E. destruct (Nat.lt_ge_cases i (length a)) as [L|L].
    + rewrite nth_error_app1 in E by exact L. now apply A.
    + rewrite nth_error_app2 in E by exact L. apply B in E. now replace (p + length a + (i - length a))%nat with (p + i)%nat in E by lia.
Qed.
Lemma at_over : forall m p us d vs, at_ m p us -> (d + length vs <= length m)%nat -> (d + length vs <= p \/ p + length us <= d)%nat ->
  at_ (over m d vs) p us.
Proof.
  intros m p us d vs A H D i u E. rewrite nth_over by exact H.
  assert (i < length us)%nat by (apply nth_error_Some; congruence).
  destruct (Nat.leb_spec d (p + i)), (Nat.ltb_spec (p + i) (d + length vs)); cbn [andb]; try (now apply A). lia.
Qed.
Lemma at_written : forall m d us, (d + length us <= length m)%nat -> at_ (over m d us) d us.
Proof.
  intros m d us H i u E. assert (i < length us)%nat by (apply nth_error_Some; congruence). rewrite nth_over by exact H.
  destruct (Nat.leb_spec d (d + i)), (Nat.ltb_spec (d + i) (d + length us)); try lia. cbn [andb].
  now replace (d + i - d)%nat with i by lia.
Qed.
Lemma at_bound : forall m p us, at_ m p us -> us <> [] -> (p + length us <= length m)%nat.
Proof.
  intros m p us A N. destruct (exists_last N) as (us' & u & ->). rewrite app_length. cbn [length].
  assert (E : nth_error m (p + length us') = Some u).
  { apply A. rewrite nth_error_app2 by lia. now rewrite Nat.sub_diag. }
  assert (p + length us' < length m)%nat by (apply nth_error_Some; congruence). lia.
Qed.
Lemma at_split : forall m p us, at_ m p us -> skipn p m = us ++ skipn (p + length us) m.
Proof.
  intros m p us A. apply nth_ext. intros i. rewrite nth_skipn. destruct (Nat.lt_ge_cases i (length us)) as [L|L].
  - rewrite nth_error_app1 by exact L. destruct (nth_error us i) as [u|] eqn:E; [now apply A in E|]. apply nth_error_None in E. lia.
  - rewrite nth_error_app2 by exact L. rewrite nth_skipn. f_equal. lia.
Qed.
Lemma poke_spec : forall m d u, (d < length m)%nat -> poke m d u = Ok (over m d [u]).
Proof.
  intros m d u H. unfold poke. destruct (Nat.ltb_spec d (length m)); [|lia]. unfold over. cbn [length]. do 3 f_equal.
  replace (d + 1)%nat with (S d) by lia. reflexivity.
Qed.
Lemma poke_all_spec : forall us m d, (d + length us <= length m)%nat -> poke_all m d us = Ok (over m d us, (d + length us)%nat).
Proof.
  induction us as [|u us IH]; intros m d H.
  - cbn [poke_all length]. now rewrite over_nil, Nat.add_0_r.
  - cbn [length] in H. cbn [poke_all]. rewrite poke_spec by lia. cbn [obind]. rewrite IH by (rewrite over_length; cbn [length]; lia).
    pose proof (over_over m d [u] us ltac:(cbn [length]; lia)) as E. cbn [length app] in E.
    replace (d + 1)%nat with (S d) in E by lia. rewrite E. cbn [length]. do 2 f_equal. lia.
Qed.

(** * Reading characters *)
Lemma first_char_spec : forall c l, is_scalar c -> first_char (utf8_char c ++ l) = Some (c, length (utf8_char c)).
Proof.
  intros c l S. assert (R : 0 <= c < 0x110000) by (unfold is_scalar in S; lia).
  unfold utf8_char.
  destruct (Z.ltb_spec c 0x80).
  { cbn [app first_char]. rewrite (proj2 (between_iff _ _ _)) by lia. reflexivity. }
  destruct (Z.ltb_spec c 0x800).
  { cbn [app first_char].
    rewrite (proj2 (between_not 0 _ _)) by divs.
    rewrite (proj2 (between_iff 0xC2 _ _)) by divs.
    unfold is_cont. rewrite (proj2 (between_iff 0x80 _ _)) by divs.
    rewrite char2_spec. cbn [length]. f_equal. f_equal. divs. }
  destruct (Z.ltb_spec c 0x10000).
  { cbn [app first_char].
    rewrite (proj2 (between_not 0 _ _)) by divs.
    rewrite (proj2 (between_not 0xC2 _ _)) by divs.
    rewrite (proj2 (between_iff 0xE0 _ _)) by divs.
    unfold is_cont. rewrite (proj2 (between_iff 0x80 (0x80 + c mod 64) _)) by divs.
    rewrite andb_true_r.
    assert (T : second3 (0xE0 + c / 4096) (0x80 + c / 64 mod 64) = true).
    { unfold second3. rewrite !orb_true_iff, !andb_true_iff, !between_iff, !Z.eqb_eq.
      unfold is_scalar in S. divs. }
    rewrite T, char3_spec. cbn [length]. f_equal. f_equal. divs. }
  cbn [app first_char].
  rewrite (proj2 (between_not 0 _ _)) by divs.
  rewrite (proj2 (between_not 0xC2 _ _)) by divs.
  rewrite (proj2 (between_not 0xE0 _ _)) by divs.
  unfold is_cont. rewrite (proj2 (between_iff 0x80 (0x80 + c / 64 mod 64) _)) by divs.
  rewrite (proj2 (between_iff 0x80 (0x80 + c mod 64) _)) by divs. rewrite !andb_true_r.
  assert (T : second4 (0xF0 + c / 262144) (0x80 + c / 4096 mod 64) = true).
  { unfold second4. rewrite !orb_true_iff, !andb_true_iff, !between_iff, !Z.eqb_eq. divs. }
  rewrite T, char4_spec. cbn [length]. f_equal. f_equal. divs.
Qed.
Lemma peek_at : forall m p us i u, at_ m p us -> nth_error us i = Some u -> peek m (p + i) = Ok u.
Proof. intros m p us i u A E. unfold peek. now rewrite (A i u E). Qed.
Lemma next_char : forall k m p e c, is_scalar c -> at_ m p (enc k c) -> (p + length (enc k c) <= e)%nat ->
  next k m (Chars p e None) = Ok (Some (Some c), Chars (p + length (enc k c)) e None).
Proof.
  intros [] m p e c S A H; cbn [enc] in *; unfold next; cbn [c_pos c_end c_buf].
  - assert (L : (0 < length (utf8_char c))%nat) by (unfold utf8_char; repeat destruct (_ <? _); cbn; lia).
    destruct (Nat.leb_spec e p); [lia|].
    rewrite (at_split _ _ _ A), firstn_app. rewrite firstn_all2 by lia. rewrite first_char_spec by exact S. reflexivity.
  - assert (R : 0 <= c < 0x110000) by (unfold is_scalar in S; lia). unfold utf16_char in *. destruct (Z.ltb_spec c 0x10000).
    + cbn [length] in *. destruct (Nat.leb_spec e p); [lia|].
      pose proof (peek_at m p [c] 0 c A eq_refl) as P. rewrite Nat.add_0_r in P. rewrite P. cbn [omap obind].
      rewrite surrogate_test by lia. rewrite (proj2 (between_not _ _ _)) by (unfold is_scalar in S; lia). cbn [negb].
      now replace (p + 1)%nat with (Datatypes.S p) by lia.
    + set (u := 0xD800 + (c - 0x10000) / 1024) in *. set (v := 0xDC00 + (c - 0x10000) mod 1024) in *.
      assert (U : 0xD800 <= u <= 0xDBFF) by (unfold u; divs).
      assert (V : 0xDC00 <= v <= 0xDFFF) by (unfold v; divs).
      cbn [length] in *. destruct (Nat.leb_spec e p); [lia|].
      pose proof (peek_at m p [u; v] 0 u A eq_refl) as P. rewrite Nat.add_0_r in P. rewrite P. cbn [omap obind].
      pose proof (peek_at m p [u; v] 1 v A eq_refl) as Q. replace (p + 1)%nat with (Datatypes.S p) in Q by lia.
      rewrite surrogate_test by lia. rewrite (proj2 (between_iff _ _ _)) by lia. cbn [negb].
      destruct (Z.leb_spec 0xDC00 u); [lia|]. destruct (Nat.leb_spec e (Datatypes.S p)); [lia|]. rewrite Q. cbn [omap obind].
      destruct (Z.ltb_spec v 0xDC00); [lia|]. destruct (Z.ltb_spec 0xDFFF v); [lia|]. cbn [orb].
      rewrite pair_value by assumption. replace (p + 2)%nat with (Datatypes.S (Datatypes.S p)) by lia.
      do 4 f_equal. unfold u, v. divs.
Qed.
Lemma next_end : forall k m e, next k m (Chars e e None) = Ok (None, Chars e e None).
Proof. intros [] m e; unfold next; cbn [c_pos c_end c_buf]; rewrite Nat.leb_refl; reflexivity. Qed.
Lemma size_cons : forall k c t, size k (c :: t) = (length (enc k c) + size k t)%nat.
Proof. intros. unfold size. now rewrite units_cons, app_length. Qed.
Lemma size_app' : forall k a b, size k (a ++ b) = (size k a + size k b)%nat.
Proof. intros. unfold size. now rewrite units_app, app_length. Qed.
Lemma size_length : forall k t, Forall is_scalar t -> (length t <= size k t)%nat.
Proof.
  intros k t S. induction S as [|c t Sc S IH]; [cbn; lia|]. rewrite size_cons. cbn [length].
  destruct (enc k c) as [|u r] eqn:E; [now apply enc_nonempty in E|cbn [length]; lia].
Qed.
Lemma skip_ok : forall k a m p e, Forall is_scalar a -> at_ m p (units k a) -> (p + size k a <= e)%nat ->
  skip k m (length a) (Chars p e None) = Ok (Some (Chars (p + size k a) e None)).
Proof.
  intros k a. induction a as [|c a IH]; intros m p e S A H.
  - cbn [length skip]. now rewrite Nat.add_0_r.
  - apply Forall_cons_iff in S. destruct S as [Sc S]. rewrite size_cons in *. rewrite units_cons in A. apply at_app in A. destruct A as [A1 A2].
    cbn [length skip]. rewrite (next_char k m p e c) by (try assumption; lia). cbn [obind]. rewrite IH; try assumption; [|lia].
    do 3 f_equal. lia.
Qed.
Lemma count_ok : forall k t m p fuel, Forall is_scalar t -> at_ m p (units k t) -> (length t < fuel)%nat ->
  count_items k m fuel (Chars p (p + size k t) None) = Ok (length t).
Proof.
  intros k t. induction t as [|c t IH]; intros m p fuel S A H; (destruct fuel as [|f]; [lia|]); cbn [count_items].
  - change (size k []) with 0%nat. rewrite Nat.add_0_r, next_end. reflexivity.
  - apply Forall_cons_iff in S. destruct S as [Sc S]. rewrite units_cons in A. apply at_app in A. destruct A as [A1 A2].
    rewrite (next_char k m p _ c) by (try assumption; rewrite size_cons; lia). cbn [obind]. rewrite size_cons, Nat.add_assoc.
    rewrite IH; try assumption; [reflexivity|]. cbn [length] in H. lia.
Qed.
Lemma copy_ok : forall k t fuel m p e d take, Forall is_scalar t -> at_ m p (units k t) -> (p + size k t <= e)%nat ->
  (d + size k t <= length m)%nat -> (d <= p \/ p + size k t <= d)%nat -> (length t < fuel)%nat ->
  take = Some (length t) \/ take = None /\ e = (p + size k t)%nat ->
  copy k fuel m d take (Chars p e None) = Ok (over m d (units k t), (d + size k t)%nat).
Proof.
  intros k t. induction t as [|c t IH]; intros fuel m p e d take S A E R D F T; (destruct fuel as [|f]; [lia|]).
  - change (size k []) with 0%nat in *. change (units k []) with (@nil Z). rewrite over_nil, Nat.add_0_r.
    destruct T as [->|[-> ->]]; [reflexivity|]. rewrite Nat.add_0_r. cbn [copy]. rewrite next_end. reflexivity.
  - pose proof S as S0. apply Forall_cons_iff in S. destruct S as [Sc S]. rewrite units_cons in *. apply at_app in A. destruct A as [A1 A2].
    rewrite size_cons in *. cbn [copy].
    assert (X : copy k (Datatypes.S f) m d take (Chars p e None) =
      let! '(item, it') := next k m (Chars p e None) in
      match item with
      | None => Ok (m, d)
      | Some c =>
          let! c := unwrap c in
          let! '(m', d') := poke_all m d (encode_char k c) in
          copy k f m' d' (option_map pred take) it'
      end) by (destruct T as [->|[-> _]]; reflexivity).
    cbn [copy] in X. rewrite X. clear X.
    rewrite (next_char k m p e c) by (try assumption; lia). cbn [obind unwrap]. rewrite encode_char_spec by exact Sc.
    rewrite poke_all_spec by lia. cbn [obind].
    rewrite (IH f (over m d (enc k c)) (p + length (enc k c))%nat e (d + length (enc k c))%nat); try assumption.
    + unfold size in *. rewrite over_over by lia. do 2 f_equal. lia.
    + apply at_over; [exact A2|lia|]. unfold size in D. lia.
    + lia.
    + rewrite over_length by lia. lia.
    + lia.
    + cbn [length] in F. lia.
    + destruct T as [->|[-> ->]]; [left; reflexivity|right; split; [reflexivity|lia]].
Qed.

(** * Stored texts *)
Lemma stored_at : forall k m p t, stored k m p t -> text t /\ at_ m p (units k t ++ [0]) /\ (p + size k t < length m)%nat.
Proof.
  intros k m p t [T (rest & E)]. split; [exact T|].
  assert (L : (length (skipn p m) = size k t + S (length rest))%nat) by (rewrite E, app_length; reflexivity).
  rewrite skipn_length in L. split; [|lia].
  intros i u H. rewrite <- nth_skipn, E. change (0 :: rest) with ([0] ++ rest). rewrite app_assoc.
  rewrite nth_error_app1; [exact H|]. apply nth_error_Some. congruence.
Qed.
Lemma at_stored : forall k m p t, text t -> at_ m p (units k t ++ [0]) -> stored k m p t.
Proof.
  intros k m p t T A. split; [exact T|]. rewrite (at_split _ _ _ A). exists (skipn (p + length (units k t ++ [0])) m).
  now rewrite <- app_assoc.
Qed.
Lemma decode_at_ok : forall k m p t, stored k m p t -> decode_at k m p = Ok (Chars p (p + size k t) None).
Proof.
  intros k m p t [T (rest & E)]. unfold decode_at. pose proof (units_nonzero k t T) as N.
  pose proof (slice_of (units k t) rest N) as L. unfold ptr_to_slice in L. rewrite E.
  assert (G : get_null_terminated_len (units k t ++ 0 :: rest) = Ok (length (units k t))).
  { clear - N. revert N. generalize (units k t). induction l as [|u l IH]; intros N; [reflexivity|].
    apply Forall_cons_iff in N. destruct N as [U N]. cbn [app get_null_terminated_len length].
    destruct (Z.eqb_spec u 0); [contradiction|]. now rewrite IH. }
  rewrite G. cbn [obind]. destruct k; [|reflexivity].
  rewrite firstn_app, firstn_all, Nat.sub_diag. cbn [firstn]. rewrite app_nil_r.
  change (units STRING t) with (flat_map utf8_char t) at 1. rewrite decode8_text by (now apply text_scalar). reflexivity.
Qed.
Lemma count_at_ok : forall k m p t, stored k m p t -> count_at k m p = Ok (slen t).
Proof.
  intros k m p t H. unfold count_at. rewrite (decode_at_ok k m p t H). cbn [obind].
  destruct (stored_at _ _ _ _ H) as (T & A & L). apply at_app in A. pose proof (text_scalar t T) as S. pose proof (size_length k t S).
  rewrite count_ok; [reflexivity|exact S|apply A|lia].
Qed.
(** A link that copies the middle part [b] of the text [a ++ b ++ c] at [p]. *)
Lemma link_ok : forall k m p a b c d take, Forall is_scalar (a ++ b ++ c) -> at_ m p (units k (a ++ b ++ c)) ->
  (d + size k b <= length m)%nat -> (size k (a ++ b ++ c) <= length m)%nat -> (d <= p + size k a \/ p + size k a + size k b <= d)%nat ->
  take = Some (length b) \/ take = None /\ c = [] ->
  copy_link k m d (Link (length a) take (Chars p (p + size k (a ++ b ++ c)) None)) = Ok (over m d (units k b), (d + size k b)%nat).
Proof.
  intros k m p a b c d take S A R M D T. unfold copy_link. cbn [l_skip l_take l_it].
  apply Forall_app in S. destruct S as [Sa S]. apply Forall_app in S. destruct S as [Sb Sc].
  rewrite units_app in A. apply at_app in A. destruct A as [A1 A]. rewrite units_app in A. apply at_app in A. destruct A as [A2 A3].
  pose proof (size_length k b Sb). rewrite !size_app' in *. rewrite (skip_ok k a) by (try assumption; lia). cbn [obind].
  apply copy_ok; try assumption; try lia.
  destruct T as [->|[-> ->]]; [now left|right; split; [reflexivity|]]. change (size k []) with 0%nat. lia.
Qed.
Lemma link_none : forall k m p a d take, Forall is_scalar a -> at_ m p (units k a) ->
  copy_link k m d (Link (length a) take (Chars p (p + size k a) None)) = Ok (m, d).
Proof.
  intros k m p a d take S A. unfold copy_link. cbn [l_skip l_take l_it]. rewrite (skip_ok k a) by (try assumption; lia).
  cbn [obind copy]. destruct take as [[|n]|]; [reflexivity| |]; rewrite next_end; reflexivity.
Qed.
Lemma over_written : forall k m d t, (d + size k t < length m)%nat -> over m d (units k t ++ [0]) = replaced d m (written k t (skipn d m)).
Proof.
  intros k m d t H. unfold over, replaced, written. rewrite app_length. cbn [length]. rewrite <- app_assoc. cbn [app].
  rewrite skipn_skipn. do 4 f_equal. lia.
Qed.
Lemma final_nul : forall k m m1 d d1 t, m1 = over m d (units k t) -> d1 = (d + size k t)%nat -> (d + size k t < length m)%nat ->
  (let! m' := poke m1 d1 0 in Ok (m', d1)) = Ok (replaced d m (written k t (skipn d m)), d1).
Proof.
  intros k m m1 d d1 t -> -> H. unfold size in H |- *. rewrite poke_spec by (rewrite over_length; lia). cbn [obind].
  rewrite over_over by (cbn [length]; lia). now rewrite over_written.
Qed.

(** * The functions *)
Lemma room_iff : forall k r m d, room k r m d <-> (d + size k r < length m)%nat.
Proof. intros. unfold room, fits, size. rewrite skipn_length. lia. Qed.
Lemma write_room : forall k r m d, room k r m d -> omap (replaced d m) (write k r (skipn d m)) = Ok (replaced d m (written k r (skipn d m))).
Proof. intros k r m d F. unfold write, room, fits in *. destruct (Nat.ltb_spec (length (units k r)) (length (skipn d m))); [reflexivity|lia]. Qed.
Lemma stored_parts : forall k m p t, stored k m p t ->
  Forall is_scalar t /\ at_ m p (units k t) /\ (p + size k t < length m)%nat.
Proof.
  intros k m p t H. destruct (stored_at _ _ _ _ H) as (T & A & L). apply at_app in A.
  split; [now apply text_scalar|]. split; [apply A|exact L].
Qed.

(** ** One copied part *)
Lemma one_link : forall k m p a b c d take, stored k m p (a ++ b ++ c) -> room k b m d ->
  (d <= p \/ p + size k (a ++ b ++ c) < d)%nat -> take = Some (length b) \/ take = None /\ c = [] ->
  omap fst (encode_at k m d [Link (length a) take (Chars p (p + size k (a ++ b ++ c)) None)]) =
  Ok (replaced d m (written k b (skipn d m))).
Proof.
  intros k m p a b c d take H R D T. destruct (stored_parts _ _ _ _ H) as (S & A & L). apply room_iff in R.
  cbn [encode_at]. rewrite link_ok; try assumption; try lia; [|rewrite !size_app' in D; lia]. cbn [obind].
  rewrite (final_nul k m _ d _ b eq_refl eq_refl R). reflexivity.
Qed.
Lemma room_le : forall k m p t d r, stored k m p t -> (size k r <= size k t)%nat ->
  (d <= p \/ p + size k t < d /\ room k t m d)%nat -> room k r m d.
Proof. intros k m p t d r H L D. destruct (stored_parts _ _ _ _ H) as (_ & _ & B). rewrite room_iff in *. lia. Qed.
Lemma left_at : forall k m p t d L, stored k m p t -> (d <= p \/ p + size k t < d /\ room k t m d)%nat ->
  LEFT_at k m p L d = omap (replaced d m) (LEFT_EXT k (skipn p m) L (skipn d m)).
Proof.
  intros k m p t d L H D. rewrite (left_text k _ t) by exact H. unfold LEFT_at. rewrite (count_at_ok _ _ _ _ H). cbn [obind]. unfold slen.
  destruct (Z.ltb_spec L 0), (Z.leb_spec 0 L); try lia; cbn [andb]; [reflexivity|].
  destruct (Z.ltb_spec (Z.of_nat (length t)) L), (Z.leb_spec L (Z.of_nat (length t))); try lia; [reflexivity|].
  rewrite (decode_at_ok _ _ _ _ H). cbn [obind].
  set (n := Z.to_nat L). pose proof (firstn_skipn n t) as E. set (b := firstn n t) in *. set (c := skipn n t) in *.
  assert (N : length b = n) by (unfold b; rewrite firstn_length; lia). clearbody b c. subst t.
  assert (R : room k b m d) by (eapply room_le; [exact H|rewrite size_app'; lia|exact D]).
  rewrite write_room by exact R. apply (one_link k m p [] b c); [exact H|exact R|cbn [app]; lia|left; now f_equal].
Qed.
Lemma right_at : forall k m p t d L, stored k m p t -> (d <= p \/ p + size k t < d /\ room k t m d)%nat ->
  RIGHT_at k m p L d = omap (replaced d m) (RIGHT_EXT k (skipn p m) L (skipn d m)).
Proof.
  intros k m p t d L H D. rewrite (right_text k _ t) by exact H. unfold RIGHT_at. rewrite (count_at_ok _ _ _ _ H). cbn [obind]. unfold slen.
  destruct (Z.ltb_spec L 0), (Z.leb_spec 0 L); try lia; cbn [andb]; [reflexivity|].
  destruct (Z.ltb_spec (Z.of_nat (length t)) L), (Z.leb_spec L (Z.of_nat (length t))); try lia; [reflexivity|].
  rewrite (decode_at_ok _ _ _ _ H). cbn [obind].
  replace (Z.to_nat (Z.of_nat (length t) - L)) with (length t - Z.to_nat L)%nat by lia.
  set (n := (length t - Z.to_nat L)%nat). pose proof (firstn_skipn n t) as E.
  assert (N : length (firstn n t) = n) by (rewrite firstn_length; unfold n; lia).
  set (a := firstn n t) in *. set (b := skipn n t) in *. clearbody n a b. subst t n.
  assert (R : room k b m d) by (eapply room_le; [exact H|rewrite size_app'; lia|exact D]).
  rewrite write_room by exact R. pose proof (one_link k m p a b [] d None) as X. rewrite app_nil_r in X.
  apply X; [exact H|exact R|lia|now right].
Qed.
Lemma mid_at : forall pf k m p t d L P, stored k m p t -> in_ity i32 L -> in_ity i32 P -> slen t < 2 ^ 63 ->
  (d <= p \/ p + size k t < d /\ room k t m d)%nat ->
  MID_at pf k m p L P d = omap (replaced d m) (MID_EXT pf k (skipn p m) L P (skipn d m)).
Proof.
  intros pf k m p t d L P H HL HP HN D. rewrite (mid_text pf k _ t) by (try assumption; exact H). unfold MID_at.
  unfold slen in HN. change (2 ^ 63) with 9223372036854775808 in HN.
  assert (RL : -2147483648 <= L <= 2147483647) by exact HL.
  assert (RP : -2147483648 <= P <= 2147483647) by exact HP.
  rewrite (count_at_ok _ _ _ _ H). cbn [obind]. unfold slen.
  destruct (Z.ltb_spec L 0), (Z.leb_spec 0 L); try lia; cbn [andb]; [reflexivity|].
  destruct (Z.leb_spec 1 P); cbn [andb].
  2:{ destruct (Z.eq_dec P 0) as [->|N]; [reflexivity|].
      assert (W : wrap usize P = 18446744073709551616 + P).
      { unfold wrap, usize, u64. cbn [it_signed it_bits]. change (2 ^ 64) with 18446744073709551616.
        rewrite <- (Z.mod_add P 1) by lia. rewrite Z.mod_small; lia. }
      rewrite W. destruct (Z.ltb_spec (Z.of_nat (length t)) (18446744073709551616 + P)); [|lia]. now rewrite orb_true_r. }
  assert (W : wrap usize P = P) by (apply wrap_id; [reflexivity|]; apply in_usize; lia).
  rewrite W. destruct (Z.ltb_spec P 1); [lia|]. cbn [orb].
  destruct (Z.ltb_spec (Z.of_nat (length t)) P), (Z.leb_spec P (Z.of_nat (length t))); try lia; [now rewrite andb_false_r|].
  rewrite andb_true_r. rewrite arith_ok by (apply in_usize; lia). cbn [obind].
  destruct (Z.ltb_spec (Z.of_nat (length t)) (L + (P - 1))), (Z.leb_spec (P - 1 + L) (Z.of_nat (length t))); try lia; [reflexivity|].
  rewrite (decode_at_ok _ _ _ _ H). cbn [obind].
  set (n := Z.to_nat (P - 1)). set (l := Z.to_nat L).
  pose proof (firstn_skipn n t) as E1. pose proof (firstn_skipn l (skipn n t)) as E2.
  assert (N1 : length (firstn n t) = n) by (rewrite firstn_length; unfold n; lia).
  assert (N2 : length (firstn l (skipn n t)) = l) by (rewrite firstn_length, skipn_length; unfold l, n; lia).
  set (b := firstn l (skipn n t)) in *. set (c := skipn l (skipn n t)) in *. clearbody b c. rewrite <- E2 in E1.
  set (a := firstn n t) in *. clearbody a n l. subst t n l.
  assert (R : room k b m d) by (eapply room_le; [exact H|rewrite !size_app'; lia|exact D]).
  rewrite write_room by exact R. apply (one_link k m p a b c); [exact H|exact R|lia|now left].
Qed.

(** ** DELETE *)
Lemma two_links : forall k m p a b c d, stored k m p (a ++ b ++ c) ->
  (d = p \/ apart d (size k (a ++ b ++ c)) p (size k (a ++ b ++ c)))%nat -> room k (a ++ c) m d ->
  omap fst (encode_at k m d [Link 0 (Some (length a)) (Chars p (p + size k (a ++ b ++ c)) None);
                             Link (length a + length b) None (Chars p (p + size k (a ++ b ++ c)) None)]) =
  Ok (replaced d m (written k (a ++ c) (skipn d m))).
Proof.
  intros k m p a b c d H D R. destruct (stored_parts _ _ _ _ H) as (S & A & L). apply room_iff in R.
  unfold apart in D. cbn [encode_at]. rewrite (link_ok k m p [] a (b ++ c)); try assumption; cbn [app];
    [|rewrite !size_app' in *; lia..| |now left].
  2:{ change (size k []) with 0%nat. rewrite !size_app' in *. lia. }
  cbn [obind].
  assert (A1 : at_ (over m d (units k a)) p (units k ((a ++ b) ++ c ++ []))).
  { rewrite app_nil_r, <- app_assoc. destruct D as [->|D].
    - rewrite over_same; [exact A|rewrite units_app in A; now apply at_app in A|]. rewrite size_app' in R. unfold size in R. lia.
    - apply at_over; [exact A|..]; rewrite !size_app' in *; rewrite ?units_app, ?app_length in *; unfold size in *; lia. }
  assert (LM : length (over m d (units k a)) = length m) by (apply over_length; rewrite size_app' in R; unfold size in R; lia).
  replace (length a + length b)%nat with (length (a ++ b)) by apply app_length.
  replace (size k (a ++ b ++ c)) with (size k ((a ++ b) ++ c ++ [])) by (now rewrite app_nil_r, <- app_assoc).
  rewrite link_ok; rewrite ?LM; try exact A1; rewrite ?app_nil_r, <- ?app_assoc; try exact S; try (now right); [|rewrite !size_app' in *; lia..].
  cbn [obind]. unfold size in *. rewrite over_over by (rewrite units_app, app_length in R; lia). rewrite <- units_app.
  rewrite (final_nul k m _ d _ (a ++ c)); [reflexivity|reflexivity| |unfold size; exact R].
  unfold size. rewrite units_app, app_length. lia.
Qed.
Lemma delete_at : forall pf k m p t d L P, stored k m p t -> in_ity i32 L -> in_ity i32 P -> slen t < 2 ^ 31 -> 0 <= L ->
  (d = p \/ apart d (size k t) p (size k t) /\ room k t m d)%nat ->
  DELETE_at pf k m p L P d = omap (replaced d m) (DELETE_EXT pf k (skipn p m) L P (skipn d m)).
Proof.
  intros pf k m p t d L P H HL HP HN L0 D. unfold slen in HN. assert (HN' : Z.of_nat (length t) < 2 ^ 63) by lia.
  rewrite (delete_text pf k _ t) by (try assumption; exact H). unfold DELETE_at.
  assert (RL : -2147483648 <= L <= 2147483647) by exact HL.
  assert (RP : -2147483648 <= P <= 2147483647) by exact HP.
  rewrite (count_at_ok _ _ _ _ H). cbn [obind]. unfold slen. rewrite wrap_len by exact HN.
  destruct (Z.ltb_spec P 1), (Z.leb_spec 1 P); try lia; cbn [orb andb]; [reflexivity|].
  destruct (Z.ltb_spec (Z.of_nat (length t)) P), (Z.leb_spec P (Z.of_nat (length t))); try lia; [reflexivity|].
  rewrite stop_spec by assumption. unfold del_stop. destruct (Z.leb_spec 0 L); [|lia]. cbn [obind].
  destruct (Z.ltb_spec (Z.of_nat (length t)) (L + (P - 1))), (Z.leb_spec (L + (P - 1)) (Z.of_nat (length t))); try lia; [reflexivity|].
  rewrite (decode_at_ok _ _ _ _ H). cbn [obind].
  set (n := Z.to_nat (P - 1)). set (l := Z.to_nat L).
  replace (Z.to_nat (L + (P - 1))) with (l + n)%nat by (unfold l, n; lia). rewrite <- skipn_skipn.
  pose proof (firstn_skipn n t) as E1. pose proof (firstn_skipn l (skipn n t)) as E2.
  assert (N1 : length (firstn n t) = n) by (rewrite firstn_length; unfold n; lia).
  assert (N2 : length (firstn l (skipn n t)) = l) by (rewrite firstn_length, skipn_length; unfold l, n; lia).
  set (b := firstn l (skipn n t)) in *. set (c := skipn l (skipn n t)) in *. clearbody b c. rewrite <- E2 in E1.
  set (a := firstn n t) in *. clearbody a n l. subst t n l.
  assert (R : room k (a ++ c) m d).
  { eapply room_le; [exact H|rewrite !size_app'; lia|]. destruct D as [->|[D R]]; [left; lia|]. destruct D; [left; lia|right; split; [lia|exact R]]. }
  rewrite write_room by exact R. rewrite (Nat.add_comm (length b)). apply two_links; [exact H|tauto|exact R].
Qed.

(** ** INSERT and REPLACE *)
Lemma three_links : forall k m p q a b b' c t d,
  Forall is_scalar (a ++ b ++ c) -> Forall is_scalar (a ++ b' ++ c) -> Forall is_scalar t ->
  length b' = length b -> size k b' = size k b -> (size k (a ++ b ++ c) <= length m)%nat -> (size k t <= length m)%nat ->
  room k (a ++ t ++ c) m d ->
  at_ m p (units k (a ++ b ++ c)) -> (d <= p \/ p + size k a <= d)%nat ->
  at_ (over m d (units k a)) q (units k t) -> (d + size k a <= q \/ q + size k t <= d + size k a)%nat ->
  at_ (over m d (units k (a ++ t))) p (units k (a ++ b' ++ c)) ->
  (d + size k t <= p + size k b \/ p + size k (b ++ c) <= d + size k t)%nat ->
  omap fst (encode_at k m d [Link 0 (Some (length a)) (Chars p (p + size k (a ++ b ++ c)) None);
                             Link 0 None (Chars q (q + size k t) None);
                             Link (length a + length b) None (Chars p (p + size k (a ++ b ++ c)) None)]) =
  Ok (replaced d m (written k (a ++ t ++ c) (skipn d m))).
Proof.
  intros k m p q a b b' c t d S S' St EL ES M Mt R A1 D1 A2 D2 A3 D3. apply room_iff in R.
  assert (R1 : (d + length (units k a) + length (units k t) + length (units k c) < length m)%nat)
    by (rewrite !size_app' in R; unfold size in R; lia).
  cbn [encode_at]. rewrite (link_ok k m p [] a (b ++ c)); try assumption; cbn [app];
    [|rewrite !size_app' in *; lia|change (size k []) with 0%nat; lia|now left].
  cbn [obind]. pose proof (link_ok k (over m d (units k a)) q [] t [] (d + size k a) None) as X. cbn [app length] in X. rewrite app_nil_r in X.
  rewrite X; clear X; [|exact St|exact A2|rewrite over_length; unfold size; lia|rewrite over_length; unfold size in *; lia|
    change (size k []) with 0%nat; lia|now right].
  cbn [obind]. unfold size at 1. rewrite over_over by lia. rewrite <- units_app.
  pose proof (link_ok k (over m d (units k (a ++ t))) p (a ++ b') c [] (d + size k a + size k t) None) as X.
  rewrite app_nil_r, <- app_assoc in X. rewrite app_length, EL in X.
  replace (size k (a ++ b' ++ c)) with (size k (a ++ b ++ c)) in X by (rewrite !size_app'; lia).
  rewrite X; clear X; try assumption; [|rewrite over_length; rewrite ?units_app, ?app_length; unfold size in *; lia..| |now right].
  2:{ rewrite !size_app' in *. lia. }
  cbn [obind]. replace (d + size k a + size k t)%nat with (d + length (units k (a ++ t)))%nat by (rewrite units_app, app_length; unfold size; lia).
  rewrite over_over by (rewrite units_app, app_length; lia). rewrite <- units_app, <- app_assoc.
  rewrite (final_nul k m _ d _ (a ++ t ++ c)); [reflexivity|reflexivity| |exact R].
  rewrite !size_app'. rewrite units_app, app_length. unfold size. lia.
Qed.

Lemma insert_split : forall k m p q s t d P, stored k m p s -> stored k m q t -> slen s < 2 ^ 31 ->
  room k (s ++ t) m d ->
  (forall a c, s = a ++ c -> slen a = P ->
     omap fst (encode_at k m d [Link 0 (Some (length a)) (Chars p (p + size k (a ++ c)) None);
                             Link 0 None (Chars q (q + size k t) None);
                             Link (length a) None (Chars p (p + size k (a ++ c)) None)]) =
     Ok (replaced d m (written k (a ++ t ++ c) (skipn d m)))) ->
  INSERT_at k m p q P d = omap (replaced d m) (INSERT_EXT k (skipn p m) (skipn q m) P (skipn d m)).
Proof.
  intros k m p q s t d P H Ht HN R F. rewrite (insert_text k _ _ s t) by assumption. unfold INSERT_at.
  unfold slen in HN. rewrite (count_at_ok _ _ _ _ H). cbn [obind]. unfold slen. rewrite wrap_len by exact HN.
  destruct (Z.ltb_spec P 0), (Z.leb_spec 0 P); try lia; cbn [orb andb]; [reflexivity|].
  destruct (Z.ltb_spec (Z.of_nat (length s)) P), (Z.leb_spec P (Z.of_nat (length s))); try lia; [reflexivity|].
  rewrite (decode_at_ok _ _ _ _ H), (decode_at_ok _ _ _ _ Ht). cbn [obind].
  set (n := Z.to_nat P). pose proof (firstn_skipn n s) as E.
  assert (N : length (firstn n s) = n) by (rewrite firstn_length; unfold n; lia).
  set (a := firstn n s) in *. set (c := skipn n s) in *. clearbody a c.
  rewrite write_room.
  - rewrite <- E, <- N. apply F; [now symmetry|]. unfold slen. unfold n in N. lia.
  - rewrite room_iff in *. rewrite <- E in R. rewrite !size_app' in *. lia.
Qed.
Lemma insert_at : forall k m p q s t d P, stored k m p s -> stored k m q t -> slen s < 2 ^ 31 -> room k (s ++ t) m d ->
  apart d (size k (s ++ t)) p (size k s) /\ apart d (size k (s ++ t)) q (size k t) \/
  d = p /\ P = slen s /\ apart d (size k (s ++ t)) q (size k t) \/
  d = q /\ P = 0 /\ apart d (size k (s ++ t)) p (size k s) \/
  d = p /\ t = [] ->
  INSERT_at k m p q P d = omap (replaced d m) (INSERT_EXT k (skipn p m) (skipn q m) P (skipn d m)).
Proof.
  intros k m p q s t d P H Ht HN R C. apply (insert_split k m p q s t d P H Ht HN R). intros a c E N.
  destruct (stored_parts _ _ _ _ H) as (S & A & L). destruct (stored_parts _ _ _ _ Ht) as (St & At & Lt).
  rewrite room_iff in R. rewrite size_app' in R.
  assert (SA : (size k s = size k a + size k c)%nat) by (rewrite E; apply size_app').
  replace (Link (length a) None) with (Link (length a + length (@nil Z)) None) by (now rewrite Nat.add_0_r).
  assert (SW : at_ m p (units k a ++ units k c)) by (rewrite <- units_app, <- E; exact A).
  apply at_app in SW. destruct SW as [Aa Ac].
  assert (G : (d <= p \/ p + size k a <= d)%nat -> at_ (over m d (units k a)) q (units k t) ->
    (d + size k a <= q \/ q + size k t <= d + size k a)%nat -> at_ (over m d (units k (a ++ t))) p (units k s) ->
    (d + size k t <= p \/ p + size k c <= d + size k t)%nat ->
    omap fst (encode_at k m d [Link 0 (Some (length a)) (Chars p (p + size k (a ++ c)) None);
                             Link 0 None (Chars q (q + size k t) None);
                             Link (length a + length (@nil Z)) None (Chars p (p + size k (a ++ c)) None)]) =
     Ok (replaced d m (written k (a ++ t ++ c) (skipn d m)))).
  { intros. apply (three_links k m p q a [] [] c t d); cbn [app]; rewrite <- ?E; try assumption; try reflexivity; try lia.
    apply room_iff. rewrite !size_app'. lia. }
  assert (ST : size k (a ++ t) = (size k a + size k t)%nat) by apply size_app'.
  unfold apart in C. rewrite size_app' in C. unfold size in *. unfold slen in N.
  destruct C as [[C1 C2]|[(-> & EP & C)|[(-> & EP & C)|[-> ->]]]].
  - apply G; [lia| |lia| |lia]; apply at_over; trivial; lia.
  - assert (c = []) as ->.
    { destruct c as [|x c]; [reflexivity|]. exfalso. unfold slen in EP. rewrite E, app_length in EP. cbn [length] in EP. lia. }
    rewrite app_nil_r in E. subst a. apply G; [lia| |lia| |cbn; lia].
    + apply at_over; trivial; lia.
    + assert (X : at_ (over m p (units k (s ++ t))) p (units k (s ++ t))) by (apply at_written; lia).
      rewrite units_app in X at 2. now apply at_app in X.
  - assert (a = []) as -> by (destruct a; [reflexivity|cbn [length] in N; lia]). cbn [app] in E. subst c.
    change (units k []) with (@nil Z) in *. cbn [app length] in *. apply G; [lia| |lia| |lia].
    + now rewrite over_nil.
    + rewrite over_same by (trivial; lia). exact A.
  - change (units k []) with (@nil Z) in *. rewrite app_nil_r in *. cbn [length] in *.
    assert (X : over m p (units k a) = m) by (apply over_same; trivial; lia).
    apply G; rewrite ?X; trivial; try lia.
Qed.

Lemma replace_at : forall pf k m p q s t d L P, stored k m p s -> stored k m q t -> in_ity i32 L -> in_ity i32 P ->
  slen s < 2 ^ 31 -> 0 <= L -> room k (s ++ t) m d ->
  apart d (size k (s ++ t)) p (size k s) /\ apart d (size k (s ++ t)) q (size k t) ->
  REPLACE_at pf k m p q L P d = omap (replaced d m) (REPLACE_EXT pf k (skipn p m) (skipn q m) L P (skipn d m)).
Proof.
  intros pf k m p q s t d L P H Ht HL HP HN L0 R0 [C1 C2]. unfold slen in HN. assert (HN' : Z.of_nat (length s) < 2 ^ 63) by lia.
  rewrite (replace_text pf k _ _ s t) by (try assumption; exact H). unfold REPLACE_at.
  assert (RL : -2147483648 <= L <= 2147483647) by exact HL.
  assert (RP : -2147483648 <= P <= 2147483647) by exact HP.
  rewrite (count_at_ok _ _ _ _ H). cbn [obind]. unfold slen. rewrite wrap_len by exact HN.
  destruct (Z.ltb_spec P 1), (Z.leb_spec 1 P); try lia; cbn [orb andb]; [reflexivity|].
  destruct (Z.ltb_spec (Z.of_nat (length s)) P), (Z.leb_spec P (Z.of_nat (length s))); try lia; [reflexivity|].
  rewrite stop_spec by assumption. unfold del_stop. destruct (Z.leb_spec 0 L); [|lia]. cbn [obind].
  destruct (Z.ltb_spec (Z.of_nat (length s)) (L + (P - 1))), (Z.leb_spec (L + (P - 1)) (Z.of_nat (length s))); try lia; [reflexivity|].
  rewrite (decode_at_ok _ _ _ _ H), (decode_at_ok _ _ _ _ Ht). cbn [obind].
  set (n := Z.to_nat (P - 1)). set (l := Z.to_nat L).
  replace (Z.to_nat (L + (P - 1))) with (l + n)%nat by (unfold l, n; lia). rewrite <- skipn_skipn.
  pose proof (firstn_skipn n s) as E1. pose proof (firstn_skipn l (skipn n s)) as E2.
  assert (N1 : length (firstn n s) = n) by (rewrite firstn_length; unfold n; lia).
  assert (N2 : length (firstn l (skipn n s)) = l) by (rewrite firstn_length, skipn_length; unfold l, n; lia).
  set (b := firstn l (skipn n s)) in *. set (c := skipn l (skipn n s)) in *. clearbody b c. rewrite <- E2 in E1.
  set (a := firstn n s) in *. clearbody a n l. subst s n l.
  destruct (stored_parts _ _ _ _ H) as (S & A & Lm). destruct (stored_parts _ _ _ _ Ht) as (St & At & Lt).
  rewrite room_iff in R0. unfold apart in *. rewrite !size_app' in *.
  assert (R : room k (a ++ t ++ c) m d) by (rewrite room_iff, !size_app'; lia).
  rewrite write_room by exact R. rewrite (Nat.add_comm (length b)).
  replace (size k a + (size k b + size k c))%nat with (size k (a ++ b ++ c)) by (rewrite !size_app'; lia).
  apply (three_links k m p q a b b c t d); try assumption; try reflexivity; rewrite ?size_app'; try lia.
  - apply at_over; trivial; unfold size in *; lia.
  - apply at_over; trivial; rewrite ?units_app, ?app_length; unfold size in *; lia.
Qed.
(** In place. *)
Lemma replace_own : forall pf k m p q a r1 u c t L P, stored k m p (a ++ (r1 ++ u) ++ c) -> stored k m q t -> in_ity i32 L -> in_ity i32 P ->
  slen (a ++ (r1 ++ u) ++ c) < 2 ^ 31 -> P = slen a + 1 -> P <= slen (a ++ (r1 ++ u) ++ c) -> L = slen (r1 ++ u) ->
  slen t = slen r1 -> size k t = size k r1 -> apart p (size k (a ++ (r1 ++ u) ++ c)) q (size k t) ->
  REPLACE_at pf k m p q L P p = omap (replaced p m) (REPLACE_EXT pf k (skipn p m) (skipn q m) L P (skipn p m)).
Proof.
  intros pf k m p q a r1 u c t L P H Ht HL HP HN EP PL EL NL NS C. unfold slen in HN.
  assert (HN' : Z.of_nat (length (a ++ (r1 ++ u) ++ c)) < 2 ^ 63) by lia.
  rewrite (replace_text pf k _ _ _ t L P _ H Ht HL HP HN'). unfold REPLACE_at.
  assert (RL : -2147483648 <= L <= 2147483647) by exact HL.
  assert (RP : -2147483648 <= P <= 2147483647) by exact HP.
  rewrite (count_at_ok _ _ _ _ H). cbn [obind]. unfold slen in *. rewrite wrap_len by exact HN.
  destruct (Z.ltb_spec P 1), (Z.leb_spec 1 P); try lia; cbn [orb andb].
  destruct (Z.ltb_spec (Z.of_nat (length (a ++ (r1 ++ u) ++ c))) P), (Z.leb_spec P (Z.of_nat (length (a ++ (r1 ++ u) ++ c)))); try lia.
  rewrite stop_spec by assumption. unfold del_stop. destruct (Z.leb_spec 0 L); [|lia]. cbn [obind].
  assert (LL : L + (P - 1) <= Z.of_nat (length (a ++ (r1 ++ u) ++ c))) by (rewrite !app_length in *; lia).
  destruct (Z.ltb_spec (Z.of_nat (length (a ++ (r1 ++ u) ++ c))) (L + (P - 1))), (Z.leb_spec (L + (P - 1)) (Z.of_nat (length (a ++ (r1 ++ u) ++ c)))); try lia.
  rewrite (decode_at_ok _ _ _ _ H), (decode_at_ok _ _ _ _ Ht). cbn [obind].
  replace (Z.to_nat (P - 1)) with (length a) by lia.
  replace (Z.to_nat (L + (P - 1))) with (length (a ++ r1 ++ u)) by (rewrite !app_length in *; lia).
  rewrite firstn_app, firstn_all, Nat.sub_diag. cbn [firstn]. rewrite app_nil_r.
  replace (skipn (length (a ++ r1 ++ u)) (a ++ (r1 ++ u) ++ c)) with c.
  2:{ rewrite (app_assoc a (r1 ++ u) c). rewrite skipn_app, skipn_all, Nat.sub_diag. reflexivity. }
  destruct (stored_parts _ _ _ _ H) as (S & A & Lm). destruct (stored_parts _ _ _ _ Ht) as (St & At & Lt).
  unfold apart in *.
  assert (R : room k (a ++ t ++ c) m p) by (rewrite room_iff; rewrite !size_app' in *; lia).
  rewrite write_room by exact R. rewrite app_length.
  pose proof A as A0. rewrite units_app in A0. apply at_app in A0. destruct A0 as [Aa A0].
  rewrite units_app in A0. apply at_app in A0. destruct A0 as [Ar Ac].
  rewrite units_app in Ar. apply at_app in Ar. destruct Ar as [Ar Au].
  assert (X : over m p (units k a) = m) by (apply over_same; trivial; rewrite !size_app' in Lm; unfold size in Lm; lia).
  apply (three_links k m p q a (r1 ++ u) (t ++ u) c t p); try assumption; try (rewrite ?X; assumption); try lia.
  - rewrite !Forall_app in *. tauto.
  - rewrite !app_length. lia.
  - rewrite !size_app'. lia.
  - rewrite !size_app' in *. lia.
  - rewrite <- app_assoc. rewrite (app_assoc a t (u ++ c)). rewrite (units_app k (a ++ t) (u ++ c)). apply at_app. split.
    + apply at_written. rewrite units_app, app_length. rewrite !size_app' in Lm. unfold size in *. lia.
    + rewrite units_app, app_length. unfold size in NS. rewrite NS.
      assert (Y : at_ m (p + (length (units k a) + length (units k r1))) (units k (u ++ c))).
      { rewrite units_app. apply at_app. rewrite units_app, app_length in Ac.
        split; [now rewrite Nat.add_assoc|]. rewrite !Nat.add_assoc in *. exact Ac. }
      rewrite !size_app' in Lm. unfold size in *. rewrite <- NS in Y |- *.
      apply at_over; [exact Y|..]; rewrite ?units_app, ?app_length; lia.
  - rewrite !size_app' in *. lia.
Qed.

(** ** CONCAT *)
Lemma joined_grows : forall k args acc, (size k acc <= size k (joined acc args))%nat.
Proof.
  intros k args. induction args as [|x args IH]; intros acc; [apply Nat.le_refl|]. unfold joined. cbn [fold_left].
  eapply Nat.le_trans; [|apply IH]. rewrite size_app'. lia.
Qed.
Definition good (k : kind) (m : list Z) (d n : nat) (a : arg) : Prop :=
  match a with Own => True | Other q t => stored k m q t /\ apart d n q (size k t) end.
Lemma append_step : forall k m d acc q t, text acc -> stored k (over m d (units k acc ++ [0])) q t ->
  (d + size k (acc ++ t) < length m)%nat -> (d + size k acc <= q \/ q + size k t <= d + size k acc)%nat ->
  encode_at k (over m d (units k acc ++ [0])) (d + size k acc) [Link 0 None (Chars q (q + size k t) None)] =
  Ok (over m d (units k (acc ++ t) ++ [0]), (d + size k (acc ++ t))%nat).
Proof.
  intros k m d acc q t T H R D. destruct (stored_parts _ _ _ _ H) as (S & A & L). set (m1 := over m d (units k acc ++ [0])) in *.
  rewrite size_app' in *.
  assert (L1 : length m1 = length m) by (apply over_length; rewrite app_length; cbn [length]; unfold size in *; lia).
  cbn [encode_at]. pose proof (link_ok k m1 q [] t [] (d + size k acc) None) as X. cbn [app length] in X. rewrite app_nil_r in X.
  rewrite X; clear X; try assumption; try lia; [|change (size k []) with 0%nat; lia|now right]. cbn [obind].
  rewrite poke_spec by (rewrite over_length; unfold size in *; lia). cbn [obind]. unfold size in *.
  rewrite over_over by (cbn [length]; lia). do 2 f_equal; [|lia].
  apply nth_ext. intros i. rewrite units_app. unfold m1.
  rewrite !nth_over; rewrite ?over_length; rewrite ?app_length; cbn [length]; try lia.
  set (A1 := length (units k acc)) in *. set (B1 := length (units k t)) in *.
  destruct (Nat.leb_spec (d + A1) i), (Nat.ltb_spec i (d + A1 + (B1 + 1))), (Nat.leb_spec d i),
    (Nat.ltb_spec i (d + (A1 + B1 + 1))), (Nat.ltb_spec i (d + (A1 + 1))); cbn [andb]; try lia; try reflexivity;
  rewrite <- ?app_assoc.
  all: try (rewrite (nth_error_app2 (units k acc)) by lia; f_equal; unfold A1; lia).
  rewrite !nth_error_app1 by lia. reflexivity.
Qed.
Lemma stored_over : forall k m d n q t vs, stored k m q t -> apart d n q (size k t) -> (length vs <= S n)%nat -> (d + length vs <= length m)%nat ->
  stored k (over m d vs) q t.
Proof.
  intros k m d n q t vs H C N R. destruct (stored_at _ _ _ _ H) as (T & A & L). apply at_stored; [exact T|].
  apply at_over; [exact A|exact R|]. unfold apart in C. rewrite app_length. cbn [length]. unfold size in *. lia.
Qed.
Lemma concat_rest : forall k m d args acc, text acc -> (d + size k (joined acc args) < length m)%nat ->
  Forall (good k m d (size k (joined acc args))) args ->
  CONCAT_at k (over m d (units k acc ++ [0])) (d + size k acc) (map (pointer d) args) = Ok (over m d (units k (joined acc args) ++ [0])).
Proof.
  intros k m d args. induction args as [|x args IH]; intros acc T R G; [reflexivity|].
  apply Forall_cons_iff in G. destruct G as [Gx G]. cbn [map CONCAT_at]. unfold joined in *. cbn [fold_left] in *.
  set (t := match x with Own => acc | Other _ t => t end) in *. fold (joined (acc ++ t) args) in *.
  pose proof (joined_grows k args (acc ++ t)) as J. pose proof J as J'. rewrite size_app' in J'.
  assert (H : stored k (over m d (units k acc ++ [0])) (pointer d x) t).
  { destruct x as [|q u]; cbn [pointer].
    - apply at_stored; [exact T|]. apply at_written. rewrite app_length. cbn [length]. unfold size in *. lia.
    - destruct Gx as [Gx C]. eapply stored_over; [exact Gx|exact C|..]; rewrite app_length; cbn [length]; unfold size in *; lia. }
  rewrite (decode_at_ok _ _ _ _ H). cbn [obind].
  rewrite append_step; [|exact T|exact H|lia|].
  - cbn [obind]. apply IH; [|exact R|exact G]. apply text_app. split; [exact T|]. apply H.
  - destruct x as [|q u]; cbn [pointer]; [right; unfold t; lia|]. destruct Gx as [_ C]. unfold apart in C. unfold t. lia.
Qed.
Lemma concat_at : forall k m d a args s, (a = Own -> stored k m d s) ->
  let first := match a with Own => s | Other _ t => t end in
  let r := joined first args in
  Forall (good k m d (size k r)) (a :: args) -> room k r m d ->
  CONCAT_at k m d (map (pointer d) (a :: args)) = Ok (replaced d m (written k r (skipn d m))).
Proof.
  intros k m d a args s O first r G R. apply room_iff in R. rewrite <- over_written by exact R.
  apply Forall_cons_iff in G. destruct G as [Ga G]. pose proof (joined_grows k args first) as J. fold r in J.
  assert (H : stored k m (pointer d a) first) by (destruct a as [|q t]; [now apply O|apply Ga]).
  assert (T : text first) by apply H.
  cbn [map CONCAT_at]. rewrite (decode_at_ok _ _ _ _ H). cbn [obind encode_at].
  destruct (stored_parts _ _ _ _ H) as (S & A & L).
  pose proof (link_ok k m (pointer d a) [] first [] d None) as X. cbn [app length] in X. rewrite app_nil_r in X.
  rewrite X; clear X; try assumption; try lia; [| |now right].
  2:{ change (size k []) with 0%nat. destruct a as [|q t]; cbn [pointer]; [lia|]. destruct Ga as [_ C]. unfold apart in C. unfold first. lia. }
  cbn [obind]. rewrite poke_spec by (rewrite over_length; unfold size in *; lia). cbn [obind]. unfold size at 1.
  rewrite over_over by (cbn [length]; unfold size in *; lia). apply concat_rest; [exact T|exact R|exact G].
Qed.

(** Texts whose characters take one unit each (ASCII in a STRING, no surrogate pairs in a WSTRING). *)
Lemma one_unit : forall k a b, Forall is_scalar (a ++ b) -> size k (a ++ b) = length (a ++ b) -> size k a = length a /\ size k b = length b.
Proof.
  intros k a b S E. apply Forall_app in S. destruct S as [Sa Sb]. pose proof (size_length k a Sa). pose proof (size_length k b Sb).
  rewrite size_app', app_length in E. lia.
Qed.
Lemma replace_units : forall pf k m p q s t L P, stored k m p s -> stored k m q t -> in_ity i32 L -> in_ity i32 P -> slen s < 2 ^ 31 ->
  size k s = length s -> size k t = length t -> 1 <= P <= slen s -> P - 1 + L <= slen s -> slen t <= L ->
  apart p (size k s) q (size k t) ->
  REPLACE_at pf k m p q L P p = omap (replaced p m) (REPLACE_EXT pf k (skipn p m) (skipn q m) L P (skipn p m)).
Proof.
  intros pf k m p q s t L P H Ht HL HP HN Es Et HP1 HS TL C. unfold slen in *.
  set (n := Z.to_nat (P - 1)). set (l := Z.to_nat L).
  pose proof (firstn_skipn n s) as E1. pose proof (firstn_skipn l (skipn n s)) as E2.
  assert (N1 : length (firstn n s) = n) by (rewrite firstn_length; unfold n; lia).
  assert (N2 : length (firstn l (skipn n s)) = l) by (rewrite firstn_length, skipn_length; unfold l, n; lia).
  set (b := firstn l (skipn n s)) in *. set (c := skipn l (skipn n s)) in *. clearbody b c. rewrite <- E2 in E1.
  set (a := firstn n s) in *. clearbody a. clear E2.
  pose proof (firstn_skipn (length t) b) as E3. assert (N3 : length (firstn (length t) b) = length t) by (rewrite firstn_length; unfold l in *; lia).
  set (r1 := firstn (length t) b) in *. set (u := skipn (length t) b) in *. clearbody r1 u. subst b.
  destruct (stored_parts _ _ _ _ H) as (S & _ & _). rewrite <- E1 in *.
  destruct (one_unit k _ _ S Es) as [_ E4]. apply Forall_app in S. destruct S as [_ S].
  destruct (one_unit k _ _ S E4) as [E5 _]. apply Forall_app in S. destruct S as [S _]. destruct (one_unit k _ _ S E5) as [E6 _].
  apply (replace_own pf k m p q a r1 u c t L P); try assumption; unfold slen; unfold n, l in *; rewrite ?app_length in *; lia.
Qed.
