(** Proofs about the lengths of texts in programs. *)
From Coq Require Import String Ascii ZArith Lia List Bool.
From Verif Require Import Base ModelText ModelString ModelExtra ModelWrap ModelLink ModelLib ModelApi SpecScalar SpecText SpecExtra SpecLib SpecWrap SpecCall SpecExpr SpecNum SpecTerm SpecType SpecSize
  ProofBase ProofText ProofString ProofString2 ProofString3 ProofExtra ProofExtra5 ProofWrap ProofExtra2 ProofCall ProofCall3 ProofCall4 ProofTerm ProofTerm2 ProofTerm3 ProofType.
Import ListNotations.
Open Scope string_scope.
Open Scope list_scope.
Open Scope Z_scope.
Local Notation size := SpecWrap.size.
Local Opaque ModelApi.call value_in api.

(** * Calls with any position and length *)
(** The result of a call is a text of at most [n] units, or the call aborts. *)
Definition at_most (k : kind) (n : nat) (o : outcome (sty * value)) : Prop :=
  (exists t, gives k t o /\ (size k t <= n)%nat) \/ o = Panic.
Lemma range_dec : forall a x b, a <= x <= b \/ ~ a <= x <= b.
Proof. intros. lia. Qed.
Lemma left_most : forall P k src t L n, holds k src t -> (size k t <= n)%nat -> (n <= capacity)%nat ->
  at_most k n (call P "LEFT" [(string_type k, VS src); (S_DINT, VZ L)]) /\ at_most k n (call P "RIGHT" [(string_type k, VS src); (S_DINT, VZ L)]).
Proof.
  intros P k src t L n H S C. unfold capacity in C. destruct (left_gives P k src t L H ltac:(lia)) as [A B]. destruct (right_gives P k src t L H ltac:(lia)) as [A' B'].
  destruct (range_dec 0 L (slen t)) as [R|R]; [|split; right; [exact (B R)|exact (B' R)]].
  split; left.
  - exists (firstn (Z.to_nat L) t). split; [exact (A R)|]. pose proof (size_firstn k (Z.to_nat L) t). lia.
  - exists (skipn (length t - Z.to_nat L) t). split; [exact (A' R)|]. pose proof (size_skipn k (length t - Z.to_nat L) t). lia.
Qed.
Lemma mid_most : forall P k src t L N n, holds k src t -> (size k t <= n)%nat -> (n <= capacity)%nat -> in_ity i32 L -> in_ity i32 N ->
  at_most k n (call P "MID" [(string_type k, VS src); (S_DINT, VZ L); (S_DINT, VZ N)]).
Proof.
  intros P k src t L N n H S C IL IN. unfold capacity in C. destruct (mid_gives P k src t L N H ltac:(lia) IL IN) as [A B].
  assert (D : (0 <= L /\ 1 <= N <= slen t /\ N - 1 + L <= slen t) \/ ~ (0 <= L /\ 1 <= N <= slen t /\ N - 1 + L <= slen t)) by lia.
  destruct D as [(R1 & R2 & R3)|R]; [|right; exact (B R)]. left. eexists. split; [exact (A R1 R2 R3)|].
  pose proof (size_firstn k (Z.to_nat L) (skipn (Z.to_nat (N - 1)) t)). pose proof (size_skipn k (Z.to_nat (N - 1)) t). lia.
Qed.
(** A part in front of a character and another part that begins before it. *)
Lemma repeated_size : forall k t a b, (a < length t)%nat -> (size k (firstn a t) + size k (skipn b t) <= size k t + (size k t - 1))%nat.
Proof.
  intros k t a b L. pose proof (size_split k a t). pose proof (size_skipn k b t).
  pose proof (size_length k (skipn a t)). rewrite skipn_length in *. lia.
Qed.
Lemma remains_mono : forall p b n m, (n <= m)%nat -> (remains p b n <= remains p b m)%nat.
Proof. intros [|] [|] n m H; cbn [remains]; lia. Qed.
Lemma remains_ge : forall p b n, (n <= remains p b n)%nat.
Proof. intros [|] [|] n; cbn [remains]; lia. Qed.
Lemma cut_size : forall k s L N, 0 <= L -> (size k (firstn (Z.to_nat (N - 1)) s) + size k (skipn (Z.to_nat (N - 1 + L)) s) <= size k s)%nat.
Proof.
  intros k s L N H. pose proof (size_split k (Z.to_nat (N - 1)) s). pose proof (skipn_mono k (Z.to_nat (N - 1)) (Z.to_nat (N - 1 + L)) s ltac:(lia)). lia.
Qed.
Lemma delete_most : forall P k src t L N n b, holds k src t -> (size k t <= n)%nat -> (remains (p_profile P) b n <= capacity)%nat -> in_ity i32 L -> in_ity i32 N ->
  (b = true -> 0 <= L) -> at_most k (remains (p_profile P) b n) (call P "DELETE" [(string_type k, VS src); (S_DINT, VZ L); (S_DINT, VZ N)]).
Proof.
  intros P k src t L N n b H S C IL IN B0. unfold capacity in C. pose proof (remains_ge (p_profile P) b n) as G. pose proof (small_slen k t ltac:(lia)) as SL.
  destruct (Z_lt_le_dec L 0) as [L0|L0].
  - rewrite delete_call. destruct (p_profile P) eqn:EP.
    + right. unfold DELETE. rewrite (proj1 (negative_debug k src src t t L N ModelWrap.result H H IL IN ltac:(lia) L0)). reflexivity.
    + destruct b; [specialize (B0 eq_refl); lia|]. cbn [remains] in *.
      destruct (negative_release k src src t t L N ModelWrap.result H H IL IN SL L0) as [A B].
      assert (D : (N - 1 + L < 0 \/ slen t < N) \/ (0 <= N - 1 + L /\ N <= slen t)) by lia. destruct D as [D|[D1 D2]].
      * right. unfold DELETE. now rewrite (proj1 (A D)).
      * left. exists (firstn (Z.to_nat (N - 1)) t ++ skipn (Z.to_nat (N - 1 + L)) t).
        assert (Z : (size k (firstn (Z.to_nat (N - 1)) t ++ skipn (Z.to_nat (N - 1 + L)) t) <= n + (n - 1))%nat).
        { rewrite size_app. pose proof (repeated_size k t (Z.to_nat (N - 1)) (Z.to_nat (N - 1 + L)) ltac:(unfold slen in D2; lia)). lia. }
        split; [|exact Z]. apply gives_returns. apply delivers_small; [exact (proj1 (B D1 D2))|apply text_app; [apply text_firstn, H|apply text_skipn, H]|lia].
  - destruct (delete_gives P k src t L N H ltac:(lia) IL IN L0) as [A B].
    assert (D : (1 <= N <= slen t /\ N - 1 + L <= slen t) \/ ~ (1 <= N <= slen t /\ N - 1 + L <= slen t)) by lia. destruct D as [[D1 D2]|D]; [|right; exact (B D)].
    left. eexists. split; [exact (A D1 D2)|]. rewrite size_app. pose proof (cut_size k t L N L0). lia.
Qed.
Lemma replace_most : forall P k src rep s t L N n m b, holds k src s -> holds k rep t -> (size k s <= n)%nat -> (size k t <= m)%nat ->
  (remains (p_profile P) b n + m <= capacity)%nat -> in_ity i32 L -> in_ity i32 N -> (b = true -> 0 <= L) ->
  at_most k (remains (p_profile P) b n + m) (call P "REPLACE" [(string_type k, VS src); (string_type k, VS rep); (S_DINT, VZ L); (S_DINT, VZ N)]).
Proof.
  intros P k src rep s t L N n m b H H' S S' C IL IN B0. unfold capacity in C. pose proof (remains_ge (p_profile P) b n) as G. pose proof (small_slen k s ltac:(lia)) as SL.
  destruct (Z_lt_le_dec L 0) as [L0|L0].
  - rewrite replace_call. destruct (p_profile P) eqn:EP.
    + right. unfold REPLACE. rewrite (proj2 (negative_debug k src rep s t L N ModelWrap.result H H' IL IN ltac:(lia) L0)). reflexivity.
    + destruct b; [specialize (B0 eq_refl); lia|]. cbn [remains] in *.
      destruct (negative_release k src rep s t L N ModelWrap.result H H' IL IN SL L0) as [A B].
      assert (D : (N - 1 + L < 0 \/ slen s < N) \/ (0 <= N - 1 + L /\ N <= slen s)) by lia. destruct D as [D|[D1 D2]].
      * right. unfold REPLACE. now rewrite (proj2 (A D)).
      * left. exists (firstn (Z.to_nat (N - 1)) s ++ t ++ skipn (Z.to_nat (N - 1 + L)) s).
        assert (Z : (size k (firstn (Z.to_nat (N - 1)) s ++ t ++ skipn (Z.to_nat (N - 1 + L)) s) <= n + (n - 1) + m)%nat).
        { rewrite !size_app. pose proof (repeated_size k s (Z.to_nat (N - 1)) (Z.to_nat (N - 1 + L)) ltac:(unfold slen in D2; lia)). lia. }
        split; [|exact Z]. apply gives_returns.
        apply delivers_small; [exact (proj2 (B D1 D2))|apply text_app; [apply text_firstn, H|apply text_app; [apply H'|apply text_skipn, H]]|lia].
  - assert (D : (1 <= N <= slen s /\ N - 1 + L <= slen s) \/ ~ (1 <= N <= slen s /\ N - 1 + L <= slen s)) by lia. destruct D as [[D1 D2]|D].
    + pose proof (proj1 (replace_gives P k src rep s t L N H H' IL IN SL L0 D1 D2)) as A.
      assert (Z : (size k (firstn (Z.to_nat (N - 1)) s ++ t ++ skipn (Z.to_nat (N - 1 + L)) s) <= n + m)%nat)
        by (rewrite !size_app; pose proof (cut_size k s L N L0); lia).
      left. eexists. split; [apply A; lia|lia].
    + right. rewrite replace_call. unfold REPLACE. now rewrite (proj2 (replace_spec (p_profile P) k src rep s t L N ModelWrap.result H H' IL IN SL L0) D).
Qed.
Lemma insert_most : forall P k src ins s t N n m, holds k src s -> holds k ins t -> (size k s <= n)%nat -> (size k t <= m)%nat -> (n + m <= capacity)%nat ->
  at_most k (n + m) (call P "INSERT" [(string_type k, VS src); (string_type k, VS ins); (S_DINT, VZ N)]).
Proof.
  intros P k src ins s t N n m H H' S S' C. unfold capacity in C. pose proof (small_slen k s ltac:(lia)) as SL.
  destruct (range_dec 0 N (slen s)) as [R|R].
  - left. eexists. split; [apply (proj1 (insert_gives P k src ins s t N H H' SL R)); lia|].
    rewrite !size_app. pose proof (size_split k (Z.to_nat N) s). lia.
  - right. rewrite insert_call. unfold INSERT. now rewrite (proj2 (insert_spec k src ins s t N ModelWrap.result H H' SL) R).
Qed.
Lemma dint_text_length : forall s z, canonical_int s z -> in_ity i32 z -> (length s <= 11)%nat.
Proof.
  intros s z C Z. pose proof (canonical_int_length s z 10 C ltac:(lia)) as L. unfold in_ity in Z. change (imin i32) with (- 2 ^ 31) in Z. change (imax i32) with (2 ^ 31 - 1) in Z. lia.
Qed.
Lemma ascii_size : forall k s, ascii s -> size k s = length s.
Proof. intros k s A. unfold size. now rewrite (ascii_units k s A). Qed.
Lemma print_most : forall P f k z, List.In (f, k) [("DINT_TO_STRING", STRING); ("DINT_TO_WSTRING", WSTRING)] -> in_ity i32 z ->
  at_most k 11 (call P f [(S_DINT, VZ z)]).
Proof.
  intros P f k z F Z. left. exists (dec_int z). pose proof (dec_int_canonical z) as C. split; [|rewrite (ascii_size k _ (ascii_canonical_int _ z C)); exact (dint_text_length _ z C Z)].
  pose proof (print_is P S_DINT z (dec_int z) k ltac:(cbn; tauto) Z C) as G.
  destruct F as [F|[F|[]]]; injection F as <- <-; exact G.
Qed.
Lemma occurs_some : forall ns hs, (exists i, occurs_at ns hs i) \/ (forall i, ~ occurs_at ns hs i).
Proof.
  intros ns hs. assert (D : forall m, (exists q, occurs_at ns hs q) \/ (forall q, (q < m)%nat -> ~ occurs_at ns hs q)).
  { induction m as [|m [H|H]]; [right; lia|now left|]. destruct (occurs_dec ns hs m) as [Y|Y]; [left; now exists m|].
    right. intros q L. destruct (Nat.eq_dec q m) as [->|]; [exact Y|apply H; lia]. }
  destruct (D (S (length hs))) as [H|H]; [now left|]. right. intros i O. assert (i <= length hs)%nat by (destruct O as (a & b & -> & E); rewrite app_length; lia).
  exact (H i ltac:(lia) O).
Qed.
(** The result of a call is a DINT, not negative if [b], or the call aborts. *)
Definition a_count (b : bool) (o : outcome (sty * value)) : Prop :=
  (exists z, o = Ok (S_DINT, VZ z) /\ in_ity i32 z /\ (b = true -> 0 <= z)) \/ o = Panic.
Lemma find_most : forall P k a c hs ns n, holds k a hs -> holds k c ns -> (size k hs <= n)%nat -> (n <= capacity)%nat ->
  a_count true (call P "FIND" [(string_type k, VS a); (string_type k, VS c)]).
Proof.
  intros P k a c hs ns n H H' S C. unfold capacity in C. pose proof (small_slen k hs ltac:(lia)) as SL. left. destruct (find_call P k a c hs ns H H' SL) as [A B].
  assert (D : (ns = [] \/ (forall i, ~ occurs_at ns hs i)) \/ (ns <> [] /\ exists i, first_at ns hs i)).
  { destruct ns as [|x ns]; [left; now left|]. destruct (occurs_some (x :: ns) hs) as [(i & O)|O]; [|left; now right]. right. split; [discriminate|exact (first_exists _ _ i O)]. }
  destruct D as [D|(D & i & F)].
  - exists 0. split; [exact (A D)|]. split; [vm_compute; split; discriminate|lia].
  - exists (Z.of_nat i + 1). split; [exact (B i D F)|]. split; [exact (found_dint hs ns i SL D F)|lia].
Qed.

(** * Expressions *)
Scheme text_at_most_ind2 := Minimality for text_at_most Sort Prop with texts_at_most_ind2 := Minimality for texts_at_most Sort Prop
  with count_of_ind2 := Minimality for count_of Sort Prop.
Combined Scheme bounds_ind from text_at_most_ind2, texts_at_most_ind2, count_of_ind2.
(** The arguments are texts of together at most [n] units, or one of them aborts. *)
Definition all_at_most (k : kind) (n : nat) (len : nat) (o : outcome (list (sty * value))) : Prop :=
  (exists argv ts, o = Ok (map (fun m => (string_type k, VS m)) argv) /\ Forall2 (holds k) argv ts /\ (size k (concat ts) <= n)%nat /\ length ts = len) \/ o = Panic.
Ltac text_arg IH := let t := fresh "t" in let d := fresh "d" in let E := fresh "E" in let H := fresh "H" in let S := fresh "S" in
  destruct IH as [(t & (d & E & H) & S)|E]; rewrite E; cbn [obind]; [|right; reflexivity].
Ltac count_arg IH := let z := fresh "z" in let E := fresh "E" in let I := fresh "I" in let S := fresh "NN" in
  destruct IH as [(z & E & I & S)|E]; rewrite E; cbn [obind]; [|right; reflexivity].
Lemma max_two : forall P a b, in_ity i32 a -> in_ity i32 b -> call P "MAX" [(S_DINT, VZ a); (S_DINT, VZ b)] = Ok (S_DINT, VZ (Z.max a b)).
Proof.
  intros P a b A B. apply (max_is P S_DINT [a; b] (Z.max a b)); [cbn; tauto|constructor; [exact A|constructor; [exact B|constructor]]|]. split; [cbn; lia|]. intros z [<-|[<-|[]]]; lia.
Qed.
Lemma min_two : forall P a b, in_ity i32 a -> in_ity i32 b -> call P "MIN" [(S_DINT, VZ a); (S_DINT, VZ b)] = Ok (S_DINT, VZ (Z.min a b)).
Proof.
  intros P a b A B. apply (min_is P S_DINT [a; b] (Z.min a b)); [cbn; tauto|constructor; [exact A|constructor; [exact B|constructor]]|]. split; [cbn; lia|]. intros z [<-|[<-|[]]]; lia.
Qed.
Lemma parse_most : forall P src s, holds STRING src s -> a_count false (call P "STRING_TO_DINT" [(S_STRING, VS src)]).
Proof.
  intros P src s H. apply ProofString2.holds_reads in H. destruct (parse_int_call P src) as (_ & -> & _). unfold STRING_TO_DINT.
  destruct (string_to_int_total i32 src _ H) as [E|[z E]]; rewrite E; [right; reflexivity|]. left. exists z. split; [reflexivity|].
  split; [exact (proj2 (proj1 (string_to_int_spec i32 src _ ltac:(split; discriminate) H z) E))|discriminate].
Qed.
Section Bounds.
  Variables (P : platform) (G : string -> option sort) (r : env value).
  Hypothesis D : as_described G r.
  Lemma bounds :
    (forall e k n, text_at_most (p_profile P) G e k n -> at_most k n (value_in P r e)) /\
    (forall es k n, texts_at_most (p_profile P) G es k n -> all_at_most k n (length es) (arguments_in P r es)) /\
    (forall e b, count_of (p_profile P) G e b -> a_count b (value_in P r e)).
  Proof.
    apply bounds_ind.
    - intros x k n X. destruct (D x _ X) as (t & V & S). left. exists t. split; [exact (text_var k P r x t V)|exact S].
    - intros f e i k n b F _ IHe C _ IHi. rewrite value_of_call. cbn [arguments_in]. text_arg IHe. count_arg IHi.
      destruct (left_most P k d t z n H S C) as [A B]. destruct F as [<-|[<-|[]]]; [exact A|exact B].
    - intros e l i k n b c _ IHe C _ IHl _ IHi. rewrite value_of_call. cbn [arguments_in]. text_arg IHe. count_arg IHl. count_arg IHi.
      exact (mid_most P k d t z z0 n H S C I I0).
    - intros e l i k n b c _ IHe C _ IHl _ IHi. rewrite value_of_call. cbn [arguments_in]. text_arg IHe. count_arg IHl. count_arg IHi.
      exact (delete_most P k d t z z0 n b H S C I I0 NN).
    - intros e e' i k n m b _ IHe _ IHe' C _ IHi. rewrite value_of_call. cbn [arguments_in]. text_arg IHe. text_arg IHe'. count_arg IHi.
      exact (insert_most P k d d0 t t0 z n m H H0 S S0 C).
    - intros e e' l i k n m b c _ IHe _ IHe' C _ IHl _ IHi. rewrite value_of_call. cbn [arguments_in]. text_arg IHe. text_arg IHe'. count_arg IHl. count_arg IHi.
      exact (replace_most P k d d0 t t0 z z0 n m b H H0 S S0 C I I0 NN).
    - intros e es k n _ IH C. rewrite value_of_call. destruct IH as [(argv & ts & E & F & S & L)|E]; rewrite E; [|right; reflexivity]. cbn [obind].
      left. exists (concat ts). split; [|exact S]. apply (proj1 (concat_gives P k argv ts F ltac:(intros ->; discriminate L))). unfold capacity in C. lia.
    - intros e n _ IHe C. rewrite value_of_call. cbn [arguments_in]. text_arg IHe. left. exists t. pose proof (size_narrow t) as W. unfold capacity in C.
      split; [apply (proj1 (to_string_gives P d t H)); lia|lia].
    - intros e n _ IHe C. rewrite value_of_call. cbn [arguments_in]. text_arg IHe. left. exists t. pose proof (size_wide t) as W. unfold capacity in C.
      split; [apply (to_wstring_gives P d t H); lia|lia].
    - intros f k i b F _ IHi. rewrite value_of_call. cbn [arguments_in]. count_arg IHi. exact (print_most P f k z F I).
    - intros k. left. exists [], []. split; [reflexivity|]. split; [constructor|]. split; [apply Nat.le_refl|reflexivity].
    - intros e es k n m _ IHe _ IHs. cbn [arguments_in length]. text_arg IHe. destruct IHs as [(argv & ts & E' & F & S' & L)|E']; rewrite E'; cbn [obind]; [|right; reflexivity].
      left. exists (d :: argv), (t :: ts). split; [reflexivity|]. split; [now constructor|]. split; [cbn [concat]; rewrite size_app; lia|cbn [length]; lia].
    - intros x b X. destruct (D x _ X) as (z & [GX I] & Z). left. exists z. split; [exact (value_arg P r x _ GX)|]. now split.
    - intros e k n _ IHe C. rewrite value_of_call. cbn [arguments_in]. text_arg IHe. pose proof (small_slen k t ltac:(unfold capacity in C; lia)) as SL.
      left. exists (slen t). split; [exact (len_call P k d t H SL)|]. split; [exact (slen_dint t SL)|]. intros _. apply slen_pos.
    - intros e e' k n m _ IHe _ IHe' C. rewrite value_of_call. cbn [arguments_in]. text_arg IHe. text_arg IHe'. exact (find_most P k d d0 t t0 n H H0 S C).
    - intros e n _ IHe. rewrite value_of_call. cbn [arguments_in]. text_arg IHe. exact (parse_most P d t H).
    - intros e e' b c _ IHe _ IHe'. rewrite value_of_call. cbn [arguments_in]. count_arg IHe. count_arg IHe'. left. exists (Z.max z z0).
      split; [exact (max_two P z z0 I I0)|]. split; [unfold in_ity in *; lia|]. intros B. apply orb_true_iff in B as [B|B]; [specialize (NN B)|specialize (NN0 B)]; lia.
    - intros e e' b c _ IHe _ IHe'. rewrite value_of_call. cbn [arguments_in]. count_arg IHe. count_arg IHe'. left. exists (Z.min z z0).
      split; [exact (min_two P z z0 I I0)|]. split; [unfold in_ity in *; lia|]. intros B. apply andb_true_iff in B as [B1 B2]. specialize (NN B1). specialize (NN0 B2). lia.
  Qed.
  Lemma text_bound : forall e k n, text_at_most (p_profile P) G e k n -> at_most k n (value_in P r e).
  Proof. exact (proj1 bounds). Qed.
  Lemma count_bound : forall e b, count_of (p_profile P) G e b -> a_count b (value_in P r e).
  Proof. exact (proj2 (proj2 bounds)). Qed.
  Lemma compared_bool : forall e, compared (p_profile P) G e ->
    (exists z, value_in P r e = Ok (S_BOOL, VZ z) /\ (z = 0 \/ z = 1)) \/ value_in P r e = Panic.
  Proof.
    intros e (f & a & b & k & n & m & -> & F & A & B). apply text_bound in A, B. rewrite value_of_call. cbn [arguments_in]. text_arg A. text_arg B. left.
    assert (K : forall p o, tells p o -> exists z, o = Ok (S_BOOL, VZ z) /\ (z = 0 \/ z = 1)).
    { intros p o [[_ ->]|[_ ->]]; [exists 1|exists 0]; (split; [reflexivity|lia]). }
    pose proof (compare_call P k [d; d0] [units k t; units k t0] ltac:(constructor; [exact (holds_reads k d t H)|constructor; [exact (holds_reads k d0 t0 H0)|constructor]]) ltac:(cbn; lia)) as X.
    cbv zeta in X. cbn [map] in X. destruct X as (X1 & X2 & X3 & X4 & X5). pose proof (proj2 (eq_texts P k d d0 t t0 H H0)) as X6.
    destruct F as [<-|[<-|[<-|[<-|[<-|[<-|[]]]]]]]; [exact (K _ _ X3)|exact (K _ _ X6)|exact (K _ _ X5)|exact (K _ _ X1)|exact (K _ _ X4)|exact (K _ _ X2)].
  Qed.
End Bounds.

(** * Programs *)
Lemma put_text : forall x d t k n r, has_sort r x (Text_up_to k n) -> holds k d t -> (size k t <= n)%nat ->
  forall y s, has_sort r y s -> (y = x -> s = Text_up_to k n) -> has_sort (ModelLink.put x (VS d) r) y s.
Proof.
  intros x d t k n r _ H S y s V E. destruct s as [k' n'|b]; cbn [has_sort] in *.
  - destruct V as (u & (m & V & M) & U). pose proof (get_put x y (VS d) r _ _ V) as W. destruct (String.eqb y x) eqn:Y.
    + apply String.eqb_eq in Y. specialize (E Y). injection E as -> ->. exists t. split; [exists d; now split|exact S].
    + exists u. split; [exists m; now split|exact U].
  - destruct V as (z & [V I] & Z). pose proof (get_put x y (VS d) r _ _ V) as W. destruct (String.eqb y x) eqn:Y.
    + apply String.eqb_eq in Y. specialize (E Y). discriminate E.
    + exists z. split; [now split|exact Z].
Qed.
Lemma put_count : forall x z b r, in_ity i32 z -> (b = true -> 0 <= z) ->
  forall y s, has_sort r y s -> (y = x -> s = Count b) -> has_sort (ModelLink.put x (VZ z) r) y s.
Proof.
  intros x z b r I Z y s V E. destruct s as [k n|c]; cbn [has_sort] in *.
  - destruct V as (u & (m & V & M) & U). pose proof (get_put x y (VZ z) r _ _ V) as W. destruct (String.eqb y x) eqn:Y.
    + apply String.eqb_eq in Y. specialize (E Y). discriminate E.
    + exists u. split; [exists m; now split|exact U].
  - destruct V as (w & [V J] & Q). pose proof (get_put x y (VZ z) r _ _ V) as W. destruct (String.eqb y x) eqn:Y.
    + apply String.eqb_eq in Y. specialize (E Y). injection E as ->. exists z. split; [now split|exact Z].
    + exists w. split; [now split|exact Q].
Qed.
Lemma coerce_same : forall t v, coerce t t v = Ok v.
Proof. intros t v. unfold coerce. now rewrite rty_eqb_refl. Qed.
Lemma program_bounds : forall P G prog r, as_described G r -> bounded_program (p_profile P) G prog ->
  (exists r', executes P r prog = Ok r' /\ as_described G r') \/ executes P r prog = Panic.
Proof.
  intros P G prog. induction prog as [|[x e] prog IH]; intros r D B; [left; now exists r|]. inversion B as [|? ? F B']; subst. cbn [executes fst snd] in *.
  unfold fits_into in F. destruct (G x) as [[k m|c]|] eqn:X; [| |destruct F].
  - destruct F as (n & F & L). destruct (text_bound P G r D e k n F) as [(t & (d & E & H) & S)|E]; rewrite E; [|right; reflexivity]. cbn [obind].
    destruct (D x _ X) as (u & (a & A & U) & V). rewrite A. cbn [obind]. rewrite coerce_same. cbn [obind]. apply IH; [|exact B'].
    intros y s Y. refine (put_text x d t k m r (D x _ X) H ltac:(lia) y s (D y s Y) _). intros ->. rewrite X in Y. now injection Y as <-.
  - destruct F as (b & F & L). destruct (count_bound P G r D e b F) as [(z & E & I & S)|E]; rewrite E; [|right; reflexivity]. cbn [obind].
    destruct (D x _ X) as (u & [A U] & V). rewrite A. cbn [obind]. rewrite coerce_same. cbn [obind]. apply IH; [|exact B'].
    intros y s Y. refine (put_count x z c r I (fun C => S (L C)) y s (D y s Y) _). intros ->. rewrite X in Y. now injection Y as <-.
Qed.
Lemma cycles_bounds : forall P G prog r k, as_described G r -> bounded_program (p_profile P) G prog ->
  (exists r', executes P r (concat (repeat prog k)) = Ok r' /\ as_described G r') \/ executes P r (concat (repeat prog k)) = Panic.
Proof.
  intros P G prog r k D B. apply program_bounds; [exact D|]. induction k as [|k IH]; [constructor|]. cbn [repeat concat]. apply Forall_app. now split.
Qed.

(** * The bounds are reached *)
Definition xs (n : nat) : list Z := repeat 0x78 n.
Lemma xs_text : forall n, text (xs n).
Proof. intros n. apply Forall_forall. intros c I. apply repeat_spec in I. subst c. unfold is_scalar. lia. Qed.
Lemma xs_size : forall k n, size k (xs n) = n.
Proof. intros k n. unfold size, units, xs. induction n as [|n IH]; [reflexivity|]. cbn [repeat flat_map]. rewrite app_length, IH. destruct k; reflexivity. Qed.
Lemma xs_firstn : forall a n, (a <= n)%nat -> firstn a (xs n) = xs a.
Proof. induction a as [|a IH]; intros [|n] L; [reflexivity|reflexivity|lia|]. unfold xs in *. cbn [repeat firstn]. f_equal. apply IH. lia. Qed.
Definition stored (k : kind) (t : list Z) : list Z := units k t ++ [0].
Lemma stored_holds : forall k t, text t -> holds k (stored k t) t.
Proof. intros k t T. split; [exact T|]. now exists []. Qed.
(** DELETE(xs, 1 - n, n) repeats all characters but the last. *)
Lemma delete_reaches : forall P k n, p_profile P = Release -> (2 <= n)%nat -> Z.of_nat n < 2 ^ 31 ->
  let o := call P "DELETE" [(string_type k, VS (stored k (xs n))); (S_DINT, VZ (1 - Z.of_nat n)); (S_DINT, VZ (Z.of_nat n))] in
  ((remains Release false n <= capacity)%nat -> gives k (xs (remains Release false n)) o) /\ ((capacity < remains Release false n)%nat -> o = Ub).
Proof.
  intros P k n R N S o. unfold o. rewrite delete_call, R. unfold capacity. cbn [remains].
  assert (SL : slen (xs n) = Z.of_nat n) by (unfold slen, xs; now rewrite repeat_length).
  assert (E : xs (n + (n - 1)) = firstn (Z.to_nat (Z.of_nat n - 1)) (xs n) ++ skipn (Z.to_nat (Z.of_nat n - 1 + (1 - Z.of_nat n))) (xs n)).
  { replace (Z.to_nat (Z.of_nat n - 1 + (1 - Z.of_nat n))) with 0%nat by lia. cbn [skipn]. rewrite (xs_firstn (Z.to_nat (Z.of_nat n - 1)) n) by lia. unfold xs.
    rewrite <- repeat_app. f_equal. lia. }
  assert (I : forall z, - 2 ^ 31 <= z < 2 ^ 31 -> in_ity i32 z) by (intros z Z; unfold in_ity; change (imin i32) with (- 2 ^ 31); change (imax i32) with (2 ^ 31 - 1); lia).
  pose proof (proj2 (negative_release k (stored k (xs n)) (stored k (xs n)) (xs n) (xs n) (1 - Z.of_nat n) (Z.of_nat n) ModelWrap.result
    (stored_holds k _ (xs_text n)) (stored_holds k _ (xs_text n)) (I (1 - Z.of_nat n) ltac:(lia)) (I (Z.of_nat n) ltac:(lia)) ltac:(lia) ltac:(lia)) ltac:(lia) ltac:(lia)) as [X _].
  rewrite <- E in X. destruct (delivers_result k _ _ X (xs_text _)) as [A B]. rewrite xs_size in A, B. split; intros C.
  - apply gives_returns. exact (A C).
  - unfold DELETE. now rewrite (B C).
Qed.
(** Characters of three bytes and one 16-bit word. *)
Definition wide_xs (n : nat) : list Z := repeat 0x20AC n.
Lemma wide_text : forall n, text (wide_xs n).
Proof. intros n. apply Forall_forall. intros c I. apply repeat_spec in I. subst c. unfold is_scalar. lia. Qed.
Lemma wide_sizes : forall n, size WSTRING (wide_xs n) = n /\ size STRING (wide_xs n) = (3 * n)%nat.
Proof.
  intros n. unfold size, units, wide_xs. induction n as [|n [IH1 IH2]]; [split; reflexivity|]. cbn [repeat flat_map]. rewrite !app_length, IH1, IH2. cbn [utf8_char utf16_char].
  split; [reflexivity|]. change (length (utf8_char 0x20AC)) with 3%nat. lia.
Qed.
Lemma narrow_reaches : forall P n, let o := call P "WSTRING_TO_STRING" [(S_WSTRING, VS (stored WSTRING (wide_xs n)))] in
  ((3 * n <= capacity)%nat -> gives STRING (wide_xs n) o) /\ ((capacity < 3 * n)%nat -> o = Ub).
Proof.
  intros P n o. pose proof (to_string_gives P _ _ (stored_holds WSTRING _ (wide_text n))) as H. rewrite (proj2 (wide_sizes n)) in H. exact H.
Qed.
