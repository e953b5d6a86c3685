(** Proofs about the ST string functions (ModelWrap.v). *)
From Coq Require Import ZArith List Lia.
From Verif Require Import Base ModelString SpecText ProofString ProofString2 ProofString3 ModelWrap SpecWrap.
Import ListNotations.
Open Scope Z_scope.

Lemma result_length : length result = 2049%nat.
Proof. unfold result. apply repeat_length. Qed.
Lemma size_app : forall k a b, size k (a ++ b) = (size k a + size k b)%nat.
Proof. intros. unfold size. rewrite units_app. apply app_length. Qed.
Lemma size_firstn : forall k n t, (size k (firstn n t) <= size k t)%nat.
Proof. intros. rewrite <- (firstn_skipn n t) at 2. rewrite size_app. lia. Qed.
Lemma size_skipn : forall k n t, (size k (skipn n t) <= size k t)%nat.
Proof. intros. rewrite <- (firstn_skipn n t) at 2. rewrite size_app. lia. Qed.
Lemma size_split : forall k n t, (size k (firstn n t) + size k (skipn n t) = size k t)%nat.
Proof. intros. rewrite <- size_app, firstn_skipn. reflexivity. Qed.
Lemma skipn_mono : forall k a b t, (a <= b)%nat -> (size k (skipn b t) <= size k (skipn a t))%nat.
Proof.
  intros k a b t H. replace b with ((b - a) + a)%nat by lia. rewrite <- skipn_skipn. apply size_skipn.
Qed.
Lemma text_firstn : forall n t, text t -> text (firstn n t).
Proof. intros n t T. unfold text in *. rewrite <- (firstn_skipn n t) in T. now apply Forall_app in T. Qed.
Lemma text_skipn : forall n t, text t -> text (skipn n t).
Proof. intros n t T. unfold text in *. rewrite <- (firstn_skipn n t) in T. now apply Forall_app in T. Qed.
Lemma text_app : forall a b, text a -> text b -> text (a ++ b).
Proof. intros. now apply Forall_app. Qed.
Lemma size_length : forall k t, (length t <= size k t)%nat.
Proof.
  intros k t. unfold size, units. induction t as [|c t IH]; [cbn; lia|]. cbn [flat_map length].
  rewrite app_length.
  assert (1 <= length (match k with STRING => utf8_char | WSTRING => utf16_char end c))%nat.
  { destruct k; [unfold utf8_char|unfold utf16_char]; repeat destruct (_ <? _); cbn; lia. }
  lia.
Qed.

Lemma delivers_result : forall k r o, delivers k r result o -> text r ->
  ((size k r <= 2048)%nat -> returns k r o) /\ ((2048 < size k r)%nat -> o = Ub).
Proof.
  intros k r o [A B] T. unfold fits in *. rewrite result_length in *. fold (size k r) in *. split; intros S.
  - exists (written k r result). split; [apply A; lia|]. split; [|now apply written_holds].
    rewrite written_length; [apply result_length|]. unfold fits. rewrite result_length. fold (size k r). lia.
  - apply B. lia.
Qed.
Lemma delivers_small : forall k r o, delivers k r result o -> text r -> (size k r <= 2048)%nat -> returns k r o.
Proof. intros k r o D T. now apply (delivers_result k r o D T). Qed.
Lemma small_slen : forall k t, (size k t <= 2048)%nat -> slen t < 2 ^ 31.
Proof. intros k t H. pose proof (size_length k t). unfold slen. lia. Qed.

Lemma left_returns : forall k src t L, holds k src t -> (size k t <= 2048)%nat ->
  (0 <= L <= slen t -> returns k (firstn (Z.to_nat L) t) (LEFT k src L)) /\
  (~ 0 <= L <= slen t -> LEFT k src L = Panic).
Proof.
  intros k src t L H S. destruct (left_spec k src t L result H) as [A B]. split; [|exact B].
  intros R. apply delivers_small; [now apply A|apply text_firstn, H|]. pose proof (size_firstn k (Z.to_nat L) t). lia.
Qed.
Lemma right_returns : forall k src t L, holds k src t -> (size k t <= 2048)%nat ->
  (0 <= L <= slen t -> returns k (skipn (length t - Z.to_nat L) t) (RIGHT k src L)) /\
  (~ 0 <= L <= slen t -> RIGHT k src L = Panic).
Proof.
  intros k src t L H S. destruct (right_spec k src t L result H) as [A B]. split; [|exact B].
  intros R. apply delivers_small; [now apply A|apply text_skipn, H|].
  pose proof (size_skipn k (length t - Z.to_nat L) t). lia.
Qed.
Lemma mid_returns : forall p k src t L P, holds k src t -> (size k t <= 2048)%nat -> in_ity i32 L -> in_ity i32 P ->
  (0 <= L -> 1 <= P <= slen t -> P - 1 + L <= slen t ->
     returns k (firstn (Z.to_nat L) (skipn (Z.to_nat (P - 1)) t)) (MID p k src L P)) /\
  (~ (0 <= L /\ 1 <= P <= slen t /\ P - 1 + L <= slen t) -> MID p k src L P = Panic).
Proof.
  intros p k src t L P H S IL IP. pose proof (small_slen k t S).
  destruct (mid_spec p k src t L P result H IL IP) as [A B]; [lia|]. split; [|exact B].
  intros R1 R2 R3. apply delivers_small; [now apply A|apply text_firstn, text_skipn, H|].
  pose proof (size_firstn k (Z.to_nat L) (skipn (Z.to_nat (P - 1)) t)).
  pose proof (size_skipn k (Z.to_nat (P - 1)) t). lia.
Qed.
Lemma delete_returns : forall p k src t L P, holds k src t -> (size k t <= 2048)%nat -> in_ity i32 L -> in_ity i32 P ->
  0 <= L ->
  (1 <= P <= slen t -> P - 1 + L <= slen t ->
     returns k (firstn (Z.to_nat (P - 1)) t ++ skipn (Z.to_nat (P - 1 + L)) t) (DELETE p k src L P)) /\
  (~ (1 <= P <= slen t /\ P - 1 + L <= slen t) -> DELETE p k src L P = Panic).
Proof.
  intros p k src t L P H S IL IP L0.
  destruct (delete_spec p k src t L P result H IL IP (small_slen k t S) L0) as [A B]. split; [|exact B].
  intros R1 R2. apply delivers_small; [now apply A|apply text_app; [apply text_firstn|apply text_skipn]; apply H|].
  rewrite size_app. pose proof (size_split k (Z.to_nat (P - 1)) t).
  pose proof (skipn_mono k (Z.to_nat (P - 1)) (Z.to_nat (P - 1 + L)) t). lia.
Qed.

Lemma insert_returns : forall k base ins s t P, holds k base s -> holds k ins t -> slen s < 2 ^ 31 ->
  0 <= P <= slen s ->
  ((size k s + size k t <= 2048)%nat ->
     returns k (firstn (Z.to_nat P) s ++ t ++ skipn (Z.to_nat P) s) (INSERT k base ins P)) /\
  ((2048 < size k s + size k t)%nat -> INSERT k base ins P = Ub).
Proof.
  intros k base ins s t P Hs Ht S R.
  destruct (insert_spec k base ins s t P result Hs Ht S) as [A _]. specialize (A R).
  apply delivers_result in A;
    [|apply text_app; [apply text_firstn, Hs|apply text_app; [apply Ht|apply text_skipn, Hs]]].
  rewrite !size_app in A. pose proof (size_split k (Z.to_nat P) s).
  split; intros; apply A; lia.
Qed.
Lemma replace_returns : forall p k base rep s t L P, holds k base s -> holds k rep t -> in_ity i32 L -> in_ity i32 P ->
  slen s < 2 ^ 31 -> 0 <= L -> 1 <= P <= slen s -> P - 1 + L <= slen s ->
  let r := firstn (Z.to_nat (P - 1)) s ++ t ++ skipn (Z.to_nat (P - 1 + L)) s in
  ((size k r <= 2048)%nat -> returns k r (REPLACE p k base rep L P)) /\
  ((2048 < size k r)%nat -> REPLACE p k base rep L P = Ub).
Proof.
  intros p k base rep s t L P Hs Ht IL IP S L0 R1 R2 r.
  destruct (replace_spec p k base rep s t L P result Hs Ht IL IP S L0) as [A _]. specialize (A R1 R2).
  apply (delivers_result k r); [exact A|].
  apply text_app; [apply text_firstn, Hs|apply text_app; [apply Ht|apply text_skipn, Hs]].
Qed.
Lemma holds_all_text : forall k argv ts, Forall2 (holds k) argv ts -> text (concat ts).
Proof. intros k argv ts F. induction F; [constructor|]. apply text_app; [apply H|exact IHF]. Qed.
Lemma Forall2_len : forall (A B : Type) (R : A -> B -> Prop) l m, Forall2 R l m -> length l = length m.
Proof. intros A B R l m F. induction F; [reflexivity|]. cbn. now f_equal. Qed.
Lemma concat_returns : forall k argv ts, Forall2 (holds k) argv ts -> ts <> [] ->
  ((size k (concat ts) <= 2048)%nat -> returns k (concat ts) (CONCAT_ALL k argv)) /\
  ((2048 < size k (concat ts))%nat -> CONCAT_ALL k argv = Ub).
Proof.
  intros k argv ts F N. unfold CONCAT_ALL. rewrite (Forall2_len _ _ _ _ _ F). apply delivers_result.
  - now apply concat_ok.
  - now apply (holds_all_text k argv).
Qed.

(** Sizes of a text in the two encodings. *)
Lemma size_wide : forall t, (size WSTRING t <= size STRING t)%nat.
Proof.
  intros t. unfold size, units. induction t as [|c t IH]; [cbn; lia|]. cbn [flat_map]. rewrite !app_length.
  assert (length (utf16_char c) <= length (utf8_char c))%nat; [|lia].
  unfold utf16_char, utf8_char.
  destruct (Z.ltb_spec c 0x10000), (Z.ltb_spec c 0x80), (Z.ltb_spec c 0x800); cbn; lia.
Qed.
Lemma size_narrow : forall t, (size STRING t <= 3 * size WSTRING t)%nat.
Proof.
  intros t. unfold size, units. induction t as [|c t IH]; [cbn; lia|]. cbn [flat_map]. rewrite !app_length.
  assert (length (utf8_char c) <= 3 * length (utf16_char c))%nat; [|lia].
  unfold utf16_char, utf8_char.
  destruct (Z.ltb_spec c 0x10000), (Z.ltb_spec c 0x80), (Z.ltb_spec c 0x800); cbn; lia.
Qed.
Lemma to_string_returns : forall src t, holds WSTRING src t ->
  ((size STRING t <= 2048)%nat -> returns STRING t (WSTRING_TO_STRING src)) /\
  ((2048 < size STRING t)%nat -> WSTRING_TO_STRING src = Ub).
Proof.
  intros src t H. apply delivers_result; [|apply H]. unfold WSTRING_TO_STRING.
  rewrite (w2s_text src t result H). apply write_delivers.
Qed.
Lemma to_wstring_returns : forall src t, holds STRING src t -> (size STRING t <= 2048)%nat ->
  returns WSTRING t (STRING_TO_WSTRING src).
Proof.
  intros src t H F. pose proof (size_wide t). unfold STRING_TO_WSTRING.
  rewrite (s2w_text _ _ _ H). rewrite result_length. fold (size WSTRING t).
  rewrite (proj2 (Nat.leb_le _ _)) by lia. eexists. split; [reflexivity|]. split.
  - rewrite app_length, skipn_length, result_length. fold (size WSTRING t). lia.
  - split; [apply H|]. unfold result.
    replace 2049%nat with (size WSTRING t + S (2048 - size WSTRING t))%nat by lia.
    rewrite repeat_app. fold (size WSTRING t). rewrite skipn_app, repeat_length, Nat.sub_diag.
    rewrite (skipn_all2 (repeat 0 (size WSTRING t))) by (rewrite repeat_length; lia). eexists. reflexivity.
Qed.

(** ** Comparison *)
Lemma assigned_reads : forall a s, reads a s -> reads (assigned a) (firstn 80 s).
Proof.
  intros a s [N (rest & ->)]. split.
  - rewrite <- (firstn_skipn 80 s) in N. now apply Forall_app in N.
  - unfold assigned. destruct (Nat.le_gt_cases 80 (length s)) as [L|L].
    + rewrite firstn_app. replace (80 - length s)%nat with 0%nat by lia. rewrite firstn_O, app_nil_r.
      rewrite firstn_length_le by exact L. now exists [].
    + rewrite firstn_app. rewrite firstn_all2 by lia.
      replace (80 - length s)%nat with (S (79 - length s)) by lia. rewrite firstn_cons.
      eexists. rewrite <- app_assoc. reflexivity.
Qed.
Lemma assigned_length : forall a, length (assigned a) = 81%nat.
Proof.
  intros a. unfold assigned. rewrite app_length, repeat_length. pose proof (firstn_le_length 80 a). lia.
Qed.
Lemma comparisons : forall a b s t, reads a s -> reads b t ->
  exists lt eq gt, STRING_LESS a b = Ok lt /\ STRING_EQUAL a b = Ok eq /\ STRING_GREATER a b = Ok gt /\
    (lt = true <-> lex_lt (firstn 80 s) (firstn 80 t)) /\ (eq = true <-> firstn 80 s = firstn 80 t) /\
    (gt = true <-> lex_lt (firstn 80 t) (firstn 80 s)).
Proof.
  intros a b s t A B.
  destruct (two_strings _ _ _ _ (assigned_reads a s A) (assigned_reads b t B))
    as (lt & eq & gt & L & E & G & _ & _ & _ & _ & X & Y & Z).
  now exists lt, eq, gt.
Qed.

(** ** Characters *)
Lemma char_to_string : forall c behind, c <> 0 -> (79 <= length behind)%nat ->
  exists d, CHAR_TO_STRING c behind = Ok d /\ length d = 81%nat /\
    (nth 0 behind 1 = 0 -> reads d [c]) /\ (nth 0 behind 0 <> 0 -> ~ reads d [c]).
Proof.
  intros c behind N L. unfold CHAR_TO_STRING. rewrite (proj2 (Nat.ltb_ge _ _)) by exact L.
  eexists. split; [reflexivity|]. split; [apply assigned_length|].
  destruct behind as [|u behind]; [cbn in L; lia|]. cbn [nth]. split; intros U.
  - subst u. split; [now constructor|]. unfold assigned. cbn [firstn app]. eexists. reflexivity.
  - intros [_ (rest & E)]. unfold assigned in E. cbn [firstn app] in E. injection E as E _. contradiction.
Qed.
Lemma same_comparisons : forall a b s t, reads a s -> reads b t -> (length s <= 80)%nat -> (length t <= 80)%nat ->
  STRING_LESS a b = LT_STR 2 [a; b] /\ STRING_EQUAL a b = EQ_STR 2 [a; b] /\ STRING_GREATER a b = GT_STR 2 [a; b].
Proof.
  intros a b s t A B S T.
  pose proof (assigned_reads a s A) as A'. pose proof (assigned_reads b t B) as B'.
  rewrite firstn_all2 in A' by exact S. rewrite firstn_all2 in B' by exact T.
  destruct (two_strings _ _ _ _ A B) as (l & e & g & L & E & G & _ & _ & _ & _ & X & Y & W).
  destruct (two_strings _ _ _ _ A' B') as (l' & e' & g' & L' & E' & G' & _ & _ & _ & _ & X' & Y' & W').
  unfold STRING_LESS, STRING_EQUAL, STRING_GREATER. rewrite L, E, G, L', E', G'.
  assert (Q : forall x y : bool, (x = true <-> y = true) -> Ok x = Ok y).
  { intros [] [] [P R]; try reflexivity; [now rewrite P|now rewrite R]. }
  split; [|split]; apply Q; tauto.
Qed.
