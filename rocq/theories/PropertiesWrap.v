(** Properties C85 to C87: the string functions written in Structured Text. *)
From Coq Require Import ZArith List Lia.
From Verif Require Import Base ModelString SpecText ProofString ModelWrap SpecWrap ProofWrap.
Import ListNotations.
Open Scope Z_scope.

(** Text of [n] letters x. *)
Definition xs (n : nat) : list Z := repeat 0x78 n.
Definition stored (k : kind) (t : list Z) : list Z := units k t ++ [0].
Lemma xs_text : forall n, text (xs n).
Proof. induction n as [|n IH]; [constructor|]. constructor; [unfold is_scalar; lia|exact IH]. Qed.
Lemma stored_holds : forall k t, text t -> holds k (stored k t) t.
Proof. intros k t T. split; [exact T|]. now exists []. Qed.

(** * C85: string functions stay within their result of 2048 characters

    Proved for arguments of at most 2048 units, the size of the declared parameters: LEFT, RIGHT,
    MID, DELETE and STRING_TO_WSTRING. *)
Theorem C85_left : forall k src t L, holds k src t -> (size k t <= 2048)%nat ->
  (0 <= L <= slen t -> returns k (firstn (Z.to_nat L) t) (LEFT k src L)) /\
  (~ 0 <= L <= slen t -> LEFT k src L = Panic).
Proof. exact left_returns. Qed.
Print Assumptions C85_left.
Theorem C85_right : forall k src t L, holds k src t -> (size k t <= 2048)%nat ->
  (0 <= L <= slen t -> returns k (skipn (length t - Z.to_nat L) t) (RIGHT k src L)) /\
  (~ 0 <= L <= slen t -> RIGHT k src L = Panic).
Proof. exact right_returns. Qed.
Print Assumptions C85_right.
Theorem C85_mid : forall p k src t L P, holds k src t -> (size k t <= 2048)%nat -> in_ity i32 L -> in_ity i32 P ->
  (0 <= L -> 1 <= P <= slen t -> P - 1 + L <= slen t ->
     returns k (firstn (Z.to_nat L) (skipn (Z.to_nat (P - 1)) t)) (MID p k src L P)) /\
  (~ (0 <= L /\ 1 <= P <= slen t /\ P - 1 + L <= slen t) -> MID p k src L P = Panic).
Proof. exact mid_returns. Qed.
Print Assumptions C85_mid.
Theorem C85_delete : forall p k src t L P, holds k src t -> (size k t <= 2048)%nat -> in_ity i32 L -> in_ity i32 P ->
  0 <= L ->
  (1 <= P <= slen t -> P - 1 + L <= slen t ->
     returns k (firstn (Z.to_nat (P - 1)) t ++ skipn (Z.to_nat (P - 1 + L)) t) (DELETE p k src L P)) /\
  (~ (1 <= P <= slen t /\ P - 1 + L <= slen t) -> DELETE p k src L P = Panic).
Proof. exact delete_returns. Qed.
Print Assumptions C85_delete.
Theorem C85_string_to_wstring : forall src t, holds STRING src t -> (size STRING t <= 2048)%nat ->
  returns WSTRING t (STRING_TO_WSTRING src).
Proof. exact to_wstring_returns. Qed.
Print Assumptions C85_string_to_wstring.
(** INSERT, REPLACE, CONCAT and WSTRING_TO_STRING do not check the size of the result. *)
Theorem C85_within_result_refuted :
  (exists k a b s t P, holds k a s /\ holds k b t /\ (size k s <= 2048)%nat /\ (size k t <= 2048)%nat /\
     0 <= P <= slen s /\ INSERT k a b P = Ub /\ CONCAT_ALL k [a; b] = Ub) /\
  (exists p k a b s t L P, holds k a s /\ holds k b t /\ (size k s <= 2048)%nat /\ (size k t <= 2048)%nat /\
     0 <= L /\ 1 <= P <= slen s /\ P - 1 + L <= slen s /\ REPLACE p k a b L P = Ub) /\
  (exists a s, holds WSTRING a s /\ (size WSTRING s <= 2048)%nat /\ WSTRING_TO_STRING a = Ub).
Proof.
  assert (S : forall k n, size k (xs n) = n).
  { intros k n. unfold size, units. induction n as [|n IH]; [reflexivity|]. change (xs (S n)) with (0x78 :: xs n).
    cbn [flat_map]. rewrite app_length, IH. destruct k; reflexivity. }
  assert (N : forall n, slen (xs n) = Z.of_nat n) by (intros; unfold slen, xs; now rewrite repeat_length).
  split; [|split].
  - exists STRING, (stored STRING (xs 1500)), (stored STRING (xs 1500)), (xs 1500), (xs 1500), 0.
    pose proof (stored_holds STRING _ (xs_text 1500)) as H.
    split; [exact H|]. split; [exact H|]. split; [rewrite S; lia|]. split; [rewrite S; lia|].
    split; [rewrite N; lia|]. split.
    + apply (insert_returns STRING _ _ (xs 1500) (xs 1500)); [exact H|exact H|rewrite N; lia|rewrite N; lia|rewrite S; lia].
    + apply (concat_returns STRING _ [xs 1500; xs 1500]); [constructor; [exact H|constructor; [exact H|constructor]]|discriminate|].
      cbn [concat]. rewrite app_nil_r, size_app, S. lia.
  - exists Release, STRING, (stored STRING (xs 1500)), (stored STRING (xs 1500)), (xs 1500), (xs 1500), 3, 7.
    pose proof (stored_holds STRING _ (xs_text 1500)) as H.
    split; [exact H|]. split; [exact H|]. split; [rewrite S; lia|]. split; [rewrite S; lia|].
    split; [lia|]. split; [rewrite N; lia|]. split; [rewrite N; lia|].
    apply (replace_returns Release STRING _ _ (xs 1500) (xs 1500)); try assumption; try (rewrite N; lia); try lia;
      try (vm_compute; split; discriminate).
    rewrite !size_app, S. pose proof (size_split STRING 1497 (xs 1500)).
    change (Z.to_nat (7 - 1)) with 6%nat. change (Z.to_nat (7 - 1 + 3)) with 9%nat.
    change (skipn 9 (xs 1500)) with (xs 1491). rewrite S. lia.
  - exists (stored WSTRING (repeat 0x20AC 1000)), (repeat 0x20AC 1000).
    assert (T : text (repeat 0x20AC 1000)).
    { apply Forall_forall. intros x I. apply repeat_spec in I. subst. unfold is_scalar. lia. }
    pose proof (stored_holds WSTRING _ T) as H. split; [exact H|]. split; [vm_compute; lia|].
    apply (to_string_returns _ _ H). vm_compute. lia.
Qed.
Print Assumptions C85_within_result_refuted.
(** With a negative length (release builds, see C44) DELETE overruns too. *)
Theorem C85_delete_negative_refuted : exists k src t L P, holds k src t /\ (size k t <= 2048)%nat /\
  in_ity i32 L /\ in_ity i32 P /\ DELETE Release k src L P = Ub.
Proof.
  exists STRING, (stored STRING (xs 2000)), (xs 2000), (-1000), 1500.
  split; [apply stored_holds, xs_text|]. split; [vm_compute; lia|].
  split; [vm_compute; split; discriminate|]. split; [vm_compute; split; discriminate|]. vm_compute. reflexivity.
Qed.
Print Assumptions C85_delete_negative_refuted.
(** Exactly when they stay within the result. *)
Theorem C85_insert_partial : forall k base ins s t P, holds k base s -> holds k ins t -> slen s < 2 ^ 31 ->
  0 <= P <= slen s ->
  ((size k s + size k t <= 2048)%nat ->
     returns k (firstn (Z.to_nat P) s ++ t ++ skipn (Z.to_nat P) s) (INSERT k base ins P)) /\
  ((2048 < size k s + size k t)%nat -> INSERT k base ins P = Ub).
Proof. exact insert_returns. Qed.
Print Assumptions C85_insert_partial.
Theorem C85_replace_partial : forall p k base rep s t L P, holds k base s -> holds k rep t -> in_ity i32 L -> in_ity i32 P ->
  slen s < 2 ^ 31 -> 0 <= L -> 1 <= P <= slen s -> P - 1 + L <= slen s ->
  let r := firstn (Z.to_nat (P - 1)) s ++ t ++ skipn (Z.to_nat (P - 1 + L)) s in
  ((size k r <= 2048)%nat -> returns k r (REPLACE p k base rep L P)) /\
  ((2048 < size k r)%nat -> REPLACE p k base rep L P = Ub).
Proof. exact replace_returns. Qed.
Print Assumptions C85_replace_partial.
Theorem C85_concat_partial : forall k argv ts, Forall2 (holds k) argv ts -> ts <> [] ->
  ((size k (concat ts) <= 2048)%nat -> returns k (concat ts) (CONCAT_ALL k argv)) /\
  ((2048 < size k (concat ts))%nat -> CONCAT_ALL k argv = Ub).
Proof. exact concat_returns. Qed.
Print Assumptions C85_concat_partial.
Theorem C85_wstring_to_string_partial : forall src t, holds WSTRING src t ->
  ((size STRING t <= 2048)%nat -> returns STRING t (WSTRING_TO_STRING src)) /\
  ((2048 < size STRING t)%nat -> WSTRING_TO_STRING src = Ub) /\
  (size STRING t <= 3 * size WSTRING t)%nat.
Proof.
  intros src t H. destruct (to_string_returns src t H). split; [assumption|]. split; [assumption|]. apply size_narrow.
Qed.
Print Assumptions C85_wstring_to_string_partial.

Example C85_ex1 : returns STRING [0x68; 0xE9] (LEFT STRING [0x68; 0xC3; 0xA9; 0x21; 0] 2).
Proof.
  apply (C85_left STRING _ [0x68; 0xE9; 0x21]); [|vm_compute; lia|vm_compute; split; discriminate].
  split; [repeat constructor; unfold is_scalar; lia|now exists []].
Qed.
Example C85_ex2 : returns WSTRING (xs 2048) (CONCAT_ALL WSTRING [stored WSTRING (xs 1000); stored WSTRING (xs 1048)]).
Proof.
  apply (C85_concat_partial WSTRING _ [xs 1000; xs 1048]); [|discriminate|vm_compute; lia].
  constructor; [apply stored_holds, xs_text|]. constructor; [apply stored_holds, xs_text|constructor].
Qed.
Example C85_ex3 : returns STRING [0x20AC; 0x21] (WSTRING_TO_STRING [0x20AC; 0x21; 0]).
Proof.
  apply C85_wstring_to_string_partial; [|vm_compute; lia].
  split; [repeat constructor; unfold is_scalar; lia|now exists []].
Qed.

(** * C86: STRING_EQUAL, STRING_LESS and STRING_GREATER compare the whole strings *)

(** They see 80 units only. *)
Theorem C86_whole_strings_refuted : exists a b s t, reads a s /\ reads b t /\ lex_lt s t /\
  STRING_EQUAL a b = Ok true /\ STRING_LESS a b = Ok false.
Proof.
  exists (xs 80 ++ [0x61; 0]), (xs 80 ++ [0x62; 0]), (xs 80 ++ [0x61]), (xs 80 ++ [0x62]).
  assert (R : forall c, c <> 0 -> reads (xs 80 ++ [c; 0]) (xs 80 ++ [c])).
  { intros c C. split; [|exists []; now rewrite <- app_assoc]. apply Forall_app. split; [|now repeat constructor].
    apply Forall_forall. intros x I. apply repeat_spec in I. lia. }
  split; [apply R; lia|]. split; [apply R; lia|].
  split; [right; exists (xs 80), 0x61, 0x62, [], []; split; [reflexivity|]; split; [reflexivity|lia]|].
  split; vm_compute; reflexivity.
Qed.
Print Assumptions C86_whole_strings_refuted.
(** Exactly: they compare the first 80 units; the whole strings when these are not longer. *)
Theorem C86_first_80_units_partial : forall a b s t, reads a s -> reads b t ->
  exists lt eq gt, STRING_LESS a b = Ok lt /\ STRING_EQUAL a b = Ok eq /\ STRING_GREATER a b = Ok gt /\
    (lt = true <-> lex_lt (firstn 80 s) (firstn 80 t)) /\ (eq = true <-> firstn 80 s = firstn 80 t) /\
    (gt = true <-> lex_lt (firstn 80 t) (firstn 80 s)).
Proof. exact comparisons. Qed.
Print Assumptions C86_first_80_units_partial.
Theorem C86_up_to_80_units_partial : forall a b s t, reads a s -> reads b t ->
  (length s <= 80)%nat -> (length t <= 80)%nat ->
  STRING_LESS a b = LT_STR 2 [a; b] /\ STRING_EQUAL a b = EQ_STR 2 [a; b] /\ STRING_GREATER a b = GT_STR 2 [a; b].
Proof. exact same_comparisons. Qed.
Print Assumptions C86_up_to_80_units_partial.
Example C86_ex : STRING_LESS [0x61; 0; 9] [0x62; 0] = Ok true /\ reads [0x61; 0; 9] [0x61].
Proof. split; [vm_compute; reflexivity|]. split; [now repeat constructor|now exists [9]]. Qed.

(** * C87: CHAR and STRING *)

Theorem C87_string_to_char : forall src u s, reads src (u :: s) -> STRING_TO_CHAR src = Ok u.
Proof. intros src u s [_ (r & ->)]. reflexivity. Qed.
Print Assumptions C87_string_to_char.
(** CHAR_TO_STRING gives the character and whatever lies behind it in memory. *)
Theorem C87_char_to_string_refuted : exists c behind d, c <> 0 /\ CHAR_TO_STRING c behind = Ok d /\
  reads d [c; 0x62] /\ ~ reads d [c].
Proof.
  exists 0x61, (0x62 :: repeat 0 100). eexists. split; [lia|]. split; [reflexivity|]. split.
  - split; [repeat constructor; lia|]. eexists. reflexivity.
  - intros [_ (r & E)]. discriminate E.
Qed.
Print Assumptions C87_char_to_string_refuted.
(** It is right exactly when the unit behind the character is zero. *)
Theorem C87_char_to_string_partial : forall c behind, c <> 0 -> (79 <= length behind)%nat ->
  exists d, CHAR_TO_STRING c behind = Ok d /\ length d = 81%nat /\
    (nth 0 behind 1 = 0 -> reads d [c]) /\ (nth 0 behind 0 <> 0 -> ~ reads d [c]).
Proof. exact char_to_string. Qed.
Print Assumptions C87_char_to_string_partial.
Example C87_ex : exists d, CHAR_TO_STRING 0x61 (repeat 0 79) = Ok d /\ reads d [0x61].
Proof.
  destruct (C87_char_to_string_partial 0x61 (repeat 0 79)) as (d & E & _ & A & _); [lia|now rewrite repeat_length|].
  exists d. split; [exact E|]. now apply A.
Qed.
