(** Property C112, continued: further laws of string expressions.  See SpecCall.v for [gives],
    [string_var], [dint_var] and [value_in], SpecText.v for [occurs_at] and [first_at]. *)
From Coq Require Import String Ascii ZArith Lia List Bool SpecFloat.
From Verif Require Import Base ModelText ModelString ModelExtra ModelST ModelWrap ModelLink ModelLib
  ModelApi SpecScalar SpecText SpecLink SpecLib SpecName SpecWrap SpecCall PropertiesCall ProofCall7.
Import ListNotations.
Open Scope string_scope.
Open Scope list_scope.
Open Scope Z_scope.
Local Notation size := SpecWrap.size.

(** The first characters of the first characters. *)
Theorem C112_left_of_left : forall k P r a n m s i j, string_var k r a s -> dint_var r n i -> dint_var r m j ->
  0 <= j <= i -> i <= slen s -> (size k s <= 2048)%nat ->
  gives k (firstn (Z.to_nat j) s) (value_in P r (Call "LEFT" [Call "LEFT" [Arg a; Arg n]; Arg m])).
Proof. exact left_of_left. Qed.
Print Assumptions C112_left_of_left.
(** MID is RIGHT of LEFT. *)
Theorem C112_mid_is_right_of_left : forall k P r a l m n s L N, string_var k r a s -> dint_var r l L -> dint_var r m N -> dint_var r n (N - 1 + L) ->
  0 <= L -> 1 <= N <= slen s -> N - 1 + L <= slen s -> (size k s <= 2048)%nat ->
  let result := firstn (Z.to_nat L) (skipn (Z.to_nat (N - 1)) s) in
  gives k result (value_in P r (Call "MID" [Arg a; Arg l; Arg m])) /\
  gives k result (value_in P r (Call "RIGHT" [Call "LEFT" [Arg a; Arg n]; Arg l])).
Proof. exact mid_is_right_of_left. Qed.
Print Assumptions C112_mid_is_right_of_left.
(** INSERT at the end appends, at 0 it prepends. *)
Theorem C112_insert_at_ends : forall k P r a b z s t, string_var k r a s -> string_var k r b t -> dint_var r z 0 ->
  (size k s + size k t <= 2048)%nat ->
  gives k (s ++ t) (value_in P r (Call "INSERT" [Arg a; Arg b; Call "LEN" [Arg a]])) /\
  gives k (t ++ s) (value_in P r (Call "INSERT" [Arg a; Arg b; Arg z])).
Proof. exact insert_at_ends. Qed.
Print Assumptions C112_insert_at_ends.
(** What was inserted is found, where it was inserted or before. *)
Theorem C112_find_inserted : forall k P r a b n s t i, string_var k r a s -> string_var k r b t -> dint_var r n i ->
  0 <= i <= slen s -> (size k s + size k t <= 2048)%nat -> t <> [] ->
  exists p, value_in P r (Call "FIND" [Call "INSERT" [Arg a; Arg b; Arg n]; Arg b]) = Ok (S_DINT, VZ p) /\ 1 <= p <= i + 1.
Proof. exact find_inserted. Qed.
Print Assumptions C112_find_inserted.
(** What was appended is found; what was prepended is found at 1. *)
Theorem C112_find_appended : forall k P r a b s t, string_var k r a s -> string_var k r b t -> (size k s + size k t <= 2048)%nat -> t <> [] ->
  (exists p, value_in P r (Call "FIND" [Call "CONCAT" [Arg a; Arg b]; Arg b]) = Ok (S_DINT, VZ p) /\ 1 <= p <= slen s + 1) /\
  value_in P r (Call "FIND" [Call "CONCAT" [Arg b; Arg a]; Arg b]) = Ok (S_DINT, VZ 1).
Proof. exact find_appended. Qed.
Print Assumptions C112_find_appended.
(** DELETE at FIND removes the first occurrence. *)
Theorem C112_delete_found : forall k P r a b hs ns x y, string_var k r a hs -> string_var k r b ns -> (size k hs <= 2048)%nat ->
  ns <> [] -> hs = x ++ ns ++ y -> first_at ns hs (length x) ->
  gives k (x ++ y) (value_in P r (Call "DELETE" [Arg a; Call "LEN" [Arg b]; Call "FIND" [Arg a; Arg b]])).
Proof. exact delete_found. Qed.
Print Assumptions C112_delete_found.
(** If the text does not occur, FIND gives 0, and MID and DELETE at that position abort. *)
Theorem C112_not_found_aborts : forall k P r a b hs ns, string_var k r a hs -> string_var k r b ns ->
  (size k hs <= 2048)%nat -> (size k ns <= 2048)%nat -> (forall i, ~ occurs_at ns hs i) ->
  value_in P r (Call "FIND" [Arg a; Arg b]) = Ok (S_DINT, VZ 0) /\
  value_in P r (Call "MID" [Arg a; Call "LEN" [Arg b]; Call "FIND" [Arg a; Arg b]]) = Panic /\
  value_in P r (Call "DELETE" [Arg a; Call "LEN" [Arg b]; Call "FIND" [Arg a; Arg b]]) = Panic.
Proof. exact not_found_aborts. Qed.
Print Assumptions C112_not_found_aborts.

Definition more (k : kind) : env value :=
  vars k ++ [("c", (string_type k, VS (stored k [0x6C; 0xE9]))); ("z", (S_DINT, VZ 0)); ("p", (S_DINT, VZ 5))].
Lemma more_a : forall k, string_var k (more k) "a" hello.
Proof. intros k. exists (stored k hello). split; [reflexivity|apply stored_holds, hello_text]. Qed.
Lemma more_b : forall k, string_var k (more k) "b" lo.
Proof. intros k. exists (stored k lo). split; [reflexivity|apply stored_holds; repeat constructor; unfold is_scalar; lia]. Qed.
Lemma more_c : forall k, string_var k (more k) "c" [0x6C; 0xE9].
Proof. intros k. exists (stored k [0x6C; 0xE9]). split; [reflexivity|apply stored_holds; repeat constructor; unfold is_scalar; lia]. Qed.
Lemma more_n : forall k x n, List.In (x, n) [("i", 2); ("j", 3); ("n", 4); ("z", 0); ("p", 5)] -> dint_var (more k) x n.
Proof.
  intros k x n I. repeat (destruct I as [I|I]; [injection I as <- <-; split; [reflexivity|vm_compute; split; discriminate]|]). destruct I.
Qed.
Example C112_ex3 : forall k,
  gives k [0x68; 0xE9] (value_in here (more k) (Call "LEFT" [Call "LEFT" [Arg "a"; Arg "n"]; Arg "i"])) /\
  gives k [0x6C; 0x6F] (value_in here (more k) (Call "RIGHT" [Call "LEFT" [Arg "a"; Arg "p"]; Arg "i"])) /\
  gives k (hello ++ lo) (value_in here (more k) (Call "INSERT" [Arg "a"; Arg "b"; Call "LEN" [Arg "a"]])) /\
  (exists p, value_in here (more k) (Call "FIND" [Call "INSERT" [Arg "a"; Arg "b"; Arg "i"]; Arg "b"]) = Ok (S_DINT, VZ p) /\ 1 <= p <= 2 + 1) /\
  value_in here (more k) (Call "FIND" [Call "CONCAT" [Arg "b"; Arg "a"]; Arg "b"]) = Ok (S_DINT, VZ 1).
Proof.
  intros k. assert (S : (size k hello + size k lo <= 2048)%nat) by (destruct k; vm_compute; lia).
  assert (S' : (size k hello <= 2048)%nat) by lia.
  split; [|split; [|split; [|split]]].
  - apply (C112_left_of_left k here _ _ _ _ _ 4 2 (more_a k)); try (apply more_n; cbn; tauto); try exact S'; vm_compute; repeat split; discriminate.
  - apply (C112_mid_is_right_of_left k here _ _ _ "n" _ _ 2 4 (more_a k)); try (apply more_n; cbn; tauto); try exact S';
      vm_compute; repeat split; discriminate.
  - apply (C112_insert_at_ends k here _ _ _ "z" _ _ (more_a k) (more_b k)); [apply more_n; cbn; tauto|exact S].
  - apply (C112_find_inserted k here _ _ _ _ _ _ 2 (more_a k) (more_b k)); try exact S; try (apply more_n; cbn; tauto); try discriminate.
    vm_compute; split; discriminate.
  - apply (C112_find_appended k here _ _ _ _ _ (more_a k) (more_b k)); [exact S|discriminate].
Qed.
Example C112_ex4 : forall k,
  gives k [0x68; 0xE9; 0x6C; 0x1F600] (value_in here (more k) (Call "DELETE" [Arg "a"; Call "LEN" [Arg "b"]; Call "FIND" [Arg "a"; Arg "b"]])) /\
  value_in here (more k) (Call "DELETE" [Arg "a"; Call "LEN" [Arg "c"]; Call "FIND" [Arg "a"; Arg "c"]]) = Panic.
Proof.
  intros k. assert (S' : (size k hello <= 2048)%nat) by (destruct k; vm_compute; lia). split.
  - apply (C112_delete_found k here _ _ _ _ _ [0x68; 0xE9; 0x6C] [0x1F600] (more_a k) (more_b k)); [exact S'|discriminate|reflexivity|].
    split; [exists [0x68; 0xE9; 0x6C], [0x1F600]; now split|].
    intros m (x & y & E & <-). destruct x as [|? [|? [|? x]]]; try discriminate; cbn [length]; lia.
  - apply (C112_not_found_aborts k here _ _ _ _ _ (more_a k) (more_c k)); [exact S'|destruct k; vm_compute; lia|].
    intros i (x & y & E & _). destruct x as [|? [|? [|? [|? [|? [|? [|? x]]]]]]]; discriminate.
Qed.
