(** Property C112, continued: comparing string expressions.  See SpecCall.v for [tells],
    [string_var] and [value_in]. *)
From Coq Require Import String Ascii ZArith Lia List Bool SpecFloat.
From Verif Require Import Base ModelText ModelString ModelExtra ModelST ModelWrap ModelLink ModelLib
  ModelApi SpecScalar SpecText SpecLink SpecLib SpecName SpecWrap SpecCall PropertiesCall PropertiesCall2 ProofCall8.
Import ListNotations.
Open Scope string_scope.
Open Scope list_scope.
Open Scope Z_scope.
Local Notation size := SpecWrap.size.

(** Whether a text begins with another. *)
Theorem C112_starts_with : forall k P r a b s t, string_var k r a s -> string_var k r b t -> (size k s <= 2048)%nat -> (size k t <= 2048)%nat ->
  slen t <= slen s ->
  tells (exists y, s = t ++ y) (value_in P r (Call "EQ" [Call "LEFT" [Arg a; Call "LEN" [Arg b]]; Arg b])).
Proof. exact starts_with. Qed.
Print Assumptions C112_starts_with.
(** Whether a text ends with another. *)
Theorem C112_ends_with : forall k P r a b s t, string_var k r a s -> string_var k r b t -> (size k s <= 2048)%nat -> (size k t <= 2048)%nat ->
  slen t <= slen s ->
  tells (exists x, s = x ++ t) (value_in P r (Call "EQ" [Call "RIGHT" [Arg a; Call "LEN" [Arg b]]; Arg b])).
Proof. exact ends_with. Qed.
Print Assumptions C112_ends_with.
(** The two tests above abort if the text is the shorter one. *)
Theorem C112_shorter_aborts : forall k P r a b s t, string_var k r a s -> string_var k r b t -> (size k s <= 2048)%nat -> (size k t <= 2048)%nat ->
  slen s < slen t ->
  value_in P r (Call "LEFT" [Arg a; Call "LEN" [Arg b]]) = Panic /\ value_in P r (Call "RIGHT" [Arg a; Call "LEN" [Arg b]]) = Panic.
Proof. exact shorter_aborts. Qed.
Print Assumptions C112_shorter_aborts.
(** LT and GT: a text is smaller than what is made of it by appending. *)
Theorem C112_appended_is_greater : forall k P r a b s t, string_var k r a s -> string_var k r b t -> (size k s + size k t <= 2048)%nat ->
  tells (t <> []) (value_in P r (Call "LT" [Arg a; Call "CONCAT" [Arg a; Arg b]])) /\
  tells (t <> []) (value_in P r (Call "GT" [Call "CONCAT" [Arg a; Arg b]; Arg a])).
Proof. exact appended_is_greater. Qed.
Print Assumptions C112_appended_is_greater.
(** The function behind the operator < says so only for texts of fewer than 80 units. *)
Theorem C112_appended_operator : forall k P r a b s t, string_var k r a s -> string_var k r b t -> (size k s + size k t <= 2048)%nat ->
  tells (t <> [] /\ (size k s < 80)%nat)
    (value_in P r (Call (ty_name (string_type k) ++ "_LESS") [Arg a; Call "CONCAT" [Arg a; Arg b]])).
Proof. exact appended_operator. Qed.
Print Assumptions C112_appended_operator.

(** "héllo" and an emoji does not begin with "lo"; with "lo" appended it ends with it. *)
Example C112_ex5 : forall k,
  value_in here (more k) (Call "EQ" [Call "LEFT" [Arg "a"; Call "LEN" [Arg "b"]]; Arg "b"]) = Ok (S_BOOL, VZ 0) /\
  value_in here (("d", (string_type k, VS (stored k (hello ++ lo)))) :: more k)
    (Call "EQ" [Call "RIGHT" [Arg "d"; Call "LEN" [Arg "b"]]; Arg "b"]) = Ok (S_BOOL, VZ 1) /\
  value_in here (more k) (Call "LEFT" [Arg "b"; Call "LEN" [Arg "a"]]) = Panic /\
  value_in here (more k) (Call "LT" [Arg "a"; Call "CONCAT" [Arg "a"; Arg "b"]]) = Ok (S_BOOL, VZ 1).
Proof.
  intros k. assert (S : (size k hello + size k lo <= 2048)%nat) by (destruct k; vm_compute; lia).
  assert (S' : (size k hello <= 2048)%nat) by lia. assert (S'' : (size k lo <= 2048)%nat) by lia.
  split; [|split; [|split]].
  - destruct (C112_starts_with k here _ _ _ _ _ (more_a k) (more_b k) S' S'') as [[(y & H) _]|[_ H]];
      [vm_compute; discriminate|discriminate|exact H].
  - assert (D : string_var k (("d", (string_type k, VS (stored k (hello ++ lo)))) :: more k) "d" (hello ++ lo)).
    { exists (stored k (hello ++ lo)). split; [reflexivity|apply stored_holds; repeat constructor; unfold is_scalar; lia]. }
    assert (B : string_var k (("d", (string_type k, VS (stored k (hello ++ lo)))) :: more k) "b" lo).
    { destruct (more_b k) as (x & G & H). exists x. split; [exact G|exact H]. }
    destruct (C112_ends_with k here _ _ _ _ _ D B) as [[_ H]|[H _]]; [destruct k; vm_compute; lia|exact S''|vm_compute; discriminate|exact H|].
    destruct H. now exists hello.
  - apply (C112_shorter_aborts k here _ _ _ _ _ (more_b k) (more_a k) S'' S'). reflexivity.
  - destruct (C112_appended_is_greater k here _ _ _ _ _ (more_a k) (more_b k) S) as [[[_ H]|[H _]] _]; [exact H|].
    destruct H. discriminate.
Qed.
(** After eighty letters the operator no longer sees what was appended. *)
Example C112_ex6 : forall k,
  let r := [("a", (string_type k, VS (stored k (repeat 0x61 80)))); ("b", (string_type k, VS (stored k lo)))] in
  value_in here r (Call (ty_name (string_type k) ++ "_LESS") [Arg "a"; Call "CONCAT" [Arg "a"; Arg "b"]]) = Ok (S_BOOL, VZ 0) /\
  value_in here r (Call "LT" [Arg "a"; Call "CONCAT" [Arg "a"; Arg "b"]]) = Ok (S_BOOL, VZ 1).
Proof.
  intros k r.
  assert (A : string_var k r "a" (repeat 0x61 80)).
  { exists (stored k (repeat 0x61 80)). split; [reflexivity|apply stored_holds; repeat constructor; unfold is_scalar; lia]. }
  assert (B : string_var k r "b" lo).
  { exists (stored k lo). split; [reflexivity|apply stored_holds; repeat constructor; unfold is_scalar; lia]. }
  assert (S : (size k (repeat 0x61%Z 80) + size k lo <= 2048)%nat) by (destruct k; vm_compute; lia). split.
  - destruct (C112_appended_operator k here r _ _ _ _ A B S) as [[[_ H] _]|[_ H]]; [|exact H].
    exfalso. destruct k; vm_compute in H; lia.
  - destruct (C112_appended_is_greater k here r _ _ _ _ A B S) as [[[_ H]|[H _]] _]; [exact H|]. destruct H. discriminate.
Qed.
