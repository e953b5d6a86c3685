(** Proofs of laws that compare string expressions (C112). *)
From Coq Require Import String Ascii ZArith Lia List Bool SpecFloat.
From Verif Require Import Base ModelFloat ModelTimeNum ModelText ModelString ModelExtra ModelST ModelWrap ModelLink ModelLib
  ModelApi SpecScalar SpecText SpecLink SpecLib SpecName SpecWrap SpecCall ProofBase ProofText ProofString ProofString2 ProofString3 ProofWrap ProofCall ProofCall4.
Import ListNotations.
Open Scope string_scope.
Open Scope list_scope.
Open Scope Z_scope.
Local Notation size := SpecWrap.size.
Local Opaque ModelApi.call value_in api.

Lemma eq_e : forall k P r e f s t, is_text k P r e s -> is_text k P r f t ->
  tells (s = t) (value_in P r (Call "EQ" [e; f])).
Proof. intros k P r e f s t (d & E & H) (d' & E' & H'). erewrite value_call by args2. now apply (eq_texts P k d d' s t H H'). Qed.
Lemma tells_iff : forall (p q : Prop) o, (p <-> q) -> tells p o -> tells q o.
Proof. intros p q o I [[H E]|[H E]]; [left|right]; (split; [tauto|exact E]). Qed.

Lemma starts_with : forall k P r a b s t, string_var k r a s -> string_var k r b t -> (size k s <= 2048)%nat -> (size k t <= 2048)%nat ->
  slen t <= slen s ->
  tells (exists y, s = t ++ y) (value_in P r (Call "EQ" [Call "LEFT" [Arg a; Call "LEN" [Arg b]]; Arg b])).
Proof.
  intros k P r a b s t A B S S' L. apply (text_var k P) in A, B. pose proof (len_e k P r _ t B S') as N. pose proof (slen_pos t).
  refine (tells_iff _ _ _ _ (eq_e k P r _ _ _ _ (left_e k P r _ _ s _ A N S ltac:(lia)) B)). split.
  - intros E. exists (skipn (Z.to_nat (slen t)) s). rewrite <- E at 1. now rewrite firstn_skipn.
  - intros (y & ->). apply firstn_slen.
Qed.
Lemma ends_with : forall k P r a b s t, string_var k r a s -> string_var k r b t -> (size k s <= 2048)%nat -> (size k t <= 2048)%nat ->
  slen t <= slen s ->
  tells (exists x, s = x ++ t) (value_in P r (Call "EQ" [Call "RIGHT" [Arg a; Call "LEN" [Arg b]]; Arg b])).
Proof.
  intros k P r a b s t A B S S' L. apply (text_var k P) in A, B. pose proof (len_e k P r _ t B S') as N. pose proof (slen_pos t).
  refine (tells_iff _ _ _ _ (eq_e k P r _ _ _ _ (right_e k P r _ _ s _ A N S ltac:(lia)) B)). split.
  - intros E. exists (firstn (length s - Z.to_nat (slen t)) s). rewrite <- E at 2. now rewrite firstn_skipn.
  - intros (x & ->). transitivity (skipn (Z.to_nat (slen x)) (x ++ t)); [|apply skipn_slen].
    f_equal. unfold slen. rewrite app_length. lia.
Qed.
Lemma shorter_aborts : forall k P r a b s t, string_var k r a s -> string_var k r b t -> (size k s <= 2048)%nat -> (size k t <= 2048)%nat ->
  slen s < slen t ->
  value_in P r (Call "LEFT" [Arg a; Call "LEN" [Arg b]]) = Panic /\ value_in P r (Call "RIGHT" [Arg a; Call "LEN" [Arg b]]) = Panic.
Proof.
  intros k P r a b s t A B S S' L. apply (text_var k P) in A, B. pose proof (len_e k P r _ t B S') as N.
  destruct A as (d & E & H). split; erewrite value_call by args2.
  - apply (left_gives P k d s (slen t) H S). lia.
  - apply (right_gives P k d s (slen t) H S). lia.
Qed.

(** ** Order *)
Lemma lex_lt_prefix : forall (u v : list Z), lex_lt u (u ++ v) <-> v <> [].
Proof.
  intros u v. split.
  - intros [(c & w & E)|(p & x & y & w & z & E & E' & L)] ->; rewrite app_nil_r in *.
    + apply (f_equal (@length Z)) in E. rewrite app_length in E. cbn in E. lia.
    + rewrite E in E'. apply app_inv_head in E'. injection E' as -> _. lia.
  - intros N. left. destruct v as [|c w]; [contradiction|]. now exists c, w.
Qed.
Lemma lex_lt_pair : forall (u v : list Z) (R : list Z -> list Z -> Prop), all_pairs R [u; v] <-> R u v.
Proof.
  intros u v R. split; [intros H; exact (H [] u [] v [] eq_refl)|].
  intros H l1 x l2 y l3 L. destruct l1 as [|? [|? [|]]]; try discriminate.
  - destruct l2 as [|? [|]]; [now injection L as <- <- _|injection L; intros; discriminate|injection L; intros; discriminate].
  - injection L as _ _ L. destruct l2; discriminate.
Qed.
Lemma units_empty : forall k t, text t -> (units k t <> [] <-> t <> []).
Proof.
  intros k t T. split; intros N E; apply N; [subst; apply units_nil'|].
  apply (units_nil k); [now apply text_scalar|exact E].
Qed.
Lemma appended_is_greater : forall k P r a b s t, string_var k r a s -> string_var k r b t -> (size k s + size k t <= 2048)%nat ->
  tells (t <> []) (value_in P r (Call "LT" [Arg a; Call "CONCAT" [Arg a; Arg b]])) /\
  tells (t <> []) (value_in P r (Call "GT" [Call "CONCAT" [Arg a; Arg b]; Arg a])).
Proof.
  intros k P r a b s t A B S. assert (T : text t) by (destruct B as (d & _ & [T _]); exact T).
  apply (text_var k P) in A, B. pose proof (concat2_e k P r _ _ s t A B S) as C.
  destruct A as (d & E & H), C as (c & E' & H'). apply holds_reads in H, H'.
  assert (I : lex_lt (units k s) (units k (s ++ t)) <-> t <> []).
  { rewrite units_app, lex_lt_prefix. now apply units_empty. }
  split; erewrite value_call by args2.
  - destruct (compare_call P k [d; c] [units k s; units k (s ++ t)]) as (_ & _ & _ & _ & X);
      [constructor; [exact H|constructor; [exact H'|constructor]]|cbn; lia|].
    cbn [map] in X. refine (tells_iff _ _ _ _ X). now rewrite lex_lt_pair.
  - destruct (compare_call P k [c; d] [units k (s ++ t); units k s]) as (X & _);
      [constructor; [exact H'|constructor; [exact H|constructor]]|cbn; lia|].
    cbn [map] in X. refine (tells_iff _ _ _ _ X). now rewrite lex_lt_pair.
Qed.
(** The function behind the operator sees 80 units. *)
Lemma appended_operator : forall k P r a b s t, string_var k r a s -> string_var k r b t -> (size k s + size k t <= 2048)%nat ->
  tells (t <> [] /\ (size k s < 80)%nat)
    (value_in P r (Call (ty_name (string_type k) ++ "_LESS") [Arg a; Call "CONCAT" [Arg a; Arg b]])).
Proof.
  intros k P r a b s t A B S. assert (T : text t) by (destruct B as (d & _ & [T _]); exact T).
  apply (text_var k P) in A, B. pose proof (concat2_e k P r _ _ s t A B S) as C.
  destruct A as (d & E & H), C as (c & E' & H'). apply holds_reads in H, H'.
  erewrite value_call by args2.
  destruct (operators_call P k d c _ _ H H') as (X & _). refine (tells_iff _ _ _ _ X).
  rewrite units_app, firstn_app. fold (size k s). pose proof (units_empty k t T) as U.
  destruct (Nat.lt_ge_cases (size k s) 80) as [L|L].
  - rewrite (firstn_all2 (units k s)) by (fold (size k s); lia). rewrite lex_lt_prefix.
    assert (V : firstn (80 - size k s) (units k t) <> [] <-> units k t <> []).
    { destruct (units k t) as [|u v]; [now rewrite firstn_nil|]. destruct (80 - size k s)%nat eqn:Q; [lia|]. split; discriminate. }
    tauto.
  - replace (80 - size k s)%nat with 0%nat by lia. cbn [firstn]. rewrite lex_lt_prefix. split; [tauto|lia].
Qed.
