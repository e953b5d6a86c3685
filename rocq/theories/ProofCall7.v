(** Proofs of further laws of string expressions (C112). *)
From Coq Require Import String Ascii ZArith Lia List Bool SpecFloat.
From Verif Require Import Base ModelFloat ModelTimeNum ModelText ModelString ModelExtra ModelST ModelWrap ModelLink ModelLib
  ModelApi SpecScalar SpecText SpecLink SpecLib SpecName SpecWrap SpecCall ProofBase ProofText ProofString ProofString2 ProofString3 ProofWrap ProofCall ProofCall4.
Import ListNotations.
Open Scope string_scope.
Open Scope list_scope.
Open Scope Z_scope.
Local Notation size := SpecWrap.size.
Local Opaque ModelApi.call value_in api.

Lemma left_of_left : forall k P r a n m s i j, string_var k r a s -> dint_var r n i -> dint_var r m j ->
  0 <= j <= i -> i <= slen s -> (size k s <= 2048)%nat ->
  gives k (firstn (Z.to_nat j) s) (value_in P r (Call "LEFT" [Call "LEFT" [Arg a; Arg n]; Arg m])).
Proof.
  intros k P r a n m s i j A N M J I S. apply (text_var k P) in A. apply (number_var P) in N as [N _], M as [M _].
  pose proof (left_e k P r _ _ s i A N S ltac:(lia)) as X.
  replace (firstn (Z.to_nat j) s) with (firstn (Z.to_nat j) (firstn (Z.to_nat i) s)) by (rewrite firstn_firstn; f_equal; lia).
  pose proof (size_split k (Z.to_nat i) s).
  apply left_e; [exact X|exact M|lia|]. unfold slen in *. rewrite firstn_length. lia.
Qed.
Lemma mid_is_right_of_left : forall k P r a l m n s L N, string_var k r a s -> dint_var r l L -> dint_var r m N -> dint_var r n (N - 1 + L) ->
  0 <= L -> 1 <= N <= slen s -> N - 1 + L <= slen s -> (size k s <= 2048)%nat ->
  let result := firstn (Z.to_nat L) (skipn (Z.to_nat (N - 1)) s) in
  gives k result (value_in P r (Call "MID" [Arg a; Arg l; Arg m])) /\
  gives k result (value_in P r (Call "RIGHT" [Call "LEFT" [Arg a; Arg n]; Arg l])).
Proof.
  intros k P r a l m n s L N A EL EM EN L0 N0 R S result. apply (text_var k P) in A.
  apply (number_var P) in EL as [EL _], EM as [EM _], EN as [EN _]. split; [now apply mid_e|].
  pose proof (left_e k P r _ _ s (N - 1 + L) A EN S ltac:(lia)) as X.
  pose proof (size_split k (Z.to_nat (N - 1 + L)) s).
  pose proof (right_e k P r _ _ _ L X EL ltac:(lia)) as Y.
  assert (Q : length (firstn (Z.to_nat (N - 1 + L)) s) = Z.to_nat (N - 1 + L)) by (rewrite firstn_length; unfold slen in *; lia).
  replace result with (skipn (length (firstn (Z.to_nat (N - 1 + L)) s) - Z.to_nat L) (firstn (Z.to_nat (N - 1 + L)) s)).
  - apply Y. unfold slen. rewrite Q. lia.
  - unfold result. rewrite Q, firstn_skipn_comm. f_equal; [lia|f_equal; lia].
Qed.
Lemma insert_at_ends : forall k P r a b z s t, string_var k r a s -> string_var k r b t -> dint_var r z 0 ->
  (size k s + size k t <= 2048)%nat ->
  gives k (s ++ t) (value_in P r (Call "INSERT" [Arg a; Arg b; Call "LEN" [Arg a]])) /\
  gives k (t ++ s) (value_in P r (Call "INSERT" [Arg a; Arg b; Arg z])).
Proof.
  intros k P r a b z s t A B Z0 S. apply (text_var k P) in A, B. apply (number_var P) in Z0 as [Z0 _].
  pose proof (slen_pos s). pose proof (len_e k P r _ s A ltac:(lia)) as L. split.
  - pose proof (insert_e k P r _ _ _ s t _ A B L S ltac:(lia)) as X.
    unfold slen in X. rewrite Nat2Z.id, firstn_all, skipn_all, app_nil_r in X. exact X.
  - exact (insert_e k P r _ _ _ s t 0 A B Z0 S ltac:(lia)).
Qed.
Lemma find_in : forall k P r e b u v t, is_text k P r e (u ++ t ++ v) -> is_text k P r b t -> (size k (u ++ t ++ v) <= 2048)%nat -> t <> [] ->
  exists i, value_in P r (Call "FIND" [e; b]) = Ok (S_DINT, VZ i) /\ 1 <= i <= slen u + 1.
Proof.
  intros k P r e b u v t E B S N.
  assert (O : occurs_at t (u ++ t ++ v) (length u)) by (exists u, v; now split).
  destruct (first_exists _ _ _ O) as (i & F). exists (Z.of_nat i + 1). split; [exact (find_e k P r _ _ _ _ i E B S N F)|].
  destruct F as [_ F]. specialize (F _ O). unfold slen. lia.
Qed.
Lemma find_inserted : forall k P r a b n s t i, string_var k r a s -> string_var k r b t -> dint_var r n i ->
  0 <= i <= slen s -> (size k s + size k t <= 2048)%nat -> t <> [] ->
  exists p, value_in P r (Call "FIND" [Call "INSERT" [Arg a; Arg b; Arg n]; Arg b]) = Ok (S_DINT, VZ p) /\ 1 <= p <= i + 1.
Proof.
  intros k P r a b n s t i A B N I S NE. apply (text_var k P) in A, B. apply (number_var P) in N as [N _].
  pose proof (insert_e k P r _ _ _ s t i A B N S I) as X. pose proof (size_split k (Z.to_nat i) s).
  destruct (find_in k P r _ _ _ _ t X B ltac:(rewrite !size_app; lia) NE) as (p & E & R). exists p. split; [exact E|].
  unfold slen in R, I. rewrite firstn_length in R. lia.
Qed.
Lemma find_appended : forall k P r a b s t, string_var k r a s -> string_var k r b t -> (size k s + size k t <= 2048)%nat -> t <> [] ->
  (exists p, value_in P r (Call "FIND" [Call "CONCAT" [Arg a; Arg b]; Arg b]) = Ok (S_DINT, VZ p) /\ 1 <= p <= slen s + 1) /\
  value_in P r (Call "FIND" [Call "CONCAT" [Arg b; Arg a]; Arg b]) = Ok (S_DINT, VZ 1).
Proof.
  intros k P r a b s t A B S NE. apply (text_var k P) in A, B. split.
  - pose proof (concat2_e k P r _ _ s t A B S) as X. rewrite <- (app_nil_r t) in X.
    refine (find_in k P r _ _ s [] t X B _ NE). rewrite app_nil_r, size_app. exact S.
  - pose proof (concat2_e k P r _ _ t s B A ltac:(lia)) as X.
    destruct (find_in k P r _ _ [] s t X B ltac:(cbn [app]; rewrite size_app; lia) NE) as (p & E & R).
    change (slen []) with 0 in R. replace p with 1 in E by lia. exact E.
Qed.
Lemma delete_found : forall k P r a b hs ns x y, string_var k r a hs -> string_var k r b ns -> (size k hs <= 2048)%nat ->
  ns <> [] -> hs = x ++ ns ++ y -> first_at ns hs (length x) ->
  gives k (x ++ y) (value_in P r (Call "DELETE" [Arg a; Call "LEN" [Arg b]; Call "FIND" [Arg a; Arg b]])).
Proof.
  intros k P r a b hs ns x y A B S N E F. apply (text_var k P) in A, B.
  pose proof (find_e k P r _ _ hs ns _ A B S N F) as FE. subst hs.
  assert (Sn : (size k ns <= 2048)%nat) by (rewrite !size_app in S; lia).
  pose proof (delete_e k P r _ _ _ _ (slen ns) _ A (len_e k P r _ ns B Sn) FE S) as M.
  assert (1 <= slen ns) by (unfold slen; destruct ns; [contradiction|cbn [length]; lia]).
  rewrite !slen_app in M. pose proof (slen_pos y). pose proof (slen_pos x). fold (slen x) in *.
  specialize (M ltac:(lia) ltac:(lia) ltac:(lia)). replace (slen x + 1 - 1) with (slen x) in M by lia.
  rewrite firstn_slen in M. rewrite (app_assoc x ns y), <- slen_app, skipn_slen in M. exact M.
Qed.
Lemma not_found_aborts : forall k P r a b hs ns, string_var k r a hs -> string_var k r b ns ->
  (size k hs <= 2048)%nat -> (size k ns <= 2048)%nat -> (forall i, ~ occurs_at ns hs i) ->
  value_in P r (Call "FIND" [Arg a; Arg b]) = Ok (S_DINT, VZ 0) /\
  value_in P r (Call "MID" [Arg a; Call "LEN" [Arg b]; Call "FIND" [Arg a; Arg b]]) = Panic /\
  value_in P r (Call "DELETE" [Arg a; Call "LEN" [Arg b]; Call "FIND" [Arg a; Arg b]]) = Panic.
Proof.
  intros k P r a b hs ns A B S S' NO. apply (text_var k P) in A, B.
  pose proof (len_e k P r _ ns B S') as L. destruct A as (d & E & H), B as (d' & E' & H').
  assert (F : value_in P r (Call "FIND" [Arg a; Arg b]) = Ok (S_DINT, VZ 0)).
  { erewrite value_call by args2. apply (find_call P k d d' hs ns H H' (small_slen k hs S)). now right. }
  pose proof (slen_pos ns).
  assert (I0 : in_ity i32 0) by (vm_compute; split; discriminate).
  assert (IL : in_ity i32 (slen ns)) by (apply (i32_small k ns); lia).
  split; [exact F|]. split; erewrite value_call by args3.
  - apply (mid_gives P k d hs (slen ns) 0 H S IL I0). lia.
  - apply (delete_gives P k d hs (slen ns) 0 H S IL I0); lia.
Qed.
