(** Proofs about expressions of string functions in a program. *)
From Coq Require Import String Ascii ZArith Lia List Bool SpecFloat.
From Verif Require Import Base ModelFloat ModelTimeNum ModelText ModelString ModelExtra ModelST ModelWrap ModelLink ModelLib
  ModelApi SpecScalar SpecText SpecLink SpecLib SpecName SpecWrap SpecCall ProofBase ProofText ProofString ProofString2 ProofString3 ProofWrap ProofCall.
Import ListNotations.
Open Scope string_scope.
Open Scope list_scope.
Open Scope Z_scope.
Local Notation size := SpecWrap.size.

Lemma gives_returns : forall k t o, returns k t o -> gives k t (string_value k o).
Proof. intros k t o (d & -> & _ & H). now exists d. Qed.

Lemma left_gives : forall P k src t L, holds k src t -> (size k t <= 2048)%nat ->
  (0 <= L <= slen t -> gives k (firstn (Z.to_nat L) t) (call P "LEFT" [(string_type k, VS src); (S_DINT, VZ L)])) /\
  (~ 0 <= L <= slen t -> call P "LEFT" [(string_type k, VS src); (S_DINT, VZ L)] = Panic).
Proof.
  intros P k src t L H S. rewrite left_call. destruct (left_returns k src t L H S) as [A B]. split; intros R.
  - now apply gives_returns, A.
  - now rewrite (B R).
Qed.
Lemma right_gives : forall P k src t L, holds k src t -> (size k t <= 2048)%nat ->
  (0 <= L <= slen t -> gives k (skipn (length t - Z.to_nat L) t) (call P "RIGHT" [(string_type k, VS src); (S_DINT, VZ L)])) /\
  (~ 0 <= L <= slen t -> call P "RIGHT" [(string_type k, VS src); (S_DINT, VZ L)] = Panic).
Proof.
  intros P k src t L H S. rewrite right_call. destruct (right_returns k src t L H S) as [A B]. split; intros R.
  - now apply gives_returns, A.
  - now rewrite (B R).
Qed.
Lemma mid_gives : forall P k src t L N, holds k src t -> (size k t <= 2048)%nat -> in_ity i32 L -> in_ity i32 N ->
  (0 <= L -> 1 <= N <= slen t -> N - 1 + L <= slen t ->
     gives k (firstn (Z.to_nat L) (skipn (Z.to_nat (N - 1)) t))
       (call P "MID" [(string_type k, VS src); (S_DINT, VZ L); (S_DINT, VZ N)])) /\
  (~ (0 <= L /\ 1 <= N <= slen t /\ N - 1 + L <= slen t) ->
     call P "MID" [(string_type k, VS src); (S_DINT, VZ L); (S_DINT, VZ N)] = Panic).
Proof.
  intros P k src t L N H S IL IN. rewrite mid_call.
  destruct (mid_returns (p_profile P) k src t L N H S IL IN) as [A B]. split.
  - intros R1 R2 R3. now apply gives_returns, A.
  - intros R. now rewrite (B R).
Qed.
Lemma delete_gives : forall P k src t L N, holds k src t -> (size k t <= 2048)%nat -> in_ity i32 L -> in_ity i32 N ->
  0 <= L ->
  (1 <= N <= slen t -> N - 1 + L <= slen t ->
     gives k (firstn (Z.to_nat (N - 1)) t ++ skipn (Z.to_nat (N - 1 + L)) t)
       (call P "DELETE" [(string_type k, VS src); (S_DINT, VZ L); (S_DINT, VZ N)])) /\
  (~ (1 <= N <= slen t /\ N - 1 + L <= slen t) ->
     call P "DELETE" [(string_type k, VS src); (S_DINT, VZ L); (S_DINT, VZ N)] = Panic).
Proof.
  intros P k src t L N H S IL IN L0. rewrite delete_call.
  destruct (delete_returns (p_profile P) k src t L N H S IL IN L0) as [A B]. split.
  - intros R1 R2. now apply gives_returns, A.
  - intros R. now rewrite (B R).
Qed.
Lemma insert_gives : forall P k base ins s t N, holds k base s -> holds k ins t -> slen s < 2 ^ 31 -> 0 <= N <= slen s ->
  ((size k s + size k t <= 2048)%nat -> gives k (firstn (Z.to_nat N) s ++ t ++ skipn (Z.to_nat N) s)
     (call P "INSERT" [(string_type k, VS base); (string_type k, VS ins); (S_DINT, VZ N)])) /\
  ((2048 < size k s + size k t)%nat ->
     call P "INSERT" [(string_type k, VS base); (string_type k, VS ins); (S_DINT, VZ N)] = Ub).
Proof.
  intros P k base ins s t N Hs Ht S R. rewrite insert_call.
  destruct (insert_returns k base ins s t N Hs Ht S R) as [A B]. split; intros F.
  - now apply gives_returns, A.
  - now rewrite (B F).
Qed.
Lemma replace_gives : forall P k base rep s t L N, holds k base s -> holds k rep t -> in_ity i32 L -> in_ity i32 N ->
  slen s < 2 ^ 31 -> 0 <= L -> 1 <= N <= slen s -> N - 1 + L <= slen s ->
  let r := (firstn (Z.to_nat (N - 1)) s ++ t ++ skipn (Z.to_nat (N - 1 + L)) s)%list in
  let o := call P "REPLACE" [(string_type k, VS base); (string_type k, VS rep); (S_DINT, VZ L); (S_DINT, VZ N)] in
  ((size k r <= 2048)%nat -> gives k r o) /\ ((2048 < size k r)%nat -> o = Ub).
Proof.
  intros P k base rep s t L N Hs Ht IL IN S L0 R1 R2 r o. unfold o. rewrite replace_call.
  destruct (replace_returns (p_profile P) k base rep s t L N Hs Ht IL IN S L0 R1 R2) as [A B]. fold r in A, B. split; intros F.
  - now apply gives_returns, A.
  - now rewrite (B F).
Qed.
Lemma concat_gives : forall P k argv ts, Forall2 (holds k) argv ts -> ts <> [] ->
  let o := call P "CONCAT" (map (fun m => (string_type k, VS m)) argv) in
  ((size k (concat ts) <= 2048)%nat -> gives k (concat ts) o) /\ ((2048 < size k (concat ts))%nat -> o = Ub).
Proof.
  intros P k argv ts F N o. unfold o. rewrite concat_call by (destruct F; [contradiction|discriminate]).
  destruct (concat_returns k argv ts F N) as [A B]. split; intros G.
  - now apply gives_returns, A.
  - now rewrite (B G).
Qed.
Lemma to_string_gives : forall P src t, holds WSTRING src t ->
  ((size STRING t <= 2048)%nat -> gives STRING t (call P "WSTRING_TO_STRING" [(S_WSTRING, VS src)])) /\
  ((2048 < size STRING t)%nat -> call P "WSTRING_TO_STRING" [(S_WSTRING, VS src)] = Ub).
Proof.
  intros P src t H. rewrite to_string_call. destruct (to_string_returns src t H) as [A B]. split; intros F.
  - now apply gives_returns, A.
  - now rewrite (B F).
Qed.
Lemma to_wstring_gives : forall P src t, holds STRING src t -> (size STRING t <= 2048)%nat ->
  gives WSTRING t (call P "STRING_TO_WSTRING" [(S_STRING, VS src)]).
Proof. intros P src t H F. rewrite to_wstring_call. now apply gives_returns, to_wstring_returns. Qed.
Lemma holds_reads : forall k d t, holds k d t -> reads d (units k t).
Proof. intros k d t [T R]. split; [now apply units_nonzero|exact R]. Qed.
Lemma eq_texts : forall P k a b s t, holds k a s -> holds k b t ->
  let args := [(string_type k, VS a); (string_type k, VS b)] in
  tells (s = t) (call P "EQ" args) /\ tells (s <> t) (call P "NE" args).
Proof.
  intros P k a b s t A B args. pose proof (units_eq_iff k s t (proj1 A) (proj1 B)) as U.
  apply holds_reads in A, B. split.
  - destruct (compare_call P k [a; b] [units k s; units k t]) as (_ & _ & E & _);
      [constructor; [exact A|constructor; [exact B|constructor]]|cbn; lia|]. cbn [map] in E. fold args in E.
    assert (X : all_pairs eq [units k s; units k t] <-> s = t).
    { split.
      - intros H. apply U. exact (H [] _ [] _ [] eq_refl).
      - intros ->. intros l1 x l2 y l3 L. destruct l1 as [|? [|? [|]]]; try discriminate.
        + destruct l2 as [|? [|]]; [now injection L as <- <- _|injection L; intros; discriminate|injection L; intros; discriminate].
        + injection L as _ _ L. destruct l2; discriminate. }
    destruct E as [[H ->]|[H ->]]; [left|right]; (split; [|reflexivity]); tauto.
  - destruct (ne_call P k a b _ _ A B) as [[H E]|[H E]]; [left|right]; (split; [tauto|exact E]).
Qed.

(** ** Expressions *)
Lemma value_call : forall P r f args l, Forall2 (fun a tv => value_in P r a = Ok tv) args l ->
  value_in P r (Call f args) = call P f l.
Proof.
  intros P r f args l F. unfold value_in. cbn [value_of].
  match goal with |- omap fst (obind (?go args) ?c) = _ => assert (E : go args = Ok l) end.
  { induction F as [|a tv args l H F IH]; [reflexivity|]. rewrite IH. unfold value_in in H.
    destruct (value_of (api P) r a) as [[tv' r']| |]; try discriminate. cbn in H. injection H as ->. reflexivity. }
  rewrite E. cbn [obind]. unfold call. destruct (dispatch (api P) f l) as [[[[t v] ps] o]| |]; reflexivity.
Qed.
Lemma value_arg : forall P r x tv, get x r = Ok tv -> value_in P r (Arg x) = Ok tv.
Proof. intros P r x tv H. unfold value_in. cbn [value_of]. now rewrite H. Qed.
(** An expression with a text as value. *)
Definition is_text k P r e t := gives k t (value_in P r e).
Definition is_dint P r e n := value_in P r e = Ok (S_DINT, VZ n).
Lemma text_var : forall k P r x t, string_var k r x t -> is_text k P r (Arg x) t.
Proof. intros k P r x t (d & G & H). exists d. split; [now apply value_arg|exact H]. Qed.
Lemma number_var : forall P r x n, dint_var r x n -> is_dint P r (Arg x) n /\ in_ity i32 n.
Proof. intros P r x n [G H]. split; [now apply value_arg|exact H]. Qed.

Ltac args2 := constructor; [eassumption|constructor; [eassumption|constructor]].
Ltac args3 := constructor; [eassumption|args2].
Ltac args4 := constructor; [eassumption|args3].
Lemma left_e : forall k P r a n t L, is_text k P r a t -> is_dint P r n L -> (size k t <= 2048)%nat -> 0 <= L <= slen t ->
  is_text k P r (Call "LEFT" [a; n]) (firstn (Z.to_nat L) t).
Proof.
  intros k P r a n t L (d & E & H) N S R. unfold is_text. erewrite value_call by args2. now apply (left_gives P k d t L H S).
Qed.
Lemma right_e : forall k P r a n t L, is_text k P r a t -> is_dint P r n L -> (size k t <= 2048)%nat -> 0 <= L <= slen t ->
  is_text k P r (Call "RIGHT" [a; n]) (skipn (length t - Z.to_nat L) t).
Proof.
  intros k P r a n t L (d & E & H) N S R. unfold is_text. erewrite value_call by args2. now apply (right_gives P k d t L H S).
Qed.
Lemma i32_small : forall k t n, (size k t <= 2048)%nat -> 0 <= n <= slen t -> in_ity i32 n.
Proof. intros k t n S R. pose proof (size_length k t). unfold in_ity, slen in *. change (imin i32) with (- 2 ^ 31). change (imax i32) with (2 ^ 31 - 1). lia. Qed.
Lemma mid_e : forall k P r a l n t L N, is_text k P r a t -> is_dint P r l L -> is_dint P r n N -> (size k t <= 2048)%nat ->
  0 <= L -> 1 <= N <= slen t -> N - 1 + L <= slen t ->
  is_text k P r (Call "MID" [a; l; n]) (firstn (Z.to_nat L) (skipn (Z.to_nat (N - 1)) t)).
Proof.
  intros k P r a l n t L N (d & E & H) EL EN S R1 R2 R3. unfold is_text. erewrite value_call by args3.
  apply (mid_gives P k d t L N H S); try assumption; apply (i32_small k t _ S); lia.
Qed.
Lemma delete_e : forall k P r a l n t L N, is_text k P r a t -> is_dint P r l L -> is_dint P r n N -> (size k t <= 2048)%nat ->
  0 <= L -> 1 <= N <= slen t -> N - 1 + L <= slen t ->
  is_text k P r (Call "DELETE" [a; l; n]) (firstn (Z.to_nat (N - 1)) t ++ skipn (Z.to_nat (N - 1 + L)) t).
Proof.
  intros k P r a l n t L N (d & E & H) EL EN S R1 R2 R3. unfold is_text. erewrite value_call by args3.
  apply (delete_gives P k d t L N H S); try assumption; apply (i32_small k t _ S); lia.
Qed.
Lemma insert_e : forall k P r a b n s t N, is_text k P r a s -> is_text k P r b t -> is_dint P r n N ->
  (size k s + size k t <= 2048)%nat -> 0 <= N <= slen s ->
  is_text k P r (Call "INSERT" [a; b; n]) (firstn (Z.to_nat N) s ++ t ++ skipn (Z.to_nat N) s).
Proof.
  intros k P r a b n s t N (d & E & H) (d' & E' & H') EN S R. unfold is_text. erewrite value_call by args3.
  apply (insert_gives P k d d' s t N H H'); try assumption. apply (small_slen k). lia.
Qed.
Lemma replace_e : forall k P r a b l n s t L N, is_text k P r a s -> is_text k P r b t -> is_dint P r l L -> is_dint P r n N ->
  (size k s + size k t <= 2048)%nat -> 0 <= L -> 1 <= N <= slen s -> N - 1 + L <= slen s ->
  is_text k P r (Call "REPLACE" [a; b; l; n]) (firstn (Z.to_nat (N - 1)) s ++ t ++ skipn (Z.to_nat (N - 1 + L)) s).
Proof.
  intros k P r a b l n s t L N (d & E & H) (d' & E' & H') EL EN S R1 R2 R3. unfold is_text. erewrite value_call by args4.
  apply (replace_gives P k d d' s t L N H H'); try assumption; try (apply (i32_small k s); lia); [apply (small_slen k); lia|].
  rewrite !size_app. pose proof (size_split k (Z.to_nat (N - 1)) s).
  pose proof (skipn_mono k (Z.to_nat (N - 1)) (Z.to_nat (N - 1 + L)) s). lia.
Qed.
Lemma concat_e : forall k P r es ts, Forall2 (fun e t => is_text k P r e t) es ts -> ts <> [] -> (size k (concat ts) <= 2048)%nat ->
  is_text k P r (Call "CONCAT" es) (concat ts).
Proof.
  intros k P r es ts F N S. unfold is_text.
  assert (exists ds, Forall2 (fun a tv => value_in P r a = Ok tv) es (map (fun m => (string_type k, VS m)) ds) /\ Forall2 (holds k) ds ts) as (ds & A & B).
  { clear N S. induction F as [|e t es ts (d & E & H) F (ds & A & B)]; [exists []; split; constructor|].
    exists (d :: ds). split; constructor; assumption. }
  rewrite (value_call _ _ _ _ _ A). now apply (concat_gives P k ds ts B N).
Qed.
Lemma concat2_e : forall k P r a b s t, is_text k P r a s -> is_text k P r b t -> (size k s + size k t <= 2048)%nat ->
  is_text k P r (Call "CONCAT" [a; b]) (s ++ t).
Proof.
  intros k P r a b s t A B S. replace (s ++ t) with (concat [s; t]) by (cbn; now rewrite app_nil_r).
  apply concat_e; [constructor; [exact A|constructor; [exact B|constructor]]|discriminate|].
  cbn [concat]. rewrite app_nil_r, size_app. exact S.
Qed.
Lemma len_e : forall k P r a t, is_text k P r a t -> (size k t <= 2048)%nat -> is_dint P r (Call "LEN" [a]) (slen t).
Proof.
  intros k P r a t (d & E & H) S. unfold is_dint. erewrite value_call by (constructor; [eassumption|constructor]).
  apply (len_call P k d t H). now apply (small_slen k).
Qed.
Lemma find_e : forall k P r a b hs ns i, is_text k P r a hs -> is_text k P r b ns -> (size k hs <= 2048)%nat ->
  ns <> [] -> first_at ns hs i -> is_dint P r (Call "FIND" [a; b]) (Z.of_nat i + 1).
Proof.
  intros k P r a b hs ns i (d & E & H) (d' & E' & H') S N F. unfold is_dint. erewrite value_call by args2.
  now apply (find_call P k d d' hs ns H H' (small_slen k hs S)).
Qed.
Lemma firstn_slen : forall (a b : list Z), firstn (Z.to_nat (slen a)) (a ++ b) = a.
Proof. intros a b. unfold slen. rewrite Nat2Z.id, firstn_app, Nat.sub_diag, firstn_all. cbn. apply app_nil_r. Qed.
Lemma skipn_slen : forall (a b : list Z), skipn (Z.to_nat (slen a)) (a ++ b) = b.
Proof. intros a b. unfold slen. rewrite Nat2Z.id, skipn_app, Nat.sub_diag, skipn_all. reflexivity. Qed.
Lemma slen_app : forall (a b : list Z), slen (a ++ b) = slen a + slen b.
Proof. intros a b. unfold slen. rewrite app_length. lia. Qed.
Lemma slen_pos : forall (a : list Z), 0 <= slen a.
Proof. intros a. unfold slen. lia. Qed.

Ltac lens := unfold slen in *; rewrite ?app_length, ?firstn_length, ?skipn_length in *; lia.
Lemma left_of_concat : forall k P r a b s t, string_var k r a s -> string_var k r b t -> (size k s + size k t <= 2048)%nat ->
  gives k s (value_in P r (Call "LEFT" [Call "CONCAT" [Arg a; Arg b]; Call "LEN" [Arg a]])).
Proof.
  intros k P r a b s t A B S. apply (text_var k P) in A, B.
  pose proof (concat2_e k P r _ _ s t A B S) as C. pose proof (len_e k P r _ s A) as L.
  rewrite <- (firstn_slen s t) at 1. apply (left_e k P r _ _ (s ++ t) (slen s) C); [apply L; lia|rewrite size_app; lia|].
  rewrite slen_app. pose proof (slen_pos s). pose proof (slen_pos t). lia.
Qed.
Lemma right_of_concat : forall k P r a b s t, string_var k r a s -> string_var k r b t -> (size k s + size k t <= 2048)%nat ->
  gives k t (value_in P r (Call "RIGHT" [Call "CONCAT" [Arg a; Arg b]; Call "LEN" [Arg b]])).
Proof.
  intros k P r a b s t A B S. apply (text_var k P) in A, B.
  pose proof (concat2_e k P r _ _ s t A B S) as C. pose proof (len_e k P r _ t B) as L.
  assert (E : skipn (length (s ++ t) - Z.to_nat (slen t)) (s ++ t) = t).
  { transitivity (skipn (Z.to_nat (slen s)) (s ++ t)); [|apply skipn_slen]. f_equal. unfold slen. rewrite app_length. lia. }
  rewrite <- E at 1. apply (right_e k P r _ _ (s ++ t) (slen t) C); [apply L; lia|rewrite size_app; lia|].
  rewrite slen_app. pose proof (slen_pos s). pose proof (slen_pos t). lia.
Qed.
Lemma concat_assoc : forall k P r a b c s t u, string_var k r a s -> string_var k r b t -> string_var k r c u ->
  (size k s + size k t + size k u <= 2048)%nat ->
  gives k (s ++ t ++ u) (value_in P r (Call "CONCAT" [Arg a; Arg b; Arg c])) /\
  gives k (s ++ t ++ u) (value_in P r (Call "CONCAT" [Call "CONCAT" [Arg a; Arg b]; Arg c])) /\
  gives k (s ++ t ++ u) (value_in P r (Call "CONCAT" [Arg a; Call "CONCAT" [Arg b; Arg c]])).
Proof.
  intros k P r a b c s t u A B C S. apply (text_var k P) in A, B, C. split; [|split].
  - replace (s ++ t ++ u) with (concat [s; t; u]) by (cbn; now rewrite app_nil_r).
    apply concat_e; [constructor; [exact A|constructor; [exact B|constructor; [exact C|constructor]]]|discriminate|].
    cbn [concat]. rewrite app_nil_r, !size_app. lia.
  - rewrite app_assoc. apply concat2_e; [apply concat2_e; [exact A|exact B|lia]|exact C|rewrite size_app; lia].
  - apply concat2_e; [exact A|apply concat2_e; [exact B|exact C|lia]|rewrite size_app; lia].
Qed.
Lemma len_of_concat : forall k P r a b s t, string_var k r a s -> string_var k r b t -> (size k s + size k t <= 2048)%nat ->
  value_in P r (Call "LEN" [Call "CONCAT" [Arg a; Arg b]]) = Ok (S_DINT, VZ (slen s + slen t)).
Proof.
  intros k P r a b s t A B S. apply (text_var k P) in A, B. rewrite <- slen_app.
  apply (len_e k P r); [now apply concat2_e|rewrite size_app; lia].
Qed.
Lemma split_left_right : forall k P r a n m s i j, string_var k r a s -> dint_var r n i -> dint_var r m j ->
  0 <= i -> 0 <= j -> i + j = slen s -> (size k s <= 2048)%nat ->
  gives k s (value_in P r (Call "CONCAT" [Call "LEFT" [Arg a; Arg n]; Call "RIGHT" [Arg a; Arg m]])).
Proof.
  intros k P r a n m s i j A N M I J E S. apply (text_var k P) in A. apply (number_var P) in N as [N _], M as [M _].
  rewrite <- (firstn_skipn (Z.to_nat i) s) at 1. pose proof (size_split k (Z.to_nat i) s).
  replace (skipn (Z.to_nat i) s) with (skipn (length s - Z.to_nat j) s) in * by (f_equal; unfold slen in E; lia).
  apply concat2_e; [apply left_e|apply right_e|]; try assumption; lia.
Qed.
Lemma split_left_mid : forall k P r a n m l s i j, string_var k r a s -> dint_var r n i -> dint_var r m (i + 1) -> dint_var r l j ->
  0 <= i < slen s -> i + j = slen s -> (size k s <= 2048)%nat ->
  gives k s (value_in P r (Call "CONCAT" [Call "LEFT" [Arg a; Arg n]; Call "MID" [Arg a; Arg l; Arg m]])).
Proof.
  intros k P r a n m l s i j A N M L I E S. apply (text_var k P) in A.
  apply (number_var P) in N as [N _], M as [M _], L as [L _].
  rewrite <- (firstn_skipn (Z.to_nat i) s) at 1. pose proof (size_split k (Z.to_nat i) s).
  assert (X : firstn (Z.to_nat j) (skipn (Z.to_nat (i + 1 - 1)) s) = skipn (Z.to_nat i) s).
  { replace (i + 1 - 1) with i by lia. apply firstn_all2. rewrite skipn_length. unfold slen in E. lia. }
  rewrite <- X in *.
  apply concat2_e; [apply left_e|apply mid_e|]; try assumption; lia.
Qed.
Lemma delete_undoes_insert : forall k P r a b n m s t i, string_var k r a s -> string_var k r b t ->
  dint_var r n i -> dint_var r m (i + 1) -> 0 <= i <= slen s -> i < slen s + slen t -> (size k s + size k t <= 2048)%nat ->
  gives k s (value_in P r (Call "DELETE" [Call "INSERT" [Arg a; Arg b; Arg n]; Call "LEN" [Arg b]; Arg m])) /\
  gives k t (value_in P r (Call "MID" [Call "INSERT" [Arg a; Arg b; Arg n]; Call "LEN" [Arg b]; Arg m])).
Proof.
  intros k P r a b n m s t i A B N M I I' S. apply (text_var k P) in A, B.
  apply (number_var P) in N as [N _], M as [M _].
  pose proof (insert_e k P r _ _ _ s t i A B N S I) as X.
  assert (L : is_dint P r (Call "LEN" [Arg b]) (slen t)) by (apply (len_e k); [exact B|lia]).
  set (x := firstn (Z.to_nat i) s ++ t ++ skipn (Z.to_nat i) s) in *.
  assert (LX : slen x = slen s + slen t) by (unfold x; lens).
  assert (SX : (size k x <= 2048)%nat) by (unfold x; rewrite !size_app; pose proof (size_split k (Z.to_nat i) s); lia).
  assert (L1 : length (firstn (Z.to_nat i) s) = Z.to_nat i) by (rewrite firstn_length; unfold slen in I; lia).
  replace (i + 1 - 1) with i in * by lia. pose proof (slen_pos t). split.
  - pose proof (delete_e k P r _ _ _ x (slen t) (i + 1) X L M SX) as D. replace (i + 1 - 1) with i in D by lia.
    specialize (D ltac:(lia) ltac:(lia) ltac:(lia)).
    replace (firstn (Z.to_nat i) x ++ skipn (Z.to_nat (i + slen t)) x) with s in D; [exact D|].
    unfold x. rewrite firstn_app, L1, Nat.sub_diag, firstn_firstn, Nat.min_id. cbn [firstn]. rewrite app_nil_r.
    rewrite app_assoc, skipn_app, app_length, L1.
    replace (Z.to_nat (i + slen t) - (Z.to_nat i + length t))%nat with O by (unfold slen; lia).
    rewrite (skipn_all2 (firstn (Z.to_nat i) s ++ t)) by (rewrite app_length, L1; unfold slen; lia).
    cbn [skipn app]. now rewrite firstn_skipn.
  - pose proof (mid_e k P r _ _ _ x (slen t) (i + 1) X L M SX) as D. replace (i + 1 - 1) with i in D by lia.
    specialize (D ltac:(lia) ltac:(lia) ltac:(lia)).
    replace (firstn (Z.to_nat (slen t)) (skipn (Z.to_nat i) x)) with t in D; [exact D|].
    unfold x. rewrite skipn_app, L1, Nat.sub_diag. rewrite (skipn_all2 (firstn (Z.to_nat i) s)) by lia.
    cbn [skipn app]. now rewrite firstn_slen.
Qed.
Lemma replace_is_insert_delete : forall k P r a b l m n s t i j, string_var k r a s -> string_var k r b t ->
  dint_var r l j -> dint_var r m (i + 1) -> dint_var r n i -> 0 <= j -> 0 <= i < slen s -> i + j <= slen s ->
  (size k s + size k t <= 2048)%nat ->
  let result := (firstn (Z.to_nat i) s ++ t ++ skipn (Z.to_nat (i + j)) s)%list in
  gives k result (value_in P r (Call "REPLACE" [Arg a; Arg b; Arg l; Arg m])) /\
  gives k result (value_in P r (Call "INSERT" [Call "DELETE" [Arg a; Arg l; Arg m]; Arg b; Arg n])).
Proof.
  intros k P r a b l m n s t i j A B L M N J I E S result. apply (text_var k P) in A, B.
  apply (number_var P) in N as [N _], M as [M _], L as [L _]. split.
  - pose proof (replace_e k P r _ _ _ _ s t j (i + 1) A B L M S) as X. replace (i + 1 - 1) with i in X by lia. apply X; lia.
  - pose proof (delete_e k P r _ _ _ s j (i + 1) A L M) as X. replace (i + 1 - 1) with i in X by lia.
    specialize (X ltac:(lia) ltac:(lia) ltac:(lia) ltac:(lia)).
    assert (L1 : length (firstn (Z.to_nat i) s) = Z.to_nat i) by (rewrite firstn_length; unfold slen in I; lia).
    set (x := firstn (Z.to_nat i) s ++ skipn (Z.to_nat (i + j)) s) in *.
    pose proof (insert_e k P r _ _ _ x t i X B N) as Y.
    replace (firstn (Z.to_nat i) x ++ t ++ skipn (Z.to_nat i) x) with result in Y.
    + apply Y; [|unfold x; lens]. unfold x. rewrite size_app. pose proof (size_split k (Z.to_nat i) s).
      pose proof (skipn_mono k (Z.to_nat i) (Z.to_nat (i + j)) s). lia.
    + unfold x, result. rewrite firstn_app, skipn_app, L1, Nat.sub_diag, firstn_firstn, Nat.min_id. cbn [firstn skipn].
      rewrite (skipn_all2 (firstn (Z.to_nat i) s)) by lia. now rewrite app_nil_r.
Qed.
Lemma occurs_dec : forall ns hs n, {occurs_at ns hs n} + {~ occurs_at ns hs n}.
Proof.
  intros ns hs n.
  destruct (list_eq_dec Z.eq_dec (firstn (length ns) (skipn n hs)) ns) as [E|E], (le_lt_dec n (length hs)) as [L|L].
  - left. exists (firstn n hs), (skipn (length ns) (skipn n hs)). split; [|rewrite firstn_length; lia].
    rewrite <- E at 1. now rewrite !firstn_skipn.
  - right. intros (a & b & -> & LA). rewrite app_length in L. lia.
  - right. intros (a & b & -> & LA). apply E.
    rewrite skipn_app, <- LA, Nat.sub_diag, skipn_all. cbn [app skipn].
    rewrite firstn_app, Nat.sub_diag, firstn_all. cbn. apply app_nil_r.
  - right. intros (a & b & -> & LA). rewrite app_length in L. lia.
Defined.
Lemma first_exists : forall ns hs n, occurs_at ns hs n -> exists i, first_at ns hs i.
Proof.
  intros ns hs. induction n as [n IH] using lt_wf_ind. intros O.
  assert (D : forall m, (exists q, (q < m)%nat /\ occurs_at ns hs q) \/ (forall q, (q < m)%nat -> ~ occurs_at ns hs q)).
  { induction m as [|m [(q & L & H)|H]]; [right; lia|left; exists q; split; [lia|exact H]|].
    destruct (occurs_dec ns hs m) as [Y|Y]; [left; exists m; split; [lia|exact Y]|].
    right. intros q L. destruct (Nat.eq_dec q m) as [->|]; [exact Y|apply H; lia]. }
  destruct (D n) as [(q & L & H)|H]; [exact (IH q L H)|]. exists n. split; [exact O|].
  intros m M. destruct (Nat.le_gt_cases n m) as [C|C]; [exact C|]. destruct (H m C M).
Qed.
Lemma find_mid : forall k P r a b hs ns x y, string_var k r a hs -> string_var k r b ns -> (size k hs <= 2048)%nat ->
  ns <> [] -> hs = x ++ ns ++ y -> gives k ns (value_in P r (Call "MID" [Arg a; Call "LEN" [Arg b]; Call "FIND" [Arg a; Arg b]])).
Proof.
  intros k P r a b hs ns x y A B S N E. apply (text_var k P) in A, B.
  assert (exists i, first_at ns hs i) as (i & F).
  { apply (first_exists ns hs (length x)). exists x, y. now split. }
  pose proof (find_e k P r _ _ hs ns i A B S N F) as FE. destruct F as [(u & v & -> & LU) _].
  assert (Sn : (size k ns <= 2048)%nat) by (rewrite !size_app in S; lia).
  pose proof (mid_e k P r _ _ _ _ (slen ns) (Z.of_nat i + 1) A (len_e k P r _ ns B Sn) FE S) as M.
  assert (1 <= slen ns) by (unfold slen; destruct ns; [contradiction|cbn [length]; lia]).
  rewrite !slen_app in M. pose proof (slen_pos v). assert (slen u = Z.of_nat i) by (unfold slen; now rewrite LU).
  specialize (M ltac:(lia) ltac:(lia) ltac:(lia)). replace (Z.of_nat i + 1 - 1) with (slen u) in M by lia.
  rewrite skipn_slen, firstn_slen in M. exact M.
Qed.
Lemma find_replace : forall k P r a b c hs ns t x y, string_var k r a hs -> string_var k r b ns -> string_var k r c t ->
  (size k hs + size k t <= 2048)%nat -> ns <> [] -> hs = x ++ ns ++ y -> first_at ns hs (length x) ->
  gives k (x ++ t ++ y) (value_in P r (Call "REPLACE" [Arg a; Arg c; Call "LEN" [Arg b]; Call "FIND" [Arg a; Arg b]])).
Proof.
  intros k P r a b c hs ns t x y A B C S N E F. apply (text_var k P) in A, B, C.
  pose proof (find_e k P r _ _ hs ns _ A B ltac:(lia) N F) as FE. subst hs.
  assert (Sn : (size k ns <= 2048)%nat) by (rewrite !size_app in S; lia).
  pose proof (replace_e k P r _ _ _ _ _ t (slen ns) _ A C (len_e k P r _ ns B Sn) FE S) as M.
  assert (1 <= slen ns) by (unfold slen; destruct ns; [contradiction|cbn [length]; lia]).
  rewrite !slen_app in M. pose proof (slen_pos y). pose proof (slen_pos x). fold (slen x) in *.
  specialize (M ltac:(lia) ltac:(lia) ltac:(lia)). replace (slen x + 1 - 1) with (slen x) in M by lia.
  rewrite firstn_slen in M. rewrite (app_assoc x ns y), <- slen_app, skipn_slen in M. exact M.
Qed.
Lemma wide_and_back : forall P r a s, string_var STRING r a s -> (size STRING s <= 2048)%nat ->
  gives STRING s (value_in P r (Call "WSTRING_TO_STRING" [Call "STRING_TO_WSTRING" [Arg a]])).
Proof.
  intros P r a s A S. apply (text_var STRING P) in A as (d & E & H).
  assert (X : is_text WSTRING P r (Call "STRING_TO_WSTRING" [Arg a]) s).
  { unfold is_text. erewrite value_call by (constructor; [exact E|constructor]). now apply to_wstring_gives. }
  destruct X as (w & E' & H'). erewrite value_call by (constructor; [exact E'|constructor]). now apply (to_string_gives P w s H').
Qed.
Lemma narrow_and_back : forall P r a s, string_var WSTRING r a s -> (size STRING s <= 2048)%nat ->
  gives WSTRING s (value_in P r (Call "STRING_TO_WSTRING" [Call "WSTRING_TO_STRING" [Arg a]])).
Proof.
  intros P r a s A S. apply (text_var WSTRING P) in A as (d & E & H).
  assert (X : is_text STRING P r (Call "WSTRING_TO_STRING" [Arg a]) s).
  { unfold is_text. erewrite value_call by (constructor; [exact E|constructor]). now apply (to_string_gives P d s H). }
  destruct X as (w & E' & H'). erewrite value_call by (constructor; [exact E'|constructor]). now apply to_wstring_gives.
Qed.
