(** Proofs about calls of string functions by name. *)
From Coq Require Import String Ascii ZArith Lia List Bool SpecFloat.
From Verif Require Import Base ModelFloat ModelTimeNum ModelArith ModelScalar ModelChrono ModelDate
  ModelText ModelString ModelExtra ModelST ModelWrap ModelLink ModelLib SpecScalar SpecDate SpecText SpecLink SpecLib SpecName
  ProofBase ProofText ProofString ProofString2 ProofString3 ProofLib PropertiesString.
Import ListNotations.
Open Scope list_scope.
Open Scope string_scope.
Open Scope Z_scope.

Lemma stored : forall k r dest args o, delivers k r dest o ->
  stores k r dest args (obind o (fun d => Ok (VZ 0, args ++ [VS d])%list)).
Proof.
  intros k r dest args o [F N]. split; intros H.
  - now rewrite (F H).
  - now rewrite (N H).
Qed.
Lemma panicked : forall A B (o : outcome A) (g : A -> outcome B), o = Panic -> obind o g = Panic.
Proof. intros. now subst. Qed.

Lemma size_length : forall A (l : list A), size l = Z.of_nat (length l).
Proof. reflexivity. Qed.
Lemma strings_map : forall l, strings (map VS l) = Some l.
Proof. induction l as [|m l IH]; [reflexivity|]. cbn. now rewrite IH. Qed.

Ltac call k := destruct k; cbv [named]; name_of.

Lemma len_name : forall P k src t, holds k src t -> slen t < 2 ^ 31 ->
  rust_call P (named "LEN" k) [VS src] = Ok (VZ (slen t), [VS src]).
Proof.
  intros P k src t H L. pose proof (C40_len_counts_characters k src t H L) as E.
  call k; cbv [s_z]; rewrite E; reflexivity.
Qed.

Lemma left_name : forall P k src t L dest, holds k src t ->
  (0 <= L <= slen t -> stores k (firstn (Z.to_nat L) t) dest [VS src; VZ L]
     (rust_call P (named "LEFT_EXT" k) [VS src; VZ L; VS dest])) /\
  (~ 0 <= L <= slen t -> rust_call P (named "LEFT_EXT" k) [VS src; VZ L; VS dest] = Panic).
Proof.
  intros P k src t L dest H. destruct (C41_left k src t L dest H) as [A B].
  split; intros I; call k; [exact (stored _ _ _ _ _ (A I))..|exact (panicked _ _ _ _ (B I))|exact (panicked _ _ _ _ (B I))].
Qed.
Lemma right_name : forall P k src t L dest, holds k src t ->
  (0 <= L <= slen t -> stores k (skipn (length t - Z.to_nat L) t) dest [VS src; VZ L]
     (rust_call P (named "RIGHT_EXT" k) [VS src; VZ L; VS dest])) /\
  (~ 0 <= L <= slen t -> rust_call P (named "RIGHT_EXT" k) [VS src; VZ L; VS dest] = Panic).
Proof.
  intros P k src t L dest H. destruct (C41_right k src t L dest H) as [A B].
  split; intros I; call k; [exact (stored _ _ _ _ _ (A I))..|exact (panicked _ _ _ _ (B I))|exact (panicked _ _ _ _ (B I))].
Qed.
Lemma mid_name : forall P k src t L N dest, holds k src t -> of_type S_DINT L -> of_type S_DINT N ->
  slen t < 2 ^ 63 ->
  (0 <= L -> 1 <= N <= slen t -> N - 1 + L <= slen t ->
     stores k (firstn (Z.to_nat L) (skipn (Z.to_nat (N - 1)) t)) dest [VS src; VZ L; VZ N]
       (rust_call P (named "MID_EXT" k) [VS src; VZ L; VZ N; VS dest])) /\
  (~ (0 <= L /\ 1 <= N <= slen t /\ N - 1 + L <= slen t) ->
     rust_call P (named "MID_EXT" k) [VS src; VZ L; VZ N; VS dest] = Panic).
Proof.
  intros P k src t L N dest H IL IN S. destruct (C41_mid_partial (p_profile P) k src t L N dest H IL IN S) as [A B].
  split.
  - intros X Y Z. specialize (A X Y Z). call k; exact (stored _ _ _ _ _ A).
  - intros I. call k; exact (panicked _ _ _ _ (B I)).
Qed.
Lemma insert_name : forall P k base ins s t N dest, holds k base s -> holds k ins t -> slen s < 2 ^ 31 ->
  (0 <= N <= slen s ->
     stores k (firstn (Z.to_nat N) s ++ t ++ skipn (Z.to_nat N) s)%list dest [VS base; VS ins; VZ N]
       (rust_call P (named "INSERT_EXT" k) [VS base; VS ins; VZ N; VS dest])) /\
  (~ 0 <= N <= slen s -> rust_call P (named "INSERT_EXT" k) [VS base; VS ins; VZ N; VS dest] = Panic).
Proof.
  intros P k base ins s t N dest H1 H2 S. destruct (C43_insert k base ins s t N dest H1 H2 S) as [A B].
  split; intros I; call k; [exact (stored _ _ _ _ _ (A I))..|exact (panicked _ _ _ _ (B I))|exact (panicked _ _ _ _ (B I))].
Qed.
Lemma delete_name : forall P k src t L N dest, holds k src t -> of_type S_DINT L -> of_type S_DINT N ->
  slen t < 2 ^ 31 -> 0 <= L ->
  (1 <= N <= slen t -> N - 1 + L <= slen t ->
     stores k (firstn (Z.to_nat (N - 1)) t ++ skipn (Z.to_nat (N - 1 + L)) t)%list dest [VS src; VZ L; VZ N]
       (rust_call P (named "DELETE_EXT" k) [VS src; VZ L; VZ N; VS dest])) /\
  (~ (1 <= N <= slen t /\ N - 1 + L <= slen t) ->
     rust_call P (named "DELETE_EXT" k) [VS src; VZ L; VZ N; VS dest] = Panic).
Proof.
  intros P k src t L N dest H IL IN S L0. destruct (C43_delete (p_profile P) k src t L N dest H IL IN S L0) as [A B].
  split.
  - intros X Y. specialize (A X Y). call k; exact (stored _ _ _ _ _ A).
  - intros I. call k; exact (panicked _ _ _ _ (B I)).
Qed.
Lemma replace_name : forall P k base rep s t L N dest, holds k base s -> holds k rep t ->
  of_type S_DINT L -> of_type S_DINT N -> slen s < 2 ^ 31 -> 0 <= L ->
  (1 <= N <= slen s -> N - 1 + L <= slen s ->
     stores k (firstn (Z.to_nat (N - 1)) s ++ t ++ skipn (Z.to_nat (N - 1 + L)) s)%list dest [VS base; VS rep; VZ L; VZ N]
       (rust_call P (named "REPLACE_EXT" k) [VS base; VS rep; VZ L; VZ N; VS dest])) /\
  (~ (1 <= N <= slen s /\ N - 1 + L <= slen s) ->
     rust_call P (named "REPLACE_EXT" k) [VS base; VS rep; VZ L; VZ N; VS dest] = Panic).
Proof.
  intros P k base rep s t L N dest H1 H2 IL IN S L0.
  destruct (C43_replace (p_profile P) k base rep s t L N dest H1 H2 IL IN S L0) as [A B].
  split.
  - intros X Y. specialize (A X Y). call k; exact (stored _ _ _ _ _ A).
  - intros I. call k; exact (panicked _ _ _ _ (B I)).
Qed.
Lemma find_name : forall P k a b hs ns, holds k a hs -> holds k b ns -> slen hs < 2 ^ 31 ->
  (ns = [] \/ (forall i, ~ occurs_at ns hs i) -> rust_call P (named "FIND" k) [VS a; VS b] = Ok (VZ 0, [VS a; VS b])) /\
  (forall i, ns <> [] -> first_at ns hs i ->
     rust_call P (named "FIND" k) [VS a; VS b] = Ok (VZ (Z.of_nat i + 1), [VS a; VS b])).
Proof.
  intros P k a b hs ns H1 H2 S.
  assert (F : (ns = [] \/ (forall i, ~ occurs_at ns hs i) -> FIND (p_profile P) k a b = Ok 0) /\
              (forall i, ns <> [] -> first_at ns hs i -> FIND (p_profile P) k a b = Ok (Z.of_nat i + 1))).
  { destruct k; [now apply C45_find_string|now apply C46_find_wstring]. }
  destruct F as [A B]. split.
  - intros I. specialize (A I). call k; cbv [ss_z]; rewrite A; reflexivity.
  - intros i X Y. specialize (B i X Y). call k; cbv [ss_z]; rewrite B; reflexivity.
Qed.

(** CONCAT_EXT has its destination first, CONCAT returns a fresh STRING. *)
Lemma concat_ext_name : forall P k argv ts dest, Forall2 (holds k) argv ts -> ts <> [] ->
  (fits k (concat ts) dest ->
     rust_call P (named "CONCAT_EXT" k) (VS dest :: map VS argv) =
     Ok (VZ 0, VS (written k (concat ts) dest) :: map VS argv)) /\
  (~ fits k (concat ts) dest -> rust_call P (named "CONCAT_EXT" k) (VS dest :: map VS argv) = Ub).
Proof.
  intros P k argv ts dest F N. destruct (C47_concat k argv ts dest F N) as [A B].
  assert (E : length ts = length argv) by (clear -F; induction F; cbn; congruence).
  rewrite E in A, B. split; intros I; [specialize (A I)|specialize (B I)];
    call k; cbv [concat_ext]; rewrite strings_map, size_length;
    first [rewrite A; reflexivity | rewrite B; reflexivity].
Qed.
Lemma concat_name : forall P k argv ts, Forall2 (holds k) argv ts -> ts <> [] ->
  ((length (units k (concat ts)) <= 2048)%nat -> exists d,
     rust_call P (named "CONCAT" k) (map VS argv) = Ok (VS d, map VS argv) /\ holds k d (concat ts)) /\
  ((2048 < length (units k (concat ts)))%nat -> rust_call P (named "CONCAT" k) (map VS argv) = Ub).
Proof.
  intros P k argv ts F N. destruct (C47_concat k argv ts ModelWrap.result F N) as [A B].
  assert (E : length ts = length argv) by (clear -F; induction F; cbn; congruence).
  assert (LR : length ModelWrap.result = 2049%nat) by apply repeat_length.
  rewrite E in A, B. unfold fits in A, B. rewrite LR in A, B.
  assert (T : text (concat ts)).
  { clear -F. induction F as [|a t l m H _ IH]; [constructor|]. cbn. apply Forall_app. split; [exact (proj1 H)|exact IH]. }
  split; intros I.
  - specialize (A ltac:(lia)). exists (written k (concat ts) ModelWrap.result). split.
    + call k; cbv [concat_fn]; rewrite strings_map; cbv [CONCAT_ALL]; rewrite A; reflexivity.
    + split; [exact T|]. eexists. reflexivity.
  - specialize (B ltac:(lia)). call k; cbv [concat_fn]; rewrite strings_map; cbv [CONCAT_ALL]; rewrite B; reflexivity.
Qed.

Lemma decided : forall r args (p : Prop) (g : outcome bool), g = Ok r -> (r = true <-> p) ->
  decides (obind g (fun b => Ok (VZ (Z.b2z b), args))) args p.
Proof. intros r args p g -> H. destruct r; [left|right]; (split; [|reflexivity]); intuition congruence. Qed.

Lemma compare_name : forall P k argv strs, Forall2 reads argv strs -> (2 <= length strs)%nat ->
  decides (rust_call P (named "GT" k) (map VS argv)) (map VS argv) (all_pairs (fun a b => lex_lt b a) strs) /\
  decides (rust_call P (named "GE" k) (map VS argv)) (map VS argv) (all_pairs (fun a b => lex_le b a) strs) /\
  decides (rust_call P (named "EQ" k) (map VS argv)) (map VS argv) (all_pairs eq strs) /\
  decides (rust_call P (named "LE" k) (map VS argv)) (map VS argv) (all_pairs lex_le strs) /\
  decides (rust_call P (named "LT" k) (map VS argv)) (map VS argv) (all_pairs lex_lt strs).
Proof.
  intros P k argv strs F L. pose proof (C49_all_pairs strs argv [] F L) as C. cbv zeta in C.
  assert (E : length strs = length argv) by (clear -F; induction F; cbn; congruence).
  rewrite E, app_nil_r in C.
  destruct C as ((g & G & G') & (ge & GE & GE') & (e & EQ & EQ') & (le & LE & LE') & (lt & LT & LT')).
  split; [|split; [|split; [|split]]]; call k; cbv [sn_z]; rewrite strings_map, size_length; eapply decided; eassumption.
Qed.
Lemma compare_few_name : forall P k f argv, List.In f ["GT"; "GE"; "EQ"; "LE"; "LT"] -> (length argv < 2)%nat ->
  rust_call P (named f k) (map VS argv) = Panic.
Proof.
  intros P k f argv I L. destruct (C49_too_few_arguments (Z.of_nat (length argv)) argv ltac:(lia)) as (A & B & C & D & E).
  repeat (destruct I as [<-|I]; [call k; cbv [sn_z]; rewrite strings_map, size_length;
    first [rewrite A|rewrite B|rewrite C|rewrite D|rewrite E]; reflexivity|]). destruct I.
Qed.
Lemma ne_name : forall P k a b s t, reads a s -> reads b t ->
  decides (rust_call P (named "NE" k) [VS a; VS b]) [VS a; VS b] (s <> t).
Proof.
  intros P k a b s t R R'. destruct (C49_two_strings a b s t R R') as (lt & e & gt & _ & _ & _ & _ & _ & N & _ & _ & E & _).
  call k; cbv [ss_z]; rewrite N; (destruct e; [right|left]); (split; [|reflexivity]); intuition congruence.
Qed.

Lemma w2s_name : forall P src s items dest, reads src s -> utf16_parse s items ->
  stores STRING (map (fun i => match i with Some c => c | None => 0xFFFD end) items) dest [VS src]
    (rust_call P "WSTRING_TO_STRING_EXT" [VS src; VS dest]).
Proof.
  intros P src s items dest R U. name_of.
  exact (stored _ _ _ [VS src] _ (C52_unpaired_surrogates_are_replaced src s items dest R U)).
Qed.
Lemma s2w_name : forall P src t dest, holds STRING src t ->
  ((length (units WSTRING t) <= length dest)%nat ->
     rust_call P "STRING_TO_WSTRING_EXT" [VS src; VS dest] = Ok (VZ 0, [VS src; VS (overwritten (units WSTRING t) dest)])) /\
  ((length dest < length (units WSTRING t))%nat -> rust_call P "STRING_TO_WSTRING_EXT" [VS src; VS dest] = Ub).
Proof.
  intros P src t dest H. name_of. cbv [sS]. rewrite (s2w_text src t dest H).
  destruct (Nat.leb_spec (length (units WSTRING t)) (length dest)); split; intros; try lia; reflexivity.
Qed.
Lemma w2s_holds_name : forall P src t dest, holds WSTRING src t ->
  stores STRING t dest [VS src] (rust_call P "WSTRING_TO_STRING_EXT" [VS src; VS dest]).
Proof.
  intros P src t dest H. name_of. apply (stored _ _ _ [VS src]). rewrite (w2s_text src t dest H). apply write_delivers.
Qed.
