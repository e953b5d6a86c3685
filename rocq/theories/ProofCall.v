(** Proofs about calls of string functions in a program: they are what ModelWrap.v and ModelExtra.v say. *)
From Coq Require Import String Ascii ZArith Lia List Bool SpecFloat.
From Verif Require Import Base ModelFloat ModelTimeNum ModelText ModelString ModelExtra ModelST ModelWrap ModelLink ModelLib
  ModelApi SpecScalar SpecText SpecLink SpecLib SpecName SpecWrap SpecCall ProofLib ProofName ProofWrap.
Import ListNotations.
Open Scope list_scope.
Open Scope string_scope.
Open Scope Z_scope.

Definition string_value (k : kind) (o : outcome (list Z)) : outcome (sty * value) :=
  omap (fun d => (string_type k, VS d)) o.

(** Execution of a call up to the exported Rust function. *)
Ltac exec := lazy -[rust_call p_profile p_chrono Z.add Z.of_nat slen ModelWrap.result LEFT RIGHT MID INSERT DELETE REPLACE CONCAT_ALL WSTRING_TO_STRING STRING_TO_WSTRING].
Ltac rust k := destruct k; cbv [named]; name_of; reflexivity.
Ltac by_rust k E := destruct k; cbv [named append] in E; exec; rewrite E;
  match type of E with _ = obind ?o _ => destruct o end; reflexivity.

Lemma left_call : forall P k src L,
  call P "LEFT" [(string_type k, VS src); (S_DINT, VZ L)] = string_value k (LEFT k src L).
Proof.
  intros P k src L.
  assert (E : rust_call P (named "LEFT_EXT" k) [VS src; VZ L; VS ModelWrap.result] =
    obind (LEFT k src L) (fun d => Ok (VZ 0, [VS src; VZ L; VS d]))) by rust k.
  by_rust k E.
Qed.
Lemma right_call : forall P k src L,
  call P "RIGHT" [(string_type k, VS src); (S_DINT, VZ L)] = string_value k (RIGHT k src L).
Proof.
  intros P k src L.
  assert (E : rust_call P (named "RIGHT_EXT" k) [VS src; VZ L; VS ModelWrap.result] =
    obind (RIGHT k src L) (fun d => Ok (VZ 0, [VS src; VZ L; VS d]))) by rust k.
  by_rust k E.
Qed.
Lemma mid_call : forall P k src L N,
  call P "MID" [(string_type k, VS src); (S_DINT, VZ L); (S_DINT, VZ N)] = string_value k (MID (p_profile P) k src L N).
Proof.
  intros P k src L N.
  assert (E : rust_call P (named "MID_EXT" k) [VS src; VZ L; VZ N; VS ModelWrap.result] =
    obind (MID (p_profile P) k src L N) (fun d => Ok (VZ 0, [VS src; VZ L; VZ N; VS d]))) by rust k.
  by_rust k E.
Qed.
Lemma insert_call : forall P k a b N,
  call P "INSERT" [(string_type k, VS a); (string_type k, VS b); (S_DINT, VZ N)] = string_value k (INSERT k a b N).
Proof.
  intros P k a b N.
  assert (E : rust_call P (named "INSERT_EXT" k) [VS a; VS b; VZ N; VS ModelWrap.result] =
    obind (INSERT k a b N) (fun d => Ok (VZ 0, [VS a; VS b; VZ N; VS d]))) by rust k.
  by_rust k E.
Qed.
Lemma delete_call : forall P k src L N,
  call P "DELETE" [(string_type k, VS src); (S_DINT, VZ L); (S_DINT, VZ N)] = string_value k (DELETE (p_profile P) k src L N).
Proof.
  intros P k src L N.
  assert (E : rust_call P (named "DELETE_EXT" k) [VS src; VZ L; VZ N; VS ModelWrap.result] =
    obind (DELETE (p_profile P) k src L N) (fun d => Ok (VZ 0, [VS src; VZ L; VZ N; VS d]))) by rust k.
  by_rust k E.
Qed.
Lemma replace_call : forall P k a b L N,
  call P "REPLACE" [(string_type k, VS a); (string_type k, VS b); (S_DINT, VZ L); (S_DINT, VZ N)] = string_value k (REPLACE (p_profile P) k a b L N).
Proof.
  intros P k a b L N.
  assert (E : rust_call P (named "REPLACE_EXT" k) [VS a; VS b; VZ L; VZ N; VS ModelWrap.result] =
    obind (REPLACE (p_profile P) k a b L N) (fun d => Ok (VZ 0, [VS a; VS b; VZ L; VZ N; VS d]))) by rust k.
  by_rust k E.
Qed.

(** External functions. *)
Lemma len_call : forall P k src t, holds k src t -> slen t < 2 ^ 31 ->
  call P "LEN" [(string_type k, VS src)] = Ok (S_DINT, VZ (slen t)).
Proof.
  intros P k src t H L. pose proof (len_name P k src t H L) as E.
  destruct k; cbv [named append] in E; exec; rewrite E; reflexivity.
Qed.
Lemma find_call : forall P k a b hs ns, holds k a hs -> holds k b ns -> slen hs < 2 ^ 31 ->
  (ns = [] \/ (forall i, ~ occurs_at ns hs i) ->
     call P "FIND" [(string_type k, VS a); (string_type k, VS b)] = Ok (S_DINT, VZ 0)) /\
  (forall i, ns <> [] -> first_at ns hs i ->
     call P "FIND" [(string_type k, VS a); (string_type k, VS b)] = Ok (S_DINT, VZ (Z.of_nat i + 1))).
Proof.
  intros P k a b hs ns H1 H2 S. destruct (find_name P k a b hs ns H1 H2 S) as [A B]. split.
  - intros I. specialize (A I). destruct k; cbv [named append] in A; exec; rewrite A; reflexivity.
  - intros i X Y. specialize (B i X Y). clear A S Y.
    generalize dependent (Z.of_nat i + 1). intros z B.
    destruct k; cbv [named append] in B; exec; rewrite B; reflexivity.
Qed.

(** Functions that take any number of strings. *)
Lemma coerce_refs : forall x y t l,
  coerce_all (map (fun _ => (x, SizedRef, Var y)) (map fst (map (@pair sty value t) l))) (map (pair t) l) = Ok l.
Proof. intros x y t. induction l as [|v l IH]; [reflexivity|]. cbn [map fst coerce_all]. now rewrite IH. Qed.
Lemma sized_call : forall P f t e ret x args, find_decl f = Some (Decl f e [("T", ANY_STRING)] ret [(x, SizedRef, Var "T")] Empty) ->
  args <> [] -> call P f (map (pair t) args) =
    let! '(v, _) := api P (instance_name f [t]) args in
    match (match find_decl (instance_name f [t]) with Some d => d_ret d | None => ret end) with
    | Ty u => Ok (u, v) | Var "T" => Ok (t, v) | Var _ => Ub
    end.
Proof.
  intros P f t e ret x args F A. unfold call, dispatch. cbv zeta. unfold resolve. rewrite F. destruct args as [|a args]; [contradiction|].
  cbn [d_generic variadic d_params d_ret map fst infer]. rewrite String.eqb_refl. cbn [all_some option_map].
  change (formals [(x, SizedRef, Var "T")] (t :: map fst (map (pair t) args)))
    with (map (fun _ : sty => (x, SizedRef, Var "T")) (map fst (map (@pair sty value t) (a :: args)))).
  change ((t, a) :: map (pair t) args) with (map (@pair sty value t) (a :: args)).
  rewrite coerce_refs. cbn [obind]. destruct (api P (instance_name f [t]) (a :: args)) as [[v outs]| |]; try reflexivity.
  cbn [obind]. destruct (match find_decl (instance_name f [t]) with Some d => d_ret d | None => ret end) as [u|y]; [reflexivity|].
  cbn [map fst infer].
  destruct (String.eqb_spec y "T") as [->|N]; [reflexivity|].
  assert (I : forall l, infer y (map (fun _ : sty => (x, SizedRef, Var "T")) l) l = None).
  { induction l as [|u l IH]; [reflexivity|]. cbn [map infer]. destruct (String.eqb_spec y "T"); [contradiction|exact IH]. }
  rewrite (I (map fst (map (pair t) args))). destruct y as [|c y]; [reflexivity|]. cbn [obind].
  destruct c as [[] [] [] [] [] [] [] []]; try reflexivity. destruct y; [now contradiction N|reflexivity].
Qed.
Lemma concat_call : forall P k argv, argv <> [] ->
  call P "CONCAT" (map (fun m => (string_type k, VS m)) argv) = string_value k (CONCAT_ALL k argv).
Proof.
  intros P k argv N. rewrite <- (map_map VS (pair (string_type k))).
  rewrite (sized_call P "CONCAT" (string_type k) false (Var "T") "args"); [|vm_compute; reflexivity|destruct argv; [contradiction|discriminate]].
  assert (E : api P (instance_name "CONCAT" [string_type k]) (map VS argv) = obind (CONCAT_ALL k argv) (fun d => Ok (VS d, map VS argv))).
  { destruct k.
    - change (api P (instance_name "CONCAT" [string_type STRING]) (map VS argv)) with (rust_call P "CONCAT__STRING" (map VS argv)).
      name_of. cbv [concat_fn]. rewrite strings_map. reflexivity.
    - change (api P (instance_name "CONCAT" [string_type WSTRING]) (map VS argv)) with (rust_call P "CONCAT__WSTRING" (map VS argv)).
      name_of. cbv [concat_fn]. rewrite strings_map. reflexivity. }
  rewrite E. destruct (CONCAT_ALL k argv); [|reflexivity..]. destruct k; reflexivity.
Qed.
Lemma relation_call : forall P k f argv, List.In f ["GT"; "GE"; "EQ"; "LE"; "LT"] -> argv <> [] ->
  call P f (map (fun m => (string_type k, VS m)) argv) =
  let! '(v, _) := rust_call P (named f k) (map VS argv) in Ok (S_BOOL, v).
Proof.
  intros P k f argv F N. rewrite <- (map_map VS (pair (string_type k))).
  repeat (destruct F as [<-|F];
    [erewrite (sized_call P _ (string_type k) true (Ty S_BOOL) "IN1"); [destruct k; reflexivity|vm_compute; reflexivity|destruct argv; [contradiction|discriminate]]|]).
  destruct F.
Qed.
Lemma tells_decides : forall (p : Prop) o args, decides o args p -> tells p (let! '(v, _) := o in Ok (S_BOOL, v)).
Proof. intros p o args [[H ->]|[H ->]]; [left|right]; now split. Qed.
Lemma compare_call : forall P k argv strs, Forall2 reads argv strs -> (2 <= length strs)%nat ->
  let args := map (fun m => (string_type k, VS m)) argv in
  tells (all_pairs (fun a b => lex_lt b a) strs) (call P "GT" args) /\
  tells (all_pairs (fun a b => lex_le b a) strs) (call P "GE" args) /\
  tells (all_pairs eq strs) (call P "EQ" args) /\
  tells (all_pairs lex_le strs) (call P "LE" args) /\
  tells (all_pairs lex_lt strs) (call P "LT" args).
Proof.
  intros P k argv strs F L args. destruct (compare_name P k argv strs F L) as (A & B & C & D & E).
  assert (N : argv <> []) by (intros ->; inversion F; subst; cbn in L; lia).
  unfold args. rewrite !relation_call by (try exact N; cbn; tauto).
  exact (conj (tells_decides _ _ _ A) (conj (tells_decides _ _ _ B) (conj (tells_decides _ _ _ C)
    (conj (tells_decides _ _ _ D) (tells_decides _ _ _ E))))).
Qed.
Lemma ne_call : forall P k a b s t, reads a s -> reads b t ->
  tells (s <> t) (call P "NE" [(string_type k, VS a); (string_type k, VS b)]).
Proof.
  intros P k a b s t A B. pose proof (tells_decides _ _ _ (ne_name P k a b s t A B)) as T.
  assert (E : call P "NE" [(string_type k, VS a); (string_type k, VS b)] =
    let! '(v, _) := rust_call P (named "NE" k) [VS a; VS b] in Ok (S_BOOL, v)).
  { destruct k; cbv [named append]; exec.
    - destruct (rust_call P "NE__STRING" [VS a; VS b]) as [[v o]| |]; reflexivity.
    - destruct (rust_call P "NE__WSTRING" [VS a; VS b]) as [[v o]| |]; reflexivity. }
  rewrite E. exact T.
Qed.
(** The comparison functions of the compiler's operators. *)
Lemma operators_call : forall P k a b s t, reads a s -> reads b t ->
  let args := [(string_type k, VS a); (string_type k, VS b)] in
  tells (lex_lt (firstn 80 s) (firstn 80 t)) (call P (ty_name (string_type k) ++ "_LESS") args) /\
  tells (firstn 80 s = firstn 80 t) (call P (ty_name (string_type k) ++ "_EQUAL") args) /\
  tells (lex_lt (firstn 80 t) (firstn 80 s)) (call P (ty_name (string_type k) ++ "_GREATER") args).
Proof.
  intros P k a b s t A B args. destruct (comparisons a b s t A B) as (lt & eq & gt & L & E & G & L' & E' & G').
  assert (X : call P (ty_name (string_type k) ++ "_LESS") args = Ok (S_BOOL, VZ (Z.b2z lt)) /\
    call P (ty_name (string_type k) ++ "_EQUAL") args = Ok (S_BOOL, VZ (Z.b2z eq)) /\
    call P (ty_name (string_type k) ++ "_GREATER") args = Ok (S_BOOL, VZ (Z.b2z gt))).
  { unfold args. destruct k; lazy -[STRING_LESS STRING_EQUAL STRING_GREATER Z.b2z]; rewrite L, E, G; repeat split; reflexivity. }
  destruct X as (-> & -> & ->). split; [|split].
  - destruct lt; [left|right]; (split; [intuition congruence|reflexivity]).
  - destruct eq; [left|right]; (split; [intuition congruence|reflexivity]).
  - destruct gt; [left|right]; (split; [intuition congruence|reflexivity]).
Qed.
(** Between STRING and WSTRING. *)
Lemma to_string_call : forall P src, call P "WSTRING_TO_STRING" [(S_WSTRING, VS src)] = string_value STRING (WSTRING_TO_STRING src).
Proof.
  intros P src.
  assert (E : rust_call P "WSTRING_TO_STRING_EXT" [VS src; VS ModelWrap.result] =
    obind (WSTRING_TO_STRING src) (fun d => Ok (VZ 0, [VS src; VS d]))) by (name_of; reflexivity).
  exec. rewrite E. destruct (WSTRING_TO_STRING src); reflexivity.
Qed.
Lemma to_wstring_call : forall P src, call P "STRING_TO_WSTRING" [(S_STRING, VS src)] = string_value WSTRING (STRING_TO_WSTRING src).
Proof.
  intros P src.
  assert (E : rust_call P "STRING_TO_WSTRING_EXT" [VS src; VS ModelWrap.result] =
    obind (STRING_TO_WSTRING src) (fun d => Ok (VZ 0, [VS src; VS d]))) by (name_of; reflexivity).
  exec. rewrite E. destruct (STRING_TO_WSTRING src); reflexivity.
Qed.
Lemma to_char_call : forall P k u src s, reads src (u :: s) ->
  call P (match k with STRING => "STRING_TO_CHAR" | WSTRING => "WSTRING_TO_WCHAR" end) [(string_type k, VS src)] =
  Ok (match k with STRING => S_CHAR | WSTRING => S_WCHAR end, VZ u).
Proof. intros P k u src s [_ (r & ->)]. destruct k; lazy; reflexivity. Qed.
