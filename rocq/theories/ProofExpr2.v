(** Bit, selection, byte order and time functions in expressions. *)
From Coq Require Import String Ascii ZArith Lia List Bool SpecFloat Permutation.
From Verif Require Import Base ModelFloat ModelScalar ModelTimeNum ModelText ModelString ModelExtra ModelDate ModelChrono ModelST ModelWrap ModelLink ModelLib
  ModelApi SpecScalar SpecST SpecDate SpecText SpecLink SpecConv SpecLib SpecName SpecWrap SpecCall SpecExpr ProofBase ProofScalar ProofLib ProofLib2 ProofConv ProofApi3 ProofCall2 ProofCall4 ProofExpr.
Import ListNotations.
Open Scope string_scope.
Open Scope list_scope.
Open Scope Z_scope.

Definition result_type (d : decl) (ts : list sty) : option sty :=
  match d_ret d with Ty t => Some t | Var x => infer x (ModelApi.formals (d_params d) ts) ts end.
Fixpoint same_types (ps : list (string * pkind * tyref)) (ts : list sty) : bool :=
  match ps, ts with
  | [], [] => true
  | (_, _, Ty t) :: ps', s :: ts' => rty_eqb (repr s) (repr t) && same_types ps' ts'
  | (_, _, Var _) :: ps', _ :: ts' => same_types ps' ts'
  | _, _ => false
  end.
Lemma same_coerce : forall ps l, same_types ps (map fst l) = true -> coerce_all ps l = Ok (map snd l).
Proof.
  induction ps as [|[[x k] [t|y]] ps IH]; intros [|[s v] l] H; try discriminate; [reflexivity| |].
  - cbn in H. apply andb_true_iff in H as [E H]. cbn [coerce_all]. unfold coerce. rewrite E. cbn [obind]. now rewrite (IH _ H).
  - cbn in H. cbn [coerce_all]. now rewrite (IH _ H).
Qed.
(** The call of [f] with arguments of types [ts] is the exported function [n] with result type [u]. *)
Definition exported (f : string) (ts : list sty) (n : string) (u : sty) : bool :=
  match find_decl f with
  | Some d =>
      match resolve f ts with Some m => String.eqb m n | None => false end && same_types (ModelApi.formals (d_params d) ts) ts &&
      match result_type d ts with Some t => sty_eqb t u | None => false end &&
      match find_decl n with None => true | Some _ => false end && match find_code n with Some _ => true | None => false end
  | None => false
  end.
Lemma generic_call : forall P f l n u, exported f (map fst l) n u = true ->
  call P f l = omap (fun v => (u, v)) (result (rust_call P n (map snd l))).
Proof.
  intros P f l n u H. unfold exported in H. destruct (find_decl f) as [d|] eqn:D; [|discriminate].
  apply andb_true_iff in H as [H H5]. apply andb_true_iff in H as [H H4]. apply andb_true_iff in H as [H H3].
  apply andb_true_iff in H as [H1 H2]. destruct (resolve f (map fst l)) as [m|] eqn:R; [|discriminate].
  apply String.eqb_eq in H1. subst m. destruct (find_decl n) eqn:N; [discriminate|].
  destruct (find_code n) as [c|] eqn:K; [|discriminate]. destruct (result_type d (map fst l)) as [t|] eqn:U; [|discriminate].
  apply ProofConv.sty_eqb_iff in H3. subst t.
  unfold call, dispatch. cbv zeta. rewrite D, R, (same_coerce _ _ H2), N. cbn [obind].
  assert (A : api P n (map snd l) = rust_call P n (map snd l)) by (unfold api; cbn [invoke]; rewrite N; unfold basic; now rewrite K).
  rewrite A. unfold result_type in U. destruct (rust_call P n (map snd l)) as [[v outs]| |]; [|reflexivity..].
  cbn [obind omap result fst]. destruct (d_ret d) as [t|x]; [now injection U as ->|now rewrite U].
Qed.
(** One call for every function and type. *)
Definition bit_names := ["SHL"; "SHR"; "ROL"; "ROR"].
Definition order_names := ["TO_BIG_ENDIAN"; "TO_LITTLE_ENDIAN"; "FROM_BIG_ENDIAN"; "FROM_LITTLE_ENDIAN"].
Definition scale_names := [("MUL", "MUL__TIME"); ("MUL_TIME", "MUL_TIME"); ("DIV", "DIV__TIME"); ("DIV_TIME", "DIV_TIME")].
Lemma calls_checked :
  forallb (fun f => forallb (fun t => exported f [t; S_UDINT] (instance_name f [t]) t) bit_strings) bit_names = true /\
  forallb (fun f => forallb (fun t => exported f [t] (instance_name f [t]) t) byte_ordered) order_names = true /\
  forallb (fun t => exported "LIMIT" [t; t; t] (instance_name "LIMIT" [t]) t) ordered = true /\
  forallb (fun fF => forallb (fun t => exported (fst fF) [S_TIME; t] (instance_name (snd fF) [t]) S_TIME) integers) scale_names = true.
Proof. repeat split; vm_compute; reflexivity. Qed.
Ltac table H := repeat match type of H with
  | forallb _ _ = true => rewrite forallb_forall in H end.
Lemma bit_calls : forall P f t x n, List.In f bit_names -> List.In t bit_strings ->
  call P f [(t, VZ x); (S_UDINT, VZ n)] = omap (fun v => (t, v)) (result (rust_call P (instance_name f [t]) [VZ x; VZ n])).
Proof.
  intros P f t x n F T. apply (generic_call P f [(t, VZ x); (S_UDINT, VZ n)]). destruct calls_checked as (H & _).
  rewrite forallb_forall in H. specialize (H f F). rewrite forallb_forall in H. exact (H t T).
Qed.
Lemma order_calls : forall P f t x, List.In f order_names ->
  List.In t byte_ordered -> call P f [(t, VZ x)] = omap (fun v => (t, v)) (result (rust_call P (instance_name f [t]) [VZ x])).
Proof.
  intros P f t x F T. apply (generic_call P f [(t, VZ x)]). destruct calls_checked as (_ & H & _).
  rewrite forallb_forall in H. specialize (H f F). rewrite forallb_forall in H. exact (H t T).
Qed.
Lemma limit_calls : forall P t a x b, List.In t ordered ->
  call P "LIMIT" [(t, VZ a); (t, VZ x); (t, VZ b)] = omap (fun v => (t, v)) (result (rust_call P (instance_name "LIMIT" [t]) [VZ a; VZ x; VZ b])).
Proof.
  intros P t a x b T. apply (generic_call P "LIMIT" [(t, VZ a); (t, VZ x); (t, VZ b)]). destruct calls_checked as (_ & _ & H & _).
  rewrite forallb_forall in H. exact (H t T).
Qed.
Lemma scale_calls : forall P f F t a z, List.In (f, F) scale_names ->
  List.In t integers -> call P f [(S_TIME, VZ a); (t, VZ z)] = omap (fun v => (S_TIME, v)) (result (rust_call P (instance_name F [t]) [VZ a; VZ z])).
Proof.
  intros P f F t a z H T. apply (generic_call P f [(S_TIME, VZ a); (t, VZ z)]). destruct calls_checked as (_ & _ & _ & C).
  rewrite forallb_forall in C. specialize (C _ H). rewrite forallb_forall in C. exact (C t T).
Qed.
