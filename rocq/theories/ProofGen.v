(** Lemmas for PropertiesGen.v. *)
From Coq Require Import String ZArith List Bool Lia SpecFloat Reals Lra.
From Flocq Require Import Core BinarySingleNaN.
From Verif Require Import Base ModelFloat ModelChrono ModelArith ModelST ModelGen SpecScalar SpecST SpecReal
  ProofBase ProofReal ProofReal2 ProofST ProofST2.
Import ListNotations.
Open Scope string_scope.
Open Scope Z_scope.

Lemma gen_interface :
  map (fun f => (fn_name f, fn_args f, fn_ret f)) generated =
  map (fun f => (fn_name f, fn_args f, fn_ret f)) num_conversion_st.
Proof. vm_compute. reflexivity. Qed.

Lemma gen_names : forall n, List.In n (map fn_name generated) <->
  exists x y, List.In x (map fst numeric_names ++ map fst float_names)%list /\
    List.In y (map fst numeric_names ++ map fst float_names)%list /\ x <> y /\ n = to x y.
Proof.
  intros n. split.
  - intros H.
    assert (G : forallb (fun m => existsb (fun x => existsb (fun y =>
        negb (String.eqb x y) && String.eqb m (to x y))
        (map fst numeric_names ++ map fst float_names)%list)
        (map fst numeric_names ++ map fst float_names)%list) (map fn_name generated) = true)
      by (vm_compute; reflexivity).
    apply (proj1 (forallb_forall _ _) G) in H.
    apply existsb_exists in H. destruct H as (x & X & H).
    apply existsb_exists in H. destruct H as (y & Y & H).
    apply andb_true_iff in H. destruct H as [N E]. apply String.eqb_eq in E.
    exists x, y. repeat split; auto. intros ->. rewrite String.eqb_refl in N. discriminate N.
  - intros (x & y & X & Y & N & ->).
    assert (G : forallb (fun x => forallb (fun y => String.eqb x y ||
        existsb (String.eqb (to x y)) (map fn_name generated))
        (map fst numeric_names ++ map fst float_names)%list)
        (map fst numeric_names ++ map fst float_names)%list = true) by (vm_compute; reflexivity).
    apply (proj1 (forallb_forall _ _) G) in X. apply (proj1 (forallb_forall _ _) X) in Y.
    apply orb_true_iff in Y. destruct Y as [E|E].
    + apply String.eqb_eq in E. contradiction.
    + apply existsb_exists in E. destruct E as (m & M & E). apply String.eqb_eq in E. now subst m.
Qed.

Lemma gen_differs : exists n x, List.In n (map fn_name generated) /\
  fl_valid F64 x /\ fl_finite x = true /\ forall v,
  st_call v n [VFl x] = Ok (VInt 3) /\ gen_call v n [VFl x] = Ok (VInt 2).
Proof.
  (* 2.75 *)
  exists "LREAL_TO_DINT", (from_bits F64 4613374868287651840). split.
  { vm_compute. tauto. }
  split; [vm_compute; reflexivity|]. split; [reflexivity|].
  intros v. split; vm_compute; reflexivity.
Qed.

(** Calls of a generated function: one cast. *)
Lemma gen_one : forall v X f Y t x, List.In (X, f) float_names -> List.In (Y, t) numeric_names ->
  gen_call v (to X Y) [VFl x] = st_cast (TFloat f) (TInt t) (VFl x).
Proof.
  intros v X f Y t x HX HY.
  assert (Q : gen_call v (to X Y) [VFl x] =
    let! r := st_cast (TFloat f) (TInt t) (VFl x) in Ok r).
  { destruct HX as [HX|[HX|[]]]; injection HX as <- <-; simpl in HY;
    repeat (destruct HY as [HY|HY]; [injection HY as <- <-; reflexivity|]); destruct HY. }
  rewrite Q. destruct (st_cast _ _ _); reflexivity.
Qed.

Lemma gen_real_to_int : forall v X f Y t x, List.In (X, f) float_names ->
  List.In (Y, t) numeric_names -> fl_finite x = true ->
  exists k, integer_part k (fl_value x) /\
    gen_call v (to X Y) [VFl x] = if in_ityb t k then Ok (VInt k) else Ub.
Proof.
  intros v X f Y t x HX HY F. destruct (trunc_spec x F) as (k & K & P). exists k.
  split; [exact P|]. rewrite (gen_one v X f Y t x HX HY). cbn [st_cast]. now rewrite K.
Qed.

Lemma gen_whole : forall v X f Y t x k, List.In (X, f) float_names ->
  List.In (Y, t) numeric_names -> fl_valid f x -> fl_finite x = true -> fl_value x = IZR k ->
  gen_call v (to X Y) [VFl x] = st_call v (to X Y) [VFl x].
Proof.
  intros v X f Y t x k HX HY V F E.
  destruct (real_to_int v X f (to X Y) t x HX (round_ext X f Y t HX HY) V F) as (j & J & ->).
  rewrite (gen_one v X f Y t x HX HY). cbn [st_cast]. rewrite (trunc_int x k F E).
  replace j with k; [reflexivity|].
  apply (nearest_int_unique k j (fl_value x)); [|exact J]. now apply nearest_int_exact.
Qed.

(** The functions whose name is not REAL or LREAL to integer. *)
Definition real_int_names : list string :=
  flat_map (fun X => map (to X) (map fst numeric_names)) (map fst float_names).
Definition other_names : list string :=
  filter (fun n => negb (existsb (String.eqb n) real_int_names)) (map fn_name generated).
Lemma others_same : Forall (fun n => exists f,
  find (fun f => String.eqb (fn_name f) n) generated = Some f /\ find_fun n = Some f) other_names.
Proof.
  let l := eval vm_compute in other_names in change other_names with l.
  repeat (constructor; [eexists; split; vm_compute; reflexivity|]). constructor.
Qed.
Lemma gen_others : forall v n args, List.In n (map fn_name generated) ->
  (forall X Y, List.In X (map fst float_names) -> List.In Y (map fst numeric_names) -> n <> to X Y) ->
  gen_call v n args = st_call v n args.
Proof.
  intros v n args H N.
  assert (O : List.In n other_names).
  { apply filter_In. split; [exact H|]. apply negb_true_iff.
    destruct (existsb (String.eqb n) real_int_names) eqn:E; [|reflexivity]. exfalso.
    apply existsb_exists in E. destruct E as (m & M & E). apply String.eqb_eq in E. subst m.
    apply in_flat_map in M. destruct M as (X & HX & M). apply in_map_iff in M.
    destruct M as (Y & E & HY). exact (N X Y HX HY (eq_sym E)). }
  destruct (proj1 (Forall_forall _ _) others_same n O) as (f & A & B).
  unfold gen_call, st_call. cbn [st_call_fuel]. rewrite A, B.
  destruct (cast_all _ _); cbn [obind]; try reflexivity.
  destruct (st_block _ _ _ _); reflexivity.
Qed.
