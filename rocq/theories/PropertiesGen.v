(** Property C108: the generator script and the conversion functions in the library.
    [gen_call] calls a function of the file the script writes, [st_call] the library function. *)
From Coq Require Import String ZArith List Bool Lia SpecFloat Reals.
From Verif Require Import Base ModelFloat ModelChrono ModelST ModelGen SpecScalar SpecST SpecReal ProofGen.
Import ListNotations.
Open Scope string_scope.
Open Scope Z_scope.

(** The script writes the functions of the library's file: same names, parameters, result types,
    same order. *)
Theorem C108_interface :
  map (fun f => (fn_name f, fn_args f, fn_ret f)) generated =
  map (fun f => (fn_name f, fn_args f, fn_ret f)) num_conversion_st.
Proof. exact gen_interface. Qed.
Print Assumptions C108_interface.
(** All of them, and only them, are defined by the script. *)
Theorem C108_names : forall n, List.In n (map fn_name generated) <->
  exists x y, List.In x (map fst numeric_names ++ map fst float_names)%list /\
    List.In y (map fst numeric_names ++ map fst float_names)%list /\ x <> y /\ n = to x y.
Proof. exact gen_names. Qed.
Print Assumptions C108_names.
(** They do not all behave the same: LREAL 2.75 to DINT is 3 in the library, 2 if regenerated. *)
Theorem C108_regenerate_refuted : exists n x, List.In n (map fn_name generated) /\
  fl_valid F64 x /\ fl_finite x = true /\ forall v,
  st_call v n [VFl x] = Ok (VInt 3) /\ gen_call v n [VFl x] = Ok (VInt 2).
Proof. exact gen_differs. Qed.
Print Assumptions C108_regenerate_refuted.
(** What a regenerated REAL or LREAL to integer conversion does. *)
Theorem C108_real_to_int_partial : forall v X f Y t x, List.In (X, f) float_names ->
  List.In (Y, t) numeric_names -> fl_finite x = true ->
  exists k, integer_part k (fl_value x) /\
    gen_call v (to X Y) [VFl x] = if in_ityb t k then Ok (VInt k) else Ub.
Proof. exact gen_real_to_int. Qed.
Print Assumptions C108_real_to_int_partial.
(** On whole numbers the two agree, and on every argument for the other 74 functions. *)
Theorem C108_whole_partial : forall v X f Y t x k, List.In (X, f) float_names ->
  List.In (Y, t) numeric_names -> fl_valid f x -> fl_finite x = true -> fl_value x = IZR k ->
  gen_call v (to X Y) [VFl x] = st_call v (to X Y) [VFl x].
Proof. exact gen_whole. Qed.
Print Assumptions C108_whole_partial.
Theorem C108_others_partial : forall v n args, List.In n (map fn_name generated) ->
  (forall X Y, List.In X (map fst float_names) -> List.In Y (map fst numeric_names) -> n <> to X Y) ->
  gen_call v n args = st_call v n args.
Proof. exact gen_others. Qed.
Print Assumptions C108_others_partial.
Example C108_example : forall v,
  length generated = 90%nat /\
  (* -3.5 *)
  st_call v "REAL_TO_SINT" [VFl (from_bits F32 3227516928)] = Ok (VInt (-4)) /\
  gen_call v "REAL_TO_SINT" [VFl (from_bits F32 3227516928)] = Ok (VInt (-3)) /\
  (* 40.0 *)
  gen_call v "REAL_TO_SINT" [VFl (from_bits F32 1109393408)] = Ok (VInt 40) /\
  gen_call v "DINT_TO_UINT" [VInt (-70000)] = Ok (VInt 61072).
Proof. intros v. repeat split; vm_compute; reflexivity. Qed.
