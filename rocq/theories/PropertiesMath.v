(** Property C101: elementary functions. *)
From Coq Require Import String ZArith List Bool Reals Lra SpecFloat.
From Flocq Require Import Core BinarySingleNaN.
From Verif Require Import Base ModelFloat ModelTimeNum ModelLib SpecScalar SpecTimeNum SpecReal SpecST SpecMath ProofReal ProofMath PropertiesLib.
Import ListNotations.
Open Scope list_scope.
Open Scope string_scope.
Open Scope R_scope.

(** * C101: an elementary function computes what its name says, as accurately as the mathematical
    library of the platform *)
Theorem C101_functions : forall P close F D g X f x, accurate P close -> List.In (F, D, g) functions ->
  List.In (X, f) float_names -> fl_valid f x -> fl_finite x = true -> D (fl_value x) ->
  exists y, rust_call P (F ++ "__" ++ X) [VF x] = Ok (VF y, [VF x]) /\ close f y (g (fl_value x)).
Proof. exact function_name. Qed.
Print Assumptions C101_functions.
Theorem C101_atan2 : forall P close X f y x t, accurate P close ->
  List.In (X, f) float_names -> fl_valid f y -> fl_finite y = true -> fl_valid f x -> fl_finite x = true ->
  fl_value y <> 0 \/ 0 < fl_value x -> angle t (fl_value y) (fl_value x) ->
  exists z, rust_call P ("ATAN2__" ++ X) [VF y; VF x] = Ok (VF z, [VF y; VF x]) /\ close f z t.
Proof. exact atan2_name. Qed.
Print Assumptions C101_atan2.
Theorem C101_expt : forall P close X f x e r, accurate P close ->
  List.In (X, f) float_names -> fl_valid f x -> fl_finite x = true -> fl_valid f e -> fl_finite e = true ->
  power r (fl_value x) (fl_value e) ->
  exists y, rust_call P ("EXPT__" ++ X ++ "__" ++ X) [VF x; VF e] = Ok (VF y, [VF x; VF e]) /\ close f y r.
Proof. exact expt_float_name. Qed.
Print Assumptions C101_expt.
Theorem C101_expt_lreal_real : forall P close x e r, accurate P close ->
  fl_valid F64 x -> fl_finite x = true -> fl_valid F32 e -> fl_finite e = true ->
  power r (fl_value x) (fl_value e) ->
  exists y, rust_call P "EXPT__LREAL__REAL" [VF x; VF e] = Ok (VF y, [VF x; VF e]) /\ close F64 y r.
Proof. exact expt_widened_name. Qed.
Print Assumptions C101_expt_lreal_real.
Theorem C101_expt_real_lreal : forall P close x e, accurate P close ->
  fl_valid F32 x -> fl_finite x = true -> fl_valid F64 e -> fl_finite e = true ->
  Rabs (fl_value e) < IZR (2 ^ 128 - 2 ^ 103) ->
  exists e' y, nearest_even F32 e' (fl_value e) /\
    rust_call P "EXPT__REAL__LREAL" [VF x; VF e] = Ok (VF y, [VF x; VF e]) /\
    forall r, power r (fl_value x) (fl_value e') -> close F32 y r.
Proof. exact expt_narrowed_name. Qed.
Print Assumptions C101_expt_real_lreal.
Ltac value := match goal with |- fl_value ?x = _ => let y := eval vm_compute in x in change x with y end;
  unfold fl_value, sf_value, fl_sf, SF2R, F2R; cbn [cond_Zopp Fnum Fexp bpow];
  match goal with |- context [Z.pow_pos ?a ?b] => let y := eval vm_compute in (Z.pow_pos a b) in change (Z.pow_pos a b) with y end; lra.
(** The assumption is met by a library that rounds correctly (with [correctly f y r]: [y] is the
    nearest number of the format, to even, unless [r] is out of its range). *)
Example C101_assumption : accurate (ideal here) correctly.
Proof. apply ideal_accurate. Qed.
Example C101_example : let one := from_bits F32 1065353216 in let two := from_bits F64 4611686018427387904 in
  let half := from_bits F32 1056964608 in
  fl_valid F32 one /\ fl_finite one = true /\ fl_valid F64 two /\ fl_finite two = true /\ fl_valid F32 half /\
  0 < fl_value one /\ angle (PI / 4) (fl_value one) (fl_value one) /\ power (sqrt (fl_value two)) (fl_value two) (fl_value half) /\
  power (-8) (-2) 3 /\
  (exists y, rust_call (ideal here) "LN__REAL" [VF one] = Ok (VF y, [VF one]) /\ correctly F32 y (ln 1)) /\
  (exists y, rust_call (ideal here) "ATAN2__REAL" [VF one; VF one] = Ok (VF y, [VF one; VF one]) /\ correctly F32 y (PI / 4)) /\
  (exists y, rust_call (ideal here) "EXPT__LREAL__REAL" [VF two; VF half] = Ok (VF y, [VF two; VF half]) /\ correctly F64 y (sqrt 2)).
Proof.
  intros one two half.
  assert (V1 : fl_value one = 1) by value.
  assert (V2 : fl_value two = 2) by value.
  assert (V3 : fl_value half = / 2) by value.
  assert (A : angle (PI / 4) (fl_value one) (fl_value one)).
  { rewrite V1. pose proof PI_RGT_0. split; [lra|]. exists (sqrt 2).
    assert (0 < sqrt 2) by (apply sqrt_lt_R0; lra).
    rewrite cos_PI4, sin_PI4. split; [assumption|]. split; field; lra. }
  assert (P : power (sqrt (fl_value two)) (fl_value two) (fl_value half)).
  { left. rewrite V2, V3. split; [lra|]. symmetry. apply Rpower_sqrt. lra. }
  assert (P' : power (-8) (-2) 3).
  { right. split; [lra|]. exists 3%Z. split; [reflexivity|]. change (-8 = (-2) ^ 3). simpl. lra. }
  assert (H1 : fl_valid F32 one) by (vm_compute; reflexivity).
  assert (H2 : fl_finite one = true) by (vm_compute; reflexivity).
  assert (H3 : fl_valid F64 two) by (vm_compute; reflexivity).
  assert (H4 : fl_finite two = true) by (vm_compute; reflexivity).
  assert (H5 : fl_valid F32 half) by (vm_compute; reflexivity).
  assert (H6 : fl_finite half = true) by (vm_compute; reflexivity).
  assert (H7 : 0 < fl_value one) by (rewrite V1; lra).
  do 7 (split; [assumption|]). split; [exact P|]. split; [exact P'|]. split; [|split].
  - destruct (C101_functions (ideal here) correctly "LN" (fun x => 0 < x) ln "REAL" F32 one) as (y & E & C);
      [apply C101_assumption|cbn; tauto|now left|assumption..|]. rewrite V1 in C. exists y. exact (conj E C).
  - destruct (C101_atan2 (ideal here) correctly "REAL" F32 one one (PI / 4)) as (y & E & C);
      [apply C101_assumption|now left|assumption..|now right|assumption|]. exists y. exact (conj E C).
  - destruct (C101_expt_lreal_real (ideal here) correctly two half (sqrt (fl_value two))) as (y & E & C);
      [apply C101_assumption|assumption..|]. rewrite V2 in C. exists y. exact (conj E C).
Qed.
