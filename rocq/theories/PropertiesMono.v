(** Property C103: order. *)
From Coq Require Import String ZArith List Bool Reals Lra SpecFloat.
From Flocq Require Import Core BinarySingleNaN.
From Verif Require Import Base ModelFloat ModelTimeNum ModelST ModelLink ModelLib SpecScalar SpecTimeNum SpecReal SpecST SpecLib SpecLink SpecMono
  ProofMono2 PropertiesLib.
Import ListNotations.
Open Scope list_scope.
Open Scope string_scope.
Open Scope R_scope.

(** * C103: numeric conversions, and TIME scaled by a positive REAL or LREAL, preserve order *)
Theorem C103_int_to_real : forall v X s Y f z z', List.In (X, s) numeric_names -> List.In (Y, f) float_names ->
  in_ity s z -> in_ity s z' -> (z <= z')%Z ->
  exists x x', st_call v (to X Y) [VInt z] = Ok (VFl x) /\ st_call v (to X Y) [VInt z'] = Ok (VFl x') /\
    fl_value x <= fl_value x'.
Proof. exact int_real_mono. Qed.
Print Assumptions C103_int_to_real.
Theorem C103_time_to_lreal : forall v X z z', List.In X ["TIME"; "LTIME"] ->
  in_ity i64 z -> in_ity i64 z' -> (z <= z')%Z ->
  exists x x', st_call v (to X "LREAL") [VInt z] = Ok (VFl x) /\ st_call v (to X "LREAL") [VInt z'] = Ok (VFl x') /\
    fl_value x <= fl_value x'.
Proof. exact time_lreal_mono. Qed.
Print Assumptions C103_time_to_lreal.
Theorem C103_real_to_int : forall v X f Y t x x' z z', List.In (X, f) float_names -> List.In (Y, t) numeric_names ->
  fl_valid f x -> fl_finite x = true -> fl_valid f x' -> fl_finite x' = true -> fl_value x <= fl_value x' ->
  st_call v (to X Y) [VFl x] = Ok (VInt z) -> st_call v (to X Y) [VFl x'] = Ok (VInt z') -> (z <= z')%Z.
Proof. exact real_int_mono. Qed.
Print Assumptions C103_real_to_int.
Theorem C103_lreal_to_time : forall v Y x x' z z', List.In Y ["TIME"; "LTIME"] ->
  fl_valid F64 x -> fl_finite x = true -> fl_valid F64 x' -> fl_finite x' = true -> fl_value x <= fl_value x' ->
  st_call v (to "LREAL" Y) [VFl x] = Ok (VInt z) -> st_call v (to "LREAL" Y) [VFl x'] = Ok (VInt z') -> (z <= z')%Z.
Proof. exact lreal_time_mono. Qed.
Print Assumptions C103_lreal_to_time.
Theorem C103_trunc : forall v X f x x' z z', List.In (X, f) float_names ->
  fl_finite x = true -> fl_finite x' = true -> fl_value x <= fl_value x' ->
  st_call v ("TRUNC__" ++ X) [VFl x] = Ok (VInt z) -> st_call v ("TRUNC__" ++ X) [VFl x'] = Ok (VInt z') -> (z <= z')%Z.
Proof. exact trunc_mono. Qed.
Print Assumptions C103_trunc.
Theorem C103_round : forall v X f x x', List.In (X, f) float_names ->
  fl_valid f x -> fl_finite x = true -> fl_valid f x' -> fl_finite x' = true -> fl_value x <= fl_value x' ->
  exists y y', st_call v ("ROUND__" ++ X) [VFl x] = Ok (VFl y) /\ st_call v ("ROUND__" ++ X) [VFl x'] = Ok (VFl y') /\
    fl_value y <= fl_value y'.
Proof. exact round_mono. Qed.
Print Assumptions C103_round.
Theorem C103_real_to_lreal : forall v x x', fl_valid F32 x -> fl_valid F32 x' -> at_most x x' ->
  exists y y', st_call v "REAL_TO_LREAL" [VFl x] = Ok (VFl y) /\ st_call v "REAL_TO_LREAL" [VFl x'] = Ok (VFl y') /\
    at_most y y'.
Proof. exact real_lreal_mono. Qed.
Print Assumptions C103_real_to_lreal.
Theorem C103_lreal_to_real : forall v x x', fl_valid F64 x -> fl_valid F64 x' -> at_most x x' ->
  exists y y', st_call v "LREAL_TO_REAL" [VFl x] = Ok (VFl y) /\ st_call v "LREAL_TO_REAL" [VFl x'] = Ok (VFl y') /\
    at_most y y'.
Proof. exact lreal_real_mono. Qed.
Print Assumptions C103_lreal_to_real.
(** Longer times, and for non-negative times larger factors, give longer products. *)
Theorem C103_product : forall P F X f t t' x x' r r', List.In F products -> List.In (X, f) float_names ->
  of_type S_TIME t -> of_type S_TIME t' -> fl_valid f x -> fl_finite x = true -> fl_valid f x' -> fl_finite x' = true ->
  0 < fl_value x <= fl_value x' -> (t <= t')%Z -> (x = x' \/ (0 <= t)%Z) ->
  result (rust_call P (F ++ "__" ++ X) [VZ t; VF x]) = Int r ->
  result (rust_call P (F ++ "__" ++ X) [VZ t'; VF x']) = Int r' -> (r <= r')%Z.
Proof. exact product_mono. Qed.
Print Assumptions C103_product.
(** Longer times, and for non-negative times smaller divisors, give longer quotients. *)
Theorem C103_quotient : forall P F X f t t' x x' r r', List.In F quotients -> List.In (X, f) float_names ->
  of_type S_TIME t -> of_type S_TIME t' -> fl_valid f x -> fl_finite x = true -> fl_valid f x' -> fl_finite x' = true ->
  0 < fl_value x' <= fl_value x -> (t <= t')%Z -> (x = x' \/ (0 <= t)%Z) ->
  result (rust_call P (F ++ "__" ++ X) [VZ t; VF x]) = Int r ->
  result (rust_call P (F ++ "__" ++ X) [VZ t'; VF x']) = Int r' -> (r <= r')%Z.
Proof. exact quotient_mono. Qed.
Print Assumptions C103_quotient.

Ltac value := match goal with |- fl_value ?x = _ => let y := eval vm_compute in x in change x with y end;
  unfold fl_value, sf_value, fl_sf, SF2R, F2R; cbn [cond_Zopp Fnum Fexp bpow];
  match goal with |- context [Z.pow_pos ?a ?b] => let y := eval vm_compute in (Z.pow_pos a b) in change (Z.pow_pos a b) with y end; lra.
(** 1.5 and 2.5 as REAL and LREAL. *)
Example C103_example : forall v,
  let a := from_bits F32 1069547520 in let b := from_bits F32 1075838976 in
  let c := from_bits F64 4609434218613702656 in let d := from_bits F64 4612811918334230528 in
  fl_valid F32 a /\ fl_finite a = true /\ fl_valid F32 b /\ fl_finite b = true /\ 0 < fl_value a <= fl_value b /\
  fl_valid F64 c /\ fl_finite c = true /\ fl_valid F64 d /\ fl_finite d = true /\ 0 < fl_value c <= fl_value d /\
  at_most a b /\ at_most c d /\ at_most d (FNum (S754_infinity false)) /\
  st_call v "REAL_TO_INT" [VFl a] = Ok (VInt 2) /\ st_call v "REAL_TO_INT" [VFl b] = Ok (VInt 3) /\
  st_call v "LREAL_TO_TIME" [VFl c] = Ok (VInt 2) /\ st_call v "LREAL_TO_TIME" [VFl d] = Ok (VInt 3) /\
  st_call v "TRUNC__LREAL" [VFl c] = Ok (VInt 1) /\ st_call v "TRUNC__LREAL" [VFl d] = Ok (VInt 2) /\
  of_type S_TIME 1999999999 /\ of_type S_TIME 2000000000 /\
  result (rust_call here "MUL__TIME__REAL" [VZ 1999999999; VF a]) = Int 3000000000 /\
  result (rust_call here "MUL__TIME__REAL" [VZ 2000000000; VF b]) = Int 5000000000 /\
  result (rust_call here "MUL_LTIME__LREAL" [VZ (-2000000000); VF c]) = Int (-3000000000) /\
  result (rust_call here "MUL_LTIME__LREAL" [VZ (-1999999999); VF c]) = Int (-2999999998) /\
  result (rust_call here "DIV_TIME__LREAL" [VZ 1999999999; VF d]) = Int 800000000 /\
  result (rust_call here "DIV_TIME__LREAL" [VZ 2000000000; VF c]) = Int 1333333333.
Proof.
  intros v a b c d.
  assert (VA : fl_value a = 3 / 2) by value. assert (VB : fl_value b = 5 / 2) by value.
  assert (VC : fl_value c = 3 / 2) by value. assert (VD : fl_value d = 5 / 2) by value.
  assert (L1 : 0 < fl_value a <= fl_value b) by (rewrite VA, VB; lra).
  assert (L2 : 0 < fl_value c <= fl_value d) by (rewrite VC, VD; lra).
  do 4 (split; [vm_compute; reflexivity|]). split; [exact L1|]. do 4 (split; [vm_compute; reflexivity|]). split; [exact L2|].
  split; [split; [reflexivity|]; split; [reflexivity|]; right; right; split; [vm_compute; reflexivity|]; split; [vm_compute; reflexivity|apply L1]|].
  split; [split; [reflexivity|]; split; [reflexivity|]; right; right; split; [vm_compute; reflexivity|]; split; [vm_compute; reflexivity|apply L2]|].
  split; [split; [reflexivity|]; split; [reflexivity|]; right; left; reflexivity|].
  do 6 (split; [vm_compute; reflexivity|]). do 2 (split; [vm_compute; split; discriminate|]).
  repeat split; vm_compute; reflexivity.
Qed.
