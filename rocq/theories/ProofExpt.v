(** Exponents converted between REAL and LREAL. *)
From Coq Require Import String ZArith Lia List Bool Reals Lra SpecFloat.
From Flocq Require Import Core BinarySingleNaN.
From Verif Require Import Base ModelFloat ModelTimeNum ModelArith ModelScalar ModelST ModelLink ModelLib SpecScalar SpecReal
 SpecExtra SpecExpt SpecLink SpecLib ProofBase ProofFlocq ProofTimeNum ProofTimeAcc SpecTimeNum ProofReal ProofReal2 ProofLink ProofLib.
Import ListNotations.
Open Scope string_scope.
Open Scope R_scope.

Lemma widen_same : forall x y, fl_valid F32 x -> fl_valid F64 y -> same_number x y -> fl_convert F64 x = y.
Proof.
  intros x y Vx Vy (Fx & Fy & E & N). destruct (widen_exact x Vx Fx) as (A & B & C).
  apply (float_unique F64); [now right|exact A|exact Vy|exact B|exact Fy|now rewrite C|].
  replace (fl_neg y) with (fl_negative y) by (destruct y as [[]|]; reflexivity). rewrite <- N.
  destruct x as [[s|s| |s m e]|s p]; try discriminate; [reflexivity|].
  assert (X0 : fl_value (FNum (S754_finite s m e)) <> 0).
  { unfold fl_value, sf_value, fl_sf. destruct s; [pose proof (value_neg m e)|pose proof (value_pos m e)]; lra. }
  apply eq_true_iff_eq. rewrite !neg_of_value; auto; rewrite C; [reflexivity|exact X0].
Qed.
Lemma narrow_same : forall x y, fl_valid F32 x -> fl_valid F64 y -> same_number x y -> fl_convert F32 y = x.
Proof.
  intros x y Vx Vy S. rewrite <- (widen_same x y Vx Vy S). apply widen_narrow; [exact Vx|].
  destruct S as (F & _). destruct x as [[s|s| |s m e]|s p]; try discriminate; reflexivity.
Qed.

Lemma expt_lreal_real : forall P x e f, fl_valid F32 e -> fl_valid F64 f -> same_number e f ->
  result (rust_call P "EXPT__LREAL__REAL" [VF x; VF e]) = result (rust_call P "EXPT__LREAL__LREAL" [VF x; VF f]).
Proof. intros P x e f Ve Vf S. name_of. unfold powf_widened, math2, f2. rewrite (widen_same e f Ve Vf S). reflexivity. Qed.
Lemma expt_real_lreal : forall P x e f, fl_valid F32 e -> fl_valid F64 f -> same_number e f ->
  result (rust_call P "EXPT__REAL__LREAL" [VF x; VF f]) = result (rust_call P "EXPT__REAL__REAL" [VF x; VF e]).
Proof. intros P x e f Ve Vf S. name_of. unfold powf_narrowed, math2, f2. rewrite (narrow_same e f Ve Vf S). reflexivity. Qed.

Definition fl_of (f : fmt) (z : Z) : fl := FNum (f_of_int f z).
Lemma expt_narrowed : forall P x, result (rust_call P "EXPT__REAL__LREAL" [VF x; VF (fl_of F64 16777217)]) =
  result (rust_call P "EXPT__REAL__LREAL" [VF x; VF (fl_of F64 16777216)]).
Proof.
  intros P x. name_of. unfold powf_narrowed, f2.
  replace (fl_convert F32 (fl_of F64 16777217)) with (fl_convert F32 (fl_of F64 16777216)) by (vm_compute; reflexivity).
  reflexivity.
Qed.
Lemma minus_one_power : powerRZ (-1) 16777217 = -1 /\ powerRZ (-1) 16777216 = 1.
Proof.
  assert (E : forall p, powerRZ (-1) (Zpos p~0) = 1).
  { intros p. change (pow (-1) (Pos.to_nat p~0) = 1). rewrite Pos2Nat.inj_xO. apply pow_1_even. }
  split; [|apply E]. change 16777217%Z with (16777216 + 1)%Z. rewrite powerRZ_add by lra.
  rewrite E, powerRZ_1. ring.
Qed.
Lemma fl_of_value : forall f z, binary_format f -> (Z.abs z <= 2 ^ f_prec f)%Z -> fl_value (fl_of f z) = IZR z.
Proof. intros f z B L. exact (proj2 (proj2 (of_int_exact f B z L))). Qed.
