(** Proofs about the elementary functions. *)
From Coq Require Import String ZArith Lia List Bool Reals Lra SpecFloat.
From Flocq Require Import Core BinarySingleNaN.
From Verif Require Import Base ModelFloat ModelTimeNum ModelArith ModelST ModelLink ModelLib SpecScalar SpecTimeNum SpecReal SpecExtra SpecExpt SpecST SpecMath
  ProofBase ProofReal ProofReal2 ProofST ProofST2 ProofLib PropertiesST ProofName3.
Import ListNotations.
Open Scope list_scope.
Open Scope string_scope.
Open Scope R_scope.

Ltac which H := repeat (destruct H as [H|H]; [injection H as <- <- <-|]); try destruct H.

Lemma function_name : forall P close F D g X f x, accurate P close -> List.In (F, D, g) functions ->
  List.In (X, f) float_names -> fl_valid f x -> fl_finite x = true -> D (fl_value x) ->
  exists y, rust_call P (F ++ "__" ++ X) [VF x] = Ok (VF y, [VF x]) /\ close f y (g (fl_value x)).
Proof.
  intros P close F D g X f x A I J V N H.
  assert (B : binary_format f) by now apply (float_names_fmt X).
  pose proof (fun m G => acc_one P close A m D g f x G B V N H) as C. clear A B V N H.
  unfold functions in I. cbn [List.In] in I. unfold methods in C. cbn [List.In] in C.
  two_reals J; which I;
  (eexists; split; [name_of; reflexivity|]; apply C; clear C; tauto).
Qed.

Lemma atan2_name : forall P close X f y x t, accurate P close ->
  List.In (X, f) float_names -> fl_valid f y -> fl_finite y = true -> fl_valid f x -> fl_finite x = true ->
  fl_value y <> 0 \/ 0 < fl_value x -> angle t (fl_value y) (fl_value x) ->
  exists z, rust_call P ("ATAN2__" ++ X) [VF y; VF x] = Ok (VF z, [VF y; VF x]) /\ close f z t.
Proof.
  intros P close X f y x t A J V N V' N' D H.
  assert (B : binary_format f) by now apply (float_names_fmt X).
  pose proof (acc_atan2 P close A f y x t B V N V' N' D H) as C.
  two_reals J; (eexists; split; [name_of; reflexivity|exact C]).
Qed.

Lemma expt_float_name : forall P close X f x e r, accurate P close ->
  List.In (X, f) float_names -> fl_valid f x -> fl_finite x = true -> fl_valid f e -> fl_finite e = true ->
  power r (fl_value x) (fl_value e) ->
  exists y, rust_call P ("EXPT__" ++ X ++ "__" ++ X) [VF x; VF e] = Ok (VF y, [VF x; VF e]) /\ close f y r.
Proof.
  intros P close X f x e r A J V N V' N' H.
  assert (B : binary_format f) by now apply (float_names_fmt X).
  pose proof (acc_powf P close A f x e r B V N V' N' H) as C.
  two_reals J; (eexists; split; [name_of; reflexivity|exact C]).
Qed.
Lemma expt_widened_name : forall P close x e r, accurate P close ->
  fl_valid F64 x -> fl_finite x = true -> fl_valid F32 e -> fl_finite e = true ->
  power r (fl_value x) (fl_value e) ->
  exists y, rust_call P "EXPT__LREAL__REAL" [VF x; VF e] = Ok (VF y, [VF x; VF e]) /\ close F64 y r.
Proof.
  intros P close x e r A V N V' N' H. destruct (widen_exact e V' N') as (E1 & E2 & E3).
  rewrite <- E3 in H.
  pose proof (acc_powf P close A F64 x _ r (or_intror eq_refl) V N E1 E2 H) as C.
  eexists; split; [name_of; reflexivity|exact C].
Qed.
Lemma expt_narrowed_name : forall P close x e, accurate P close ->
  fl_valid F32 x -> fl_finite x = true -> fl_valid F64 e -> fl_finite e = true ->
  Rabs (fl_value e) < IZR (2 ^ 128 - 2 ^ 103) ->
  exists e' y, nearest_even F32 e' (fl_value e) /\
    rust_call P "EXPT__REAL__LREAL" [VF x; VF e] = Ok (VF y, [VF x; VF e]) /\
    forall r, power r (fl_value x) (fl_value e') -> close F32 y r.
Proof.
  intros P close x e A V N V' N' L. destruct (narrow_spec e V' N') as [E _]. specialize (E L).
  exists (fl_convert F32 e), (p_math P "powf" F32 [x; fl_convert F32 e]).
  split; [exact E|]. split; [reflexivity|]. intros r H.
  apply (acc_powf P close A F32); auto; [now left|apply E|apply E].
Qed.

(** ** A correctly rounding library meets the assumptions *)
Definition exp_of (f : fmt) : Z -> Z := SpecFloat.fexp (f_prec f) (f_emax f).
Definition rnd_to (f : fmt) (r : R) : R := round radix2 (exp_of f) ZnearestE r.
Definition of_real (f : fmt) (r : R) : fl :=
  FNum (SpecFloat.binary_normalize (f_prec f) (f_emax f)
          (Ztrunc (scaled_mantissa radix2 (exp_of f) (rnd_to f r))) (cexp radix2 (exp_of f) (rnd_to f r)) false).
Definition correctly (f : fmt) (y : fl) (r : R) : Prop :=
  Rabs (rnd_to f r) < bpow radix2 (f_emax f) -> nearest_even f y r.
Lemma of_real_nearest : forall f r, binary_format f -> correctly f (of_real f r) r.
Proof.
  intros f r B H. pose proof (fexp_valid f B) as VE.
  assert (G : rnd_to f r = IZR (Ztrunc (scaled_mantissa radix2 (exp_of f) (rnd_to f r))) *
                bpow radix2 (cexp radix2 (exp_of f) (rnd_to f r))).
  { apply (generic_format_round radix2 (exp_of f) ZnearestE r). }
  set (m := Ztrunc _) in *. set (e := cexp _ _ _) in *.
  assert (GF : generic_format radix2 (exp_of f) (IZR m * bpow radix2 e)).
  { rewrite <- G. apply generic_format_round; [exact VE|typeclasses eauto]. }
  destruct (norm_any f B m e false) as (V & F & E).
  { change (Rabs (round radix2 (exp_of f) ZnearestE (IZR m * bpow radix2 e)) < bpow radix2 (f_emax f)).
    rewrite round_generic; [|typeclasses eauto|exact GF]. now rewrite <- G. }
  apply nearest_of_rnd; auto. unfold of_real. fold m e. rewrite E.
  change (round radix2 (exp_of f) ZnearestE (IZR m * bpow radix2 e) = rnd_to f r).
  rewrite round_generic; [|typeclasses eauto|exact GF]. now rewrite <- G.
Qed.

Definition atan2 (y x : R) : R :=
  let a := acos (x / sqrt (x * x + y * y)) in
  if Rlt_dec 0 y then a else if Rlt_dec y 0 then - a else 0.
Lemma angle_acos : forall t x y r, 0 < r -> x = r * cos t -> y = r * sin t ->
  x / sqrt (x * x + y * y) = cos t.
Proof.
  intros t x y r P X Y. pose proof (sin2_cos2 t) as S. unfold Rsqr in S.
  replace (x * x + y * y) with (r * r).
  - rewrite sqrt_square by lra. rewrite X. field. lra.
  - rewrite X, Y. replace (r * cos t * (r * cos t) + r * sin t * (r * sin t)) with
      (r * r * (sin t * sin t + cos t * cos t)) by ring. rewrite S. ring.
Qed.
Lemma atan2_angle : forall t y x, y <> 0 \/ 0 < x -> angle t y x -> atan2 y x = t.
Proof.
  intros t y x D ([L U] & r & P & X & Y). unfold atan2. rewrite (angle_acos t x y r P X Y).
  destruct (Rlt_dec 0 y) as [C|C]; [|destruct (Rlt_dec y 0) as [C'|C']].
  - apply acos_cos. split; [|exact U]. destruct (Rle_or_lt 0 t) as [|N]; [auto|exfalso].
    assert (sin t <= 0). { rewrite <- (Ropp_involutive t), sin_neg. pose proof (sin_ge_0 (- t)). lra. }
    nra.
  - rewrite <- (Ropp_involutive t), cos_neg. rewrite acos_cos; [ring|].
    destruct (Rle_or_lt t 0) as [|N]; [lra|exfalso]. pose proof (sin_ge_0 t). nra.
  - assert (y = 0) by lra. destruct D as [|D]; [contradiction|].
    assert (C0 : 0 < cos t) by nra. assert (S0 : sin t = 0) by nra.
    destruct (Rtotal_order t 0) as [N|[->|N]]; [exfalso|reflexivity|exfalso].
    + pose proof (sin_gt_0 (- t)) as Q. rewrite sin_neg in Q. lra.
    + destruct (Req_dec t PI) as [->|M]; [rewrite cos_PI in C0; lra|]. pose proof (sin_gt_0 t). lra.
Qed.
Definition pow_real (x e : R) : R := if Rlt_dec 0 x then Rpower x e else powerRZ x (Zfloor e).
Lemma power_real : forall r x e, power r x e -> pow_real x e = r.
Proof.
  intros r x e [[P ->]|(N & n & -> & ->)]; unfold pow_real.
  - destruct (Rlt_dec 0 x); [reflexivity|contradiction].
  - destruct (Rlt_dec 0 x) as [P|P]; [symmetry; now apply powerRZ_Rpower|]. now rewrite Zfloor_IZR.
Qed.

Definition ideal_math (m : string) (f : fmt) (l : list fl) : fl :=
  match l with
  | [x] => match find (fun e => String.eqb m (fst (fst e))) methods with
           | Some (_, _, g) => of_real f (g (fl_value x))
           | None => FNum S754_nan
           end
  | [x; y] => of_real f (if String.eqb m "atan2" then atan2 (fl_value x) (fl_value y) else pow_real (fl_value x) (fl_value y))
  | _ => FNum S754_nan
  end.
Definition ideal (P : platform) : platform :=
  {| p_profile := p_profile P; p_chrono := p_chrono P; p_durgen := p_durgen P; p_endian := p_endian P;
     p_tie := p_tie P; p_clock := p_clock P; p_math := ideal_math |}.
Lemma ideal_accurate : forall P, accurate (ideal P) correctly.
Proof.
  intros P. split.
  - intros m D g f x I B V N H. cbn [p_math ideal].
    replace (ideal_math m f [x]) with (of_real f (g (fl_value x))); [now apply of_real_nearest|].
    unfold methods in I. cbn [List.In] in I. which I; reflexivity.
  - intros f y x t B _ _ _ _ D A. cbn [p_math ideal]. unfold ideal_math. cbn [String.eqb Ascii.eqb Bool.eqb].
    rewrite (atan2_angle t _ _ D A). now apply of_real_nearest.
  - intros f x e r B _ _ _ _ H. cbn [p_math ideal]. unfold ideal_math. cbn [String.eqb Ascii.eqb Bool.eqb].
    rewrite (power_real r _ _ H). now apply of_real_nearest.
Qed.
