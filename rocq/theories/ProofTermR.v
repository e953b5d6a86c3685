(** The nearest floating point number is unique. *)
From Coq Require Import ZArith Bool Lia Reals Lra SpecFloat.
From Flocq Require Import Core BinarySingleNaN.
From Verif Require Import Base ModelFloat ModelTimeNum ModelArith SpecScalar SpecTimeNum SpecReal
  ProofBase ProofFlocq ProofTimeNum ProofTimeAcc ModelST ProofReal.
Open Scope R_scope.

Section Format.
Variable f : fmt.
Hypothesis Hf : binary_format f.
Notation prec := (f_prec f).
Notation emax := (f_emax f).
Notation valid := (valid_binary prec emax).
Notation fexp := (SpecFloat.fexp prec emax).
Notation rnd := (round radix2 fexp ZnearestE).
Notation v := (SF2R radix2).

Lemma format_float : forall g, generic_format radix2 fexp g -> Rabs g < bpow radix2 emax -> exists s, valid s = true /\ is_finite_SF s = true /\ v s = g.
Proof.
  intros g G B. pose proof G as G'. unfold generic_format, F2R in G'. cbn [Fnum Fexp] in G'.
  destruct (norm_any f Hf (Ztrunc (scaled_mantissa radix2 fexp g)) (cexp radix2 fexp g) false) as (A & C & D).
  { rewrite <- G'. now rewrite (rnd_id f g G). }
  eexists. split; [exact A|]. split; [exact C|]. rewrite D, <- G'. exact (rnd_id f g G).
Qed.
Lemma even_ne : forall x, fl_valid f x -> fl_finite x = true -> even_significand x = true -> NE_prop radix2 fexp 0 (fl_value x).
Proof.
  intros x V F E. destruct (fl_valid_sf f x V F) as [V' F']. destruct x as [[s|s| |s m e]|s p]; try discriminate.
  - exists (Float radix2 0 (fexp (mag radix2 0))). split; [cbn; symmetry; apply F2R_0|]. split; [|reflexivity]. apply canonical_0.
  - exists (Float radix2 (cond_Zopp s (Zpos m)) e). split; [reflexivity|]. split; [apply (valid_canonical f); exact V'|].
    cbn in *. destruct s; exact E.
Qed.
Lemma nearest_unique : forall x y r, nearest_even f x r -> nearest_even f y r -> fl_value x = fl_value y.
Proof.
  assert (W : forall x y r, nearest_even f x r -> nearest_even f y r -> fl_value x <> fl_value y -> Rnd_NE_pt radix2 fexp r (fl_value x)).
  { intros x y r (Vx & Fx & Nx) (Vy & Fy & Ny) D.
    destruct (Nx y Vy Fy) as [L1 T1]. destruct (Ny x Vx Fx) as [L2 _].
    assert (Q : Rabs (fl_value x - r) = Rabs (fl_value y - r)) by lra.
    assert (Ev : even_significand x = true) by (apply T1; [intros E; apply D; now symmetry|exact Q]).
    destruct (fl_valid_sf f x Vx Fx) as [Vx' _]. destruct (fl_valid_sf f y Vy Fy) as [Vy' _].
    pose proof (value_small f _ Vx') as Sx. pose proof (value_small f _ Vy') as Sy.
    change (v (fl_sf x)) with (fl_value x) in Sx. change (v (fl_sf y)) with (fl_value y) in Sy.
    split.
    - split; [exact (value_format f _ Vx')|]. intros g G.
      destruct (Rlt_or_le (Rabs g) (bpow radix2 emax)) as [B|B].
      + destruct (format_float g G B) as (s & S1 & S2 & <-). destruct (sf_fl f s S1 S2) as (A1 & A2 & _). exact (proj1 (Nx _ A1 A2)).
      + assert (M : r = (fl_value x + fl_value y) / 2).
        { unfold Rabs in Q. destruct (Rcase_abs (fl_value x - r)), (Rcase_abs (fl_value y - r)); lra. }
        revert B Sx Sy. subst r. unfold Rabs. destruct (Rcase_abs g), (Rcase_abs (fl_value x)), (Rcase_abs (fl_value y)), (Rcase_abs (fl_value x - (fl_value x + fl_value y) / 2)),
          (Rcase_abs (g - (fl_value x + fl_value y) / 2)); intros; lra.
    - left. destruct (even_ne x Vx Fx Ev) as (g & G1 & G2 & G3). exists g. repeat split; assumption. }
  intros x y r X Y. destruct (Req_dec (fl_value x) (fl_value y)) as [|D]; [assumption|].
  pose proof (W x y r X Y D) as A. pose proof (W y x r Y X (not_eq_sym D)) as B.
  assert (U : round_pred (Rnd_NE_pt radix2 fexp)).
  { apply Rnd_NE_pt_round; [apply (fexp_valid f Hf)|]. change fexp with (FLT_exp (SpecFloat.emin prec emax) prec). apply exists_NE_FLT.
    right. destruct Hf as [-> | ->]; reflexivity. }
  exact (round_unique _ (proj2 U) r _ _ A B).
Qed.
End Format.
