(** Laws of expressions with REAL and LREAL. *)
From Coq Require Import String Ascii ZArith Lia List Bool SpecFloat Reals Lra Permutation.
From Flocq Require Import Core BinarySingleNaN Relative.
From Verif Require Import Base ModelFloat ModelScalar ModelArith ModelTimeNum ModelText ModelString ModelExtra ModelDate ModelChrono ModelST ModelWrap ModelLink ModelLib
  ModelApi SpecScalar SpecTimeNum SpecReal SpecPow SpecST SpecDate SpecText SpecLink SpecConv SpecLib SpecName SpecWrap SpecCall SpecExpr SpecNum ProofBase ProofScalar
  ProofFlocq ProofReal ProofReal2 ProofST ProofST2 ProofNum ProofNum2 ProofNum3.
Import ListNotations.
Open Scope string_scope.
Open Scope list_scope.
Open Scope Z_scope.
Local Opaque call value_in api.

Lemma abs_bounds : forall x b, (Rabs x <= b)%R -> (- b <= x /\ x <= b)%R.
Proof. intros x b H. unfold Rabs in H. destruct (Rcase_abs x); lra. Qed.
Lemma roundoff_small : forall f, binary_format f -> (0 < roundoff f <= / 1000)%R.
Proof.
  intros f Hf. split; [apply bpow_gt_0|]. unfold roundoff. apply Rle_trans with (bpow radix2 (-10)).
  - apply bpow_le. destruct Hf as [-> | ->]; vm_compute; discriminate.
  - change (bpow radix2 (-10)) with (/ IZR (Zpower_pos 2 10))%R. apply Rinv_le; [lra|]. apply IZR_le. vm_compute. discriminate.
Qed.
Lemma rel_error : forall f x, binary_format f -> (min_normal f <= Rabs x)%R ->
  (Rabs (round radix2 (SpecFloat.fexp (f_prec f) (f_emax f)) ZnearestE x - x) <= roundoff f * Rabs x)%R.
Proof.
  intros f x Hf L. pose proof (relative_error_N_FLT radix2 (f_emin f) (f_prec f) (Hprec f Hf) (fun z => negb (Z.even z)) x L) as H.
  unfold roundoff. replace (bpow radix2 (- f_prec f)) with (/ 2 * bpow radix2 (- f_prec f + 1))%R; [exact H|].
  rewrite bpow_plus. change (bpow radix2 1) with 2%R. lra.
Qed.
Lemma min_normal_1 : forall f, binary_format f -> (0 < min_normal f <= 1)%R.
Proof.
  intros f Hf. split; [apply bpow_gt_0|]. change 1%R with (bpow radix2 0). apply bpow_le. destruct Hf as [-> | ->]; vm_compute; discriminate.
Qed.
Lemma root_square : forall P r t u e i q w, List.In t reals -> List.In u integers -> number P r t e q -> whole P r u i 2 ->
  (2 * min_normal (fmt_of t) <= q)%R -> fl_valid (fmt_of t) w -> fl_finite w = true -> (2 * q <= fl_value w)%R ->
  exists p, number P r t (Call "EXPT" [Call "SQRT" [e]; i]) p /\ (Rabs (p - q) <= 4 * roundoff (fmt_of t) * q)%R.
Proof.
  intros P r t u e i q w T U (v & E & V & F & <-) W L Vw Fw H. pose proof (real_fmt t T) as Hf. set (f := fmt_of t) in *.
  pose proof (fexp_valid f Hf) as VE. pose proof (roundoff_small f Hf) as RO. pose proof (min_normal_1 f Hf) as MN.
  assert (G : (0 <= fl_value v)%R) by lra.
  destruct (sqrt_nearest f Hf v V F G) as (V1 & F1 & _). pose proof (sqrt_value f Hf v V F G) as S1.
  set (y := SQRT f v) in *. set (s := sqrt (fl_value v)) in *. set (q := fl_value v) in *.
  assert (SS : (s * s = q)%R) by (unfold s; now apply sqrt_sqrt).
  assert (S0 : (0 <= s)%R) by apply sqrt_pos.
  assert (SL : (min_normal f <= s)%R).
  { destruct (Rle_or_lt 1 s) as [C|C]; [lra|]. assert (s * s <= 1 * s)%R by (apply Rmult_le_compat_r; lra). lra. }
  pose proof (rel_error f s Hf ltac:(rewrite Rabs_pos_eq; lra)) as R1. rewrite <- S1, (Rabs_pos_eq s) in R1 by exact S0.
  set (a := fl_value y) in *. set (o := roundoff f) in *.
  destruct (abs_bounds _ _ R1) as [R1a R1b].
  assert (A1 : ((1 - o) * s * ((1 - o) * s) <= a * a)%R) by (apply Rmult_le_compat; (apply Rmult_le_pos || idtac); lra).
  assert (A2 : (a * a <= (1 + o) * s * ((1 + o) * s))%R).
  { assert (0 <= a)%R by (assert (0 <= (1 - o) * s)%R by (apply Rmult_le_pos; lra); lra). apply Rmult_le_compat; lra. }
  replace ((1 - o) * s * ((1 - o) * s))%R with ((1 - o) * (1 - o) * q)%R in A1 by (rewrite <- SS; ring).
  replace ((1 + o) * s * ((1 + o) * s))%R with ((1 + o) * (1 + o) * q)%R in A2 by (rewrite <- SS; ring).
  assert (O1 : (999 / 1000 * (999 / 1000) <= (1 - o) * (1 - o))%R) by (apply Rmult_le_compat; lra).
  assert (O2 : ((1 + o) * (1 + o) <= 1001 / 1000 * (1001 / 1000))%R) by (apply Rmult_le_compat; lra).
  assert (Q1 : (999 / 1000 * (999 / 1000) * q <= (1 - o) * (1 - o) * q)%R) by (apply Rmult_le_compat_r; lra).
  assert (Q2 : ((1 + o) * (1 + o) * q <= 1001 / 1000 * (1001 / 1000) * q)%R) by (apply Rmult_le_compat_r; lra).
  assert (M : (min_normal f <= a * a)%R) by lra.
  assert (X : number P r t (Call "SQRT" [e]) a) by (exists y; repeat split; try assumption; now apply sqrt_e).
  destruct (square_root P r t u (Call "SQRT" [e]) i a w T U X W M Vw Fw) as [(z & Ez & Nz) _]; [fold f; lra|].
  assert (Z : fl_value z = round radix2 (SpecFloat.fexp (f_prec f) (f_emax f)) ZnearestE (a * a)).
  { assert (D : of_type S_DINT 2) by (split; discriminate).
    assert (Sy : value_in P r (Call "SQRT" [e]) = Ok (t, VF y)) by now apply sqrt_e.
    rewrite (expt_e P r t u (Call "SQRT" [e]) i y 2 T U Sy W D) in Ez. injection Ez as <-. fold f.
    apply square_value; try assumption. destruct (fl_valid_sf f w Vw Fw) as [Vw' Fw']. rewrite Rabs_pos_eq.
    - eapply Rle_lt_trans with (fl_value w).
      + apply round_le_generic; [exact VE|typeclasses eauto|now apply value_format|]. fold a. lra.
      + eapply Rle_lt_trans; [apply Rle_abs|]. now apply value_small.
    - apply round_ge_generic; [exact VE|typeclasses eauto|apply generic_format_0|]. apply Rle_0_sqr. }
  exists (fl_value z). destruct Nz as (Vz & Fz & _). split; [now exists z|].
  pose proof (rel_error f (a * a) Hf ltac:(rewrite Rabs_pos_eq; lra)) as R2. rewrite <- Z, (Rabs_pos_eq (a * a)) in R2 by lra. fold o in R2.
  destruct (abs_bounds _ _ R2) as [R2a R2b].
  assert (K1 : (o * (a * a) <= o * (1001 / 1000 * (1001 / 1000) * q))%R) by (apply Rmult_le_compat_l; lra).
  assert (K2 : ((1 + o) * (1 + o) * q - q <= 2001 / 1000 * (o * q))%R).
  { replace ((1 + o) * (1 + o) * q - q)%R with ((2 + o) * (o * q))%R by ring. apply Rmult_le_compat_r; [apply Rmult_le_pos; lra|lra]. }
  assert (K3 : (q - (1 - o) * (1 - o) * q <= 2 * (o * q))%R).
  { replace (q - (1 - o) * (1 - o) * q)%R with ((2 - o) * (o * q))%R by ring. apply Rmult_le_compat_r; [apply Rmult_le_pos; lra|lra]. }
  assert (OQ : (0 <= o * q)%R) by (apply Rmult_le_pos; lra).
  replace (4 * o * q)%R with (4 * (o * q))%R by ring. replace (o * (1001 / 1000 * (1001 / 1000) * q))%R with (1001 / 1000 * (1001 / 1000) * (o * q))%R in K1 by ring.
  apply Rabs_le. lra.
Qed.

(** * Laws *)
Lemma nearest_self : forall k j, nearest_int j (IZR k) -> j = k.
Proof. intros k j H. exact (nearest_int_unique _ _ _ H (nearest_int_self k)). Qed.
Lemma part_self : forall k j, integer_part j (IZR k) -> j = k.
Proof.
  intros k j (_ & H & _). rewrite <- minus_IZR, <- abs_IZR in H. apply lt_IZR in H. lia.
Qed.
Lemma round_round : forall P r t e q, List.In t reals -> number P r t e q ->
  exists k, nearest_int k q /\ number P r t (Call "ROUND" [e]) (IZR k) /\ number P r t (Call "ROUND" [Call "ROUND" [e]]) (IZR k) /\
    (of_type S_LINT k -> whole P r S_LINT (Call "TRUNC" [Call "ROUND" [e]]) k /\ whole P r S_LINT (Call (conversion_name t S_LINT) [e]) k).
Proof.
  intros P r t e q T N. destruct (round_number P r t e q T N) as (k & K & A). exists k. split; [exact K|]. split; [exact A|].
  destruct (round_number P r t _ _ T A) as (j & J & B). apply nearest_self in J. subst j. split; [exact B|].
  intros I. destruct (trunc_whole P r t _ _ T A) as (j & J & C & _). apply part_self in J. subst j. split; [now apply C|].
  destruct (to_whole P r t S_LINT e q T ltac:(cbn; tauto) N) as (j & J & D & _). rewrite (nearest_int_unique _ _ _ J K) in D. now apply D.
Qed.
Lemma through_real : forall P r t a e z, List.In t reals -> List.In a integers -> whole P r a e z -> Z.abs z <= 2 ^ f_prec (fmt_of t) ->
  whole P r a (Call (conversion_name t a) [Call (conversion_name a t) [e]]) z /\
  whole P r S_LINT (Call "TRUNC" [Call (conversion_name a t) [e]]) z /\
  number P r t (Call "ROUND" [Call (conversion_name a t) [e]]) (IZR z) /\
  number P r t (Call "ABS" [Call (conversion_name a t) [e]]) (IZR (Z.abs z)).
Proof.
  intros P r t a e z T A W L. destruct (of_whole P r t a e z T A W) as [_ N]. specialize (N L).
  split; [|split; [|split]].
  - destruct (to_whole P r t a _ _ T A N) as (k & K & C & _). apply nearest_self in K. subst k. apply C, (proj2 W).
  - destruct (trunc_whole P r t _ _ T N) as (k & K & C & _). apply part_self in K. subst k. apply C.
    assert (2 ^ f_prec (fmt_of t) <= 2 ^ 53) by (destruct T as [<-|[<-|[]]]; vm_compute; discriminate).
    unfold of_type. cbn [fst snd bounds]. unfold bounds. cbn [fst snd]. change (2 ^ 53) with 9007199254740992 in H. split; cbn; lia.
  - destruct (round_number P r t _ _ T N) as (k & K & C). apply nearest_self in K. now subst k.
  - rewrite abs_IZR. now apply abs_number.
Qed.
Lemma widen_narrow_number : forall P r e q, number P r S_REAL e q -> number P r S_REAL (Call "LREAL_TO_REAL" [Call "REAL_TO_LREAL" [e]]) q.
Proof.
  intros P r e q N. pose proof (widen_number P r e q N) as W. destruct N as (v & E & V & F & <-).
  assert (S : (Rabs (fl_value v) < IZR REAL_OVERFLOW)%R).
  { apply Rnot_le_lt. intros C. destruct (widen_exact v V F) as (A & B & D).
    destruct (narrow_spec (fl_convert F64 v) A B) as [_ H]. rewrite D in H. specialize (H C).
    rewrite widen_narrow in H by (auto; destruct v as [[s|s| |s m x]|s p]; try discriminate; reflexivity). rewrite H in F. discriminate F. }
  apply (exact_nearest P r S_REAL _ (fl_value v)); [cbn; tauto| |now exists v|reflexivity]. apply narrow_number; [exact W|exact S].
Qed.
Lemma limit_max_min : forall P r t e1 e e2 a q b, List.In t reals -> number P r t e1 a -> number P r t e q -> number P r t e2 b -> (a <= b)%R ->
  exists m, number P r t (Call "LIMIT" [e1; e; e2]) m /\ number P r t (Call "MAX" [e1; Call "MIN" [e; e2]]) m /\
    number P r t (Call "MIN" [Call "MAX" [e1; e]; e2]) m /\ (a <= m <= b)%R /\ ((a <= q <= b)%R -> m = q).
Proof.
  intros P r t e1 e e2 a q b T A Q B H. exists (Rmax a (Rmin q b)). split; [now apply limit_number|].
  destruct (max_min_2 P r t e e2 q b T Q B) as [_ M1]. destruct (max_min_2 P r t e1 e a q T A Q) as [M2 _].
  destruct (max_min_2 P r t e1 _ a _ T A M1) as [M3 _]. destruct (max_min_2 P r t _ e2 _ b T M2 B) as [_ M4].
  split; [exact M3|]. split.
  - replace (Rmax a (Rmin q b)) with (Rmin (Rmax a q) b); [exact M4|].
    unfold Rmin, Rmax. repeat destruct Rle_dec; lra.
  - unfold Rmin, Rmax. repeat destruct Rle_dec; lra.
Qed.
Lemma max_nested : forall P r t es es' qs qs', List.In t reals -> Forall2 (number P r t) es qs -> Forall2 (number P r t) es' qs' -> es <> [] -> es' <> [] ->
  (exists m, number P r t (Call "MAX" (es ++ es')) m /\ number P r t (Call "MAX" [Call "MAX" es; Call "MAX" es']) m) /\
  (exists m, number P r t (Call "MIN" (es ++ es')) m /\ number P r t (Call "MIN" [Call "MIN" es; Call "MIN" es']) m).
Proof.
  intros P r t es es' qs qs' T H H' N N'.
  assert (NN : es ++ es' <> []) by (destruct es; [contradiction|discriminate]).
  destruct (select_number P r t es qs T H N) as ((a & A & Ia & Oa) & (c & C & Ic & Oc)).
  destruct (select_number P r t es' qs' T H' N') as ((b & B & Ib & Ob) & (d & D & Id & Od)).
  destruct (select_number P r t _ _ T (Forall2_app H H') NN) as ((m & M & Im & Om) & (k & K & Ik & Ok)).
  split.
  - exists m. split; [exact M|]. destruct (max_min_2 P r t _ _ a b T A B) as [X _]. replace m with (Rmax a b); [exact X|].
    pose proof (Om a (in_or_app _ _ _ (or_introl Ia))). pose proof (Om b (in_or_app _ _ _ (or_intror Ib))).
    apply in_app_or in Im. destruct Im as [Im|Im]; [specialize (Oa m Im)|specialize (Ob m Im)]; unfold Rmax; destruct Rle_dec; lra.
  - exists k. split; [exact K|]. destruct (max_min_2 P r t _ _ c d T C D) as [_ X]. replace k with (Rmin c d); [exact X|].
    pose proof (Ok c (in_or_app _ _ _ (or_introl Ic))). pose proof (Ok d (in_or_app _ _ _ (or_intror Id))).
    apply in_app_or in Ik. destruct Ik as [Ik|Ik]; [specialize (Oc k Ik)|specialize (Od k Ik)]; unfold Rmin; destruct Rle_dec; lra.
Qed.
Lemma time_through_lreal : forall P r t u e z, List.In t [S_TIME; S_LTIME] -> List.In u [S_TIME; S_LTIME] -> whole P r t e z -> Z.abs z <= 2 ^ 53 ->
  whole P r S_TIME (Call (conversion_name S_LREAL u) [Call (conversion_name t S_LREAL) [e]]) z.
Proof.
  intros P r t u e z T U W L. destruct (time_lreal P r t e z T W) as [_ N]. specialize (N L).
  destruct (lreal_time P r u _ _ U N) as (k & K & C & _). apply nearest_self in K. subst k. apply C.
  destruct T as [<-|[<-|[]]]; exact (proj2 W).
Qed.
Lemma mul_then_div : forall P r t e x a q z z', List.In t reals -> whole P r S_TIME e a -> number P r t x q -> q <> 0%R ->
  whole P r S_TIME (Call "MUL" [e; x]) z -> value_in P r (Call "DIV" [Call "MUL" [e; x]; x]) = Ok (S_TIME, VZ z') ->
  (Rabs (IZR z' - IZR a) <= time_error (p_durgen P) (fmt_of t) (IZR a * q) / Rabs q + time_error (p_durgen P) (fmt_of t) (IZR z / q))%R.
Proof.
  intros P r t e x a q z z' T W N Q M D.
  destruct (time_scale P r t "MUL" "MUL__TIME" e x a q T ltac:(cbn; tauto) W N) as [A _]. destruct (A ltac:(cbn; tauto)) as [A1 _]. specialize (A1 z (proj1 M)).
  destruct (time_scale P r t "DIV" "DIV__TIME" _ x z q T ltac:(cbn; tauto) M N) as [_ B]. destruct (B ltac:(cbn; tauto) Q) as [B1 _]. specialize (B1 z' D).
  replace (IZR z' - IZR a)%R with ((IZR z' - IZR z / q) + (IZR z - IZR a * q) / q)%R by (field; exact Q).
  eapply Rle_trans; [apply Rabs_triang|]. rewrite Rplus_comm. apply Rplus_le_compat; [|exact B1].
  unfold Rdiv at 1. rewrite Rabs_mult, Rabs_inv. apply Rmult_le_compat_r; [|exact A1]. left. apply Rinv_0_lt_compat. now apply Rabs_pos_lt.
Qed.
Lemma scale_names : forall P r t e x a q, List.In t reals -> whole P r S_TIME e a -> number P r t x q ->
  let close o y := (forall z, o = Ok (S_TIME, VZ z) -> (Rabs (IZR z - y) <= time_error (p_durgen P) (fmt_of t) y)%R) /\
    ((Rabs y + time_error (p_durgen P) (fmt_of t) y <= 9223372036854775807)%R -> exists z, o = Ok (S_TIME, VZ z)) in
  (forall f, List.In f ["MUL"; "MUL_TIME"] -> close (value_in P r (Call f [e; x])) (IZR a * q)%R) /\
  (forall f, List.In f ["DIV"; "DIV_TIME"] -> q <> 0%R -> close (value_in P r (Call f [e; x])) (IZR a / q)%R).
Proof.
  intros P r t e x a q T W N close. split; intros f [<-|[<-|[]]].
  - apply (proj1 (time_scale P r t "MUL" "MUL__TIME" e x a q T ltac:(cbn; tauto) W N)). cbn. tauto.
  - apply (proj1 (time_scale P r t "MUL_TIME" "MUL_TIME" e x a q T ltac:(cbn; tauto) W N)). cbn. tauto.
  - apply (proj2 (time_scale P r t "DIV" "DIV__TIME" e x a q T ltac:(cbn; tauto) W N)). cbn. tauto.
  - apply (proj2 (time_scale P r t "DIV_TIME" "DIV_TIME" e x a q T ltac:(cbn; tauto) W N)). cbn. tauto.
Qed.
Lemma narrow_literal : forall P r e q, number P r S_LREAL e q -> (Rabs q < IZR (2 ^ 128 - 2 ^ 103))%R -> nearest P r S_REAL (Call "LREAL_TO_REAL" [e]) q.
Proof. exact narrow_number. Qed.
