(** Proofs: the exported functions on numbers return values of their type, or abort where listed. *)
From Coq Require Import String Ascii ZArith Lia List Bool SpecFloat.
From Flocq Require Import Core BinarySingleNaN.
From Verif Require Import Base ModelFloat ModelTimeNum ModelArith ModelScalar ModelChrono ModelDate
  ModelText ModelString ModelExtra ModelST ModelWrap ModelLink ModelLib SpecScalar SpecDate SpecTimeNum SpecLink SpecLib SpecSafe
  ProofBase ProofFlocq ProofScalar ProofDate ProofDate2 ProofTimeNum ProofReal ProofLink ProofLib.
Import ListNotations.
Open Scope list_scope.
Open Scope string_scope.
Open Scope Z_scope.

(** * Floating-point results *)

Lemma of_sf_valid : forall f x, binary_format f -> valid_binary (f_prec f) (f_emax f) x = true -> fl_valid f (fl_of_sf f x).
Proof. intros f x [-> | ->] V; destruct x; try exact V; reflexivity. Qed.
Lemma sf_valid : forall f x, fl_valid f x -> valid_binary (f_prec f) (f_emax f) (fl_sf x) = true.
Proof. intros f [[]|] V; try exact V; [destruct V|reflexivity]. Qed.

Section Ops.
Variable f : fmt.
Hypothesis Hf : binary_format f.
Notation prec := (f_prec f).
Notation emax := (f_emax f).
Notation valid := (valid_binary prec emax).
Let Hprec : Prec_gt_0 prec. Proof. destruct Hf as [-> | ->]; reflexivity. Qed.
Let Hmax : Prec_lt_emax prec emax. Proof. destruct Hf as [-> | ->]; reflexivity. Qed.

Lemma mul_valid : forall x y, valid x = true -> valid y = true -> valid (SFmul prec emax x y) = true.
Proof.
  intros x y Vx Vy. rewrite <- (B2SF_SF2B _ _ x Vx), <- (B2SF_SF2B _ _ y Vy).
  rewrite (mul_equiv prec emax Hprec Hmax). apply valid_binary_B2SF.
Qed.
Lemma div_valid : forall x y, valid x = true -> valid y = true -> valid (SFdiv prec emax x y) = true.
Proof.
  intros x y Vx Vy. rewrite <- (B2SF_SF2B _ _ x Vx), <- (B2SF_SF2B _ _ y Vy).
  rewrite (div_equiv prec emax Hprec Hmax). apply valid_binary_B2SF.
Qed.
Lemma norm_valid : forall m e s, fl_valid f (FNum (SpecFloat.binary_normalize prec emax m e s)).
Proof.
  intros m e s. rewrite (binary_normalize_equiv prec emax Hprec Hmax).
  pose proof (valid_binary_B2SF prec emax (binary_normalize prec emax Hprec Hmax mode_NE m e s)) as V.
  pose proof (binary_normalize_correct prec emax Hprec Hmax mode_NE m e s) as C. cbv zeta in C.
  destruct (Raux.Rlt_bool _ _).
  - destruct C as (_ & F & _). destruct (binary_normalize _ _ _ _ _ _ _ _); try exact V; discriminate.
  - unfold binary_overflow in C. destruct (binary_normalize _ _ _ _ _ _ _ _); try exact V. discriminate C.
Qed.
Lemma powi_loop_valid : forall p a r, valid a = true -> valid r = true -> valid (powi_loop f p a r) = true.
Proof.
  induction p as [p IH|p IH|]; intros a r A R; cbn [powi_loop].
  - apply IH; now apply mul_valid.
  - apply IH; [now apply mul_valid|exact R].
  - now apply mul_valid.
Qed.
Lemma powi_valid : forall a n, valid a = true -> valid (powi f a n) = true.
Proof.
  intros a n A. assert (O : valid (f_of_int f 1) = true) by (destruct Hf as [-> | ->]; reflexivity).
  destruct n as [|p|p]; cbn [powi]; [exact O|now apply powi_loop_valid|].
  apply div_valid; [exact O|now apply powi_loop_valid].
Qed.
Lemma EXPT_valid : forall x n, fl_valid f x -> fl_valid f (EXPT_DINT f x n).
Proof. intros x n V. apply of_sf_valid; [exact Hf|]. apply powi_valid. now apply sf_valid. Qed.
Lemma SQRT_valid : forall x, fl_valid f x -> fl_valid f (SQRT f x).
Proof.
  intros x V. apply of_sf_valid; [exact Hf|]. exact (proj1 (sqrt_sf prec emax Hprec Hmax _ (sf_valid f x V))).
Qed.
Lemma ROUND_valid : forall x, fl_valid f x -> fl_valid f (ROUND f x).
Proof. intros [[]|] V; try exact V. apply norm_valid. Qed.
Lemma convert_valid : forall g x, fl_valid g x -> fl_valid f (fl_convert f x).
Proof.
  intros g [[]|] V; cbn [fl_convert]; [exact eq_refl|exact eq_refl|exact V|apply norm_valid|].
  destruct Hf as [-> | ->]; exact eq_refl.
Qed.
Lemma fmt_okf : fmt_ok f.
Proof. destruct Hf as [-> | ->]; split; reflexivity. Qed.
Lemma from_bits_valid : forall b, 0 <= b < 2 ^ f_width f -> fl_valid f (from_bits f b).
Proof.
  intros b B. destruct (fmt_okf) as [H1 H2].
  assert (PM : 0 < 2 ^ f_mw f) by (apply Z.pow_pos_nonneg; lia).
  assert (PE : 4 <= 2 ^ f_ew f).
  { replace 4 with (2 ^ 2) by reflexivity. apply Z.pow_le_mono_r; lia. }
  assert (EE : 2 ^ f_ew f = 2 * f_emax f).
  { unfold f_emax. rewrite <- Z.pow_succ_r by lia. f_equal. lia. }
  unfold from_bits. cbv zeta.
  set (s := Z.testbit b _). set (e := (b / _) mod _). set (m := b mod _).
  assert (He : 0 <= e < 2 ^ f_ew f) by (apply Z.mod_pos_bound; lia).
  assert (Hm : 0 <= m < 2 ^ f_mw f) by (apply Z.mod_pos_bound; lia).
  assert (V : forall p d, (Zpos p < 2 ^ f_mw f /\ d = f_emin f \/ 2 ^ f_mw f <= Zpos p < 2 * 2 ^ f_mw f) ->
    f_emin f <= d <= f_emax f - f_prec f -> fl_valid f (FNum (S754_finite s p d))).
  { intros p d C D. cbn [fl_valid valid_binary]. unfold bounded, canonical_mantissa.
    apply andb_true_iff. split; [|now apply Z.leb_le].
    apply Zeq_is_eq_bool. unfold SpecFloat.fexp, SpecFloat.emin. fold (f_emin f).
    pose proof (digits2_bounds p) as G. set (g := Zpos (digits2_pos p)) in *.
    assert (0 < g) by (unfold g; lia). unfold f_prec in *.
    destruct C as [[C ->]|C].
    - assert (g <= f_mw f).
      { destruct (Z.le_gt_cases g (f_mw f)) as [L|L]; [exact L|].
        assert (2 ^ f_mw f <= 2 ^ (g - 1)) by (apply Z.pow_le_mono_r; lia). lia. }
      unfold f_emin, f_prec in *. lia.
    - assert (g = f_mw f + 1).
      { destruct (Z.lt_trichotomy g (f_mw f + 1)) as [L|[L|L]]; [|exact L|].
        - assert (2 ^ g <= 2 ^ f_mw f) by (apply Z.pow_le_mono_r; lia). lia.
        - assert (2 ^ (f_mw f + 1) <= 2 ^ (g - 1)) by (apply Z.pow_le_mono_r; lia).
          rewrite Z.pow_add_r in * by lia. lia. }
      lia. }
  destruct (Z.eqb_spec e 0) as [->|E0].
  - destruct m as [|p|p]; [exact eq_refl| |lia]. apply V; [lia|]. unfold f_emin, f_prec in *.
    destruct Hf as [-> | ->]; vm_compute; split; discriminate.
  - destruct (Z.eqb_spec e (2 ^ f_ew f - 1)) as [E|E1].
    + destruct m as [|p|p]; [exact eq_refl|cbn; lia|lia].
    + destruct (m + 2 ^ f_mw f) as [|p|p] eqn:E; [lia| |lia]. apply V; [lia|].
      unfold f_emin in *. lia.
Qed.
Lemma fmax_one : forall tie x y, fmax tie x y = x \/ fmax tie x y = y.
Proof. intros tie x y. unfold fmax. destruct (SFcompare x y) as [[]|]; auto; [destruct (tie x y)|destruct x]; auto. Qed.
Lemma fmin_one : forall tie x y, fmin tie x y = x \/ fmin tie x y = y.
Proof. intros tie x y. unfold fmin. destruct (SFcompare x y) as [[]|]; auto; [destruct (tie x y)|destruct x]; auto. Qed.
Lemma fold_one : forall g l x, (forall a b : spec_float, g a b = a \/ g a b = b) ->
  Forall (fun y => valid y = true) l -> valid x = true -> valid (fold_left g l x) = true.
Proof.
  intros g l. induction l as [|y l IH]; intros x G A X; [exact X|]. inversion A; subst. cbn [fold_left].
  apply IH; [exact G|assumption|]. destruct (G x y) as [-> | ->]; assumption.
Qed.
End Ops.

(** * Integer results *)

Definition int_typed (t : rty) (z : Z) : Prop := typed t (VZ z).
(** The outcome of a function with an integer result; [b]: it may abort. *)
Definition okz (t : rty) (b : bool) (o : outcome Z) : Prop :=
  match o with Ok z => int_typed t z | Panic => b = true | Ub => False end.
Lemma okz_unwrap : forall x, okz I64 true (unwrap (checked i64 x)).
Proof.
  intros x. destruct (checked_spec i64 x) as [[I ->]|[_ ->]]; [exact I|reflexivity].
Qed.
Lemma okz_if : forall x, okz I64 true (if in_ityb i64 x then Ok x else Panic).
Proof. intros x. pose proof (okz_unwrap x) as H. unfold checked in H. destruct (in_ityb i64 x); exact H. Qed.
Lemma okz_bind : forall A t b (o : outcome A) g, o <> Ub -> (o = Panic -> b = true) -> (forall a, okz t b (g a)) ->
  okz t b (let! a := o in g a).
Proof. intros A t b [a| |] g U P G; [apply G|now apply P|congruence]. Qed.
Lemma unwrap_no_ub : forall A (o : option A), unwrap o <> Ub.
Proof. intros A [a|]; discriminate. Qed.
Lemma okz_ts : forall v t, okz I64 true (timestamp_nanos v t).
Proof.
  intros v t. unfold timestamp_nanos. cbv zeta.
  match goal with |- context [let '(_, _) := ?p in _] => destruct p as [a b] end.
  destruct (checked i64 (a * GIGA)); [apply okz_unwrap|reflexivity].
Qed.
Ltac ok_bind := apply okz_bind; [apply unwrap_no_ub|reflexivity|intros].

(** * Combinators *)

(** The function [c] has parameters [ps] and result [r]; [b]: whether it may abort, by profile. *)
Definition code_ok (c : code) (ps : list rty) (r : rty) (b : profile -> bool) : Prop :=
  forall P args, sane P -> Forall2 typed ps args ->
  match c P args with
  | Ok (v, a) => typed r v /\ Forall2 typed ps a
  | Panic => b (p_profile P) = true
  | Ub => False
  end.

Definition is_int (t : rty) : bool := match t with U8|U16|U32|U64|I8|I16|I32|I64|RBool => true | _ => false end.
Definition float_type (f : fmt) (t : rty) : Prop := binary_format f /\ forall v, typed t v <-> exists x, v = VF x /\ fl_valid f x.
Lemma float32 : float_type F32 RF32.
Proof.
  split; [now left|]. intros v. split.
  - destruct v as [z|x|m]; intros V; [destruct V|now exists x|destruct V].
  - intros (x & -> & V). exact V.
Qed.
Lemma float64 : float_type F64 RF64.
Proof.
  split; [now right|]. intros v. split.
  - destruct v as [z|x|m]; intros V; [destruct V|now exists x|destruct V].
  - intros (x & -> & V). exact V.
Qed.
Lemma int_value : forall t v, is_int t = true -> typed t v -> exists z, v = VZ z /\ int_typed t z.
Proof. intros t [z|x|m] I T; [now exists z| |]; destruct t; discriminate I || destruct T. Qed.
Ltac args H := repeat match goal with
  | H : Forall2 typed (_ :: _) _ |- _ => inversion H; clear H; subst
  | H : Forall2 typed [] _ |- _ => inversion H; clear H; subst
  end.
Ltac all_typed := repeat (apply Forall2_cons; [assumption|]); apply Forall2_nil.

Lemma z1_ok : forall g t r b, is_int t = true -> (forall P a, sane P -> int_typed t a -> okz r (b (p_profile P)) (g P a)) ->
  code_ok (z1 g) [t] r b.
Proof.
  intros g t r b I G P l S A. args A.
  destruct (int_value t _ I ltac:(eassumption)) as (a & -> & Ta). cbn [z1].
  pose proof (G P a S Ta) as O. destruct (g P a); cbn [obind okz] in *; [split; [exact O|all_typed]|exact O|exact O].
Qed.
Lemma z2_ok : forall g t u r b, is_int t = true -> is_int u = true ->
  (forall P x y, sane P -> int_typed t x -> int_typed u y -> okz r (b (p_profile P)) (g P x y)) -> code_ok (z2 g) [t; u] r b.
Proof.
  intros g t u r b I J G P l S A. args A.
  destruct (int_value t _ I ltac:(eassumption)) as (x1 & -> & T1).
  destruct (int_value u _ J ltac:(eassumption)) as (x2 & -> & T2). cbn [z2].
  pose proof (G P x1 x2 S T1 T2) as O. destruct (g P x1 x2); cbn [obind okz] in *; [split; [exact O|all_typed]|exact O|exact O].
Qed.
Lemma z3_ok : forall g t u w r b, is_int t = true -> is_int u = true -> is_int w = true ->
  (forall P x y z, sane P -> int_typed t x -> int_typed u y -> int_typed w z -> okz r (b (p_profile P)) (g P x y z)) ->
  code_ok (z3 g) [t; u; w] r b.
Proof.
  intros g t u w r b I J K G P l S A. args A.
  destruct (int_value t _ I ltac:(eassumption)) as (x1 & -> & T1).
  destruct (int_value u _ J ltac:(eassumption)) as (x2 & -> & T2).
  destruct (int_value w _ K ltac:(eassumption)) as (x3 & -> & T3). cbn [z3].
  pose proof (G P x1 x2 x3 S T1 T2 T3) as O.
  destruct (g P x1 x2 x3); cbn [obind okz] in *; [split; [exact O|all_typed]|exact O|exact O].
Qed.
Lemma z4_ok : forall g t r b, is_int t = true ->
  (forall P x y z w, sane P -> int_typed t x -> int_typed t y -> int_typed t z -> int_typed t w -> okz r (b (p_profile P)) (g P x y z w)) ->
  code_ok (z4 g) [t; t; t; t] r b.
Proof.
  intros g t r b I G P l S A. args A.
  repeat match goal with H : typed t ?v |- _ => is_var v; destruct (int_value t v I H) as (? & -> & ?) end. cbn [z4].
  match goal with |- context [g P ?x1 ?x2 ?x3 ?x4] =>
    pose proof (G P x1 x2 x3 x4 S ltac:(assumption) ltac:(assumption) ltac:(assumption) ltac:(assumption)) as O end.
  destruct (g P _ _ _ _); cbn [obind okz] in *; [split; [exact O|all_typed]|exact O|exact O].
Qed.

Lemma f1_ok : forall g f t r b, float_type f t -> float_type f r ->
  (forall P x, sane P -> fl_valid f x -> fl_valid f (g P x)) -> code_ok (f1 g) [t] r b.
Proof.
  intros g f t r b [_ T] [_ R] G P l S A. args A.
  destruct (proj1 (T _) ltac:(eassumption)) as (x & -> & X). cbn [f1].
  split; [apply R; eexists; split; [reflexivity|auto]|all_typed].
Qed.
Lemma f2_ok : forall g f h t u r b, float_type f t -> float_type h u -> float_type f r ->
  (forall P x y, sane P -> fl_valid f x -> fl_valid h y -> fl_valid f (g P x y)) -> code_ok (f2 g) [t; u] r b.
Proof.
  intros g f h t u r b [_ T] [_ U] [_ R] G P l S A. args A.
  destruct (proj1 (T _) ltac:(eassumption)) as (x1 & -> & X1).
  destruct (proj1 (U _) ltac:(eassumption)) as (x2 & -> & X2). cbn [f2].
  split; [apply R; eexists; split; [reflexivity|auto]|all_typed].
Qed.
Lemma fz_ok : forall g f t u r b, float_type f t -> is_int u = true -> float_type f r ->
  (forall x n, fl_valid f x -> fl_valid f (g x n)) -> code_ok (fz g) [t; u] r b.
Proof.
  intros g f t u r b [_ T] I [_ R] G P l S A. args A.
  destruct (proj1 (T _) ltac:(eassumption)) as (x1 & -> & X1).
  destruct (int_value u _ I ltac:(eassumption)) as (x2 & -> & X2). cbn [fz].
  split; [apply R; eexists; split; [reflexivity|auto]|all_typed].
Qed.
Lemma zf_ok : forall g f t u r b, is_int t = true -> float_type f u ->
  (forall P x y, sane P -> int_typed t x -> fl_valid f y -> okz r (b (p_profile P)) (g P x y)) -> code_ok (zf g) [t; u] r b.
Proof.
  intros g f t u r b I [_ U] G P l S A. args A.
  destruct (int_value t _ I ltac:(eassumption)) as (x1 & -> & X1).
  destruct (proj1 (U _) ltac:(eassumption)) as (x2 & -> & X2). cbn [zf].
  pose proof (G P x1 x2 S X1 X2) as O. destruct (g P x1 x2); cbn [obind okz] in *; [split; [exact O|all_typed]|exact O|exact O].
Qed.
Lemma f_z_ok : forall g f t r b, float_type f t -> (forall x, fl_valid f x -> int_typed r (g x)) -> code_ok (f_z g) [t] r b.
Proof.
  intros g f t r b [_ T] G P l S A. args A.
  destruct (proj1 (T _) ltac:(eassumption)) as (x & -> & X). cbn [f_z]. split; [apply G, X|all_typed].
Qed.
Lemma z_f_ok : forall g f t r b, is_int t = true -> float_type f r -> (forall x, int_typed t x -> fl_valid f (g x)) ->
  code_ok (z_f g) [t] r b.
Proof.
  intros g f t r b I [_ R] G P l S A. args A.
  destruct (int_value t _ I ltac:(eassumption)) as (x & -> & X). cbn [z_f].
  split; [apply R; eexists; split; [reflexivity|auto]|all_typed].
Qed.
Lemma limit_ok : forall f t b, float_type f t -> code_ok (limit_float f) [t; t; t] t b.
Proof.
  intros f t b [F T] P l S A. args A.
  repeat match goal with H : typed t ?v |- _ => is_var v; destruct (proj1 (T v) H) as (? & -> & ?) end. cbn [limit_float f3].
  split; [|all_typed]. apply T. eexists; split; [reflexivity|]. apply of_sf_valid; [exact F|].
  unfold LIMIT_float. destruct (SFltb _ _); [now apply sf_valid|]. destruct (SFltb _ _); now apply sf_valid.
Qed.
Lemma clock_ok : forall b, code_ok clock [] I64 b.
Proof.
  intros b P l (S1 & S2 & _) A. args A. cbn [clock]. unfold TIME, arith.
  assert (C : forall x, 0 <= x <= 100000 * GIGA -> in_ityb i64 x = true).
  { intros x H. unfold GIGA in H. apply andb_true_iff. split; apply Z.leb_le; cbn; lia. }
  rewrite C by (unfold GIGA; lia). cbn [obind]. rewrite C by (unfold GIGA; lia). cbn [obind].
  split; [cbn [typed]; lia|all_typed].
Qed.

Lemma date_bits : forall t, List.In t date_types -> 0 < it_bits t.
Proof. intros t T. repeat (destruct T as [<-|T]; [reflexivity|]). destruct T. Qed.
Definition ity_type (t : ity) (r : rty) : Prop := forall z, typed r (VZ z) <-> in_ity t z.
Lemma split_date_ok : forall t r b, List.In t date_types -> ity_type t r ->
  code_ok (split_date t) [I64; Ptr true r; Ptr true r; Ptr true r] I16 b.
Proof.
  intros t r b T R P l S A. args A. destruct (int_value I64 _ eq_refl ltac:(eassumption)) as (a & -> & Ta).
  cbn [split_date]. destruct (split_date_lemma t a T Ta) as (y' & m & d & E & _).
  pose proof E as E'. unfold SPLIT_DATE in E'. destruct (ymd _) as [[ye m0] d0].
  destruct (checked_spec t ye) as [[I C]|[_ C]]; rewrite C in E'; [|discriminate E'].
  cbn [unwrap obind] in E'. injection E' as <- <- <-. rewrite E. cbn [obind].
  split; [cbn; lia|]. pose proof (fun x => proj2 (R (wrap t x)) (wrap_range t x (date_bits t T))) as W.
  apply R in I. repeat (apply Forall2_cons; [first [assumption|exact I|apply W]|]). apply Forall2_nil.
Qed.
Lemma split_tod_ok : forall t r b, List.In t date_types -> ity_type t r ->
  code_ok (split_tod t) [I64; Ptr true r; Ptr true r; Ptr true r; Ptr true r] I16 b.
Proof.
  intros t r b T R P l S A. args A. destruct (int_value I64 _ eq_refl ltac:(eassumption)) as (a & -> & Ta).
  cbn [split_tod]. unfold SPLIT_TOD.
  split; [cbn; lia|]. pose proof (fun x => proj2 (R (wrap t x)) (wrap_range t x (date_bits t T))) as W.
  repeat (apply Forall2_cons; [first [assumption|apply W]|]). apply Forall2_nil.
Qed.
Lemma split_dt_ok : forall t r b, List.In t date_types -> ity_type t r ->
  code_ok (split_dt t) [I64; Ptr true r; Ptr true r; Ptr true r; Ptr true r; Ptr true r; Ptr true r; Ptr true r] I16 b.
Proof.
  intros t r b T R P l S A. args A. destruct (int_value I64 _ eq_refl ltac:(eassumption)) as (a & -> & Ta).
  cbn [split_dt]. destruct (split_dt_lemma t a T Ta) as (ya & m & d & h & mi & s & ms & E & _).
  pose proof E as E'. unfold SPLIT_DT in E'. destruct (ymd _) as [[ye m0] d0].
  destruct (checked_spec t ye) as [[I C]|[_ C]]; rewrite C in E'; [|discriminate E'].
  cbn [unwrap obind] in E'. injection E' as <- <- <- <- <- <- <-. rewrite E. cbn [obind].
  split; [cbn; lia|]. pose proof (fun x => proj2 (R (wrap t x)) (wrap_range t x (date_bits t T))) as W.
  apply R in I. repeat (apply Forall2_cons; [first [assumption|exact I|apply W]|]). apply Forall2_nil.
Qed.

(** Arrays. *)
Definition list_ok (c : code) (t : rty) : Prop :=
  forall P args, args <> [] -> Forall (typed t) args ->
  exists v, c P args = Ok (v, args) /\ typed t v.
Lemma ints_ok : forall t l, is_int t = true -> Forall (typed t) l -> exists a, ints l = Some a /\ Forall (int_typed t) a /\ length a = length l.
Proof.
  intros t l I A. induction A as [|v l V A (a & E & F & L)]; [exists []; repeat split; constructor|].
  destruct (int_value t v I V) as (z & -> & Z). exists (z :: a). cbn [ints]. rewrite E.
  split; [reflexivity|]. split; [now constructor|cbn; congruence].
Qed.
Lemma floats_ok : forall f t l, float_type f t -> Forall (typed t) l ->
  exists a, floats l = Some a /\ Forall (fl_valid f) a /\ length a = length l.
Proof.
  intros f t l [_ T] A. induction A as [|v l V A (a & E & F & L)]; [exists []; repeat split; constructor|].
  destruct (proj1 (T v) V) as (z & -> & Z). exists (z :: a). cbn [floats]. rewrite E.
  split; [reflexivity|]. split; [now constructor|cbn; congruence].
Qed.
Lemma zs_max : forall t, is_int t = true -> list_ok (zs MAX_ord) t.
Proof.
  intros t I P l N A. destruct (ints_ok t l I A) as (a & E & F & L). unfold zs. rewrite E.
  assert (0 < size a <= Z.of_nat (length a)) by (unfold size; destruct a; [destruct l; [congruence|discriminate]|cbn [length]; lia]).
  destruct (max_lemma a (size a) ltac:(assumption)) as (x & R & J & _). rewrite R. cbn [obind].
  exists (VZ x). split; [reflexivity|]. unfold size in J. rewrite Nat2Z.id, firstn_all in J.
  rewrite Forall_forall in F. now apply F.
Qed.
Lemma zs_min : forall t, is_int t = true -> list_ok (zs MIN_ord) t.
Proof.
  intros t I P l N A. destruct (ints_ok t l I A) as (a & E & F & L). unfold zs. rewrite E.
  assert (0 < size a <= Z.of_nat (length a)) by (unfold size; destruct a; [destruct l; [congruence|discriminate]|cbn [length]; lia]).
  destruct (min_lemma a (size a) ltac:(assumption)) as (x & R & J & _). rewrite R. cbn [obind].
  exists (VZ x). split; [reflexivity|]. unfold size in J. rewrite Nat2Z.id, firstn_all in J.
  rewrite Forall_forall in F. now apply F.
Qed.
Lemma fs_reduce : forall f t h, float_type f t -> (forall tie a b, h tie a b = a \/ h tie a b = b) ->
  list_ok (fs f (fun tie n v => match v with None => Panic | Some mem => let! arr := raw_slice mem n in unwrap (reduce (h tie) arr) end)) t.
Proof.
  intros f t h T H P l N A. destruct (floats_ok f t l T A) as (a & E & F & L). unfold fs. rewrite E.
  assert (G : raw_slice (map fl_sf a) (size a) = Ok (map fl_sf a)).
  { unfold raw_slice, size. rewrite map_length, Z.leb_refl, Nat2Z.id, <- (map_length fl_sf a), firstn_all. reflexivity. }
  rewrite G. cbn [obind]. destruct a as [|x a]; [destruct l; [congruence|discriminate]|].
  cbn [map reduce unwrap obind]. eexists. split; [reflexivity|]. destruct T as [B T]. apply T.
  eexists. split; [reflexivity|]. apply of_sf_valid; [exact B|]. inversion F; subst.
  apply fold_one; [apply H| |now apply sf_valid].
  apply Forall_forall. intros y Y. apply in_map_iff in Y. destruct Y as (w & <- & W). apply sf_valid.
  rewrite Forall_forall in *. auto.
Qed.
Lemma fs_max : forall f t, float_type f t -> list_ok (fs f MAX_float) t.
Proof. intros f t T. exact (fs_reduce f t fmax T fmax_one). Qed.
Lemma fs_min : forall f t, float_type f t -> list_ok (fs f MIN_float) t.
Proof. intros f t T. exact (fs_reduce f t fmin T fmin_one). Qed.

(** * The functions *)

Lemma okz_any : forall t b o, okz t false o -> okz t b o.
Proof. intros t b [z| |] O; [exact O|discriminate O|exact O]. Qed.
Lemma okz_may : forall t b o, okz t true o -> b = true -> okz t b o.
Proof. intros t b [z| |] O B; [exact O|exact B|exact O]. Qed.

Definition width_type (w : Z) (r : rty) : Prop := forall z, typed r (VZ z) <-> 0 <= z <= 2 ^ w - 1.
Lemma shl_ok : forall w r P x n, 0 < w -> width_type w r -> okz r (match p_profile P with Debug => true | Release => false end) (SHL (p_profile P) w x n).
Proof.
  intros w r P x n W R. assert (0 < 2 ^ w) by (apply Z.pow_pos_nonneg; lia).
  assert (M : forall y, int_typed r (y mod 2 ^ w)).
  { intros y. apply R. pose proof (Z.mod_pos_bound y (2 ^ w) ltac:(assumption)). lia. }
  unfold SHL. destruct (n <? w); [apply M|]. destruct (p_profile P); [reflexivity|apply M].
Qed.
Lemma shr_ok : forall w r P x n, 0 < w -> width_type w r -> int_typed r x -> 0 <= n ->
  okz r (match p_profile P with Debug => true | Release => false end) (SHR (p_profile P) w x n).
Proof.
  intros w r P x n W R X N. apply R in X.
  assert (M : forall k, 0 <= k -> int_typed r (Z.shiftr x k)).
  { intros k K. apply R. rewrite Z.shiftr_div_pow2 by lia. assert (0 < 2 ^ k) by (apply Z.pow_pos_nonneg; lia).
    split; [apply Z.div_pos; lia|]. assert (x / 2 ^ k <= x); [|lia]. apply Z.div_le_upper_bound; [lia|nia]. }
  unfold SHR. destruct (n <? w); [now apply M|]. destruct (p_profile P); [reflexivity|]. apply M.
  apply Z.mod_pos_bound. lia.
Qed.
Lemma rol_ok : forall w r b x n, 0 < w -> width_type w r -> int_typed r x -> okz r b (Ok (ROL w x n)).
Proof.
  intros w r b x n W R X. apply R in X. apply R. pose proof (rol_range w x n W) as B. unfold in_width in B. lia.
Qed.
Lemma ror_ok : forall w r b x n, 0 < w -> width_type w r -> int_typed r x -> okz r b (Ok (ROR w x n)).
Proof.
  intros w r b x n W R X. rewrite ror_rol; [now apply rol_ok|exact W|]. apply R in X. unfold in_width. lia.
Qed.
Lemma swap_ok : forall t x, List.In t endian_types -> in_ity t (swap_bytes t x).
Proof. intros t x T. apply wrap_range. repeat (destruct T as [<-|T]; [reflexivity|]). destruct T. Qed.
Lemma to_be_ok : forall h t x, List.In t endian_types -> in_ity t x -> in_ity t (to_be h t x).
Proof. intros [] t x T X; cbn [to_be]; [now apply swap_ok|exact X]. Qed.
Lemma to_le_ok : forall h t x, List.In t endian_types -> in_ity t x -> in_ity t (to_le h t x).
Proof. intros [] t x T X; cbn [to_le]; [exact X|now apply swap_ok]. Qed.
Lemma limit_in : forall t a b c, int_typed t a -> int_typed t b -> int_typed t c -> int_typed t (LIMIT_ord a b c).
Proof. intros t a b c A B C. unfold LIMIT_ord. destruct (b <? a); [exact A|]. destruct (c <? b); assumption. Qed.
Lemma bool_ok : forall b, int_typed RBool (Z.b2z b).
Proof. intros []; cbn; auto. Qed.
Lemma small_char : forall x, 0 <= x <= 2 ^ 8 - 1 -> int_typed U16 (CHAR_TO_WCHAR x).
Proof.
  intros x X. unfold int_typed. cbn [typed]. unfold CHAR_TO_WCHAR, encode_utf16.
  replace (x <? 65536) with true by (symmetry; apply Z.ltb_lt; lia). cbn [hd]. lia.
Qed.
Lemma lor_byte : forall a b, 0 <= a < 256 -> 0 <= b < 256 -> 0 <= Z.lor a b < 256.
Proof.
  intros a b A B. split; [apply Z.lor_nonneg; lia|].
  destruct (Z.eq_dec (Z.lor a b) 0) as [E|E]; [rewrite E; lia|].
  assert (0 < Z.lor a b) by (pose proof (proj2 (Z.lor_nonneg a b) ltac:(lia)); lia).
  change 256 with (2 ^ 8). apply Z.log2_lt_pow2; [assumption|]. rewrite Z.log2_lor by lia.
  pose proof (Z.log2_le_mono a 255 ltac:(lia)) as U. pose proof (Z.log2_le_mono b 255 ltac:(lia)) as V.
  change (Z.log2 255) with 7 in *. lia.
Qed.
Lemma land_byte : forall x k, 0 <= k <= 8 -> 0 <= Z.land x (Z.ones k) < 256.
Proof.
  intros x k K. rewrite Z.land_ones by lia. assert (0 < 2 ^ k) by (apply Z.pow_pos_nonneg; lia).
  assert (2 ^ k <= 2 ^ 8) by (apply Z.pow_le_mono_r; lia). change (2 ^ 8) with 256 in *.
  pose proof (Z.mod_pos_bound x (2 ^ k) ltac:(lia)). lia.
Qed.
Lemma first_byte : forall c, 0 <= c -> 0 <= hd 255 (encode_utf8 c) < 256.
Proof.
  intros c C. unfold encode_utf8. cbv zeta.
  destruct (Z.ltb_spec c 128); [cbn [hd]; lia|].
  destruct (c <? 2048); [|destruct (c <? 65536)]; cbn [hd]; apply lor_byte; try lia.
  - exact (land_byte _ 5 ltac:(lia)).
  - exact (land_byte _ 4 ltac:(lia)).
  - exact (land_byte _ 3 ltac:(lia)).
Qed.
Lemma narrow_char : forall x, 0 <= x -> int_typed U8 (WCHAR_TO_CHAR x).
Proof.
  intros x X. unfold int_typed. cbn [typed]. change (2 ^ 8 - 1) with 255. unfold WCHAR_TO_CHAR. cbn [decode_utf16].
  assert (H : forall c, 0 <= c -> 0 <= hd 255 (encode_utf8 c) <= 255) by (intros c C; pose proof (first_byte c C); lia).
  assert (R : 0 <= match or_replacement None with Some c => hd 255 (encode_utf8 c) | None => 255 end <= 255)
    by (vm_compute; split; discriminate).
  destruct (negb _); cbn [map]; [exact (H x X)|]. destruct (_ <=? _); cbn [map]; exact R.
Qed.
Lemma dow_ok : forall x, int_typed I8 (DAY_OF_WEEK x).
Proof.
  intros x. rewrite day_of_week_lemma. unfold int_typed. cbn [typed]. pose proof (Z.mod_pos_bound (x / DAY + 4) 7 ltac:(lia)). lia.
Qed.

Lemma dt_to_date_ok : forall v x, okz I64 true (DATE_AND_TIME_TO_DATE v x).
Proof. intros v x. unfold DATE_AND_TIME_TO_DATE. ok_bind. apply okz_ts. Qed.
Lemma dt_to_tod_ok : forall v x, okz I64 false (DATE_AND_TIME_TO_TIME_OF_DAY v x).
Proof.
  intros v x. rewrite dt_to_tod. unfold okz, int_typed. cbn [typed]. assert (0 < DAY) by reflexivity.
  pose proof (Z.mod_pos_bound x DAY ltac:(assumption)). unfold DAY in *. lia.
Qed.
Lemma concat_date_tod_ok : forall v x y, okz I64 true (CONCAT_DATE_TOD v x y).
Proof. intros v x y. unfold CONCAT_DATE_TOD. cbv zeta. ok_bind. apply okz_ts. Qed.
Lemma concat_date_ok : forall v x y z, okz I64 true (concat_date v x y z).
Proof. intros v x y z. unfold concat_date. ok_bind. apply okz_ts. Qed.
Lemma concat_tod_ok : forall v x y z w, okz I64 true (concat_tod v x y z w).
Proof. intros v x y z w. unfold concat_tod. ok_bind. apply okz_ts. Qed.
Lemma du_num_ok : forall d, okz I64 true (unwrap (du_num_nanoseconds d)).
Proof.
  intros d. unfold du_num_nanoseconds. destruct (checked i64 _); [apply okz_unwrap|reflexivity].
Qed.
Lemma add_time_ok : forall x y, okz I64 true (ADD_TIME x y).
Proof. intros x y. unfold ADD_TIME. ok_bind. apply du_num_ok. Qed.
Lemma sub_time_ok : forall x y, okz I64 true (SUB_TIME x y).
Proof. intros x y. unfold SUB_TIME. ok_bind. apply du_num_ok. Qed.
Lemma sub_datetimes_ok : forall x y, okz I64 true (sub_datetimes x y).
Proof. intros x y. unfold sub_datetimes. ok_bind. apply du_num_ok. Qed.
Lemma mul_signed_ok : forall x y, okz I64 true (MUL_TIME_SIGNED x y).
Proof. intros x y. apply okz_unwrap. Qed.
Lemma mul_unsigned_ok : forall x y, okz I64 true (MUL_TIME_UNSIGNED x y).
Proof. intros x y. unfold MUL_TIME_UNSIGNED. ok_bind. apply okz_unwrap. Qed.
Lemma div_signed_ok : forall x y, okz I64 true (DIV_TIME_SIGNED x y).
Proof. intros x y. unfold DIV_TIME_SIGNED, checked_div_i64. destruct (y =? 0); [reflexivity|apply okz_unwrap]. Qed.
Lemma div_unsigned_ok : forall x y, okz I64 true (DIV_TIME_UNSIGNED x y).
Proof. intros x y. unfold DIV_TIME_UNSIGNED. ok_bind. apply div_signed_ok. Qed.
Lemma time_float_ok : forall op g f x y, okz I64 true (time_float op g f x y).
Proof.
  intros op g f x y. unfold time_float. destruct (from_secs_f g f _) as [ns| |] eqn:E; cbn [obind]; [|reflexivity|].
  - pose proof (from_secs_nonneg g f _ ns E) as N. destruct (checked_spec i64 ns) as [[I ->]|[_ ->]]; [|reflexivity].
    cbn [unwrap obind okz]. change (-9223372036854775808 <= ns <= 9223372036854775807) in I. unfold int_typed. cbn [typed].
    change (2 ^ 63) with 9223372036854775808. destruct (xorb _ _); lia.
  - revert E. unfold from_secs_f. repeat match goal with |- context [match ?o with _ => _ end] => destruct o end; discriminate.
Qed.
Lemma mul_real_ok : forall g f x y, okz I64 true (MUL_TIME_REAL g f x y).
Proof. intros g f x y. apply time_float_ok. Qed.
Lemma div_real_ok : forall g f x y, okz I64 true (DIV_TIME_REAL g f x y).
Proof. intros g f x y. apply time_float_ok. Qed.

Lemma bits1_ok : forall f g t b, float_type f t ->
  (forall x, 0 <= x < 256 ^ Z.of_nat (Z.to_nat (f_width f / 8)) -> g (Z.to_nat (f_width f / 8)) x = x) -> code_ok (bits1 f g) [t] t b.
Proof.
  intros f g t b T G. apply (f1_ok _ f t t b T T). intros P x _ X. destruct T as [B _].
  pose proof (fmt_okf f B) as O. destruct (value_roundtrip f x O X) as [E R].
  rewrite G; [now rewrite E|]. replace (256 ^ _) with (2 ^ f_width f); [exact R|].
  destruct B as [-> | ->]; reflexivity.
Qed.
Lemma lword_ok : forall x, int_typed U64 x -> fl_valid F64 (LWORD_TO_LREAL x).
Proof.
  intros x X. apply from_bits_valid; [now right|]. unfold int_typed in X. cbn [typed] in X.
  change (2 ^ f_width F64) with (2 ^ 64). lia.
Qed.
Lemma dword_ok : forall x, int_typed U32 x -> fl_valid F32 (DWORD_TO_REAL x).
Proof.
  intros x X. apply from_bits_valid; [now left|]. unfold int_typed in X. cbn [typed] in X.
  change (2 ^ f_width F32) with (2 ^ 32). lia.
Qed.
Lemma lreal_ok : forall x, fl_valid F64 x -> int_typed U64 (LREAL_TO_LWORD x).
Proof.
  intros x X. destruct (value_roundtrip F64 x F64_ok X) as [_ R]. change (2 ^ f_width F64) with (2 ^ 64) in R.
  unfold int_typed, LREAL_TO_LWORD. cbn [typed]. lia.
Qed.
Lemma real_ok : forall x, fl_valid F32 x -> int_typed U32 (REAL_TO_DWORD x).
Proof.
  intros x X. destruct (value_roundtrip F32 x F32_ok X) as [_ R]. change (2 ^ f_width F32) with (2 ^ 32) in R.
  unfold int_typed, REAL_TO_DWORD. cbn [typed]. lia.
Qed.

(** * All symbols *)

Definition symbol_ok (s : symbol) : Prop := forall P args, sane P -> arguments s args ->
  match rust_call P (sy_name s) args with
  | Ok (r, a) => typed (sy_ret s) r /\ arguments s a
  | Panic => List.In (sy_name s) (can_abort (p_profile P))
  | Ub => False
  end.
Definition aborts (n : string) (p : profile) : bool := existsb (String.eqb n) (can_abort p).
Lemma from_code : forall n e ps r c, array ps = None -> (forall P a, rust_call P n a = c P a) ->
  code_ok c ps r (aborts n) -> symbol_ok (Sym n e ps r).
Proof.
  intros n e ps r c A C K P l S L. unfold arguments in *. cbn [sy_name sy_params sy_ret] in *. rewrite A in *. rewrite C.
  specialize (K P l S L). destruct (c P l) as [[v a]| |]; [exact K| |exact K].
  apply existsb_exists in K. destruct K as (x & X & E). apply String.eqb_eq in E. now subst x.
Qed.
Lemma from_list : forall n e t c, number t = true -> (forall P a, rust_call P n a = c P a) ->
  list_ok c t -> symbol_ok (Sym n e [U32; Ptr false t] t).
Proof.
  intros n e t c A C K P l S L. unfold arguments in *. cbn [sy_name sy_params sy_ret array] in *. rewrite A in *. rewrite C.
  destruct (K P l (proj1 L) (proj2 L)) as (v & -> & T). now split.
Qed.

(** The functions with a float result, and those on one argument of a fixed type. *)
Lemma math1_ok : forall m f t b, float_type f t -> code_ok (math1 m f) [t] t b.
Proof.
  intros m f t b T. apply (f1_ok _ f t t b T T). intros P x (_ & _ & S) X. apply S.
  apply Forall_cons; [exact X|apply Forall_nil].
Qed.
Lemma math2_ok : forall m f t b, float_type f t -> code_ok (math2 m f) [t; t] t b.
Proof.
  intros m f t b T. apply (f2_ok _ f f t t t b T T T). intros P x y (_ & _ & S) X Y. apply S.
  apply Forall_cons; [exact X|]. apply Forall_cons; [exact Y|apply Forall_nil].
Qed.
Lemma powf_narrowed_ok : forall b, code_ok powf_narrowed [RF32; RF64] RF32 b.
Proof.
  intros b. apply (f2_ok _ F32 F64 _ _ _ b float32 float64 float32). intros P x y (_ & _ & S) X Y. apply S.
  apply Forall_cons; [exact X|]. apply Forall_cons; [|apply Forall_nil]. exact (convert_valid F32 (or_introl eq_refl) F64 y Y).
Qed.
Lemma powf_widened_ok : forall b, code_ok powf_widened [RF64; RF32] RF64 b.
Proof.
  intros b. apply (f2_ok _ F64 F32 _ _ _ b float64 float32 float64). intros P x y (_ & _ & S) X Y. apply S.
  apply Forall_cons; [exact X|]. apply Forall_cons; [|apply Forall_nil]. exact (convert_valid F64 (or_intror eq_refl) F32 y Y).
Qed.
Lemma sqrt_code : forall f t b, float_type f t -> code_ok (f1 (fun _ => SQRT f)) [t] t b.
Proof. intros f t b T. apply (f1_ok _ f t t b T T). intros P x _ X. exact (SQRT_valid f (proj1 T) x X). Qed.
Lemma round_code : forall f t b, float_type f t -> code_ok (f1 (fun _ => ROUND f)) [t] t b.
Proof. intros f t b T. apply (f1_ok _ f t t b T T). intros P x _ X. exact (ROUND_valid f (proj1 T) x X). Qed.
Lemma expt_code : forall f t b, float_type f t -> code_ok (fz (EXPT_DINT f)) [t; I32] t b.
Proof. intros f t b T. apply (fz_ok _ f t I32 t b T eq_refl T). intros x n X. exact (EXPT_valid f (proj1 T) x n X). Qed.
Lemma lword_code : forall b, code_ok (z_f LWORD_TO_LREAL) [U64] RF64 b.
Proof. intros b. exact (z_f_ok _ F64 U64 RF64 b eq_refl float64 lword_ok). Qed.
Lemma dword_code : forall b, code_ok (z_f DWORD_TO_REAL) [U32] RF32 b.
Proof. intros b. exact (z_f_ok _ F32 U32 RF32 b eq_refl float32 dword_ok). Qed.
Lemma lreal_code : forall b, code_ok (f_z LREAL_TO_LWORD) [RF64] U64 b.
Proof. intros b. exact (f_z_ok _ F64 RF64 U64 b float64 lreal_ok). Qed.
Lemma real_code : forall b, code_ok (f_z REAL_TO_DWORD) [RF32] U32 b.
Proof. intros b. exact (f_z_ok _ F32 RF32 U32 b float32 real_ok). Qed.
Lemma valid_code : forall f t b, float_type f t -> code_ok (f_z (fun x => Z.b2z (IS_VALID x))) [t] RBool b.
Proof. intros f t b T. apply (f_z_ok _ f t RBool b T). intros x _. apply bool_ok. Qed.
Lemma bcd_code : forall w t b, is_int t = true -> code_ok (z1 (pure1 (fun x => Z.b2z (IS_VALID_BCD w x)))) [t] RBool b.
Proof. intros w t b I. apply z1_ok; [exact I|]. intros P a _ _. apply bool_ok. Qed.
Lemma shl_code : forall n w r, 0 < w -> width_type w r -> is_int r = true -> aborts n Debug = true ->
  code_ok (z2 (fun P => SHL (p_profile P) w)) [r; U32] r (aborts n).
Proof.
  intros n w r W R I A. apply z2_ok; [exact I|reflexivity|]. intros P x k _ X K.
  pose proof (shl_ok w r P x k W R) as O. destruct (p_profile P); [rewrite A|apply okz_any]; exact O.
Qed.
Lemma shr_code : forall n w r, 0 < w -> width_type w r -> is_int r = true -> aborts n Debug = true ->
  code_ok (z2 (fun P => SHR (p_profile P) w)) [r; U32] r (aborts n).
Proof.
  intros n w r W R I A. apply z2_ok; [exact I|reflexivity|]. intros P x k _ X K.
  pose proof (shr_ok w r P x k W R X (proj1 K)) as O. destruct (p_profile P); [rewrite A|apply okz_any]; exact O.
Qed.
Lemma rol_code : forall w r b, 0 < w -> width_type w r -> is_int r = true -> code_ok (z2 (fun _ x n => Ok (ROL w x n))) [r; U32] r b.
Proof. intros w r b W R I. apply z2_ok; [exact I|reflexivity|]. intros P x k _ X K. now apply rol_ok. Qed.
Lemma ror_code : forall w r b, 0 < w -> width_type w r -> is_int r = true -> code_ok (z2 (fun _ x n => Ok (ROR w x n))) [r; U32] r b.
Proof. intros w r b W R I. apply z2_ok; [exact I|reflexivity|]. intros P x k _ X K. now apply ror_ok. Qed.
Lemma endian_code : forall t r b (g : endian -> ity -> Z -> Z), List.In t endian_types -> ity_type t r -> is_int r = true ->
  (forall h x, in_ity t x -> in_ity t (g h t x)) -> code_ok (z1 (fun P x => Ok (g (p_endian P) t x))) [r] r b.
Proof. intros t r b g T R I G. apply z1_ok; [exact I|]. intros P a _ A. apply R, G, R, A. Qed.
Lemma limit_code : forall t b, is_int t = true -> code_ok (z3 (fun _ x y z => Ok (LIMIT_ord x y z))) [t; t; t] t b.
Proof. intros t b I. apply z3_ok; [exact I|exact I|exact I|]. intros P x y z _ X Y Z. now apply limit_in. Qed.
Lemma abort1 : forall n (g : platform -> Z -> outcome Z), (forall p, aborts n p = true) ->
  (forall P x, okz I64 true (g P x)) -> code_ok (z1 g) [I64] I64 (aborts n).
Proof. intros n g A G. apply z1_ok; [reflexivity|]. intros P x _ _. apply okz_may; [apply G|apply A]. Qed.
Lemma abort2 : forall n (g : platform -> Z -> Z -> outcome Z) t u, is_int t = true -> is_int u = true -> (forall p, aborts n p = true) ->
  (forall P x y, okz I64 true (g P x y)) -> code_ok (z2 g) [t; u] I64 (aborts n).
Proof. intros n g t u I J A G. apply z2_ok; [exact I|exact J|]. intros P x y _ _ _. apply okz_may; [apply G|apply A]. Qed.
Lemma abort3 : forall n (g : platform -> Z -> Z -> Z -> outcome Z) t u w, is_int t = true -> is_int u = true -> is_int w = true ->
  (forall p, aborts n p = true) -> (forall P x y z, okz I64 true (g P x y z)) -> code_ok (z3 g) [t; u; w] I64 (aborts n).
Proof. intros n g t u w I J K A G. apply z3_ok; [exact I|exact J|exact K|]. intros P x y z _ _ _ _. apply okz_may; [apply G|apply A]. Qed.
Lemma abort4 : forall n (g : platform -> Z -> Z -> Z -> Z -> outcome Z) t, is_int t = true ->
  (forall p, aborts n p = true) -> (forall P x y z w, okz I64 true (g P x y z w)) -> code_ok (z4 g) [t; t; t; t] I64 (aborts n).
Proof. intros n g t I A G. apply z4_ok; [exact I|]. intros P x y z w _ _ _ _ _. apply okz_may; [apply G|apply A]. Qed.
Lemma abortf : forall n (g : platform -> Z -> fl -> outcome Z) f u, float_type f u ->
  (forall p, aborts n p = true) -> (forall P x y, okz I64 true (g P x y)) -> code_ok (zf g) [I64; u] I64 (aborts n).
Proof. intros n g f u U A G. apply (zf_ok _ f); [reflexivity|exact U|]. intros P x y _ _ _. apply okz_may; [apply G|apply A]. Qed.
