(** Lemmas about the ST functions on floats and times. *)
From Coq Require Import ZArith List Bool Lia String SpecFloat Reals Lra.
From Flocq Require Import Core BinarySingleNaN.
From Verif Require Import Base ModelFloat ModelChrono ModelDate ModelTimeNum ModelArith ModelST
  SpecScalar SpecTimeNum SpecST SpecReal ProofBase ProofTimeNum ProofTimeAcc ProofReal ProofReal2
  ProofST.
Import ListNotations.
Open Scope string_scope.
Open Scope Z_scope.

Lemma cast_self_f : forall f x, st_cast (TFloat f) (TFloat f) (VFl x) = Ok (VFl x).
Proof. intros f x. cbn [st_cast]. now rewrite Z.eqb_refl. Qed.

(** ** TRUNC *)
Lemma trunc_call : forall v X f x, In (X, f) float_names -> fl_finite x = true ->
  exists k, integer_part k (fl_value x) /\
    st_call v ("TRUNC__" ++ X) [VFl x] = if in_ityb i64 k then Ok (VInt k) else Ub.
Proof.
  intros v X f x HX F. destruct (trunc_spec x F) as (k & K & P). exists k. split; [exact P|].
  assert (Q : is_plain ("TRUNC__" ++ X) (TFloat f) (TInt i64)).
  { apply plainb_plain. destruct HX as [HX|[HX|[]]]; injection HX as <- <-; reflexivity. }
  rewrite (call_plain v _ _ _ _ _ Q (cast_self_f f x)). cbn [st_cast]. now rewrite K.
Qed.

(** ** Integers to floats *)
Lemma all_to_real :
  forallb (fun X => forallb (fun Y => plainb (to (fst X) (fst Y)) (TInt (snd X)) (TFloat (snd Y)))
    float_names) numeric_names = true.
Proof. vm_compute. reflexivity. Qed.

Lemma numeric_int : forall X s, In (X, s) numeric_names -> In (X, s) int_names.
Proof. intros X s H. simpl in *. tauto. Qed.

Lemma int_to_real : forall v X s Y f z, In (X, s) numeric_names -> In (Y, f) float_names ->
  in_ity s z -> st_call v (to X Y) [VInt z] = Ok (VFl (FNum (f_of_int f z))).
Proof.
  intros v X s Y f z HX HY R.
  assert (Q : is_plain (to X Y) (TInt s) (TFloat f)).
  { apply plainb_plain. pose proof all_to_real as H. rewrite forallb_forall in H.
    specialize (H _ HX). rewrite forallb_forall in H. exact (H _ HY). }
  rewrite (call_plain v _ _ _ _ _ Q (cast_self s z (int_names_ity _ _ (numeric_int _ _ HX)) R)).
  reflexivity.
Qed.

Lemma ity_abs : forall t z, In t all_ity -> in_ity t z -> Z.abs z < 2 ^ 127.
Proof.
  intros t z T R. unfold in_ity in R.
  assert (H : - 2 ^ 63 <= imin t /\ imax t < 2 ^ 64).
  { simpl in T. repeat (destruct T as [<-|T]; [split; vm_compute; (discriminate || reflexivity)|]).
    destruct T. }
  change (2 ^ 63) with 9223372036854775808 in H. change (2 ^ 64) with 18446744073709551616 in H.
  change (2 ^ 127) with 170141183460469231731687303715884105728. lia.
Qed.

Lemma int_to_real_spec : forall v X s Y f z, In (X, s) numeric_names -> In (Y, f) float_names ->
  in_ity s z -> exists x, st_call v (to X Y) [VInt z] = Ok (VFl x) /\
    nearest_even f x (IZR z) /\ (Z.abs z <= 2 ^ f_prec f -> fl_value x = IZR z).
Proof.
  intros v X s Y f z HX HY R. exists (FNum (f_of_int f z)).
  assert (Hf := float_names_fmt _ _ HY).
  split; [now apply (int_to_real v X s)|]. split.
  - apply of_int_nearest; auto. apply (ity_abs s); auto.
    apply (int_names_ity X). now apply numeric_int.
  - intros H. now apply (of_int_exact f Hf z H).
Qed.

Lemma nearest_int_exact : forall n r, r = IZR n -> nearest_int n r.
Proof. intros n r ->. apply nearest_int_self. Qed.

Lemma int_real_int : forall v X s Y f z, In (X, s) numeric_names -> In (Y, f) float_names ->
  in_ity s z -> Z.abs z <= 2 ^ f_prec f ->
  obind (st_call v (to X Y) [VInt z]) (fun r => st_call v (to Y X) [r]) = Ok (VInt z).
Proof.
  intros v X s Y f z HX HY R H. rewrite (int_to_real v X s Y f z HX HY R). cbn [obind].
  assert (Hf := float_names_fmt _ _ HY).
  destruct (of_int_exact f Hf z H) as (A & B & C).
  destruct (real_to_int v Y f (to Y X) s _ HY (round_ext Y f X s HY HX) A B) as (k & K & ->).
  replace k with z.
  - apply in_ityb_iff in R. now rewrite R.
  - apply (nearest_int_unique z k (fl_value (FNum (f_of_int f z)))); auto.
    now apply nearest_int_exact.
Qed.

(** ** REAL and LREAL *)
Lemma real_to_lreal : forall v x, fl_valid F32 x ->
  st_call v "REAL_TO_LREAL" [VFl x] = Ok (VFl (fl_convert F64 x)).
Proof.
  intros v x V.
  assert (Q : is_plain "REAL_TO_LREAL" (TFloat F32) (TFloat F64)) by (now apply plainb_plain).
  rewrite (call_plain v _ _ _ _ _ Q (cast_self_f F32 x)). reflexivity.
Qed.
Lemma lreal_to_real : forall v x,
  st_call v "LREAL_TO_REAL" [VFl x] = Ok (VFl (fl_convert F32 x)).
Proof.
  intros v x.
  assert (Q : is_plain "LREAL_TO_REAL" (TFloat F64) (TFloat F32)) by (now apply plainb_plain).
  rewrite (call_plain v _ _ _ _ _ Q (cast_self_f F64 x)). reflexivity.
Qed.

(** ** TIME and LREAL *)
Lemma time_to_lreal : forall v X z, In X ["TIME"; "LTIME"] -> in_ity i64 z ->
  st_call v (to X "LREAL") [VInt z] = Ok (VFl (FNum (f_of_int F64 z))).
Proof.
  intros v X z HX R.
  assert (Q : is_plain (to X "LREAL") (TInt i64) (TFloat F64)).
  { apply plainb_plain. destruct HX as [<-|[<-|[]]]; reflexivity. }
  rewrite (call_plain v _ _ _ _ _ Q (cast_self i64 z ltac:(simpl; tauto) R)). reflexivity.
Qed.
Lemma lreal_to_time_ext : forall X, In X ["TIME"; "LTIME"] ->
  is_ext1 (to "LREAL" X) "ROUND__LREAL" (TFloat F64) (TInt i64).
Proof. intros X HX. apply ext1b_ext1. destruct HX as [<-|[<-|[]]]; reflexivity. Qed.

(** ** Date and time types as integers *)
Lemma time_plain_all :
  forallb (fun X => forallb (fun Y => plainb (to X (fst Y)) (TInt i64) (TInt (snd Y)))
    [("LINT", i64); ("ULINT", u64); ("LWORD", u64)]) time_names = true /\
  forallb (fun X => forallb (fun Y => plainb (to (fst Y) X) (TInt (snd Y)) (TInt i64))
    [("ULINT", u64); ("LWORD", u64)]) time_names = true /\
  forallb (fun X => plainb (to "LINT" X) (TInt i64) (TInt i64)) (firstn 6 time_names) = true /\
  forallb (fun X => forallb (fun Y => plainb (to X Y) (TInt i64) (TInt i64)) [])
    time_names = true.
Proof. vm_compute. repeat split. Qed.

Lemma time_to_int : forall v X Y t z, In X time_names ->
  In (Y, t) [("LINT", i64); ("ULINT", u64); ("LWORD", u64)] -> in_ity i64 z ->
  st_call v (to X Y) [VInt z] = Ok (VInt (wrap t z)).
Proof.
  intros v X Y t z HX HY R. destruct time_plain_all as (H & _).
  rewrite forallb_forall in H. specialize (H _ HX). rewrite forallb_forall in H.
  specialize (H _ HY). cbn [fst snd] in H.
  rewrite (call_plain v _ _ _ _ _ (plainb_plain _ _ _ H) (cast_self i64 z ltac:(simpl; tauto) R)).
  reflexivity.
Qed.
Lemma int_to_time : forall v X Y t z, In X time_names ->
  In (Y, t) [("ULINT", u64); ("LWORD", u64)] -> in_ity t z ->
  st_call v (to Y X) [VInt z] = Ok (VInt (wrap i64 z)).
Proof.
  intros v X Y t z HX HY R. destruct time_plain_all as (_ & H & _).
  rewrite forallb_forall in H. specialize (H _ HX). rewrite forallb_forall in H.
  specialize (H _ HY). cbn [fst snd] in H.
  assert (T : In t all_ity) by (simpl in HY; destruct HY as [HY|[HY|[]]]; injection HY as <- <-; simpl; tauto).
  rewrite (call_plain v _ _ _ _ _ (plainb_plain _ _ _ H) (cast_self t z T R)).
  reflexivity.
Qed.
Lemma lint_to_time : forall v X z, In X (firstn 6 time_names) -> in_ity i64 z ->
  st_call v (to "LINT" X) [VInt z] = Ok (VInt z).
Proof.
  intros v X z HX R. destruct time_plain_all as (_ & _ & H & _).
  rewrite forallb_forall in H. specialize (H _ HX).
  rewrite (call_plain v _ _ _ _ _ (plainb_plain _ _ _ H) (cast_self i64 z ltac:(simpl; tauto) R)).
  now apply cast_self; [simpl; tauto|].
Qed.

Lemma time_alias : forall v X Y z,
  In (X, Y) [("TIME", "LTIME"); ("LTIME", "TIME"); ("DT", "LDT"); ("LDT", "DT"); ("TOD", "LTOD"); ("LTOD", "TOD")] ->
  in_ity i64 z -> st_call v (to X Y) [VInt z] = Ok (VInt z).
Proof.
  intros v X Y z H R.
  assert (Q : is_plain (to X Y) (TInt i64) (TInt i64)).
  { apply plainb_plain. simpl in H.
    repeat (destruct H as [H|H]; [injection H as <- <-; reflexivity|]). destruct H. }
  rewrite (call_plain v _ _ _ _ _ Q (cast_self i64 z ltac:(simpl; tauto) R)).
  now apply cast_self; [simpl; tauto|].
Qed.

Lemma dt_parts : forall v X z, In X ["DT"; "LDT"] -> in_ity i64 z ->
  st_call v (to X "DATE") [VInt z] =
    obind (DATE_AND_TIME_TO_DATE v z) (fun r => Ok (VInt (wrap i64 r))) /\
  st_call v (to X "TOD") [VInt z] =
    obind (DATE_AND_TIME_TO_TIME_OF_DAY v z) (fun r => Ok (VInt (wrap i64 r))) /\
  st_call v (to X "LTOD") [VInt z] =
    obind (DATE_AND_TIME_TO_TIME_OF_DAY v z) (fun r => Ok (VInt (wrap i64 r))).
Proof.
  intros v X z HX R.
  assert (S := cast_self i64 z ltac:(simpl; tauto) R).
  assert (Q : is_ext1 (to X "DATE") "DATE_AND_TIME_TO_DATE" (TInt i64) (TInt i64) /\
    is_ext1 (to X "TOD") "DATE_AND_TIME_TO_TIME_OF_DAY" (TInt i64) (TInt i64) /\
    is_ext1 (to X "LTOD") "DATE_AND_TIME_TO_TIME_OF_DAY" (TInt i64) (TInt i64)).
  { destruct HX as [<-|[<-|[]]]; repeat split; now apply ext1b_ext1. }
  destruct Q as (Q1 & Q2 & Q3).
  rewrite (call_ext1 v _ _ _ _ _ _ _ _ _ _ Q1 eq_refl eq_refl S S).
  rewrite (call_ext1 v _ _ _ _ _ _ _ _ _ _ Q2 eq_refl eq_refl S S).
  rewrite (call_ext1 v _ _ _ _ _ _ _ _ _ _ Q3 eq_refl eq_refl S S).
  cbn [int1]. destruct (DATE_AND_TIME_TO_DATE v z), (DATE_AND_TIME_TO_TIME_OF_DAY v z);
    repeat split; reflexivity.
Qed.

(** ** ABS of floats *)
Definition minus_one : spec_float := S754_finite true 4503599627370496 (-52).
Ltac fold_eqs :=
  change (52 =? 52) with true; change (23 =? 52) with false; change (23 =? 23) with true;
  change (52 =? 23) with false; cbv iota;
  change (52 + 1) with 53; change (2 ^ (11 + - (1))) with 1024;
  change (f_of_int (Fmt 52 11) 0) with (S754_zero false);
  change (fl_sf (FNum (S754_zero false))) with (S754_zero false);
  change (fl_sf (fl_convert (Fmt 52 11) (FNum (f_of_int (Fmt 23 8) (-1))))) with minus_one;
  change (Fmt 52 11) with F64; change (Fmt 23 8) with F32.
Lemma abs_lreal_call : forall v x,
  st_call v "ABS__LREAL" [VFl x] =
  Ok (VFl (if SFltb (fl_sf x) (S754_zero false)
           then fl_of_sf F64 (SFmul 53 1024 minus_one (fl_sf x)) else x)).
Proof.
  intros v x. transitivity (
    match (if SFltb (fl_sf x) (S754_zero false) then VInt 1 else VInt 0) with
    | VInt 0 => Ok (VFl x)
    | _ => Ok (VFl (fl_of_sf F64 (SFmul 53 1024 minus_one (fl_sf x))))
    end); [|now destruct (SFltb (fl_sf x) (S754_zero false))].
  stc. fold_eqs.
  destruct (SFltb (fl_sf x) (S754_zero false)); reflexivity.
Qed.

Lemma minus_one_facts : valid_binary 53 1024 minus_one = true /\ is_finite_SF minus_one = true /\
  SF2R radix2 minus_one = (-1)%R /\ sign_SF minus_one = true.
Proof.
  split; [reflexivity|]. split; [reflexivity|]. split; [|reflexivity].
  unfold minus_one. rewrite (value_finite true). change (cond_Zopp true 4503599627370496) with (- 2 ^ 52)%Z.
  rewrite (bpow_opp radix2 52 : bpow radix2 (-52) = _). change (bpow radix2 52) with (IZR (2 ^ 52)).
  rewrite opp_IZR. field. apply IZR_neq. discriminate.
Qed.

Lemma neg_mul : forall x, valid_binary 53 1024 x = true -> is_finite_SF x = true ->
  let z := SFmul 53 1024 minus_one x in
  valid_binary 53 1024 z = true /\ is_finite_SF z = true /\ SF2R radix2 z = (- SF2R radix2 x)%R /\
  sign_SF z = negb (sign_SF x).
Proof.
  intros x V F z. destruct minus_one_facts as (A & B & C & D).
  assert (E : (SF2R radix2 minus_one * SF2R radix2 x = - SF2R radix2 x)%R) by (rewrite C; ring).
  destruct (mul_exact F64 minus_one x (or_intror eq_refl) A V B F) as (P1 & P2 & P3 & P4).
  - rewrite E. apply generic_format_opp. now apply (value_format F64).
  - rewrite E, Rabs_Ropp. now apply (value_small F64).
  - split; [exact P1|]. split; [exact P2|]. split; [rewrite <- E; exact P3|].
    etransitivity; [exact P4|]. rewrite D. reflexivity.
Qed.

Lemma ltb_zero : forall s m e, SFltb (S754_finite s m e) (S754_zero false) = s.
Proof. intros [] m e; reflexivity. Qed.

(** The result of ABS on LREAL: the absolute value; the argument itself for zeros and NaN. *)
Lemma abs_lreal : forall v x, fl_valid F64 x -> fl_finite x = true ->
  exists y, st_call v "ABS__LREAL" [VFl x] = Ok (VFl y) /\ fl_valid F64 y /\ fl_finite y = true /\
  fl_value y = Rabs (fl_value x) /\ (fl_value x <> 0%R -> fl_neg y = false).
Proof.
  intros v x V F. rewrite abs_lreal_call.
  destruct x as [[s|s| |s m e]|s p]; try discriminate.
  - exists (FNum (S754_zero s)). cbn [fl_sf SFltb SFcompare]. repeat split.
    + unfold fl_value, sf_value. simpl. now rewrite Rabs_R0.
    + intros H. exfalso. apply H. reflexivity.
  - cbn [fl_sf]. rewrite ltb_zero. destruct s.
    + destruct (neg_mul (S754_finite true m e) V eq_refl) as (A & B & C & D).
      set (z := SFmul 53 1024 minus_one (S754_finite true m e)) in *.
      destruct (sf_fl F64 z A B) as (P & Q & R). rewrite R. exists (FNum z).
      pose proof (value_neg m e) as N.
      split; [reflexivity|]. split; [exact P|]. split; [exact Q|]. split.
      * change (fl_value (FNum z)) with (SF2R radix2 z). rewrite C.
        unfold fl_value, sf_value, fl_sf. now rewrite Rabs_left.
      * intros _. destruct z; try discriminate; exact D.
    + exists (FNum (S754_finite false m e)). pose proof (value_pos m e) as N. repeat split; auto.
      unfold fl_value, sf_value, fl_sf. rewrite Rabs_pos_eq; [reflexivity|lra].
Qed.

Lemma abs_real_call : forall v x y,
  st_call v "ABS__LREAL" [VFl (fl_convert F64 x)] = Ok (VFl y) ->
  st_call v "ABS__REAL" [VFl x] = Ok (VFl (fl_convert F32 y)).
Proof.
  intros v x y H. rewrite abs_lreal_call in H.
  assert (E : st_call v "ABS__REAL" [VFl x] =
    match (if SFltb (fl_sf (fl_convert F64 x)) (S754_zero false) then VInt 1 else VInt 0) with
    | VInt 0 => Ok (VFl (fl_convert F32 (fl_convert F64 x)))
    | _ => Ok (VFl (fl_convert F32 (fl_of_sf F64 (SFmul 53 1024 minus_one (fl_sf (fl_convert F64 x))))))
    end).
  { stc. fold_eqs.
    destruct (SFltb (fl_sf (fl_convert F64 x)) (S754_zero false)); reflexivity. }
  rewrite E. destruct (SFltb (fl_sf (fl_convert F64 x)) (S754_zero false));
    injection H as <-; reflexivity.
Qed.

Lemma abs_real : forall v x, fl_valid F32 x -> fl_finite x = true ->
  exists y, st_call v "ABS__REAL" [VFl x] = Ok (VFl y) /\ fl_valid F32 y /\ fl_finite y = true /\
  fl_value y = Rabs (fl_value x) /\ (fl_value x <> 0%R -> fl_neg y = false).
Proof.
  intros v x V F. destruct (widen_exact x V F) as (A & B & C).
  destruct (abs_lreal v _ A B) as (y & Y & Y1 & Y2 & Y3 & Y4).
  exists (fl_convert F32 y). split; [now apply abs_real_call|].
  rewrite C in Y3, Y4.
  (* |x| is itself the value of a REAL, whose widening is y *)
  set (a := match x with FNum (S754_finite _ m e) => FNum (S754_finite false m e) | _ => x end).
  assert (Va : fl_valid F32 a) by (destruct x as [[s|s| |s m e]|s p]; exact V).
  assert (Fa : fl_finite a = true) by (destruct x as [[s|s| |s m e]|s p]; exact F).
  assert (Ea : fl_value a = Rabs (fl_value x)).
  { destruct x as [[s|s| |s m e]|s p]; try discriminate.
    - unfold a, fl_value, sf_value. simpl. now rewrite Rabs_R0.
    - subst a. pose proof (value_pos m e). pose proof (value_neg m e).
      unfold fl_value, sf_value, fl_sf in *.
      destruct s; [rewrite Rabs_left by assumption|rewrite Rabs_pos_eq by lra; reflexivity].
      rewrite !value_finite. simpl cond_Zopp. rewrite opp_IZR || change (Zneg m) with (- Zpos m); try rewrite opp_IZR; ring. }
  destruct (Req_dec (fl_value x) 0) as [Z|Z].
  - assert (Zy : exists s, y = FNum (S754_zero s)).
    { rewrite Z, Rabs_R0 in Y3. destruct y as [[s|s| |s m e]|s p]; try discriminate; [now exists s|].
      pose proof (value_pos m e). pose proof (value_neg m e).
      unfold fl_value, sf_value, fl_sf in *. exfalso. destruct s; lra. }
    destruct Zy as [s ->]. repeat split.
    + rewrite Z, Rabs_R0. reflexivity.
    + intros H. now destruct H.
  - assert (W : fl_convert F64 a = y).
    { destruct (widen_exact a Va Fa) as (P & Q & R).
      apply (float_unique F64); auto; [now right|now rewrite R, Y3, Ea|].
      rewrite (Y4 Z). destruct (fl_neg (fl_convert F64 a)) eqn:N; [|reflexivity].
      apply neg_of_value in N; auto.
      - rewrite R, Ea in N. pose proof (Rabs_pos (fl_value x)). lra.
      - rewrite R, Ea. now apply Rabs_no_R0. }
    assert (Na : is_nan a = false) by (destruct a as [[s|s| |s m e]|s p]; try discriminate; reflexivity).
    rewrite <- W, (widen_narrow a Va Na). repeat split; auto.
    intros _. rewrite <- (Y4 Z), <- W. destruct a as [[s|s| |s m e]|s p] eqn:Da; try discriminate.
    + exfalso. rewrite <- Ea in *. apply Z. destruct (Req_dec (fl_value x) 0); auto.
      apply Rabs_no_R0 in H. rewrite <- Ea in H. exfalso. apply H. reflexivity.
    + destruct x as [[s'|s'| |s' m' e']|s' p']; try discriminate. subst a. injection Da as <- _ _.
      rewrite W, (Y4 Z). reflexivity.
Qed.

(** ** EXPT with the other integer exponent types *)
Definition exptb (n g : string) (f : fmt) (t : ity) : bool :=
  match find_fun n with
  | Some (Fn n' [(x, s); (y, u)] w [SAssign (ECall g' [EVar x'; EVar y'])]) =>
      String.eqb n' n && String.eqb x x' && String.eqb y y' && negb (String.eqb x y) &&
      st_ty_eqb s (TFloat f) && st_ty_eqb u (TInt t) && st_ty_eqb w (TFloat f) && String.eqb g g'
  | _ => false
  end.
Lemma call_expt : forall v n g f t x k, exptb n g f t = true ->
  find_fun g = None ->
  find_ext g = Some (Ext g [TFloat f; TInt i32] (TFloat f) (float_int (EXPT_DINT f))) ->
  st_call v n [VFl x; VInt k] = Ok (VFl (EXPT_DINT f x (wrap i32 (wrap t k)))).
Proof.
  intros v n g f t x k H G1 G2. unfold exptb in H.
  destruct (find_fun n) as [[n' args t' body]|] eqn:E; [|discriminate].
  destruct args as [|[a s] [|[b u] [|]]]; try discriminate.
  destruct body as [|[e|] [|]]; try discriminate; destruct e as [| | | | | | | | |g' al]; try discriminate;
    destruct al as [|[] [|[] [|]]]; try discriminate.
  rewrite !andb_true_iff, !String.eqb_eq, negb_true_iff in H.
  destruct H as [[[[[[[-> ->] ->] N] A] B] C] <-].
  apply st_ty_eqb_eq in A. apply st_ty_eqb_eq in B. apply st_ty_eqb_eq in C. subst.
  unfold st_call. rewrite E.
  cbn [map snd fn_args combine]. cbn [st_call_fuel]. rewrite E.
  cbn [fn_args map snd fst cast_all fn_ret fn_body combine].
  rewrite cast_self_f. cbn [st_cast obind combine st_block st_stmt st_expr]. unfold lookup. cbn [find fst].
  rewrite !String.eqb_refl, N. cbn [obind].
  rewrite G1, G2. cbn [ex_args cast_all ex_sem ex_ret]. rewrite cast_self_f.
  cbn [obind st_cast float_int]. rewrite Z.eqb_refl. reflexivity.
Qed.

Lemma expt_all :
  forallb (fun X => forallb (fun Y => exptb ("EXPT__" ++ fst X ++ "__" ++ fst Y)
      ("EXPT__" ++ fst X ++ "__DINT") (snd X) (snd Y))
    [("USINT", u8); ("UINT", u16); ("UDINT", u32); ("ULINT", u64); ("SINT", i8); ("INT", i16); ("LINT", i64)])
    float_names = true.
Proof. vm_compute. reflexivity. Qed.

Lemma expt_wrapper : forall v X f Y t x n, In (X, f) float_names ->
  In (Y, t) [("USINT", u8); ("UINT", u16); ("UDINT", u32); ("ULINT", u64); ("SINT", i8); ("INT", i16); ("LINT", i64)] ->
  in_ity t n ->
  st_call v ("EXPT__" ++ X ++ "__" ++ Y) [VFl x; VInt n] = Ok (VFl (EXPT_DINT f x (wrap i32 n))).
Proof.
  intros v X f Y t x n HX HY R. pose proof expt_all as H. rewrite forallb_forall in H.
  specialize (H _ HX). rewrite forallb_forall in H. specialize (H _ HY). cbn [fst snd] in H.
  assert (W : wrap t n = n).
  { apply wrap_id; auto. simpl in HY. repeat (destruct HY as [HY|HY]; [injection HY as <- <-; reflexivity|]).
    destruct HY. }
  rewrite (call_expt v _ _ f t x n H).
  - now rewrite W.
  - destruct HX as [HX|[HX|[]]]; injection HX as <- <-; reflexivity.
  - destruct HX as [HX|[HX|[]]]; injection HX as <- <-; reflexivity.
Qed.

Lemma expt_dint : forall v X f x n, In (X, f) float_names -> in_ity i32 n ->
  st_call v ("EXPT__" ++ X ++ "__DINT") [VFl x; VInt n] = Ok (VFl (EXPT_DINT f x n)).
Proof.
  intros v X f x n HX R. assert (W : wrap i32 n = n) by (apply wrap_id; [reflexivity|exact R]).
  destruct HX as [HX|[HX|[]]]; injection HX as <- <-.
  - transitivity (Ok (VFl (EXPT_DINT F32 x (wrap i32 n)))); [reflexivity|now rewrite W].
  - transitivity (Ok (VFl (EXPT_DINT F64 x (wrap i32 n)))); [reflexivity|now rewrite W].
Qed.

Lemma sqrt_call : forall v X f x, In (X, f) float_names ->
  st_call v ("SQRT__" ++ X) [VFl x] = Ok (VFl (SQRT f x)).
Proof.
  intros v X f x HX. destruct HX as [HX|[HX|[]]]; injection HX as <- <-; reflexivity.
Qed.
