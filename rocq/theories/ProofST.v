(** Lemmas about the ST functions. *)
From Coq Require Import ZArith List Bool Lia String SpecFloat Reals Lra.
From Flocq Require Import Core BinarySingleNaN.
From Verif Require Import Base ModelFloat ModelChrono ModelDate ModelTimeNum ModelArith ModelST
  SpecScalar SpecTimeNum SpecST SpecReal ProofBase ProofTimeNum ProofTimeAcc ProofReal ProofReal2.
Import ListNotations.
Open Scope string_scope.
Open Scope Z_scope.

(** The body [Y := in] between two types. *)
Definition is_plain (n : string) (s t : st_ty) : Prop :=
  exists x, find_fun n = Some (Fn n [(x, s)] t [SAssign (EVar x)]).

Lemma call_plain : forall v n s t a w, is_plain n s t -> st_cast s s a = Ok w ->
  st_call v n [a] = st_cast s t w.
Proof.
  intros v n s t a w [x E] C. unfold st_call. rewrite E. cbn [map snd fn_args combine].
  unfold st_call_fuel. rewrite E. cbn [fn_args map snd fst cast_all fn_ret fn_body combine].
  rewrite C. cbn [obind combine st_block st_stmt st_expr]. unfold lookup. cbn [find fst].
  rewrite String.eqb_refl. cbn [obind].
  destruct (st_cast s t w); reflexivity.
Qed.

Lemma ity_bits : forall t, In t all_ity -> 0 < it_bits t.
Proof.
  intros t H. simpl in H. repeat (destruct H as [<-|H]; [reflexivity|]). destruct H.
Qed.
Lemma cast_self : forall t z, In t all_ity -> in_ity t z ->
  st_cast (TInt t) (TInt t) (VInt z) = Ok (VInt z).
Proof. intros t z T R. cbn [st_cast]. rewrite wrap_id; auto. now apply ity_bits. Qed.

(** Table look-ups done once by computation. *)
Definition st_ty_eqb (a b : st_ty) : bool :=
  match a, b with
  | TBool, TBool => true
  | TInt (ITy s m), TInt (ITy t n) => Bool.eqb s t && (m =? n)
  | TFloat (Fmt m e), TFloat (Fmt n d) => (m =? n) && (e =? d)
  | _, _ => false
  end.
Lemma st_ty_eqb_eq : forall a b, st_ty_eqb a b = true -> a = b.
Proof.
  intros [|[s m]|[m e]] [|[t n]|[n d]]; try discriminate; try reflexivity; simpl;
    rewrite andb_true_iff, ?Bool.eqb_true_iff, ?Z.eqb_eq; intros [-> ->]; reflexivity.
Qed.
Definition plainb (n : string) (s t : st_ty) : bool :=
  match find_fun n with
  | Some (Fn n' [(x, s')] t' [SAssign (EVar y)]) =>
      String.eqb n' n && String.eqb x y && st_ty_eqb s s' && st_ty_eqb t t'
  | _ => false
  end.
Lemma plainb_plain : forall n s t, plainb n s t = true -> is_plain n s t.
Proof.
  intros n s t H. unfold plainb in H. destruct (find_fun n) as [[n' args t' body]|] eqn:E; [|discriminate].
  destruct args as [|[x s'] [|]]; try discriminate.
  destruct body as [|[e|] [|]]; try discriminate; destruct e; try discriminate.
  rewrite !andb_true_iff, !String.eqb_eq in H. destruct H as [[[-> ->] A] B].
  apply st_ty_eqb_eq in A. apply st_ty_eqb_eq in B. subst. now exists x0.
Qed.

Lemma all_int_plain :
  forallb (fun X => forallb (fun Y => String.eqb (fst X) (fst Y) ||
     plainb (to (fst X) (fst Y)) (TInt (snd X)) (TInt (snd Y))) int_names) int_names = true.
Proof. vm_compute. reflexivity. Qed.

Lemma int_plain : forall X s Y t, In (X, s) int_names -> In (Y, t) int_names -> X <> Y ->
  is_plain (to X Y) (TInt s) (TInt t).
Proof.
  intros X s Y t HX HY N. pose proof all_int_plain as H.
  rewrite forallb_forall in H. specialize (H _ HX). rewrite forallb_forall in H.
  specialize (H _ HY). cbn [fst snd] in H. apply orb_true_iff in H. destruct H as [H|H].
  - apply String.eqb_eq in H. contradiction.
  - now apply plainb_plain.
Qed.

Lemma int_names_ity : forall X s, In (X, s) int_names -> In s all_ity.
Proof.
  intros X s H. simpl in H.
  repeat (destruct H as [H|H]; [injection H as <- <-; simpl; tauto|]). destruct H.
Qed.

Lemma int_conv : forall v X s Y t z, In (X, s) int_names -> In (Y, t) int_names -> X <> Y ->
  in_ity s z -> st_call v (to X Y) [VInt z] = Ok (VInt (wrap t z)).
Proof.
  intros v X s Y t z HX HY N R.
  rewrite (call_plain v _ _ _ _ _ (int_plain X s Y t HX HY N)
             (cast_self s z (int_names_ity _ _ HX) R)). reflexivity.
Qed.

Lemma int_conv_spec : forall v X s Y t z, In (X, s) int_names -> In (Y, t) int_names -> X <> Y ->
  in_ity s z -> exists r, st_call v (to X Y) [VInt z] = Ok (VInt r) /\ in_ity t r /\
  r mod 2 ^ it_bits t = z mod 2 ^ it_bits t /\ (in_ity t z -> r = z).
Proof.
  intros v X s Y t z HX HY N R. exists (wrap t z).
  pose proof (ity_bits t (int_names_ity _ _ HY)) as B.
  split; [now apply (int_conv v X s Y t)|]. split; [now apply wrap_range|]. split.
  - destruct (wrap_cong t z B) as [k ->]. apply Z.mod_add. apply Z.pow_nonzero; lia.
  - intros I. now apply wrap_id.
Qed.

Lemma wrap_wrap : forall s t z, 0 < it_bits s <= it_bits t -> in_ity s z -> wrap s (wrap t z) = z.
Proof.
  intros s t z B R. destruct (wrap_cong t z ltac:(lia)) as [k ->].
  replace (it_bits t) with (it_bits s + (it_bits t - it_bits s)) by lia.
  rewrite Z.pow_add_r by lia.
  set (c := 2 ^ (it_bits t - it_bits s)). clearbody c.
  rewrite <- (wrap_id s z) at 2 by (auto; lia).
  assert (P : 0 < 2 ^ it_bits s) by (apply Z.pow_pos_nonneg; lia).
  unfold wrap. destruct (it_signed s).
  - f_equal. replace (z + k * (2 ^ it_bits s * c) + 2 ^ (it_bits s - 1))
      with (z + 2 ^ (it_bits s - 1) + (k * c) * 2 ^ it_bits s) by ring. apply Z.mod_add. lia.
  - replace (z + k * (2 ^ it_bits s * c)) with (z + (k * c) * 2 ^ it_bits s) by ring.
    apply Z.mod_add. lia.
Qed.

Lemma int_round_trip : forall v X s Y t z, In (X, s) int_names -> In (Y, t) int_names -> X <> Y ->
  it_bits s <= it_bits t -> in_ity s z ->
  obind (st_call v (to X Y) [VInt z]) (fun r => st_call v (to Y X) [r]) = Ok (VInt z).
Proof.
  intros v X s Y t z HX HY N B R. rewrite (int_conv v X s Y t z HX HY N R). cbn [obind].
  pose proof (ity_bits t (int_names_ity _ _ HY)) as Bt.
  pose proof (ity_bits s (int_names_ity _ _ HX)) as Bs.
  rewrite (int_conv v Y t X s _ HY HX); auto using wrap_range.
  now rewrite wrap_wrap.
Qed.

Lemma sub_ity : forall s t z, imin t <= imin s -> imax s <= imax t -> in_ity s z -> in_ity t z.
Proof. unfold in_ity. intros. lia. Qed.
Lemma i32_in_i64 : forall z, in_ity i32 z -> in_ity i64 z.
Proof. intros z. apply sub_ity; vm_compute; discriminate. Qed.

(** ** BOOL *)
Ltac stc := lazy -[wrap Z.mul Z.ltb Z.eqb Z.div Z.modulo Z.pow f_of_int SFmul SFltb SFeqb
  fl_convert fl_of_sf fl_sf in_ityb fl_trunc Z.add Z.opp Z.b2z negb];
  change (ITy true 64) with i64; change (ITy true 32) with i32;
  change (64 <? 32) with false; change (32 <? 64) with true; change (32 <? 32) with false;
  change (52 <? 23) with false; change (23 <? 52) with true; change (52 <? 52) with false;
  cbv iota beta.

Lemma bool_to_int : forall v X s b, In (X, s) int_names ->
  st_call v (to "BOOL" X) [VInt (Z.b2z b)] = Ok (VInt (Z.b2z b)).
Proof.
  intros v X s b H. simpl in H.
  repeat (destruct H as [H|H]; [injection H as <- <-; destruct b; reflexivity|]). destruct H.
Qed.

Lemma bit_to_bool : forall v X s z, In (X, s) bit_names -> in_ity s z ->
  st_call v (to X "BOOL") [VInt z] = Ok (VInt (z mod 2)).
Proof.
  intros v X s z H R.
  assert (E : wrap s z = z).
  { apply wrap_id; auto. apply ity_bits. simpl in H.
    repeat (destruct H as [H|H]; [injection H as <- <-; simpl; tauto|]). destruct H. }
  simpl in H.
  repeat (destruct H as [H|H]; [injection H as <- <-; stc; fold u8 in *;
    change (ITy false 8) with u8 in *; change (ITy false 16) with u16 in *;
    change (ITy false 32) with u32 in *; change (ITy false 64) with u64 in *;
    rewrite E, Z.pow_0_r, Z.div_1_r; reflexivity|]). destruct H.
Qed.

Lemma lint_to_bool : forall v z, in_ity i64 z ->
  st_call v "LINT_TO_BOOL" [VInt z] = Ok (VInt (if z =? 0 then 0 else 1)).
Proof.
  intros v z R. assert (E : wrap i64 z = z) by (apply wrap_id; auto; reflexivity).
  stc.
  change (wrap i64 0) with 0. change (wrap i32 0) with 0. rewrite !E. now destruct (z =? 0).
Qed.
Lemma dint_to_bool : forall v z, in_ity i32 z ->
  st_call v "DINT_TO_BOOL" [VInt z] = Ok (VInt (if z =? 0 then 0 else 1)).
Proof.
  intros v z R. assert (E : wrap i32 z = z) by (apply wrap_id; auto; reflexivity).
  assert (E2 : wrap i64 z = z).
  { apply wrap_id; [reflexivity|]. now apply i32_in_i64. }
  stc.
  change (wrap i64 0) with 0. rewrite !E, !E2. now destruct (z =? 0).
Qed.

(** ** ABS *)
Lemma abs_dint : forall v z, in_ity i32 z ->
  st_call_fuel 2 v "ABS__DINT" [(TInt i32, VInt z)] =
    Ok (TInt i32, VInt (if z <? 0 then wrap i32 (- z) else z)).
Proof.
  intros v z R. assert (E : wrap i32 z = z) by (apply wrap_id; auto; reflexivity).
  stc. change (wrap i32 0) with 0. rewrite !E.
  destruct (z <? 0) eqn:L; [|reflexivity].
  change (wrap i32 (-1)) with (-1). replace (-1 * z) with (- z) by lia.
  rewrite (wrap_id i32 (wrap i32 (- z))); [reflexivity|reflexivity|]. now apply wrap_range.
Qed.

Lemma abs_int : forall v X s z, In (X, s) [("SINT", i8); ("INT", i16); ("DINT", i32); ("LINT", i64)] ->
  in_ity s z -> st_call v ("ABS__" ++ X) [VInt z] = Ok (VInt (if z =? imin s then imin s else Z.abs z)).
Proof.
  intros v X s z H R. simpl in H.
  assert (W : forall t k, 0 < it_bits t -> in_ity t k -> wrap t k = k) by (intros; now apply wrap_id).
  assert (AB : forall t, 0 < it_bits t -> it_signed t = true -> in_ity t z ->
     (if z <? 0 then wrap t (- z) else z) = if z =? imin t then imin t else Z.abs z).
  { intros [g b] B S I. cbn [it_signed it_bits] in *. subst g. unfold in_ity, imin, imax in *.
    cbn [it_signed it_bits] in *.
    destruct (Z.ltb_spec z 0); destruct (Z.eqb_spec z (- 2 ^ (b - 1))); try lia.
    - unfold wrap. cbn [it_signed it_bits]. subst z. replace (- - 2 ^ (b - 1) + 2 ^ (b - 1)) with (2 ^ b).
      + rewrite Z.mod_same; [lia|]. apply Z.pow_nonzero; lia.
      + replace b with (1 + (b - 1)) at 1 by lia. rewrite Z.pow_add_r by lia. lia.
    - rewrite W; [lia|exact B|]. unfold in_ity, imin, imax. cbn [it_signed it_bits]. lia. }
  destruct H as [H|[H|[H|[H|[]]]]]; injection H as <- <-; cbn [String.append].
  - assert (R2 : in_ity i32 z) by (revert R; apply sub_ity; vm_compute; discriminate).
    rewrite <- (AB i8) by (auto; reflexivity).
    stc. change (ITy true 8) with i8. change (wrap i32 0) with 0. change (wrap i32 (-1)) with (-1).
    rewrite !(W i8 z), !(W i32 z) by (auto; reflexivity).
    destruct (z <? 0) eqn:L.
    + replace (-1 * z) with (- z) by lia.
      assert (Q : wrap i32 (- z) = - z).
      { apply W; [reflexivity|]. apply Z.ltb_lt in L. unfold in_ity in *.
        change (imin i8) with (-128) in R. change (imin i32) with (-2147483648) in *.
        change (imax i32) with 2147483647 in *. lia. }
      rewrite !Q. reflexivity.
    + rewrite W by (auto; reflexivity). reflexivity.
  - assert (R2 : in_ity i32 z) by (revert R; apply sub_ity; vm_compute; discriminate).
    rewrite <- (AB i16) by (auto; reflexivity).
    stc. change (ITy true 16) with i16. change (wrap i32 0) with 0. change (wrap i32 (-1)) with (-1).
    rewrite !(W i16 z), !(W i32 z) by (auto; reflexivity).
    destruct (z <? 0) eqn:L.
    + replace (-1 * z) with (- z) by lia.
      assert (Q : wrap i32 (- z) = - z).
      { apply W; [reflexivity|]. apply Z.ltb_lt in L. unfold in_ity in *.
        change (imin i16) with (-32768) in R. change (imin i32) with (-2147483648) in *.
        change (imax i32) with 2147483647 in *. lia. }
      rewrite !Q. reflexivity.
    + rewrite W by (auto; reflexivity). reflexivity.
  - rewrite <- (AB i32) by (auto; reflexivity).
    stc. change (wrap i32 0) with 0. change (wrap i32 (-1)) with (-1).
    rewrite !(W i32 z) by (auto; reflexivity).
    destruct (z <? 0) eqn:L; [|reflexivity]. replace (-1 * z) with (- z) by lia.
    rewrite (W i32 (wrap i32 (- z))); [reflexivity|reflexivity|]. now apply wrap_range.
  - rewrite <- (AB i64) by (auto; reflexivity).
    stc. change (wrap i64 0) with 0. change (wrap i64 (-1)) with (-1).
    rewrite !(W i64 z) by (auto; reflexivity).
    destruct (z <? 0) eqn:L; [|reflexivity]. replace (-1 * z) with (- z) by lia.
    rewrite (W i64 (wrap i64 (- z))); [reflexivity|reflexivity|]. now apply wrap_range.
Qed.

(** ** Calls of an external function with one argument *)
Definition is_ext1 (n g : string) (s t : st_ty) : Prop :=
  exists x, find_fun n = Some (Fn n [(x, s)] t [SAssign (ECall g [EVar x])]).
Definition ext1b (n g : string) (s t : st_ty) : bool :=
  match find_fun n with
  | Some (Fn n' [(x, s')] t' [SAssign (ECall g' [EVar y])]) =>
      String.eqb n' n && String.eqb x y && st_ty_eqb s s' && st_ty_eqb t t' && String.eqb g g'
  | _ => false
  end.
Lemma ext1b_ext1 : forall n g s t, ext1b n g s t = true -> is_ext1 n g s t.
Proof.
  intros n g s t H. unfold ext1b in H. destruct (find_fun n) as [[n' args t' body]|] eqn:E; [|discriminate].
  destruct args as [|[x s'] [|]]; try discriminate.
  destruct body as [|[e|] [|]]; try discriminate; destruct e as [| | | | | | | | |g' al]; try discriminate;
    destruct al as [|[] [|]]; try discriminate.
  rewrite !andb_true_iff, !String.eqb_eq in H. destruct H as [[[[-> ->] A] B] <-].
  apply st_ty_eqb_eq in A. apply st_ty_eqb_eq in B. subst. now exists x0.
Qed.

Lemma call_ext1 : forall v n g s t u w sem a a1 a2, is_ext1 n g s t ->
  find_fun g = None -> find_ext g = Some (Ext g [u] w sem) ->
  st_cast s s a = Ok a1 -> st_cast s u a1 = Ok a2 ->
  st_call v n [a] = obind (sem v [a2]) (fun r => st_cast w t r).
Proof.
  intros v n g s t u w sem a a1 a2 [x E] G1 G2 C1 C2. unfold st_call. rewrite E.
  cbn [map snd fn_args combine]. cbn [st_call_fuel]. rewrite E.
  cbn [fn_args map snd fst cast_all fn_ret fn_body combine].
  rewrite C1. cbn [obind combine st_block st_stmt st_expr]. unfold lookup. cbn [find fst].
  rewrite String.eqb_refl. cbn [obind].
  rewrite G1, G2. cbn [ex_args cast_all ex_sem ex_ret]. rewrite C2. cbn [obind].
  destruct (sem v [a2]); cbn [obind]; try reflexivity.
  destruct (st_cast w t a0); reflexivity.
Qed.

Lemma all_round_ext1 :
  forallb (fun X => forallb (fun Y => ext1b (to (fst X) (fst Y)) ("ROUND__" ++ fst X)
     (TFloat (snd X)) (TInt (snd Y))) (numeric_names)) float_names = true.
Proof. vm_compute. reflexivity. Qed.

Lemma round_call : forall v X f n t x, In (X, f) float_names ->
  is_ext1 n ("ROUND__" ++ X) (TFloat f) (TInt t) ->
  st_call v n [VFl x] = st_cast (TFloat f) (TInt t) (VFl (ROUND f x)).
Proof.
  intros v X f n t x HX E.
  assert (S : st_cast (TFloat f) (TFloat f) (VFl x) = Ok (VFl x))
    by (cbn [st_cast]; now rewrite Z.eqb_refl).
  destruct HX as [HX|[HX|[]]]; injection HX as <- <-.
  - exact (call_ext1 v n _ _ _ _ _ _ _ _ _ E eq_refl eq_refl S S).
  - exact (call_ext1 v n _ _ _ _ _ _ _ _ _ E eq_refl eq_refl S S).
Qed.

Lemma float_names_fmt : forall X f, In (X, f) float_names -> binary_format f.
Proof.
  intros X f [H|[H|[]]]; injection H as <- <-; [now left|now right].
Qed.

Lemma real_to_int : forall v X f n t x, In (X, f) float_names ->
  is_ext1 n ("ROUND__" ++ X) (TFloat f) (TInt t) -> fl_valid f x -> fl_finite x = true ->
  exists k, nearest_int k (fl_value x) /\
    st_call v n [VFl x] = if in_ityb t k then Ok (VInt k) else Ub.
Proof.
  intros v X f n t x HX E V F. rewrite (round_call v X f n t x HX E).
  destruct (round_spec f (float_names_fmt _ _ HX) x V F) as (k & A & B & C & D).
  exists k. split; [exact D|]. cbn [st_cast]. now rewrite (trunc_int _ k B C).
Qed.

Lemma round_ext : forall X f Y t, In (X, f) float_names -> In (Y, t) numeric_names ->
  is_ext1 (to X Y) ("ROUND__" ++ X) (TFloat f) (TInt t).
Proof.
  intros X f Y t HX HY. apply ext1b_ext1. pose proof all_round_ext1 as H.
  rewrite forallb_forall in H. specialize (H _ HX). rewrite forallb_forall in H. exact (H _ HY).
Qed.

(** Uniqueness of the nearest integer. *)
Lemma nearest_int_unique : forall a b r, nearest_int a r -> nearest_int b r -> a = b.
Proof.
  intros a b r [A1 A2] [B1 B2].
  destruct (Z.eq_dec a b) as [|N]; [assumption|exfalso].
  assert (D : (1 <= Rabs (IZR a - IZR b))%R).
  { rewrite <- minus_IZR, <- abs_IZR. apply IZR_le. lia. }
  assert (T : (Rabs (IZR a - IZR b) <= Rabs (IZR a - r) + Rabs (IZR b - r))%R).
  { replace (IZR a - IZR b)%R with ((IZR a - r) - (IZR b - r))%R by ring.
    eapply Rle_trans; [apply Rabs_triang|]. rewrite Rabs_Ropp. lra. }
  assert (EA : Rabs (IZR a - r) = (/ 2)%R) by lra. assert (EB : Rabs (IZR b - r) = (/ 2)%R) by lra.
  specialize (A2 EA). specialize (B2 EB).
  unfold Rabs in EA, EB, A2, B2, D.
  repeat match goal with H : context [Rcase_abs ?x] |- _ => destruct (Rcase_abs x) end; try lra.
  all: assert (I : forall k : Z, (IZR k <= 0 \/ 1 <= IZR k)%R)
    by (intros k; destruct (Z.le_gt_cases k 0) as [L|L]; [left; now apply IZR_le|right; apply IZR_le; lia]).
  all: destruct (I a), (I b); lra.
Qed.
