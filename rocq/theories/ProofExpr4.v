(** Laws of expressions with times, and conversions through REAL and LREAL. *)
From Coq Require Import String Ascii ZArith Lia List Bool SpecFloat Reals.
From Verif Require Import Base ModelFloat ModelScalar ModelTimeNum ModelText ModelString ModelExtra ModelDate ModelChrono ModelST ModelWrap ModelLink ModelLib
  ModelApi SpecScalar SpecST SpecReal SpecDate SpecText SpecLink SpecConv SpecLib SpecName SpecWrap SpecCall SpecExpr ProofBase ProofScalar ProofLib ProofLib2 ProofConv ProofST
  ProofST2 ProofReal2 ProofName3 ProofCall2 ProofCall4 ProofExpr ProofExpr2 ProofProg ProofProg4.
Import ListNotations.
Open Scope string_scope.
Open Scope list_scope.
Open Scope Z_scope.
Local Opaque call value_in api.

(** ** TIME *)
Lemma scale_values : forall P t a z, List.In t integers -> of_type S_TIME a -> of_type t z -> of_type S_LINT z ->
  call P "MUL" [(S_TIME, VZ a); (t, VZ z)] = (if of_typeb S_TIME (a * z) then Ok (S_TIME, VZ (a * z)) else Panic) /\
  call P "DIV" [(S_TIME, VZ a); (t, VZ z)] =
    (if negb (z =? 0) && of_typeb S_TIME (Z.quot a z) then Ok (S_TIME, VZ (Z.quot a z)) else Panic).
Proof.
  intros P t a z T A Z L.
  rewrite (scale_calls P "MUL" "MUL__TIME" t a z ltac:(cbn; tauto) T), (scale_calls P "DIV" "DIV__TIME" t a z ltac:(cbn; tauto) T).
  rewrite (product_exact P "MUL__TIME" t a z ltac:(cbn; tauto) T Z L), (quotient_exact P "DIV__TIME" t a z ltac:(cbn; tauto) T Z A L).
  destruct (of_typeb S_TIME (a * z)); destruct (negb (z =? 0) && of_typeb S_TIME (Z.quot a z)); split; reflexivity.
Qed.
Lemma typeb : forall t z, of_typeb t z = true <-> of_type t z.
Proof. intros t z. unfold of_typeb, of_type. rewrite andb_true_iff, !Z.leb_le. reflexivity. Qed.
Lemma sum_value : forall P a b, of_type S_TIME a -> of_type S_TIME b ->
  (of_type S_TIME (a + b) -> call P "ADD" [(S_TIME, VZ a); (S_TIME, VZ b)] = Ok (S_TIME, VZ (a + b))) /\
  (of_type S_TIME (a - b) -> call P "SUB" [(S_TIME, VZ a); (S_TIME, VZ b)] = Ok (S_TIME, VZ (a - b))).
Proof. intros P a b A B. destruct (sums_exact P a b A B) as ([H _] & [G _] & _). split; assumption. Qed.
Lemma time_scaling : forall P r t x k a z, List.In t integers -> var r x S_TIME a -> var r k t z -> of_type S_LINT z -> z <> 0 ->
  (of_type S_TIME (a * z) -> value_in P r (Call "DIV" [Call "MUL" [Arg x; Arg k]; Arg k]) = Ok (S_TIME, VZ a)) /\
  (of_type S_TIME (Z.quot a z) -> value_in P r (Call "MUL" [Call "DIV" [Arg x; Arg k]; Arg k]) = Ok (S_TIME, VZ (a - Z.rem a z))) /\
  (of_type S_TIME (Z.quot a z) -> value_in P r (Call "SUB" [Arg x; Call "MUL" [Call "DIV" [Arg x; Arg k]; Arg k]]) = Ok (S_TIME, VZ (Z.rem a z))).
Proof.
  intros P r t x k a z T X K L N. pose proof (value_var P r x _ a X) as VX. pose proof (value_var P r k t z K) as VK.
  destruct X as [_ X], K as [_ K]. destruct (scale_values P t a z T X K L) as [M D].
  assert (Q0 : (z =? 0) = false) by (now apply Z.eqb_neq).
  assert (Q : of_type S_TIME (Z.quot a z) -> value_in P r (Call "MUL" [Call "DIV" [Arg x; Arg k]; Arg k]) = Ok (S_TIME, VZ (a - Z.rem a z)) /\
    of_type S_TIME (a - Z.rem a z)).
  { intros H. assert (V : value_in P r (Call "DIV" [Arg x; Arg k]) = Ok (S_TIME, VZ (Z.quot a z)))
      by (rewrite (value_2 P r _ _ _ _ _ VX VK), D, Q0, (proj2 (typeb _ _) H); reflexivity).
    pose proof (Z.quot_rem' a z) as E. assert (R : Z.quot a z * z = a - Z.rem a z) by lia.
    assert (B : of_type S_TIME (a - Z.rem a z)).
    { unfold of_type in *. cbn in X |- *. destruct (Z.le_ge_cases 0 a) as [S|S].
      - pose proof (Z.rem_nonneg a z N S). pose proof (Z.rem_le a z S). assert (Z.rem a z <= a).
        { destruct (Z.lt_trichotomy z 0) as [?|[?|?]]; [|contradiction|].
          - rewrite <- (Z.rem_opp_r a z N). apply Z.rem_le; lia.
          - apply Z.rem_le; lia. }
        lia.
      - pose proof (Z.rem_nonpos a z N S). assert (a <= Z.rem a z).
        { assert (Z.rem (- a) z <= - a).
          { destruct (Z.lt_trichotomy z 0) as [?|[?|?]]; [|contradiction|].
            - rewrite <- (Z.rem_opp_r (- a) z N). apply Z.rem_le; lia.
            - apply Z.rem_le; lia. }
          rewrite Z.rem_opp_l in H1 by exact N. lia. }
        lia. }
    split; [|exact B]. rewrite (value_2 P r _ _ _ _ _ V VK), (proj1 (scale_values P t _ z T H K L)), R, (proj2 (typeb _ _) B). reflexivity. }
  split; [|split].
  - intros H. assert (V : value_in P r (Call "MUL" [Arg x; Arg k]) = Ok (S_TIME, VZ (a * z)))
      by (rewrite (value_2 P r _ _ _ _ _ VX VK), M, (proj2 (typeb _ _) H); reflexivity).
    rewrite (value_2 P r _ _ _ _ _ V VK), (proj2 (scale_values P t _ z T H K L)), Q0. rewrite Z.quot_mul by exact N.
    now rewrite (proj2 (typeb _ _) X).
  - intros H. exact (proj1 (Q H)).
  - intros H. destruct (Q H) as [V B]. rewrite (value_2 P r _ _ _ _ _ VX V).
    assert (E : a - (a - Z.rem a z) = Z.rem a z) by lia.
    rewrite (proj2 (sum_value P a _ X B)); rewrite E; [reflexivity|].
    unfold of_type in *. cbn in X |- *. pose proof (Z.rem_bound_abs a z N) as F. cbn in L. lia.
Qed.
Lemma time_sums : forall P r x y w a b c, var r x S_TIME a -> var r y S_TIME b -> var r w S_TIME c ->
  (of_type S_TIME (a + b) -> value_in P r (Call "SUB" [Call "ADD" [Arg x; Arg y]; Arg y]) = Ok (S_TIME, VZ a) /\
     same P r (Call "ADD" [Arg x; Arg y]) (Call "ADD" [Arg y; Arg x])) /\
  (of_type S_TIME (a - b) -> value_in P r (Call "ADD" [Call "SUB" [Arg x; Arg y]; Arg y]) = Ok (S_TIME, VZ a)) /\
  (of_type S_TIME (a + b) -> of_type S_TIME (b + c) ->
     same P r (Call "ADD" [Call "ADD" [Arg x; Arg y]; Arg w]) (Call "ADD" [Arg x; Call "ADD" [Arg y; Arg w]])).
Proof.
  intros P r x y w a b c X Y W. pose proof (value_var P r x _ a X) as VX. pose proof (value_var P r y _ b Y) as VY.
  pose proof (value_var P r w _ c W) as VW. destruct X as [_ X], Y as [_ Y], W as [_ W].
  assert (S : of_type S_TIME (a + b) -> value_in P r (Call "ADD" [Arg x; Arg y]) = Ok (S_TIME, VZ (a + b)))
    by (intros H; rewrite (value_2 P r _ _ _ _ _ VX VY); exact (proj1 (sum_value P a b X Y) H)).
  split; [|split].
  - intros H. split.
    + rewrite (value_2 P r _ _ _ _ _ (S H) VY). assert (E : a + b - b = a) by lia.
      rewrite (proj2 (sum_value P (a + b) b H Y)); rewrite E; [reflexivity|exact X].
    + unfold same. rewrite (S H), (value_2 P r _ _ _ _ _ VY VX). assert (E : b + a = a + b) by lia.
      rewrite (proj1 (sum_value P b a Y X)); rewrite E; [reflexivity|exact H].
  - intros H. assert (D : value_in P r (Call "SUB" [Arg x; Arg y]) = Ok (S_TIME, VZ (a - b)))
      by (rewrite (value_2 P r _ _ _ _ _ VX VY); exact (proj2 (sum_value P a b X Y) H)).
    rewrite (value_2 P r _ _ _ _ _ D VY). assert (E : a - b + b = a) by lia.
    rewrite (proj1 (sum_value P (a - b) b H Y)); rewrite E; [reflexivity|exact X].
  - intros H G. assert (D : value_in P r (Call "ADD" [Arg y; Arg w]) = Ok (S_TIME, VZ (b + c)))
      by (rewrite (value_2 P r _ _ _ _ _ VY VW); exact (proj1 (sum_value P b c Y W) G)).
    unfold same. rewrite (value_2 P r _ _ _ _ _ (S H) VW), (value_2 P r _ _ _ _ _ VX D).
    destruct (sums_exact P (a + b) c H W) as ([A1 A2] & _). destruct (sums_exact P a (b + c) X G) as ([B1 B2] & _).
    assert (E : a + (b + c) = a + b + c) by lia. rewrite E in B1, B2.
    destruct (of_typeb S_TIME (a + b + c)) eqn:Q.
    + apply typeb in Q. now rewrite (A1 Q), (B1 Q).
    + assert (Q' : ~ of_type S_TIME (a + b + c)) by (rewrite <- typeb, Q; discriminate). now rewrite (A2 Q'), (B2 Q').
Qed.
Lemma time_distributes : forall P r t x y k a b z, List.In t integers -> var r x S_TIME a -> var r y S_TIME b -> var r k t z -> of_type S_LINT z ->
  of_type S_TIME (a + b) -> of_type S_TIME (a * z) -> of_type S_TIME (b * z) ->
  same P r (Call "MUL" [Call "ADD" [Arg x; Arg y]; Arg k]) (Call "ADD" [Call "MUL" [Arg x; Arg k]; Call "MUL" [Arg y; Arg k]]).
Proof.
  intros P r t x y k a b z T X Y K L H HA HB. pose proof (value_var P r x _ a X) as VX. pose proof (value_var P r y _ b Y) as VY.
  pose proof (value_var P r k t z K) as VK. destruct X as [_ X], Y as [_ Y], K as [_ K].
  assert (S : value_in P r (Call "ADD" [Arg x; Arg y]) = Ok (S_TIME, VZ (a + b)))
    by (rewrite (value_2 P r _ _ _ _ _ VX VY); exact (proj1 (sum_value P a b X Y) H)).
  assert (M1 : value_in P r (Call "MUL" [Arg x; Arg k]) = Ok (S_TIME, VZ (a * z)))
    by (rewrite (value_2 P r _ _ _ _ _ VX VK), (proj1 (scale_values P t a z T X K L)), (proj2 (typeb _ _) HA); reflexivity).
  assert (M2 : value_in P r (Call "MUL" [Arg y; Arg k]) = Ok (S_TIME, VZ (b * z)))
    by (rewrite (value_2 P r _ _ _ _ _ VY VK), (proj1 (scale_values P t b z T Y K L)), (proj2 (typeb _ _) HB); reflexivity).
  unfold same. rewrite (value_2 P r _ _ _ _ _ S VK), (value_2 P r _ _ _ _ _ M1 M2), (proj1 (scale_values P t _ z T H K L)).
  destruct (sums_exact P (a * z) (b * z) HA HB) as ([A1 A2] & _). rewrite Z.mul_add_distr_r.
  destruct (of_typeb S_TIME (a * z + b * z)) eqn:Q.
  - apply typeb in Q. now rewrite (A1 Q).
  - assert (Q' : ~ of_type S_TIME (a * z + b * z)) by (rewrite <- typeb, Q; discriminate). now rewrite (A2 Q').
Qed.

(** ** Through REAL and LREAL *)
Lemma real_conv_checked : forallb (fun a => forallb (fun f => st_conv a f && st_conv f a) real_types) integer_types = true /\
  st_conv S_REAL S_LREAL = true /\ st_conv S_LREAL S_REAL = true.
Proof. repeat split; vm_compute; reflexivity. Qed.
Lemma int_through_real : forall P r x a f z, List.In a integers -> List.In f [S_REAL; S_LREAL] -> var r x a z ->
  Z.abs z <= (match f with S_REAL => 2 ^ 24 | _ => 2 ^ 53 end) ->
  value_in P r (Call (conversion_name f a) [Call (conversion_name a f) [Arg x]]) = Ok (a, VZ z).
Proof.
  intros P r x a f z A F X B. pose proof (value_var P r x _ z X) as VX.
  destruct real_conv_checked as (H & _). rewrite forallb_forall in H. specialize (H a A). rewrite forallb_forall in H. specialize (H f F).
  apply andb_true_iff in H as [H1 H2].
  assert (NA : List.In (type_name a, ity_of a) numeric_names) by (cbn in A; repeat (destruct A as [<-|A]; [cbn; tauto|]); destruct A).
  assert (NF : List.In (type_name f, fmt_of f) float_names) by (destruct F as [<-|[<-|[]]]; cbn; tauto).
  assert (I : in_ity (ity_of a) z) by (apply ity_typed; [|exact (proj2 X)]; cbn in A |- *; tauto).
  assert (B' : Z.abs z <= 2 ^ f_prec (fmt_of f)) by (destruct F as [<-|[<-|[]]]; exact B).
  pose proof (int_real_int (p_chrono P) _ _ _ _ z NA NF I B') as E.
  unfold to in E. fold (conversion_name a f) in E. fold (conversion_name f a) in E.
  pose proof (conv_call P a f (VZ z) (VInt z) H1 eq_refl) as C1.
  destruct (st_call (p_chrono P) (conversion_name a f) [VInt z]) as [w| |]; [|discriminate E..]. cbn [obind] in E, C1.
  assert (V : value_in P r (Call (conversion_name a f) [Arg x]) = Ok (f, of_val w)) by (rewrite (value_1 P r _ _ _ VX); exact C1).
  rewrite (value_1 P r _ _ _ V), (conv_call P f a (of_val w) w H2), E by (destruct w; reflexivity). reflexivity.
Qed.
Lemma real_through_lreal : forall P r x v, get x r = Ok (S_REAL, VF v) -> fl_valid F32 v -> is_nan v = false ->
  value_in P r (Call "LREAL_TO_REAL" [Call "REAL_TO_LREAL" [Arg x]]) = Ok (S_REAL, VF v).
Proof.
  intros P r x v X V N. pose proof (value_arg P r x _ X) as VX. destruct real_conv_checked as (_ & H1 & H2).
  assert (E : obind (st_call (p_chrono P) "REAL_TO_LREAL" [VFl v]) (fun q => st_call (p_chrono P) "LREAL_TO_REAL" [q]) = Ok (VFl v)).
  { rewrite real_to_lreal by exact V. cbn [obind]. rewrite lreal_to_real. now rewrite widen_narrow. }
  pose proof (conv_call P S_REAL S_LREAL (VF v) (VFl v) H1 eq_refl) as C1.
  change (conversion_name S_REAL S_LREAL) with "REAL_TO_LREAL" in C1.
  destruct (st_call (p_chrono P) "REAL_TO_LREAL" [VFl v]) as [w| |]; [|discriminate E..]. cbn [obind] in E, C1.
  assert (W : value_in P r (Call "REAL_TO_LREAL" [Arg x]) = Ok (S_LREAL, of_val w)) by (rewrite (value_1 P r _ _ _ VX); exact C1).
  rewrite (value_1 P r _ _ _ W).
  pose proof (conv_call P S_LREAL S_REAL (of_val w) w H2 ltac:(destruct w; reflexivity)) as C2.
  change (conversion_name S_LREAL S_REAL) with "LREAL_TO_REAL" in C2. rewrite C2, E. reflexivity.
Qed.

(** ** External functions that are not generic *)
Lemma external_call : forall P f l m u ps bd, find_decl f = Some (Decl m true [] (Ty u) ps bd) ->
  same_types (ModelApi.formals ps (map fst l)) (map fst l) = true ->
  call P f l = omap (fun v => (u, v)) (result (rust_call P f (map snd l))).
Proof.
  Local Transparent call api.
  intros P f l m u ps bd D S. unfold call. rewrite (dispatch_eq _ f l _ f (map snd l) u D).
  - unfold api. cbn [invoke]. rewrite D. unfold result. destruct (rust_call P f (map snd l)) as [[v o]| |]; reflexivity.
  - unfold resolve. now rewrite D.
  - now apply same_coerce.
  - now rewrite D.
Qed.
Local Opaque call api.
Lemma bits_through_real : forall P r x f w, List.In (f, w) [(S_REAL, S_DWORD); (S_LREAL, S_LWORD)] ->
  (forall b, var r x w b -> value_in P r (Call (conversion_name f w) [Call (conversion_name w f) [Arg x]]) = Ok (w, VZ b)) /\
  (forall v, get x r = Ok (f, VF v) -> fl_valid (fmt_of f) v ->
     value_in P r (Call (conversion_name w f) [Call (conversion_name f w) [Arg x]]) = Ok (f, VF v)).
Proof.
  intros P r x f w [E|[E|[]]]; injection E as <- <-; split.
  - intros b X. pose proof (value_var P r x _ b X) as VX. destruct (bits_name P b (FNum (S754_zero false))) as (H & _).
    destruct (H (proj2 X)) as (y & E1 & E2).
    assert (V : value_in P r (Call (conversion_name S_DWORD S_REAL) [Arg x]) = Ok (S_REAL, VF y)).
    { rewrite (value_1 P r _ _ _ VX). erewrite external_call; [|vm_compute; reflexivity|vm_compute; reflexivity].
      change (conversion_name S_DWORD S_REAL) with "DWORD_TO_REAL". cbn [map snd]. rewrite E1. reflexivity. }
    rewrite (value_1 P r _ _ _ V). erewrite external_call; [|vm_compute; reflexivity|vm_compute; reflexivity].
    change (conversion_name S_REAL S_DWORD) with "REAL_TO_DWORD". cbn [map snd]. rewrite E2. reflexivity.
  - intros v X F. pose proof (value_arg P r x _ X) as VX. destruct (bits_name P 0 v) as (_ & _ & H & _).
    destruct (H F) as (c & E1 & _ & E2).
    assert (V : value_in P r (Call (conversion_name S_REAL S_DWORD) [Arg x]) = Ok (S_DWORD, VZ c)).
    { rewrite (value_1 P r _ _ _ VX). erewrite external_call; [|vm_compute; reflexivity|vm_compute; reflexivity].
      change (conversion_name S_REAL S_DWORD) with "REAL_TO_DWORD". cbn [map snd]. rewrite E1. reflexivity. }
    rewrite (value_1 P r _ _ _ V). erewrite external_call; [|vm_compute; reflexivity|vm_compute; reflexivity].
    change (conversion_name S_DWORD S_REAL) with "DWORD_TO_REAL". cbn [map snd]. rewrite E2. reflexivity.
  - intros b X. pose proof (value_var P r x _ b X) as VX. destruct (bits_name P b (FNum (S754_zero false))) as (_ & H & _).
    destruct (H (proj2 X)) as (y & E1 & E2).
    assert (V : value_in P r (Call (conversion_name S_LWORD S_LREAL) [Arg x]) = Ok (S_LREAL, VF y)).
    { rewrite (value_1 P r _ _ _ VX). erewrite external_call; [|vm_compute; reflexivity|vm_compute; reflexivity].
      change (conversion_name S_LWORD S_LREAL) with "LWORD_TO_LREAL". cbn [map snd]. rewrite E1. reflexivity. }
    rewrite (value_1 P r _ _ _ V). erewrite external_call; [|vm_compute; reflexivity|vm_compute; reflexivity].
    change (conversion_name S_LREAL S_LWORD) with "LREAL_TO_LWORD". cbn [map snd]. rewrite E2. reflexivity.
  - intros v X F. pose proof (value_arg P r x _ X) as VX. destruct (bits_name P 0 v) as (_ & _ & _ & H).
    destruct (H F) as (c & E1 & _ & E2).
    assert (V : value_in P r (Call (conversion_name S_LREAL S_LWORD) [Arg x]) = Ok (S_LWORD, VZ c)).
    { rewrite (value_1 P r _ _ _ VX). erewrite external_call; [|vm_compute; reflexivity|vm_compute; reflexivity].
      change (conversion_name S_LREAL S_LWORD) with "LREAL_TO_LWORD". cbn [map snd]. rewrite E1. reflexivity. }
    rewrite (value_1 P r _ _ _ V). erewrite external_call; [|vm_compute; reflexivity|vm_compute; reflexivity].
    change (conversion_name S_LWORD S_LREAL) with "LWORD_TO_LREAL". cbn [map snd]. rewrite E2. reflexivity.
Qed.

(** ** The parts of a DT *)
Lemma forward1 : forall P k n m t u g x t1 a o,
  find_decl n = Some (Decl m false [] (Ty t) [(x, Input, Ty t1)] (Assign (Call g [Arg x]))) ->
  x = "in" -> find_decl g = Some (Decl g true [] (Ty u) [(x, Input, Ty S_DT)] Empty) -> rty_eqb (repr t1) (repr S_DT) = true ->
  rty_eqb (repr u) (repr t) = true ->
  rust_call P g [VZ a] = obind o (fun z => Ok (VZ z, [VZ a])) ->
  invoke P (S (S k)) n [VZ a] = obind o (fun z => Ok (VZ z, [VZ a])).
Proof.
  intros P k n m t u g x t1 a o D -> Dg R1 R2 E. rewrite (invoke_assign P _ n m t _ _ _ D). cbv zeta. cbn [map fst snd combine].
  set (r0 := [("@", (t, initial t)); ("in", (t1, VZ a))]).
  assert (X : value_of (invoke P (S k)) r0 (Call g (map Arg ["in"])) = obind o (fun z => Ok (u, VZ z, r0))).
  { apply (pure_value _ _ _ [(t1, VZ a)]); [repeat (constructor; [reflexivity|]); constructor|].
    exists [("in", Input, Ty S_DT)], [VZ a]. split; [|repeat constructor].
    rewrite (dispatch_eq _ g _ _ g [VZ a] u Dg).
    - rewrite (invoke_external P k g g u _ _ Dg), E. destruct o; reflexivity.
    - unfold resolve. now rewrite Dg.
    - cbn [map fst d_params ModelApi.formals tl coerce_all]. unfold coerce. now rewrite R1.
    - now rewrite Dg. }
  cbn [map] in X. rewrite X. destruct o as [z| |]; [|reflexivity..]. cbn [obind]. unfold coerce. now rewrite R2.
Qed.
Definition date_of_dt := [("DT_TO_DATE", "DATE_AND_TIME_TO_DATE", S_DT, S_DATE); ("LDT_TO_DATE", "DATE_AND_TIME_TO_DATE", S_LDT, S_DATE)].
Definition tod_of_dt := [("DT_TO_TOD", "DATE_AND_TIME_TO_TIME_OF_DAY", S_DT, S_TOD); ("LDT_TO_TOD", "DATE_AND_TIME_TO_TIME_OF_DAY", S_LDT, S_TOD);
  ("DT_TO_LTOD", "DATE_AND_TIME_TO_TIME_OF_DAY", S_DT, S_LTOD); ("LDT_TO_LTOD", "DATE_AND_TIME_TO_TIME_OF_DAY", S_LDT, S_LTOD)].
Lemma part_calls : forall P f g t u n o, List.In (f, g, t, u) (date_of_dt ++ tod_of_dt) ->
  rust_call P g [VZ n] = obind o (fun z => Ok (VZ z, [VZ n])) -> call P f [(t, VZ n)] = obind o (fun z => Ok (u, VZ z)).
Proof.
  Local Transparent call api.
  intros P f g t u n o H E.
  assert (A : api P f [VZ n] = obind o (fun z => Ok (VZ z, [VZ n]))).
  { unfold api. cbn in H. repeat (destruct H as [H|H]; [injection H as <- <- <- <-;
      eapply forward1; [vm_compute; reflexivity|reflexivity|vm_compute; reflexivity|reflexivity|reflexivity|exact E]|]). destruct H. }
  clear E. unfold call. cbn in H.
  repeat (destruct H as [H|H]; [injection H as <- <- <- <-;
    (erewrite dispatch_eq; [|vm_compute; reflexivity|vm_compute; reflexivity|reflexivity|vm_compute; reflexivity]);
    rewrite A; destruct o; reflexivity|]). destruct H.
Qed.
Local Opaque call api.
Lemma dt_recomposed : forall P r x n, var r x S_DT n -> of_type S_DATE (n - n mod DAY) ->
  value_in P r (Call "CONCAT_DATE_TOD" [Call "DT_TO_DATE" [Arg x]; Call "DT_TO_TOD" [Arg x]]) = Ok (S_DT, VZ n).
Proof.
  intros P r x n X D. pose proof (value_var P r x _ n X) as VX. destruct (dt_parts_name P n (proj2 X)) as (E1 & E2 & E3).
  specialize (E3 D). rewrite (proj2 (typeb _ _) D) in E2.
  assert (R1 : rust_call P "DATE_AND_TIME_TO_TIME_OF_DAY" [VZ n] = obind (Ok (n mod DAY)) (fun z => Ok (VZ z, [VZ n]))).
  { revert E1. change (rust_call P "DATE_AND_TIME_TO_TIME_OF_DAY" [VZ n]) with (obind (DATE_AND_TIME_TO_TIME_OF_DAY (p_chrono P) n) (fun z => Ok (VZ z, [VZ n]))).
    destruct (DATE_AND_TIME_TO_TIME_OF_DAY (p_chrono P) n); [|discriminate..]. cbn. intros E. now injection E as ->. }
  assert (R2 : rust_call P "DATE_AND_TIME_TO_DATE" [VZ n] = obind (Ok (n - n mod DAY)) (fun z => Ok (VZ z, [VZ n]))).
  { revert E2. change (rust_call P "DATE_AND_TIME_TO_DATE" [VZ n]) with (obind (DATE_AND_TIME_TO_DATE (p_chrono P) n) (fun z => Ok (VZ z, [VZ n]))).
    destruct (DATE_AND_TIME_TO_DATE (p_chrono P) n); [|discriminate..]. cbn. intros E. now injection E as ->. }
  pose proof (part_calls P "DT_TO_TOD" _ _ _ n _ ltac:(cbn; tauto) R1) as C1.
  pose proof (part_calls P "DT_TO_DATE" _ _ _ n _ ltac:(cbn; tauto) R2) as C2. cbn [obind] in C1, C2.
  assert (V1 : value_in P r (Call "DT_TO_DATE" [Arg x]) = Ok (S_DATE, VZ (n - n mod DAY))) by (rewrite (value_1 P r _ _ _ VX); exact C2).
  assert (V2 : value_in P r (Call "DT_TO_TOD" [Arg x]) = Ok (S_TOD, VZ (n mod DAY))) by (rewrite (value_1 P r _ _ _ VX); exact C1).
  rewrite (value_2 P r _ _ _ _ _ V1 V2). erewrite external_call; [|vm_compute; reflexivity|vm_compute; reflexivity].
  cbn [map snd]. rewrite E3. reflexivity.
Qed.
