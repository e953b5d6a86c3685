(** The reference of SpecTerm.v: times and dates as numbers, BOOL, and the functions for times and dates that are not generic. *)
From Coq Require Import String Ascii ZArith Lia List Bool SpecFloat Reals.
From Verif Require Import Base ModelFloat ModelScalar ModelArith ModelTimeNum ModelText ModelString ModelExtra ModelDate ModelChrono ModelST ModelWrap ModelLink ModelLib
  ModelApi SpecScalar SpecTimeNum SpecReal SpecST SpecDate SpecText SpecExtra SpecLink SpecConv SpecLib SpecName SpecWrap SpecCall SpecExpr SpecNum SpecTerm
  ProofBase ProofScalar ProofDate ProofDate2 ProofST ProofST2 ProofLib ProofLib2 ProofConv ProofName3 ProofCall2 ProofProg ProofProg3 ProofProg4 ProofExpr ProofExpr2 ProofExpr4 ProofNum ProofTerm2.
Import ListNotations.
Open Scope string_scope.
Open Scope list_scope.
Open Scope Z_scope.
Local Opaque call value_in api.

(** * Times and dates as numbers *)
Lemma recast_checked : forallb (fun x => let '(a, b, u) := x in bodied (conversion_name a b) [a] (conversion_name a b) u) recasts = true.
Proof. vm_compute. reflexivity. Qed.
Lemma bodied_one : forall P f a u z, bodied f [a] f u = true -> call P f [(a, VZ z)] = obind (st_call (p_chrono P) f [VInt z]) (fun r => Ok (u, of_val r)).
Proof. intros P f a u z H. exact (bodied_call P f [(a, VZ z)] f u [VInt z] H eq_refl). Qed.
Definition cell (t : sty) : ity := match t with S_ULINT | S_LWORD => u64 | _ => i64 end.
Definition recast_code (x : sty * sty * sty) : Prop := let '(a, b, u) := x in
  forall v z, of_type a z -> st_call v (conversion_name a b) [VInt z] = Ok (VInt (wrap (cell u) z)).
Lemma recast_st : forall x, List.In x recasts -> recast_code x.
Proof.
  assert (W : forall z, in_ity i64 z -> wrap i64 z = z) by (intros z Z; apply wrap_id; [reflexivity|exact Z]).
  assert (M : forall t, List.In t moments -> List.In (type_name t) SpecST.time_names) by (intros t T; cbn in T; repeat (destruct T as [<-|T]; [cbn; tauto|]); destruct T).
  assert (N : forall t, List.In t moments -> cell (unlong t) = i64 /\ forall z, of_type t z -> in_ity i64 z)
    by (intros t T; cbn in T; repeat (destruct T as [<-|T]; [split; [reflexivity|intros z Z; exact Z]|]); destruct T).
  intros x H. unfold recasts in H. apply in_app_iff in H as [H|H]; [|apply in_app_iff in H as [H|H]; [|apply in_app_iff in H as [H|H]]].
  - apply in_flat_map in H as (t & T & H). destruct (N t T) as [C I]. pose proof (M t T) as K.
    destruct H as [<-|[<-|[<-|[<-|[]]]]]; intros v z Z.
    + exact (time_to_int v (type_name t) "LINT" i64 z K ltac:(cbn; tauto) (I z Z)).
    + exact (time_to_int v (type_name t) "ULINT" u64 z K ltac:(cbn; tauto) (I z Z)).
    + exact (time_to_int v (type_name t) "LWORD" u64 z K ltac:(cbn; tauto) (I z Z)).
    + rewrite C. exact (int_to_time v (type_name t) "LWORD" u64 z K ltac:(cbn; tauto) Z).
  - apply in_map_iff in H as (t & <- & T). assert (T' : List.In t moments) by (cbn in T |- *; tauto). destruct (N t T') as [C _]. intros v z Z.
    rewrite C. exact (int_to_time v (type_name t) "ULINT" u64 z (M t T') ltac:(cbn; tauto) Z).
  - apply in_map_iff in H as (t & <- & T). assert (T' : List.In t moments) by (cbn in T |- *; tauto). destruct (N t T') as [C _]. intros v z Z.
    rewrite C, (W z Z). apply (lint_to_time v (type_name t) z); [|exact Z]. clear -T. cbn in T. repeat (destruct T as [<-|T]; [cbn; tauto|]). destruct T.
  - destruct H as [<-|H]; [intros v z Z; exact (int_to_time v "LTIME" "ULINT" u64 z ltac:(cbn; tauto) ltac:(cbn; tauto) Z)|].
    repeat (destruct H as [<-|H]; [intros v z Z; cbn [cell]; rewrite (W z Z); apply time_alias; [cbn; tauto|exact Z]|]). destruct H.
Qed.
Lemma recast_result : forall a b u z, List.In (a, b, u) recasts -> of_type u (wrap (cell u) z) /\ (wrap (cell u) z) mod 2 ^ 64 = z mod 2 ^ 64 /\
  forall w, of_type u w -> w mod 2 ^ 64 = z mod 2 ^ 64 -> w = wrap (cell u) z.
Proof.
  intros a b u z H.
  assert (U : it_bits (cell u) = 64 /\ forall w, of_type u w <-> in_ity (cell u) w).
  { assert (U : List.In u (moments ++ [S_LINT; S_ULINT; S_LWORD])).
    { pose proof (in_map (fun x => snd x) _ _ H) as K. cbn [snd] in K. revert K. generalize u. apply (proj1 (Forall_forall (fun u => List.In u (moments ++ [S_LINT; S_ULINT; S_LWORD])) _)).
      repeat (first [apply Forall_nil|apply Forall_cons; [cbn; tauto|]]). }
    clear H. cbn in U. repeat (destruct U as [<-|U]; [split; [reflexivity|intros w; reflexivity]|]). destruct U. }
  destruct U as [B U]. assert (P : 0 < it_bits (cell u)) by (rewrite B; reflexivity). split; [|split].
  - apply U. apply wrap_range. exact P.
  - destruct (wrap_cong (cell u) z P) as [k ->]. rewrite B. apply Z.mod_add. discriminate.
  - intros w W E. apply U in W. rewrite <- (wrap_id _ w P W), <- (wrap_of_mod _ w P), <- (wrap_of_mod _ z P), B, E. reflexivity.
Qed.
Lemma recast_is : forall P a b u z w, List.In (a, b, u) recasts -> of_type a z -> of_type u w -> w mod 2 ^ 64 = z mod 2 ^ 64 ->
  call P (conversion_name a b) [(a, VZ z)] = Ok (u, VZ w).
Proof.
  intros P a b u z w H Z W E. pose proof (proj1 (forallb_forall _ _) recast_checked _ H) as C. cbv beta iota in C.
  rewrite (bodied_one P _ a u z C). pose proof (recast_st _ H) as S. unfold recast_code in S. rewrite (S (p_chrono P) z Z).
  rewrite (proj2 (proj2 (recast_result a b u z H)) w W E). reflexivity.
Qed.

(** * BOOL and ABS *)
Lemma bool_checked : forallb (fun t => bodied (conversion_name t S_BOOL) [t] (conversion_name t S_BOOL) S_BOOL) (S_LINT :: bit_strings) = true /\
  forallb (fun t => bodied (conversion_name S_BOOL t) [S_BOOL] (conversion_name S_BOOL t) t) convertible = true /\
  forallb (fun t => bodied "ABS" [t] (instance_name "ABS" [t]) t) [S_SINT; S_INT; S_DINT; S_LINT] = true.
Proof. repeat split; vm_compute; reflexivity. Qed.
Lemma lint_bool_api : forall P k z, of_type S_LINT z -> invoke P (S k) "LINT_TO_BOOL" [VZ z] = Ok (VZ (if z =? 0 then 0 else 1), [VZ z]).
Proof.
  intros P k z Z. change (invoke P (S k) "LINT_TO_BOOL" [VZ z]) with (obind (st_call (p_chrono P) "LINT_TO_BOOL" [VInt z]) (fun r => Ok (of_val r, [VZ z]))).
  rewrite (lint_to_bool (p_chrono P) z Z). reflexivity.
Qed.
Lemma dint_bool_api : forall P k z, of_type S_DINT z -> invoke P (S (S k)) "DINT_TO_BOOL" [VZ z] = Ok (VZ (if z =? 0 then 0 else 1), [VZ z]).
Proof.
  intros P k z Z. assert (L : of_type S_LINT z) by (unfold of_type in *; cbn in *; lia).
  erewrite invoke_assign; [|vm_compute; reflexivity]. cbv zeta. cbn [map fst snd combine].
  set (r0 := [("@", (S_BOOL, initial S_BOOL)); ("IN", (S_DINT, VZ z))]).
  assert (X : value_of (invoke P (S k)) r0 (Call "LINT_TO_BOOL" (map Arg ["IN"])) = obind (Ok (if z =? 0 then 0 else 1)) (fun n => Ok (S_BOOL, VZ n, r0))).
  { apply (pure_value _ _ _ [(S_DINT, VZ z)]); [repeat (constructor; [reflexivity|]); constructor|].
    eexists. eexists. split.
    - erewrite dispatch_eq; [|vm_compute; reflexivity|vm_compute; reflexivity| |vm_compute; reflexivity].
      + rewrite (lint_bool_api P k z L). reflexivity.
      + cbn [map fst d_params ModelApi.formals tl coerce_all]. 
        change (coerce S_DINT S_LINT (VZ z)) with (@Ok value (VZ (wrap i64 z))). rewrite (wrap_id i64 z eq_refl L). reflexivity.
    - repeat constructor. }
  cbn [map] in X. rewrite X. reflexivity.
Qed.
Lemma number_bool_is : forall P t z b, List.In t [S_DINT; S_LINT] -> of_type t z -> truth b (z <> 0) -> call P (conversion_name t S_BOOL) [(t, VZ z)] = Ok (S_BOOL, VZ b).
Proof.
  Local Transparent call api.
  intros P t z b T Z B.
  assert (A : api P (conversion_name t S_BOOL) [VZ z] = Ok (VZ (if z =? 0 then 0 else 1), [VZ z])).
  { unfold api. destruct T as [<-|[<-|[]]]; [exact (dint_bool_api P 3 z Z)|exact (lint_bool_api P 4 z Z)]. }
  assert (E : b = if z =? 0 then 0 else 1) by (destruct (Z.eqb_spec z 0), B as [[-> B]|[-> B]]; try reflexivity; contradiction). rewrite E. clear B E.
  unfold call. destruct T as [<-|[<-|[]]];
    (erewrite dispatch_eq; [|vm_compute; reflexivity|vm_compute; reflexivity|reflexivity|vm_compute; reflexivity]);
    match goal with |- context [api P ?n _] => change n with (conversion_name S_DINT S_BOOL) || change n with (conversion_name S_LINT S_BOOL) end; rewrite A; reflexivity.
Qed.
Local Opaque call api.
Lemma bits_bool_is : forall P t z, List.In t bit_strings -> of_type t z -> call P (conversion_name t S_BOOL) [(t, VZ z)] = Ok (S_BOOL, VZ (z mod 2)).
Proof.
  intros P t z T Z. rewrite (bodied_one P _ t S_BOOL z).
  2: { apply (proj1 (forallb_forall _ _) (proj1 bool_checked)). cbn in T |- *. tauto. }
  assert (E : st_call (p_chrono P) (conversion_name t S_BOOL) [VInt z] = Ok (VInt (z mod 2))).
  { apply (bit_to_bool _ (type_name t) (ity_of t) z); cbn in T; repeat (destruct T as [<-|T]; [first [exact Z|cbn; tauto]|]); destruct T. }
  rewrite E. reflexivity.
Qed.
Lemma of_bool_is : forall P t z, List.In t convertible -> of_type S_BOOL z -> call P (conversion_name S_BOOL t) [(S_BOOL, VZ z)] = Ok (t, VZ z).
Proof.
  intros P t z T Z. rewrite (bodied_one P _ S_BOOL t z).
  2: { exact (proj1 (forallb_forall _ _) (proj1 (proj2 bool_checked)) t T). }
  assert (E : exists b, z = Z.b2z b) by (unfold of_type in Z; cbn in Z; assert (z = 0 \/ z = 1) as [->| ->] by lia; [now exists false|now exists true]).
  destruct E as [b ->]. pose proof (bool_to_int (p_chrono P) (type_name t) (ity_of t) b (ity_named t T)) as E.
  change (to "BOOL" (type_name t)) with (conversion_name S_BOOL t) in E. rewrite E. reflexivity.
Qed.
Lemma abs_is : forall P t z, List.In t [S_SINT; S_INT; S_DINT; S_LINT] -> of_type t z ->
  call P "ABS" [(t, VZ z)] = Ok (t, VZ (if of_typeb t (Z.abs z) then Z.abs z else z)).
Proof.
  intros P t z T Z. rewrite (bodied_call P "ABS" [(t, VZ z)] (instance_name "ABS" [t]) t [VInt z]); [|exact (proj1 (forallb_forall _ _) (proj2 (proj2 bool_checked)) t T)|reflexivity].
  assert (E : st_call (p_chrono P) (instance_name "ABS" [t]) [VInt z] = Ok (VInt (if of_typeb t (Z.abs z) then Z.abs z else z))).
  { assert (E : st_call (p_chrono P) (instance_name "ABS" [t]) [VInt z] = Ok (VInt (if z =? imin (ity_of t) then imin (ity_of t) else Z.abs z))).
    { cbn in T. repeat (destruct T as [<-|T]; [apply (abs_int (p_chrono P) _ (ity_of _) z); [cbn; tauto|exact Z]|]). destruct T. }
    rewrite E. do 2 f_equal.
    assert (K : of_typeb t (Z.abs z) = negb (z =? imin (ity_of t))).
    { unfold of_type in Z. cbn in T. repeat (destruct T as [<-|T]; [cbn in Z |- *; unfold of_typeb; cbn;
        match goal with |- ?l = negb (?z =? ?m) => destruct (Z.eqb_spec z m) as [->|N]; [reflexivity|cbn [negb]; apply andb_true_iff; rewrite !Z.leb_le; lia] end|]). destruct T. }
    rewrite K. destruct (Z.eqb_spec z (imin (ity_of t))) as [->|]; reflexivity. }
  rewrite E. reflexivity.
Qed.

(** * Sums and differences by other names *)
Lemma forward_two : forall P k n m t g u t1 t2 s1 s2 a b o,
  find_decl n = Some (Decl m false [] (Ty t) [("IN1", Input, Ty t1); ("IN2", Input, Ty t2)] (Assign (Call g [Arg "IN1"; Arg "IN2"]))) ->
  find_decl g = Some (Decl g true [] (Ty u) [("IN1", Input, Ty s1); ("IN2", Input, Ty s2)] Empty) ->
  rty_eqb (repr t1) (repr s1) = true -> rty_eqb (repr t2) (repr s2) = true -> rty_eqb (repr u) (repr t) = true ->
  rust_call P g [VZ a; VZ b] = obind o (fun z => Ok (VZ z, [VZ a; VZ b])) ->
  invoke P (S (S k)) n [VZ a; VZ b] = obind o (fun z => Ok (VZ z, [VZ a; VZ b])).
Proof.
  intros P k n m t g u t1 t2 s1 s2 a b o D Dg R1 R2 R3 E. rewrite (invoke_assign P _ n m t _ _ _ D). cbv zeta. cbn [map fst snd combine].
  set (r0 := [("@", (t, initial t)); ("IN1", (t1, VZ a)); ("IN2", (t2, VZ b))]).
  assert (X : value_of (invoke P (S k)) r0 (Call g (map Arg ["IN1"; "IN2"])) = obind o (fun z => Ok (u, VZ z, r0))).
  { apply (pure_value _ _ _ [(t1, VZ a); (t2, VZ b)]); [repeat (constructor; [reflexivity|]); constructor|].
    exists [("IN1", Input, Ty s1); ("IN2", Input, Ty s2)], [VZ a; VZ b]. split; [|repeat constructor].
    rewrite (dispatch_eq _ g _ _ g [VZ a; VZ b] u Dg).
    - rewrite (invoke_external P k g g u _ _ Dg), E. destruct o; reflexivity.
    - unfold resolve. now rewrite Dg.
    - cbn [map fst d_params ModelApi.formals tl coerce_all]. unfold coerce. rewrite R1, R2. reflexivity.
    - now rewrite Dg. }
  cbn [map] in X. rewrite X. destruct o as [z| |]; [|reflexivity..]. cbn [obind]. unfold coerce. now rewrite R3.
Qed.
(** The function behind a name: the external function, the types of the arguments and of the result. *)
Definition behind : list (string * string * sty * sty * sty) := [
  ("ADD_TIME", "ADD_TIME", S_TIME, S_TIME, S_TIME); ("ADD__TIME__TIME", "ADD_TIME", S_TIME, S_TIME, S_TIME); ("ADD_LTIME", "ADD_TIME", S_LTIME, S_LTIME, S_LTIME);
  ("SUB_TIME", "SUB_TIME", S_TIME, S_TIME, S_TIME); ("SUB__TIME__TIME", "SUB_TIME", S_TIME, S_TIME, S_TIME); ("SUB_LTIME", "SUB_TIME", S_LTIME, S_LTIME, S_LTIME);
  ("ADD_TOD_TIME", "ADD_TOD_TIME", S_TOD, S_TIME, S_TOD); ("ADD__TIME_OF_DAY__TIME", "ADD_TOD_TIME", S_TOD, S_TIME, S_TOD); ("ADD_LTOD_LTIME", "ADD_TOD_TIME", S_LTOD, S_LTIME, S_LTOD);
  ("ADD_DT_TIME", "ADD_DT_TIME", S_DT, S_TIME, S_DT); ("ADD__DATE_AND_TIME__TIME", "ADD_DT_TIME", S_DT, S_TIME, S_DT); ("ADD_LDT_LTIME", "ADD_DT_TIME", S_LDT, S_LTIME, S_LDT);
  ("SUB_TOD_TIME", "SUB_TOD_TIME", S_TOD, S_TIME, S_TOD); ("SUB__TIME_OF_DAY__TIME", "SUB_TOD_TIME", S_TOD, S_TIME, S_TOD); ("SUB_LTOD_LTIME", "SUB_TOD_TIME", S_LTOD, S_LTIME, S_LTOD);
  ("SUB_DT_TIME", "SUB_DT_TIME", S_DT, S_TIME, S_DT); ("SUB__DATE_AND_TIME__TIME", "SUB_DT_TIME", S_DT, S_TIME, S_DT); ("SUB_LDT_LTIME", "SUB_DT_TIME", S_LDT, S_LTIME, S_LDT);
  ("SUB_DATE_DATE", "SUB_DATE_DATE", S_DATE, S_DATE, S_TIME); ("SUB__DATE__DATE", "SUB_DATE_DATE", S_DATE, S_DATE, S_TIME); ("SUB_LDATE_LDATE", "SUB_DATE_DATE", S_LDATE, S_LDATE, S_LTIME);
  ("SUB_TOD_TOD", "SUB_TOD_TOD", S_TOD, S_TOD, S_TIME); ("SUB__TIME_OF_DAY__TIME_OF_DAY", "SUB_TOD_TOD", S_TOD, S_TOD, S_TIME); ("SUB_LTOD_LTOD", "SUB_TOD_TOD", S_LTOD, S_LTOD, S_LTIME);
  ("SUB_DT_DT", "SUB_DT_DT", S_DT, S_DT, S_TIME); ("SUB__DATE_AND_TIME__DATE_AND_TIME", "SUB_DT_DT", S_DT, S_DT, S_TIME); ("SUB_LDT_LDT", "SUB_DT_DT", S_LDT, S_LDT, S_LTIME)].
Lemma behind_calls : forall P f g s t u a b o, List.In (f, g, s, t, u) behind ->
  rust_call P g [VZ a; VZ b] = obind o (fun z => Ok (VZ z, [VZ a; VZ b])) -> call P f [(s, VZ a); (t, VZ b)] = stamp u o.
Proof.
  Local Transparent call api.
  intros P f g s t u a b o H E.
  assert (A : api P f [VZ a; VZ b] = obind o (fun z => Ok (VZ z, [VZ a; VZ b]))).
  { unfold api. unfold behind in H. repeat (destruct H as [H|H]; [injection H as <- <- <- <- <-;
      first [exact E|eapply forward_two; [vm_compute; reflexivity|vm_compute; reflexivity|reflexivity|reflexivity|reflexivity|exact E]]|]). destruct H. }
  clear E. unfold call. unfold behind in H.
  repeat (destruct H as [H|H]; [injection H as <- <- <- <- <-;
    (erewrite dispatch_eq; [|vm_compute; reflexivity|vm_compute; reflexivity|reflexivity|vm_compute; reflexivity]);
    rewrite A; destruct o; reflexivity|]). destruct H.
Qed.
Local Opaque call api.
Lemma behind_rust : forall P a b,
  rust_call P "ADD_TIME" [VZ a; VZ b] = obind (ADD_TIME a b) (fun z => Ok (VZ z, [VZ a; VZ b])) /\
  rust_call P "SUB_TIME" [VZ a; VZ b] = obind (SUB_TIME a b) (fun z => Ok (VZ z, [VZ a; VZ b])) /\
  rust_call P "ADD_TOD_TIME" [VZ a; VZ b] = obind (ADD_TOD_TIME (p_chrono P) a b) (fun z => Ok (VZ z, [VZ a; VZ b])) /\
  rust_call P "ADD_DT_TIME" [VZ a; VZ b] = obind (ADD_DT_TIME (p_chrono P) a b) (fun z => Ok (VZ z, [VZ a; VZ b])) /\
  rust_call P "SUB_TOD_TIME" [VZ a; VZ b] = obind (SUB_TOD_TIME (p_chrono P) a b) (fun z => Ok (VZ z, [VZ a; VZ b])) /\
  rust_call P "SUB_DT_TIME" [VZ a; VZ b] = obind (SUB_DT_TIME (p_chrono P) a b) (fun z => Ok (VZ z, [VZ a; VZ b])) /\
  rust_call P "SUB_DATE_DATE" [VZ a; VZ b] = obind (SUB_DATE_DATE a b) (fun z => Ok (VZ z, [VZ a; VZ b])) /\
  rust_call P "SUB_TOD_TOD" [VZ a; VZ b] = obind (SUB_TOD_TOD a b) (fun z => Ok (VZ z, [VZ a; VZ b])) /\
  rust_call P "SUB_DT_DT" [VZ a; VZ b] = obind (SUB_DT_DT a b) (fun z => Ok (VZ z, [VZ a; VZ b])).
Proof. intros P a b. repeat split; name_of; cbv [z2]; match goal with |- obind ?o _ = _ => destruct o; reflexivity end. Qed.
Lemma in_time : forall u z, List.In u [S_TIME; S_LTIME] -> in_ityb i64 z = true <-> of_type u z.
Proof. intros u z U. rewrite in_ityb_iff. destruct U as [<-|[<-|[]]]; reflexivity. Qed.
Lemma times_added : forall P f t a b, List.In (f, t) time_adders -> of_type t a -> of_type t b ->
  delivers t (a + b) (of_type t (a + b)) (call P f [(t, VZ a); (t, VZ b)]).
Proof.
  intros P f t a b H A B. assert (call P f [(t, VZ a); (t, VZ b)] = stamp t (ADD_TIME a b)) as ->.
  { apply (behind_calls P f "ADD_TIME"); [|apply (behind_rust P a b)]. unfold time_adders in H.
    repeat (destruct H as [H|H]; [injection H as <- <-; unfold behind; repeat (first [left; reflexivity|right])|]). destruct H. }
  unfold time_adders in H. repeat (destruct H as [H|H]; [injection H as <- <-; apply (stamp_in _ _ (in_ityb i64 (a + b))); [now apply add_time_lemma|apply in_time; cbn; tauto]|]). destruct H.
Qed.
Lemma times_subtracted : forall P f t a b, List.In (f, t) time_subtracters -> of_type t a -> of_type t b ->
  delivers t (a - b) (of_type t (a - b)) (call P f [(t, VZ a); (t, VZ b)]).
Proof.
  intros P f t a b H A B. assert (call P f [(t, VZ a); (t, VZ b)] = stamp t (SUB_TIME a b)) as ->.
  { apply (behind_calls P f "SUB_TIME"); [|apply (behind_rust P a b)]. unfold time_subtracters in H.
    repeat (destruct H as [H|H]; [injection H as <- <-; unfold behind; repeat (first [left; reflexivity|right])|]). destruct H. }
  unfold time_subtracters in H. repeat (destruct H as [H|H]; [injection H as <- <-; apply (stamp_in _ _ (in_ityb i64 (a - b))); [now apply sub_time_lemma|apply in_time; cbn; tauto]|]). destruct H.
Qed.
Lemma later_named : forall P f t u a b, List.In (f, t, u) adders -> delivers t (a + b) (representable (p_chrono P) (a + b)) (call P f [(t, VZ a); (u, VZ b)]).
Proof.
  intros P f t u a b H. destruct (behind_rust P a b) as (_ & _ & E1 & E2 & _).
  assert (call P f [(t, VZ a); (u, VZ b)] = stamp t (ADD_TOD_TIME (p_chrono P) a b) \/ call P f [(t, VZ a); (u, VZ b)] = stamp t (ADD_DT_TIME (p_chrono P) a b)) as [-> | ->].
  { unfold adders in H. do 3 (destruct H as [H|H]; [injection H as <- <- <-; left; apply (behind_calls P _ "ADD_TOD_TIME"); [unfold behind; repeat (first [left; reflexivity|right])|exact E1]|]).
    do 3 (destruct H as [H|H]; [injection H as <- <- <-; right; apply (behind_calls P _ "ADD_DT_TIME"); [unfold behind; repeat (first [left; reflexivity|right])|exact E2]|]). destruct H. }
  - apply stamp_rep, add_datetime_lemma.
  - apply stamp_rep, add_datetime_lemma.
Qed.
Lemma earlier_named : forall P f t u a b, List.In (f, t, u) subtracters -> delivers t (a - b) (representable (p_chrono P) (a - b)) (call P f [(t, VZ a); (u, VZ b)]).
Proof.
  intros P f t u a b H. destruct (behind_rust P a b) as (_ & _ & _ & _ & E1 & E2 & _).
  assert (call P f [(t, VZ a); (u, VZ b)] = stamp t (SUB_TOD_TIME (p_chrono P) a b) \/ call P f [(t, VZ a); (u, VZ b)] = stamp t (SUB_DT_TIME (p_chrono P) a b)) as [-> | ->].
  { unfold subtracters in H. do 3 (destruct H as [H|H]; [injection H as <- <- <-; left; apply (behind_calls P _ "SUB_TOD_TIME"); [unfold behind; repeat (first [left; reflexivity|right])|exact E1]|]).
    do 3 (destruct H as [H|H]; [injection H as <- <- <-; right; apply (behind_calls P _ "SUB_DT_TIME"); [unfold behind; repeat (first [left; reflexivity|right])|exact E2]|]). destruct H. }
  - apply stamp_rep, sub_datetime_lemma.
  - apply stamp_rep, sub_datetime_lemma.
Qed.
Lemma difference_named : forall P f t u a b, List.In (f, t, u) differences -> of_type t a -> of_type t b ->
  delivers u (a - b) (of_type u (a - b)) (call P f [(t, VZ a); (t, VZ b)]).
Proof.
  intros P f t u a b H A B. destruct (behind_rust P a b) as (_ & _ & _ & _ & _ & _ & E1 & E2 & E3).
  assert (call P f [(t, VZ a); (t, VZ b)] = stamp u (SUB_DATE_DATE a b) \/ call P f [(t, VZ a); (t, VZ b)] = stamp u (SUB_TOD_TOD a b) \/
    call P f [(t, VZ a); (t, VZ b)] = stamp u (SUB_DT_DT a b)) as E.
  { unfold differences in H. do 3 (destruct H as [H|H]; [injection H as <- <- <-; left; apply (behind_calls P _ "SUB_DATE_DATE"); [unfold behind; repeat (first [left; reflexivity|right])|exact E1]|]).
    do 3 (destruct H as [H|H]; [injection H as <- <- <-; right; left; apply (behind_calls P _ "SUB_TOD_TOD"); [unfold behind; repeat (first [left; reflexivity|right])|exact E2]|]).
    do 3 (destruct H as [H|H]; [injection H as <- <- <-; right; right; apply (behind_calls P _ "SUB_DT_DT"); [unfold behind; repeat (first [left; reflexivity|right])|exact E3]|]). destruct H. }
  assert (K : of_type S_TIME a /\ of_type S_TIME b /\ List.In u [S_TIME; S_LTIME]).
  { clear E. unfold differences in H. repeat (destruct H as [H|H]; [injection H as <- <- <-; split; [exact A|split; [exact B|cbn; tauto]]|]). destruct H. }
  destruct K as (A' & B' & U). destruct E as [-> |[-> | ->]]; (apply (stamp_in _ _ (in_ityb i64 (a - b))); [now apply sub_datetimes_lemma|now apply in_time]).
Qed.

(** * Products and quotients of times by other names *)
Lemma scaled_checked : forallb (fun x => forallb (fun t => exported (fst x) [snd x; t] (instance_name (fst x) [t]) (snd x)) integers) (multipliers ++ dividers) = true.
Proof. vm_compute. reflexivity. Qed.
Lemma scaled_calls : forall P f u t a z, List.In (f, u) (multipliers ++ dividers) -> List.In t integers ->
  call P f [(u, VZ a); (t, VZ z)] = omap (fun v => (u, v)) (result (rust_call P (instance_name f [t]) [VZ a; VZ z])).
Proof.
  intros P f u t a z H T. apply (generic_call P f [(u, VZ a); (t, VZ z)]). pose proof scaled_checked as C.
  rewrite forallb_forall in C. specialize (C _ H). rewrite forallb_forall in C. exact (C t T).
Qed.
Lemma multiplied : forall P f u t a z, List.In (f, u) multipliers -> List.In t integers -> of_type t z ->
  delivers u (a * z) (of_type S_LINT z /\ of_type u (a * z)) (call P f [(u, VZ a); (t, VZ z)]).
Proof.
  intros P f u t a z H T Z. rewrite (scaled_calls P f u t a z ltac:(apply in_app_iff; left; exact H) T).
  assert (F : List.In f products) by (destruct H as [H|[H|[]]]; injection H as <- <-; cbn; tauto).
  assert (U : of_type u (a * z) <-> of_type S_TIME (a * z)) by (destruct H as [H|[H|[]]]; injection H as <- <-; reflexivity).
  destruct (of_typeb S_LINT z) eqn:L.
  - apply typeb in L. rewrite (product_exact P f t a z F T Z L). split.
    + intros [_ B]. apply U, typeb in B. rewrite B. reflexivity.
    + intros N. destruct (of_typeb S_TIME (a * z)) eqn:B; [|reflexivity]. exfalso. apply N. split; [exact L|]. apply U, typeb. exact B.
  - assert (N : ~ of_type S_LINT z) by (intros K; apply typeb in K; rewrite K in L; discriminate L). split; [intros [K _]; contradiction|]. intros _.
    assert (t = S_ULINT) as ->.
    { unfold of_type in Z, N. cbn in T. repeat (destruct T as [<-|T]; [first [reflexivity|exfalso; cbn in Z, N; lia]|]). destruct T. }
    assert (E : rust_call P (instance_name f [S_ULINT]) [VZ a; VZ z] = obind (MUL_TIME_UNSIGNED a z) (fun z' => Ok (VZ z', [VZ a; VZ z])))
      by (destruct H as [H|[H|[]]]; injection H as <- <-; reflexivity).
    assert (checked i64 z = None) as C.
    { unfold checked. destruct (in_ityb i64 z) eqn:I; [|reflexivity]. apply in_ityb_iff in I. destruct (N I). }
    rewrite E. unfold MUL_TIME_UNSIGNED. rewrite C. reflexivity.
Qed.
Lemma divided : forall P f u t a z, List.In (f, u) dividers -> List.In t integers -> of_type u a -> of_type t z ->
  delivers u (Z.quot a z) (of_type S_LINT z /\ z <> 0 /\ of_type u (Z.quot a z)) (call P f [(u, VZ a); (t, VZ z)]).
Proof.
  intros P f u t a z H T A Z. rewrite (scaled_calls P f u t a z ltac:(apply in_app_iff; right; exact H) T).
  assert (F : List.In f quotients) by (destruct H as [H|[H|[]]]; injection H as <- <-; cbn; tauto).
  assert (U : forall z, of_type u z <-> of_type S_TIME z) by (intros y; destruct H as [H|[H|[]]]; injection H as <- <-; reflexivity).
  destruct (of_typeb S_LINT z) eqn:L.
  - apply typeb in L. rewrite (quotient_exact P f t a z F T Z (proj1 (U a) A) L). split.
    + intros (_ & N & B). apply U, typeb in B. apply Z.eqb_neq in N. rewrite B, N. reflexivity.
    + intros N. destruct (Z.eqb_spec z 0) as [E|E]; [reflexivity|]. cbn [negb andb]. destruct (of_typeb S_TIME (Z.quot a z)) eqn:B; [|reflexivity].
      exfalso. apply N. split; [exact L|]. split; [exact E|]. apply U, typeb. exact B.
  - assert (N : ~ of_type S_LINT z) by (intros K; apply typeb in K; rewrite K in L; discriminate L). split; [intros [K _]; contradiction|]. intros _.
    assert (t = S_ULINT) as ->.
    { unfold of_type in Z, N. cbn in T. repeat (destruct T as [<-|T]; [first [reflexivity|exfalso; cbn in Z, N; lia]|]). destruct T. }
    assert (E : rust_call P (instance_name f [S_ULINT]) [VZ a; VZ z] = obind (DIV_TIME_UNSIGNED a z) (fun z' => Ok (VZ z', [VZ a; VZ z])))
      by (destruct H as [H|[H|[]]]; injection H as <- <-; reflexivity).
    assert (checked i64 z = None) as C.
    { unfold checked. destruct (in_ityb i64 z) eqn:I; [|reflexivity]. apply in_ityb_iff in I. destruct (N I). }
    rewrite E. unfold DIV_TIME_UNSIGNED. rewrite C. reflexivity.
Qed.

(** * The parts of a DT by other names, and values put together from parts *)
Lemma part_rust : forall P n, of_type S_DT n ->
  rust_call P "DATE_AND_TIME_TO_TIME_OF_DAY" [VZ n] = obind (Ok (n mod DAY)) (fun z => Ok (VZ z, [VZ n])) /\
  rust_call P "DATE_AND_TIME_TO_DATE" [VZ n] = obind (if of_typeb S_DATE (n - n mod DAY) then Ok (n - n mod DAY) else Panic) (fun z => Ok (VZ z, [VZ n])).
Proof.
  intros P n N. destruct (dt_parts_name P n N) as (E1 & E2 & _). split.
  - revert E1. change (rust_call P "DATE_AND_TIME_TO_TIME_OF_DAY" [VZ n]) with (obind (DATE_AND_TIME_TO_TIME_OF_DAY (p_chrono P) n) (fun z => Ok (VZ z, [VZ n]))).
    destruct (DATE_AND_TIME_TO_TIME_OF_DAY (p_chrono P) n); [|discriminate..]. cbn. intros E. now injection E as ->.
  - revert E2. change (rust_call P "DATE_AND_TIME_TO_DATE" [VZ n]) with (obind (DATE_AND_TIME_TO_DATE (p_chrono P) n) (fun z => Ok (VZ z, [VZ n]))).
    destruct (of_typeb S_DATE (n - n mod DAY)); destruct (DATE_AND_TIME_TO_DATE (p_chrono P) n); cbn; try discriminate; intros E; [now injection E as ->|reflexivity].
Qed.
Lemma date_part_is : forall P f t n, List.In (f, t) date_parts -> of_type t n ->
  delivers S_DATE (n - n mod DAY) (of_type S_DATE (n - n mod DAY)) (call P f [(t, VZ n)]).
Proof.
  intros P f t n H N. assert (call P f [(t, VZ n)] = obind (if of_typeb S_DATE (n - n mod DAY) then Ok (n - n mod DAY) else Panic) (fun z => Ok (S_DATE, VZ z))) as ->.
  { destruct H as [H|[H|[]]]; injection H as <- <-.
    - exact (part_calls P "LDT_TO_DATE" _ _ _ n _ ltac:(cbn; tauto) (proj2 (part_rust P n N))).
    - erewrite external_call; [|vm_compute; reflexivity|vm_compute; reflexivity]. cbn [map snd]. rewrite (proj2 (part_rust P n N)).
      destruct (of_typeb S_DATE (n - n mod DAY)); reflexivity. }
  split; intros B; [apply typeb in B; rewrite B; reflexivity|]. destruct (of_typeb S_DATE (n - n mod DAY)) eqn:E; [|reflexivity]. apply typeb in E. contradiction.
Qed.
Lemma tod_part_is : forall P f t u n, List.In (f, t, u) tod_parts -> of_type t n -> call P f [(t, VZ n)] = Ok (u, VZ (n mod DAY)).
Proof.
  intros P f t u n H N.
  assert (of_type S_DT n) as D by (unfold tod_parts in H; repeat (destruct H as [H|H]; [injection H as <- <- <-; exact N|]); destruct H).
  destruct H as [H|[H|[H|[H|[]]]]]; injection H as <- <- <-.
  - exact (part_calls P "LDT_TO_TOD" _ _ _ n _ ltac:(cbn; tauto) (proj1 (part_rust P n D))).
  - exact (part_calls P "DT_TO_LTOD" _ _ _ n _ ltac:(cbn; tauto) (proj1 (part_rust P n D))).
  - exact (part_calls P "LDT_TO_LTOD" _ _ _ n _ ltac:(cbn; tauto) (proj1 (part_rust P n D))).
  - erewrite external_call; [|vm_compute; reflexivity|vm_compute; reflexivity]. cbn [map snd]. rewrite (proj1 (part_rust P n D)). reflexivity.
Qed.
Lemma clock_outcome : forall P t h mi s ms, List.In t clock_types -> of_type t h -> of_type t mi -> of_type t s -> of_type t ms ->
  (accepted_clock P h mi s ms -> CONCAT_TOD (p_chrono P) h mi s ms = Ok (clock_ns h mi s ms)) /\
  (~ accepted_clock P h mi s ms -> CONCAT_TOD (p_chrono P) h mi s ms = Panic).
Proof.
  intros P t h mi s ms T H1 H2 H3 H4. destruct (concat_tod_name P t h mi s ms T H1 H2 H3 H4) as [A B].
  rewrite (concat_tod_rust P t h mi s ms ltac:(clear -T; cbn in *; tauto) H1 H2 H3 H4) in A, B.
  split; intros H; [specialize (A H); clear B|specialize (B H); clear A]; destruct (CONCAT_TOD (p_chrono P) h mi s ms); cbn in *; try discriminate; [now injection A as ->|reflexivity].
Qed.
Lemma clock_is : forall P f u t h mi s ms, List.In (f, u) [("CONCAT_TOD", S_TOD); ("CONCAT_LTOD", S_LTOD)] -> List.In t clock_types ->
  of_type t h -> of_type t mi -> of_type t s -> of_type t ms ->
  delivers u (clock_ns h mi s ms) (accepted_clock P h mi s ms) (call P f [(t, VZ h); (t, VZ mi); (t, VZ s); (t, VZ ms)]).
Proof.
  intros P f u t h mi s ms F T H1 H2 H3 H4. destruct (clock_outcome P t h mi s ms T H1 H2 H3 H4) as [A B].
  destruct (concat_tod_call P t h mi s ms ltac:(clear -T; cbn in *; tauto) H1 H2 H3 H4) as [C D].
  destruct F as [F|[F|[]]]; injection F as <- <-; [change [(t, VZ h); (t, VZ mi); (t, VZ s); (t, VZ ms)] with (ints t [h; mi; s; ms]); rewrite C|
    change [(t, VZ h); (t, VZ mi); (t, VZ s); (t, VZ ms)] with (ints t [h; mi; s; ms]); rewrite D]; apply stamp_rep; split; assumption.
Qed.
Lemma joined_div : forall a b, joined a b = a / DAY * DAY + b mod DAY.
Proof. intros a b. unfold joined. pose proof (Z_div_mod_eq_full a DAY). lia. Qed.
Lemma join_is : forall P f u a b, List.In (f, u) [("CONCAT_DATE_TOD", S_TOD); ("CONCAT_DATE_LTOD", S_LTOD)] ->
  delivers S_DT (joined a b) (representable (p_chrono P) (joined a b)) (call P f [(S_DATE, VZ a); (u, VZ b)]).
Proof.
  Local Transparent call api.
  intros P f u a b F. rewrite joined_div.
  assert (call P f [(S_DATE, VZ a); (u, VZ b)] = stamp S_DT (CONCAT_DATE_TOD (p_chrono P) a b)) as ->.
  { unfold call. destruct F as [F|[F|[]]]; injection F as <- <-;
      [destruct (date_tod_pure P 4 a b) as (ps & outs & E & _)|destruct (date_ltod_pure P 3 a b) as (ps & outs & E & _)];
      change (invoke P 5) with (api P) in E; rewrite E; destruct (CONCAT_DATE_TOD (p_chrono P) a b); reflexivity. }
  apply stamp_rep, concat_date_tod_spec.
Qed.
Local Opaque call api.
Lemma stamp_is : forall P f u t y m d h mi s ms, List.In (f, u) [("CONCAT_DT", S_DT); ("CONCAT_LDT", S_LDT)] -> List.In t narrow_ints ->
  Forall (of_type t) [y; m; d; h; mi; s; ms] ->
  (forall n, day_number (y, m, d) n -> of_type S_DATE (n * DAY) -> accepted_clock P h mi s ms -> representable (p_chrono P) (joined (n * DAY) (clock_ns h mi s ms)) ->
     call P f (ints t [y; m; d; h; mi; s; ms]) = Ok (u, VZ (joined (n * DAY) (clock_ns h mi s ms)))) /\
  ((forall n, day_number (y, m, d) n -> ~ (of_type S_DATE (n * DAY) /\ accepted_clock P h mi s ms /\ representable (p_chrono P) (joined (n * DAY) (clock_ns h mi s ms)))) ->
     call P f (ints t [y; m; d; h; mi; s; ms]) = Panic).
Proof.
  intros P f u t y m d h mi s ms F T W.
  assert (E : call P f (ints t [y; m; d; h; mi; s; ms]) = stamp u (CONCAT_DT (p_chrono P) y m d h mi s ms)).
  { destruct (concat_dt_call P t y m d h mi s ms ltac:(now apply narrow_wide) W) as [A B]. destruct F as [F|[F|[]]]; injection F as <- <-; assumption. }
  rewrite E. clear E F. inversion W as [|? ? Y W1]; subst. inversion W1 as [|? ? M W2]; subst. inversion W2 as [|? ? D W3]; subst. inversion W3 as [|? ? H W4]; subst.
  inversion W4 as [|? ? Mi W5]; subst. inversion W5 as [|? ? S W6]; subst. inversion W6 as [|? ? Ms _]; subst. clear W W1 W2 W3 W4 W5 W6.
  destruct (clock_outcome P t h mi s ms ltac:(clear -T; cbn in *; tauto) H Mi S Ms) as [C1 C2].
  unfold CONCAT_DT.
  assert (X : CONCAT_DATE (p_chrono P) y m d = Panic \/ exists n, day_number (y, m, d) n /\ of_type S_DATE (n * DAY) /\ CONCAT_DATE (p_chrono P) y m d = Ok (n * DAY)).
  { pose proof (concat_date_call P t y m d ltac:(now apply narrow_wide) Y M D) as Q.
    assert (V : valid_date (y, m, d) \/ ~ valid_date (y, m, d)) by (unfold valid_date; lia). destruct V as [V|V].
    - destruct (day_number_unique _ V) as (n & N & _). assert (B : of_type S_DATE (n * DAY) \/ ~ of_type S_DATE (n * DAY)) by (unfold of_type; lia). destruct B as [B|B].
      + right. exists n. split; [exact N|]. split; [exact B|]. pose proof (date_is P t y m d n T Y M D N B) as K.
        change [(t, VZ y); (t, VZ m); (t, VZ d)] with (ints t [y; m; d]) in K. rewrite Q in K. destruct (CONCAT_DATE (p_chrono P) y m d); cbn in K; try discriminate. now injection K as ->.
      + left. assert (K : call P "CONCAT_DATE" [(t, VZ y); (t, VZ m); (t, VZ d)] = Panic).
        { apply date_fails; try assumption. intros n' N'. destruct (day_number_unique _ V) as (k & _ & U). now rewrite (U n' N'), <- (U n N). }
        change [(t, VZ y); (t, VZ m); (t, VZ d)] with (ints t [y; m; d]) in K. rewrite Q in K. destruct (CONCAT_DATE (p_chrono P) y m d); cbn in K; try discriminate. reflexivity.
    - left. assert (K : call P "CONCAT_DATE" [(t, VZ y); (t, VZ m); (t, VZ d)] = Panic).
      { apply date_fails; try assumption. intros n' N'. destruct (V (proj1 (proj1 (day_number_iff _ _) N'))). }
      change [(t, VZ y); (t, VZ m); (t, VZ d)] with (ints t [y; m; d]) in K. rewrite Q in K. destruct (CONCAT_DATE (p_chrono P) y m d); cbn in K; try discriminate. reflexivity. }
  assert (Un : forall n n', day_number (y, m, d) n -> day_number (y, m, d) n' -> n = n').
  { intros n n' N N'. pose proof (proj1 (proj1 (day_number_iff _ _) N)) as V. destruct (day_number_unique _ V) as (k & _ & U). now rewrite (U n N), (U n' N'). }
  split.
  - intros n N B A R. destruct X as [X|(n' & N' & _ & X)].
    + exfalso. pose proof (date_is P t y m d n T Y M D N B) as K. change [(t, VZ y); (t, VZ m); (t, VZ d)] with (ints t [y; m; d]) in K.
      rewrite (concat_date_call P t y m d ltac:(now apply narrow_wide) Y M D), X in K. discriminate.
    + rewrite (Un n' n N' N) in X. rewrite X, (C1 A). cbn [obind]. rewrite joined_div in *. rewrite (proj1 (concat_date_tod_spec _ _ _) R). reflexivity.
  - intros N. destruct X as [X|(n & D' & B & X)]; [rewrite X; reflexivity|]. rewrite X. cbn [obind]. specialize (N n D').
    assert (A : accepted_clock P h mi s ms \/ ~ accepted_clock P h mi s ms).
    { unfold accepted_clock, accepts_millis. destruct (leap_any (p_chrono P)); lia. }
    destruct A as [A|A]; [|rewrite (C2 A); reflexivity]. rewrite (C1 A). cbn [obind]. rewrite joined_div in N.
    rewrite (proj2 (concat_date_tod_spec _ _ _)) by tauto. reflexivity.
Qed.
