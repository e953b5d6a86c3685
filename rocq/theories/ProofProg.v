(** Proofs about programs that take dates and times apart and put them together. *)
From Coq Require Import String Ascii ZArith Lia List Bool SpecFloat.
From Verif Require Import Base ModelFloat ModelTimeNum ModelText ModelString ModelExtra ModelDate ModelChrono ModelST ModelWrap ModelLink ModelLib
  ModelApi SpecScalar SpecDate SpecText SpecLink SpecLib SpecName SpecWrap SpecCall ProofBase ProofDate ProofLib ProofName ProofCall2.
Import ListNotations.
Open Scope string_scope.
Open Scope list_scope.
Open Scope Z_scope.

(** * Variables *)
Lemma get_put_same : forall (V : Type) (r : env V) x t u v, get x r = Ok (t, u) -> get x (put x v r) = Ok (t, v).
Proof.
  intros V r x t u v. unfold get, put. induction r as [|[y [s w]] r IH]; [discriminate|]. cbn [map find fst snd].
  destruct (String.eqb_spec y x) as [->|N]; cbn [find fst snd].
  - rewrite String.eqb_refl. intros H. injection H as -> ->. reflexivity.
  - destruct (String.eqb_spec y x); [contradiction|exact IH].
Qed.
Lemma get_put_other : forall (V : Type) (r : env V) x y v, x <> y -> get x (put y v r) = get x r.
Proof.
  intros V r x y v N. unfold get, put. induction r as [|[z [s w]] r IH]; [reflexivity|]. cbn [map find fst snd].
  destruct (String.eqb_spec z y) as [->|M]; cbn [find fst snd].
  - destruct (String.eqb_spec y x) as [->|_]; [contradiction|exact IH].
  - destruct (String.eqb_spec z x); [reflexivity|exact IH].
Qed.
Lemma value_vars : forall inv r f xs tvs, Forall2 (fun x tv => get x r = Ok tv) xs tvs ->
  value_of inv r (Call f (map Arg xs)) =
  let! '(t, v, ps, outs) := dispatch inv f tvs in Ok (t, v, copy_out ps (map Arg xs) outs r).
Proof.
  intros inv r f xs tvs F. cbn [value_of].
  assert (E : (fix go (l : list ModelLink.expr) : outcome (list (sty * value)) := match l with
                 | [] => Ok []
                 | a :: l' => let! '(tv, _) := value_of inv r a in let! tvs := go l' in Ok (tv :: tvs)
                 end) (map Arg xs) = Ok tvs).
  { induction F as [|x tv xs tvs G F IH]; [reflexivity|]. cbn [map]. 
    change (value_of inv r (Arg x)) with (let! tv := get x r in Ok (tv, r)). rewrite G. cbn [obind]. rewrite IH. reflexivity. }
  rewrite E. reflexivity.
Qed.
Lemma value_in_vars : forall P r f xs tvs, Forall2 (fun x tv => get x r = Ok tv) xs tvs ->
  value_in P r (Call f (map Arg xs)) = call P f tvs.
Proof.
  intros P r f xs tvs F. unfold value_in, call. rewrite (value_vars (api P) r f xs tvs F).
  destruct (dispatch (api P) f tvs) as [[[[t v] ps] outs]| |]; reflexivity.
Qed.

(** * Calls *)
Ltac run_concat E := lazy -[rust_call CONCAT_DATE CONCAT_TOD CONCAT_DT CONCAT_DATE_TOD p_chrono]; rewrite E; reflexivity.
Definition stamp (t : sty) (o : outcome Z) : outcome (sty * value) := omap (fun n => (t, VZ n)) o.

Lemma concat_date_call : forall P t y m d, List.In t wide_ints -> of_type t y -> of_type t m -> of_type t d ->
  call P "CONCAT_DATE" (ints t [y; m; d]) = stamp S_DATE (CONCAT_DATE (p_chrono P) y m d).
Proof.
  intros P t y m d T Y M D.
  assert (E : rust_call P (instance_name "CONCAT_DATE" [t]) [VZ y; VZ m; VZ d] = 
    obind (CONCAT_DATE (p_chrono P) y m d) (fun n => Ok (VZ n, [VZ y; VZ m; VZ d]))).
  { rewrite (concat_date_code P t _ T); [cbv [z3]; destruct (CONCAT_DATE (p_chrono P) y m d); reflexivity|].
    repeat (constructor; [eexists; split; [reflexivity|assumption]|]). constructor. }
  unfold wide_ints in T.
  repeat (destruct T as [<-|T]; [lazy -[rust_call CONCAT_DATE p_chrono] in E; lazy -[rust_call CONCAT_DATE p_chrono]; rewrite E;
    destruct (CONCAT_DATE (p_chrono P) y m d); reflexivity|]).
  destruct T.
Qed.
Lemma concat_tod_rust : forall P t h mi s ms, List.In t integers -> of_type t h -> of_type t mi -> of_type t s -> of_type t ms ->
  rust_call P (instance_name "CONCAT_TOD" [t]) [VZ h; VZ mi; VZ s; VZ ms] =
  obind (CONCAT_TOD (p_chrono P) h mi s ms) (fun n => Ok (VZ n, [VZ h; VZ mi; VZ s; VZ ms])).
Proof.
  intros P t h mi s ms T H1 H2 H3 H4. rewrite (concat_tod_code P t _ T); [cbv [z4]; destruct (CONCAT_TOD (p_chrono P) h mi s ms); reflexivity|].
  repeat (constructor; [eexists; split; [reflexivity|assumption]|]). constructor.
Qed.
Lemma invoke_assign : forall P k n m t ps e args, find_decl n = Some (Decl m false [] (Ty t) ps (Assign e)) ->
  invoke P (S k) n args =
  let names := map (fun p => fst (fst p)) ps in
  let r0 := ("@", (t, initial t)) :: combine names (combine (map (fun p => match snd p with Ty s => s | Var _ => t end) ps) args) in
  let! '(u, v, r) := value_of (invoke P k) r0 e in
  let! w := coerce u t v in
  let! outs := get_all names r in
  Ok (w, outs).
Proof. intros P k n m t ps e args F. cbn [invoke]. rewrite F. reflexivity. Qed.
Lemma invoke_external : forall P k n m t ps args, find_decl n = Some (Decl m true [] (Ty t) ps Empty) ->
  invoke P (S k) n args = rust_call P n args.
Proof. intros P k n m t ps args F. cbn [invoke]. rewrite F. reflexivity. Qed.
Lemma invoke_undeclared : forall P k n args, find_decl n = None -> invoke P (S k) n args = basic P n args.
Proof. intros P k n args F. cbn [invoke]. rewrite F. reflexivity. Qed.
Ltac plain_names :=
  match goal with |- context [basic ?P ?n ?a] => change (basic P n a) with (rust_call P n a) end;
  match goal with |- context [rust_call _ (instance_name ?f ?l) _] => let n := eval vm_compute in (instance_name f l) in change (instance_name f l) with n end.
Lemma ltod_api : forall P k t h mi s ms, List.In t integers ->
  invoke P (S (S k)) (instance_name "CONCAT_LTOD" [t]) [h; mi; s; ms] =
  let! '(v, _) := rust_call P (instance_name "CONCAT_TOD" [t]) [h; mi; s; ms] in Ok (v, [h; mi; s; ms]).
Proof.
  intros P k t h mi s ms T. unfold integers in T.
  repeat (destruct T as [<-|T]; [
    erewrite invoke_assign; [|vm_compute; reflexivity];
    cbv zeta; cbn [map fst snd combine];
    (erewrite (value_vars _ _ "CONCAT_TOD" ["hour"; "minute"; "second"; "millisecond"]); [|repeat (constructor; [reflexivity|]); constructor]);
    (erewrite dispatch_eq; [|vm_compute; reflexivity|vm_compute; reflexivity|reflexivity|vm_compute; reflexivity]);
    (erewrite invoke_undeclared; [|vm_compute; reflexivity]);
    plain_names; (destruct (rust_call P _ _) as [[v o]| |]; [|reflexivity..]); destruct o as [|? [|? [|? [|? ?]]]]; reflexivity|]).
  destruct T.
Qed.
Lemma concat_date_rust : forall P t y m d, List.In t wide_ints -> of_type t y -> of_type t m -> of_type t d ->
  rust_call P (instance_name "CONCAT_DATE" [t]) [VZ y; VZ m; VZ d] = 
    obind (CONCAT_DATE (p_chrono P) y m d) (fun n => Ok (VZ n, [VZ y; VZ m; VZ d])).
Proof.
  intros P t y m d T Y M D.
  rewrite (concat_date_code P t _ T); [cbv [z3]; destruct (CONCAT_DATE (p_chrono P) y m d); reflexivity|].
  repeat (constructor; [eexists; split; [reflexivity|assumption]|]). constructor.
Qed.
Lemma date_tod_rust : forall P a b, rust_call P "CONCAT_DATE_TOD" [VZ a; VZ b] =
  obind (CONCAT_DATE_TOD (p_chrono P) a b) (fun n => Ok (VZ n, [VZ a; VZ b])).
Proof. intros P a b. name_of. cbv [z2]. destruct (CONCAT_DATE_TOD (p_chrono P) a b); reflexivity. Qed.
Lemma wide_ints_integers : forall t, List.In t wide_ints -> List.In t integers.
Proof.
  intros t T. unfold wide_ints in T. repeat (destruct T as [<-|T]; [cbn; tauto|]). destruct T.
Qed.

Ltac norm_name H := match type of H with context [instance_name ?f ?l] => let n := eval vm_compute in (instance_name f l) in change (instance_name f l) with n in H end.
Ltac by_dispatch H := norm_name H;
  (erewrite dispatch_eq; [|vm_compute; reflexivity|vm_compute; reflexivity|reflexivity|vm_compute; reflexivity]);
  rewrite H; match goal with |- context [obind (obind ?o _) _] => destruct o; reflexivity end.
Lemma concat_tod_call : forall P t h mi s ms, List.In t integers -> of_type t h -> of_type t mi -> of_type t s -> of_type t ms ->
  call P "CONCAT_TOD" (ints t [h; mi; s; ms]) = stamp S_TOD (CONCAT_TOD (p_chrono P) h mi s ms) /\
  call P "CONCAT_LTOD" (ints t [h; mi; s; ms]) = stamp S_LTOD (CONCAT_TOD (p_chrono P) h mi s ms).
Proof.
  intros P t h mi s ms T H1 H2 H3 H4. pose proof (concat_tod_rust P t h mi s ms T H1 H2 H3 H4) as E. clear H1 H2 H3 H4.
  assert (A : api P (instance_name "CONCAT_LTOD" [t]) [VZ h; VZ mi; VZ s; VZ ms] =
    obind (CONCAT_TOD (p_chrono P) h mi s ms) (fun n => Ok (VZ n, [VZ h; VZ mi; VZ s; VZ ms]))).
  { unfold api. rewrite (ltod_api P 3 t) by exact T. rewrite E. destruct (CONCAT_TOD (p_chrono P) h mi s ms); reflexivity. }
  assert (B : api P (instance_name "CONCAT_TOD" [t]) [VZ h; VZ mi; VZ s; VZ ms] = 
    obind (CONCAT_TOD (p_chrono P) h mi s ms) (fun n => Ok (VZ n, [VZ h; VZ mi; VZ s; VZ ms]))).
  { rewrite <- E. clear A E. unfold integers in T. repeat (destruct T as [<-|T]; [reflexivity|]). destruct T. }
  clear E. unfold call, ints, integers in *. cbn [map].
  repeat (destruct T as [<-|T]; [split; [by_dispatch B|by_dispatch A]|]). destruct T.
Qed.

(** Calls without output parameters, at any depth. *)
Definition pure (inv : string -> list value -> outcome (value * list value)) (f : string) (l : list (sty * value)) (u : sty)
    (o : outcome Z) : Prop :=
  exists ps outs, dispatch inv f l = obind o (fun n => Ok (u, VZ n, ps, outs)) /\ Forall (fun p : string * pkind * tyref => snd (fst p) = Input) ps.
Lemma copy_out_inputs : forall (V : Type) ps args (outs : list V) r, Forall (fun p : string * pkind * tyref => snd (fst p) = Input) ps ->
  copy_out ps args outs r = r.
Proof.
  intros V ps args outs r F. revert args outs. induction F as [|[[x k] t] ps E F IH]; intros [|a args] [|o outs]; try reflexivity.
  cbn [copy_out]. cbn in E. subst k. apply IH.
Qed.
Lemma pure_value : forall inv f xs l u o r, Forall2 (fun x tv => get x r = Ok tv) xs l -> pure inv f l u o ->
  value_of inv r (Call f (map Arg xs)) = obind o (fun n => Ok (u, VZ n, r)).
Proof.
  intros inv f xs l u o r F (ps & outs & E & I). rewrite (value_vars inv r f xs l F), E.
  destruct o as [n| |]; [|reflexivity..]. cbn [obind]. now rewrite copy_out_inputs.
Qed.
Ltac by_pure H := norm_name H; eexists; eexists; split;
  [(erewrite dispatch_eq; [|vm_compute; reflexivity|vm_compute; reflexivity|reflexivity|vm_compute; reflexivity]);
   rewrite H; match goal with |- context [obind (obind ?o _) _] => destruct o; reflexivity end
  |repeat constructor].
Lemma date_pure : forall P k t y m d, List.In t wide_ints -> of_type t y -> of_type t m -> of_type t d ->
  pure (invoke P (S k)) "CONCAT_DATE" (ints t [y; m; d]) S_DATE (CONCAT_DATE (p_chrono P) y m d).
Proof.
  intros P k t y m d T Y M D.
  assert (B : invoke P (S k) (instance_name "CONCAT_DATE" [t]) [VZ y; VZ m; VZ d] = 
    obind (CONCAT_DATE (p_chrono P) y m d) (fun n => Ok (VZ n, [VZ y; VZ m; VZ d]))).
  { rewrite <- (concat_date_rust P t y m d T Y M D). unfold wide_ints in T. repeat (destruct T as [<-|T]; [reflexivity|]). destruct T. }
  unfold ints, wide_ints in *. cbn [map].
  repeat (destruct T as [<-|T]; [by_pure B|]). destruct T.
Qed.
Lemma tod_pure : forall P k t h mi s ms, List.In t integers -> of_type t h -> of_type t mi -> of_type t s -> of_type t ms ->
  pure (invoke P (S k)) "CONCAT_TOD" (ints t [h; mi; s; ms]) S_TOD (CONCAT_TOD (p_chrono P) h mi s ms).
Proof.
  intros P k t h mi s ms T H1 H2 H3 H4.
  assert (B : invoke P (S k) (instance_name "CONCAT_TOD" [t]) [VZ h; VZ mi; VZ s; VZ ms] = 
    obind (CONCAT_TOD (p_chrono P) h mi s ms) (fun n => Ok (VZ n, [VZ h; VZ mi; VZ s; VZ ms]))).
  { rewrite <- (concat_tod_rust P t h mi s ms T H1 H2 H3 H4). unfold integers in T. repeat (destruct T as [<-|T]; [reflexivity|]). destruct T. }
  unfold ints, integers in *. cbn [map].
  repeat (destruct T as [<-|T]; [by_pure B|]). destruct T.
Qed.
Lemma ltod_pure : forall P k t h mi s ms, List.In t integers -> of_type t h -> of_type t mi -> of_type t s -> of_type t ms ->
  pure (invoke P (S (S k))) "CONCAT_LTOD" (ints t [h; mi; s; ms]) S_LTOD (CONCAT_TOD (p_chrono P) h mi s ms).
Proof.
  intros P k t h mi s ms T H1 H2 H3 H4.
  assert (B : invoke P (S (S k)) (instance_name "CONCAT_LTOD" [t]) [VZ h; VZ mi; VZ s; VZ ms] = 
    obind (CONCAT_TOD (p_chrono P) h mi s ms) (fun n => Ok (VZ n, [VZ h; VZ mi; VZ s; VZ ms]))).
  { rewrite (ltod_api P k t) by exact T. rewrite (concat_tod_rust P t h mi s ms T H1 H2 H3 H4).
    destruct (CONCAT_TOD (p_chrono P) h mi s ms); reflexivity. }
  unfold ints, integers in *. cbn [map].
  repeat (destruct T as [<-|T]; [by_pure B|]). destruct T.
Qed.
Lemma date_tod_pure : forall P k a b, pure (invoke P (S k)) "CONCAT_DATE_TOD" [(S_DATE, VZ a); (S_TOD, VZ b)] S_DT (CONCAT_DATE_TOD (p_chrono P) a b).
Proof.
  intros P k a b.
  assert (B : invoke P (S k) "CONCAT_DATE_TOD" [VZ a; VZ b] = obind (CONCAT_DATE_TOD (p_chrono P) a b) (fun n => Ok (VZ n, [VZ a; VZ b]))).
  { rewrite <- date_tod_rust. reflexivity. }
  eexists; eexists; split;
  [(erewrite dispatch_eq; [|vm_compute; reflexivity|vm_compute; reflexivity|reflexivity|vm_compute; reflexivity]);
   rewrite B; match goal with |- context [obind (obind ?o _) _] => destruct o; reflexivity end
  |repeat constructor].
Qed.
Lemma date_ltod_pure : forall P k a b, pure (invoke P (S (S k))) "CONCAT_DATE_LTOD" [(S_DATE, VZ a); (S_LTOD, VZ b)] S_DT (CONCAT_DATE_TOD (p_chrono P) a b).
Proof.
  intros P k a b.
  assert (B : invoke P (S (S k)) "CONCAT_DATE_LTOD" [VZ a; VZ b] = obind (CONCAT_DATE_TOD (p_chrono P) a b) (fun n => Ok (VZ n, [VZ a; VZ b]))).
  { erewrite invoke_assign; [|vm_compute; reflexivity]. cbv zeta. cbn [map fst snd combine].
    assert (X : value_of (invoke P (S k)) [("@", (S_DT, initial S_DT)); ("date_input", (S_DATE, VZ a)); ("tod_input", (S_LTOD, VZ b))]
      (Call "CONCAT_DATE_TOD" (map Arg ["date_input"; "tod_input"])) =
      obind (CONCAT_DATE_TOD (p_chrono P) a b) (fun n => Ok (S_DT, VZ n, [("@", (S_DT, initial S_DT)); ("date_input", (S_DATE, VZ a)); ("tod_input", (S_LTOD, VZ b))]))).
    { apply (pure_value _ _ _ [(S_DATE, VZ a); (S_LTOD, VZ b)]); [repeat (constructor; [reflexivity|]); constructor|].
      assert (B : invoke P (S k) "CONCAT_DATE_TOD" [VZ a; VZ b] = obind (CONCAT_DATE_TOD (p_chrono P) a b) (fun n => Ok (VZ n, [VZ a; VZ b]))).
      { rewrite <- date_tod_rust. reflexivity. }
      eexists; eexists; split;
      [(erewrite dispatch_eq; [|vm_compute; reflexivity|vm_compute; reflexivity|reflexivity|vm_compute; reflexivity]);
       rewrite B; match goal with |- context [obind (obind ?o _) _] => destruct o; reflexivity end
      |repeat constructor]. }
    cbn [map] in X. rewrite X. destruct (CONCAT_DATE_TOD (p_chrono P) a b); reflexivity. }
  eexists; eexists; split;
  [(erewrite dispatch_eq; [|vm_compute; reflexivity|vm_compute; reflexivity|reflexivity|vm_compute; reflexivity]);
   rewrite B; match goal with |- context [obind (obind ?o _) _] => destruct o; reflexivity end
  |repeat constructor].
Qed.
Lemma two_pure : forall inv r f a b u1 u2 u o1 o2 g,
  value_of inv r a = obind o1 (fun n => Ok (u1, VZ n, r)) -> value_of inv r b = obind o2 (fun n => Ok (u2, VZ n, r)) ->
  (forall x y, pure inv f [(u1, VZ x); (u2, VZ y)] u (g x y)) ->
  value_of inv r (Call f [a; b]) = obind o1 (fun x => obind o2 (fun y => obind (g x y) (fun n => Ok (u, VZ n, r)))).
Proof.
  intros inv r f a b u1 u2 u o1 o2 g A B G. destruct o1 as [x| |].
  - cbn [obind] in *. rewrite (value_two inv r f a b _ A), B. destruct o2 as [y| |]; [|reflexivity..]. cbn [obind].
    destruct (G x y) as (ps & outs & E & I). rewrite E. destruct (g x y); [|reflexivity..]. cbn [obind]. now rewrite copy_out_inputs.
  - exact (proj1 (value_fail inv r f a b) A).
  - exact (proj2 (value_fail inv r f a b) A).
Qed.
Lemma dt_api : forall P k t y m d h mi s ms, List.In t wide_ints -> Forall (of_type t) [y; m; d; h; mi; s; ms] ->
  let args := [VZ y; VZ m; VZ d; VZ h; VZ mi; VZ s; VZ ms] in
  invoke P (S (S k)) (instance_name "CONCAT_DT" [t]) args = obind (CONCAT_DT (p_chrono P) y m d h mi s ms) (fun n => Ok (VZ n, args)) /\
  invoke P (S (S (S k))) (instance_name "CONCAT_LDT" [t]) args = obind (CONCAT_DT (p_chrono P) y m d h mi s ms) (fun n => Ok (VZ n, args)).
Proof.
  intros P k t y m d h mi s ms T F args. unfold args.
  inversion F as [|? ? F1 G]; subst. inversion G as [|? ? F2 G2]; subst. inversion G2 as [|? ? F3 G3]; subst.
  inversion G3 as [|? ? F4 G4]; subst. inversion G4 as [|? ? F5 G5]; subst. inversion G5 as [|? ? F6 G6]; subst.
  inversion G6 as [|? ? F7 G7]; subst. clear F G G2 G3 G4 G5 G6 G7.
  pose proof (fun k => date_pure P k t y m d T F1 F2 F3) as E1.
  pose proof (fun k => tod_pure P k t h mi s ms (wide_ints_integers t T) F4 F5 F6 F7) as E2.
  pose proof (fun k => ltod_pure P k t h mi s ms (wide_ints_integers t T) F4 F5 F6 F7) as E3. clear F1 F2 F3 F4 F5 F6 F7.
  assert (V : forall r, Forall2 (fun x tv => get x r = Ok tv) ["year"; "month"; "day"] (ints t [y; m; d]) ->
    Forall2 (fun x tv => get x r = Ok tv) ["hour"; "minute"; "second"; "millisecond"] (ints t [h; mi; s; ms]) ->
    value_of (invoke P (S k)) r (Call "CONCAT_DATE_TOD" [Call "CONCAT_DATE" (map Arg ["year"; "month"; "day"]); Call "CONCAT_TOD" (map Arg ["hour"; "minute"; "second"; "millisecond"])]) =
    obind (CONCAT_DT (p_chrono P) y m d h mi s ms) (fun n => Ok (S_DT, VZ n, r)) /\
    value_of (invoke P (S (S k))) r (Call "CONCAT_DATE_LTOD" [Call "CONCAT_DATE" (map Arg ["year"; "month"; "day"]); Call "CONCAT_LTOD" (map Arg ["hour"; "minute"; "second"; "millisecond"])]) =
    obind (CONCAT_DT (p_chrono P) y m d h mi s ms) (fun n => Ok (S_DT, VZ n, r))).
  { intros r V1 V2. unfold CONCAT_DT. split.
    - rewrite (two_pure _ r _ _ _ _ _ _ _ _ _ (pure_value _ _ _ _ _ _ r V1 (E1 k)) (pure_value _ _ _ _ _ _ r V2 (E2 k)) (date_tod_pure P k)).
      destruct (CONCAT_DATE (p_chrono P) y m d); [|reflexivity..]. cbn [obind]. destruct (CONCAT_TOD (p_chrono P) h mi s ms); reflexivity.
    - rewrite (two_pure _ r _ _ _ _ _ _ _ _ _ (pure_value _ _ _ _ _ _ r V1 (E1 (S k))) (pure_value _ _ _ _ _ _ r V2 (E3 k)) (date_ltod_pure P k)).
      destruct (CONCAT_DATE (p_chrono P) y m d); [|reflexivity..]. cbn [obind]. destruct (CONCAT_TOD (p_chrono P) h mi s ms); reflexivity. }
  clear E1 E2 E3. unfold wide_ints, ints in *.
  repeat (destruct T as [<-|T]; [
    split; (erewrite invoke_assign; [|vm_compute; reflexivity]); cbv zeta; cbn [map fst snd combine];
    match goal with |- context [value_of _ ?r _] => destruct (V r) as [V1 V2];
      [repeat (constructor; [reflexivity|]); constructor|repeat (constructor; [reflexivity|]); constructor|] end;
    cbn [map] in V1, V2; first [rewrite V1|rewrite V2];
    destruct (CONCAT_DT (p_chrono P) y m d h mi s ms); reflexivity|]).
  destruct T.
Qed.
Lemma concat_dt_call : forall P t y m d h mi s ms, List.In t wide_ints -> Forall (of_type t) [y; m; d; h; mi; s; ms] ->
  call P "CONCAT_DT" (ints t [y; m; d; h; mi; s; ms]) = stamp S_DT (CONCAT_DT (p_chrono P) y m d h mi s ms) /\
  call P "CONCAT_LDT" (ints t [y; m; d; h; mi; s; ms]) = stamp S_LDT (CONCAT_DT (p_chrono P) y m d h mi s ms).
Proof.
  intros P t y m d h mi s ms T F.
  pose proof (proj1 (dt_api P 3 t y m d h mi s ms T F)) as A. pose proof (proj2 (dt_api P 2 t y m d h mi s ms T F)) as B.
  change (invoke P 5) with (api P) in A, B. clear F. cbv zeta in A, B. unfold call, ints, wide_ints in *. cbn [map].
  repeat (destruct T as [<-|T]; [split; [by_dispatch A|by_dispatch B]|]). destruct T.
Qed.
