(** Proofs: the analysis of ProofApi.v for calls between functions, and its results for every function of the
    library. *)
From Coq Require Import String ZArith Lia List Bool SpecFloat.
From Verif Require Import Base ModelFloat ModelScalar ModelChrono ModelDate ModelTimeNum ModelArith ModelText ModelString
  ModelExtra ModelST ModelWrap ModelLink ModelLib ModelApi SpecScalar SpecTimeNum SpecLink SpecLib SpecSafe SpecApi
  ProofBase ProofSafe ProofSafe2 ProofApi.
Import ListNotations.
Open Scope list_scope.
Open Scope string_scope.
Open Scope Z_scope.

Definition is_bool (t : sty) : bool := match t with S_BOOL => true | _ => false end.
Definition stringb (t : sty) : bool := match t with S_STRING | S_WSTRING => true | _ => false end.
Definition same_ty (s t : sty) : bool := rty_eqb (repr s) (repr t) && Bool.eqb (is_bool s) (is_bool t).
Lemma rty_eqb_eq : forall a b, rty_eqb a b = true -> a = b.
Proof.
  induction a; intros [] H; try discriminate H; try reflexivity. cbn in H. apply andb_prop in H. destruct H as [A B].
  apply eqb_prop in A. apply IHa in B. now subst.
Qed.
Lemma holds_typed : forall t v, is_bool t = false -> stringb t = false -> holds t v <-> SpecSafe.typed (repr t) v.
Proof. intros [] v B S; try discriminate; reflexivity. Qed.
Lemma same_string : forall s t, repr s = repr t -> stringb s = stringb t.
Proof. intros [] [] E; try reflexivity; discriminate E. Qed.
Lemma same_holds : forall s t v, same_ty s t = true -> holds s v -> holds t v.
Proof.
  intros s t v H V. apply andb_prop in H. destruct H as [H B]. apply rty_eqb_eq in H. apply eqb_prop in B.
  destruct (is_bool s) eqn:Bs.
  - destruct s; try discriminate Bs. destruct t; try discriminate B. exact V.
  - destruct (stringb s) eqn:Ss; [destruct s; discriminate Ss || destruct V|].
    apply holds_typed; [now rewrite <- B|now rewrite <- (same_string s t H)|]. rewrite <- H. now apply holds_typed.
Qed.
(** Values of the two layers. *)
Lemma holds_val : forall t v, holds t v -> exists u x, st_type t = Some u /\ to_val v = Some x /\ v = of_val x /\ okval u x /\ wf u.
Proof.
  intros t v H.
  assert (F : forall f, binary_format f -> forall x, v = VF x -> fl_valid f x ->
    exists y, to_val v = Some y /\ v = of_val y /\ okval (TFloat f) y /\ wf (TFloat f)).
  { intros f B x -> V. exists (VFl x). now repeat split. }
  destruct t; cbn [holds repr] in H;
    try (destruct v as [z|x|m]; try (exfalso; exact H); try (destruct H; discriminate);
         first [exists T_BOOL, (VInt z); split; [reflexivity|]; split; [reflexivity|]; split; [reflexivity|]; split;
                  [destruct H as [H|H]; injection H as ->; [now left|now right]|exact I]
               |eexists _, (VInt z); split; [reflexivity|]; split; [reflexivity|]; split; [reflexivity|]; split; [exact H|reflexivity]
               |eexists _, (VFl x); split; [reflexivity|]; split; [reflexivity|]; split; [reflexivity|];
                  assert (B : binary_format F32 /\ binary_format F64) by (split; [now left|now right]);
                  first [split; [split; [exact (proj1 B)|exact H]|exact (proj1 B)]|split; [split; [exact (proj2 B)|exact H]|exact (proj2 B)]]]).
Qed.
Lemma val_holds : forall t u x, st_type t = Some u -> okval u x -> holds t (of_val x).
Proof.
  intros t u x E O. destruct t; try discriminate E; injection E as <-; destruct x as [z|y]; try (exfalso; exact O);
    try exact O; try exact (proj2 O). destruct O as [-> | ->]; [now left|now right].
Qed.

Definition a_coerce (s t : sty) : option effect :=
  if rty_eqb (repr s) (repr t) then if same_ty s t then Some pure else None
  else match st_type s, st_type t with Some a, Some b => Some (a_cast a b) | _, _ => None end.
Lemma st_type_wf : forall t u, st_type t = Some u -> wf u.
Proof. intros t u E. destruct t; try discriminate E; injection E as <-; first [exact I|reflexivity|now left|now right]. Qed.
Lemma coerce_sound : forall s t v e, holds s v -> a_coerce s t = Some e -> within e (holds t) (coerce s t v).
Proof.
  intros s t v e H A. unfold a_coerce in A. unfold coerce. destruct (rty_eqb (repr s) (repr t)).
  - destruct (same_ty s t) eqn:S; [|discriminate]. injection A as <-. exact (same_holds s t v S H).
  - destruct (holds_val s v H) as (u & x & Eu & -> & -> & O & W). rewrite Eu in *.
    destruct (st_type t) as [w|] eqn:Et; [|discriminate]. injection A as <-.
    pose proof (cast_sound u w x (st_type_wf t w Et) O) as C. unfold omap.
    destruct (st_cast u w x) as [y| |]; [|exact C|exact C]. exact (val_holds t w y Et C).
Qed.

Fixpoint a_coerce_all (ps : list (string * pkind * tyref)) (ts : list sty) : option (list sty * effect) :=
  match ps, ts with
  | [], [] => Some ([], pure)
  | (_, _, Ty t) :: ps', s :: ts' =>
      match a_coerce s t, a_coerce_all ps' ts' with
      | Some a, Some (us, b) => Some (t :: us, both a b)
      | _, _ => None
      end
  | (_, _, Var _) :: ps', s :: ts' => option_map (fun q => (s :: fst q, snd q)) (a_coerce_all ps' ts')
  | _, _ => None
  end.
Lemma coerce_all_sound : forall ps l us e, Forall (fun b => holds (fst b) (snd b)) l ->
  a_coerce_all ps (map fst l) = Some (us, e) -> within e (Forall2 holds us) (coerce_all ps l).
Proof.
  induction ps as [|[[x k] [t|y]] ps IH]; intros [|[s v] l] us e H A; cbn [a_coerce_all map fst] in A; try discriminate A.
  - injection A as <- <-. constructor.
  - inversion H; subst. destruct (a_coerce s t) as [a|] eqn:C; [|discriminate].
    destruct (a_coerce_all ps (map fst l)) as [[us' b]|] eqn:D; [|discriminate]. injection A as <- <-.
    cbn [coerce_all]. eapply within_bind; [apply coerce_sound; eassumption|]. intros w W. rewrite <- (both_pure_r b).
    eapply within_bind; [apply IH; eassumption|]. intros ws Ws. now constructor.
  - inversion H; subst. destruct (a_coerce_all ps (map fst l)) as [[us' b]|] eqn:D; [|discriminate].
    injection A as <- <-. cbn [coerce_all]. rewrite <- (both_pure_r b).
    eapply within_bind; [apply IH; eassumption|]. intros ws Ws. now constructor.
Qed.

(** [Some e]: a call of [n] with arguments of types [us] returns a value of type [t] within [e] and leaves values of
    the types [us] in its parameters. *)
Definition analysis := string -> list sty -> sty -> option effect.
Definition sound (inv : string -> list value -> outcome (value * list value)) (ainv : analysis) : Prop :=
  forall n us t e args, ainv n us t = Some e -> Forall2 holds us args ->
  within e (fun q => holds t (fst q) /\ Forall2 holds us (snd q)) (inv n args).

Definition result_type (d : decl) (n : string) (ps : list (string * pkind * tyref)) (ts : list sty) : option sty :=
  match (match find_decl n with Some d' => d_ret d' | None => d_ret d end) with
  | Ty t => Some t
  | Var x => infer x ps ts
  end.
Definition a_dispatch (ainv : analysis) (f : string) (ts : list sty)
    : option (sty * list sty * list (string * pkind * tyref) * effect) :=
  match find_decl f, resolve f ts with
  | Some d, Some n =>
      let ps := formals (d_params d) ts in
      match a_coerce_all ps ts, result_type d n ps ts with
      | Some (us, e1), Some t => option_map (fun e2 => (t, us, ps, both e1 e2)) (ainv n us t)
      | _, _ => None
      end
  | _, _ => None
  end.
Lemma dispatch_sound : forall inv ainv f l t us ps e, sound inv ainv -> Forall (fun b => holds (fst b) (snd b)) l ->
  a_dispatch ainv f (map fst l) = Some (t, us, ps, e) ->
  within e (fun q => let '(t', v, ps', outs) := q in t' = t /\ ps' = ps /\ holds t v /\ Forall2 holds us outs) (dispatch inv f l).
Proof.
  intros inv ainv f l t us ps e S H A. unfold a_dispatch in A. unfold dispatch. cbv zeta in *.
  destruct (find_decl f) as [d|]; [|discriminate]. destruct (resolve f (map fst l)) as [n|]; [|discriminate].
  destruct (a_coerce_all (formals (d_params d) (map fst l)) (map fst l)) as [[us' e1]|] eqn:C; [|discriminate].
  destruct (result_type d n (formals (d_params d) (map fst l)) (map fst l)) as [t'|] eqn:R; [|discriminate].
  destruct (ainv n us' t') as [e2|] eqn:I; [|discriminate]. injection A as <- <- <- <-.
  eapply within_bind; [exact (coerce_all_sound _ l us' e1 H C)|]. intros args Ha. rewrite <- (both_pure_r e2).
  eapply within_bind; [exact (S n us' t' e2 args I Ha)|]. intros [v outs] [V O]. cbn [fst snd] in *.
  unfold result_type in R. destruct (match find_decl n with Some d' => d_ret d' | None => d_ret d end) as [u|x].
  - injection R as <-. now repeat split.
  - rewrite R. now repeat split.
Qed.

(** Expressions. *)
Definition a_get (x : string) (g : list (string * sty)) : option sty := option_map snd (find (fun p => String.eqb (fst p) x) g).
Definition types_of (r : ModelLink.env value) : list (string * sty) := map (fun p => (fst p, fst (snd p))) r.
Definition good (r : ModelLink.env value) : Prop := Forall (fun p => holds (fst (snd p)) (snd (snd p))) r.
Lemma get_sound : forall x r t, good r -> a_get x (types_of r) = Some t -> exists v, get x r = Ok (t, v) /\ holds t v.
Proof.
  intros x r t G. unfold a_get, get. induction G as [|[y [u v]] r H G IH]; cbn [types_of map find fst snd]; [discriminate|].
  destruct (String.eqb y x); [|exact IH]. cbn [option_map snd]. intros E. injection E as <-. now exists v.
Qed.
Lemma put_types : forall x v r, types_of (ModelLink.put x v r) = types_of r.
Proof.
  intros x v r. unfold types_of, ModelLink.put. rewrite map_map. apply map_ext_in. intros [y [t w]] _. cbn [fst snd].
  destruct (String.eqb y x) eqn:E; [|reflexivity]. apply String.eqb_eq in E. now subst.
Qed.
(** All variables named [x] have a type with the values of [u]. *)
Definition may_put (x : string) (u : sty) (g : list (string * sty)) : bool :=
  forallb (fun p => implb (String.eqb (fst p) x) (same_ty u (snd p))) g.
Lemma put_good : forall x u v r, good r -> holds u v -> may_put x u (types_of r) = true -> good (ModelLink.put x v r).
Proof.
  intros x u v r G V M. unfold good, ModelLink.put. apply Forall_forall. intros p I. apply in_map_iff in I. destruct I as (q & <- & I).
  unfold good in G. rewrite Forall_forall in G. specialize (G q I). unfold may_put in M. rewrite forallb_forall in M.
  specialize (M (fst q, fst (snd q))). cbn [fst snd] in M. destruct (String.eqb (fst q) x) eqn:E; [|exact G].
  cbn [fst snd]. apply (same_holds u); [|exact V]. cbn [implb] in M. apply M. unfold types_of. apply in_map_iff.
  exists q. now split.
Qed.
Fixpoint a_copy (ps : list (string * pkind * tyref)) (args : list ModelLink.expr) (us : list sty) (g : list (string * sty)) : bool :=
  match ps, args, us with
  | (_, k, _) :: ps', a :: args', u :: us' =>
      a_copy ps' args' us' g &&
      match k, a with
      | Output, Arg x | InOut, Arg x => may_put x u g
      | Output, Result | InOut, Result => may_put "@" u g
      | _, _ => true
      end
  | _, _, _ => true
  end.
Lemma copy_sound : forall ps args us outs r, good r -> Forall2 holds us outs -> a_copy ps args us (types_of r) = true ->
  good (copy_out ps args outs r) /\ types_of (copy_out ps args outs r) = types_of r.
Proof.
  induction ps as [|[[x k] t] ps IH]; intros [|a args] us outs r G H A; try (split; [exact G|reflexivity]).
  destruct H as [|u v us outs V H]; [split; [exact G|reflexivity]|]. cbn [a_copy copy_out] in *. apply andb_prop in A. destruct A as [A B].
  destruct (IH args us outs r G H A) as [G' T'].
  assert (P : forall y, may_put y u (types_of r) = true ->
    good (ModelLink.put y v (copy_out ps args outs r)) /\ types_of (ModelLink.put y v (copy_out ps args outs r)) = types_of r).
  { intros y M. split; [|now rewrite put_types]. apply (put_good y u); [exact G'|exact V|now rewrite T']. }
  destruct k, a; try (split; assumption); now apply P.
Qed.
Fixpoint a_value (ainv : analysis) (g : list (string * sty)) (e : ModelLink.expr) : option (sty * effect) :=
  match e with
  | Arg x => option_map (fun t => (t, pure)) (a_get x g)
  | Result => option_map (fun t => (t, pure)) (a_get "@" g)
  | Call f args =>
      match (fix go (l : list ModelLink.expr) := match l with
             | [] => Some ([], pure)
             | a :: l' =>
                 match a_value ainv g a, go l' with
                 | Some (t, e1), Some (ts, e2) => Some (t :: ts, both e1 e2)
                 | _, _ => None
                 end
             end) args with
      | Some (ts, e1) =>
          match a_dispatch ainv f ts with
          | Some (t, us, ps, e2) => if a_copy ps args us g then Some (t, both e1 e2) else None
          | None => None
          end
      | None => None
      end
  end.
Fixpoint size (e : ModelLink.expr) : nat :=
  match e with Call _ l => S (fold_right (fun a n => size a + n)%nat 0%nat l) | _ => 1%nat end.
Lemma value_sound : forall inv ainv, sound inv ainv -> forall n e r t ef, (size e <= n)%nat -> good r ->
  a_value ainv (types_of r) e = Some (t, ef) ->
  within ef (fun q => let '(t', v, r') := q in t' = t /\ holds t v /\ good r' /\ types_of r' = types_of r) (value_of inv r e).
Proof.
  intros inv ainv S. induction n as [|n IH]; intros e r t ef L G A; [destruct e; inversion L|].
  destruct e as [x| |f args]; cbn [a_value value_of] in *.
  - destruct (a_get x (types_of r)) as [u|] eqn:E; [|discriminate]. injection A as <- <-.
    destruct (get_sound x r u G E) as (v & -> & H). now repeat split.
  - destruct (a_get "@" (types_of r)) as [u|] eqn:E; [|discriminate]. injection A as <- <-.
    destruct (get_sound "@" r u G E) as (v & -> & H). now repeat split.
  - revert A. set (go := fix go (l : list ModelLink.expr) := match l with [] => _ | a :: l' => _ end).
    set (ev := fix ev (l : list ModelLink.expr) : outcome (list (sty * value)) := match l with [] => _ | a :: l' => _ end).
    assert (H : forall l ts e1, (fold_right (fun a n => size a + n)%nat 0%nat l <= n)%nat -> go l = Some (ts, e1) ->
      within e1 (fun bs => map fst bs = ts /\ Forall (fun b => holds (fst b) (snd b)) bs) (ev l)).
    { intros l. induction l as [|a l IHl]; intros ts e1 Ll Gl; cbn [go] in Gl.
      - injection Gl as <- <-. split; [reflexivity|constructor].
      - cbn [fold_right] in Ll. destruct (a_value ainv (types_of r) a) as [[s x1]|] eqn:Ea; [|discriminate].
        destruct (go l) as [[ts' x2]|] eqn:El; [|discriminate]. injection Gl as <- <-. cbn [ev].
        eapply within_bind; [exact (IH a r s x1 ltac:(lia) G Ea)|]. intros [[s' v] r'] (-> & V & _ & _).
        rewrite <- (both_pure_r x2).
        eapply within_bind; [exact (IHl ts' x2 ltac:(lia) eq_refl)|]. intros bs [M B]. cbn. split; [now rewrite M|now constructor]. }
    intros A. cbn [size] in L. destruct (go args) as [[ts e1]|] eqn:Eg; [|discriminate].
    destruct (a_dispatch ainv f ts) as [[[[u us] ps] e2]|] eqn:Ed; [|discriminate].
    destruct (a_copy ps args us (types_of r)) eqn:Ec; [|discriminate]. injection A as <- <-.
    eapply within_bind; [exact (H args ts e1 ltac:(lia) Eg)|]. intros bs [M B]. rewrite <- M in Ed.
    rewrite <- (both_pure_r e2).
    eapply within_bind; [exact (dispatch_sound inv ainv f bs u us ps e2 S B Ed)|].
    intros [[[t' v] ps'] outs] (-> & -> & V & O). cbn. destruct (copy_sound ps args us outs r G O Ec) as [G' T'].
    now repeat split.
Qed.

(** * Rust functions *)
Definition target (t : rty) : rty := match t with Ptr _ u => u | _ => t end.
Definition compat (u : sty) (r : rty) : bool :=
  negb (stringb u) && rty_eqb (if is_bool u then RBool else repr u) (target r).
Lemma typed_target : forall r v, SpecSafe.typed r v <-> SpecSafe.typed (target r) v.
Proof. intros [] v; reflexivity. Qed.
Lemma compat_holds : forall u r v, compat u r = true -> holds u v <-> SpecSafe.typed r v.
Proof.
  intros u r v C. apply andb_prop in C. destruct C as [S C]. apply negb_true_iff in S. apply rty_eqb_eq in C.
  rewrite typed_target, <- C. destruct (is_bool u) eqn:B; [|now apply holds_typed].
  destruct u; try discriminate B. cbn. split.
  - intros [-> | ->]; [now left|now right].
  - destruct v as [z|x|m]; try (intros F; exfalso; exact F). intros [-> | ->]; [now left|now right].
Qed.
Fixpoint compats (us : list sty) (rs : list rty) : bool :=
  match us, rs with
  | [], [] => true
  | u :: us', r :: rs' => compat u r && compats us' rs'
  | _, _ => false
  end.
Lemma compats_holds : forall us rs l, compats us rs = true -> Forall2 holds us l <-> Forall2 SpecSafe.typed rs l.
Proof.
  induction us as [|u us IH]; intros [|r rs] l C; try discriminate C.
  - split; intros H; inversion H; constructor.
  - cbn [compats] in C. apply andb_prop in C. destruct C as [C D]. split; intros H; inversion H; subst; constructor;
      try (apply (compat_holds u r); assumption); now apply (IH rs).
Qed.
Lemma limit_bool : forall P a b c, holds S_BOOL a -> holds S_BOOL b -> holds S_BOOL c ->
  within pure (fun q => holds S_BOOL (fst q) /\ Forall2 holds [S_BOOL; S_BOOL; S_BOOL] (snd q)) (rust_call P "LIMIT__BOOL" [a; b; c]).
Proof.
  assert (F : forall a b c, holds S_BOOL a -> holds S_BOOL b -> holds S_BOOL c -> Forall2 holds [S_BOOL; S_BOOL; S_BOOL] [a; b; c])
    by (intros; repeat (constructor; [assumption|]); constructor).
  intros P a b c A B C. pose proof (F a b c A B C) as G.
  destruct A as [-> | ->], B as [-> | ->], C as [-> | ->];
    match goal with |- within _ _ ?T => let v := eval vm_compute in T in change T with v end;
    (split; [first [now left|now right]|exact G]).
Qed.
Definition symbol_of (n : string) : option symbol := find (fun s => String.eqb (sy_name s) n) rust_symbols.
Definition a_rust (p : profile) : analysis := fun n us t =>
  match find_code n with
  | None => Some (Eff false true)
  | Some _ =>
      if String.eqb n "LIMIT__BOOL" then
        match us, t with [S_BOOL; S_BOOL; S_BOOL], S_BOOL => Some pure | _, _ => None end
      else
      match symbol_of n with
      | Some s =>
          if numeric s && match array (sy_params s) with None => true | Some _ => false end &&
             compats us (sy_params s) && compat t (sy_ret s)
          then Some (Eff (aborts n p) false) else None
      | None => None
      end
  end.
Lemma rust_sound : forall P, sane P -> sound (rust_call P) (a_rust (p_profile P)).
Proof.
  intros P SP n us t e args A H. unfold a_rust in A. destruct (find_code n) as [c|] eqn:Ec.
  - destruct (String.eqb n "LIMIT__BOOL") eqn:Eb.
    { apply String.eqb_eq in Eb. subst n. destruct us as [|u us]; [discriminate A|].
      destruct u; try discriminate A. destruct us as [|u us]; [discriminate A|]. destruct u; try discriminate A.
      destruct us as [|u us]; [discriminate A|]. destruct u; try discriminate A. destruct us as [|u us]; [|discriminate A].
      destruct t; try discriminate A.
      injection A as <-. inversion H as [|? a ? ? V1 H1]; subst. inversion H1 as [|? b ? ? V2 H2]; subst.
      inversion H2 as [|? c' ? ? V3 H3]; subst. inversion H3; subst. exact (limit_bool P a b c' V1 V2 V3). }
    destruct (symbol_of n) as [s|] eqn:Es; [|discriminate]. unfold symbol_of in Es. apply find_some in Es.
    destruct Es as [I En]. apply String.eqb_eq in En.
    destruct (numeric s) eqn:N; [|discriminate]. destruct (array (sy_params s)) eqn:Ar; [discriminate|].
    destruct (compats us (sy_params s)) eqn:C1; [|discriminate]. destruct (compat t (sy_ret s)) eqn:C2; [|discriminate].
    cbn [andb] in A. injection A as <-.
    assert (Ha : arguments s args). { unfold arguments. rewrite Ar. now apply (compats_holds us). }
    pose proof (all_symbols s I N P args SP Ha) as K. rewrite En in K.
    destruct (rust_call P n args) as [[v a]| |].
    + destruct K as [K1 K2]. split; [now apply (compat_holds t (sy_ret s))|]. unfold arguments in K2. rewrite Ar in K2.
      now apply (compats_holds us (sy_params s)).
    + apply existsb_exists. exists n. split; [exact K|apply String.eqb_refl].
    + destruct K.
  - injection A as <-. unfold rust_call. rewrite Ec. reflexivity.
Qed.

(** * Structured Text functions *)
Definition ity_same (a b : ity) : bool := Bool.eqb (it_signed a) (it_signed b) && (it_bits a =? it_bits b).
Definition st_same (a b : st_ty) : bool :=
  match a, b with
  | TBool, TBool => true
  | TInt i, TInt j => ity_same i j
  | TFloat f, TFloat g => (f_mw f =? f_mw g) && (f_ew f =? f_ew g)
  | _, _ => false
  end.
Lemma st_same_eq : forall a b, st_same a b = true -> a = b.
Proof.
  intros [|[sa wa]|[ma ea]] [|[sb wb]|[mb eb]] H; try discriminate H; try reflexivity;
    apply andb_prop in H; destruct H as [A B]; cbn in A, B.
  - apply eqb_prop in A. apply Z.eqb_eq in B. now subst.
  - apply Z.eqb_eq in A, B. now subst.
Qed.
Fixpoint st_types (us : list sty) : option (list st_ty) :=
  match us with
  | [] => Some []
  | u :: us' => match st_type u, st_types us' with Some t, Some ts => Some (t :: ts) | _, _ => None end
  end.
Fixpoint all_same {A} (eq : A -> A -> bool) (l m : list A) : bool :=
  match l, m with
  | [], [] => true
  | a :: l', b :: m' => eq a b && all_same eq l' m'
  | _, _ => false
  end.
Lemma all_same_eq : forall l m, all_same st_same l m = true -> l = m.
Proof.
  induction l as [|a l IH]; intros [|b m] H; try discriminate H; [reflexivity|]. cbn in H. apply andb_prop in H. destruct H as [A B].
  f_equal; [now apply st_same_eq|now apply IH].
Qed.
Definition declared (n : string) : list st_ty :=
  match find_fun n, find_ext n with
  | Some f, _ => map snd (fn_args f) | None, Some e => ex_args e | _, _ => [] end.
Definition a_st : analysis := fun n us t =>
  match st_types us with
  | Some ts =>
      if all_same st_same ts (declared n) then
        match a_call 3 n ts, st_type t with
        | Some (r, e), Some r' => if st_same r r' then Some e else None
        | _, _ => None
        end
      else None
  | None => None
  end.
Lemma values_of : forall us args ts, Forall2 holds us args -> st_types us = Some ts ->
  exists l, all_some (map to_val args) = Some l /\ map fst (combine ts l) = ts /\ Forall okpair (combine ts l) /\
    Forall (fun b => wf (fst b)) (combine ts l).
Proof.
  intros us args ts H. revert ts. induction H as [|u v us args V H IH]; intros ts E; cbn [st_types] in E.
  - injection E as <-. exists []. repeat split; constructor.
  - destruct (st_type u) as [t|] eqn:Et; [|discriminate]. destruct (st_types us) as [ts'|]; [|discriminate]. injection E as <-.
    destruct (IH ts' eq_refl) as (l & L & M & O & W). destruct (holds_val u v V) as (t' & x & Eu & Ex & _ & Ox & Wx).
    rewrite Et in Eu. injection Eu as <-. exists (x :: l). cbn [map all_some]. rewrite Ex, L. repeat split.
    + cbn [combine map fst]. now rewrite M.
    + cbn [combine]. now constructor.
    + cbn [combine]. now constructor.
Qed.
Lemma st_sound : forall P, sound (fun n args => match all_some (map to_val args) with
                          | Some l => let! r := st_call (p_chrono P) n l in Ok (of_val r, args)
                          | None => Ub
                          end) a_st.
Proof.
  intros P n us t e args A H. unfold a_st in A. destruct (st_types us) as [ts|] eqn:Et; [|discriminate].
  destruct (all_same st_same ts (declared n)) eqn:S; [|discriminate]. apply all_same_eq in S.
  destruct (a_call 3 n ts) as [[r e']|] eqn:C; [|discriminate]. destruct (st_type t) as [r'|] eqn:Er; [|discriminate].
  destruct (st_same r r') eqn:R; [|discriminate]. apply st_same_eq in R. subst r'. injection A as <-.
  destruct (values_of us args ts H Et) as (l & -> & M & O & W). unfold st_call. fold (declared n). rewrite <- S.
  rewrite <- M in C. pose proof (call_sound (p_chrono P) 3 n (combine ts l) r e' O W C) as K.
  destruct (st_call_fuel 3 (p_chrono P) n (combine ts l)) as [[u v]| |]; [|exact K|exact K].
  destruct K as [K0 K]. cbn [fst] in K0. subst u. split; [|exact H]. exact (val_holds t r v Er K).
Qed.
Definition a_basic (p : profile) : analysis := fun n us t =>
  match find_code n with
  | Some _ => a_rust p n us t
  | None => match find (fun e => String.eqb (fst e) n) text_functions with Some _ => None | None => a_st n us t end
  end.
Lemma basic_sound : forall P, sane P -> sound (basic P) (a_basic (p_profile P)).
Proof.
  intros P SP n us t e args A H. unfold a_basic in A. unfold basic. destruct (find_code n) as [c|] eqn:Ec.
  - exact (rust_sound P SP n us t e args A H).
  - destruct (find (fun e0 => String.eqb (fst e0) n) text_functions); [discriminate|]. exact (st_sound P n us t e args A H).
Qed.

(** * Calls *)
Definition names_of (ps : list (string * pkind * tyref)) : list string := map (fun p => fst (fst p)) ps.
Fixpoint a_gets (names : list string) (ts : list sty) (g : list (string * sty)) : bool :=
  match names, ts with
  | [], [] => true
  | x :: names', t :: ts' => match a_get x g with Some u => same_ty u t | None => false end && a_gets names' ts' g
  | _, _ => false
  end.
Lemma gets_sound : forall names ts r, good r -> a_gets names ts (types_of r) = true ->
  exists vs, get_all names r = Ok vs /\ Forall2 holds ts vs.
Proof.
  induction names as [|x names IH]; intros [|t ts] r G A; try discriminate A.
  - exists []. now split.
  - cbn [a_gets] in A. apply andb_prop in A. destruct A as [A B]. destruct (a_get x (types_of r)) as [u|] eqn:E; [|discriminate].
    destruct (get_sound x r u G E) as (v & K & V). destruct (IH ts r G B) as (vs & L & F).
    exists (v :: vs). cbn [get_all]. rewrite K. cbn [obind]. rewrite L. split; [reflexivity|]. constructor; [|exact F].
    exact (same_holds u t v A V).
Qed.
Fixpoint a_invoke (p : profile) (fuel : nat) : analysis := fun n us t =>
  match fuel with
  | O => None
  | S k =>
      match find_decl n with
      | Some (Decl _ false [] (Ty t0) ps b) =>
          let types := map (fun q => match snd q with Ty s => s | Var _ => t0 end) ps in
          let names := names_of ps in
          let g := ("@", t0) :: combine names types in
          match b with
          | Assign e =>
              if all_same same_ty us types && same_ty t0 t && a_gets names us g && negb (stringb t0) then
                match a_value (a_invoke p k) g e with
                | Some (u, e1) => option_map (fun e2 => both e1 e2) (a_coerce u t0)
                | None => None
                end
              else None
          | Do e =>
              if all_same same_ty us types && same_ty t0 t && a_gets names us g && negb (stringb t0) then
                option_map snd (a_value (a_invoke p k) g e)
              else None
          | _ => a_basic p n us t
          end
      | Some (Decl _ true _ _ _ _) => a_rust p n us t
      | _ => a_basic p n us t
      end
  end.
Lemma initial_holds : forall t, stringb t = false -> holds t (initial t).
Proof.
  intros t S. destruct t; try discriminate S; cbn;
    first [now left|now split|exact I|reflexivity|split; discriminate].
Qed.
Lemma env_good : forall t0 us names types args, stringb t0 = false -> all_same same_ty us types = true -> Forall2 holds us args ->
  good (("@", (t0, initial t0)) :: combine names (combine types args)).
Proof.
  intros t0 us names types args S A H. constructor; [now apply initial_holds|]. revert names types A.
  induction H as [|u v us args V H IH]; intros names [|t types] A; try discriminate A.
  - destruct names; constructor.
  - cbn in A. apply andb_prop in A. destruct A as [A B]. destruct names as [|x names]; [constructor|]. cbn [combine].
    constructor; [exact (same_holds u t v A V)|]. now apply IH.
Qed.
Lemma env_types_of : forall t0 v0 us names types args, all_same same_ty us types = true -> Forall2 holds us args ->
  types_of (("@", (t0, v0)) :: combine names (combine types args)) = ("@", t0) :: combine names types.
Proof.
  intros t0 v0 us names types args A H. cbn [types_of map fst snd]. f_equal. revert names types A.
  induction H as [|u v us args V H IH]; intros names [|t types] A; try discriminate A.
  - destruct names; reflexivity.
  - cbn in A. apply andb_prop in A. destruct A as [A B]. destruct names as [|x names]; [reflexivity|].
    cbn [combine map fst snd]. f_equal. now apply IH.
Qed.
Lemma a_get_result : forall t0 g, a_get "@" (("@", t0) :: g) = Some t0. Proof. reflexivity. Qed.
Lemma invoke_sound : forall P, sane P -> forall k, sound (invoke P k) (a_invoke (p_profile P) k).
Proof.
  intros P SP. induction k as [|k IH]; intros n us t e args A H; [discriminate|]. cbn [a_invoke invoke] in *.
  destruct (find_decl n) as [[nm [] gen ret ps b]|]; [exact (rust_sound P SP n us t e args A H)| |exact (basic_sound P SP n us t e args A H)].
  destruct gen as [|g0 gen]; [|exact (basic_sound P SP n us t e args A H)].
  destruct ret as [t0|x]; [|exact (basic_sound P SP n us t e args A H)]. cbv zeta in *. unfold names_of in A.
  destruct b as [|ee|ee|]; try exact (basic_sound P SP n us t e args A H).
  all: revert A; match goal with |- (if all_same same_ty _ ?TY && _ && _ && _ then _ else _) = _ -> _ => set (types := TY) in * end; intros A;
    destruct (all_same same_ty us types) eqn:S1; [|discriminate]; destruct (same_ty t0 t) eqn:S2; [|discriminate];
    match type of A with (if true && true && ?G && _ then _ else _) = _ => destruct G eqn:S3; [|discriminate] end;
    destruct (stringb t0) eqn:S4; [discriminate|]; cbn [andb negb] in A; set (names := map (fun p => fst (fst p)) ps) in *;
    pose proof (env_good t0 us names types args S4 S1 H) as G; pose proof (env_types_of t0 (initial t0) us names types args S1 H) as T;
    rewrite <- T in A, S3.
  - destruct (a_value _ _ ee) as [[u e1]|] eqn:E; [|discriminate]. destruct (a_coerce u t0) as [e2|] eqn:C; [|discriminate]. injection A as <-.
    eapply within_bind; [exact (value_sound _ _ IH (size ee) ee _ u e1 (le_n _) G E)|]. intros [[u' v] r] (-> & V & G' & T').
    rewrite <- (both_pure_r e2). eapply within_bind; [exact (coerce_sound u t0 v e2 V C)|]. intros w W. rewrite <- T' in S3.
    destruct (gets_sound names us r G' S3) as (vs & -> & F). cbn. split; [exact (same_holds t0 t w S2 W)|exact F].
  - destruct (a_value _ _ ee) as [[u e1]|] eqn:E; [|discriminate]. injection A as <-. rewrite <- (both_pure_r e1).
    eapply within_bind; [exact (value_sound _ _ IH (size ee) ee _ u e1 (le_n _) G E)|]. intros [[u' v] r] (-> & V & G' & T').
    destruct (get_sound "@" r t0 G') as (w & -> & W); [now rewrite T', T|]. rewrite <- T' in S3.
    cbn [obind]. destruct (gets_sound names us r G' S3) as (vs & -> & F). cbn. split; [exact (same_holds t0 t w S2 W)|exact F].
Qed.
