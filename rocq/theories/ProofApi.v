(** Proofs: a type and effect analysis of the ST functions, its soundness, and the result for every function of
    the library. *)
From Coq Require Import String ZArith Lia List Bool SpecFloat.
From Verif Require Import Base ModelFloat ModelScalar ModelChrono ModelDate ModelTimeNum ModelArith ModelText ModelString
  ModelExtra ModelST ModelWrap ModelLink ModelLib ModelApi SpecScalar SpecTimeNum SpecLink SpecLib SpecSafe SpecApi
  ProofBase ProofSafe ProofSafe2.
Import ListNotations.
Open Scope list_scope.
Open Scope string_scope.
Open Scope Z_scope.

(** What an outcome may be besides a value. *)
Record effect := Eff { e_panic : bool; e_ub : bool }.
Definition pure : effect := Eff false false.
Definition both (a b : effect) : effect := Eff (e_panic a || e_panic b) (e_ub a || e_ub b).
Definition within {A} (e : effect) (Q : A -> Prop) (o : outcome A) : Prop :=
  match o with Ok a => Q a | Panic => e_panic e = true | Ub => e_ub e = true end.
Definition leb_eff (a b : effect) : bool := implb (e_panic a) (e_panic b) && implb (e_ub a) (e_ub b).

Lemma within_bind : forall A B e1 e2 (Q : A -> Prop) (R : B -> Prop) o g,
  within e1 Q o -> (forall a, Q a -> within e2 R (g a)) -> within (both e1 e2) R (let! a := o in g a).
Proof.
  intros A B [p1 u1] [p2 u2] Q R [a| |] g H G; cbn in *.
  - specialize (G a H). destruct (g a); cbn in *; [assumption| |]; subst; apply orb_true_r.
  - subst. reflexivity.
  - subst. reflexivity.
Qed.
Lemma within_weaken : forall A e1 e2 (Q R : A -> Prop) o, within e1 Q o -> leb_eff e1 e2 = true -> (forall a, Q a -> R a) ->
  within e2 R o.
Proof.
  intros A [p1 u1] [p2 u2] Q R [a| |] H L I; cbn in *; [now apply I| |]; subst;
    unfold leb_eff in L; cbn in L; apply andb_prop in L; destruct L as [L M]; assumption.
Qed.
Lemma within_ok : forall A (Q : A -> Prop) a, Q a -> within pure Q (Ok a).
Proof. intros A Q a H. exact H. Qed.
Lemma both_pure_l : forall e, both pure e = e. Proof. now intros []. Qed.
Lemma both_pure_r : forall e, both e pure = e.
Proof. intros [p u]. unfold both. cbn. now rewrite !orb_false_r. Qed.

(** * Structured Text, ModelST.v *)

Definition okval (t : st_ty) (v : val) : Prop :=
  match t, v with
  | TBool, VInt z => z = 0 \/ z = 1
  | TInt i, VInt z => in_ity i z
  | TFloat f, VFl x => binary_format f /\ fl_valid f x
  | _, _ => False
  end.
Definition okpair (b : st_ty * val) : Prop := okval (fst b) (snd b).
(** Well-formed types. *)
Definition wf (t : st_ty) : Prop := match t with TBool => True | TInt i => 0 < it_bits i | TFloat f => binary_format f end.

Definition a_cast (s t : st_ty) : effect :=
  match s, t with
  | TBool, TBool | TBool, TInt _ | TInt _, TInt _ | TInt _, TFloat _ | TFloat _, TFloat _ => pure
  | _, _ => Eff false true
  end.
Lemma cast_sound : forall s t v, wf t -> okval s v -> within (a_cast s t) (okval t) (st_cast s t v).
Proof.
  intros s t v W H. destruct s as [|i|f], t as [|j|g], v as [z|x]; cbn [st_cast a_cast okval within e_ub e_panic wf] in *;
    try exact H; try easy; try (apply wrap_range; exact W).
  - split; [exact W|]. apply norm_valid, W.
  - destruct (fl_trunc x); [|reflexivity]. destruct (in_ityb j z) eqn:E; [|reflexivity]. now apply in_ityb_iff.
  - split; [exact W|]. destruct H as [F H]. destruct (f_mw f =? f_mw g) eqn:E.
    + destruct F as [-> | ->], W as [-> | ->]; try exact H; discriminate E.
    + apply (convert_valid g W f x H).
Qed.

Definition a_env := list (string * st_ty).
Definition a_lookup (x : string) (r : a_env) : option st_ty :=
  option_map snd (find (fun p => String.eqb (fst p) x) r).
Definition env_types (r : ModelST.env) : a_env := map (fun p => (fst p, fst (snd p))) r.
Definition okenv (r : ModelST.env) : Prop := Forall (fun p => okpair (snd p)) r.
Lemma lookup_sound : forall x r t, okenv r -> a_lookup x (env_types r) = Some t ->
  exists v, lookup x r = Ok (t, v) /\ okval t v.
Proof.
  intros x r t O. unfold a_lookup, lookup. induction O as [|[y [u v]] r H O IH]; cbn [env_types map find fst snd]; [discriminate|].
  destruct (String.eqb y x).
  - cbn [option_map snd]. intros E. injection E as <-. now exists v.
  - exact IH.
Qed.

Lemma common_wf : forall s t, wf s -> wf t -> wf (st_common s t).
Proof.
  intros [|i|f] [|j|g] S T; cbn [st_common] in *; try assumption; try reflexivity.
  - destruct (it_bits j <? 32); [reflexivity|exact T].
  - destruct (it_bits i <? 32); [reflexivity|exact S].
  - destruct (it_bits i <? it_bits j), (it_bits j <? 32), (it_bits i <? 32); (exact T || exact S || reflexivity).
  - destruct (f_mw f <? f_mw g); assumption.
Qed.

(** Result type and effect; [None]: not analysed. *)
Definition a_mul (t : st_ty) : effect := match t with TBool => Eff false true | _ => pure end.
Fixpoint a_expr (call : string -> list st_ty -> option (st_ty * effect)) (r : a_env) (ret : st_ty) (e : ModelST.expr)
    : option (st_ty * effect) :=
  match e with
  | EVar x => option_map (fun t => (t, pure)) (a_lookup x r)
  | ERet => Some (ret, pure)
  | ELit z => if in_ityb i32 z then Some (TInt i32, pure) else None
  | ELitR _ => Some (TFloat F32, pure)
  | EBool _ => Some (TBool, pure)
  | EBit x n => match a_lookup x r with Some (TInt _) => Some (TBool, pure) | _ => None end
  | EDeref (TInt i) x =>
      match a_lookup x r with
      | Some (TInt _) => if 0 <? it_bits i then Some (TInt i, pure) else None
      | _ => None
      end
  | EDeref _ _ => None
  | ECmp _ a b =>
      match a_expr call r ret a, a_expr call r ret b with
      | Some (s, e1), Some (t, e2) =>
          let k := st_common s t in Some (TBool, both e1 (both e2 (both (a_cast s k) (a_cast t k))))
      | _, _ => None
      end
  | EMul a b =>
      match a_expr call r ret a, a_expr call r ret b with
      | Some (s, e1), Some (t, e2) =>
          let k := st_common s t in
          Some (k, both e1 (both e2 (both (a_cast s k) (both (a_cast t k) (a_mul k)))))
      | _, _ => None
      end
  | ECall f args =>
      match (fix go l := match l with
             | [] => Some ([], pure)
             | a :: l' =>
                 match a_expr call r ret a, go l' with
                 | Some (t, e1), Some (ts, e2) => Some (t :: ts, both e1 e2)
                 | _, _ => None
                 end
             end) args with
      | Some (ts, e1) =>
          match call f ts with Some (t, e2) => Some (t, both e1 e2) | None => None end
      | None => None
      end
  end.

Definition sound_call (call : string -> list (st_ty * val) -> outcome (st_ty * val))
    (acall : string -> list st_ty -> option (st_ty * effect)) : Prop :=
  forall f l t e, Forall okpair l -> Forall (fun b => wf (fst b)) l -> acall f (map fst l) = Some (t, e) ->
  within e (fun b => fst b = t /\ okpair b) (call f l).
Definition wf_call (acall : string -> list st_ty -> option (st_ty * effect)) : Prop :=
  forall f ts t e, acall f ts = Some (t, e) -> wf t.
Definition wfenv (r : ModelST.env) : Prop := Forall (fun p => wf (fst (snd p))) r.
Lemma lookup_wf : forall x r t, wfenv r -> a_lookup x (env_types r) = Some t -> wf t.
Proof.
  intros x r t O. unfold a_lookup. induction O as [|[y [u v]] r H O IH]; cbn [env_types map find fst snd]; [discriminate|].
  destruct (String.eqb y x).
  - cbn [option_map snd]. intros E. injection E as <-. exact H.
  - exact IH.
Qed.

Fixpoint expr_size (e : ModelST.expr) : nat :=
  match e with
  | ECmp _ a b | EMul a b => S (expr_size a + expr_size b)
  | ECall _ l => S (fold_right (fun a n => expr_size a + n)%nat 0%nat l)
  | _ => 1%nat
  end.

Lemma expr_sound : forall call acall r ret, sound_call call acall -> wf_call acall -> okenv r -> wfenv r -> okpair ret -> wf (fst ret) ->
  forall n e t ef, (expr_size e <= n)%nat -> a_expr acall (env_types r) (fst ret) e = Some (t, ef) ->
  wf t /\ within ef (fun b => fst b = t /\ okpair b) (st_expr call r ret e).
Proof.
  intros call acall r ret SC AW OE WE OR WR. induction n as [|n IH]; intros e t ef L A; [destruct e; inversion L|].
  destruct e as [x| |z|z|b|x k|u x|c a b|a b|f args]; cbn [a_expr st_expr] in *.
  - destruct (a_lookup x (env_types r)) as [u|] eqn:E; [|discriminate]. injection A as <- <-.
    split; [exact (lookup_wf x r u WE E)|]. destruct (lookup_sound x r u OE E) as (v & -> & H). split; [reflexivity|exact H].
  - injection A as <- <-. split; [exact WR|]. split; [reflexivity|exact OR].
  - destruct (in_ityb i32 z) eqn:E; [|discriminate]. injection A as <- <-. split; [reflexivity|]. split; [reflexivity|].
    now apply in_ityb_iff.
  - injection A as <- <-. split; [now left|]. split; [reflexivity|]. split; [now left|]. apply norm_valid. now left.
  - injection A as <- <-. split; [exact I|]. split; [reflexivity|]. destruct b; [now right|now left].
  - destruct (a_lookup x (env_types r)) as [[|i|f]|] eqn:E; try discriminate. injection A as <- <-. split; [exact I|].
    destruct (lookup_sound x r _ OE E) as (v & -> & H). destruct v as [z|y]; [|destruct H]. cbn [obind]. split; [reflexivity|].
    cbn [okpair fst snd okval]. pose proof (Z.mod_pos_bound (z / 2 ^ k) 2 eq_refl). lia.
  - destruct u as [|i|f]; try discriminate. destruct (a_lookup x (env_types r)) as [[|j|f]|] eqn:E; try discriminate.
    destruct (0 <? it_bits i) eqn:B; [|discriminate]. injection A as <- <-. apply Z.ltb_lt in B. split; [exact B|].
    destruct (lookup_sound x r _ OE E) as (v & -> & H). destruct v as [z|y]; [|destruct H]. cbn [obind]. split; [reflexivity|].
    apply wrap_range, B.
  - destruct (a_expr acall (env_types r) (fst ret) a) as [[s e1]|] eqn:Ea; [|discriminate].
    destruct (a_expr acall (env_types r) (fst ret) b) as [[w e2]|] eqn:Eb; [|discriminate]. injection A as <- <-.
    cbn [expr_size] in L. destruct (IH a s e1 ltac:(lia) Ea) as [Ws Ha]. destruct (IH b w e2 ltac:(lia) Eb) as [Ww Hb].
    split; [exact I|]. pose proof (common_wf s w Ws Ww) as Wk.
    eapply within_bind; [exact Ha|]. intros [s' x] [S X]. cbn [fst] in S. subst s'.
    eapply within_bind; [exact Hb|]. intros [w' y] [S Y]. cbn [fst] in S. subst w'. cbv zeta.
    eapply within_bind; [exact (cast_sound s _ x Wk X)|]. intros x' X'. cbn beta.
    rewrite <- (both_pure_r (a_cast w (st_common s w))).
    eapply within_bind; [exact (cast_sound w _ y Wk Y)|]. intros y' Y'. cbn beta.
    assert (G : exists q, st_compare c x' y' = Ok q).
    { destruct (st_common s w), x', y'; cbn [okval] in X', Y'; try contradiction; eexists; reflexivity. }
    destruct G as [q ->]. cbn [obind]. split; [reflexivity|]. destruct q; [now right|now left].
  - destruct (a_expr acall (env_types r) (fst ret) a) as [[s e1]|] eqn:Ea; [|discriminate].
    destruct (a_expr acall (env_types r) (fst ret) b) as [[w e2]|] eqn:Eb; [|discriminate]. injection A as <- <-.
    cbn [expr_size] in L. destruct (IH a s e1 ltac:(lia) Ea) as [Ws Ha]. destruct (IH b w e2 ltac:(lia) Eb) as [Ww Hb].
    pose proof (common_wf s w Ws Ww) as Wk. split; [exact Wk|].
    eapply within_bind; [exact Ha|]. intros [s' x] [S X]. cbn [fst] in S. subst s'.
    eapply within_bind; [exact Hb|]. intros [w' y] [S Y]. cbn [fst] in S. subst w'. cbv zeta.
    eapply within_bind; [exact (cast_sound s _ x Wk X)|]. intros x' X'. cbn beta.
    eapply within_bind; [exact (cast_sound w _ y Wk Y)|]. intros y' Y'. cbn beta.
    destruct (st_common s w) as [|i|f], x' as [p|p], y' as [q|q]; cbn [okval] in X', Y'; try contradiction.
    + reflexivity.
    + cbn [st_mul obind a_mul within]. split; [reflexivity|]. apply wrap_range, Wk.
    + cbn [st_mul obind a_mul within]. split; [reflexivity|]. split; [exact Wk|]. apply of_sf_valid; [exact Wk|].
      apply mul_valid; [exact Wk| |]; apply sf_valid; tauto.
  - revert A. set (go := fix go l := match l with [] => _ | a :: l' => _ end).
    set (ev := fix ev (l : list ModelST.expr) : outcome (list (st_ty * val)) := match l with [] => _ | a :: l' => _ end).
    assert (G : forall l ts e1, (fold_right (fun a n => expr_size a + n)%nat 0%nat l <= n)%nat -> go l = Some (ts, e1) ->
      within e1 (fun bs => map fst bs = ts /\ Forall okpair bs /\ Forall (fun b => wf (fst b)) bs) (ev l)).
    { intros l. induction l as [|a l IHl]; intros ts e1 Ll Gl.
      - cbn [go] in Gl. injection Gl as <- <-. cbn. now repeat split.
      - cbn [go] in Gl. cbn [fold_right] in Ll. destruct (a_expr acall (env_types r) (fst ret) a) as [[s x1]|] eqn:Ea; [|discriminate].
        destruct (go l) as [[ts' x2]|] eqn:El; [|discriminate]. injection Gl as <- <-.
        destruct (IH a s x1 ltac:(lia) Ea) as [Ws Ha]. cbn [ev]. eapply within_bind; [exact Ha|].
        intros [s' x] [S X]. cbn [fst] in S. subst s'. rewrite <- (both_pure_r x2).
        eapply within_bind; [exact (IHl ts' x2 ltac:(lia) eq_refl)|]. intros bs (M & O & W). cbn. split; [now rewrite M|].
        split; constructor; assumption. }
    intros A. cbn [expr_size] in L.
    destruct (go args) as [[ts e1]|] eqn:Eg; [|discriminate]. destruct (acall f ts) as [[w e2]|] eqn:Ec; [|discriminate].
    injection A as <- <-. specialize (G args ts e1 ltac:(lia) Eg).
    split; [exact (AW f ts w e2 Ec)|]. eapply within_bind; [exact G|]. intros bs (M & O & Wb). rewrite <- M in Ec.
    exact (SC f bs w e2 O Wb Ec).
Qed.

Definition wfb (t : st_ty) : bool :=
  match t with
  | TBool => true | TInt i => 0 <? it_bits i
  | TFloat f => ((f_mw f =? 23) && (f_ew f =? 8)) || ((f_mw f =? 52) && (f_ew f =? 11))
  end.
Lemma wfb_wf : forall t, wfb t = true -> wf t.
Proof.
  intros [|i|[m e]] H; cbn [wfb wf f_mw f_ew] in *; [exact I|now apply Z.ltb_lt|].
  apply orb_prop in H. destruct H as [H|H]; apply andb_prop in H; destruct H as [A B]; apply Z.eqb_eq in A, B; subst;
    [now left|now right].
Qed.

(** Statements. *)
Fixpoint a_stmt (ev : ModelST.expr -> option (st_ty * effect)) (t : st_ty) (s : stmt) : option effect :=
  match s with
  | SAssign e => match ev e with Some (u, ef) => Some (both ef (a_cast u t)) | None => None end
  | SIf c th el =>
      let go := fix go (l : list stmt) : option effect :=
        match l with
        | [] => Some pure
        | s' :: l' => match a_stmt ev t s', go l' with Some a, Some b => Some (both a b) | _, _ => None end
        end in
      match ev c, go th, go el with
      | Some (_, a), Some b, Some d => Some (both a (both b d))
      | _, _, _ => None
      end
  end.
Fixpoint a_block (ev : ModelST.expr -> option (st_ty * effect)) (t : st_ty) (l : list stmt) : option effect :=
  match l with
  | [] => Some pure
  | s :: l' => match a_stmt ev t s, a_block ev t l' with Some a, Some b => Some (both a b) | _, _ => None end
  end.
Definition sound_ev (t : st_ty) (ev : st_ty * val -> ModelST.expr -> outcome (st_ty * val))
    (aev : ModelST.expr -> option (st_ty * effect)) : Prop :=
  forall ret e u ef, okval t ret -> aev e = Some (u, ef) -> within ef (fun b => fst b = u /\ okpair b) (ev (t, ret) e).
Fixpoint stmt_size (s : stmt) : nat :=
  match s with
  | SAssign _ => 1%nat
  | SIf _ th el => S (fold_right (fun a n => stmt_size a + n)%nat 0%nat th + fold_right (fun a n => stmt_size a + n)%nat 0%nat el)
  end.
Lemma leb_both_l : forall a b, leb_eff a (both a b) = true.
Proof. intros [[] []] [[] []]; reflexivity. Qed.
Lemma leb_both_r : forall a b, leb_eff b (both a b) = true.
Proof. intros [[] []] [[] []]; reflexivity. Qed.
Lemma stmt_sound : forall t ev aev, wf t -> sound_ev t ev aev ->
  forall n s ret ef, (stmt_size s <= n)%nat -> okval t ret -> a_stmt aev t s = Some ef -> within ef (okval t) (st_stmt ev t s ret).
Proof.
  intros t ev aev W SE. induction n as [|n IH]; intros s ret ef L R A; [destruct s; inversion L|].
  destruct s as [e|c th el]; cbn [a_stmt st_stmt] in *.
  - destruct (aev e) as [[u e1]|] eqn:E; [|discriminate]. injection A as <-.
    eapply within_bind; [exact (SE ret e u e1 R E)|]. intros [u' v] [U V]. cbn [fst] in U. subst u'.
    exact (cast_sound u t v W V).
  - revert A. set (go := fix go (l : list stmt) : option effect := match l with [] => _ | s' :: l' => _ end).
    set (ex := fix ex (l : list stmt) (ret : val) : outcome val := match l with [] => _ | s' :: l' => _ end).
    assert (G : forall l ret e1, (fold_right (fun a n => stmt_size a + n)%nat 0%nat l <= n)%nat -> okval t ret ->
      go l = Some e1 -> within e1 (okval t) (ex l ret)).
    { intros l. induction l as [|s l IHl]; intros q e1 Ll Q Gl; cbn [go] in Gl.
      - injection Gl as <-. exact Q.
      - cbn [fold_right] in Ll. destruct (a_stmt aev t s) as [a|] eqn:Es; [|discriminate].
        destruct (go l) as [b|] eqn:El; [|discriminate]. injection Gl as <-. cbn [ex].
        eapply within_bind; [exact (IH s q a ltac:(lia) Q Es)|]. intros r' R'. exact (IHl r' b ltac:(lia) R' eq_refl). }
    intros A. cbn [stmt_size] in L. cbv zeta in A.
    destruct (aev c) as [[u a]|] eqn:Ec; [|discriminate]. destruct (go th) as [b|] eqn:Et; [|discriminate].
    destruct (go el) as [d|] eqn:Ee; [|discriminate]. injection A as <-. cbv zeta.
    eapply within_bind; [exact (SE ret c u a R Ec)|]. intros [u' v] _.
    assert (Gt := G th ret b ltac:(lia) R Et). assert (Ge := G el ret d ltac:(lia) R Ee).
    assert (T : within (both b d) (okval t) (ex th ret)).
    { eapply within_weaken; [exact Gt|apply leb_both_l|auto]. }
    assert (E : within (both b d) (okval t) (ex el ret)).
    { eapply within_weaken; [exact Ge|apply leb_both_r|auto]. }
    destruct v as [[|p|p]|x]; assumption.
Qed.
Lemma block_sound : forall t ev aev, wf t -> sound_ev t ev aev ->
  forall l ret ef, okval t ret -> a_block aev t l = Some ef -> within ef (okval t) (st_block ev t l ret).
Proof.
  intros t ev aev W SE. induction l as [|s l IH]; intros ret ef R A; cbn [a_block st_block] in *.
  - injection A as <-. exact R.
  - destruct (a_stmt aev t s) as [a|] eqn:Es; [|discriminate]. destruct (a_block aev t l) as [b|] eqn:El; [|discriminate].
    injection A as <-. eapply within_bind; [exact (stmt_sound t ev aev W SE _ s ret a (le_n _) R Es)|].
    intros r' R'. now apply IH.
Qed.

(** Argument passing. *)
Fixpoint a_casts (from to : list st_ty) : option effect :=
  match from, to with
  | [], [] => Some pure
  | s :: from', t :: to' => option_map (both (a_cast s t)) (a_casts from' to')
  | _, _ => None
  end.
Lemma casts_sound : forall to from e, Forall wf to -> Forall okpair from -> a_casts (map fst from) to = Some e ->
  within e (fun ws => Forall2 okval to ws) (cast_all from to).
Proof.
  induction to as [|t to IH]; intros [|[s v] from] e W O A; cbn [a_casts map fst cast_all] in *; try discriminate.
  - injection A as <-. constructor.
  - destruct (a_casts (map fst from) to) as [e'|] eqn:E; [|discriminate]. injection A as <-. inversion W; inversion O; subst.
    eapply within_bind; [apply cast_sound; eassumption|]. intros w Hw. rewrite <- (both_pure_r e').
    eapply within_bind; [apply IH; eassumption|]. intros ws Hws. now constructor.
Qed.

(** External functions called by ST functions. *)
Definition a_ext (n : string) : effect := Eff (String.eqb n "DATE_AND_TIME_TO_DATE") false.
Lemma externals_sound : forall e v l, List.In e externals -> Forall2 okval (ex_args e) l ->
  wf (ex_ret e) /\ Forall wf (ex_args e) /\ within (a_ext (ex_name e)) (okval (ex_ret e)) (ex_sem e v l).
Proof.
  intros e v l I. cbn [externals List.In] in I.
  assert (B32 : binary_format F32) by now left. assert (B64 : binary_format F64) by now right.
  repeat (destruct I as [<-|I]; [cbn [ex_args ex_ret ex_name ex_sem]; intros A|]); [..|destruct I];
    repeat match goal with H : Forall2 okval (_ :: _) _ |- _ => inversion H; clear H; subst
                         | H : Forall2 okval [] _ |- _ => inversion H; clear H; subst end;
    repeat match goal with H : okval _ ?v |- _ => is_var v; destruct v; cbn [okval T_REAL T_LREAL T_DINT T_DT] in H; try contradiction end;
    repeat match goal with H : _ /\ _ |- _ => destruct H end;
    (split; [first [exact B32|exact B64|reflexivity]|split; [repeat constructor; first [exact B32|exact B64|reflexivity]|]]).
  - split; [exact B32|]. apply (ROUND_valid F32 B32). assumption.
  - split; [exact B64|]. apply (ROUND_valid F64 B64). assumption.
  - split; [exact B32|]. apply (SQRT_valid F32 B32). assumption.
  - split; [exact B64|]. apply (SQRT_valid F64 B64). assumption.
  - split; [exact B32|]. apply (EXPT_valid F32 B32). assumption.
  - split; [exact B64|]. apply (EXPT_valid F64 B64). assumption.
  - cbn [int1]. pose proof (dt_to_date_ok v z) as D. destruct (DATE_AND_TIME_TO_DATE v z); [exact D|reflexivity|destruct D].
  - cbn [int1]. pose proof (dt_to_tod_ok v z) as D. destruct (DATE_AND_TIME_TO_TIME_OF_DAY v z); [exact D|discriminate D|destruct D].
Qed.

(** Calls. *)
Fixpoint a_call (fuel : nat) (n : string) (ts : list st_ty) : option (st_ty * effect) :=
  match fuel with
  | O => None
  | S k =>
      match find_fun n, find_ext n with
      | Some f, _ =>
          if forallb wfb (map snd (fn_args f)) && wfb (fn_ret f) then
            match a_casts ts (map snd (fn_args f)),
                  a_block (a_expr (a_call k) (fn_args f) (fn_ret f)) (fn_ret f) (fn_body f) with
            | Some a, Some b => Some (fn_ret f, both a b)
            | _, _ => None
            end
          else None
      | None, Some e => option_map (fun a => (ex_ret e, both a (a_ext (ex_name e)))) (a_casts ts (ex_args e))
      | None, None => None
      end
  end.
Lemma find_ext_in : forall n e, find_ext n = Some e -> List.In e externals.
Proof. intros n e H. exact (proj1 (find_some _ _ H)). Qed.
Lemma a_call_wf : forall k, wf_call (a_call k).
Proof.
  intros [|k] n ts t e H; [discriminate|]. cbn [a_call] in H. destruct (find_fun n) as [f|].
  - destruct (forallb wfb _ && wfb (fn_ret f)) eqn:W; [|discriminate]. apply andb_prop in W. destruct W as [_ W].
    destruct (a_casts ts (map snd (fn_args f))); [|discriminate].
    destruct (a_block (a_expr (a_call k) (fn_args f) (fn_ret f)) (fn_ret f) (fn_body f)); [|discriminate].
    injection H as <- _. now apply wfb_wf.
  - destruct (find_ext n) as [x|] eqn:E; [|discriminate]. destruct (a_casts ts (ex_args x)); [|discriminate]. injection H as <- _.
    apply find_ext_in in E. cbn [externals List.In] in E.
    repeat (destruct E as [<-|E]; [first [now left|now right|reflexivity]|]). destruct E.
Qed.
Lemma zero_ok : forall t, wf t -> okval t (st_zero t).
Proof.
  intros [|i|f] W; [now left| |].
  - unfold okval, st_zero, in_ity, imin, imax. cbn [wf] in W.
    pose proof (Z.pow_pos_nonneg 2 (it_bits i) ltac:(lia) ltac:(lia)). pose proof (Z.pow_pos_nonneg 2 (it_bits i - 1) ltac:(lia) ltac:(lia)).
    destruct (it_signed i); lia.
  - split; [exact W|]. exact eq_refl.
Qed.
Lemma env_of : forall names types vs, length names = length types -> Forall2 okval types vs -> Forall wf types ->
  let r := combine names (combine types vs) in env_types r = combine names types /\ okenv r /\ wfenv r.
Proof.
  intros names types vs L F. revert names L. induction F as [|t v types vs H F IH]; intros [|x names] L W; try discriminate L; cbn.
  - repeat split; constructor.
  - injection L as L. inversion W; subst. destruct (IH names L ltac:(assumption)) as (E & O & U).
    split; [f_equal; exact E|]. split; constructor; assumption.
Qed.
Lemma combine_split : forall A B (l : list (A * B)), combine (map fst l) (map snd l) = l.
Proof. induction l as [|[a b] l IH]; [reflexivity|]. cbn. now rewrite IH. Qed.
Lemma call_sound : forall v k, sound_call (st_call_fuel k v) (a_call k).
Proof.
  intros v. induction k as [|k IH]; intros n l t e O WL A; [discriminate|]. cbn [a_call st_call_fuel] in *.
  destruct (find_fun n) as [f|] eqn:Ef.
  - destruct (forallb wfb (map snd (fn_args f)) && wfb (fn_ret f)) eqn:Wb; [|discriminate]. apply andb_prop in Wb. destruct Wb as [Wa Wr].
    assert (WA : Forall wf (map snd (fn_args f))).
    { apply Forall_forall. intros u U. rewrite forallb_forall in Wa. apply wfb_wf, Wa, U. }
    apply wfb_wf in Wr.
    destruct (a_casts (map fst l) (map snd (fn_args f))) as [a|] eqn:Ea; [|discriminate].
    destruct (a_block (a_expr (a_call k) (fn_args f) (fn_ret f)) (fn_ret f) (fn_body f)) as [b|] eqn:Eb; [|discriminate]. injection A as <- <-.
    eapply within_bind; [exact (casts_sound _ l a WA O Ea)|]. intros ws Hws. cbv zeta.
    destruct (env_of (map fst (fn_args f)) (map snd (fn_args f)) ws ltac:(now rewrite !map_length) Hws WA) as (E & OE & WE).
    rewrite combine_split in E. rewrite <- (both_pure_r b).
    eapply within_bind with (Q := okval (fn_ret f)).
    + apply (block_sound (fn_ret f) _ (a_expr (a_call k) (fn_args f) (fn_ret f)) Wr); [|apply zero_ok, Wr|exact Eb].
      intros ret x u ef R X.
      refine (proj2 (expr_sound (st_call_fuel k v) (a_call k) _ (fn_ret f, ret) IH (a_call_wf k) OE WE R Wr _ x u ef (le_n _) _)).
      rewrite E. exact X.
    + intros x X. split; [reflexivity|exact X].
  - destruct (find_ext n) as [x|] eqn:Ex; [|discriminate]. destruct (a_casts (map fst l) (ex_args x)) as [a|] eqn:Ea; [|discriminate].
    injection A as <- <-. apply find_ext_in in Ex.
    assert (WA : Forall wf (ex_args x)).
    { clear - Ex. cbn [externals List.In] in Ex.
      repeat (destruct Ex as [<-|Ex]; [repeat constructor; first [now left|now right|reflexivity]|]). destruct Ex. }
    eapply within_bind; [exact (casts_sound _ l a WA O Ea)|]. intros ws Hws.
    destruct (externals_sound x v ws Ex Hws) as (_ & _ & S). rewrite <- (both_pure_r (a_ext (ex_name x))).
    eapply within_bind; [exact S|]. intros y Y. split; [reflexivity|exact Y].
Qed.
