(** Functions of REAL and LREAL in expressions. *)
From Coq Require Import String Ascii ZArith Lia List Bool SpecFloat Reals Lra.
From Flocq Require Import Core BinarySingleNaN.
From Verif Require Import Base ModelFloat ModelScalar ModelArith ModelTimeNum ModelText ModelString ModelExtra ModelDate ModelChrono ModelST ModelWrap ModelLink ModelLib
  ModelApi SpecScalar SpecTimeNum SpecReal SpecPow SpecST SpecDate SpecText SpecLink SpecConv SpecLib SpecName SpecWrap SpecCall SpecExpr SpecNum ProofBase ProofScalar
  ProofFlocq ProofReal ProofReal2 ProofST ProofST2 ProofLib ProofLib2 ProofConv ProofName3 ProofApi3 ProofCall2 ProofCall4 ProofExpr ProofExpr2 ProofExpr3 ProofExpr4 ProofSqr.
Import ListNotations.
Open Scope string_scope.
Open Scope list_scope.
Open Scope Z_scope.

(** * Calls *)
(** Functions with a body in Structured Text. *)
Definition bodied (f : string) (ts : list sty) (n : string) (u : sty) : bool :=
  match find_decl f with
  | Some d =>
      match resolve f ts with Some m => String.eqb m n | None => false end && same_types (ModelApi.formals (d_params d) ts) ts &&
      match find_decl n with Some (Decl _ false [] (Ty t) _ bd) => plain_body bd && sty_eqb t u | _ => false end &&
      match find_code n with None => true | Some _ => false end &&
      match find (fun e => String.eqb (fst e) n) text_functions with None => true | Some _ => false end
  | None => false
  end.
Lemma bodied_call : forall P f l n u ws, bodied f (map fst l) n u = true -> all_some (map to_val (map snd l)) = Some ws ->
  call P f l = obind (st_call (p_chrono P) n ws) (fun r => Ok (u, of_val r)).
Proof.
  Local Transparent call api.
  intros P f l n u ws H W. unfold bodied in H. destruct (find_decl f) as [d|] eqn:D; [|discriminate].
  apply andb_true_iff in H as [H H5]. apply andb_true_iff in H as [H H4]. apply andb_true_iff in H as [H H3].
  apply andb_true_iff in H as [H1 H2]. destruct (resolve f (map fst l)) as [m|] eqn:R; [|discriminate].
  apply String.eqb_eq in H1. subst m. destruct (find_decl n) as [[m e g ret ps bd]|] eqn:N; [|discriminate].
  destruct e; [discriminate|]. destruct g; [|discriminate]. destruct ret as [t|]; [|discriminate].
  apply andb_true_iff in H3 as [H3 H6]. apply ProofConv.sty_eqb_iff in H6. subst t.
  destruct (find_code n) eqn:C; [discriminate|]. destruct (find (fun e => String.eqb (fst e) n) text_functions) eqn:T; [discriminate|].
  assert (A : api P n (map snd l) = obind (st_call (p_chrono P) n ws) (fun r => Ok (of_val r, map snd l))).
  { unfold api. cbn [invoke]. rewrite N. transitivity (basic P n (map snd l)); [destruct bd; try discriminate H3; reflexivity|].
    unfold basic. rewrite C, T, W. reflexivity. }
  unfold call. rewrite (dispatch_eq _ f l _ n (map snd l) u D).
  - rewrite A. destruct (st_call (p_chrono P) n ws); reflexivity.
  - exact R.
  - now apply same_coerce.
  - rewrite N. reflexivity.
Qed.
(** Generic functions whose instance is declared as external. *)
Definition declared (f : string) (ts : list sty) (n : string) (u : sty) : bool :=
  match find_decl f with
  | Some d =>
      match resolve f ts with Some m => String.eqb m n | None => false end && same_types (ModelApi.formals (d_params d) ts) ts &&
      match find_decl n with Some (Decl _ true [] (Ty t) _ _) => sty_eqb t u | _ => false end
  | None => false
  end.
Lemma declared_call : forall P f l n u, declared f (map fst l) n u = true ->
  call P f l = omap (fun v => (u, v)) (result (rust_call P n (map snd l))).
Proof.
  intros P f l n u H. unfold declared in H. destruct (find_decl f) as [d|] eqn:D; [|discriminate].
  apply andb_true_iff in H as [H H3]. apply andb_true_iff in H as [H1 H2].
  destruct (resolve f (map fst l)) as [m|] eqn:R; [|discriminate].
  apply String.eqb_eq in H1. subst m. destruct (find_decl n) as [[m e g ret ps bd]|] eqn:N; [|discriminate].
  destruct e; [|discriminate]. destruct g; [|discriminate]. destruct ret as [t|]; [|discriminate].
  apply ProofConv.sty_eqb_iff in H3. subst t.
  unfold call. rewrite (dispatch_eq _ f l _ n (map snd l) u D).
  - unfold api. cbn [invoke]. rewrite N. unfold result. destruct (rust_call P n (map snd l)) as [[v o]| |]; reflexivity.
  - exact R.
  - now apply same_coerce.
  - now rewrite N.
Qed.
Local Opaque call value_in api.

Definition small_ints : list sty := [S_USINT; S_UINT; S_UDINT; S_ULINT; S_SINT; S_INT; S_LINT].
Definition time_names : list (string * string) := [("MUL", "MUL__TIME"); ("MUL_TIME", "MUL_TIME"); ("DIV", "DIV__TIME"); ("DIV_TIME", "DIV_TIME")].
Lemma abs_checked : forall t, List.In t reals -> bodied "ABS" [t] (instance_name "ABS" [t]) t = true.
Proof. apply (proj1 (forallb_forall _ _)). vm_compute. reflexivity. Qed.
Lemma trunc_checked : forall t, List.In t reals -> bodied "TRUNC" [t] (instance_name "TRUNC" [t]) S_LINT = true.
Proof. apply (proj1 (forallb_forall (fun t => bodied "TRUNC" [t] (instance_name "TRUNC" [t]) S_LINT) _)). vm_compute. reflexivity. Qed.
Lemma round_checked : forall t, List.In t reals -> exported "ROUND" [t] (instance_name "ROUND" [t]) t = true.
Proof. apply (proj1 (forallb_forall (fun t => exported "ROUND" [t] (instance_name "ROUND" [t]) t) _)). vm_compute. reflexivity. Qed.
Lemma sqrt_checked : forall t, List.In t reals -> exported "SQRT" [t] (instance_name "SQRT" [t]) t = true.
Proof. apply (proj1 (forallb_forall (fun t => exported "SQRT" [t] (instance_name "SQRT" [t]) t) _)). vm_compute. reflexivity. Qed.
Lemma limit_checked : forall t, List.In t reals -> exported "LIMIT" [t; t; t] (instance_name "LIMIT" [t]) t = true.
Proof. apply (proj1 (forallb_forall (fun t => exported "LIMIT" [t; t; t] (instance_name "LIMIT" [t]) t) _)). vm_compute. reflexivity. Qed.
Lemma expt_checked : forall t, List.In t reals -> declared "EXPT" [t; S_DINT] (instance_name "EXPT" [t; S_DINT]) t = true.
Proof. apply (proj1 (forallb_forall (fun t => declared "EXPT" [t; S_DINT] (instance_name "EXPT" [t; S_DINT]) t) _)). vm_compute. reflexivity. Qed.
Lemma expt_small_checked : forall t u, List.In t reals -> List.In u small_ints -> bodied "EXPT" [t; u] (instance_name "EXPT" [t; u]) t = true.
Proof.
  intros t u T U. assert (H : forallb (fun t => forallb (fun u => bodied "EXPT" [t; u] (instance_name "EXPT" [t; u]) t) small_ints) reals = true) by (vm_compute; reflexivity).
  rewrite forallb_forall in H. specialize (H t T). rewrite forallb_forall in H. exact (H u U).
Qed.
Lemma time_checked : forall f F t, List.In (f, F) time_names -> List.In t reals -> exported f [S_TIME; t] (instance_name F [t]) S_TIME = true.
Proof.
  intros f F t I T. assert (H : forallb (fun F => forallb (fun t => exported (fst F) [S_TIME; t] (instance_name (snd F) [t]) S_TIME) reals) time_names = true) by (vm_compute; reflexivity).
  rewrite forallb_forall in H. specialize (H _ I). rewrite forallb_forall in H. exact (H t T).
Qed.
Lemma real_named : forall t, List.In t reals -> List.In (type_name t, fmt_of t) float_names.
Proof. intros t [<-|[<-|[]]]; cbn; tauto. Qed.
Lemma one_type : forall f t, List.In t reals -> instance_name f [t] = (f ++ "__" ++ type_name t)%string.
Proof. intros f t [<-|[<-|[]]]; reflexivity. Qed.
Lemma real_fmt : forall t, List.In t reals -> binary_format (fmt_of t).
Proof. intros t [<-|[<-|[]]]; [now left|now right]. Qed.

(** * Values *)
Lemma number_var : forall P r t x v, get x r = Ok (t, VF v) -> fl_valid (fmt_of t) v -> fl_finite v = true ->
  number P r t (Arg x) (fl_value v).
Proof. intros P r t x v G V F. exists v. repeat split; try assumption. exact (value_arg P r x _ G). Qed.
Lemma number_unique : forall P r t e q q', number P r t e q -> number P r t e q' -> q = q'.
Proof. intros P r t e q q' (v & E & _ & _ & <-) (w & E' & _ & _ & <-). rewrite E in E'. now injection E' as ->. Qed.
Lemma exact_nearest : forall P r t e q q', List.In t reals -> nearest P r t e q -> 
  (exists w, fl_valid (fmt_of t) w /\ fl_finite w = true /\ fl_value w = q) -> q = q' -> number P r t e q'.
Proof.
  intros P r t e q q' T (v & E & V & F & N) (w & Vw & Fw & <-) <-. exists v. repeat split; try assumption.
  destruct (N w Vw Fw) as [H _]. replace (fl_value w - fl_value w)%R with 0%R in H by ring. rewrite Rabs_R0 in H.
  pose proof (Rabs_pos (fl_value v - fl_value w)). assert (Z : Rabs (fl_value v - fl_value w) = 0%R) by lra.
  destruct (Req_dec (fl_value v - fl_value w) 0) as [Q|Q]; [lra|]. apply Rabs_no_R0 in Q. contradiction.
Qed.

(** * ABS, ROUND and TRUNC *)
Lemma abs_number : forall P r t e q, List.In t reals -> number P r t e q -> number P r t (Call "ABS" [e]) (Rabs q).
Proof.
  intros P r t e q T (v & E & V & F & <-). 
  assert (A : exists y, st_call (p_chrono P) (instance_name "ABS" [t]) [VFl v] = Ok (VFl y) /\ fl_valid (fmt_of t) y /\ fl_finite y = true /\
    fl_value y = Rabs (fl_value v)).
  { destruct T as [<-|[<-|[]]]; [destruct (abs_real (p_chrono P) v V F) as (y & A & B & C & D & _)|destruct (abs_lreal (p_chrono P) v V F) as (y & A & B & C & D & _)];
      exists y; auto. }
  destruct A as (y & A & B & C & D). exists y. split; [|auto].
  rewrite (value_1 P r _ _ _ E), (bodied_call P "ABS" [(t, VF v)] (instance_name "ABS" [t]) t [VFl v]); [now rewrite A|exact (abs_checked t T)|reflexivity].
Qed.
Lemma round_number : forall P r t e q, List.In t reals -> number P r t e q ->
  exists k, nearest_int k q /\ number P r t (Call "ROUND" [e]) (IZR k).
Proof.
  intros P r t e q T (v & E & V & F & <-).
  destruct (round_name P (type_name t) (fmt_of t) v (real_named t T) V F) as (y & k & A & B & C & D & N).
  exists k. split; [exact N|]. exists y. split; [|auto].
  rewrite (value_1 P r _ _ _ E), (generic_call P "ROUND" [(t, VF v)] (instance_name "ROUND" [t]) t (round_checked t T)).
  change ("ROUND__" ++ type_name t)%string with ("ROUND" ++ "__" ++ type_name t)%string in A. rewrite <- (one_type "ROUND" t T) in A.
  cbn [map snd]. rewrite A. reflexivity.
Qed.
