(** Proofs: the results of the analysis for the declared functions, and arguments for which the listed functions abort
    or are undefined. *)
From Coq Require Import String ZArith Lia List Bool SpecFloat.
From Verif Require Import Base ModelFloat ModelScalar ModelTimeNum ModelText ModelString
  ModelExtra ModelST ModelWrap ModelLink ModelLib ModelApi SpecScalar SpecTimeNum SpecLink SpecLib SpecSafe SpecApi
  ProofBase ProofLib2 ProofSafe ProofSafe2 ProofApi ProofApi2.
Import ListNotations.
Open Scope string_scope.
Open Scope Z_scope.
Open Scope list_scope.

Definition mem (n : string) (l : list string) : bool := existsb (String.eqb n) l.
Lemma mem_In : forall n l, mem n l = true -> List.In n l.
Proof. intros n l M. apply existsb_exists in M. destruct M as (x & I & E). apply String.eqb_eq in E. now subst. Qed.
Definition param_types (d : decl) : list sty := flat_map (fun p => match snd p with Ty t => [t] | Var _ => [] end) (d_params d).
Lemma param_types_eq : forall d ts, map snd (d_params d) = map Ty ts -> param_types d = ts.
Proof.
  intros d. unfold param_types. induction (d_params d) as [|[x r] l IH]; intros [|t ts] E; try discriminate E; [reflexivity|].
  cbn [map snd] in E. injection E as -> E. cbn [flat_map snd app]. now rewrite (IH ts E).
Qed.
Lemma stringb_no : forall t, no_string t -> stringb t = false.
Proof. intros [] [A B]; try reflexivity; contradiction. Qed.
Definition covered (d : decl) : bool :=
  match d_generic d, d_ret d with [], Ty t => forallb (fun t => negb (stringb t)) (t :: param_types d) | _, _ => false end.
Definition decl_check (p : profile) (d : decl) : bool :=
  negb (covered d) ||
  match d_ret d with
  | Ty t =>
      match a_invoke p 5 (d_name d) (param_types d) t with
      | Some e => implb (e_panic e) (mem (d_name d) aborting) && implb (e_ub e) (mem (d_name d) undefined)
      | None => false
      end
  | Var _ => false
  end.
Lemma decls_checked : forall p, forallb (decl_check p) st_decls = true.
Proof. intros []; vm_compute; reflexivity. Qed.
Lemma decls_safe : forall d t ts P args, List.In d st_decls -> d_generic d = [] -> d_ret d = Ty t ->
  map snd (d_params d) = map Ty ts -> Forall no_string (t :: ts) -> sane P -> Forall2 holds ts args ->
  match api P (d_name d) args with
  | Ok (r, outs) => holds t r /\ Forall2 holds ts outs
  | Panic => List.In (d_name d) aborting
  | Ub => List.In (d_name d) undefined
  end.
Proof.
  intros d t ts P args D G R T N SP H. pose proof (proj1 (forallb_forall _ _) (decls_checked (p_profile P)) d D) as C.
  unfold decl_check in C. assert (K : covered d = true).
  { unfold covered. rewrite G, R, (param_types_eq d ts T). apply forallb_forall. intros u U. rewrite Forall_forall in N.
    now rewrite (stringb_no u (N u U)). }
  rewrite K, R, (param_types_eq d ts T) in C. cbn [negb orb] in C.
  destruct (a_invoke (p_profile P) 5 (d_name d) ts t) as [e|] eqn:E; [|discriminate].
  pose proof (invoke_sound P SP 5 (d_name d) ts t e args E H) as I. fold (api P (d_name d) args) in I.
  apply andb_prop in C. destruct C as [C1 C2].
  destruct (api P (d_name d) args) as [[r outs]| |].
  - exact I.
  - cbn [within] in I. rewrite I in C1. now apply mem_In.
  - cbn [within] in I. rewrite I in C2. now apply mem_In.
Qed.

(** Generic functions. *)
Fixpoint assignments (g : list (string * class)) : list (list sty) :=
  match g with
  | [] => [[]]
  | (_, c) :: g' => flat_map (fun t => map (cons t) (assignments g')) (members c)
  end.
Lemma assignments_in : forall g ts, Forall2 (fun x t => List.In t (members (snd x))) g ts -> List.In ts (assignments g).
Proof.
  intros g ts H. induction H as [|[x c] t g ts M H IH]; [now left|]. cbn [assignments]. apply in_flat_map. exists t.
  split; [exact M|]. now apply in_map.
Qed.
Definition has_codeb (n : string) : bool :=
  existsb (fun s => String.eqb (sy_name s) n) rust_symbols ||
  existsb (fun d => String.eqb (d_name d) n && match d_generic d with [] => true | _ => false end && negb (d_external d) &&
                    match d_body d with Empty => false | _ => true end) st_decls.
Lemma has_codeb_ok : forall n, has_code n -> has_codeb n = true.
Proof.
  intros n [(s & I & E)|(d & I & E & G & X & B)]; apply orb_true_iff.
  - left. apply existsb_exists. exists s. split; [exact I|]. now apply String.eqb_eq.
  - right. apply existsb_exists. exists d. split; [exact I|]. rewrite G, X. apply String.eqb_eq in E. rewrite E.
    destruct (d_body d); try reflexivity. now destruct B.
Qed.
Definition sized (d : decl) : bool := existsb (fun p => match snd (fst p) with Sized | SizedRef => true | _ => false end) (d_params d).
Definition row_check (p : profile) (d : decl) (ts : list sty) : bool :=
  let n := instance_name (d_name d) ts in
  negb (has_codeb n) ||
  match subst (d_generic d) ts (d_ret d), all_some (map (fun q => subst (d_generic d) ts (snd q)) (d_params d)) with
  | Some t, Some us =>
      existsb stringb (t :: us) ||
      match a_dispatch (a_invoke p 5) (d_name d) us with
      | Some (t', _, _, e) =>
          same_ty t' t && implb (e_panic e) (mem n aborting || mem n (can_abort p)) && implb (e_ub e) (mem n undefined)
      | None => false
      end
  | _, _ => false
  end.
Fixpoint distinct (l : list string) : bool := match l with [] => true | x :: l' => negb (mem x l') && distinct l' end.
Definition generic_check (p : profile) (d : decl) : bool :=
  match d_generic d with
  | [] => true
  | g => distinct (map fst g) && (sized d || forallb (row_check p d) (assignments g))
  end.
Lemma generics_checked : forall p, forallb (generic_check p) st_decls = true.
Proof. intros []; vm_compute; reflexivity. Qed.
Lemma subst_means : forall d ts r t, distinct (map fst (d_generic d)) = true -> means d ts r t -> subst (d_generic d) ts r = Some t.
Proof.
  intros d ts r t D [->|(x & -> & I)]; [reflexivity|]. cbn [subst].
  revert ts I D. induction (map fst (d_generic d)) as [|y l IH]; intros [|u ts] I D; try contradiction. cbn [combine find fst].
  cbn [distinct] in D. apply andb_prop in D. destruct D as [D1 D2]. destruct I as [I|I].
  - injection I as -> ->. now rewrite String.eqb_refl.
  - destruct (String.eqb y x) eqn:E; [|now apply IH]. apply String.eqb_eq in E. subst y. apply in_combine_l in I.
    apply negb_true_iff in D1. assert (M : mem x l = true) by (apply existsb_exists; exists x; split; [exact I|apply String.eqb_refl]).
    congruence.
Qed.
Lemma generics_safe : forall d ts ret ps P args, List.In d st_decls -> d_generic d <> [] -> sized d = false ->
  Forall2 (fun x t => List.In t (members (snd x))) (d_generic d) ts -> SpecLink.typed d ts ret ps ->
  Forall no_string (ret :: map snd ps) -> has_code (instance_name (d_name d) ts) -> sane P -> Forall2 holds (map snd ps) args ->
  match call P (d_name d) (combine (map snd ps) args) with
  | Ok (t, v) => holds ret v
  | Panic => List.In (instance_name (d_name d) ts) (aborting ++ can_abort (p_profile P))
  | Ub => List.In (instance_name (d_name d) ts) undefined
  end.
Proof.
  intros d ts ret ps P args D G Z M T N C SP H.
  pose proof (proj1 (forallb_forall _ _) (generics_checked (p_profile P)) d D) as K. unfold generic_check in K.
  assert (K' : distinct (map fst (d_generic d)) = true /\ forallb (row_check (p_profile P) d) (assignments (d_generic d)) = true).
  { destruct (d_generic d) as [|x g]; [contradiction|]. apply andb_prop in K. destruct K as [K1 K2]. split; [exact K1|].
    rewrite Z in K2. exact K2. }
  clear K. destruct K' as [K1 K2]. pose proof (proj1 (forallb_forall _ _) K2 ts (assignments_in _ _ M)) as K. unfold row_check in K.
  cbv zeta in K. rewrite (has_codeb_ok _ C) in K. cbn [negb orb] in K. destruct T as (_ & T1 & T2).
  rewrite (subst_means d ts _ ret K1 T1) in K.
  assert (E : all_some (map (fun q => subst (d_generic d) ts (snd q)) (d_params d)) = Some (map snd ps)).
  { clear - T2 K1. induction T2 as [|q r l m [_ Q] T2 IH]; [reflexivity|]. cbn [map all_some].
    now rewrite (subst_means d ts _ _ K1 Q), IH. }
  rewrite E in K. assert (S : existsb stringb (ret :: map snd ps) = false).
  { apply not_true_iff_false. intros X. apply existsb_exists in X. destruct X as (u & U & X). rewrite Forall_forall in N.
    rewrite (stringb_no u (N u U)) in X. discriminate X. }
  rewrite S in K. cbn [orb] in K. set (l := combine (map snd ps) args).
  assert (L : map fst l = map snd ps /\ Forall (fun b => holds (fst b) (snd b)) l).
  { subst l. clear - H. induction H as [|u v us vs V H [I1 I2]]; [split; [reflexivity|constructor]|]. cbn [combine map fst]. split; [now rewrite I1|].
    now constructor. }
  destruct L as [L1 L2].
  destruct (a_dispatch (a_invoke (p_profile P) 5) (d_name d) (map snd ps)) as [[[[t us] ps'] e]|] eqn:A; [|discriminate].
  rewrite <- L1 in A.
  pose proof (dispatch_sound (invoke P 5) _ (d_name d) l t us ps' e (invoke_sound P SP 5) L2 A) as R.
  apply andb_prop in K. destruct K as [K K5]. apply andb_prop in K. destruct K as [K3 K4]. unfold call. fold (api P) in R.
  change (dispatch (invoke P 5)) with (dispatch (api P)) in R.
  destruct (dispatch (api P) (d_name d) l) as [[[[t' v] ps''] outs]| |]; cbn [obind].
  - destruct R as (-> & _ & R & _). exact (same_holds t ret v K3 R).
  - cbn [within] in R. rewrite R in K4. cbn [implb] in K4. apply in_or_app. apply orb_true_iff in K4.
    destruct K4 as [K4|K4]; [left|right]; now apply mem_In.
  - cbn [within] in R. rewrite R in K5. now apply mem_In.
Qed.

(** * The listed functions *)
Definition dbl (k : Z) : value := VF (FNum (f_of_int F64 k)).
Definition witness (n : string) : list value :=
  if prefix "CONCAT_DATE_" n then [VZ ProofSafe2.last; VZ 86399000000000]
  else if prefix "CONCAT_LTOD" n then [VZ 24; VZ 0; VZ 0; VZ 0]
  else if prefix "CONCAT_" n then [VZ 2001; VZ 2; VZ 29; VZ 0; VZ 0; VZ 0; VZ 0]
  else if prefix "ADD" n then [VZ ProofSafe2.last; VZ 1]
  else if prefix "SUB" n then [VZ (- ProofSafe2.last); VZ ProofSafe2.last]
  else if prefix "SPLIT" n then [VZ 0; VZ 0; VZ 0; VZ 0; VZ 0; VZ 0; VZ 0; VZ 0]
  else if prefix "REAL" n || prefix "LREAL" n || prefix "TRUNC" n then [VF (FNum (S754_infinity false))]
  else [VZ (- ProofSafe2.last)].
Definition holdsb (t : sty) (v : value) : bool :=
  match t with
  | S_BOOL => match v with VZ z => (z =? 0) || (z =? 1) | _ => false end
  | S_STRING | S_WSTRING => false
  | _ => typedb (repr t) v
  end.
Lemma holdsb_ok : forall t v, holdsb t v = true -> holds t v.
Proof.
  intros t v H. destruct t; try discriminate H; try exact (typedb_ok _ v H). destruct v as [z| |]; try discriminate H.
  apply orb_true_iff in H. destruct H as [H|H]; apply Z.eqb_eq in H; subst; [now left|now right].
Qed.
Fixpoint holdsbs (ts : list sty) (vs : list value) : bool :=
  match ts, vs with [], [] => true | t :: r, v :: w => holdsb t v && holdsbs r w | _, _ => false end.
Lemma holdsbs_ok : forall ts vs, holdsbs ts vs = true -> Forall2 holds ts vs.
Proof.
  induction ts as [|t ts IH]; intros [|v vs] H; try discriminate H; [constructor|].
  apply andb_true_iff in H. destruct H. constructor; [now apply holdsb_ok|now apply IH].
Qed.
Definition is_panic (o : outcome (value * list value)) : bool := match o with Panic => true | _ => false end.
Definition is_ub (o : outcome (value * list value)) : bool := match o with Ub => true | _ => false end.
Definition all_ty (d : decl) : bool := forallb (fun p => match snd p with Ty _ => true | Var _ => false end) (d_params d).
Lemma all_ty_eq : forall d, all_ty d = true -> map snd (d_params d) = map Ty (param_types d).
Proof.
  intros d. unfold all_ty, param_types. induction (d_params d) as [|[x [t|y]] l IH]; intros H; try discriminate H; [reflexivity|].
  cbn [map snd flat_map app]. now rewrite (IH H).
Qed.
Definition witness_check (is : outcome (value * list value) -> bool) (p : profile) (n : string) : bool :=
  match find_decl n with
  | Some d => covered d && all_ty d && holdsbs (param_types d) (witness n) && is (api (a_platform p) n (witness n))
  | None => false
  end.
Lemma aborting_checked : forall p, forallb (witness_check is_panic p) aborting = true.
Proof. intros []; vm_compute; reflexivity. Qed.
Lemma undefined_checked : forall p, forallb (witness_check is_ub p) undefined = true.
Proof. intros []; vm_compute; reflexivity. Qed.
Lemma witness_ok : forall is p n, witness_check is p n = true -> exists d t ts args, List.In d st_decls /\ d_name d = n /\
  d_generic d = [] /\ d_ret d = Ty t /\ map snd (d_params d) = map Ty ts /\ Forall no_string (t :: ts) /\ Forall2 holds ts args /\
  is (api (a_platform p) n args) = true.
Proof.
  intros is p n W. unfold witness_check in W. destruct (find_decl n) as [d|] eqn:F; [|discriminate].
  unfold find_decl in F. apply find_some in F. destruct F as [I E]. apply String.eqb_eq in E.
  apply andb_prop in W. destruct W as [W W4]. apply andb_prop in W. destruct W as [W W3]. apply andb_prop in W. destruct W as [W1 W2].
  unfold covered in W1. destruct (d_generic d) eqn:G; [|discriminate]. destruct (d_ret d) as [t|x] eqn:R; [|discriminate].
  exists d, t, (param_types d), (witness n). split; [exact I|]. split; [exact E|]. split; [exact G|]. split; [exact R|].
  split; [exact (all_ty_eq d W2)|]. split; [|split; [now apply holdsbs_ok|exact W4]].
  apply Forall_forall. intros u U. rewrite forallb_forall in W1. specialize (W1 u U). destruct u; try discriminate W1; split; discriminate.
Qed.
Lemma listed_abort : forall p n, List.In n aborting -> exists d t ts P args, List.In d st_decls /\ d_name d = n /\
  d_generic d = [] /\ d_ret d = Ty t /\ map snd (d_params d) = map Ty ts /\ Forall no_string (t :: ts) /\
  sane P /\ p_profile P = p /\ Forall2 holds ts args /\ api P n args = Panic.
Proof.
  intros p n N. pose proof (proj1 (forallb_forall _ _) (aborting_checked p) n N) as C.
  destruct (witness_ok _ _ _ C) as (d & t & ts & args & H1 & H2 & H3 & H4 & H5 & H6 & H7 & H8).
  exists d, t, ts, (a_platform p), args. repeat (split; [first [assumption|apply a_platform_sane|reflexivity]|]).
  destruct (api (a_platform p) n args); [discriminate H8|reflexivity|discriminate H8].
Qed.
Lemma listed_undefined : forall p n, List.In n undefined -> exists d t ts P args, List.In d st_decls /\ d_name d = n /\
  d_generic d = [] /\ d_ret d = Ty t /\ map snd (d_params d) = map Ty ts /\ Forall no_string (t :: ts) /\
  sane P /\ p_profile P = p /\ Forall2 holds ts args /\ api P n args = Ub.
Proof.
  intros p n N. pose proof (proj1 (forallb_forall _ _) (undefined_checked p) n N) as C.
  destruct (witness_ok _ _ _ C) as (d & t & ts & args & H1 & H2 & H3 & H4 & H5 & H6 & H7 & H8).
  exists d, t, ts, (a_platform p), args. repeat (split; [first [assumption|apply a_platform_sane|reflexivity]|]).
  destruct (api (a_platform p) n args); [discriminate H8|discriminate H8|reflexivity].
Qed.

(** * Functions that take any number of arguments *)
Definition many_check (f : string) (t : sty) : bool :=
  let n := instance_name f [t] in
  stringb t ||
  match symbol_of n with
  | Some s => numeric s && match array (sy_params s) with Some r => is_bool t || compat t r && compat t (sy_ret s) | None => false end
  | None => false
  end && match find_decl n with None => true | _ => false end && match find_code n with Some _ => true | None => false end
  && negb (mem n (can_abort Debug)) && negb (mem n (can_abort Release)).
Lemma many_checked : forall f, List.In f ["MAX"; "MIN"] -> forallb (many_check f) (members ANY_ELEMENTARY) = true.
Proof. intros f [<-|[<-|[]]]; vm_compute; reflexivity. Qed.
Lemma no_abort : forall p n, negb (mem n (can_abort Debug)) && negb (mem n (can_abort Release)) = true -> ~ List.In n (can_abort p).
Proof.
  intros p n H I. assert (M : mem n (can_abort p) = true) by (apply existsb_exists; exists n; split; [exact I|apply String.eqb_refl]).
  destruct p; rewrite M in H; [discriminate H|]. now rewrite andb_comm in H.
Qed.
Lemma coerce_vars : forall x y t l, coerce_all (map (fun _ => (x, Sized, Var y)) (map fst (map (@pair sty value t) l))) (map (pair t) l) = Ok l.
Proof. intros x y t. induction l as [|v l IH]; [reflexivity|]. cbn [map fst coerce_all]. now rewrite IH. Qed.
Definition many_decl (f : string) : decl := Decl f true [("T", ANY_ELEMENTARY)] (Var "T") [("IN", Sized, Var "T")] Empty.
Lemma many_call : forall P f t n args, find_decl f = Some (many_decl f) -> n = instance_name f [t] -> find_decl n = None -> find_code n <> None ->
  args <> [] -> call P f (map (pair t) args) = omap (fun q => (t, fst q)) (rust_call P n args).
Proof.
  intros P f t n args F -> N C A. unfold call, dispatch. cbv zeta. unfold resolve. rewrite F. destruct args as [|a args]; [contradiction|].
  cbn [many_decl d_generic variadic d_params d_ret].
  cbn [map fst infer]. rewrite String.eqb_refl. cbn [all_some option_map].
  change (formals [("IN", Sized, Var "T")] (t :: map fst (map (pair t) args)))
    with (map (fun _ : sty => ("IN", Sized, Var "T")) (map fst (map (@pair sty value t) (a :: args)))).
  change ((t, a) :: map (pair t) args) with (map (@pair sty value t) (a :: args)).
  rewrite coerce_vars. cbn [obind]. unfold api. cbn [invoke]. rewrite N. unfold basic. destruct (find_code (instance_name f [t])) eqn:E; [|now destruct C].
  destruct (rust_call P (instance_name f [t]) (a :: args)) as [[v outs]| |]; try reflexivity.
Qed.
Lemma any_number : forall f t P args, List.In f ["MAX"; "MIN"] -> List.In t (members ANY_ELEMENTARY) -> no_string t -> sane P ->
  Forall (holds t) args -> args <> [] -> exists v, call P f (map (pair t) args) = Ok (t, v) /\ holds t v.
Proof.
  intros f t P args F T N SP H A. pose proof (proj1 (forallb_forall _ _) (many_checked f F) t T) as K. unfold many_check in K. cbv zeta in K.
  rewrite (stringb_no t N) in K. cbn [orb] in K. rewrite <- !andb_assoc in K. apply andb_prop in K. destruct K as [K1 K].
  apply andb_prop in K. destruct K as [K2 K]. apply andb_prop in K. destruct K as [K3 K4].
  assert (D : find_decl f = Some (many_decl f)) by (destruct F as [<-|[<-|[]]]; vm_compute; reflexivity).
  rewrite (many_call P f t (instance_name f [t]) args D eq_refl); [| | |exact A].
  2: { destruct (find_decl (instance_name f [t])); [discriminate K2|reflexivity]. }
  2: { intros X. rewrite X in K3. discriminate K3. }
  destruct (symbol_of (instance_name f [t])) as [s|] eqn:S; [|discriminate]. apply andb_prop in K1. destruct K1 as [K1 K5].
  unfold symbol_of in S. apply find_some in S. destruct S as [I E]. apply String.eqb_eq in E.
  destruct (is_bool t) eqn:B.
  - destruct t; try discriminate B. clear - F H A.
    assert (L : exists l, args = map VZ l /\ Forall (of_type S_BOOL) l /\ l <> [] /\ Forall (fun z => z = 0 \/ z = 1) l).
    { assert (L : exists l, args = map VZ l /\ Forall (fun z => z = 0 \/ z = 1) l).
      { clear A. induction H as [|v args V H (l & -> & IH)]; [now exists []|]. destruct V as [-> | ->].
        - exists (0 :: l). split; [reflexivity|]. constructor; [now left|exact IH].
        - exists (1 :: l). split; [reflexivity|]. constructor; [now right|exact IH]. }
      destruct L as (l & -> & L). exists l. split; [reflexivity|]. split; [|split; [intros ->; now apply A|exact L]].
      eapply Forall_impl; [|exact L]. intros z [-> | ->]; split; discriminate. }
    destruct L as (l & -> & L1 & L2 & L3).
    destruct (extremes_by_name P S_BOOL l ltac:(cbv; intuition) L1 L2) as [(r & R & Ir & _) (r' & R' & Ir' & _)].
    rewrite Forall_forall in L3. unfold result in R, R'.
    destruct F as [<-|[<-|[]]].
    + destruct (rust_call P (instance_name "MAX" [S_BOOL]) (map VZ l)) as [[[z| |] o]| |]; try discriminate R. injection R as ->.
      exists (VZ r). split; [reflexivity|]. destruct (L3 r Ir) as [-> | ->]; [now left|now right].
    + destruct (rust_call P (instance_name "MIN" [S_BOOL]) (map VZ l)) as [[[z| |] o]| |]; try discriminate R'. injection R' as ->.
      exists (VZ r'). split; [reflexivity|]. destruct (L3 r' Ir') as [-> | ->]; [now left|now right].
  - destruct (array (sy_params s)) as [r|] eqn:Ar; [|discriminate]. cbn [orb] in K5. apply andb_prop in K5. destruct K5 as [C1 C2].
    assert (Ha : arguments s args).
    { unfold arguments. rewrite Ar. split; [exact A|]. eapply Forall_impl; [|exact H]. intros v. now apply (compat_holds t r). }
    pose proof (all_symbols s I K1 P args SP Ha) as X. rewrite E in X.
    destruct (rust_call P (instance_name f [t]) args) as [[v o]| |]; [|now apply (no_abort _ _ K4) in X|destruct X].
    exists v. split; [reflexivity|]. now apply (compat_holds t (sy_ret s)).
Qed.
Lemma fixed_not_sized : forall d, fixed_arity d -> sized d = false.
Proof.
  intros d F. apply not_true_iff_false. intros X. apply existsb_exists in X. destruct X as ([[x k] t] & I & X).
  unfold fixed_arity in F. rewrite Forall_forall in F. specialize (F _ I). cbn [fst snd] in *. destruct F, k; try discriminate X; contradiction.
Qed.
