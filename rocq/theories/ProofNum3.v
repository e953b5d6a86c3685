(** Selection and times with REAL and LREAL in expressions, and laws. *)
From Coq Require Import String Ascii ZArith Lia List Bool SpecFloat Reals Lra Permutation.
From Flocq Require Import Core BinarySingleNaN.
From Verif Require Import Base ModelFloat ModelScalar ModelArith ModelTimeNum ModelText ModelString ModelExtra ModelDate ModelChrono ModelST ModelWrap ModelLink ModelLib
  ModelApi SpecScalar SpecTimeNum SpecReal SpecPow SpecST SpecDate SpecText SpecLink SpecConv SpecLib SpecName SpecWrap SpecCall SpecExpr SpecNum ProofBase ProofScalar
  ProofFlocq ProofReal ProofReal2 ProofST ProofST2 ProofLib ProofLib2 ProofConv ProofName ProofName3 ProofApi2 ProofApi3 ProofCall2 ProofCall4 ProofProg ProofExpr ProofExpr2 ProofExpr3 ProofExpr4 ProofSqr ProofNum ProofNum2.
Import ListNotations.
Open Scope string_scope.
Open Scope list_scope.
Open Scope Z_scope.
Local Opaque call value_in api.

Lemma numbers_values : forall P r t es qs, Forall2 (number P r t) es qs ->
  exists vs, Forall2 (fun e tv => value_in P r e = Ok tv) es (map (pair t) (map VF vs)) /\ qs = map fl_value vs /\
    Forall (fun v => fl_valid (fmt_of t) v /\ fl_finite v = true) vs.
Proof.
  intros P r t es qs H. induction H as [|e q es qs (v & E & V & F & <-) H (vs & A & -> & C)].
  - exists []. repeat split; constructor.
  - exists (v :: vs). split; [constructor; assumption|]. split; [reflexivity|]. constructor; auto.
Qed.
Lemma select_number : forall P r t es qs, List.In t reals -> Forall2 (number P r t) es qs -> es <> [] ->
  (exists m, number P r t (Call "MAX" es) m /\ List.In m qs /\ forall q, List.In q qs -> (q <= m)%R) /\
  (exists m, number P r t (Call "MIN" es) m /\ List.In m qs /\ forall q, List.In q qs -> (m <= q)%R).
Proof.
  intros P r t es qs T H N. pose proof (real_fmt t T) as Hf. destruct (numbers_values P r t es qs H) as (vs & A & -> & C).
  assert (NV : vs <> []) by (intros ->; inversion A; subst; now apply N).
  rewrite Forall_forall in C.
  destruct (max_min_float_name P (type_name t) (fmt_of t) vs (real_named t T) NV) as ((a & E1 & I1 & M1 & O1) & (b & E2 & I2 & M2 & O2)).
  assert (K : forall f p, List.In f ["MAX"; "MIN"] -> rust_call P (f ++ "__" ++ type_name t)%string (map VF vs) = Ok (VF (fl_of_sf (fmt_of t) p), map VF vs) ->
    List.In p (map fl_sf vs) -> exists w, p = fl_sf w /\ List.In w vs /\ value_in P r (Call f es) = Ok (t, VF w)).
  { intros f p Hfn E I. apply in_map_iff in I. destruct I as (w & <- & I). exists w. split; [reflexivity|]. split; [exact I|].
    rewrite (finite_fnum (fmt_of t) w (proj2 (C w I))) in E. rewrite <- (one_type f t T) in E.
    rewrite (value_call P r f es _ A).
    assert (TE : List.In t (members ANY_ELEMENTARY)) by (destruct T as [<-|[<-|[]]]; cbn; tauto).
    assert (B : stringb t = false) by (destruct T as [<-|[<-|[]]]; reflexivity).
    pose proof (many_checked f Hfn) as CK. rewrite forallb_forall in CK. specialize (CK t TE). unfold many_check in CK. cbv zeta in CK. rewrite B in CK.
    cbn [orb] in CK. apply andb_true_iff in CK as [CK _]. apply andb_true_iff in CK as [CK _]. apply andb_true_iff in CK as [CK C2].
    apply andb_true_iff in CK as [_ C1].
    rewrite (many_call P f t (instance_name f [t]) (map VF vs)).
    - rewrite E. reflexivity.
    - destruct Hfn as [<-|[<-|[]]]; vm_compute; reflexivity.
    - reflexivity.
    - destruct (find_decl (instance_name f [t])); [discriminate C1|reflexivity].
    - intros X. rewrite X in C2. discriminate C2.
    - destruct vs; [contradiction|discriminate]. }
  assert (NN : forall v, List.In v vs -> sf_nan (fl_sf v) = false).
  { intros v I. destruct (C v I) as [_ F]. destruct v as [[s|s| |s m e]|s p]; try discriminate; reflexivity. }
  split.
  - destruct (K "MAX" a (or_introl eq_refl) E1 I1) as (w & -> & I & V). exists (fl_value w). destruct (C w I) as [Vw Fw].
    split; [now exists w|]. split; [now apply in_map|]. intros q Q. apply in_map_iff in Q. destruct Q as (u & <- & J). destruct (C u J) as [Vu Fu].
    apply (value_leb (fmt_of t) u w Hf Vu Vw Fu Fw). apply O1; [now apply in_map|now apply NN].
  - destruct (K "MIN" b (or_intror (or_introl eq_refl)) E2 I2) as (w & -> & I & V). exists (fl_value w). destruct (C w I) as [Vw Fw].
    split; [now exists w|]. split; [now apply in_map|]. intros q Q. apply in_map_iff in Q. destruct Q as (u & <- & J). destruct (C u J) as [Vu Fu].
    apply (value_leb (fmt_of t) w u Hf Vw Vu Fw Fu). apply O2; [now apply in_map|now apply NN].
Qed.
Lemma max_min_2 : forall P r t e e' a b, List.In t reals -> number P r t e a -> number P r t e' b ->
  number P r t (Call "MAX" [e; e']) (Rmax a b) /\ number P r t (Call "MIN" [e; e']) (Rmin a b).
Proof.
  intros P r t e e' a b T A B.
  destruct (select_number P r t [e; e'] [a; b] T) as ((m & M & I & O) & (k & K & J & U)); [repeat (constructor; [assumption|]); constructor|discriminate|].
  split.
  - replace (Rmax a b) with m; [exact M|]. pose proof (O a (or_introl eq_refl)). pose proof (O b (or_intror (or_introl eq_refl))).
    destruct I as [<-|[<-|[]]]; [now rewrite Rmax_left|now rewrite Rmax_right].
  - replace (Rmin a b) with k; [exact K|]. pose proof (U a (or_introl eq_refl)). pose proof (U b (or_intror (or_introl eq_refl))).
    destruct J as [<-|[<-|[]]]; [now rewrite Rmin_left|now rewrite Rmin_right].
Qed.

(** * Times *)
Lemma time_lreal : forall P r t e z, List.In t [S_TIME; S_LTIME] -> whole P r t e z ->
  nearest P r S_LREAL (Call (conversion_name t S_LREAL) [e]) (IZR z) /\
  (Z.abs z <= 2 ^ 53 -> number P r S_LREAL (Call (conversion_name t S_LREAL) [e]) (IZR z)).
Proof.
  intros P r t e z T (E & I).
  assert (I' : in_ity i64 z) by (destruct T as [<-|[<-|[]]]; exact I).
  assert (H : st_conv t S_LREAL = true) by (destruct T as [<-|[<-|[]]]; vm_compute; reflexivity).
  assert (NT : List.In (type_name t) ["TIME"; "LTIME"]) by (destruct T as [<-|[<-|[]]]; cbn; tauto).
  pose proof (time_to_lreal (p_chrono P) (type_name t) z NT I') as C. unfold to in C.
  assert (C' : st_call (p_chrono P) (conversion_name t S_LREAL) [VInt z] = Ok (VFl (FNum (f_of_int F64 z)))) by (destruct T as [<-|[<-|[]]]; exact C).
  assert (Q : value_in P r (Call (conversion_name t S_LREAL) [e]) = Ok (S_LREAL, VF (FNum (f_of_int F64 z)))).
  { rewrite (value_1 P r _ _ _ E), (conv_call P t S_LREAL (VZ z) (VInt z) H eq_refl), C'. reflexivity. }
  split.
  - exists (FNum (f_of_int F64 z)). split; [exact Q|]. apply (of_int_nearest F64 (or_intror eq_refl)). apply (ity_abs i64); [cbn; tauto|exact I'].
  - intros L. exists (FNum (f_of_int F64 z)). split; [exact Q|]. exact (of_int_exact F64 (or_intror eq_refl) z L).
Qed.
Lemma time_scale : forall P r t f F e x a q, List.In t reals -> List.In (f, F) ProofNum.time_names -> whole P r S_TIME e a -> number P r t x q ->
  (List.In F products ->
     (forall z, value_in P r (Call f [e; x]) = Ok (S_TIME, VZ z) -> (Rabs (IZR z - IZR a * q) <= time_error (p_durgen P) (fmt_of t) (IZR a * q))%R) /\
     ((Rabs (IZR a * q) + time_error (p_durgen P) (fmt_of t) (IZR a * q) <= 9223372036854775807)%R ->
        exists z, value_in P r (Call f [e; x]) = Ok (S_TIME, VZ z))) /\
  (List.In F quotients -> q <> 0%R ->
     (forall z, value_in P r (Call f [e; x]) = Ok (S_TIME, VZ z) -> (Rabs (IZR z - IZR a / q) <= time_error (p_durgen P) (fmt_of t) (IZR a / q))%R) /\
     ((Rabs (IZR a / q) + time_error (p_durgen P) (fmt_of t) (IZR a / q) <= 9223372036854775807)%R ->
        exists z, value_in P r (Call f [e; x]) = Ok (S_TIME, VZ z))).
Proof.
  intros P r t f F e x a q T I (E & Ta) (v & Ev & V & Fv & <-).
  assert (C : value_in P r (Call f [e; x]) = omap (fun w => (S_TIME, w)) (result (rust_call P (F ++ "__" ++ type_name t)%string [VZ a; VF v]))).
  { rewrite (value_2 P r _ _ _ _ _ E Ev), (generic_call P f [(S_TIME, VZ a); (t, VF v)] (instance_name F [t]) S_TIME (time_checked f F t I T)).
    now rewrite (one_type F t T). }
  destruct (time_real_name P F (type_name t) (fmt_of t) a v (real_named t T) Ta V Fv) as [A B]. cbv zeta in A, B.
  rewrite C. set (o := result (rust_call P (F ++ "__" ++ type_name t)%string [VZ a; VF v])) in *. clearbody o.
  assert (O : forall z, omap (fun w => (S_TIME, w)) o = Ok (S_TIME, VZ z) -> o = Int z) by (intros z Hz; destruct o; [injection Hz as ->; reflexivity|discriminate Hz..]).
  split; [intros K; destruct (A K) as [A1 A2]|intros K N; destruct (B K N) as [A1 A2]].
  - split; [intros z Hz; apply A1, O, Hz|intros L; destruct (A2 L) as [z ->]; now exists z].
  - split; [intros z Hz; apply A1, O, Hz|intros L; destruct (A2 L) as [z ->]; now exists z].
Qed.
(** LREAL_TO_TIME rounds and converts. *)
Lemma exported_dispatch : forall inv f l n u d, exported f (map fst l) n u = true -> find_decl f = Some d ->
  dispatch inv f l = obind (inv n (map snd l)) (fun q => Ok (u, fst q, ModelApi.formals (d_params d) (map fst l), snd q)).
Proof.
  intros inv f l n u d H D. unfold exported in H. rewrite D in H.
  apply andb_true_iff in H as [H H5]. apply andb_true_iff in H as [H H4]. apply andb_true_iff in H as [H H3].
  apply andb_true_iff in H as [H1 H2]. destruct (resolve f (map fst l)) as [m|] eqn:R; [|discriminate].
  apply String.eqb_eq in H1. subst m. destruct (find_decl n) eqn:N; [discriminate|].
  destruct (result_type d (map fst l)) as [t|] eqn:U; [|discriminate]. apply ProofConv.sty_eqb_iff in H3. subst t.
  unfold dispatch. cbv zeta. rewrite D, R, (same_coerce _ _ H2), N. cbn [obind]. unfold result_type in U.
  destruct (inv n (map snd l)) as [[v outs]| |]; [|reflexivity..]. cbn [obind fst snd].
  destruct (d_ret d) as [t|x]; [now injection U as ->|now rewrite U].
Qed.
Lemma lreal_time_call : forall P t v, List.In t [S_TIME; S_LTIME] -> call P (conversion_name S_LREAL t) [(S_LREAL, VF v)] =
  match fl_trunc (ROUND F64 v) with Some k => if in_ityb i64 k then Ok (S_TIME, VZ k) else Ub | None => Ub end.
Proof.
  Local Transparent call api.
  intros P t v T.
  assert (R : rust_call P "ROUND__LREAL" [VF v] = Ok (VF (ROUND F64 v), [VF v])) by (name_of; reflexivity).
  assert (I : invoke P 4 "ROUND__LREAL" [VF v] = Ok (VF (ROUND F64 v), [VF v])).
  { cbn [invoke]. assert (D : find_decl "ROUND__LREAL" = None) by (vm_compute; reflexivity). rewrite D. unfold basic.
    assert (K : match find_code "ROUND__LREAL" with Some _ => true | None => false end = true) by (vm_compute; reflexivity).
    destruct (find_code "ROUND__LREAL"); [exact R|discriminate K]. }
  assert (G : forall u, List.In u [S_TIME; S_LTIME] -> value_of (invoke P 4) [("@", (u, initial u)); ("IN", (S_LREAL, VF v))] (Call "ROUND" [Arg "IN"]) =
    Ok (S_LREAL, VF (ROUND F64 v), [("@", (u, initial u)); ("IN", (S_LREAL, VF v))])).
  { intros u U. change [Arg "IN"] with (map Arg ["IN"]).
    rewrite (value_vars (invoke P 4) _ "ROUND" ["IN"] [(S_LREAL, VF v)]); [|repeat constructor].
    assert (D : exists d, find_decl "ROUND" = Some d /\ ModelApi.formals (d_params d) [S_LREAL] = [("in", Input, Var "T")]) by (eexists; split; vm_compute; reflexivity).
    destruct D as (d & D & Fd).
    rewrite (exported_dispatch (invoke P 4) "ROUND" [(S_LREAL, VF v)] "ROUND__LREAL" S_LREAL d (round_checked S_LREAL ltac:(cbn; tauto)) D).
    cbn [map fst snd]. rewrite I. cbn [obind fst snd]. rewrite Fd. reflexivity. }
  assert (A : api P (conversion_name S_LREAL t) [VF v] =
    match fl_trunc (ROUND F64 v) with Some k => if in_ityb i64 k then Ok (VZ k, [VF v]) else Ub | None => Ub end).
  { unfold api. destruct T as [<-|[<-|[]]];
    ((erewrite invoke_assign; [|vm_compute; reflexivity]); cbv zeta; cbn [map fst snd combine]; rewrite G by (cbn; tauto); cbn [obind];
     unfold coerce; cbn [rty_eqb repr st_type to_val];
     change (st_cast T_LREAL T_LINT (VFl (ROUND F64 v))) with (match fl_trunc (ROUND F64 v) with Some n => if in_ityb i64 n then Ok (VInt n) else Ub | None => Ub end);
     destruct (fl_trunc (ROUND F64 v)) as [k|]; [|reflexivity]; destruct (in_ityb i64 k); reflexivity). }
  unfold call. destruct T as [<-|[<-|[]]];
  (match type of A with api P ?c _ = _ => let n := eval vm_compute in c in change c with n in A |- * end; (erewrite dispatch_eq; [|vm_compute; reflexivity|vm_compute; reflexivity|reflexivity|vm_compute; reflexivity]); rewrite A;
    destruct (fl_trunc (ROUND F64 v)) as [k|]; [|reflexivity]; destruct (in_ityb i64 k); reflexivity).
Qed.
Local Opaque call api.
Lemma lreal_time : forall P r t e q, List.In t [S_TIME; S_LTIME] -> number P r S_LREAL e q ->
  exists k, nearest_int k q /\ (of_type S_TIME k -> whole P r S_TIME (Call (conversion_name S_LREAL t) [e]) k) /\
    (~ of_type S_TIME k -> value_in P r (Call (conversion_name S_LREAL t) [e]) = Ub).
Proof.
  intros P r t e q T (v & E & V & F & <-).
  destruct (round_spec F64 (or_intror eq_refl) v V F) as (k & A & B & C & D). exists k. split; [exact D|].
  assert (Q : value_in P r (Call (conversion_name S_LREAL t) [e]) = if in_ityb i64 k then Ok (S_TIME, VZ k) else Ub).
  { rewrite (value_1 P r _ _ _ E), (lreal_time_call P t v T). now rewrite (trunc_int _ k B C). }
  assert (Y : of_type S_TIME k <-> in_ityb i64 k = true) by (apply typedb; reflexivity).
  rewrite Y. split; intros I; [split; [now rewrite Q, I|now apply Y]|]. rewrite Q. destruct (in_ityb i64 k); [now destruct I|reflexivity].
Qed.
