(** Proofs for C92 in terms of programs. *)
From Coq Require Import String ZArith List Bool Lia.
From Verif Require Import Base ModelFB ModelCounters ModelTimers ModelLayout ModelMachine
  SpecFB SpecLayout SpecMachine ProofBase ProofLayout ProofMachine ProofMachine2 ProofAgree.
Import ListNotations.
Open Scope list_scope.
Open Scope string_scope.
Open Scope Z_scope.

Lemma outputs_cv : forall r i o a c,
  outputs r i ["Q"; "CV"] o = Ok [a; c] -> outputs r i ["CV"] o = Ok [c].
Proof.
  intros r i o a c H. destruct o as [m| |]; try discriminate. cbn [outputs omap map] in *.
  injection H as H1 H2. rewrite H2. reflexivity.
Qed.

Lemma outputs_cv3 : forall r i o a b c,
  outputs r i ["QU"; "QD"; "CV"] o = Ok [a; b; c] -> outputs r i ["CV"] o = Ok [c].
Proof.
  intros r i o a b c H. destruct o as [m| |]; try discriminate. cbn [outputs omap map] in *.
  injection H as H1 H2 H3. rewrite H3. reflexivity.
Qed.

Lemma up_run : forall r p m i t h, In (i_name i, t) up_counters -> zeroed r m i ->
  Forall (fun x => in_ity t (cui_pv x)) h ->
  outputs r i ["Q"; "CV"] (run r p m (up_program i h)) =
  omap (fun s => [Ok (VBool (ctu_q s)); Ok (VInt (ctu_cv s))]) (ctu_run p t ctu_default h).
Proof. intros r p m [n b] t h N Z F. exact (ctu_runs r p n t b m h N Z F). Qed.

Lemma down_run : forall r p m i t h, In (i_name i, t) down_counters -> zeroed r m i ->
  Forall (fun x => in_ity t (cdi_pv x)) h ->
  outputs r i ["Q"; "CV"] (run r p m (down_program i h)) =
  omap (fun s => [Ok (VBool (ctd_q s)); Ok (VInt (ctd_cv s))]) (ctd_run p t ctd_default h).
Proof. intros r p m [n b] t h N Z F. exact (ctd_runs r p n t b m h N Z F). Qed.

Lemma up_down_run : forall r p m i t h, In (i_name i, t) up_down_counters -> zeroed r m i ->
  Forall (fun x => in_ity t (cudi_pv x)) h ->
  outputs r i ["QU"; "QD"; "CV"] (run r p m (up_down_program i h)) =
  omap (fun s => [Ok (VBool (cud_qu s)); Ok (VBool (cud_qd s)); Ok (VInt (cud_cv s))])
    (ctud_run p t ctud_default h).
Proof. intros r p m [n b] t h N Z F. exact (ctud_runs r p n t b m h N Z F). Qed.

Lemma Forall_app_l : forall A (P : A -> Prop) l1 l2, Forall P (l1 ++ l2) -> Forall P l1.
Proof. intros A P l1 l2 H. apply Forall_app in H. apply H. Qed.

Lemma up_agree : forall r p q m i j t u h,
  In (i_name i, t) up_counters -> In (i_name j, u) up_counters ->
  zeroed r m i -> zeroed r m j ->
  Forall (fun x => in_ity t (cui_pv x) /\ in_ity u (cui_pv x)) h ->
  cv_stays_in u r p m i up_program h -> cv_stays_in t r q m j up_program h ->
  outputs r i ["Q"; "CV"] (run r p m (up_program i h)) =
  outputs r j ["Q"; "CV"] (run r q m (up_program j h)).
Proof.
  intros r p q m i j t u h Ni Nj Zi Zj F Si Sj.
  assert (Ft : Forall (fun x => in_ity t (cui_pv x)) h)
    by (eapply Forall_impl; [|exact F]; intros a [A _]; exact A).
  assert (Fu : Forall (fun x => in_ity u (cui_pv x)) h)
    by (eapply Forall_impl; [|exact F]; intros a [_ A]; exact A).
  destruct (ctu_agree p q t u h) as (s & S1 & S2).
  - apply ctypes_zero, (up_tables _ _ Ni).
  - apply ctypes_zero, (up_tables _ _ Nj).
  - intros h1 h2 s E R. apply (Si h1 h2 (ctu_cv s) E). rewrite E in Ft.
    eapply outputs_cv. rewrite (up_run r p m i t h1 Ni Zi (Forall_app_l _ _ _ _ Ft)), R. reflexivity.
  - intros h1 h2 s E R. apply (Sj h1 h2 (ctu_cv s) E). rewrite E in Fu.
    eapply outputs_cv. rewrite (up_run r q m j u h1 Nj Zj (Forall_app_l _ _ _ _ Fu)), R. reflexivity.
  - rewrite (up_run r p m i t h Ni Zi Ft), (up_run r q m j u h Nj Zj Fu), S1, S2. reflexivity.
Qed.

Lemma down_agree : forall r p q m i j t u h,
  In (i_name i, t) down_counters -> In (i_name j, u) down_counters ->
  zeroed r m i -> zeroed r m j ->
  Forall (fun x => in_ity t (cdi_pv x) /\ in_ity u (cdi_pv x)) h ->
  cv_stays_in u r p m i down_program h -> cv_stays_in t r q m j down_program h ->
  outputs r i ["Q"; "CV"] (run r p m (down_program i h)) =
  outputs r j ["Q"; "CV"] (run r q m (down_program j h)).
Proof.
  intros r p q m i j t u h Ni Nj Zi Zj F Si Sj.
  assert (Ft : Forall (fun x => in_ity t (cdi_pv x)) h)
    by (eapply Forall_impl; [|exact F]; intros a [A _]; exact A).
  assert (Fu : Forall (fun x => in_ity u (cdi_pv x)) h)
    by (eapply Forall_impl; [|exact F]; intros a [_ A]; exact A).
  destruct (ctd_agree p q t u h) as (s & S1 & S2).
  - apply ctypes_zero, (down_tables _ _ Ni).
  - apply ctypes_zero, (down_tables _ _ Nj).
  - intros h1 h2 s E R. apply (Si h1 h2 (ctd_cv s) E). rewrite E in Ft.
    eapply outputs_cv. rewrite (down_run r p m i t h1 Ni Zi (Forall_app_l _ _ _ _ Ft)), R. reflexivity.
  - intros h1 h2 s E R. apply (Sj h1 h2 (ctd_cv s) E). rewrite E in Fu.
    eapply outputs_cv. rewrite (down_run r q m j u h1 Nj Zj (Forall_app_l _ _ _ _ Fu)), R. reflexivity.
  - rewrite (down_run r p m i t h Ni Zi Ft), (down_run r q m j u h Nj Zj Fu), S1, S2. reflexivity.
Qed.

Lemma up_down_agree : forall r p q m i j t u h,
  In (i_name i, t) up_down_counters -> In (i_name j, u) up_down_counters ->
  zeroed r m i -> zeroed r m j ->
  Forall (fun x => in_ity t (cudi_pv x) /\ in_ity u (cudi_pv x)) h ->
  cv_stays_in u r p m i up_down_program h -> cv_stays_in t r q m j up_down_program h ->
  outputs r i ["QU"; "QD"; "CV"] (run r p m (up_down_program i h)) =
  outputs r j ["QU"; "QD"; "CV"] (run r q m (up_down_program j h)).
Proof.
  intros r p q m i j t u h Ni Nj Zi Zj F Si Sj.
  assert (Ft : Forall (fun x => in_ity t (cudi_pv x)) h)
    by (eapply Forall_impl; [|exact F]; intros a [A _]; exact A).
  assert (Fu : Forall (fun x => in_ity u (cudi_pv x)) h)
    by (eapply Forall_impl; [|exact F]; intros a [_ A]; exact A).
  destruct (ctud_agree p q t u h) as (s & S1 & S2).
  - apply ctypes_zero, (up_down_tables _ _ Ni).
  - apply ctypes_zero, (up_down_tables _ _ Nj).
  - intros h1 h2 s E R. apply (Si h1 h2 (cud_cv s) E). rewrite E in Ft.
    eapply outputs_cv3. rewrite (up_down_run r p m i t h1 Ni Zi (Forall_app_l _ _ _ _ Ft)), R. reflexivity.
  - intros h1 h2 s E R. apply (Sj h1 h2 (cud_cv s) E). rewrite E in Fu.
    eapply outputs_cv3. rewrite (up_down_run r q m j u h1 Nj Zj (Forall_app_l _ _ _ _ Fu)), R. reflexivity.
  - rewrite (up_down_run r p m i t h Ni Zi Ft), (up_down_run r q m j u h Nj Zj Fu), S1, S2. reflexivity.
Qed.

Lemma ctu_bounded : forall p t h s s' k, In t ctypes -> 0 <= ctu_cv s <= k ->
  k + Z.of_nat (length h) <= 32767 -> ctu_run p t s h = Ok s' ->
  0 <= ctu_cv s' <= k + Z.of_nat (length h).
Proof.
  intros p t h. induction h as [|i h IH]; intros s s' k T B L R.
  - injection R as <-. cbn [length]. lia.
  - cbn [ctu_run] in R. destruct (ctu_call p t s i) as [s1| |] eqn:E; try discriminate. cbn [obind] in R.
    cbn [length] in *.
    assert (B1 : 0 <= ctu_cv s1 <= k + 1).
    { unfold ctu_call, ctu in E. cbn [ctu_r ctu_cu ctu_pv ctu_q ctu_cv ctu_internal] in E.
      destruct (cui_r i); [injection E as <-; cbn [ctu_cv]; lia|].
      destruct (rising_edge _ _) as [e sg]. destruct (e && _).
      - rewrite arith_ok in E; [injection E as <-; cbn [ctu_cv]; lia|].
        unfold in_ity. cbn in T.
        repeat (destruct T as [<-|T]; [unfold imin, imax; cbn [it_signed it_bits i16 i32 u32 i64 u64]; lia|]).
        contradiction.
      - injection E as <-. cbn [ctu_cv]. lia. }
    apply (IH s1 s' (k + 1) T B1) in R; lia.
Qed.

Lemma short_up : forall r p m i t u h,
  In (i_name i, t) up_counters -> In u counter_types -> zeroed r m i ->
  Forall (fun x => in_ity t (cui_pv x)) h -> Z.of_nat (length h) <= 32767 ->
  cv_stays_in u r p m i up_program h.
Proof.
  intros r p m i t u h Ni U Zi F L h1 h2 v E O. rewrite E in F.
  pose proof (up_run r p m i t h1 Ni Zi (Forall_app_l _ _ _ _ F)) as R.
  destruct (run r p m (up_program i h1)) as [m'| |]; try discriminate O.
  cbn [outputs omap map] in O, R. destruct (ctu_run p t ctu_default h1) as [s| |] eqn:C; try discriminate R.
  cbn [omap] in R. injection R as _ R. injection O as O. rewrite R in O. injection O as O.
  assert (LL : Z.of_nat (length h1) <= 32767) by (rewrite E, app_length in L; lia).
  apply (ctu_bounded p t h1 ctu_default s 0) in C; [|apply (up_tables _ _ Ni)|cbn; lia|lia].
  rewrite O in C. unfold in_ity. unfold counter_types in U. cbn [In] in U.
  repeat (destruct U as [<-|U]; [unfold imin, imax; cbn [it_signed it_bits i16 i32 u32 i64 u64]; lia|]).
  contradiction.
Qed.
