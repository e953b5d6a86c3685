(** Proofs about programs that take dates and times apart: SPLIT_DATE, SPLIT_TOD, SPLIT_DT. *)
From Coq Require Import String Ascii ZArith Lia List Bool SpecFloat.
From Verif Require Import Base ModelFloat ModelTimeNum ModelText ModelString ModelExtra ModelDate ModelChrono ModelST ModelWrap ModelLink ModelLib
  ModelApi SpecScalar SpecDate SpecText SpecLink SpecLib SpecName SpecWrap SpecCall ProofBase ProofDate ProofDate2 ProofLib ProofName ProofName3 ProofCall2 ProofProg.
Import ListNotations.
Open Scope string_scope.
Open Scope list_scope.
Open Scope Z_scope.

Fixpoint assign (ys : list string) (vs : list value) (r : env value) : env value :=
  match ys, vs with y :: ys', v :: vs' => put y v (assign ys' vs' r) | _, _ => r end.
Lemma assign_other : forall ys vs r x, ~ List.In x ys -> get x (assign ys vs r) = get x r.
Proof.
  induction ys as [|y ys IH]; intros [|v vs] r x N; try reflexivity. cbn [assign]. cbn in N.
  rewrite get_put_other by (intros ->; tauto). apply IH. tauto.
Qed.
Lemma assign_get : forall t ys vs r, Forall (fun y => exists a, get y r = Ok (t, a)) ys -> NoDup ys -> length ys = length vs ->
  Forall2 (fun y v => get y (assign ys vs r) = Ok (t, v)) ys vs.
Proof.
  intros t. induction ys as [|y ys IH]; intros [|v vs] r F N L; try discriminate L; [constructor|].
  inversion F as [|? ? [a G] F']; subst. inversion N as [|? ? Ny N']; subst. cbn in L. injection L as L. cbn [assign]. constructor.
  - apply (get_put_same _ _ _ t a). rewrite assign_other by exact Ny. exact G.
  - specialize (IH vs r F' N' L). clear - IH Ny. revert IH. generalize (assign ys vs r). intros q IH.
    induction IH as [|z w ys vs E F IH]; [constructor|]. cbn in Ny. constructor; [|apply IH; tauto].
    rewrite get_put_other by (intros ->; tauto). exact E.
Qed.
Lemma copy_out_split : forall (names : list string) p x ys v vs r, length names = length ys -> length ys = length vs ->
  snd (fst p) = Input ->
  copy_out (p :: map (fun n => (n, Output, Var "T")) names) (Arg x :: map Arg ys) (v :: vs) r = assign ys vs r.
Proof.
  intros names [[i k] ty] x ys v vs r L M K. cbn in K. subst k. cbn [copy_out]. revert ys vs L M.
  induction names as [|n names IH]; intros [|y ys] [|w vs] L M; try discriminate; [reflexivity|].
  cbn in L, M. injection L as L. injection M as M. cbn [map copy_out assign]. now rewrite IH.
Qed.
Lemma Forall2_values : forall (A B C : Type) (R : A -> B -> Prop) (f : C -> B) ys zs, Forall2 R ys (map f zs) -> Forall2 (fun y z => R y (f z)) ys zs.
Proof.
  intros A B C R f. induction ys as [|y ys IH]; intros [|z zs] H; inversion H; subst; constructor; [assumption|apply IH; assumption].
Qed.
Lemma split_general : forall P r f tx i x ys t n parts names d, 
  find_decl f = Some d -> d_params d = (i, Input, Ty tx) :: map (fun n => (n, Output, Var "T")) names ->
  resolve f (tx :: map (fun _ => t) ys) = Some (instance_name f [t]) ->
  formals (d_params d) (tx :: map (fun _ => t) ys) = d_params d ->
  (match find_decl (instance_name f [t]) with Some d' => d_ret d' | None => d_ret d end) = Ty S_INT ->
  length names = length ys -> length ys = length parts ->
  get x r = Ok (tx, VZ n) -> Forall (fun y => exists a, get y r = Ok (t, a)) ys -> NoDup ys ->
  (forall outs, length outs = length parts -> api P (instance_name f [t]) (VZ n :: outs) = Ok (VZ 0, VZ n :: map VZ parts)) ->
  exists r', splits_into P r f x ys t parts r'.
Proof.
  intros P r f tx i x ys t n parts names d D Ps R Fm U L M G F N A.
  assert (V : exists vs, Forall2 (fun y tv => get y r = Ok tv) ys (map (pair t) vs) /\ length vs = length ys).
  { clear - F. induction F as [|y ys [a G] F [vs [IH E]]]; [exists []; split; [constructor|reflexivity]|].
    exists (a :: vs). split; [constructor; assumption|cbn; congruence]. }
  destruct V as (vs & V & Lv).
  assert (Tm : map fst (map (@pair sty value t) vs) = map (fun _ => t) ys).
  { clear - Lv. revert ys Lv. induction vs as [|v vs IH]; intros [|y ys] L; try discriminate; [reflexivity|]. cbn in *. f_equal. apply IH. congruence. }
  exists (assign ys (map VZ parts) r). unfold splits_into. split; [|split].
  - rewrite (value_vars (api P) r f (x :: ys) ((tx, VZ n) :: map (pair t) vs)) by (constructor; assumption).
    rewrite (dispatch_eq (api P) f _ d (instance_name f [t]) (VZ n :: vs) S_INT D).
    + rewrite A by lia. cbn [obind]. cbn [map fst]. rewrite Tm, Fm, Ps. rewrite copy_out_split; [reflexivity|exact L|now rewrite map_length|reflexivity].
    + cbn [map fst]. now rewrite Tm.
    + cbn [map fst]. rewrite Tm, Fm, Ps. cbn [coerce_all]. unfold coerce.
      replace (rty_eqb (repr tx) (repr tx)) with true by (destruct tx; reflexivity). cbn [obind].
      assert (C : coerce_all (map (fun n0 => (n0, Output, Var "T")) names) (map (pair t) vs) = Ok vs).
      { clear - L Lv. rewrite <- Lv in L. clear Lv. revert names L. induction vs as [|v vs IH]; intros [|m names] L; try discriminate; [reflexivity|].
        cbn in L. injection L as L. cbn [map coerce_all]. rewrite IH by exact L. reflexivity. }
      rewrite C. reflexivity.
    + exact U.
  - pose proof (assign_get t ys (map VZ parts) r F N) as B. rewrite map_length in B. exact (Forall2_values _ _ _ _ VZ _ _ (B M)).
  - intros z Z. apply assign_other. exact Z.
Qed.

(** The parts, whatever the type of the variables and what was in them. *)
Lemma i64_of_type : forall n t, List.In t [S_DATE; S_TOD; S_LTOD; S_DT; S_LDT; S_TIME; S_LTIME] -> of_type t n <-> in_ity i64 n.
Proof. intros n t I. repeat (destruct I as [<-|I]; [unfold of_type, in_ity; cbn; lia|]). destruct I. Qed.
Lemma date_parts : forall P n, of_type S_DATE n ->
  exists y m d, day_number (y, m, d) (n / DAY) /\ valid_date (y, m, d) /\ 1677 <= y <= 2262 /\
    forall t outs, List.In t wide_ints -> length outs = 3%nat ->
      api P (instance_name "SPLIT_DATE" [t]) (VZ n :: outs) = Ok (VZ 0, VZ n :: map VZ [y; m; d]).
Proof.
  intros P n I. destruct (splits_agree P "SPLIT_DATE" 3 n) as (parts & L & A); [cbn; tauto|exact I|].
  destruct (split_date_name P S_INT n (VZ 0) (VZ 0) (VZ 0)) as (y & m & d & N & E); [cbn; tauto|exact I|].
  rewrite (A S_INT [VZ 0; VZ 0; VZ 0]) in E by (cbn; tauto).
  assert (parts = [y; m; d]) as ->.
  { destruct parts as [|p1 [|p2 [|p3 [|p4 ps]]]]; try discriminate L. cbn [map] in E. injection E as -> -> ->. reflexivity. }
  exists y, m, d. split; [exact N|]. apply day_number_iff in N. destruct N as [V N]. split; [exact V|].
  pose proof (year_range _ (nd_of_valid _ V)) as Y. rewrite N in Y.
  split; [exact (Y (day_of_i64 n (proj1 (i64_of_type n S_DATE (or_introl eq_refl)) I)))|].
  intros t outs T Lo. rewrite <- (A t outs T Lo). clear - T. unfold wide_ints in T.
  repeat (destruct T as [<-|T]; [unfold api; (erewrite invoke_external; [reflexivity|vm_compute; reflexivity])|]). destruct T.
Qed.
Lemma tod_parts : forall P n, of_type S_TOD n ->
  exists h mi s ms, valid_clock h mi s ms /\ clock_ns h mi s ms = n mod DAY - n mod MILLI /\
    forall t outs, List.In t wide_ints -> length outs = 4%nat ->
      api P (instance_name "SPLIT_TOD" [t]) (VZ n :: outs) = Ok (VZ 0, VZ n :: map VZ [h; mi; s; ms]) /\
      api P (instance_name "SPLIT_LTOD" [t]) (VZ n :: outs) = Ok (VZ 0, VZ n :: map VZ [h; mi; s; ms]).
Proof.
  intros P n I. destruct (splits_agree P "SPLIT_TOD" 4 n) as (parts & L & A); [cbn; tauto|exact I|].
  destruct (split_tod_name P S_INT n (VZ 0) (VZ 0) (VZ 0) (VZ 0)) as (h & mi & s & ms & C & B & E); [cbn; tauto|].
  rewrite (A S_INT [VZ 0; VZ 0; VZ 0; VZ 0]) in E by (cbn; tauto).
  assert (parts = [h; mi; s; ms]) as ->.
  { destruct parts as [|p1 [|p2 [|p3 [|p4 [|p5 ps]]]]]; try discriminate L. cbn [map] in E. injection E as -> -> -> ->. reflexivity. }
  exists h, mi, s, ms. split; [exact C|]. split.
  { clear - B. assert (M : clock_ns h mi s ms mod MILLI = 0).
    { unfold clock_ns, HOUR, MINUTE, SECOND, MILLI. dlia. }
    unfold DAY, MILLI in *. revert M B. generalize (clock_ns h mi s ms). intros c M B. dlia. }
  intros t outs T Lo. pose proof (A t outs T Lo) as At. clear - T Lo At.
  destruct outs as [|o1 [|o2 [|o3 [|o4 [|o5 os]]]]]; try discriminate Lo. clear Lo. cbn [map] in *. unfold wide_ints in T.
  repeat (destruct T as [<-|T]; [norm_name At; split; unfold api;
    [(erewrite invoke_external; [exact At|vm_compute; reflexivity])
    |(erewrite invoke_assign; [|vm_compute; reflexivity]); cbv zeta; cbn [map fst snd combine];
     (erewrite (value_vars _ _ _ ["in"; "hour"; "minute"; "second"; "millisecond"]); [|repeat (constructor; [reflexivity|]); constructor]);
     (erewrite dispatch_eq; [|vm_compute; reflexivity|vm_compute; reflexivity|reflexivity|vm_compute; reflexivity]);
     (erewrite invoke_external; [|vm_compute; reflexivity]); rewrite At; reflexivity]|]).
  destruct T.
Qed.
Lemma dt_parts : forall P n, of_type S_DT n ->
  exists y m d h mi s ms, day_number (y, m, d) (n / DAY) /\ valid_date (y, m, d) /\ 1677 <= y <= 2262 /\
    valid_clock h mi s ms /\ clock_ns h mi s ms = n mod DAY - n mod MILLI /\
    forall t outs, List.In t wide_ints -> length outs = 7%nat ->
      api P (instance_name "SPLIT_DT" [t]) (VZ n :: outs) = Ok (VZ 0, VZ n :: map VZ [y; m; d; h; mi; s; ms]).
Proof.
  intros P n I. destruct (splits_agree P "SPLIT_DT" 7 n) as (parts & L & A); [cbn; tauto|exact I|].
  destruct (split_dt_name P S_INT n (VZ 0) (VZ 0) (VZ 0) (VZ 0) (VZ 0) (VZ 0) (VZ 0)) as (y & m & d & h & mi & s & ms & N & C & B & E); [cbn; tauto|exact I|].
  rewrite (A S_INT [VZ 0; VZ 0; VZ 0; VZ 0; VZ 0; VZ 0; VZ 0]) in E by (cbn; tauto).
  assert (parts = [y; m; d; h; mi; s; ms]) as ->.
  { destruct parts as [|p1 [|p2 [|p3 [|p4 [|p5 [|p6 [|p7 [|p8 ps]]]]]]]]; try discriminate L. cbn [map] in E. injection E as -> -> -> -> -> -> ->. reflexivity. }
  exists y, m, d, h, mi, s, ms. split; [exact N|]. apply day_number_iff in N. destruct N as [V N]. split; [exact V|].
  pose proof (year_range _ (nd_of_valid _ V)) as Y. rewrite N in Y.
  split; [exact (Y (day_of_i64 n I))|].
  split; [exact C|]. split.
  { clear - B. assert (M : clock_ns h mi s ms mod MILLI = 0).
    { unfold clock_ns, HOUR, MINUTE, SECOND, MILLI. dlia. }
    unfold DAY, MILLI in *. revert M B. generalize (clock_ns h mi s ms). intros c M B. dlia. }
  intros t outs T Lo. rewrite <- (A t outs T Lo). clear - T. unfold wide_ints in T.
  repeat (destruct T as [<-|T]; [unfold api; (erewrite invoke_external; [reflexivity|vm_compute; reflexivity])|]). destruct T.
Qed.

(** * Programs *)
Lemma Forall2_ints : forall t ys zs r, Forall2 (fun y z => get y r = Ok (t, VZ z)) ys zs -> Forall2 (fun x tv => get x r = Ok tv) ys (ints t zs).
Proof. intros t ys zs r F. induction F; constructor; assumption. Qed.
Lemma small_type : forall t z, List.In t wide_ints -> 0 <= z <= 2262 -> of_type t z.
Proof. intros t z T Z. unfold wide_ints in T. repeat (destruct T as [<-|T]; [unfold of_type; cbn; lia|]). destruct T. Qed.
Lemma midnight : forall n, n - n mod DAY = n / DAY * DAY.
Proof. intros n. unfold DAY. dlia. Qed.
Lemma of_typeb_i64 : forall z t, List.In t [S_DATE; S_DT] -> of_typeb t z = in_ityb i64 z.
Proof. intros z t I. repeat (destruct I as [<-|I]; [reflexivity|]). destruct I. Qed.
Lemma concat_parts : forall v n y m d, in_ity i64 n -> day_number (y, m, d) (n / DAY) -> valid_date (y, m, d) -> 1677 <= y <= 2262 ->
  CONCAT_DATE v y m d = if in_ityb i64 (n / DAY * DAY) then Ok (n / DAY * DAY) else Panic.
Proof.
  intros v n y m d Hn N V Y. pose proof (month_day_small _ _ _ V) as [M D].
  assert (Ni : narrow i32) by (unfold narrow; cbn; tauto).
  destruct (CONCAT_DATE_valid v i32 y m d) as (k & K & ->); try assumption; try (unfold in_ity; cbn; lia).
  assert (k = n / DAY) by (apply day_number_iff in K, N; destruct K, N; congruence). now subst k.
Qed.
Ltac splits T := eapply split_general;
  [vm_compute; reflexivity|reflexivity|unfold wide_ints in T; repeat (destruct T as [<-|T]; [vm_compute; reflexivity|]); destruct T|
   unfold wide_ints in T; repeat (destruct T as [<-|T]; [vm_compute; reflexivity|]); destruct T|
   unfold wide_ints in T; repeat (destruct T as [<-|T]; [vm_compute; reflexivity|]); destruct T|idtac..].
Lemma split_date_prog : forall P r t x ys n, List.In t wide_ints -> get x r = Ok (S_DATE, VZ n) -> of_type S_DATE n ->
  variables t ys r -> length ys = 3%nat ->
  exists y m d r', splits_into P r "SPLIT_DATE" x ys t [y; m; d] r' /\ day_number (y, m, d) (n / DAY) /\
    value_in P r' (Call "CONCAT_DATE" (map Arg ys)) =
      if of_typeb S_DATE (n - n mod DAY) then Ok (S_DATE, VZ (n - n mod DAY)) else Panic.
Proof.
  intros P r t x ys n T G I [Nd F] L. destruct (date_parts P n I) as (y & m & d & N & V & Y & A).
  exists y, m, d.
  assert (S : exists r', splits_into P r "SPLIT_DATE" x ys t [y; m; d] r').
  { destruct ys as [|y1 [|y2 [|y3 [|y4 ys]]]]; try discriminate L. clear L N V Y.
    eapply (split_general P r "SPLIT_DATE" S_DATE "in" x [y1; y2; y3] t n [y; m; d] ["year"; "month"; "day"]); 
      try assumption; try reflexivity; try (intros outs Lo; exact (A t outs T Lo)); clear A F Nd G I;
      unfold wide_ints in T; repeat (destruct T as [<-|T]; [vm_compute; reflexivity|]); destruct T. }
  destruct S as [r' S]. exists r'. split; [exact S|]. split; [exact N|].
  destruct S as (_ & Q & _). rewrite (value_in_vars P r' "CONCAT_DATE" ys _ (Forall2_ints _ _ _ _ Q)).
  pose proof (month_day_small _ _ _ V) as [M D].
  assert (M2 : m <= 2262 /\ d <= 2262) by lia.
  rewrite concat_date_call; [|exact T|apply small_type; [exact T|lia]..].
  assert (Hn : in_ity i64 n) by exact I.
  rewrite (concat_parts _ n y m d Hn N V Y), midnight, of_typeb_i64 by (left; reflexivity).
  destruct (in_ityb i64 (n / DAY * DAY)); reflexivity.
Qed.
Lemma split_tod_prog : forall P r f g tx t x ys n,
  List.In (f, g, tx) [("SPLIT_TOD", "CONCAT_TOD", S_TOD); ("SPLIT_LTOD", "CONCAT_LTOD", S_LTOD)] ->
  List.In t wide_ints -> get x r = Ok (tx, VZ n) -> of_type tx n -> variables t ys r -> length ys = 4%nat ->
  exists h mi s ms r', splits_into P r f x ys t [h; mi; s; ms] r' /\ valid_clock h mi s ms /\
    clock_ns h mi s ms = n mod DAY - n mod MILLI /\
    value_in P r' (Call g (map Arg ys)) = Ok (tx, VZ (n mod DAY - n mod MILLI)).
Proof.
  intros P r f g tx t x ys n Fm T G I [Nd F] L.
  assert (I' : of_type S_TOD n) by (destruct Fm as [E|[E|[]]]; injection E as <- <- <-; exact I).
  destruct (tod_parts P n I') as (h & mi & s & ms & C & B & A). exists h, mi, s, ms.
  assert (S : exists r', splits_into P r f x ys t [h; mi; s; ms] r').
  { destruct ys as [|y1 [|y2 [|y3 [|y4 [|y5 ys]]]]]; try discriminate L. clear L C B I I'.
    destruct Fm as [E|[E|[]]]; injection E as <- <- <-;
    [eapply (split_general P r "SPLIT_TOD" S_TOD "in" x [y1; y2; y3; y4] t n [h; mi; s; ms] ["hour"; "minute"; "second"; "millisecond"]); 
      try assumption; try reflexivity; try (intros outs Lo; exact (proj1 (A t outs T Lo)))
    |eapply (split_general P r "SPLIT_LTOD" S_LTOD "in" x [y1; y2; y3; y4] t n [h; mi; s; ms] ["hour"; "minute"; "second"; "millisecond"]); 
      try assumption; try reflexivity; try (intros outs Lo; exact (proj2 (A t outs T Lo)))]; clear A F Nd G;
      unfold wide_ints in T; repeat (destruct T as [<-|T]; [vm_compute; reflexivity|]); destruct T. }
  destruct S as [r' S]. exists r'. split; [exact S|]. split; [exact C|]. split; [exact B|].
  destruct S as (_ & Q & _). rewrite (value_in_vars P r' g ys _ (Forall2_ints _ _ _ _ Q)).
  assert (M2 : 0 <= h <= 2262 /\ 0 <= mi <= 2262 /\ 0 <= s <= 2262 /\ 0 <= ms <= 2262) by (unfold valid_clock in C; lia).
  destruct (concat_tod_call P t h mi s ms (wide_ints_integers t T)) as [E1 E2]; [apply small_type; [exact T|lia]..|].
  assert (Ni : narrow i32) by (unfold narrow; cbn; tauto).
  assert (X : CONCAT_TOD (p_chrono P) h mi s ms = Ok (n mod DAY - n mod MILLI)).
  { rewrite <- B. apply (CONCAT_TOD_lemma (p_chrono P) i32); try exact Ni; try (unfold in_ity; cbn; lia).
    unfold valid_clock, accepts_millis in *. lia. }
  rewrite X in E1, E2. destruct Fm as [E|[E|[]]]; injection E as <- <- <-; [rewrite E1|rewrite E2]; reflexivity.
Qed.
Lemma split_dt_prog : forall P r t x ys n, List.In t wide_ints -> get x r = Ok (S_DT, VZ n) -> of_type S_DT n ->
  variables t ys r -> length ys = 7%nat ->
  exists y m d h mi s ms r', splits_into P r "SPLIT_DT" x ys t [y; m; d; h; mi; s; ms] r' /\
    day_number (y, m, d) (n / DAY) /\ valid_clock h mi s ms /\ clock_ns h mi s ms = n mod DAY - n mod MILLI /\
    value_in P r' (Call "CONCAT_DT" (map Arg ys)) =
      (if of_typeb S_DT (n - n mod DAY) then Ok (S_DT, VZ (n - n mod MILLI)) else Panic) /\
    value_in P r' (Call "CONCAT_LDT" (map Arg ys)) =
      (if of_typeb S_DT (n - n mod DAY) then Ok (S_LDT, VZ (n - n mod MILLI)) else Panic).
Proof.
  intros P r t x ys n T G I [Nd F] L. destruct (dt_parts P n I) as (y & m & d & h & mi & s & ms & N & V & Y & C & B & A).
  exists y, m, d, h, mi, s, ms.
  assert (S : exists r', splits_into P r "SPLIT_DT" x ys t [y; m; d; h; mi; s; ms] r').
  { destruct ys as [|y1 [|y2 [|y3 [|y4 [|y5 [|y6 [|y7 [|y8 ys]]]]]]]]; try discriminate L. clear L N V Y C B.
    eapply (split_general P r "SPLIT_DT" S_DT "in" x [y1; y2; y3; y4; y5; y6; y7] t n [y; m; d; h; mi; s; ms]
      ["year"; "month"; "day"; "hour"; "minute"; "second"; "millisecond"]); 
      try assumption; try reflexivity; try (intros outs Lo; exact (A t outs T Lo)); clear A F Nd G I;
      unfold wide_ints in T; repeat (destruct T as [<-|T]; [vm_compute; reflexivity|]); destruct T. }
  destruct S as [r' S]. exists r'. split; [exact S|]. split; [exact N|]. split; [exact C|]. split; [exact B|].
  destruct S as (_ & Q & _). rewrite !(value_in_vars P r' _ ys _ (Forall2_ints _ _ _ _ Q)).
  pose proof (month_day_small _ _ _ V) as [M D].
  assert (M2 : m <= 2262 /\ d <= 2262) by lia. pose proof C as C'. unfold valid_clock in C'.
  destruct (concat_dt_call P t y m d h mi s ms T) as [-> ->]; [repeat (constructor; [apply small_type; [exact T|lia]|]); constructor|].
  assert (Hn : in_ity i64 n) by exact I.
  assert (Ni : narrow i32) by (unfold narrow; cbn; tauto).
  assert (X : CONCAT_DT (p_chrono P) y m d h mi s ms = if of_typeb S_DT (n - n mod DAY) then Ok (n - n mod MILLI) else Panic).
  { rewrite (CONCAT_DT_lemma (p_chrono P) i32 y m d h mi s ms (n / DAY)); try assumption; try (unfold in_ity; cbn; lia).
    rewrite B, midnight, of_typeb_i64 by (right; left; reflexivity).
    replace (n / DAY * DAY + (n mod DAY - n mod MILLI)) with (n - n mod MILLI) by (unfold DAY, MILLI; dlia).
    destruct (in_ityb i64 (n / DAY * DAY)) eqn:Q1; [|reflexivity]. cbn [andb].
    replace (in_ityb i64 (n - n mod MILLI)) with true; [reflexivity|]. symmetry. apply in_ityb_iff.
    apply in_ityb_iff in Q1. rewrite i64_range in *. clear - Q1 Hn. unfold DAY, MILLI in *. dlia. }
  rewrite X. destruct (of_typeb S_DT (n - n mod DAY)); split; reflexivity.
Qed.
