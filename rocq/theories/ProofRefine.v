(** Proofs about the meaning of programs: variables, expressions and single blocks. *)
From Coq Require Import String ZArith List Bool Lia Reals.
From Verif Require Import Base ModelFB ModelCounters ModelTimers ModelLayout ModelMachine ModelFloat ModelTimeNum ModelString ModelST ModelLink ModelLib ModelApi
  SpecFB SpecLayout SpecMachine SpecScalar SpecReal SpecText SpecLink SpecLib SpecSafe SpecApi SpecCall SpecExpr SpecNum SpecTerm SpecType SpecProgram SpecRefine
  ProofBase ProofReal ProofReal2 ProofTermR ProofNum ProofFB ProofTimers ProofTP ProofLayout ProofMachine ProofMachine2 ProofType ProofExpr ProofTerm ProofTerm3 ProofSize
  ProofProgram ProofProgram2 ProofProgram3 ProofProgram4.
Import ListNotations.
Open Scope string_scope.
Open Scope list_scope.
Open Scope Z_scope.
Local Opaque ModelApi.call value_in api.

(** * Variables and expressions *)
Section Induction.
Variables (P : platform) (s : store) (Q : expr -> meaning -> Prop).
Hypothesis Var : forall x m, s x = Some m -> Q (Arg x) m.
Hypothesis Node : forall f es ms m, Forall2 Q es ms -> yields P f ms m -> Q (ModelLink.Call f es) m.
Fixpoint denotes_all (e : expr) (m : meaning) (H : denotes P s e m) {struct H} : Q e m :=
  match H with
  | den_variable _ _ x m G => Var x m G
  | den_call _ _ f es ms m F Y => Node f es ms m ((fix go es ms (F : Forall2 (denotes P s) es ms) {struct F} : Forall2 Q es ms :=
      match F with Forall2_nil _ => Forall2_nil Q | Forall2_cons _ _ A B => Forall2_cons _ _ (denotes_all _ _ A) (go _ _ B) end) es ms F) Y
  end.
End Induction.
Lemma denotes_means : forall P r s e m, represents r s -> denotes P s e m -> SpecTerm.means P r e m.
Proof.
  intros P r s e m R H. apply (denotes_all P s (SpecTerm.means P r)) with (3 := H).
  - intros x m' G. destruct (R x m' G) as (tv & A & B). exact (means_variable P r x tv m' A B).
  - intros f es ms m' F Y. exact (means_call P r f es ms m' F Y).
Qed.
Lemma all_denote : forall P r s es ms, represents r s -> Forall2 (denotes P s) es ms -> Forall2 (SpecTerm.means P r) es ms.
Proof. intros P r s es ms R F. induction F as [|e m es ms A F IH]; constructor; [exact (denotes_means P r s e m R A)|exact IH]. Qed.
Lemma breaks_aborts : forall P r s e, represents r s -> breaks P s e -> aborts P r e.
Proof.
  intros P r s e R H. induction H as [f es ms F Y|f es ms e es' F A IH].
  - exact (aborts_here P r f es ms (all_denote P r s es ms R F) Y).
  - exact (aborts_inside P r f es ms e es' (all_denote P r s es ms R F) IH).
Qed.
Lemma stands_type : forall tv m, stands_for tv m -> fst tv = kind_type m.
Proof. intros tv [t z|k s|t q] H; cbn [stands_for kind_type] in *; [destruct H as [-> _]|destruct H as (d & -> & _)|destruct H as (v & -> & _)]; reflexivity. Qed.
Lemma represents_put : forall r s x m0 w m, represents r s -> s x = Some m0 -> kind_type m0 = kind_type m -> stands_for (kind_type m, w) m ->
  represents (ModelLink.put x w r) (assign x m s).
Proof.
  intros r s x m0 w m R S K W y m' H. unfold assign in H. destruct (String.eqb_spec y x) as [->|N].
  - injection H as <-. destruct (R x m0 S) as ([t v] & G & T). apply stands_type in T. cbn [fst] in T. exists (kind_type m, w). split; [|exact W].
    rewrite (get_put x x w r t v G), String.eqb_refl. now rewrite T, K.
  - destruct (R y m' H) as ([t v] & G & T). exists (t, v). split; [|exact T]. rewrite (get_put x y w r t v G). destruct (String.eqb_spec y x); [contradiction|reflexivity].
Qed.
Lemma coerce_whole : forall a b z w, List.In a wholes -> List.In b wholes -> of_type a z -> of_type b w -> w mod values b = z mod values b -> coerce a b (VZ z) = Ok (VZ w).
Proof.
  intros a b z w A B.
  assert (K : forall t lo hi n, imin t = lo -> imax t = hi -> 2 ^ it_bits t = n -> 0 < it_bits t -> lo <= w <= hi -> w mod n = z mod n -> hi - lo + 1 = n -> wrap t z = w).
  { intros t lo hi n <- <- <- Bt W M S. pose proof (wrap_range t z Bt) as R. unfold in_ity in R. destruct (wrap_cong t z Bt) as [k C].
    rewrite C in *. rewrite <- (Z.mod_add z k (2 ^ it_bits t)) in M by (apply Z.pow_nonzero; lia).
    set (n := 2 ^ it_bits t) in *. set (u := z + k * n) in *.
    assert (E : (w - u) mod n = 0) by (rewrite Zminus_mod, M, Z.sub_diag; apply Z.mod_0_l; lia).
    apply Z.mod_divide in E; [|lia]. destruct E as [j E]. assert (j = 0) by nia. subst j. lia. }
  unfold wholes in A, B. cbn [List.In] in A, B. unfold of_type, values, SpecLib.bounds.
  table A; subst a; table B; subst b; cbn [fst snd]; intros TA TB M; unfold coerce; cbn [repr rty_eqb st_type to_val];
    try (match goal with |- (if ?c then _ else _) = _ => let v := eval vm_compute in c in change c with v; cbv iota end);
    try (cbn [omap obind of_val T_BYTE T_WORD T_DWORD T_LWORD T_SINT T_INT T_DINT T_LINT st_cast]; f_equal; f_equal; eapply K; [reflexivity|reflexivity|reflexivity|reflexivity|exact TB|exact M|reflexivity]);
    (f_equal; f_equal; rewrite !Z.mod_small in M by lia; lia) || (f_equal; f_equal; Z.div_mod_to_equations; lia).
Qed.
Lemma whole_small : forall a z, List.In a wholes -> of_type a z -> (Z.abs z < 2 ^ 127).
Proof. intros a z A. unfold wholes in A. cbn [List.In] in A. unfold of_type, SpecLib.bounds. table A; subst a; cbn [fst snd]; lia. Qed.
Lemma coerce_real : forall a t z, List.In a wholes -> List.In t reals -> coerce a t (VZ z) = Ok (VF (FNum (f_of_int (fmt_of t) z))).
Proof. intros a t z A [<-|[<-|[]]]; unfold wholes in A; cbn [List.In] in A; table A; subst a; reflexivity. Qed.
Lemma becomes_coerce : forall m t m' v, becomes m t m' -> stands_for (kind_type m, v) m -> exists w, coerce (kind_type m) t v = Ok w /\ stands_for (t, w) m' /\ kind_type m' = t.
Proof.
  intros m t m' v B S. destruct B as [m|a b z w A B W M|a t z p A T (y & N & Y)|q|q p L (y & N & Y)].
  - exists v. split; [apply coerce_same|]. now split.
  - cbn [stands_for kind_type] in *. destruct S as [E T]. injection E as ->. exists (VZ w). split; [now apply coerce_whole|]. split; [|reflexivity]. now split.
  - cbn [stands_for kind_type] in *. destruct S as [E Z]. injection E as ->. exists (VF (FNum (f_of_int (fmt_of t) z))). split; [now apply coerce_real|]. split; [|reflexivity].
    pose proof (of_int_nearest (fmt_of t) (real_fmt t T) z (whole_small a z A Z)) as K. eexists. split; [reflexivity|]. split; [exact T|]. split; [exact (proj1 K)|]. split; [exact (proj1 (proj2 K))|].
    rewrite <- Y. exact (nearest_unique (fmt_of t) (real_fmt t T) _ _ _ K N).
  - cbn [stands_for kind_type] in *. destruct S as (x & E & _ & V & F & W). injection E as ->. destruct (widen_exact x V F) as (A & B & C). exists (VF (fl_convert F64 x)).
    split; [reflexivity|]. split; [|reflexivity]. eexists. split; [reflexivity|]. split; [right; now left|]. split; [exact A|]. split; [exact B|]. now rewrite C.
  - cbn [stands_for kind_type] in *. destruct S as (x & E & _ & V & F & W). injection E as ->. destruct (narrow_spec x V F) as [K _]. rewrite W in K. specialize (K L). exists (VF (fl_convert F32 x)).
    split; [reflexivity|]. split; [|reflexivity]. eexists. split; [reflexivity|]. split; [now left|]. split; [exact (proj1 K)|]. split; [exact (proj1 (proj2 K))|].
    rewrite <- Y. exact (nearest_unique F32 (or_introl eq_refl) _ _ _ K N).
Qed.

(** * Single blocks *)
Definition as_fval (t : sty) (z : Z) : fval := match t with S_BOOL => VBool (on z) | _ => ModelMachine.VInt z end.
Definition named (its : list (string * sty)) (zs : list Z) : list (string * fval) :=
  map (fun x => (fst (fst x), as_fval (snd (fst x)) (snd x))) (combine its zs).
Definition as_call (i : instance) (its : list (string * sty)) (e : event) : mcall := MCall i (named its (v_inputs e)) (v_now1 e) (v_now2 e).
Definition event_ok (its : list (string * sty)) (e : event) : Prop :=
  Forall2 (fun it z => of_type (snd it) z) its (v_inputs e) /\ 0 <= v_now1 e < 2 ^ 63.
Ltac inputs_of H := let H' := fresh in destruct H as [H' _];
  repeat match goal with
  | H : Forall2 _ [] _ |- _ => inversion H; subst; clear H
  | H : Forall2 _ (_ :: _) _ |- _ => inversion H; subst; clear H
  end.
Lemma mapped : forall A B C (f : A -> B) (g : A -> C) (R : B -> C -> Prop) (Q : A -> Prop) l, Forall Q l -> (forall a, Q a -> R (f a) (g a)) -> Forall2 R (map f l) (map g l).
Proof. intros A B C f g R Q l F H. induction F; cbn [map]; constructor; auto. Qed.
Lemma mapped_all : forall A B (f : A -> B) (R : B -> Prop) (Q : A -> Prop) l, Forall Q l -> (forall a, Q a -> R (f a)) -> Forall R (map f l).
Proof. intros A B f R Q l F H. induction F; cbn [map]; constructor; auto. Qed.
Lemma counter_in : forall s t z, List.In (s, t) counter_values -> of_type s z <-> in_ity t z.
Proof.
  intros s t z H. unfold counter_values in H. cbn [List.In] in H. table H; injection H as <- <-; unfold of_type, in_ity; cbn; reflexivity.
Qed.
Lemma counter_not_bool : forall s t z, List.In (s, t) counter_values -> as_fval s z = ModelMachine.VInt z.
Proof. intros s t z H. unfold counter_values in H. cbn [List.In] in H. table H; injection H as <- <-; reflexivity. Qed.
Lemma timer_in : forall n s z, List.In (n, s) timer_values -> of_type s z <-> in_ity i64 z.
Proof. intros n s z H. destruct (timer_values_type n s H) as [-> | ->]; unfold of_type, in_ity; cbn; reflexivity. Qed.
Lemma timer_not_bool : forall n s z, List.In (n, s) timer_values -> as_fval s z = ModelMachine.VInt z.
Proof. intros n s z H. destruct (timer_values_type n s H) as [-> | ->]; reflexivity. Qed.
Lemma event_good : forall i n its ots e, interface n its ots -> event_ok its e -> good its (as_call i its e).
Proof.
  intros i n its ots e IF [F N]. split; [|exact N]. unfold as_call. cbn [c_inputs]. unfold named. 
  assert (G : Forall (fun it => forall z, of_type (snd it) z -> fitting (snd it) (as_fval (snd it) z)) its).
  { assert (B : forall z, fitting S_BOOL (as_fval S_BOOL z)) by (intros z; eexists; reflexivity).
    inversion IF as [? t s U V|? t s U V|? t s U V|? f a b U|? f U|? s U]; subst; repeat apply Forall_cons; try apply Forall_nil; intros z Z; cbn [snd] in *; try apply B.
    1-3: unfold counter_values in V; cbn [List.In] in V; table V; injection V as <- <-; exists z; (split; [reflexivity|exact Z]).
    destruct (timer_values_type _ s U) as [-> | ->]; exists z; (split; [reflexivity|exact Z]). }
  clear IF N. induction F as [|it z its zs H F IH]; [constructor|]. inversion G as [|? ? G1 G2]; subst. cbn [combine map fst snd]. constructor; [split; [reflexivity|exact (G1 z H)]|exact (IH G2)].
Qed.

Lemma up_unique : forall t h v, up_count t h v -> forall w, up_count t h w -> v = w.
Proof.
  intros t h v H. induction H as [|h v i H IH]; intros w W; inversion W as [A|h' w' i' W' A]; subst; try (destruct h'; discriminate A); try (destruct h; discriminate); [reflexivity|].
  apply app_inj_tail in A. destruct A as [-> ->]. now rewrite (IH w' W').
Qed.
Lemma down_unique : forall t h v, down_count t h v -> forall w, down_count t h w -> v = w.
Proof.
  intros t h v H. induction H as [|h v i H IH]; intros w W; inversion W as [A|h' w' i' W' A]; subst; try (destruct h'; discriminate A); try (destruct h; discriminate); [reflexivity|].
  apply app_inj_tail in A. destruct A as [-> ->]. now rewrite (IH w' W').
Qed.
Lemma up_down_unique : forall t h v, up_down_count t h v -> forall w, up_down_count t h w -> v = w.
Proof.
  intros t h v H. induction H as [|h v i H IH]; intros w W; inversion W as [A|h' w' i' W' A]; subst; try (destruct h'; discriminate A); try (destruct h; discriminate); [reflexivity|].
  apply app_inj_tail in A. destruct A as [-> ->]. now rewrite (IH w' W').
Qed.
Lemma up_counted : forall p t h, List.In t counter_types ->
  exists s, ctu_run p t ctu_default h = Ok s /\ in_ity t (ctu_cv s) /\ current_value (ctu_internal s) = ctu_level h /\ up_count t h (ctu_cv s) /\
    forall h0 x, h = h0 ++ [x] -> ctu_q s = (cui_pv x <=? ctu_cv s).
Proof.
  intros p t h T. induction h as [|i h (s & E & R & L & U & _)] using rev_ind.
  - exists ctu_default. split; [reflexivity|]. destruct (ctu_inv p t [] T) as (s & E & R & L). injection E as <-. split; [exact R|]. split; [exact L|]. split; [constructor|]. intros [|] x E; discriminate E.
  - destruct (ctu_step p t s i T R) as (s' & E' & C & Q & L' & R'). exists s'. rewrite ctu_run_snoc, E. cbn [obind]. split; [exact E'|]. split; [exact R'|].
    split; [now rewrite L', ctu_level_snoc, L|]. split; [rewrite C, L; now constructor|]. intros h0 x X. apply app_inj_tail in X. destruct X as [_ <-]. exact Q.
Qed.
Lemma down_counted : forall p t h, List.In t counter_types -> Forall (fun i => in_ity t (cdi_pv i)) h ->
  exists s, ctd_run p t ctd_default h = Ok s /\ in_ity t (ctd_cv s) /\ current_value (ctd_internal s) = ctd_level h /\ down_count t h (ctd_cv s) /\
    forall h0 x, h = h0 ++ [x] -> ctd_q s = (ctd_cv s <=? 0).
Proof.
  intros p t h T. induction h as [|i h IH] using rev_ind; intros F.
  - exists ctd_default. split; [reflexivity|]. destruct (ctd_inv p t [] T F) as (s & E & R & L). injection E as <-. split; [exact R|]. split; [exact L|]. split; [constructor|]. intros [|] x E; discriminate E.
  - apply Forall_app in F. destruct F as [F F1]. inversion F1 as [|? ? I _]; subst. destruct (IH F) as (s & E & R & L & U & _).
    destruct (ctd_step p t s i T R I) as (s' & E' & C & Q & L' & R'). exists s'. rewrite ctd_run_snoc, E. cbn [obind]. split; [exact E'|]. split; [exact R'|].
    split; [now rewrite L', ctd_level_snoc, L|]. split; [rewrite C, L; now constructor|]. intros h0 x X. apply app_inj_tail in X. destruct X as [_ <-]. exact Q.
Qed.
