(** Laws of expressions with words, selections, byte orders and times. *)
From Coq Require Import String Ascii ZArith Lia List Bool SpecFloat Permutation.
From Verif Require Import Base ModelFloat ModelScalar ModelTimeNum ModelText ModelString ModelExtra ModelDate ModelChrono ModelST ModelWrap ModelLink ModelLib
  ModelApi SpecScalar SpecST SpecDate SpecText SpecLink SpecConv SpecLib SpecName SpecWrap SpecCall SpecExpr ProofBase ProofScalar ProofLib ProofLib2 ProofConv ProofApi2 ProofApi3
  ProofCall2 ProofCall4 ProofExpr ProofExpr2 ProofProg ProofProg4.
Import ListNotations.
Open Scope string_scope.
Open Scope list_scope.
Open Scope Z_scope.
Local Opaque call value_in api.

(** ** Bits *)
Lemma rot_calls : forall P t x n, List.In t bit_strings ->
  call P "ROL" [(t, VZ x); (S_UDINT, VZ n)] = Ok (t, VZ (ROL (width t) x n)) /\
  call P "ROR" [(t, VZ x); (S_UDINT, VZ n)] = Ok (t, VZ (ROR (width t) x n)).
Proof.
  intros P t x n T. rewrite !bit_calls by (try exact T; cbn; tauto).
  destruct (bits_by_name P t x n T) as (_ & _ & -> & ->). split; reflexivity.
Qed.
Lemma shift_calls : forall P t x n, List.In t bit_strings -> of_type t x -> 0 <= n < width t ->
  call P "SHL" [(t, VZ x); (S_UDINT, VZ n)] = Ok (t, VZ ((x * 2 ^ n) mod 2 ^ width t)) /\
  call P "SHR" [(t, VZ x); (S_UDINT, VZ n)] = Ok (t, VZ (x / 2 ^ n)).
Proof.
  intros P t x n T X N. rewrite !bit_calls by (try exact T; cbn; tauto).
  destruct (bit_type t x T X) as (_ & I & _). destruct (bits_by_name P t x n T) as (-> & -> & _).
  destruct (shl_lemma (p_profile P) (width t) x n N) as (a & -> & -> & _).
  destruct (shr_lemma (p_profile P) (width t) x n I N) as (b & -> & -> & _). split; reflexivity.
Qed.
Lemma rotations : forall P r t x n m k v a b c, List.In t bit_strings -> var r x t v -> var r n S_UDINT a -> var r m S_UDINT b ->
  var r k S_UDINT c -> (a + b - c) mod width t = 0 ->
  value_in P r (Call "ROR" [Call "ROL" [Arg x; Arg n]; Arg n]) = Ok (t, VZ v) /\
  value_in P r (Call "ROL" [Call "ROR" [Arg x; Arg n]; Arg n]) = Ok (t, VZ v) /\
  same P r (Call "ROL" [Call "ROL" [Arg x; Arg n]; Arg m]) (Call "ROL" [Arg x; Arg k]) /\
  same P r (Call "ROR" [Call "ROR" [Arg x; Arg n]; Arg m]) (Call "ROR" [Arg x; Arg k]).
Proof.
  intros P r t x n m k v a b c T X N M K E. destruct (bit_type t v T (proj2 X)) as (_ & I & L).
  pose proof (value_var P r x t v X) as VX. pose proof (value_var P r n _ a N) as VN. pose proof (value_var P r m _ b M) as VM.
  pose proof (value_var P r k _ c K) as VK.
  assert (RL : value_in P r (Call "ROL" [Arg x; Arg n]) = Ok (t, VZ (ROL (width t) v a)))
    by (rewrite (value_2 P r _ _ _ _ _ VX VN); exact (proj1 (rot_calls P t v a T))).
  assert (RR : value_in P r (Call "ROR" [Arg x; Arg n]) = Ok (t, VZ (ROR (width t) v a)))
    by (rewrite (value_2 P r _ _ _ _ _ VX VN); exact (proj2 (rot_calls P t v a T))).
  destruct (ror_of_rol (width t) v a L I) as [E1 E2]. unfold same.
  rewrite (value_2 P r "ROR" _ _ _ _ RL VN), (value_2 P r "ROL" _ _ _ _ RR VN), (value_2 P r "ROL" _ _ _ _ RL VM),
    (value_2 P r "ROR" _ _ _ _ RR VM), (value_2 P r "ROL" _ _ _ _ VX VK), (value_2 P r "ROR" _ _ _ _ VX VK).
  rewrite (proj2 (rot_calls P t (ROL (width t) v a) a T)), (proj1 (rot_calls P t (ROR (width t) v a) a T)),
    (proj1 (rot_calls P t (ROL (width t) v a) b T)), (proj2 (rot_calls P t (ROR (width t) v a) b T)),
    (proj1 (rot_calls P t v c T)), (proj2 (rot_calls P t v c T)), E1, E2. do 2 (split; [reflexivity|]).
  assert (Q : c mod width t = (a + b) mod width t).
  { apply Z.mod_divide in E; [|lia]. destruct E as [q E]. replace (a + b) with (c + q * width t) by lia. symmetry. apply Z.mod_add. lia. }
  assert (R : ROL (width t) (ROL (width t) v a) b = ROL (width t) v c).
  { rewrite rol_rol by assumption. destruct (rol_mod (width t) v (a + b) L) as [-> _]. destruct (rol_mod (width t) v c L) as [-> _]. now rewrite Q. }
  assert (R' : ROR (width t) (ROR (width t) v a) b = ROR (width t) v c).
  { assert (J : in_width (width t) (ROR (width t) v a)) by (rewrite ror_rol by assumption; now apply rol_range).
    rewrite (ror_rol (width t) (ROR (width t) v a) b) by assumption.
    rewrite (ror_rol (width t) v a) by assumption. rewrite rol_rol by assumption.
    rewrite <- (rol_rol (width t) v) by assumption. rewrite rol_rol by assumption.
    replace (- a + - b) with (- (a + b)) by lia. rewrite <- ror_rol by assumption.
    destruct (rol_mod (width t) v (a + b) L) as [_ ->]. destruct (rol_mod (width t) v c L) as [_ ->]. now rewrite Q. }
  now rewrite R, R'.
Qed.

Lemma shift_typed : forall t v a, List.In t bit_strings -> of_type t v -> 0 <= a ->
  of_type t ((v * 2 ^ a) mod 2 ^ width t) /\ of_type t (v / 2 ^ a).
Proof.
  intros t v a T V A. destruct (bit_type t v T V) as (_ & [I J] & L).
  split; apply (in_width_type t _ T); split.
  - apply Z.mod_pos_bound, Z.pow_pos_nonneg; lia.
  - apply Z.mod_pos_bound, Z.pow_pos_nonneg; lia.
  - apply Z.div_pos; [exact I|apply Z.pow_pos_nonneg; lia].
  - apply Z.le_lt_trans with v; [|exact J]. apply Z.div_le_upper_bound; [apply Z.pow_pos_nonneg; lia|].
    pose proof (Z.pow_pos_nonneg 2 a ltac:(lia) A). nia.
Qed.
Lemma shifts : forall P r t x n m k v a b, List.In t bit_strings -> var r x t v -> var r n S_UDINT a -> var r m S_UDINT b ->
  var r k S_UDINT (a + b) -> a + b < width t ->
  same P r (Call "SHL" [Call "SHL" [Arg x; Arg n]; Arg m]) (Call "SHL" [Arg x; Arg k]) /\
  same P r (Call "SHR" [Call "SHR" [Arg x; Arg n]; Arg m]) (Call "SHR" [Arg x; Arg k]) /\
  value_in P r (Call "SHR" [Call "SHL" [Arg x; Arg n]; Arg n]) = Ok (t, VZ (v mod 2 ^ (width t - a))) /\
  value_in P r (Call "SHL" [Call "SHR" [Arg x; Arg n]; Arg n]) = Ok (t, VZ (v - v mod 2 ^ a)).
Proof.
  intros P r t x n m k v a b T X N M K W. destruct (bit_type t v T (proj2 X)) as (_ & I & L).
  assert (A : 0 <= a /\ 0 <= b) by (destruct N as [_ [N _]], M as [_ [M _]]; cbn in N, M; lia).
  pose proof (value_var P r x t v X) as VX. pose proof (value_var P r n _ a N) as VN. pose proof (value_var P r m _ b M) as VM.
  pose proof (value_var P r k _ (a + b) K) as VK. set (w := width t) in *.
  destruct (shift_typed t v a T (proj2 X) (proj1 A)) as [TL TR]. fold w in TL.
  assert (SL : value_in P r (Call "SHL" [Arg x; Arg n]) = Ok (t, VZ ((v * 2 ^ a) mod 2 ^ w)))
    by (rewrite (value_2 P r _ _ _ _ _ VX VN); exact (proj1 (shift_calls P t v a T (proj2 X) ltac:(fold w; lia)))).
  assert (SR : value_in P r (Call "SHR" [Arg x; Arg n]) = Ok (t, VZ (v / 2 ^ a)))
    by (rewrite (value_2 P r _ _ _ _ _ VX VN); exact (proj2 (shift_calls P t v a T (proj2 X) ltac:(fold w; lia)))).
  unfold same.
  rewrite (value_2 P r "SHL" _ _ _ _ SL VM), (value_2 P r "SHR" _ _ _ _ SR VM), (value_2 P r "SHR" _ _ _ _ SL VN),
    (value_2 P r "SHL" _ _ _ _ SR VN), (value_2 P r "SHL" _ _ _ _ VX VK), (value_2 P r "SHR" _ _ _ _ VX VK).
  rewrite (proj1 (shift_calls P t _ b T TL ltac:(fold w; lia))), (proj2 (shift_calls P t _ b T TR ltac:(fold w; lia))),
    (proj2 (shift_calls P t _ a T TL ltac:(fold w; lia))), (proj1 (shift_calls P t _ a T TR ltac:(fold w; lia))),
    (proj1 (shift_calls P t _ (a + b) T (proj2 X) ltac:(fold w; lia))), (proj2 (shift_calls P t _ (a + b) T (proj2 X) ltac:(fold w; lia))).
  fold w. pose proof (Z.pow_pos_nonneg 2 a ltac:(lia) (proj1 A)) as PA. pose proof (Z.pow_pos_nonneg 2 b ltac:(lia) (proj2 A)) as PB.
  split; [|split; [|split]].
  - do 3 f_equal. rewrite Z.mul_mod_idemp_l by (apply Z.pow_nonzero; lia). rewrite <- Z.mul_assoc, <- Z.pow_add_r by lia. reflexivity.
  - do 3 f_equal. rewrite Z.div_div by lia. now rewrite <- Z.pow_add_r by lia.
  - do 3 f_equal. replace (2 ^ w) with (2 ^ (w - a) * 2 ^ a) by (rewrite <- Z.pow_add_r by lia; f_equal; lia).
    rewrite Z.mul_mod_distr_r by (try apply Z.pow_nonzero; lia). apply Z.div_mul. lia.
  - do 3 f_equal. rewrite Z.mod_small.
    + pose proof (Z.div_mod v (2 ^ a) ltac:(lia)). lia.
    + pose proof (Z.mod_pos_bound v (2 ^ a) PA). pose proof (Z.div_mod v (2 ^ a) ltac:(lia)). unfold in_width in I.
      pose proof (Z.div_pos v (2 ^ a) ltac:(lia) PA). nia.
Qed.
Lemma rotate_is_shifts : forall P r t x n m v a, List.In t bit_strings -> var r x t v -> var r n S_UDINT a -> 0 < a < width t ->
  var r m S_UDINT (width t - a) -> exists p q,
  value_in P r (Call "SHL" [Arg x; Arg n]) = Ok (t, VZ p) /\ value_in P r (Call "SHR" [Arg x; Arg m]) = Ok (t, VZ q) /\
  value_in P r (Call "ROL" [Arg x; Arg n]) = Ok (t, VZ (p + q)) /\ same P r (Call "ROR" [Arg x; Arg m]) (Call "ROL" [Arg x; Arg n]).
Proof.
  intros P r t x n m v a T X N A M. destruct (bit_type t v T (proj2 X)) as (_ & I & L).
  pose proof (value_var P r x t v X) as VX. pose proof (value_var P r n _ a N) as VN. pose proof (value_var P r m _ _ M) as VM.
  unfold same. exists ((v * 2 ^ a) mod 2 ^ width t), (v / 2 ^ (width t - a)).
  rewrite !(value_2 P r _ _ _ _ _ VX VN), !(value_2 P r _ _ _ _ _ VX VM).
  rewrite (proj1 (shift_calls P t v a T (proj2 X) ltac:(lia))), (proj2 (shift_calls P t v (width t - a) T (proj2 X) ltac:(lia))),
    (proj1 (rot_calls P t v a T)), (proj2 (rot_calls P t v (width t - a) T)).
  do 2 (split; [reflexivity|]). split.
  - do 3 f_equal. unfold ROL. rewrite (Z.mod_small a) by lia. cbv zeta. set (w := width t) in *. clearbody w.
    assert (D : Z.land (Z.shiftl v a mod 2 ^ w) (Z.shiftr v (w - a)) = 0).
    { apply Z.bits_inj'. intros i Hi. rewrite Z.bits_0, Z.land_spec, Z.shiftr_spec by exact Hi.
      destruct (Z.lt_ge_cases i a) as [C|C].
      - destruct (Z.lt_ge_cases i w) as [D|D]; [|lia]. rewrite Z.mod_pow2_bits_low by exact D.
        rewrite Z.shiftl_spec_low by exact C. reflexivity.
      - rewrite <- (Z.mod_small v (2 ^ w) I), (Z.mod_pow2_bits_high v w (i + (w - a))) by lia. apply andb_false_r. }
    rewrite <- Z.lxor_lor by exact D. rewrite <- Z.add_nocarry_lxor by exact D.
    rewrite Z.shiftl_mul_pow2, Z.shiftr_div_pow2 by lia. reflexivity.
  - do 3 f_equal. rewrite ror_rol by assumption. destruct (rol_mod (width t) v (- (width t - a)) L) as [-> _].
    destruct (rol_mod (width t) v a L) as [-> _]. f_equal. replace (- (width t - a)) with (a + -1 * width t) by lia. apply Z.mod_add. lia.
Qed.

(** ** MAX, MIN, LIMIT *)
Definition greatest (zs : list Z) (m : Z) : Prop := List.In m zs /\ forall z, List.In z zs -> z <= m.
Definition least (zs : list Z) (m : Z) : Prop := List.In m zs /\ forall z, List.In z zs -> m <= z.
Lemma greatest_unique : forall zs a b, greatest zs a -> greatest zs b -> a = b.
Proof. intros zs a b [A1 A2] [B1 B2]. apply Z.le_antisymm; auto. Qed.
Lemma least_unique : forall zs a b, least zs a -> least zs b -> a = b.
Proof. intros zs a b [A1 A2] [B1 B2]. apply Z.le_antisymm; auto. Qed.
Lemma ordered_elementary : forall t, List.In t ordered -> List.In t (members ANY_ELEMENTARY) /\ stringb t = false.
Proof. intros t T. cbn in T. repeat (destruct T as [<-|T]; [split; [cbn; tauto|reflexivity]|]). destruct T. Qed.
Lemma select_calls : forall P f t zs, List.In f ["MAX"; "MIN"] -> List.In t ordered -> zs <> [] ->
  call P f (map (pair t) (map VZ zs)) = omap (fun v => (t, v)) (result (rust_call P (instance_name f [t]) (map VZ zs))).
Proof.
  intros P f t zs F T N. destruct (ordered_elementary t T) as [E B].
  pose proof (many_checked f F) as C. rewrite forallb_forall in C. specialize (C t E). unfold many_check in C. rewrite B in C.
  cbn [orb] in C. apply andb_true_iff in C as [C _]. apply andb_true_iff in C as [C _]. apply andb_true_iff in C as [C C2].
  apply andb_true_iff in C as [_ C1].
  rewrite (many_call P f t (instance_name f [t]) (map VZ zs)).
  - unfold result. destruct (rust_call P (instance_name f [t]) (map VZ zs)); reflexivity.
  - destruct F as [<-|[<-|[]]]; vm_compute; reflexivity.
  - reflexivity.
  - destruct (find_decl (instance_name f [t])); [discriminate C1|reflexivity].
  - intros X. rewrite X in C2. discriminate C2.
  - destruct zs; [contradiction|discriminate].
Qed.
Lemma max_value : forall P t zs, List.In t ordered -> Forall (of_type t) zs -> zs <> [] ->
  exists m, call P "MAX" (map (pair t) (map VZ zs)) = Ok (t, VZ m) /\ greatest zs m.
Proof.
  intros P t zs T F N. destruct (extremes_by_name P t zs T F N) as [(m & E & G) _]. exists m. split; [|exact G].
  rewrite select_calls, E by (try assumption; cbn; tauto). reflexivity.
Qed.
Lemma min_value : forall P t zs, List.In t ordered -> Forall (of_type t) zs -> zs <> [] ->
  exists m, call P "MIN" (map (pair t) (map VZ zs)) = Ok (t, VZ m) /\ least zs m.
Proof.
  intros P t zs T F N. destruct (extremes_by_name P t zs T F N) as [_ (m & E & G)]. exists m. split; [|exact G].
  rewrite select_calls, E by (try assumption; cbn; tauto). reflexivity.
Qed.
Lemma vars_typed : forall r t xs zs, vars_of r t xs zs -> Forall (of_type t) zs.
Proof. intros r t xs zs H. induction H as [|x z xs zs [_ V] H IH]; constructor; assumption. Qed.
Lemma vars_values : forall P r t f xs zs, vars_of r t xs zs -> value_in P r (Call f (map Arg xs)) = call P f (map (pair t) (map VZ zs)).
Proof.
  intros P r t f xs zs H. apply value_call. induction H as [|x z xs zs V H IH]; [constructor|]. cbn [map]. constructor; [|exact IH].
  now apply value_var.
Qed.
Lemma max_vars : forall P r t xs zs, List.In t ordered -> vars_of r t xs zs -> xs <> [] ->
  (exists m, value_in P r (Call "MAX" (map Arg xs)) = Ok (t, VZ m) /\ greatest zs m) /\
  (exists m, value_in P r (Call "MIN" (map Arg xs)) = Ok (t, VZ m) /\ least zs m).
Proof.
  intros P r t xs zs T V N. rewrite !(vars_values P r t _ xs zs V).
  assert (M : zs <> []) by (destruct V; [contradiction|discriminate]).
  split; [apply max_value|apply min_value]; try assumption; exact (vars_typed r t xs zs V).
Qed.
Lemma max_of_two : forall P t a b, List.In t ordered -> of_type t a -> of_type t b ->
  call P "MAX" [(t, VZ a); (t, VZ b)] = Ok (t, VZ (Z.max a b)) /\ call P "MIN" [(t, VZ a); (t, VZ b)] = Ok (t, VZ (Z.min a b)).
Proof.
  intros P t a b T A B. assert (F : Forall (of_type t) [a; b]) by (apply Forall_cons; [exact A|apply Forall_cons; [exact B|apply Forall_nil]]). split.
  - destruct (max_value P t [a; b] T F ltac:(discriminate)) as (m & E & [[->|[->|[]]] G]); cbn [map] in E; rewrite E; do 3 f_equal;
      [specialize (G b ltac:(cbn; tauto))|specialize (G a ltac:(cbn; tauto))]; lia.
  - destruct (min_value P t [a; b] T F ltac:(discriminate)) as (m & E & [[->|[->|[]]] G]); cbn [map] in E; rewrite E; do 3 f_equal;
      [specialize (G b ltac:(cbn; tauto))|specialize (G a ltac:(cbn; tauto))]; lia.
Qed.
Lemma select_nested : forall P r t xs ys us vs, List.In t ordered -> vars_of r t xs us -> vars_of r t ys vs -> xs <> [] -> ys <> [] ->
  same P r (Call "MAX" [Call "MAX" (map Arg xs); Call "MAX" (map Arg ys)]) (Call "MAX" (map Arg (xs ++ ys))) /\
  same P r (Call "MIN" [Call "MIN" (map Arg xs); Call "MIN" (map Arg ys)]) (Call "MIN" (map Arg (xs ++ ys))).
Proof.
  intros P r t xs ys us vs T U V NX NY. assert (W : vars_of r t (xs ++ ys) (us ++ vs)) by (apply Forall2_app; assumption).
  destruct (max_vars P r t xs us T U NX) as [(a & A & GA) (a' & A' & LA)].
  destruct (max_vars P r t ys vs T V NY) as [(b & B & GB) (b' & B' & LB)].
  assert (N : xs ++ ys <> []) by (destruct xs; [contradiction|discriminate]).
  destruct (max_vars P r t (xs ++ ys) (us ++ vs) T W N) as [(c & C & GC) (c' & C' & LC)].
  pose proof (vars_typed r t xs us U) as TU. pose proof (vars_typed r t ys vs V) as TV. rewrite Forall_forall in TU, TV.
  unfold same. rewrite C, C', (value_2 P r _ _ _ _ _ A B), (value_2 P r _ _ _ _ _ A' B').
  rewrite (proj1 (max_of_two P t a b T (TU a (proj1 GA)) (TV b (proj1 GB)))), (proj2 (max_of_two P t a' b' T (TU a' (proj1 LA)) (TV b' (proj1 LB)))).
  split; do 3 f_equal.
  - apply (greatest_unique (us ++ vs)); [|exact GC]. destruct GA as [A1 A2], GB as [B1 B2]. split.
    + apply in_or_app. destruct (Z.max_spec a b) as [[_ ->]|[_ ->]]; tauto.
    + intros z Z. apply in_app_or in Z as [Z|Z]; [specialize (A2 z Z)|specialize (B2 z Z)]; lia.
  - apply (least_unique (us ++ vs)); [|exact LC]. destruct LA as [A1 A2], LB as [B1 B2]. split.
    + apply in_or_app. destruct (Z.min_spec a' b') as [[_ ->]|[_ ->]]; tauto.
    + intros z Z. apply in_app_or in Z as [Z|Z]; [specialize (A2 z Z)|specialize (B2 z Z)]; lia.
Qed.
Lemma select_order : forall P r t xs ys us, List.In t ordered -> vars_of r t xs us -> Permutation xs ys -> xs <> [] ->
  same P r (Call "MAX" (map Arg xs)) (Call "MAX" (map Arg ys)) /\ same P r (Call "MIN" (map Arg xs)) (Call "MIN" (map Arg ys)).
Proof.
  intros P r t xs ys us T U Q NX.
  assert (V : exists vs, vars_of r t ys vs /\ Permutation us vs).
  { revert us U. clear NX. induction Q as [|x xs ys Q IH|x y xs|xs ys ws Q1 IH1 Q2 IH2]; intros us U.
    - exists []. inversion U. split; constructor.
    - inversion U as [|? z ? zs A B]; subst. destruct (IH zs B) as (vs & C & D). exists (z :: vs). split; [constructor; assumption|now constructor].
    - inversion U as [|? z ? zs A B]; subst. inversion B as [|? z' ? zs' A' B']; subst. exists (z' :: z :: zs').
      split; [constructor; [exact A'|constructor; [exact A|exact B']]|constructor].
    - destruct (IH1 us U) as (vs & C & D). destruct (IH2 vs C) as (ws' & E & F). exists ws'. split; [exact E|]. now transitivity vs. }
  destruct V as (vs & V & R). assert (NY : ys <> []) by (intros ->; apply Permutation_sym, Permutation_nil in Q; contradiction).
  destruct (max_vars P r t xs us T U NX) as [(a & A & GA) (a' & A' & LA)].
  destruct (max_vars P r t ys vs T V NY) as [(b & B & GB) (b' & B' & LB)].
  unfold same. rewrite A, A', B, B'. split; do 3 f_equal.
  - apply (greatest_unique us); [exact GA|]. destruct GB as [B1 B2]. split; [exact (Permutation_in _ (Permutation_sym R) B1)|].
    intros z Z. apply B2. exact (Permutation_in _ R Z).
  - apply (least_unique us); [exact LA|]. destruct LB as [B1 B2]. split; [exact (Permutation_in _ (Permutation_sym R) B1)|].
    intros z Z. apply B2. exact (Permutation_in _ R Z).
Qed.
Lemma select_lattice : forall P r t x y z a b c, List.In t ordered -> var r x t a -> var r y t b -> var r z t c ->
  value_in P r (Call "MAX" [Arg x; Call "MIN" [Arg x; Arg y]]) = Ok (t, VZ a) /\
  value_in P r (Call "MIN" [Arg x; Call "MAX" [Arg x; Arg y]]) = Ok (t, VZ a) /\
  same P r (Call "MIN" [Arg x; Call "MAX" [Arg y; Arg z]]) (Call "MAX" [Call "MIN" [Arg x; Arg y]; Call "MIN" [Arg x; Arg z]]) /\
  same P r (Call "MAX" [Arg x; Call "MIN" [Arg y; Arg z]]) (Call "MIN" [Call "MAX" [Arg x; Arg y]; Call "MAX" [Arg x; Arg z]]).
Proof.
  intros P r t x y z a b c T X Y Z. pose proof (value_var P r x t a X) as VX. pose proof (value_var P r y t b Y) as VY.
  pose proof (value_var P r z t c Z) as VZ'. destruct X as [_ X], Y as [_ Y], Z as [_ Z].
  assert (C2 : forall f e1 e2 u v, value_in P r e1 = Ok (t, VZ u) -> value_in P r e2 = Ok (t, VZ v) -> of_type t u -> of_type t v ->
    (f = "MAX" -> value_in P r (Call f [e1; e2]) = Ok (t, VZ (Z.max u v)) /\ of_type t (Z.max u v)) /\
    (f = "MIN" -> value_in P r (Call f [e1; e2]) = Ok (t, VZ (Z.min u v)) /\ of_type t (Z.min u v))).
  { intros f e1 e2 u v E1 E2 U V. destruct (max_of_two P t u v T U V) as [M1 M2]. rewrite (value_2 P r f e1 e2 _ _ E1 E2).
    split; intros ->; (split; [assumption|]); unfold of_type in *; lia. }
  destruct (proj2 (C2 "MIN" _ _ a b VX VY X Y) eq_refl) as [E1 T1]. destruct (proj1 (C2 "MAX" _ _ a b VX VY X Y) eq_refl) as [E2 T2].
  destruct (proj1 (C2 "MAX" _ _ b c VY VZ' Y Z) eq_refl) as [E3 T3]. destruct (proj2 (C2 "MIN" _ _ b c VY VZ' Y Z) eq_refl) as [E4 T4].
  destruct (proj2 (C2 "MIN" _ _ a c VX VZ' X Z) eq_refl) as [E5 T5]. destruct (proj1 (C2 "MAX" _ _ a c VX VZ' X Z) eq_refl) as [E6 T6].
  unfold same.
  rewrite (proj1 (proj1 (C2 "MAX" _ _ _ _ VX E1 X T1) eq_refl)), (proj1 (proj2 (C2 "MIN" _ _ _ _ VX E2 X T2) eq_refl)),
    (proj1 (proj2 (C2 "MIN" _ _ _ _ VX E3 X T3) eq_refl)), (proj1 (proj1 (C2 "MAX" _ _ _ _ E1 E5 T1 T5) eq_refl)),
    (proj1 (proj1 (C2 "MAX" _ _ _ _ VX E4 X T4) eq_refl)), (proj1 (proj2 (C2 "MIN" _ _ _ _ E2 E6 T2 T6) eq_refl)).
  repeat split; do 3 f_equal; lia.
Qed.
Lemma limit_is : forall P r t mn x mx a z b, List.In t ordered -> var r mn t a -> var r x t z -> var r mx t b -> a <= b ->
  same P r (Call "LIMIT" [Arg mn; Arg x; Arg mx]) (Call "MAX" [Arg mn; Call "MIN" [Arg x; Arg mx]]) /\
  same P r (Call "LIMIT" [Arg mn; Arg x; Arg mx]) (Call "MIN" [Arg mx; Call "MAX" [Arg x; Arg mn]]).
Proof.
  intros P r t mn x mx a z b T A X B L. pose proof (value_var P r mn t a A) as VA. pose proof (value_var P r x t z X) as VX.
  pose proof (value_var P r mx t b B) as VB. destruct A as [_ A], X as [_ X], B as [_ B].
  destruct (limit_by_name P t a z b T A X B L) as (q & Q & R & Q1 & Q2 & Q3).
  assert (E1 : value_in P r (Call "MIN" [Arg x; Arg mx]) = Ok (t, VZ (Z.min z b)))
    by (rewrite (value_2 P r _ _ _ _ _ VX VB); exact (proj2 (max_of_two P t z b T X B))).
  assert (E2 : value_in P r (Call "MAX" [Arg x; Arg mn]) = Ok (t, VZ (Z.max z a)))
    by (rewrite (value_2 P r _ _ _ _ _ VX VA); exact (proj1 (max_of_two P t z a T X A))).
  assert (T1 : of_type t (Z.min z b)) by (unfold of_type in *; lia). assert (T2 : of_type t (Z.max z a)) by (unfold of_type in *; lia).
  unfold same. rewrite (value_3 P r _ _ _ _ _ _ _ VA VX VB), (value_2 P r _ _ _ _ _ VA E1), (value_2 P r _ _ _ _ _ VB E2).
  rewrite limit_calls, Q by exact T.
  rewrite (proj1 (max_of_two P t a _ T A T1)), (proj2 (max_of_two P t b _ T B T2)). cbn [omap Int].
  split; do 3 f_equal; destruct (Z.lt_ge_cases z a); [rewrite Q2 by lia; lia| |rewrite Q2 by lia; lia|];
    (destruct (Z.lt_ge_cases b z); [rewrite Q3 by lia; lia|rewrite Q1 by lia; lia]).
Qed.

(** ** Byte order *)
Lemma byte_orders : forall P r t x v, List.In t byte_ordered -> var r x t v ->
  value_in P r (Call "FROM_LITTLE_ENDIAN" [Call "TO_BIG_ENDIAN" [Arg x]]) = Ok (t, VZ v) /\
  value_in P r (Call "FROM_BIG_ENDIAN" [Call "TO_LITTLE_ENDIAN" [Arg x]]) = Ok (t, VZ v) /\
  value_in P r (Call "TO_BIG_ENDIAN" [Call "TO_BIG_ENDIAN" [Arg x]]) = Ok (t, VZ v) /\
  value_in P r (Call "TO_LITTLE_ENDIAN" [Call "TO_LITTLE_ENDIAN" [Arg x]]) = Ok (t, VZ v).
Proof.
  intros P r t x v T X. pose proof (value_var P r x t v X) as VX. destruct (order_type_ok t v T (proj2 X)) as [O I].
  destruct (cross_inverse (p_endian P) _ v O I) as [C1 C2].
  destruct (order_by_name P t v T) as (E1 & E2 & _ & _).
  assert (V1 : value_in P r (Call "TO_BIG_ENDIAN" [Arg x]) = Ok (t, VZ (TO_BIG_ENDIAN (p_endian P) (order_type t) v)))
    by (rewrite (value_1 P r _ _ _ VX), order_calls, E1 by (try exact T; cbn; tauto); reflexivity).
  assert (V2 : value_in P r (Call "TO_LITTLE_ENDIAN" [Arg x]) = Ok (t, VZ (TO_LITTLE_ENDIAN (p_endian P) (order_type t) v)))
    by (rewrite (value_1 P r _ _ _ VX), order_calls, E2 by (try exact T; cbn; tauto); reflexivity).
  rewrite !(value_1 P r _ _ _ V1), !(value_1 P r _ _ _ V2). rewrite !order_calls by (try exact T; cbn; tauto).
  destruct (order_by_name P t (TO_BIG_ENDIAN (p_endian P) (order_type t) v) T) as (F1 & _ & _ & F4).
  destruct (order_by_name P t (TO_LITTLE_ENDIAN (p_endian P) (order_type t) v) T) as (_ & F2 & F3 & _).
  rewrite F1, F4, F2, F3. unfold TO_BIG_ENDIAN, TO_LITTLE_ENDIAN, FROM_BIG_ENDIAN, FROM_LITTLE_ENDIAN in *. rewrite C1, C2.
  repeat split; reflexivity.
Qed.
