(** Proofs about the programs of SpecComplete.v: each has a meaning or is stopped. *)
From Coq Require Import String ZArith List Bool Lia Reals.
From Verif Require Import Base ModelFB ModelCounters ModelTimers ModelLayout ModelMachine ModelFloat ModelString ModelLink ModelLib ModelApi
  SpecFB SpecLayout SpecMachine SpecScalar SpecText SpecLink SpecLib SpecWrap SpecSafe SpecApi SpecCall SpecExpr SpecNum SpecTerm SpecType SpecProgram SpecSize SpecWhole SpecRefine SpecComplete
  ProofBase ProofFB ProofTimers ProofTP ProofLayout ProofMachine ProofMachine2 ProofType ProofSplit ProofExpr ProofTerm ProofTerm3 ProofTerm4
  ProofProgram ProofProgram2 ProofProgram3 ProofProgram4 ProofRefine ProofRefine2 ProofRefine3 ProofRefine4 ProofRefine5 ProofCompleteR ProofComplete.
Import ListNotations.
Open Scope string_scope.
Open Scope list_scope.
Open Scope Z_scope.
Local Opaque ModelApi.call value_in api.

(** * Expressions *)
Lemma formed_value : forall P G r st e d, represents r st -> meets_all G st -> formed (p_profile P) G e d ->
  match value_in P r e with
  | Ok tv => exists m, denotes P st e m /\ meets d m /\ stands_for tv m
  | Panic => breaks P st e
  | Ub => False
  end.
Proof.
  intros P G r st e d R M F. destruct (proj1 (formed_resolved P G r st R M) e d F) as [(m & D & H)|B].
  - pose proof (meaning_value P r e m (denotes_means P r st e m R D)) as (tv & E & S). rewrite E. exists m. exact (conj D (conj H S)).
  - rewrite (aborts_panic P r e (breaks_aborts P r st e R B)). exact B.
Qed.
Lemma formed_each : forall p G es ds, formed_all p G es ds -> Forall2 (formed p G) es ds.
Proof. intros p G es ds H. induction H; constructor; assumption. Qed.
Lemma formed_settled : forall P G r st es ts, represents r st -> meets_all G st -> formed_all (p_profile P) G es (any_values ts) -> Forall2 (settled P st) es ts.
Proof.
  intros P G r st es ts R M H. apply formed_each in H. revert es H. induction ts as [|t ts IH]; intros es H; inversion H as [|e ? es' ? F H']; subst; constructor; [|exact (IH es' H')].
  destruct (proj1 (formed_resolved P G r st R M) e (any_value t) F) as [(m & D & K)|B]; [left|right; exact B]. destruct K as (z & -> & Z & _). exists z. exact (conj Z D).
Qed.

(** * Programs *)
Lemma assign_meets : forall G st x d m, G x = Some d -> meets d m -> meets_all G st -> meets_all G (assign x m st).
Proof.
  intros G st x d m X H M y d' Y. unfold assign. destruct (String.eqb_spec y x) as [->|N]; [|exact (M y d' Y)]. rewrite X in Y. injection Y as <-. now exists m.
Qed.
Lemma meets_kind : forall d m m', meets d m -> meets d m' -> kind_type m = kind_type m'.
Proof. intros [[t b|k n]|t lo hi] m m' (x & -> & _) (y & -> & _); reflexivity. Qed.
Lemma assigns_met : forall G n h ots outs, (forall var t, List.In (var, t) ots -> exists z, shows n h var (Whole t z) /\ of_type t z) ->
  Forall (fun o => exists t, List.In (snd o, t) ots /\ G (fst o) = Some (Known (any_value t))) outs -> forall s, meets_all G s ->
  exists s', assigns n h outs s s' /\ meets_all G s'.
Proof.
  intros G n h ots outs S F. induction F as [|[x var] outs (t & I & X) F IH]; intros s ST; [exists s; split; [constructor|exact ST]|]. cbn [fst snd] in *.
  destruct (S var t I) as (z & SH & Z). destruct (ST x _ X) as (m0 & E0 & M0).
  assert (MZ : meets (any_value t) (Whole t z)) by (exists z; split; [reflexivity|split; [exact Z|discriminate]]).
  destruct (IH (assign x (Whole t z) s) (assign_meets G s x _ _ X MZ ST)) as (s' & A & ST').
  exists s'. split; [|exact ST']. exact (as_one n h x var outs s (Whole t z) m0 s' SH E0 (meets_kind _ _ _ M0 MZ) A).
Qed.
Lemma complete_text : forall rp P G insts m0, placed rp insts -> (forall i, List.In i insts -> zeroed rp m0 i) -> timers_fresh rp insts ->
  forall qs r s m L l lo, state rp P insts m0 r s m L l lo -> clock_runs lo qs -> meets_all G s -> accepted insts l -> Forall (fun q => regular (p_profile P) G insts (fst q)) qs ->
  (exists s' l', does P insts s l qs s' l' /\ meets_all G s') \/ is_stopped P insts s l qs.
Proof.
  intros rp P G insts m0 PL Z0 TF qs. induction qs as [|[q [n1 n2]] qs IH]; intros r s m L l lo ST C S ACC F; [left; exists s, l; split; [constructor|exact S]|].
  destruct C as (C1 & C2 & C3 & C4). inversion F as [|? ? O F']; subst. cbn [fst] in O. pose proof (st_store _ _ _ _ _ _ _ _ _ _ ST) as R.
  assert (STEP : (exists s1 l1, does_one P insts s l (q, (n1, n2)) s1 l1 /\ meets_all G s1) \/ is_stopped P insts s l ((q, (n1, n2)) :: qs)).
  { destruct O as [x e u t b c X E K NN|x e k n X E|x e t rlo rhi X E|x e a b t rlo rhi X E A T RG X1 X2|x e rlo rhi X E|x e rlo rhi X E X1 X2|i ins outs its ots I IF N T O|f x ys tx t b SF X T ND Y].
    - destruct (proj1 (formed_resolved P G r s R S) e _ E) as [(mg & D & H)|B]; [|right; now apply stop_let]. left.
      destruct H as (z & -> & Z & BZ). destruct (S x _ X) as (m1 & X0 & M1).
      assert (W : exists w, becomes (Whole u z) t (Whole t w) /\ of_type t w /\ (b = true -> 0 <= w)).
      { destruct b.
        - destruct (NN eq_refl) as [-> ->]. exists z. split; [exact (bc_same (Whole t z))|]. split; [exact Z|]. intros _. exact (BZ eq_refl).
        - destruct (becomes_total u t z K Z) as (w & B & W). exists w. split; [exact B|]. split; [exact W|discriminate]. }
      destruct W as (w & B & W & WN). exists (assign x (Whole t w) s), l. split.
      + refine (do_let P insts s l x e (Whole u z) m1 (Whole t w) _ D X0 _). destruct M1 as (z1 & -> & _). exact B.
      + refine (assign_meets G s x _ _ X _ S). exists w. exact (conj eq_refl (conj W WN)).
    - destruct (proj1 (formed_resolved P G r s R S) e _ E) as [(mg & D & H)|B]; [|right; now apply stop_let]. left.
      destruct (S x _ X) as (m1 & X0 & M1). exists (assign x mg s), l. split; [|exact (assign_meets G s x _ _ X H S)].
      refine (do_let P insts s l x e mg m1 mg _ D X0 _). rewrite (meets_kind _ _ _ M1 H). apply bc_same.
    - destruct (proj1 (formed_resolved P G r s R S) e _ E) as [(mg & D & H)|B]; [|right; now apply stop_let]. left.
      destruct (S x _ X) as (m1 & X0 & M1). exists (assign x mg s), l. split; [|exact (assign_meets G s x _ _ X H S)].
      refine (do_let P insts s l x e mg m1 mg _ D X0 _). rewrite (meets_kind _ _ _ M1 H). apply bc_same.
    - destruct (proj1 (formed_resolved P G r s R S) e _ E) as [(mg & D & H)|B]; [|right; now apply stop_let]. left.
      destruct H as (z & -> & Z & BZ). destruct (S x _ X) as (m1 & X0 & (q1 & -> & _)). destruct (RG z Z BZ) as [Z1 Z2]. apply IZR_le in Z1, Z2.
      destruct (rounding_exists t (IZR z) (IZR rlo) (IZR rhi) T X1 X2 (conj Z1 Z2)) as (p & N & Q). exists (assign x (Real t p) s), l. split.
      + exact (do_let P insts s l x e (Whole a z) (Real t q1) (Real t p) _ D X0 (bc_to_real a t z p A T N)).
      + refine (assign_meets G s x _ _ X _ S). exists p. split; [reflexivity|]. split; [exact T|]. split; [exact (rounded t _ p N)|exact Q].
    - destruct (proj1 (formed_resolved P G r s R S) e _ E) as [(mg & D & H)|B]; [|right; now apply stop_let]. left.
      destruct H as (q & -> & _ & V & Q). destruct (S x _ X) as (m1 & X0 & (q1 & -> & _)). exists (assign x (Real S_LREAL q) s), l. split.
      + exact (do_let P insts s l x e (Real S_REAL q) (Real S_LREAL q1) (Real S_LREAL q) _ D X0 (bc_widen q)).
      + refine (assign_meets G s x _ _ X _ S). exists q. split; [reflexivity|]. split; [right; now left|]. split; [exact (widened q V)|exact Q].
    - destruct (proj1 (formed_resolved P G r s R S) e _ E) as [(mg & D & H)|B]; [|right; now apply stop_let]. left.
      destruct H as (q & -> & _ & V & Q). destruct (S x _ X) as (m1 & X0 & (q1 & -> & _)).
      destruct (rounding_exists S_REAL q (IZR rlo) (IZR rhi) (or_introl eq_refl) X1 X2 Q) as (p & N & Q'). exists (assign x (Real S_REAL p) s), l. split.
      + exact (do_let P insts s l x e (Real S_LREAL q) (Real S_REAL q1) (Real S_REAL p) _ D X0 (bc_narrow q p (narrow_fits q _ _ X1 X2 Q) N)).
      + refine (assign_meets G s x _ _ X _ S). exists p. split; [reflexivity|]. split; [now left|]. split; [exact (rounded S_REAL _ p N)|exact Q'].
    - pose proof (formed_settled P G r s _ _ R S T) as TS.
      destruct (inputs_settled P s its ins TS) as [(zs & LN & D)|(ins1 & n & e & ins2 & its1 & its2 & zs & -> & -> & LN & D & B)].
      + destruct (inputs_whole P r s R its ins zs N LN D) as [_ TY].
        destruct (called rp P insts m0 PL r s m L l lo i its ots (Event zs n1 n2) ST I IF TY C1 C2 C3) as (_ & _ & _ & OK & CC & _).
        assert (AC : accepts (i_name i) (events_of i (l ++ [(i, Event zs n1 n2)])) \/ is_stopped P insts s l ((Use i ins outs, (n1, n2)) :: qs)).
        { rewrite events_snoc. destruct (pulse_accepts i its ots l zs n1 n2 IF LN (ACC i I)) as [AC|(NP & (pt & ->) & PU)]; [left; exact AC|right].
          exact (stop_pulse P insts s l i ins outs its ots pt n1 n2 qs I NP IF N D PU). }
        destruct AC as [AC|SP]; [left|right; exact SP].
        destruct (block_accepts rp (p_profile P) m0 i its ots (Z0 i I) IF (fresh rp insts TF i I) _ OK CC AC) as [mi M].
        destruct (assigns_met G (i_name i) (events_of i (l ++ [(i, Event zs n1 n2)])) ots outs) with (s := s) as (s' & A & S'); trivial.
        * intros var t IV. rewrite events_snoc in *. destruct (block_total (i_name i) its ots var t (events_of i l) (Event zs n1 n2) IF AC IV) as [z SH]. exists z. split; [exact SH|].
          destruct (block_shows rp (p_profile P) m0 i its ots (Z0 i I) IF (fresh rp insts TF i I) _ mi var _ OK CC M SH) as (v & y & _ & _ & _ & TY'). exact TY'.
        * exists s', (l ++ [(i, Event zs n1 n2)]). split; [|exact S']. exact (do_use P insts s l i ins outs its ots zs n1 n2 s' I IF N D LN AC A).
      + right. exact (stop_input P insts s l i _ outs _ qs n e ins1 ins2 its1 its2 ots zs eq_refl IF D LN B).
    - left. destruct (S x _ X) as (m1 & X0 & (n & -> & _)).
      destruct (split_does P insts r s l f x ys tx t n (n1, n2) R SF X0 T ND) as (zs & D & O & LN).
      { refine (Forall_impl _ _ Y). intros y (c & A). destruct (S y _ A) as (m2 & B & (z & -> & _)). now exists z. }
      exists (assign_parts t ys zs s), l. split; [exact D|]. intros y d Q. destruct (parts_of t ys zs s y ND LN O) as [(IN & z & A & B & B0)|(NI & ->)]; [|exact (S y d Q)].
      rewrite Forall_forall in Y. destruct (Y y IN) as (c & U). rewrite U in Q. injection Q as <-. exists (Whole t z). split; [exact A|]. exists z. split; [reflexivity|]. split; [exact B|]. intros _. exact B0. }
  destruct STEP as [(s1 & l1 & D & S1)|B]; [|right; exact B].
  destruct (step_does rp P insts m0 PL Z0 TF r s m L l lo _ s1 l1 ST D C1 C2 C3) as (r1 & m1 & lg & _ & ST1).
  destruct (IH r1 s1 m1 _ l1 n2 ST1 C4 S1 (does_accepts P insts s l _ s1 l1 D ACC) F') as [(s' & l' & D' & S')|B].
  - left. exists s', l'. split; [exact (do_cons P insts s l _ qs s1 l1 s' l' D D')|exact S'].
  - right. exact (stop_later P insts s l _ qs s1 l1 D B).
Qed.
Lemma texts_complete : forall rp P G insts r m s qs, started rp insts m qs -> represents r s -> meets_all G s ->
  Forall (fun q => regular (p_profile P) G insts (fst q)) qs ->
  match executes_all rp P r m qs with
  | Ok (r', m', _) => exists s' l, does P insts s [] qs s' l /\ meets_all G s' /\ represents r' s' /\ outputs_shown rp m' insts l
  | Panic => is_stopped P insts s [] qs
  | Ub => False
  end.
Proof.
  intros rp P G insts r m s qs ST R S F. pose proof ST as (PL & Z0 & TF & C).
  destruct (complete_text rp P G insts m PL Z0 TF qs r s m [] [] 0 (begun rp P insts m r s R) C S (fun i _ _ => ex_intro _ None pu_fresh) F) as [(s' & l & D & M)|B].
  - destruct (program_refines rp P insts r m s qs s' l ST R D) as (r' & m' & log & -> & A & O). exists s', l. exact (conj D (conj M (conj A O))).
  - now rewrite (program_stops rp P insts r m s qs ST R B).
Qed.
