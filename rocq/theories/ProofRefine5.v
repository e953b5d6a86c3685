(** Proofs about the meaning of programs: every program of the kind described in SpecRefine.v has one. *)
From Coq Require Import String ZArith List Bool Lia Reals.
From Verif Require Import Base ModelFB ModelCounters ModelTimers ModelLayout ModelMachine ModelFloat ModelString ModelLink ModelLib ModelApi
  SpecFB SpecLayout SpecMachine SpecScalar SpecText SpecLink SpecLib SpecSafe SpecApi SpecCall SpecExpr SpecTerm SpecType SpecProgram SpecRefine
  ProofBase ProofFB ProofTimers ProofTP ProofLayout ProofMachine ProofMachine2 ProofType ProofSplit ProofExpr ProofTerm ProofTerm3 ProofTerm4
  ProofProgram ProofProgram2 ProofProgram3 ProofProgram4 ProofRefine ProofRefine2 ProofRefine3 ProofRefine4.
Import ListNotations.
Open Scope string_scope.
Open Scope list_scope.
Open Scope Z_scope.
Local Opaque ModelApi.call value_in api.

(** * Expressions *)
Section Induction.
Variables (G : string -> option sty) (Q : expr -> sty -> Prop).
Hypothesis Var : forall x t, G x = Some t -> Q (Arg x) t.
Hypothesis Node : forall f es ts t, Forall2 Q es ts -> takes f ts t -> Q (ModelLink.Call f es) t.
Fixpoint typed_by_all (e : expr) (t : sty) (H : typed_by G e t) {struct H} : Q e t :=
  match H with
  | tb_variable _ x t V => Var x t V
  | tb_call _ f es ts t F K => Node f es ts t ((fix go es ts (F : Forall2 (typed_by G) es ts) {struct F} : Forall2 Q es ts :=
      match F with Forall2_nil _ => Forall2_nil Q | Forall2_cons _ _ A B => Forall2_cons _ _ (typed_by_all _ _ A) (go _ _ B) end) es ts F) K
  end.
End Induction.
Definition settled (P : platform) (s : store) (e : expr) (t : sty) : Prop := (exists z, of_type t z /\ denotes P s e (Whole t z)) \/ breaks P s e.
Lemma settled_args : forall P s es ts, Forall2 (settled P s) es ts ->
  (exists ms, Forall2 (denotes P s) es ms /\ of_types ts ms) \/ (exists es1 ms e es2, es = es1 ++ e :: es2 /\ Forall2 (denotes P s) es1 ms /\ breaks P s e).
Proof.
  intros P s es ts F. induction F as [|e t es ts [(z & Z & M)|A] F IH]; [left; exists []; split; constructor| |].
  - destruct IH as [(ms & D & O)|(es1 & ms & e' & es2 & -> & D & B)].
    + left. exists (Whole t z :: ms). split; constructor; trivial. now exists z.
    + right. exists (e :: es1), (Whole t z :: ms), e', es2. split; [reflexivity|]. split; [now constructor|exact B].
  - right. exists [], [], e, es. split; [reflexivity|]. split; [constructor|exact A].
Qed.
Lemma all_settled : forall P r G s e t, represents r s -> stores G s -> typed_by G e t -> settled P s e t.
Proof.
  intros P r G s e t R S H. apply (typed_by_all G (settled P s)) with (3 := H).
  - intros x t' V. left. destruct (S x t' V) as (z & E & Z). exists z. split; [exact Z|]. now apply den_variable.
  - intros f es ts t' F K. destruct (settled_args P s es ts F) as [(ms & M & T)|(es1 & ms & e' & es2 & -> & M & A)].
    + destruct (total_rule P f ts ms t' K T) as [(z & Y)|Y].
      * left. exists z. assert (D : denotes P s (ModelLink.Call f es) (Whole t' z)) by exact (den_call P s f es ms _ M Y). split; [|exact D].
        exact (whole_typed P r _ _ _ (denotes_means P r s _ _ R D)).
      * right. exact (br_here P s f es ms M Y).
    + right. exact (br_inside P s f es1 ms e' es2 M A).
Qed.
Lemma inputs_settled : forall P s (its : list (string * sty)) (ins : list (string * expr)), Forall2 (settled P s) (map snd ins) (map snd its) ->
  (exists zs, length zs = length its /\ Forall2 (denotes P s) (map snd ins) (map (fun tz => Whole (fst tz) (snd tz)) (combine (map snd its) zs))) \/
  (exists ins1 n e ins2 its1 its2 zs, ins = ins1 ++ (n, e) :: ins2 /\ its = its1 ++ its2 /\ length zs = length its1 /\
     Forall2 (denotes P s) (map snd ins1) (map (fun tz => Whole (fst tz) (snd tz)) (combine (map snd its1) zs)) /\ breaks P s e).
Proof.
  intros P s its. induction its as [|[n t] its IH]; intros [|[n' e] ins] F; cbn [map snd] in F; inversion F as [|? ? ? ? S F']; subst.
  - left. exists []. split; [reflexivity|constructor].
  - destruct S as [(z & Z & D)|B].
    + destruct (IH ins F') as [(zs & L & A)|(ins1 & n1 & e1 & ins2 & its1 & its2 & zs & -> & -> & L & A & B)].
      * left. exists (z :: zs). split; [cbn; now rewrite L|]. cbn [map combine fst snd]. now constructor.
      * right. exists ((n', e) :: ins1), n1, e1, ins2, ((n, t) :: its1), its2, (z :: zs). split; [reflexivity|]. split; [reflexivity|]. split; [cbn; now rewrite L|].
        split; [cbn [map combine fst snd]; now constructor|exact B].
    + right. exists [], n', e, ins, [], ((n, t) :: its), []. split; [reflexivity|]. split; [reflexivity|]. split; [reflexivity|]. split; [constructor|exact B].
Qed.

(** * Blocks *)
Lemma up_exists : forall t h, exists v, up_count t h v.
Proof. intros t h. induction h as [|i h [v V]] using rev_ind; eexists; constructor; eassumption. Qed.
Lemma down_exists : forall t h, exists v, down_count t h v.
Proof. intros t h. induction h as [|i h [v V]] using rev_ind; eexists; constructor; eassumption. Qed.
Lemma up_down_exists : forall t h, exists v, up_down_count t h v.
Proof. intros t h. induction h as [|i h [v V]] using rev_ind; eexists; constructor; eassumption. Qed.
Lemma timer_kinds : forall n s, List.In (n, s) timer_values -> List.In n on_delays \/ List.In n off_delays \/ List.In n pulses.
Proof. intros n s H. unfold timer_values in H. cbn [List.In] in H. table H; injection H as <- _; cbn; tauto. Qed.
Lemma block_total : forall n its ots var t h e, interface n its ots -> accepts n (h ++ [e]) -> List.In (var, t) ots ->
  exists z, shows n (h ++ [e]) var (Whole t z).
Proof.
  intros n its ots var t h e IF AC I. inversion IF as [? u s U V|? u s U V|? u s U V|? f a b U|? f U|? s U]; subst.
  - destruct (up_exists u (map up_input (h ++ [e]))) as [v K]. destruct I as [I|[I|[]]]; injection I as <- <-; eexists; [exact (sh_up_q n u h e v U K)|exact (sh_up n u s _ v U V K)].
  - destruct (down_exists u (map down_input (h ++ [e]))) as [v K]. destruct I as [I|[I|[]]]; injection I as <- <-; eexists; [exact (sh_down_q n u h e v U K)|exact (sh_down n u s _ v U V K)].
  - destruct (up_down_exists u (map up_down_input (h ++ [e]))) as [v K].
    destruct I as [I|[I|[I|[]]]]; injection I as <- <-; eexists; [exact (sh_up_down_qu n u h e v U K)|exact (sh_up_down_qd n u h e v U K)|exact (sh_up_down n u s _ v U V K)].
  - destruct I as [I|[]]; injection I as <- <-. destruct U as [U|[U|[]]]; injection U as <- _ _ _; eexists; [apply sh_sr|apply sh_rs].
  - destruct I as [I|[]]; injection I as <- <-. destruct U as [U|[U|[]]]; injection U as <- _; eexists; [apply sh_rising|apply sh_falling].
  - destruct (timer_kinds n s U) as [K|[K|K]].
    + destruct I as [I|[I|[]]]; injection I as <- <-; eexists; [now apply sh_on|now apply sh_on_et].
    + destruct I as [I|[I|[]]]; injection I as <- <-; eexists; [now apply sh_off|now apply sh_off_et].
    + destruct (AC K) as [o PU]. rewrite map_app in PU. cbn [map] in PU. apply pulse_last in PU. destruct PU as ([w|] & PU & IN).
      * destruct I as [I|[I|[]]]; injection I as <- <-; eexists; [exact (sh_pulse n h e w K PU)|exact (sh_pulse_et n s h e w K U PU)].
      * specialize (IN eq_refl). destruct I as [I|[I|[]]]; injection I as <- <-; eexists; [now apply sh_pulse_begin|now apply sh_pulse_begin_et].
Qed.
(** Pulse timers that have been called have a state. *)
Definition accepted (insts : list instance) (l : history) : Prop := forall i, List.In i insts -> accepts (i_name i) (events_of i l).
Lemma does_accepts : forall P insts s l q s1 l1, does_one P insts s l q s1 l1 -> accepted insts l -> accepted insts l1.
Proof.
  intros P insts s l q s1 l1 D A. destruct D as [s l x e mg mg0 mg' k D X B|s l i ins outs its ots zs n1 n2 s' I IF N D LN AC AS|s l f x ys tx t n zs k SF X T ND Y TA]; [exact A| |exact A].
  intros j J. destruct (same_instance i j) eqn:E.
  - apply same_instance_iff in E. now subst j.
  - unfold events_of. rewrite filter_app. cbn [filter fst]. rewrite E, app_nil_r. exact (A j J).
Qed.
Lemma pulse_accepts : forall (i : instance) its ots l zs n1 n2, interface (i_name i) its ots -> length zs = length its -> accepts (i_name i) (events_of i l) ->
  accepts (i_name i) (events_of i l ++ [Event zs n1 n2]) \/
  List.In (i_name i) pulses /\ (exists pt, zs = [0; pt]) /\ pulse (map timed_input (events_of i l)) None.
Proof.
  intros i its ots l zs n1 n2 IF LN A. destruct (in_dec string_dec (i_name i) pulses) as [NP|NP]; [|left; intros X; destruct (NP X)].
  destruct (pulse_names _ NP) as [_ [t V]]. destruct (interface_unique _ _ _ _ _ IF (if_timer _ t V)) as [E _]. subst its. destruct zs as [|a [|pt [|]]]; try discriminate LN.
  destruct (A NP) as [o PU]. destruct (pulse_goes_on _ (timed_input (Event [a; pt] n1 n2)) o PU) as [[o' PU']|[-> X]].
  - left. intros _. exists o'. now rewrite map_app.
  - right. split; [exact NP|]. split; [|exact PU]. exists pt. unfold timed_input in X. cbn [v_inputs tc_in] in X. unfold on in X. destruct (Z.eqb_spec a 0) as [->|]; [reflexivity|discriminate X].
Qed.
Lemma assigns_total : forall G n h ots outs, (forall var t, List.In (var, t) ots -> exists z, shows n h var (Whole t z) /\ of_type t z) ->
  Forall (fun o => exists t, List.In (snd o, t) ots /\ G (fst o) = Some t) outs -> forall s, stores G s ->
  exists s', assigns n h outs s s' /\ stores G s'.
Proof.
  intros G n h ots outs S F. induction F as [|[x var] outs (t & I & X) F IH]; intros s ST; [exists s; split; [constructor|exact ST]|]. cbn [fst snd] in *.
  destruct (S var t I) as (z & SH & Z). destruct (ST x t X) as (z0 & E0 & _).
  destruct (IH (assign x (Whole t z) s)) as (s' & A & ST').
  - intros y u Y. unfold assign. destruct (String.eqb_spec y x) as [->|N]; [|exact (ST y u Y)]. rewrite X in Y. injection Y as <-. now exists z.
  - exists s'. split; [|exact ST']. exact (as_one n h x var outs s (Whole t z) (Whole t z0) s' SH E0 eq_refl A).
Qed.
Lemma events_snoc : forall i l e, events_of i (l ++ [(i, e)]) = events_of i l ++ [e].
Proof. intros i l e. unfold events_of. rewrite filter_app, map_app. cbn [filter fst]. now rewrite (proj2 (same_instance_iff i i) eq_refl). Qed.
Lemma becomes_total : forall u t z, u = t \/ List.In u wholes /\ List.In t wholes -> of_type u z -> exists w, becomes (Whole u z) t (Whole t w) /\ of_type t w.
Proof.
  intros u t z [->|[U T]] Z; [exists z; split; [exact (bc_same (Whole t z))|exact Z]|].
  assert (W : List.In t words_ints) by (unfold wholes in T; cbn [List.In] in T; table T; subst t; cbn; tauto).
  destruct (convert_typed t z W) as (A & B & _). exists (wrap (ity_of t) z). split; [|exact A]. now apply bc_whole.
Qed.
Lemma pulses_timers : forall n, List.In n pulses -> List.In n (map fst timer_values).
Proof. intros n H. destruct (pulse_names n H) as [_ [s V]]. exact (timer_name n s V). Qed.

(** A statement that takes a date or time apart always does something. *)
Lemma split_does : forall P insts r s l f x ys tx t n k, represents r s -> List.In (f, tx, length ys) splittable -> s x = Some (Whole tx n) -> List.In t wide_ints -> NoDup ys ->
  Forall (fun y => exists z, s y = Some (Whole t z)) ys -> exists zs, does_one P insts s l (Split f x ys, k) (assign_parts t ys zs s) l /\
    Forall (fun z => of_type t z /\ 0 <= z) zs /\ length zs = length ys.
Proof.
  intros P insts r s l f x ys tx t n k R SF X T ND Y. destruct (R x _ X) as (tv & G & S). destruct S as [-> I].
  destruct (split_runs P r f tx t x ys n SF T G I) as (zs & r' & S & TA & O & L & _).
  { split; [exact ND|]. refine (Forall_impl _ _ Y). intros y (z & A). destruct (R y _ A) as (tv & GY & SY). destruct SY as [-> _]. now exists (VZ z). }
  exists zs. split; [exact (do_split P insts s l f x ys tx t n zs k SF X T ND Y TA)|]. now split.
Qed.
Lemma parts_of : forall t ys zs s y, NoDup ys -> length zs = length ys -> Forall (fun z => of_type t z /\ 0 <= z) zs ->
  List.In y ys /\ (exists z, assign_parts t ys zs s y = Some (Whole t z) /\ of_type t z /\ 0 <= z) \/ ~ List.In y ys /\ assign_parts t ys zs s y = s y.
Proof.
  intros t ys zs s y ND L O. destruct (in_dec string_dec y ys) as [IN|NI]; [left|right; split; [exact NI|now apply parts_other]]. split; [exact IN|].
  destruct (parts_in t ys zs s y ND L IN) as (z & C & E). exists z. split; [exact E|]. apply in_combine_r in C. rewrite Forall_forall in O. exact (O z C).
Qed.

(** * Programs *)
Lemma complete : forall rp P G insts m0, placed rp insts -> (forall i, List.In i insts -> zeroed rp m0 i) -> timers_fresh rp insts ->
  forall qs r s m L l lo, state rp P insts m0 r s m L l lo -> clock_runs lo qs -> stores G s -> accepted insts l -> Forall (fun q => ordinary G insts (fst q)) qs ->
  (exists s' l', does P insts s l qs s' l') \/ is_stopped P insts s l qs.
Proof.
  intros rp P G insts m0 PL Z0 TF qs. induction qs as [|[q [n1 n2]] qs IH]; intros r s m L l lo ST C S ACC F; [left; exists s, l; constructor|].
  destruct C as (C1 & C2 & C3 & C4). inversion F as [|? ? O F']; subst. cbn [fst] in O.
  assert (STEP : (exists s1 l1, does_one P insts s l (q, (n1, n2)) s1 l1 /\ stores G s1) \/ is_stopped P insts s l ((q, (n1, n2)) :: qs)).
  { destruct O as [x e t u X E K|i ins outs its ots I IF N T O|f x ys tx t SF X T ND Y].
    - destruct (all_settled P r G s e u (st_store _ _ _ _ _ _ _ _ _ _ ST) S E) as [(z & Z & D)|B]; [|right; now apply stop_let]. left.
      destruct (S x t X) as (z0 & X0 & _). destruct (becomes_total u t z K Z) as (w & B & W). exists (assign x (Whole t w) s), l. split.
      + exact (do_let P insts s l x e (Whole u z) (Whole t z0) (Whole t w) _ D X0 B).
      + intros y v Y. unfold assign. destruct (String.eqb_spec y x) as [->|NE]; [|exact (S y v Y)]. rewrite X in Y. injection Y as <-. now exists w.
    - assert (TS : Forall2 (settled P s) (map snd ins) (map snd its)).
      { clear -T S ST. induction T as [|e t es ts E T IHT]; constructor; [exact (all_settled P r G s e t (st_store _ _ _ _ _ _ _ _ _ _ ST) S E)|exact IHT]. }
      destruct (inputs_settled P s its ins TS) as [(zs & LN & D)|(ins1 & n & e & ins2 & its1 & its2 & zs & -> & -> & LN & D & B)].
      + destruct (inputs_whole P r s (st_store _ _ _ _ _ _ _ _ _ _ ST) its ins zs N LN D) as [_ TY].
        destruct (called rp P insts m0 PL r s m L l lo i its ots (Event zs n1 n2) ST I IF TY C1 C2 C3) as (_ & _ & _ & OK & CC & _).
        assert (AC : accepts (i_name i) (events_of i (l ++ [(i, Event zs n1 n2)])) \/ is_stopped P insts s l ((Use i ins outs, (n1, n2)) :: qs)).
        { rewrite events_snoc. destruct (pulse_accepts i its ots l zs n1 n2 IF LN (ACC i I)) as [AC|(NP & (pt & ->) & PU)]; [left; exact AC|right].
          exact (stop_pulse P insts s l i ins outs its ots pt n1 n2 qs I NP IF N D PU). }
        destruct AC as [AC|SP]; [left|right; exact SP].
        destruct (block_accepts rp (p_profile P) m0 i its ots (Z0 i I) IF (fresh rp insts TF i I) _ OK CC AC) as [mi M].
        destruct (assigns_total G (i_name i) (events_of i (l ++ [(i, Event zs n1 n2)])) ots outs) with (s := s) as (s' & A & S'); trivial.
        * intros var t IV. rewrite events_snoc in *. destruct (block_total (i_name i) its ots var t (events_of i l) (Event zs n1 n2) IF AC IV) as [z SH]. exists z. split; [exact SH|].
          destruct (block_shows rp (p_profile P) m0 i its ots (Z0 i I) IF (fresh rp insts TF i I) _ mi var _ OK CC M SH) as (v & y & _ & _ & _ & TY'). exact TY'.
        * exists s', (l ++ [(i, Event zs n1 n2)]). split; [|exact S']. exact (do_use P insts s l i ins outs its ots zs n1 n2 s' I IF N D LN AC A).
      + right. exact (stop_input P insts s l i _ outs _ qs n e ins1 ins2 its1 its2 ots zs eq_refl IF D LN B).
    - left. destruct (S x tx X) as (n & X0 & _).
      destruct (split_does P insts r s l f x ys tx t n (n1, n2) (st_store _ _ _ _ _ _ _ _ _ _ ST) SF X0 T ND) as (zs & D & O & LN).
      { refine (Forall_impl _ _ Y). intros y A. destruct (S y t A) as (z & B & _). now exists z. }
      exists (assign_parts t ys zs s), l. split; [exact D|]. intros y u U. destruct (parts_of t ys zs s y ND LN O) as [(IN & z & A & B & _)|(NI & ->)]; [|exact (S y u U)].
      rewrite Forall_forall in Y. rewrite (Y y IN) in U. injection U as <-. exists z. now split. }
  destruct STEP as [(s1 & l1 & D & S1)|B]; [|right; exact B].
  destruct (step_does rp P insts m0 PL Z0 TF r s m L l lo _ s1 l1 ST D C1 C2 C3) as (r1 & m1 & lg & _ & ST1).
  destruct (IH r1 s1 m1 _ l1 n2 ST1 C4 S1 (does_accepts P insts s l _ s1 l1 D ACC) F') as [(s' & l' & D')|B].
  - left. exists s', l'. exact (do_cons P insts s l _ qs s1 l1 s' l' D D').
  - right. exact (stop_later P insts s l _ qs s1 l1 D B).
Qed.
Lemma program_complete : forall rp P G insts r m s qs, started rp insts m qs -> represents r s -> stores G s -> Forall (fun q => ordinary G insts (fst q)) qs ->
  (exists s' l, does P insts s [] qs s' l) \/ is_stopped P insts s [] qs.
Proof.
  intros rp P G insts r m s qs (PL & Z0 & TF & C) R S F. exact (complete rp P G insts m PL Z0 TF qs r s m [] [] 0 (begun rp P insts m r s R) C S (fun i _ _ => ex_intro _ None pu_fresh) F).
Qed.
