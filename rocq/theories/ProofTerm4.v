(** The reference of SpecTerm.v is complete for integers, bit strings, times and dates. *)
From Coq Require Import String Ascii ZArith Lia List Bool SpecFloat Reals Lra.
From Flocq Require Import Core BinarySingleNaN.
From Verif Require Import Base ModelFloat ModelScalar ModelArith ModelTimeNum ModelText ModelString ModelExtra ModelDate ModelChrono ModelST ModelWrap ModelLink ModelLib
  ModelApi SpecScalar SpecTimeNum SpecReal SpecPow SpecST SpecDate SpecText SpecExtra SpecLink SpecConv SpecLib SpecName SpecWrap SpecCall SpecExpr SpecNum SpecTerm
  ProofBase ProofScalar ProofST ProofReal2 ProofDate ProofExtra ProofExtra5 ProofExtra6 ProofWrap ProofLib ProofLib2 ProofConv ProofName3 ProofApi3 ProofString2 ProofCall ProofCall2 ProofCall3 ProofCall4
  ProofCall5 ProofProg ProofProg4 ProofExpr ProofExpr2 ProofExpr3 ProofExpr4 ProofNum ProofNum2 ProofNum3 ProofNum4 ProofTerm ProofTerm2 ProofTermR ProofTermD ProofTerm3.
Import ListNotations.
Open Scope string_scope.
Open Scope list_scope.
Open Scope Z_scope.
Local Opaque call value_in api.

Lemma type_dec : forall t z, of_type t z \/ ~ of_type t z.
Proof. intros t z. unfold of_type. lia. Qed.
Lemma representable_dec : forall c z, representable c z \/ ~ representable c z.
Proof. intros c z. unfold representable, in_ity. destruct (nanos_floor c); [|assert (N : false = true -> -9223372036 * SECOND <= z) by discriminate]; lia. Qed.
Lemma date_dec : forall x, (exists n, day_number x n) \/ (forall n, ~ day_number x n).
Proof.
  intros [[y m] d]. assert (V : valid_date (y, m, d) \/ ~ valid_date (y, m, d)) by (unfold valid_date; lia). destruct V as [V|V].
  - left. destruct (day_number_unique _ V) as (n & N & _). now exists n.
  - right. intros n N. apply V. exact (proj1 (proj1 (day_number_iff _ _) N)).
Qed.
Lemma reversed_exists : forall t v, List.In t byte_ordered -> of_type t v ->
  exists w, of_type t w /\ forall i, 0 <= i < bytes t -> byte w i = byte v (bytes t - 1 - i).
Proof.
  intros t v T V. exists (swap_bytes (order_type t) v). split; [apply wrap_typed; exact T|]. intros i I.
  destruct (order_type_ok t v T V) as [O J]. destruct (order_facts t v T V) as (N & B & P & Q). pose proof (swap_bytes_le _ v O) as S.
  set (n := Z.to_nat (it_bits (order_type t) / 8)) in *. apply (f_equal (fun l => nth (Z.to_nat i) l 0)) in S.
  rewrite rev_nth, le_bytes_length in S by (rewrite le_bytes_length; lia). rewrite !le_bytes_nth in S by lia.
  rewrite B, !byte_mod in S by lia. rewrite Z2Nat.id in S by lia. rewrite S. f_equal. lia.
Qed.
Lemma max_exists : forall z zs, exists m, is_max m (z :: zs).
Proof.
  intros z zs. revert z. induction zs as [|y zs IH]; intros z; [exists z; split; [now left|intros x [<-|[]]; lia]|].
  destruct (IH y) as (m & I & B). destruct (Z.le_gt_cases z m).
  - exists m. split; [now right|]. intros x [<-|X]; [assumption|now apply B].
  - exists z. split; [now left|]. intros x [<-|X]; [lia|]. specialize (B x X). lia.
Qed.
Lemma min_exists : forall z zs, exists m, is_min m (z :: zs).
Proof.
  intros z zs. revert z. induction zs as [|y zs IH]; intros z; [exists z; split; [now left|intros x [<-|[]]; lia]|].
  destruct (IH y) as (m & I & B). destruct (Z.le_gt_cases m z).
  - exists m. split; [now right|]. intros x [<-|X]; [assumption|now apply B].
  - exists z. split; [now left|]. intros x [<-|X]; [lia|]. specialize (B x X). lia.
Qed.

Lemma clock_dec : forall P h mi s ms, accepted_clock P h mi s ms \/ ~ accepted_clock P h mi s ms.
Proof. intros P h mi s ms. unfold accepted_clock, accepts_millis. destruct (leap_any (p_chrono P)); lia. Qed.

(** Arguments of these types. *)
Definition of_types (ts : list sty) (ms : list meaning) : Prop := Forall2 (fun t m => exists z, m = Whole t z /\ of_type t z) ts ms.
Definition answers (P : platform) (f : string) (ms : list meaning) (t : sty) : Prop := (exists z, yields P f ms (Whole t z)) \/ fails P f ms.
Lemma same_types_list : forall t n ms, of_types (repeat t n) ms -> exists zs, ms = map (Whole t) zs /\ length zs = n /\ Forall (of_type t) zs.
Proof.
  intros t n. induction n as [|n IH]; intros ms H; inversion H as [|? ? ? ? (z & -> & Z) R]; subst; [exists []; repeat split; constructor|].
  destruct (IH _ R) as (zs & -> & L & F). exists (z :: zs). repeat split; [cbn; now rewrite L|now constructor].
Qed.
Ltac targs := repeat match goal with
  | H : of_types (_ :: _) _ |- _ => let z := fresh "z" in let Z := fresh "Z" in let R := fresh "R" in inversion H as [|? ? ? ? (z & -> & Z) R]; clear H; subst; change (Forall2 (fun t m => exists z, m = Whole t z /\ of_type t z)) with of_types in R
  | H : of_types [] _ |- _ => inversion H; clear H; subst
  end.
Lemma total_rule : forall P f ts ms t, takes f ts t -> of_types ts ms -> answers P f ms t.
Proof.
  intros P f ts ms t K H. destruct K.
  - targs. left. destruct (convert_typed b z H1) as (A & B & _). exists (wrap (ity_of b) z). now apply y_convert.
  - targs. pose proof (udint_pos _ Z0) as K. destruct H0 as [<-|[<-|[<-|[<-|[]]]]].
    + destruct (Z.lt_ge_cases z0 (width t)); [left; eexists; now apply y_shl|].
      destruct (p_profile P) eqn:E; [right; now apply f_shl|left; eexists; now apply y_shl_long].
    + destruct (Z.lt_ge_cases z0 (width t)); [left; eexists; now apply y_shr|].
      destruct (p_profile P) eqn:E; [right; now apply f_shr|left; eexists; now apply y_shr_long].
    + left. destruct (rot_bits P t z z0 H1 Z) as (a & b & _ & _ & TA & _ & HA & _). exists a. apply y_rol; [assumption|assumption|].
      intros i I. assert (W := proj2 (values_width t H1)). rewrite (HA _ (Z.mod_pos_bound _ _ W)). f_equal.
      rewrite Zminus_mod_idemp_l. replace (i + z0 - z0) with i by lia. now apply Z.mod_small.
    + left. destruct (rot_bits P t z z0 H1 Z) as (a & b & _ & _ & _ & TB & _ & HB). exists b. now apply y_ror.
  - targs. left. destruct (in_dec string_dec f (reversing (p_endian P))) as [I|I]; [|eexists; now apply y_kept].
    destruct (reversed_exists t z H1 Z) as (w & W & B). exists w. now apply y_reversed.
  - apply same_types_list in H. destruct H as (zs & -> & L & F). destruct zs as [|z zs]; [discriminate|]. left.
    destruct H0 as [<-|[<-|[]]]; [destruct (max_exists z zs) as (m & M); exists m; now apply y_max|destruct (min_exists z zs) as (m & M); exists m; now apply y_min].
  - targs. left. destruct (Z.le_gt_cases z z1); [eexists; now apply y_limit|].
    destruct (Z.lt_ge_cases z0 z); eexists; [apply y_limit_low; assumption|apply y_limit_high; assumption].
  - targs. left. destruct (bcd_by_name P t z H0 Z) as [[_ B]|[_ B]]; [exists 1|exists 0]; apply y_bcd; try assumption; [left; now split|right; split; [reflexivity|]].
    intros (n & N & E). exact (B n N E).
  - targs. destruct H0 as [<-|[<-|[]]];
      [destruct (type_dec S_TIME (z + z0)); [left; eexists; now apply y_add|right; now apply f_add]
      |destruct (type_dec S_TIME (z - z0)); [left; eexists; now apply y_sub|right; now apply f_sub]].
  - targs. destruct H0 as [<-|[<-|[]]];
      [destruct (representable_dec (p_chrono P) (z + z0)); [left; eexists; now apply y_later|right; now apply f_later]
      |destruct (representable_dec (p_chrono P) (z - z0)); [left; eexists; now apply y_earlier|right; now apply f_earlier]].
  - targs. destruct (type_dec S_TIME (z - z0)); [left; eexists; now apply y_between|right; now apply f_between].
  - targs. destruct (type_dec S_LINT z0) as [L|L].
    2: { right. destruct H0 as [<-|[<-|[]]]; [apply f_mul|apply f_div]; tauto. }
    destruct H0 as [<-|[<-|[]]].
    + destruct (type_dec S_TIME (z * z0)); [left; eexists; now apply y_mul|right; apply f_mul; tauto].
    + destruct (Z.eq_dec z0 0) as [E|E]; [right; apply f_div; tauto|].
      destruct (type_dec S_TIME (Z.quot z z0)); [left; eexists; now apply y_div|right; apply f_div; tauto].
  - targs. destruct (date_dec (z, z0, z1)) as [(n & N)|N].
    + destruct (type_dec S_DATE (n * DAY)) as [B|B]; [left; eexists; eapply y_date; eassumption|right].
      apply f_date; [assumption|]. intros n' N'. assert (V := proj1 (proj1 (day_number_iff _ _) N)).
      destruct (day_number_unique _ V) as (u & _ & U). now rewrite (U n' N'), <- (U n N).
    + right. apply f_date; [assumption|]. intros n N'. destruct (N n N').
  - targs. left. eexists. apply y_weekday.
  - targs. destruct (type_dec S_DATE (z - z mod DAY)); [left; eexists; now apply y_date_of|right; now apply f_date_of].
  - targs. left. eexists. apply y_tod_of.
  - targs. left. destruct (recast_result a b u z H0) as (A & B & _). eexists. eapply y_recast; eassumption.
  - targs. left. cbn in H0. destruct H0 as [<-|[<-|H0]]; [| |eexists; apply y_bits_bool; exact H0];
      (exists (if z =? 0 then 0 else 1); apply y_number_bool; [cbn; tauto|]; unfold truth; destruct (Z.eqb_spec z 0); [right; tauto|left; tauto]).
  - targs. left. eexists. now apply y_of_bool.
  - targs. left. destruct (type_dec t (Z.abs z)); eexists; [now apply y_abs_whole|now apply y_abs_lowest].
  - targs. apply in_app_iff in H0. destruct H0 as [H0|H0];
      [destruct (type_dec t (z + z0)); [left; eexists; now apply y_add_times|right; now apply f_add_times with (t := t)]
      |destruct (type_dec t (z - z0)); [left; eexists; now apply y_sub_times|right; now apply f_sub_times with (t := t)]].
  - targs. apply in_app_iff in H0. destruct H0 as [H0|H0];
      [destruct (representable_dec (p_chrono P) (z + z0)); [left; eexists; now apply y_add_named|right; now apply f_add_named]
      |destruct (representable_dec (p_chrono P) (z - z0)); [left; eexists; now apply y_sub_named|right; now apply f_sub_named]].
  - targs. destruct (type_dec u (z - z0)); [left; eexists; eapply y_difference; eassumption|right; eapply f_difference; eassumption].
  - targs. apply in_app_iff in H0. destruct (type_dec S_LINT z0) as [L|L].
    2: { right. destruct H0 as [H0|H0]; [eapply f_mul_named|eapply f_div_named]; try eassumption; tauto. }
    destruct H0 as [H0|H0].
    + destruct (type_dec u (z * z0)); [left; eexists; eapply y_mul_named; eassumption|right; eapply f_mul_named; try eassumption; tauto].
    + destruct (Z.eq_dec z0 0) as [E|E]; [right; eapply f_div_named; try eassumption; tauto|].
      destruct (type_dec u (Z.quot z z0)); [left; eexists; eapply y_div_named; eassumption|right; eapply f_div_named; try eassumption; tauto].
  - targs. destruct (type_dec S_DATE (z - z mod DAY)); [left; eexists; eapply y_date_part; eassumption|right; eapply f_date_part; eassumption].
  - targs. left. eexists. eapply y_tod_part; eassumption.
  - targs. destruct (clock_dec P z z0 z1 z2) as [A|A]; [left; eexists; eapply y_clock; eassumption|right; eapply f_clock; eassumption].
  - targs. destruct (representable_dec (p_chrono P) (joined z z0)); [left; eexists; eapply y_join; eassumption|right; eapply f_join; eassumption].
  - apply same_types_list in H. destruct H as (zs & -> & L & F). do 7 (destruct zs as [|? zs]; [discriminate|]). destruct zs; [|discriminate].
    destruct (date_dec (z, z0, z1)) as [(n & N)|N].
    + assert (U : forall n', day_number (z, z0, z1) n' -> n' = n).
      { intros n' N'. assert (V := proj1 (proj1 (day_number_iff _ _) N)). destruct (day_number_unique _ V) as (v & _ & U). now rewrite (U n' N'), <- (U n N). }
      destruct (type_dec S_DATE (n * DAY)) as [B|B]; [|right; eapply f_stamp; try eassumption; intros n' N'; rewrite (U n' N'); tauto].
      destruct (clock_dec P z2 z3 z4 z5) as [A|A]; [|right; eapply f_stamp; try eassumption; tauto].
      destruct (representable_dec (p_chrono P) (joined (n * DAY) (clock_ns z2 z3 z4 z5))) as [R|R]; [left; eexists; eapply y_stamp; eassumption|].
      right; eapply f_stamp; try eassumption; intros n' N'; rewrite (U n' N'); tauto.
    + right. eapply f_stamp; try eassumption. intros n N'. destruct (N n N').
  - targs. left. eexists. apply y_char; assumption.
  - targs. left. eexists. apply y_narrow_char.
Qed.

(** ** Expressions *)
Section Induction.
Variables (r : env value) (Q : expr -> sty -> Prop).
Hypothesis Var : forall x t z, var r x t z -> Q (Arg x) t.
Hypothesis Node : forall f es ts t, Forall2 Q es ts -> takes f ts t -> Q (Call f es) t.
Fixpoint typed_all (e : expr) (t : sty) (H : typed r e t) {struct H} : Q e t :=
  match H with
  | typed_variable _ x t z V => Var x t z V
  | typed_call _ f es ts t F K => Node f es ts t ((fix go es ts (F : Forall2 (typed r) es ts) {struct F} : Forall2 Q es ts :=
      match F with Forall2_nil _ => Forall2_nil Q | Forall2_cons _ _ A B => Forall2_cons _ _ (typed_all _ _ A) (go _ _ B) end) es ts F) K
  end.
End Induction.
Definition answered (P : platform) (r : env value) (e : expr) (t : sty) : Prop := (exists z, of_type t z /\ means P r e (Whole t z)) \/ aborts P r e.
Lemma answered_args : forall P r es ts, Forall2 (answered P r) es ts ->
  (exists ms, Forall2 (means P r) es ms /\ of_types ts ms) \/ (exists es1 ms e es2, es = es1 ++ e :: es2 /\ Forall2 (means P r) es1 ms /\ aborts P r e).
Proof.
  intros P r es ts F. induction F as [|e t es ts [(z & Z & M)|A] F IH]; [left; exists []; split; constructor| |].
  - destruct IH as [(ms & F' & T)|(es1 & ms & e' & es2 & -> & F' & A)].
    + left. exists (Whole t z :: ms). split; constructor; [assumption|assumption|now exists z|assumption].
    + right. exists (e :: es1), (Whole t z :: ms), e', es2. split; [reflexivity|]. split; [now constructor|assumption].
  - right. exists [], [], e, es. split; [reflexivity|]. split; [constructor|assumption].
Qed.
Lemma whole_typed : forall P r e t z, means P r e (Whole t z) -> of_type t z.
Proof. intros P r e t z M. apply meaning_value, iv_whole in M. exact (proj2 M). Qed.
Lemma typed_answered : forall P r e t, typed r e t -> answered P r e t.
Proof.
  intros P r e t H. apply (typed_all r (answered P r)) with (3 := H).
  - intros x t' z V. left. exists z. split; [exact (proj2 V)|]. apply means_variable with (tv := (t', VZ z)); [exact (proj1 V)|]. split; [reflexivity|exact (proj2 V)].
  - intros f es ts t' F K. destruct (answered_args P r es ts F) as [(ms & M & T)|(es1 & ms & e' & es2 & -> & M & A)].
    + destruct (total_rule P f ts ms t' K T) as [(z & Y)|Y].
      * left. exists z. assert (M' : means P r (Call f es) (Whole t' z)) by (eapply means_call; eassumption). split; [exact (whole_typed P r _ _ _ M')|exact M'].
      * right. eapply aborts_here; eassumption.
    + right. eapply aborts_inside; eassumption.
Qed.
Lemma typed_iff : forall P r e t, typed r e t ->
  (forall z, value_in P r e = Ok (t, VZ z) <-> means P r e (Whole t z)) /\ (value_in P r e = Panic <-> aborts P r e).
Proof.
  intros P r e t H. destruct (typed_answered P r e t H) as [(z & Z & M)|A].
  - pose proof (meaning_value P r e _ M) as V. apply iv_whole in V. destruct V as [V _]. split.
    + intros z'. rewrite V. split; [intros E; injection E as <-; exact M|]. intros M'. pose proof (meaning_unique P r e _ _ M M') as E. now injection E as <-.
    + rewrite V. split; [discriminate|]. intros A. destruct (means_or_aborts P r e _ M A).
  - pose proof (aborts_panic P r e A) as V. rewrite V. split; [|tauto]. intros z. split; [discriminate|]. intros M. destruct (means_or_aborts P r e _ M A).
Qed.
Lemma typed_value : forall P r e t, typed r e t -> (exists z, value_in P r e = Ok (t, VZ z) /\ of_type t z) \/ value_in P r e = Panic.
Proof.
  intros P r e t H. destruct (typed_answered P r e t H) as [(z & Z & M)|A]; [left|right; now apply aborts_panic].
  exists z. split; [|exact Z]. now apply (proj1 (typed_iff P r e t H)).
Qed.
