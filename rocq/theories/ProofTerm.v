(** The reference of SpecTerm.v: texts are unique, and the functions on integers, times and dates. *)
From Coq Require Import String Ascii ZArith Lia List Bool SpecFloat Reals Lra.
From Flocq Require Import Core BinarySingleNaN.
From Verif Require Import Base ModelFloat ModelScalar ModelArith ModelTimeNum ModelText ModelString ModelExtra ModelDate ModelChrono ModelST ModelWrap ModelLink ModelLib
  ModelApi SpecScalar SpecTimeNum SpecReal SpecPow SpecST SpecDate SpecText SpecExtra SpecLink SpecConv SpecLib SpecName SpecWrap SpecCall SpecExpr SpecNum SpecTerm
  ProofBase ProofScalar ProofDate ProofExtra ProofExtra5 ProofLib ProofLib2 ProofConv ProofName3 ProofApi3 ProofCall ProofCall2 ProofCall3 ProofCall4 ProofProg ProofProg4
  ProofExpr ProofExpr2 ProofExpr3 ProofExpr4 ProofNum.
Import ListNotations.
Open Scope string_scope.
Open Scope list_scope.
Open Scope Z_scope.
Local Opaque call value_in api.

(** * Unique texts *)
Lemma canonical_int_unique : forall z s s', canonical_int s z -> canonical_int s' z -> s = s'.
Proof.
  intros z s s' [[L A]|(L & r & -> & A)] [[L' B]|(L' & r' & -> & B)]; try lia; [|f_equal]; eapply canonical_unique; eassumption.
Qed.
Lemma fixed_unique : forall w n l l', fixed w l n -> fixed w l' n -> l = l'.
Proof. intros w n l l' [A B] [C D]. apply (canonical_unique_aux l l' n B D). congruence. Qed.
Lemma date_text_unique : forall y m d s s', date_text s y m d -> date_text s' y m d -> s = s'.
Proof.
  intros y m d s s' (a & b & c & -> & A & B & C) (a' & b' & c' & -> & A' & B' & C').
  now rewrite (fixed_unique _ _ _ _ A A'), (fixed_unique _ _ _ _ B B'), (fixed_unique _ _ _ _ C C').
Qed.
Fixpoint mixed_radix (us : list (list Z * Z * option Z)) : Prop :=
  match us with
  | [] => True
  | (_, w, _) :: r => 0 < w /\ (forall s v, time_items r s v -> 0 <= v < w) /\ mixed_radix r
  end.
Lemma items_bound : forall u w b r, 0 < w -> 0 < b -> (forall s v, time_items r s v -> 0 <= v < w) ->
  forall s v, time_items ((u, w, Some b) :: r) s v -> 0 <= v < w * b.
Proof.
  intros u w b r W B H s v T. inversion T; subst.
  - match goal with T' : time_items r _ _ |- _ => apply H in T' end. nia.
  - match goal with T' : time_items r _ _ |- _ => apply H in T' end. cbn [below] in *. nia.
Qed.
Lemma units_mixed : mixed_radix time_units.
Proof.
  assert (B0 : forall s v, time_items [] s v -> 0 <= v < 1) by (intros s v T; inversion T; lia).
  assert (B1 := items_bound (str "ns") 1 1000 _ ltac:(lia) ltac:(lia) B0).
  assert (B2 := items_bound (str "us") 1000 1000 _ ltac:(lia) ltac:(lia) B1).
  assert (B3 := items_bound (str "ms") MILLI 1000 _ ltac:(reflexivity) ltac:(lia) B2).
  assert (B4 := items_bound (str "s") SECOND 60 _ ltac:(reflexivity) ltac:(lia) B3).
  assert (B5 := items_bound (str "m") MINUTE 60 _ ltac:(reflexivity) ltac:(lia) B4).
  assert (B6 := items_bound (str "h") HOUR 24 _ ltac:(reflexivity) ltac:(lia) B5).
  cbn [mixed_radix time_units].
  split; [reflexivity|]. split; [exact B6|]. split; [reflexivity|]. split; [exact B5|]. split; [reflexivity|]. split; [exact B4|].
  split; [reflexivity|]. split; [exact B3|]. split; [reflexivity|]. split; [exact B2|]. split; [reflexivity|]. split; [exact B1|].
  split; [reflexivity|]. split; [exact B0|exact I].
Qed.
Lemma items_unique : forall us, mixed_radix us -> forall s v s', time_items us s v -> time_items us s' v -> s = s'.
Proof.
  induction us as [|[[u w] lim] us IH]; intros M s v s' A B; [inversion A; inversion B; reflexivity|].
  destruct M as (W & H & M). inversion A as [|? ? ? ? A1|? ? ? ? ? v1 n1 d1 P1 L1 C1 A1]; subst; inversion B as [|? ? ? ? B1|? ? ? ? ? v2 n2 d2 P2 L2 C2 B1]; subst.
  - exact (IH M _ _ _ A1 B1).
  - apply H in A1. apply H in B1. nia.
  - apply H in A1. apply H in B1. nia.
  - pose proof (H _ _ A1). pose proof (H _ _ B1). assert (n1 = n2) by nia. subst n2. assert (v1 = v2) by lia. subst v2.
    rewrite (canonical_unique _ _ _ C1 C2). now rewrite (IH M _ _ _ A1 B1).
Qed.
Lemma time_text_unique : forall z s s', time_text s z -> time_text s' z -> s = s'.
Proof. intros z s s'. exact (items_unique _ units_mixed s z s'). Qed.

(** * Values *)
Definition is_value (P : platform) (r : env value) (e : expr) (m : meaning) : Prop := exists tv, value_in P r e = Ok tv /\ stands_for tv m.
Lemma iv_whole : forall P r e t z, is_value P r e (Whole t z) <-> whole P r t e z.
Proof. intros. split; [intros (tv & E & -> & T); now split|intros [E T]; exists (t, VZ z); now split]. Qed.
Lemma iv_text : forall P r e k s, is_value P r e (Text k s) <-> is_text k P r e s.
Proof. intros. split; [intros (tv & E & d & -> & H); now exists d|intros (d & E & H); exists (string_type k, VS d); split; [exact E|now exists d]]. Qed.
Lemma iv_real : forall P r e t q, is_value P r e (Real t q) <-> List.In t reals /\ number P r t e q.
Proof.
  intros. split; [intros (tv & E & v & -> & T & V); split; [exact T|]; now exists v|].
  intros (T & v & E & V). exists (t, VF v). split; [exact E|]. now exists v.
Qed.
Lemma text_is : forall k s tv, stands_for tv (Text k s) -> exists d, tv = (string_type k, VS d) /\ holds k d s.
Proof. intros k s tv H. exact H. Qed.

Ltac inv2 H := repeat match type of H with
  | Forall2 _ ?l (_ :: _) => let e := fresh "e" in let A := fresh "A" in let H' := fresh "H" in
      inversion H as [|e ? ? ? A H']; subst; clear H; rename H' into H
  | Forall2 _ ?l [] => inversion H; subst; clear H
  end.
Lemma whole_call : forall P r f es l t z, Forall2 (fun e tv => value_in P r e = Ok tv) es l -> call P f l = Ok (t, VZ z) -> of_type t z ->
  is_value P r (Call f es) (Whole t z).
Proof. intros P r f es l t z F C T. apply iv_whole. split; [now rewrite (value_call P r f es l F)|exact T]. Qed.

(** * Words *)
Lemma words_typed : forall t z, List.In t bit_strings -> of_type t z <-> 0 <= z < 2 ^ width t.
Proof. intros t z T. cbn in T. repeat (destruct T as [<-|T]; [unfold of_type; cbn; lia|]). destruct T. Qed.
Lemma values_width : forall t, List.In t bit_strings -> values t = 2 ^ width t /\ 0 < width t.
Proof. intros t T. cbn in T. repeat (destruct T as [<-|T]; [split; reflexivity|]). destruct T. Qed.
Lemma udint_pos : forall n, of_type S_UDINT n -> 0 <= n.
Proof. intros n H. unfold of_type in H. cbn in H. lia. Qed.
Lemma bits_eq : forall w a b, 0 <= a < 2 ^ w -> 0 <= b < 2 ^ w -> 0 < w -> (forall i, 0 <= i < w -> Z.testbit a i = Z.testbit b i) -> a = b.
Proof.
  intros w a b A B W H. apply Z.bits_inj'. intros n N. destruct (Z.lt_ge_cases n w) as [L|L]; [now apply H|].
  assert (E : forall x, 0 <= x < 2 ^ w -> Z.testbit x n = false).
  { intros x X. destruct (Z.eq_dec x 0) as [->|Q]; [apply Z.bits_0|]. apply Z.bits_above_log2; [lia|].
    assert (Z.log2 x < w) by (apply Z.log2_lt_pow2; lia). lia. }
  now rewrite (E a A), (E b B).
Qed.
Lemma long_shift_calls : forall P t x n, List.In t bit_strings -> of_type t x -> width t <= n ->
  (p_profile P = Release -> call P "SHL" [(t, VZ x); (S_UDINT, VZ n)] = Ok (t, VZ ((x * 2 ^ (n mod width t)) mod 2 ^ width t)) /\
     call P "SHR" [(t, VZ x); (S_UDINT, VZ n)] = Ok (t, VZ (x / 2 ^ (n mod width t)))) /\
  (p_profile P = Debug -> call P "SHL" [(t, VZ x); (S_UDINT, VZ n)] = Panic /\ call P "SHR" [(t, VZ x); (S_UDINT, VZ n)] = Panic).
Proof.
  intros P t x n T X N. rewrite !bit_calls by (try exact T; cbn; tauto). destruct (bits_by_name P t x n T) as (-> & -> & _).
  destruct (values_width t T) as [_ W]. destruct (shl_beyond (width t) x n ltac:(lia)) as (A & B & C & D).
  split; intros ->.
  - rewrite B, D. assert (M : 0 <= n mod width t < width t) by (apply Z.mod_pos_bound; lia).
    destruct (bit_type t x T X) as (_ & I & _).
    destruct (shl_lemma Release (width t) x _ M) as (a & -> & -> & _). destruct (shr_lemma Release (width t) x _ I M) as (b & -> & -> & _). split; reflexivity.
  - rewrite A, C. split; reflexivity.
Qed.
Lemma rot_bits : forall P t x n, List.In t bit_strings -> of_type t x ->
  exists a b, call P "ROL" [(t, VZ x); (S_UDINT, VZ n)] = Ok (t, VZ a) /\ call P "ROR" [(t, VZ x); (S_UDINT, VZ n)] = Ok (t, VZ b) /\
    of_type t a /\ of_type t b /\ (forall i, 0 <= i < width t -> Z.testbit a i = Z.testbit x ((i - n) mod width t)) /\
    (forall i, 0 <= i < width t -> Z.testbit b i = Z.testbit x ((i + n) mod width t)).
Proof.
  intros P t x n T X. destruct (bit_type t x T X) as (_ & I & L). destruct (rot_calls P t x n T) as [A B].
  exists (ROL (width t) x n), (ROR (width t) x n). split; [exact A|]. split; [exact B|].
  split; [apply in_width_type; [exact T|now apply rol_range]|]. split; [apply in_width_type; [exact T|rewrite ror_rol by assumption; now apply rol_range]|].
  split; intros i Hi; [now apply rol_bits|now apply ror_bits].
Qed.
Lemma rol_value : forall P t x n w, List.In t bit_strings -> of_type t x -> of_type t w ->
  (forall i, 0 <= i < width t -> Z.testbit w ((i + n) mod width t) = Z.testbit x i) -> call P "ROL" [(t, VZ x); (S_UDINT, VZ n)] = Ok (t, VZ w).
Proof.
  intros P t x n w T X W H. destruct (rot_bits P t x n T X) as (a & b & A & _ & TA & _ & HA & _). rewrite A. do 3 f_equal.
  destruct (values_width t T) as [_ G]. apply (bits_eq (width t)); [now apply words_typed|now apply words_typed|exact G|].
  intros i I. rewrite (HA i I), <- (H ((i - n) mod width t)) by (apply Z.mod_pos_bound; exact G). f_equal.
  rewrite Z.add_mod_idemp_l by lia. replace (i - n + n) with i by lia. now apply Z.mod_small.
Qed.
Lemma ror_value : forall P t x n w, List.In t bit_strings -> of_type t x -> of_type t w ->
  (forall i, 0 <= i < width t -> Z.testbit w i = Z.testbit x ((i + n) mod width t)) -> call P "ROR" [(t, VZ x); (S_UDINT, VZ n)] = Ok (t, VZ w).
Proof.
  intros P t x n w T X W H. destruct (rot_bits P t x n T X) as (a & b & _ & B & _ & TB & _ & HB). rewrite B. do 3 f_equal.
  destruct (values_width t T) as [_ G]. apply (bits_eq (width t)); [now apply words_typed|now apply words_typed|exact G|].
  intros i I. now rewrite (HB i I), <- (H i I).
Qed.
