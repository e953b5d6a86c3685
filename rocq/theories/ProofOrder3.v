(** Proofs for PropertiesOrder.v, part 3: MAX and MIN of dates. *)
From Coq Require Import String ZArith List Bool Lia.
From Verif Require Import Base ModelChrono ModelDate ModelLink ModelLib SpecText SpecDate SpecLink SpecLib ProofBase ProofDate2
  ProofLib2 ProofOrder.
Import ListNotations.
Open Scope list_scope.
Open Scope string_scope.
Open Scope Z_scope.

Lemma Forall2_in_r : forall A B (R : A -> B -> Prop) l l' y, Forall2 R l l' -> List.In y l' -> exists x, List.In x l /\ R x y.
Proof.
  induction 1 as [|a b l l' H F IH]; intros I; [destruct I|]. destruct I as [<-|I].
  - exists a. split; [now left|exact H].
  - destruct (IH I) as (x & X & R'). exists x. split; [now right|exact R'].
Qed.
Lemma Forall2_in_l : forall A B (R : A -> B -> Prop) l l' x, Forall2 R l l' -> List.In x l -> exists y, List.In y l' /\ R x y.
Proof.
  induction 1 as [|a b l l' H F IH]; intros I; [destruct I|]. destruct I as [<-|I].
  - exists b. split; [now left|exact H].
  - destruct (IH I) as (y & Y & R'). exists y. split; [now right|exact R'].
Qed.

Lemma latest_and_earliest : forall P t days dates, narrow t -> days <> [] ->
  Forall (fun x => let '(y, m, d) := x in in_ity t y /\ in_ity t m /\ in_ity t d) days ->
  Forall2 (fun x a => let '(y, m, d) := x in CONCAT_DATE (p_chrono P) y m d = Ok a) days dates ->
  (exists y m d a, List.In (y, m, d) days /\ CONCAT_DATE (p_chrono P) y m d = Ok a /\
     result (rust_call P "MAX__DATE" (map VZ dates)) = Int a /\
     forall y' m' d', List.In (y', m', d') days -> lex_le [y'; m'; d'] [y; m; d]) /\
  (exists y m d a, List.In (y, m, d) days /\ CONCAT_DATE (p_chrono P) y m d = Ok a /\
     result (rust_call P "MIN__DATE" (map VZ dates)) = Int a /\
     forall y' m' d', List.In (y', m', d') days -> lex_le [y; m; d] [y'; m'; d']).
Proof.
  intros P t days dates T NE F F2. rewrite Forall_forall in F.
  assert (Ty : Forall (of_type S_DATE) dates).
  { apply Forall_forall. intros a A. destruct (Forall2_in_r _ _ _ _ _ a F2 A) as ([[y m] d] & X & E).
    destruct (F _ X) as (F1 & F3 & F4). destruct (concat_date_number _ t y m d a T F1 F3 F4 E) as (_ & _ & _ & I). exact I. }
  assert (ND : dates <> []) by (intros ->; inversion F2; subst; congruence).
  destruct (extremes_by_name P S_DATE dates) as [(r & R1 & R2 & R3) (q & Q1 & Q2 & Q3)]; [cbn; tauto|exact Ty|exact ND|].
  assert (X : forall y m d a y' m' d', List.In (y, m, d) days -> List.In (y', m', d') days ->
    CONCAT_DATE (p_chrono P) y m d = Ok a ->
    exists b, List.In b dates /\ (a <= b <-> lex_le [y; m; d] [y'; m'; d']) /\ (b <= a <-> lex_le [y'; m'; d'] [y; m; d])).
  { intros y m d a y' m' d' I I' A. destruct (Forall2_in_l _ _ _ _ _ _ F2 I') as (b & B & E). exists b. split; [exact B|].
    destruct (F _ I) as (K1 & K2 & K3), (F _ I') as (K4 & K5 & K6).
    split.
    - exact (proj2 (proj2 (dates_ordered _ t t y m d y' m' d' a b T T K1 K2 K3 K4 K5 K6 A E))).
    - exact (proj2 (proj2 (dates_ordered _ t t y' m' d' y m d b a T T K4 K5 K6 K1 K2 K3 E A))). }
  split.
  - destruct (Forall2_in_r _ _ _ _ _ r F2 R2) as ([[y m] d] & I & E). exists y, m, d, r.
    do 2 (split; [assumption|]). split; [exact R1|]. intros y' m' d' I'.
    destruct (X y m d r y' m' d' I I' E) as (b & B & _ & L). apply L. now apply R3.
  - destruct (Forall2_in_r _ _ _ _ _ q F2 Q2) as ([[y m] d] & I & E). exists y, m, d, q.
    do 2 (split; [assumption|]). split; [exact Q1|]. intros y' m' d' I'.
    destruct (X y m d q y' m' d' I I' E) as (b & B & L & _). apply L. now apply Q3.
Qed.
