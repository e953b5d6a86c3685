(** Lemmas about machine integers, outcomes and lists. *)
From Coq Require Import ZArith List Bool Lia.
From Verif Require Import Base.
Import ListNotations.
Open Scope Z_scope.

Lemma in_ityb_iff : forall t x, in_ityb t x = true <-> in_ity t x.
Proof.
  intros t x. unfold in_ityb, in_ity. rewrite andb_true_iff, !Z.leb_le. tauto.
Qed.

Lemma arith_ok : forall p t x, in_ity t x -> arith p t x = Ok x.
Proof.
  intros p t x H. unfold arith. apply in_ityb_iff in H. now rewrite H.
Qed.

Lemma wrap_id : forall t x, 0 < it_bits t -> in_ity t x -> wrap t x = x.
Proof.
  intros [s b] x Hb H. unfold in_ity, imin, imax, wrap in *. cbn [it_signed it_bits] in *.
  assert (E : 2 ^ b = 2 * 2 ^ (b - 1)).
  { replace b with (1 + (b - 1)) at 1 by lia. rewrite Z.pow_add_r by lia. lia. }
  destruct s.
  - rewrite Z.mod_small by lia. lia.
  - apply Z.mod_small. lia.
Qed.

Lemma wrap_range : forall t x, 0 < it_bits t -> in_ity t (wrap t x).
Proof.
  intros [s b] x Hb. unfold in_ity, imin, imax, wrap. cbn [it_signed it_bits] in *.
  assert (E : 2 ^ b = 2 * 2 ^ (b - 1)).
  { replace b with (1 + (b - 1)) at 1 by lia. rewrite Z.pow_add_r by lia. lia. }
  assert (P : 0 < 2 ^ (b - 1)) by (apply Z.pow_pos_nonneg; lia).
  destruct s.
  - pose proof (Z.mod_pos_bound (x + 2 ^ (b - 1)) (2 ^ b)). lia.
  - pose proof (Z.mod_pos_bound x (2 ^ b)). lia.
Qed.

Lemma wrap_cong : forall t x, 0 < it_bits t -> exists k, wrap t x = x + k * 2 ^ it_bits t.
Proof.
  intros [s b] x Hb. unfold wrap. cbn [it_signed it_bits] in *.
  assert (P : 0 < 2 ^ b) by (apply Z.pow_pos_nonneg; lia).
  destruct s.
  - exists (- ((x + 2 ^ (b - 1)) / 2 ^ b)).
    pose proof (Z.div_mod (x + 2 ^ (b - 1)) (2 ^ b)). lia.
  - exists (- (x / 2 ^ b)). pose proof (Z.div_mod x (2 ^ b)). lia.
Qed.

Lemma obind_ok : forall A B (x : outcome A) (f : A -> outcome B) b,
  obind x f = Ok b -> exists a, x = Ok a /\ f a = Ok b.
Proof. intros A B [a| |] f b H; try discriminate. now exists a. Qed.

Lemma snoc_cases : forall A (l : list A), l = [] \/ exists l' x, l = l' ++ [x].
Proof.
  intros A l. destruct l as [|a l]; [now left|right].
  destruct (exists_last (l := a :: l)) as [l' [x E]]; [discriminate|].
  rewrite E. now exists l', x.
Qed.
