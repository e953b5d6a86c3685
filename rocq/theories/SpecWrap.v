(** Specification vocabulary for the ST string functions. *)
From Coq Require Import ZArith List.
From Verif Require Import Base ModelString SpecText.
Import ListNotations.
Open Scope Z_scope.

(** Number of units of a text. *)
Definition size (k : kind) (t : list Z) : nat := length (units k t).
(** The call returns a result of 2049 units that holds [t]. *)
Definition returns (k : kind) (t : list Z) (o : outcome (list Z)) : Prop :=
  exists d, o = Ok d /\ length d = 2049%nat /\ holds k d t.
