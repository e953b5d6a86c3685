(** Specification vocabulary for string calls whose source and destination may overlap. *)
From Coq Require Import ZArith List.
From Verif Require Import Base ModelString SpecText SpecWrap.
Import ListNotations.
Open Scope Z_scope.

(** The memory [m] holds the text [t] and a NUL from position [p] on. *)
Definition stored (k : kind) (m : list Z) (p : nat) (t : list Z) : Prop := holds k (skipn p m) t.
(** The memory [m] with everything from position [d] on replaced by [x]. *)
Definition replaced (d : nat) (m x : list Z) : list Z := firstn d m ++ x.
(** [a] units and a NUL at [d], and [b] units and a NUL at [q], have no unit in common. *)
Definition apart (d a q b : nat) : Prop := (d + a < q \/ q + b < d)%nat.
(** The text [r] and its NUL fit into the memory from [d] on. *)
Definition room (k : kind) (r : list Z) (m : list Z) (d : nat) : Prop := fits k r (skipn d m).

(** An argument of CONCAT: the destination itself, or the text [t] at [q]. *)
Inductive arg := Own | Other (q : nat) (t : list Z).
Definition pointer (d : nat) (a : arg) : nat := match a with Own => d | Other q _ => q end.
(** What the arguments after the first add to [acc]: the destination stands for what has been joined so far. *)
Definition joined (acc : list Z) (args : list arg) : list Z :=
  fold_left (fun acc a => acc ++ match a with Own => acc | Other _ t => t end) args acc.
