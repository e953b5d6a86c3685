(** Specification vocabulary for calls of string functions by name. *)
From Coq Require Import String ZArith List Bool.
From Verif Require Import Base ModelFloat ModelString ModelLib SpecText.
Import ListNotations.
Open Scope list_scope.
Open Scope string_scope.
Open Scope Z_scope.

(** LEN__STRING, LEN__WSTRING. *)
Definition named (f : string) (k : kind) : string :=
  f ++ match k with STRING => "__STRING" | WSTRING => "__WSTRING" end.

(** The call returns 0, leaves the parameters [args] as they are and writes the text [r] and a NUL to
    the memory [dest] of its last parameter; when there is no room it writes outside. *)
Definition stores (k : kind) (r dest : list Z) (args : list value) (o : outcome (value * list value)) : Prop :=
  (fits k r dest -> o = Ok (VZ 0, args ++ [VS (written k r dest)])%list) /\ (~ fits k r dest -> o = Ub).

(** A call that returns the BOOL [b] and leaves its parameters as they are. *)
Definition decides (o : outcome (value * list value)) (args : list value) (p : Prop) : Prop :=
  (p /\ o = Ok (VZ 1, args)) \/ (~ p /\ o = Ok (VZ 0, args)).

(** The memory [dest] after writing the bytes [s], without a NUL, to its beginning. *)
Definition overwritten (s dest : list Z) : list Z := (s ++ skipn (length s) dest)%list.
