(** Specification vocabulary for expressions with numbers, words and times. *)
From Coq Require Import String ZArith List.
From Verif Require Import Base ModelFloat ModelLink ModelLib ModelApi SpecLib SpecCall.
Import ListNotations.
Open Scope Z_scope.

(** The number of values of an integer or bit string type. *)
Definition values (t : sty) : Z := snd (bounds t) - fst (bounds t) + 1.
(** [x] is a variable of type [t] with the value [z]. *)
Definition var (r : env value) (x : string) (t : sty) (z : Z) : Prop := get x r = Ok (t, VZ z) /\ of_type t z.
(** The expressions have the same value (or both abort). *)
Definition same (P : platform) (r : env value) (e e' : expr) : Prop := value_in P r e = value_in P r e'.
(** [x] and [y] are variables of type [t] with these values. *)
Definition vars_of (r : env value) (t : sty) (xs : list string) (zs : list Z) : Prop := Forall2 (fun x z => var r x t z) xs zs.
(** The format of the floating point types. *)
Definition fmt_of (t : sty) : fmt := match t with S_REAL => F32 | _ => F64 end.
