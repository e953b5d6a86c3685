(** Specification vocabulary for TIME times/divided by a number. *)
From Coq Require Import ZArith Bool SpecFloat.
From Verif Require Import Base ModelFloat.
Open Scope Z_scope.

(** The opposite float: sign flipped. *)
Definition fl_opp (x : fl) : fl :=
  match x with FNum y => FNum (SFopp y) | FNan s p => FNan (negb s) p end.

(** The number 1.0 in either format. *)
Definition fl_one (f : fmt) : fl :=
  FNum (S754_finite false (2 ^ Z.to_pos (f_mw f))%positive (- f_mw f)).

(** The two formats. *)
Definition binary_format (f : fmt) : Prop := f = F32 \/ f = F64.
