(** Specification vocabulary for the scalar functions. *)
From Coq Require Import ZArith List Bool SpecFloat.
From Verif Require Import Base ModelFloat ModelScalar.
Import ListNotations.
Open Scope Z_scope.

(** Values of an unsigned type of [w] bits. *)
Definition in_width (w x : Z) : Prop := 0 <= x < 2 ^ w.

(** The bytes of a value of type [t] as they lie in the memory of host [h]. *)
Definition memory_bytes (h : endian) (t : ity) (x : Z) : list Z :=
  let n := Z.to_nat (it_bits t / 8) in
  let u := x mod 2 ^ it_bits t in
  match h with LittleEndian => le_bytes n u | BigEndian => rev (le_bytes n u) end.

(** Packed BCD: the [k]-digit decimal number [n], one nibble per digit. *)
Fixpoint bcd_encode (k : nat) (n : Z) : Z :=
  match k with O => 0 | S k' => n mod 10 + 16 * bcd_encode k' (n / 10) end.

(** Hexadecimal digit [i] of [x]. *)
Definition nibble (x i : Z) : Z := (x / 16 ^ i) mod 16.

(** Exponent field of a bit pattern. *)
Definition exponent_field (f : fmt) (b : Z) : Z := (b / 2 ^ f_mw f) mod 2 ^ f_ew f.

(** Data of the format: valid finite numbers, zeros, infinities, NaNs with a payload that
    fits. *)
Definition fl_valid (f : fmt) (x : fl) : Prop :=
  match x with
  | FNum S754_nan => False
  | FNum y => valid_binary (f_prec f) (f_emax f) y = true
  | FNan _ p => Zpos p < 2 ^ f_mw f
  end.

Definition sf_nan (x : spec_float) : bool :=
  match x with S754_nan => true | _ => false end.
