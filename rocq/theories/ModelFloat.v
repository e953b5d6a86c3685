(** Binary interchange formats: bit patterns of REAL (binary32) and LREAL (binary64).
    Rust's [f32]/[f64] are the types behind REAL/LREAL, e.g. /repo/src/types.rs:142-143. *)
From Coq Require Import ZArith Bool SpecFloat.
From Verif Require Import Base.
Open Scope Z_scope.

(** A format: width of the mantissa field and of the exponent field.  The formats of [f32] and [f64]
    (/repo/src/types.rs:142-143). *)
Record fmt := Fmt { f_mw : Z; f_ew : Z }.
(** [f32], /repo/src/types.rs:142. *)
Definition F32 := Fmt 23 8.
(** [f64], /repo/src/types.rs:143. *)
Definition F64 := Fmt 52 11.

(** Parameters of the standard library's [SpecFloat].  For the operations on [f32] and [f64], e.g.
    /repo/src/arithmetic_functions.rs:23-34. *)
Definition f_prec (f : fmt) : Z := f_mw f + 1.
(** Bound of the exponents ([SpecFloat]); for the operations of
    /repo/src/arithmetic_functions.rs:23-34. *)
Definition f_emax (f : fmt) : Z := 2 ^ (f_ew f - 1).
(** Least exponent ([SpecFloat]); for the operations of /repo/src/arithmetic_functions.rs:23-34.
    *)
Definition f_emin (f : fmt) : Z := 3 - f_emax f - f_prec f.
(** Bits of the format, as in /repo/src/bit_num_conversion.rs:6-35. *)
Definition f_width (f : fmt) : Z := 1 + f_ew f + f_mw f.

(** A datum of the format: a number or infinity, or a NaN with sign and payload (both are
    preserved by the bit-reinterpretation functions).  The [S754_nan] of [SpecFloat] is not
    used inside [FNum].  See /repo/src/bit_num_conversion.rs:6-35. *)
Inductive fl := FNum (x : spec_float) | FNan (sign : bool) (payload : positive).

(** The same datum without NaN payload.  The operations of /repo/src/arithmetic_functions.rs do not
    depend on it. *)
Definition fl_sf (x : fl) : spec_float :=
  match x with FNum y => y | FNan _ _ => S754_nan end.

(** [f32::from_bits]/[f64::from_bits] (Rust core): decode an interchange pattern; used by
    /repo/src/bit_num_conversion.rs:7, 16. *)
Definition from_bits (f : fmt) (b : Z) : fl :=
  let s := Z.testbit b (f_mw f + f_ew f) in
  let e := (b / 2 ^ f_mw f) mod 2 ^ f_ew f in
  let m := b mod 2 ^ f_mw f in
  if e =? 0 then
    match m with
    | Zpos p => FNum (S754_finite s p (f_emin f))
    | _ => FNum (S754_zero s)
    end
  else if e =? 2 ^ f_ew f - 1 then
    match m with
    | Zpos p => FNan s p
    | _ => FNum (S754_infinity s)
    end
  else
    match m + 2 ^ f_mw f with
    | Zpos p => FNum (S754_finite s p (e - 1 + f_emin f))
    | _ => FNum S754_nan
    end.

(** [to_bits]; used by /repo/src/bit_num_conversion.rs:25, 34. *)
Definition pack (f : fmt) (s : bool) (e m : Z) : Z :=
  (if s then 2 ^ (f_mw f + f_ew f) else 0) + e * 2 ^ f_mw f + m.
(** [to_bits] of any float: /repo/src/bit_num_conversion.rs:25, 34. *)
Definition to_bits (f : fmt) (x : fl) : Z :=
  match x with
  | FNum (S754_zero s) => pack f s 0 0
  | FNum (S754_infinity s) => pack f s (2 ^ f_ew f - 1) 0
  | FNum (S754_finite s p e) =>
      if Zpos p <? 2 ^ f_mw f then pack f s 0 (Zpos p)
      else pack f s (e - f_emin f + 1) (Zpos p - 2 ^ f_mw f)
  | FNum S754_nan => pack f false (2 ^ f_ew f - 1) (2 ^ (f_mw f - 1))
  | FNan s p => pack f s (2 ^ f_ew f - 1) (Zpos p)
  end.

(** [is_nan] (Rust core): /repo/src/validation_functions.rs:13, 23. *)
Definition is_nan (x : fl) : bool :=
  match x with FNan _ _ => true | FNum S754_nan => true | _ => false end.
(** [is_infinite] (Rust core): /repo/src/validation_functions.rs:13, 23. *)
Definition is_infinite (x : fl) : bool :=
  match x with FNum (S754_infinity _) => true | _ => false end.
