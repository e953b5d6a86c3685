(** Arithmetic functions implemented in Rust: SQRT, ROUND, EXPT with integer exponent.
    The libm wrappers of /repo/src/arithmetic_functions.rs (LN, LOG, EXP, SIN, ..., ATAN2,
    EXPT with real exponent) are in ModelLib.v, their functions being a parameter. *)
From Coq Require Import ZArith Bool SpecFloat.
From Verif Require Import Base ModelFloat ModelTimeNum.
Open Scope Z_scope.

(** Result of a floating-point operation.  Which NaN (sign and payload) an invalid operation
    returns is not specified by Rust; a fixed quiet NaN is taken.  Results of
    /repo/src/arithmetic_functions.rs:23-34, 221-229. *)
Definition fl_of_sf (f : fmt) (x : spec_float) : fl :=
  match x with S754_nan => FNan false (Z.to_pos (2 ^ (f_mw f - 1))) | _ => FNum x end.

(** /repo/src/arithmetic_functions.rs:23-25 [SQRT__REAL] ([f] = F32), 32-34 [SQRT__LREAL]
    ([f] = F64); [f32::sqrt]/[f64::sqrt] is the IEEE 754 operation. *)
Definition SQRT (f : fmt) (input : fl) : fl :=
  fl_of_sf f (SFsqrt (f_prec f) (f_emax f) (fl_sf input)).

(** /repo/src/numerical_functions.rs:6-8 [ROUND__REAL], 15-17 [ROUND__LREAL]; [f32::round] /
    [f64::round] (Rust core): nearest integer, half-way cases away from zero; the sign of a
    zero result is that of the argument. *)
Definition ROUND (f : fmt) (input : fl) : fl :=
  match input with
  | FNum (S754_finite s m e) =>
      let n := if 0 <=? e then Zpos m * 2 ^ e
               else (2 * Zpos m + 2 ^ (- e)) / 2 ^ (- e + 1) in
      FNum (binary_normalize (f_prec f) (f_emax f) (if s then - n else n) 0 s)
  | _ => input
  end.

(** [powi] (Rust core, LLVM's [__powisf2]/[__powidf2]): repeated squaring with one final
    reciprocal for a negative exponent.  The loop
    [loop { if b & 1 { r *= a }; b /= 2; if b == 0 { break r }; a *= a }]
    over the binary digits of [b].  Called at /repo/src/arithmetic_functions.rs:222, 228. *)
Fixpoint powi_loop (f : fmt) (b : positive) (a r : spec_float) : spec_float :=
  let mul := SFmul (f_prec f) (f_emax f) in
  match b with
  | xH => mul r a
  | xO b' => powi_loop f b' (mul a a) r
  | xI b' => powi_loop f b' (mul a a) (mul r a)
  end.
(** [powi] at /repo/src/arithmetic_functions.rs:222, 228: the loop above, then the reciprocal
    for a negative exponent. *)
Definition powi (f : fmt) (a : spec_float) (b : Z) : spec_float :=
  let one := f_of_int f 1 in
  match b with
  | Z0 => one
  | Zpos p => powi_loop f p a one
  | Zneg p => SFdiv (f_prec f) (f_emax f) one (powi_loop f p a one)
  end.

(** /repo/src/arithmetic_functions.rs:221-223 [EXPT__REAL__DINT], 227-229 [EXPT__LREAL__DINT]. *)
Definition EXPT_DINT (f : fmt) (in1 : fl) (in2 : Z) : fl :=
  fl_of_sf f (powi f (fl_sf in1) in2).
