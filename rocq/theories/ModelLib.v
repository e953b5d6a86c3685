(** The exported Rust functions by name: every symbol of /repo/src/*.rs that is not a function
    block, with the function of the other model files that its body computes.

    The bodies of most symbols are one call with lossless widenings of the arguments ([.into()]),
    which are the identity on the integers of the model; the other bodies are modelled in the file of
    the called function.  Macro instances (/repo/src/types.rs:116-143,
    /repo/src/endianness_conversion_functions.rs:45-57) are listed expanded. *)
From Coq Require Import String ZArith List Bool SpecFloat.
From Verif Require Import Base ModelFloat ModelTimeNum ModelArith ModelScalar ModelChrono ModelDate
  ModelText ModelString ModelExtra ModelST ModelWrap.
Import ListNotations.
Open Scope Z_scope.
Open Scope string_scope.

(** What the results depend on besides the arguments: the build profile, the versions of chrono and
    of the standard library, the byte order, the sign [f32::max] gives to a zero, the clock (seconds
    from midnight, nanoseconds), and the functions of the C mathematical library that the
    floating-point methods of Rust call, by method name.  /repo/Cargo.toml:29,
    /repo/src/extra_functions.rs:166, /repo/src/arithmetic_functions.rs:41-216. *)
Record platform := Platform { p_profile : profile; p_chrono : chrono; p_durgen : durgen;
  p_endian : endian; p_tie : spec_float -> spec_float -> bool; p_clock : Z * Z;
  p_math : string -> fmt -> list fl -> fl }.

(** Arguments and results: integers (also BOOL, bit, character and date types), floating-point
    numbers, memory of string variables.  Parameter types as in the signatures of /repo/src/*.rs. *)
Inductive value := VZ (z : Z) | VF (x : fl) | VS (mem : list Z).

(** A function maps arguments to its result and the final values of its parameters.  Pointers and
    references are represented by what they point to; a pair of a count and an array pointer by the
    elements.  Signatures as in /repo/src/*.rs. *)
Definition code := platform -> list value -> outcome (value * list value).

(** Signatures: /repo/src/*.rs at the lines given in [library]. *)
Definition z1 (g : platform -> Z -> outcome Z) : code := fun P l =>
  match l with [VZ a] => let! r := g P a in Ok (VZ r, l) | _ => Ub end.
(** [fn(i, i) -> i], e.g. ADD_TIME, /repo/src/date_time_numeric_functions.rs:9. *)
Definition z2 (g : platform -> Z -> Z -> outcome Z) : code := fun P l =>
  match l with [VZ a; VZ b] => let! r := g P a b in Ok (VZ r, l) | _ => Ub end.
(** [fn(i, i, i) -> i], e.g. CONCAT_DATE, /repo/src/date_time_extra_functions.rs:26. *)
Definition z3 (g : platform -> Z -> Z -> Z -> outcome Z) : code := fun P l =>
  match l with [VZ a; VZ b; VZ c] => let! r := g P a b c in Ok (VZ r, l) | _ => Ub end.
(** [fn(i, i, i, i) -> i], e.g. CONCAT_TOD, /repo/src/date_time_extra_functions.rs:92. *)
Definition z4 (g : platform -> Z -> Z -> Z -> Z -> outcome Z) : code := fun P l =>
  match l with [VZ a; VZ b; VZ c; VZ d] => let! r := g P a b c d in Ok (VZ r, l) | _ => Ub end.
(** [fn(f) -> f], e.g. SQRT, /repo/src/arithmetic_functions.rs:23-34. *)
Definition f1 (g : platform -> fl -> fl) : code := fun P l =>
  match l with [VF a] => Ok (VF (g P a), l) | _ => Ub end.
(** [fn(f, f) -> f], e.g. ATAN2, /repo/src/arithmetic_functions.rs:206. *)
Definition f2 (g : platform -> fl -> fl -> fl) : code := fun P l =>
  match l with [VF a; VF b] => Ok (VF (g P a b), l) | _ => Ub end.
(** [fn(f, f, f) -> f], e.g. LIMIT__REAL, /repo/src/types.rs:52-58. *)
Definition f3 (g : platform -> fl -> fl -> fl -> fl) : code := fun P l =>
  match l with [VF a; VF b; VF c] => Ok (VF (g P a b c), l) | _ => Ub end.
(** [fn(f, i) -> f], e.g. EXPT__REAL__DINT, /repo/src/arithmetic_functions.rs:221. *)
Definition fz (g : fl -> Z -> fl) : code := fun P l =>
  match l with [VF a; VZ b] => Ok (VF (g a b), l) | _ => Ub end.
(** [fn(i, f) -> i], e.g. MUL__TIME__REAL, /repo/src/date_time_numeric_functions.rs:647. *)
Definition zf (g : platform -> Z -> fl -> outcome Z) : code := fun P l =>
  match l with [VZ a; VF b] => let! r := g P a b in Ok (VZ r, l) | _ => Ub end.
(** [fn(f) -> i], e.g. REAL_TO_DWORD, /repo/src/bit_num_conversion.rs:33. *)
Definition f_z (g : fl -> Z) : code := fun P l =>
  match l with [VF a] => Ok (VZ (g a), l) | _ => Ub end.
(** [fn(i) -> f], e.g. DWORD_TO_REAL, /repo/src/bit_num_conversion.rs:15. *)
Definition z_f (g : Z -> fl) : code := fun P l =>
  match l with [VZ a] => Ok (VF (g a), l) | _ => Ub end.

(** Arrays of integers, of floating-point numbers and of string pointers.  The slices built at
    /repo/src/types.rs:18-47, 70-90. *)
Fixpoint ints (l : list value) : option (list Z) :=
  match l with
  | [] => Some []
  | VZ z :: r => option_map (cons z) (ints r)
  | _ => None
  end.
(** The slices built at /repo/src/types.rs:18-47, 70-90. *)
Fixpoint floats (l : list value) : option (list fl) :=
  match l with
  | [] => Some []
  | VF x :: r => option_map (cons x) (floats r)
  | _ => None
  end.
(** The slices built at /repo/src/string_functions.rs:704-720, 774-795. *)
Fixpoint strings (l : list value) : option (list (list Z)) :=
  match l with
  | [] => Some []
  | VS m :: r => option_map (cons m) (strings r)
  | _ => None
  end.
(** The count passed with an array (/repo/src/types.rs:18, /repo/src/string_functions.rs:704). *)
Definition size {A} (l : list A) : Z := Z.of_nat (length l).
(** /repo/src/types.rs:18-47, 70-90. *)
Definition zs (g : Z -> option (list Z) -> outcome Z) : code := fun P l =>
  match ints l with Some a => let! r := g (size a) (Some a) in Ok (VZ r, l) | None => Ub end.
(** MAX and MIN of floats: /repo/src/types.rs:18-47. *)
Definition fs (f : fmt) (g : (spec_float -> spec_float -> bool) -> Z -> option (list spec_float) -> outcome spec_float)
    : code := fun P l =>
  match floats l with
  | Some a => let! r := g (p_tie P) (size a) (Some (map fl_sf a)) in Ok (VF (fl_of_sf f r), l)
  | None => Ub
  end.
(** /repo/src/types.rs:105-113 [limit]: one of the arguments. *)
Definition limit_float (f : fmt) : code :=
  f3 (fun _ a b c => fl_of_sf f (LIMIT_float (fl_sf a) (fl_sf b) (fl_sf c))).
(** /repo/src/endianness_conversion_functions.rs:64-130: on the bits of the number. *)
Definition bits1 (f : fmt) (g : nat -> Z -> Z) : code :=
  f1 (fun _ x => from_bits f (g (Z.to_nat (f_width f / 8)) (to_bits f x))).

(** /repo/src/date_time_extra_functions.rs:176-580: the parts go to the output parameters; the
    result is 0. *)
Definition split_date (t : ity) : code := fun P l =>
  match l with
  | [VZ a; _; _; _] => let! '(y, m, d) := SPLIT_DATE t a in Ok (VZ 0, [VZ a; VZ y; VZ m; VZ d])
  | _ => Ub
  end.
(** /repo/src/date_time_extra_functions.rs:293-411. *)
Definition split_tod (t : ity) : code := fun P l =>
  match l with
  | [VZ a; _; _; _; _] =>
      let '(h, m, s, ms) := SPLIT_TOD t a in Ok (VZ 0, [VZ a; VZ h; VZ m; VZ s; VZ ms])
  | _ => Ub
  end.
(** /repo/src/date_time_extra_functions.rs:419-580. *)
Definition split_dt (t : ity) : code := fun P l =>
  match l with
  | [VZ a; _; _; _; _; _; _; _] =>
      let! '(y, mo, d, h, m, s, ms) := SPLIT_DT t a in
      Ok (VZ 0, [VZ a; VZ y; VZ mo; VZ d; VZ h; VZ m; VZ s; VZ ms])
  | _ => Ub
  end.

(** String functions with a result of their own.  /repo/src/string_functions.rs:141-230, 795-935,
    /repo/src/extra_functions.rs:118-161. *)
Definition s_z (g : platform -> list Z -> outcome Z) : code := fun P l =>
  match l with [VS s] => let! r := g P s in Ok (VZ r, l) | _ => Ub end.
(** STRING_TO_REAL, STRING_TO_LREAL: /repo/src/extra_functions.rs:151-161. *)
Definition s_f (g : list Z -> outcome fl) : code := fun P l =>
  match l with [VS s] => let! r := g s in Ok (VF r, l) | _ => Ub end.
(** FIND and NE: /repo/src/string_functions.rs:170-230, 921-935. *)
Definition ss_z (g : platform -> list Z -> list Z -> outcome Z) : code := fun P l =>
  match l with [VS s; VS t] => let! r := g P s t in Ok (VZ r, l) | _ => Ub end.
(** Comparisons of any number of strings: /repo/src/string_functions.rs:801-911. *)
Definition sn_z (g : Z -> list (list Z) -> outcome bool) : code := fun P l =>
  match strings l with Some a => let! b := g (size a) a in Ok (VZ (Z.b2z b), l) | None => Ub end.
(** String functions that write the last parameter and return 0.
    /repo/src/string_functions.rs:236-680, /repo/src/string_conversion.rs:13-44,
    /repo/src/extra_functions.rs:24-250. *)
Definition zS (g : Z -> list Z -> outcome (list Z)) : code := fun P l =>
  match l with [VZ a; VS d] => let! d' := g a d in Ok (VZ 0, [VZ a; VS d']) | _ => Ub end.
(** REAL_TO_STRING_EXT, LREAL_TO_STRING_EXT: /repo/src/extra_functions.rs:59-87. *)
Definition fS (g : fl -> list Z -> outcome (list Z)) : code := fun P l =>
  match l with [VF a; VS d] => let! d' := g a d in Ok (VZ 0, [VF a; VS d']) | _ => Ub end.
(** The conversions between STRING and WSTRING: /repo/src/string_conversion.rs:13-44. *)
Definition sS (g : list Z -> list Z -> outcome (list Z)) : code := fun P l =>
  match l with [VS s; VS d] => let! d' := g s d in Ok (VZ 0, [VS s; VS d']) | _ => Ub end.
(** LEFT_EXT and RIGHT_EXT: /repo/src/string_functions.rs:236-345. *)
Definition szS (g : platform -> list Z -> Z -> list Z -> outcome (list Z)) : code := fun P l =>
  match l with [VS s; VZ a; VS d] => let! d' := g P s a d in Ok (VZ 0, [VS s; VZ a; VS d']) | _ => Ub end.
(** MID_EXT and DELETE_EXT: /repo/src/string_functions.rs:352-431, 504-584. *)
Definition szzS (g : platform -> list Z -> Z -> Z -> list Z -> outcome (list Z)) : code := fun P l =>
  match l with
  | [VS s; VZ a; VZ b; VS d] => let! d' := g P s a b d in Ok (VZ 0, [VS s; VZ a; VZ b; VS d'])
  | _ => Ub
  end.
(** INSERT_EXT: /repo/src/string_functions.rs:438-497. *)
Definition sszS (g : platform -> list Z -> list Z -> Z -> list Z -> outcome (list Z)) : code := fun P l =>
  match l with
  | [VS s; VS t; VZ a; VS d] => let! d' := g P s t a d in Ok (VZ 0, [VS s; VS t; VZ a; VS d'])
  | _ => Ub
  end.
(** REPLACE_EXT: /repo/src/string_functions.rs:591-680. *)
Definition sszzS (g : platform -> list Z -> list Z -> Z -> Z -> list Z -> outcome (list Z)) : code := fun P l =>
  match l with
  | [VS s; VS t; VZ a; VZ b; VS d] =>
      let! d' := g P s t a b d in Ok (VZ 0, [VS s; VS t; VZ a; VZ b; VS d'])
  | _ => Ub
  end.
(** /repo/src/string_functions.rs:704-720, 752-768: the destination is the first parameter. *)
Definition concat_ext (k : kind) : code := fun P l =>
  match l with
  | VS d :: r =>
      match strings r with
      | Some a => let! d' := CONCAT k (Some d) (size a) (Some a) in Ok (VZ 0, VS d' :: r)
      | None => Ub
      end
  | _ => Ub
  end.
(** /repo/src/string_functions.rs:687-689, 735-737: the destination is the memory of the result. *)
Definition concat_fn (k : kind) : code := fun P l =>
  match strings l with
  | Some a => let! d := CONCAT_ALL k a in Ok (VS d, l)
  | None => Ub
  end.
(** /repo/src/extra_functions.rs:165-168. *)
Definition clock : code := fun P l =>
  match l with [] => let! r := TIME (p_profile P) (fst (p_clock P)) (snd (p_clock P)) in Ok (VZ r, l) | _ => Ub end.

(** The functions of arithmetic_functions.rs that call the mathematical library.
    /repo/src/arithmetic_functions.rs:41-216, 233-256. *)
Definition math1 (m : string) (f : fmt) : code := f1 (fun P x => p_math P m f [x]).
(** Functions of two arguments: ATAN2 and powers, /repo/src/arithmetic_functions.rs:206-216,
    233-256. *)
Definition math2 (m : string) (f : fmt) : code := f2 (fun P x y => p_math P m f [x; y]).
(** /repo/src/arithmetic_functions.rs:239-243, 247-250: the exponent is converted ([as f32],
    [as f64]) first. *)
Definition powf_narrowed : code := f2 (fun P x y => p_math P "powf" F32 [x; fl_convert F32 y]).
(** EXPT__LREAL__REAL: /repo/src/arithmetic_functions.rs:247-250. *)
Definition powf_widened : code := f2 (fun P x y => p_math P "powf" F64 [x; fl_convert F64 y]).

(** A function that cannot panic, e.g. SHL, /repo/src/bit_shift_functions.rs:6-113, and the
    endianness functions, /repo/src/endianness_conversion_functions.rs:10-56. *)
Definition pure1 (g : Z -> Z) : platform -> Z -> outcome Z := fun _ x => Ok (g x).

(** The exported functions of /repo/src/*.rs, in source order; the line of the [fn] or macro call. *)
Definition library : list (string * code) := [
  (* /repo/src/arithmetic_functions.rs *)
  ("SQRT__REAL", f1 (fun _ => SQRT F32)); (* 23 *)
  ("SQRT__LREAL", f1 (fun _ => SQRT F64)); (* 32 *)
  ("LN__REAL", math1 "ln" F32); (* 41 *)
  ("LN__LREAL", math1 "ln" F64); (* 50 *)
  ("LOG__REAL", math1 "log10" F32); (* 59 *)
  ("LOG__LREAL", math1 "log10" F64); (* 68 *)
  ("EXP__REAL", math1 "exp" F32); (* 77 *)
  ("EXP__LREAL", math1 "exp" F64); (* 86 *)
  ("SIN__REAL", math1 "sin" F32); (* 96 *)
  ("SIN__LREAL", math1 "sin" F64); (* 105 *)
  ("COS__REAL", math1 "cos" F32); (* 114 *)
  ("COS__LREAL", math1 "cos" F64); (* 123 *)
  ("TAN__REAL", math1 "tan" F32); (* 132 *)
  ("TAN__LREAL", math1 "tan" F64); (* 141 *)
  ("ASIN__REAL", math1 "asin" F32); (* 150 *)
  ("ASIN__LREAL", math1 "asin" F64); (* 159 *)
  ("ACOS__REAL", math1 "acos" F32); (* 168 *)
  ("ACOS__LREAL", math1 "acos" F64); (* 178 *)
  ("ATAN__REAL", math1 "atan" F32); (* 187 *)
  ("ATAN__LREAL", math1 "atan" F64); (* 196 *)
  ("ATAN2__REAL", math2 "atan2" F32); (* 206 *)
  ("ATAN2__LREAL", math2 "atan2" F64); (* 215 *)
  ("EXPT__REAL__DINT", fz (EXPT_DINT F32)); (* 221 *)
  ("EXPT__LREAL__DINT", fz (EXPT_DINT F64)); (* 227 *)
  ("EXPT__REAL__REAL", math2 "powf" F32); (* 233 *)
  ("EXPT__REAL__LREAL", powf_narrowed); (* 239 *)
  ("EXPT__LREAL__REAL", powf_widened); (* 247 *)
  ("EXPT__LREAL__LREAL", math2 "powf" F64); (* 254 *)
  (* /repo/src/bit_num_conversion.rs *)
  ("LWORD_TO_LREAL", z_f LWORD_TO_LREAL); (* 6 *)
  ("DWORD_TO_REAL", z_f DWORD_TO_REAL); (* 15 *)
  ("LREAL_TO_LWORD", f_z LREAL_TO_LWORD); (* 24 *)
  ("REAL_TO_DWORD", f_z REAL_TO_DWORD); (* 33 *)
  (* /repo/src/bit_shift_functions.rs *)
  ("SHL__BYTE", z2 (fun P => SHL (p_profile P) 8)); (* 6 *)
  ("SHL__WORD", z2 (fun P => SHL (p_profile P) 16)); (* 13 *)
  ("SHL__DWORD", z2 (fun P => SHL (p_profile P) 32)); (* 20 *)
  ("SHL__LWORD", z2 (fun P => SHL (p_profile P) 64)); (* 27 *)
  ("SHR__BYTE", z2 (fun P => SHR (p_profile P) 8)); (* 34 *)
  ("SHR__WORD", z2 (fun P => SHR (p_profile P) 16)); (* 41 *)
  ("SHR__DWORD", z2 (fun P => SHR (p_profile P) 32)); (* 48 *)
  ("SHR__LWORD", z2 (fun P => SHR (p_profile P) 64)); (* 55 *)
  ("ROL__BYTE", z2 (fun _ x n => Ok (ROL 8 x n))); (* 62 *)
  ("ROL__WORD", z2 (fun _ x n => Ok (ROL 16 x n))); (* 69 *)
  ("ROL__DWORD", z2 (fun _ x n => Ok (ROL 32 x n))); (* 76 *)
  ("ROL__LWORD", z2 (fun _ x n => Ok (ROL 64 x n))); (* 83 *)
  ("ROR__BYTE", z2 (fun _ x n => Ok (ROR 8 x n))); (* 90 *)
  ("ROR__WORD", z2 (fun _ x n => Ok (ROR 16 x n))); (* 97 *)
  ("ROR__DWORD", z2 (fun _ x n => Ok (ROR 32 x n))); (* 104 *)
  ("ROR__LWORD", z2 (fun _ x n => Ok (ROR 64 x n))); (* 111 *)
  (* /repo/src/date_time_conversion.rs *)
  ("DATE_AND_TIME_TO_DATE", z1 (fun P => DATE_AND_TIME_TO_DATE (p_chrono P))); (* 8 *)
  ("DATE_AND_TIME_TO_TIME_OF_DAY", z1 (fun P => DATE_AND_TIME_TO_TIME_OF_DAY (p_chrono P))); (* 23 *)
  (* /repo/src/date_time_extra_functions.rs *)
  ("CONCAT_DATE_TOD", z2 (fun P => CONCAT_DATE_TOD (p_chrono P))); (* 8 *)
  ("CONCAT_DATE__INT", z3 (fun P => CONCAT_DATE (p_chrono P))); (* 26 *)
  ("CONCAT_DATE__UINT", z3 (fun P => CONCAT_DATE (p_chrono P))); (* 35 *)
  ("CONCAT_DATE__DINT", z3 (fun P => CONCAT_DATE (p_chrono P))); (* 44 *)
  ("CONCAT_DATE__UDINT", z3 (fun P => CONCAT_DATE (p_chrono P))); (* 53 *)
  ("CONCAT_DATE__LINT", z3 (fun P => CONCAT_DATE (p_chrono P))); (* 62 *)
  ("CONCAT_DATE__ULINT", z3 (fun P => CONCAT_DATE (p_chrono P))); (* 71 *)
  ("concat_date", z3 (fun P => concat_date (p_chrono P))); (* 80 *)
  ("CONCAT_TOD__SINT", z4 (fun P => CONCAT_TOD (p_chrono P))); (* 92 *)
  ("CONCAT_TOD__USINT", z4 (fun P => CONCAT_TOD (p_chrono P))); (* 101 *)
  ("CONCAT_TOD__INT", z4 (fun P => CONCAT_TOD (p_chrono P))); (* 110 *)
  ("CONCAT_TOD__UINT", z4 (fun P => CONCAT_TOD (p_chrono P))); (* 119 *)
  ("CONCAT_TOD__DINT", z4 (fun P => CONCAT_TOD (p_chrono P))); (* 128 *)
  ("CONCAT_TOD__UDINT", z4 (fun P => CONCAT_TOD (p_chrono P))); (* 137 *)
  ("CONCAT_TOD__LINT", z4 (fun P => CONCAT_TOD (p_chrono P))); (* 146 *)
  ("CONCAT_TOD__ULINT", z4 (fun P => CONCAT_TOD (p_chrono P))); (* 155 *)
  ("concat_tod", z4 (fun P => concat_tod (p_chrono P))); (* 164 *)
  ("SPLIT_DATE__INT", split_date i16); (* 176 *)
  ("SPLIT_DATE__UINT", split_date u16); (* 192 *)
  ("SPLIT_DATE__DINT", split_date i32); (* 212 *)
  ("SPLIT_DATE__UDINT", split_date u32); (* 231 *)
  ("SPLIT_DATE__LINT", split_date i64); (* 251 *)
  ("SPLIT_DATE__ULINT", split_date u64); (* 272 *)
  ("SPLIT_TOD__INT", split_tod i16); (* 292 *)
  ("SPLIT_TOD__UINT", split_tod u16); (* 313 *)
  ("SPLIT_TOD__DINT", split_tod i32); (* 334 *)
  ("SPLIT_TOD__UDINT", split_tod u32); (* 355 *)
  ("SPLIT_TOD__LINT", split_tod i64); (* 376 *)
  ("SPLIT_TOD__ULINT", split_tod u64); (* 397 *)
  ("SPLIT_DT__INT", split_dt i16); (* 418 *)
  ("SPLIT_DT__UINT", split_dt u16); (* 446 *)
  ("SPLIT_DT__DINT", split_dt i32); (* 474 *)
  ("SPLIT_DT__UDINT", split_dt u32); (* 501 *)
  ("SPLIT_DT__LINT", split_dt i64); (* 529 *)
  ("SPLIT_DT__ULINT", split_dt u64); (* 557 *)
  ("DAY_OF_WEEK", z1 (pure1 DAY_OF_WEEK)); (* 585 *)
  (* /repo/src/date_time_numeric_functions.rs *)
  ("ADD_TIME", z2 (fun _ => ADD_TIME)); (* 9 *)
  ("ADD_TOD_TIME", z2 (fun P => ADD_TOD_TIME (p_chrono P))); (* 23 *)
  ("ADD_DT_TIME", z2 (fun P => ADD_DT_TIME (p_chrono P))); (* 33 *)
  ("SUB_TIME", z2 (fun _ => SUB_TIME)); (* 51 *)
  ("SUB_DATE_DATE", z2 (fun _ => SUB_DATE_DATE)); (* 65 *)
  ("SUB_TOD_TIME", z2 (fun P => SUB_TOD_TIME (p_chrono P))); (* 75 *)
  ("SUB_TOD_TOD", z2 (fun _ => SUB_TOD_TOD)); (* 85 *)
  ("SUB_DT_TIME", z2 (fun P => SUB_DT_TIME (p_chrono P))); (* 103 *)
  ("SUB_DT_DT", z2 (fun _ => SUB_DT_DT)); (* 121 *)
  ("MUL__TIME__SINT", z2 (fun _ => MUL_TIME_SIGNED)); (* 131 *)
  ("MUL__TIME__INT", z2 (fun _ => MUL_TIME_SIGNED)); (* 141 *)
  ("MUL__TIME__DINT", z2 (fun _ => MUL_TIME_SIGNED)); (* 151 *)
  ("MUL__TIME__LINT", z2 (fun _ => MUL_TIME_SIGNED)); (* 161 *)
  ("MUL_TIME__SINT", z2 (fun _ => MUL_TIME_SIGNED)); (* 171 *)
  ("MUL_TIME__INT", z2 (fun _ => MUL_TIME_SIGNED)); (* 181 *)
  ("MUL_TIME__DINT", z2 (fun _ => MUL_TIME_SIGNED)); (* 191 *)
  ("MUL_TIME__LINT", z2 (fun _ => MUL_TIME_SIGNED)); (* 201 *)
  ("MUL_LTIME__SINT", z2 (fun _ => MUL_TIME_SIGNED)); (* 211 *)
  ("MUL_LTIME__INT", z2 (fun _ => MUL_TIME_SIGNED)); (* 221 *)
  ("MUL_LTIME__DINT", z2 (fun _ => MUL_TIME_SIGNED)); (* 231 *)
  ("MUL_LTIME__LINT", z2 (fun _ => MUL_TIME_SIGNED)); (* 241 *)
  ("MUL__TIME__USINT", z2 (fun _ => MUL_TIME_UNSIGNED)); (* 259 *)
  ("MUL__TIME__UINT", z2 (fun _ => MUL_TIME_UNSIGNED)); (* 269 *)
  ("MUL__TIME__UDINT", z2 (fun _ => MUL_TIME_UNSIGNED)); (* 279 *)
  ("MUL__TIME__ULINT", z2 (fun _ => MUL_TIME_UNSIGNED)); (* 289 *)
  ("MUL_TIME__USINT", z2 (fun _ => MUL_TIME_UNSIGNED)); (* 299 *)
  ("MUL_TIME__UINT", z2 (fun _ => MUL_TIME_UNSIGNED)); (* 309 *)
  ("MUL_TIME__UDINT", z2 (fun _ => MUL_TIME_UNSIGNED)); (* 319 *)
  ("MUL_TIME__ULINT", z2 (fun _ => MUL_TIME_UNSIGNED)); (* 329 *)
  ("MUL_LTIME__USINT", z2 (fun _ => MUL_TIME_UNSIGNED)); (* 339 *)
  ("MUL_LTIME__UINT", z2 (fun _ => MUL_TIME_UNSIGNED)); (* 349 *)
  ("MUL_LTIME__UDINT", z2 (fun _ => MUL_TIME_UNSIGNED)); (* 359 *)
  ("MUL_LTIME__ULINT", z2 (fun _ => MUL_TIME_UNSIGNED)); (* 369 *)
  ("DIV__TIME__SINT", z2 (fun _ => DIV_TIME_SIGNED)); (* 389 *)
  ("DIV__TIME__INT", z2 (fun _ => DIV_TIME_SIGNED)); (* 399 *)
  ("DIV__TIME__DINT", z2 (fun _ => DIV_TIME_SIGNED)); (* 409 *)
  ("DIV__TIME__LINT", z2 (fun _ => DIV_TIME_SIGNED)); (* 419 *)
  ("DIV_TIME__SINT", z2 (fun _ => DIV_TIME_SIGNED)); (* 429 *)
  ("DIV_TIME__INT", z2 (fun _ => DIV_TIME_SIGNED)); (* 439 *)
  ("DIV_TIME__DINT", z2 (fun _ => DIV_TIME_SIGNED)); (* 449 *)
  ("DIV_TIME__LINT", z2 (fun _ => DIV_TIME_SIGNED)); (* 459 *)
  ("DIV_LTIME__SINT", z2 (fun _ => DIV_TIME_SIGNED)); (* 469 *)
  ("DIV_LTIME__INT", z2 (fun _ => DIV_TIME_SIGNED)); (* 479 *)
  ("DIV_LTIME__DINT", z2 (fun _ => DIV_TIME_SIGNED)); (* 489 *)
  ("DIV_LTIME__LINT", z2 (fun _ => DIV_TIME_SIGNED)); (* 499 *)
  ("DIV__TIME__USINT", z2 (fun _ => DIV_TIME_UNSIGNED)); (* 517 *)
  ("DIV__TIME__UINT", z2 (fun _ => DIV_TIME_UNSIGNED)); (* 527 *)
  ("DIV__TIME__UDINT", z2 (fun _ => DIV_TIME_UNSIGNED)); (* 537 *)
  ("DIV__TIME__ULINT", z2 (fun _ => DIV_TIME_UNSIGNED)); (* 547 *)
  ("DIV_TIME__USINT", z2 (fun _ => DIV_TIME_UNSIGNED)); (* 557 *)
  ("DIV_TIME__UINT", z2 (fun _ => DIV_TIME_UNSIGNED)); (* 567 *)
  ("DIV_TIME__UDINT", z2 (fun _ => DIV_TIME_UNSIGNED)); (* 577 *)
  ("DIV_TIME__ULINT", z2 (fun _ => DIV_TIME_UNSIGNED)); (* 587 *)
  ("DIV_LTIME__USINT", z2 (fun _ => DIV_TIME_UNSIGNED)); (* 597 *)
  ("DIV_LTIME__UINT", z2 (fun _ => DIV_TIME_UNSIGNED)); (* 607 *)
  ("DIV_LTIME__UDINT", z2 (fun _ => DIV_TIME_UNSIGNED)); (* 617 *)
  ("DIV_LTIME__ULINT", z2 (fun _ => DIV_TIME_UNSIGNED)); (* 627 *)
  ("MUL__TIME__REAL", zf (fun P => MUL_TIME_REAL (p_durgen P) F32)); (* 647 *)
  ("MUL_TIME__REAL", zf (fun P => MUL_TIME_REAL (p_durgen P) F32)); (* 657 *)
  ("MUL_LTIME__REAL", zf (fun P => MUL_TIME_REAL (p_durgen P) F32)); (* 667 *)
  ("MUL__TIME__LREAL", zf (fun P => MUL_TIME_REAL (p_durgen P) F64)); (* 695 *)
  ("MUL_TIME__LREAL", zf (fun P => MUL_TIME_REAL (p_durgen P) F64)); (* 705 *)
  ("MUL_LTIME__LREAL", zf (fun P => MUL_TIME_REAL (p_durgen P) F64)); (* 715 *)
  ("DIV__TIME__REAL", zf (fun P => DIV_TIME_REAL (p_durgen P) F32)); (* 743 *)
  ("DIV_TIME__REAL", zf (fun P => DIV_TIME_REAL (p_durgen P) F32)); (* 753 *)
  ("DIV_LTIME__REAL", zf (fun P => DIV_TIME_REAL (p_durgen P) F32)); (* 763 *)
  ("DIV__TIME__LREAL", zf (fun P => DIV_TIME_REAL (p_durgen P) F64)); (* 791 *)
  ("DIV_TIME__LREAL", zf (fun P => DIV_TIME_REAL (p_durgen P) F64)); (* 801 *)
  ("DIV_LTIME__LREAL", zf (fun P => DIV_TIME_REAL (p_durgen P) F64)); (* 811 *)
  (* /repo/src/endianness_conversion_functions.rs *)
  ("TO_BIG_ENDIAN__REAL", bits1 F32 TO_BIG_ENDIAN_float); (* 64 *)
  ("TO_LITTLE_ENDIAN__REAL", bits1 F32 TO_LITTLE_ENDIAN_float); (* 73 *)
  ("FROM_BIG_ENDIAN__REAL", bits1 F32 FROM_BIG_ENDIAN_float); (* 82 *)
  ("FROM_LITTLE_ENDIAN__REAL", bits1 F32 FROM_LITTLE_ENDIAN_float); (* 91 *)
  ("TO_BIG_ENDIAN__LREAL", bits1 F64 TO_BIG_ENDIAN_float); (* 100 *)
  ("TO_LITTLE_ENDIAN__LREAL", bits1 F64 TO_LITTLE_ENDIAN_float); (* 109 *)
  ("FROM_BIG_ENDIAN__LREAL", bits1 F64 FROM_BIG_ENDIAN_float); (* 118 *)
  ("FROM_LITTLE_ENDIAN__LREAL", bits1 F64 FROM_LITTLE_ENDIAN_float); (* 127 *)
  ("TO_BIG_ENDIAN__INT", z1 (fun P x => Ok (TO_BIG_ENDIAN (p_endian P) i16 x))); (* 45 *)
  ("TO_LITTLE_ENDIAN__INT", z1 (fun P x => Ok (TO_LITTLE_ENDIAN (p_endian P) i16 x))); (* 45 *)
  ("FROM_BIG_ENDIAN__INT", z1 (fun P x => Ok (FROM_BIG_ENDIAN (p_endian P) i16 x))); (* 45 *)
  ("FROM_LITTLE_ENDIAN__INT", z1 (fun P x => Ok (FROM_LITTLE_ENDIAN (p_endian P) i16 x))); (* 45 *)
  ("TO_BIG_ENDIAN__DINT", z1 (fun P x => Ok (TO_BIG_ENDIAN (p_endian P) i32 x))); (* 46 *)
  ("TO_LITTLE_ENDIAN__DINT", z1 (fun P x => Ok (TO_LITTLE_ENDIAN (p_endian P) i32 x))); (* 46 *)
  ("FROM_BIG_ENDIAN__DINT", z1 (fun P x => Ok (FROM_BIG_ENDIAN (p_endian P) i32 x))); (* 46 *)
  ("FROM_LITTLE_ENDIAN__DINT", z1 (fun P x => Ok (FROM_LITTLE_ENDIAN (p_endian P) i32 x))); (* 46 *)
  ("TO_BIG_ENDIAN__LINT", z1 (fun P x => Ok (TO_BIG_ENDIAN (p_endian P) i64 x))); (* 47 *)
  ("TO_LITTLE_ENDIAN__LINT", z1 (fun P x => Ok (TO_LITTLE_ENDIAN (p_endian P) i64 x))); (* 47 *)
  ("FROM_BIG_ENDIAN__LINT", z1 (fun P x => Ok (FROM_BIG_ENDIAN (p_endian P) i64 x))); (* 47 *)
  ("FROM_LITTLE_ENDIAN__LINT", z1 (fun P x => Ok (FROM_LITTLE_ENDIAN (p_endian P) i64 x))); (* 47 *)
  ("TO_BIG_ENDIAN__UINT", z1 (fun P x => Ok (TO_BIG_ENDIAN (p_endian P) u16 x))); (* 48 *)
  ("TO_LITTLE_ENDIAN__UINT", z1 (fun P x => Ok (TO_LITTLE_ENDIAN (p_endian P) u16 x))); (* 48 *)
  ("FROM_BIG_ENDIAN__UINT", z1 (fun P x => Ok (FROM_BIG_ENDIAN (p_endian P) u16 x))); (* 48 *)
  ("FROM_LITTLE_ENDIAN__UINT", z1 (fun P x => Ok (FROM_LITTLE_ENDIAN (p_endian P) u16 x))); (* 48 *)
  ("TO_BIG_ENDIAN__UDINT", z1 (fun P x => Ok (TO_BIG_ENDIAN (p_endian P) u32 x))); (* 49 *)
  ("TO_LITTLE_ENDIAN__UDINT", z1 (fun P x => Ok (TO_LITTLE_ENDIAN (p_endian P) u32 x))); (* 49 *)
  ("FROM_BIG_ENDIAN__UDINT", z1 (fun P x => Ok (FROM_BIG_ENDIAN (p_endian P) u32 x))); (* 49 *)
  ("FROM_LITTLE_ENDIAN__UDINT", z1 (fun P x => Ok (FROM_LITTLE_ENDIAN (p_endian P) u32 x))); (* 49 *)
  ("TO_BIG_ENDIAN__ULINT", z1 (fun P x => Ok (TO_BIG_ENDIAN (p_endian P) u64 x))); (* 50 *)
  ("TO_LITTLE_ENDIAN__ULINT", z1 (fun P x => Ok (TO_LITTLE_ENDIAN (p_endian P) u64 x))); (* 50 *)
  ("FROM_BIG_ENDIAN__ULINT", z1 (fun P x => Ok (FROM_BIG_ENDIAN (p_endian P) u64 x))); (* 50 *)
  ("FROM_LITTLE_ENDIAN__ULINT", z1 (fun P x => Ok (FROM_LITTLE_ENDIAN (p_endian P) u64 x))); (* 50 *)
  ("TO_BIG_ENDIAN__WORD", z1 (fun P x => Ok (TO_BIG_ENDIAN (p_endian P) u16 x))); (* 51 *)
  ("TO_LITTLE_ENDIAN__WORD", z1 (fun P x => Ok (TO_LITTLE_ENDIAN (p_endian P) u16 x))); (* 51 *)
  ("FROM_BIG_ENDIAN__WORD", z1 (fun P x => Ok (FROM_BIG_ENDIAN (p_endian P) u16 x))); (* 51 *)
  ("FROM_LITTLE_ENDIAN__WORD", z1 (fun P x => Ok (FROM_LITTLE_ENDIAN (p_endian P) u16 x))); (* 51 *)
  ("TO_BIG_ENDIAN__DWORD", z1 (fun P x => Ok (TO_BIG_ENDIAN (p_endian P) u32 x))); (* 52 *)
  ("TO_LITTLE_ENDIAN__DWORD", z1 (fun P x => Ok (TO_LITTLE_ENDIAN (p_endian P) u32 x))); (* 52 *)
  ("FROM_BIG_ENDIAN__DWORD", z1 (fun P x => Ok (FROM_BIG_ENDIAN (p_endian P) u32 x))); (* 52 *)
  ("FROM_LITTLE_ENDIAN__DWORD", z1 (fun P x => Ok (FROM_LITTLE_ENDIAN (p_endian P) u32 x))); (* 52 *)
  ("TO_BIG_ENDIAN__LWORD", z1 (fun P x => Ok (TO_BIG_ENDIAN (p_endian P) u64 x))); (* 53 *)
  ("TO_LITTLE_ENDIAN__LWORD", z1 (fun P x => Ok (TO_LITTLE_ENDIAN (p_endian P) u64 x))); (* 53 *)
  ("FROM_BIG_ENDIAN__LWORD", z1 (fun P x => Ok (FROM_BIG_ENDIAN (p_endian P) u64 x))); (* 53 *)
  ("FROM_LITTLE_ENDIAN__LWORD", z1 (fun P x => Ok (FROM_LITTLE_ENDIAN (p_endian P) u64 x))); (* 53 *)
  ("TO_BIG_ENDIAN__WCHAR", z1 (fun P x => Ok (TO_BIG_ENDIAN (p_endian P) u16 x))); (* 54 *)
  ("TO_LITTLE_ENDIAN__WCHAR", z1 (fun P x => Ok (TO_LITTLE_ENDIAN (p_endian P) u16 x))); (* 54 *)
  ("FROM_BIG_ENDIAN__WCHAR", z1 (fun P x => Ok (FROM_BIG_ENDIAN (p_endian P) u16 x))); (* 54 *)
  ("FROM_LITTLE_ENDIAN__WCHAR", z1 (fun P x => Ok (FROM_LITTLE_ENDIAN (p_endian P) u16 x))); (* 54 *)
  ("TO_BIG_ENDIAN__DATE", z1 (fun P x => Ok (TO_BIG_ENDIAN (p_endian P) i64 x))); (* 55 *)
  ("TO_LITTLE_ENDIAN__DATE", z1 (fun P x => Ok (TO_LITTLE_ENDIAN (p_endian P) i64 x))); (* 55 *)
  ("FROM_BIG_ENDIAN__DATE", z1 (fun P x => Ok (FROM_BIG_ENDIAN (p_endian P) i64 x))); (* 55 *)
  ("FROM_LITTLE_ENDIAN__DATE", z1 (fun P x => Ok (FROM_LITTLE_ENDIAN (p_endian P) i64 x))); (* 55 *)
  ("TO_BIG_ENDIAN__TIME_OF_DAY", z1 (fun P x => Ok (TO_BIG_ENDIAN (p_endian P) i64 x))); (* 56 *)
  ("TO_LITTLE_ENDIAN__TIME_OF_DAY", z1 (fun P x => Ok (TO_LITTLE_ENDIAN (p_endian P) i64 x))); (* 56 *)
  ("FROM_BIG_ENDIAN__TIME_OF_DAY", z1 (fun P x => Ok (FROM_BIG_ENDIAN (p_endian P) i64 x))); (* 56 *)
  ("FROM_LITTLE_ENDIAN__TIME_OF_DAY", z1 (fun P x => Ok (FROM_LITTLE_ENDIAN (p_endian P) i64 x))); (* 56 *)
  ("TO_BIG_ENDIAN__DATE_AND_TIME", z1 (fun P x => Ok (TO_BIG_ENDIAN (p_endian P) i64 x))); (* 57 *)
  ("TO_LITTLE_ENDIAN__DATE_AND_TIME", z1 (fun P x => Ok (TO_LITTLE_ENDIAN (p_endian P) i64 x))); (* 57 *)
  ("FROM_BIG_ENDIAN__DATE_AND_TIME", z1 (fun P x => Ok (FROM_BIG_ENDIAN (p_endian P) i64 x))); (* 57 *)
  ("FROM_LITTLE_ENDIAN__DATE_AND_TIME", z1 (fun P x => Ok (FROM_LITTLE_ENDIAN (p_endian P) i64 x))); (* 57 *)
  (* /repo/src/extra_functions.rs *)
  ("BYTE_TO_STRING_EXT", zS BYTE_TO_STRING_EXT); (* 24 *)
  ("LWORD_TO_STRING_EXT", zS LWORD_TO_STRING_EXT); (* 36 *)
  ("LINT_TO_STRING_EXT", zS LINT_TO_STRING_EXT); (* 48 *)
  ("LREAL_TO_STRING_EXT", fS LREAL_TO_STRING_EXT); (* 59 *)
  ("REAL_TO_STRING_EXT", fS REAL_TO_STRING_EXT); (* 75 *)
  ("STRING_TO_LINT", s_z (fun _ => STRING_TO_LINT)); (* 118 *)
  ("STRING_TO_DINT", s_z (fun _ => STRING_TO_DINT)); (* 126 *)
  ("STRING_TO_LREAL", s_f STRING_TO_LREAL); (* 151 *)
  ("STRING_TO_REAL", s_f STRING_TO_REAL); (* 159 *)
  ("TIME", clock); (* 165 *)
  ("TIME_TO_STRING_EXT", zS TIME_TO_STRING_EXT); (* 174 *)
  ("DT_TO_STRING_EXT", zS DT_TO_STRING_EXT); (* 215 *)
  ("DATE_TO_STRING_EXT", zS DATE_TO_STRING_EXT); (* 230 *)
  ("TOD_TO_STRING_EXT", zS TOD_TO_STRING_EXT); (* 244 *)
  (* /repo/src/numerical_functions.rs *)
  ("ROUND__REAL", f1 (fun _ => ROUND F32)); (* 6 *)
  ("ROUND__LREAL", f1 (fun _ => ROUND F64)); (* 15 *)
  (* /repo/src/string_conversion.rs *)
  ("WSTRING_TO_STRING_EXT", sS WSTRING_TO_STRING_EXT); (* 13 *)
  ("STRING_TO_WSTRING_EXT", sS STRING_TO_WSTRING_EXT); (* 32 *)
  ("WCHAR_TO_CHAR", z1 (pure1 WCHAR_TO_CHAR)); (* 51 *)
  ("CHAR_TO_WCHAR", z1 (pure1 CHAR_TO_WCHAR)); (* 69 *)
  (* /repo/src/string_functions.rs *)
  ("LEN__STRING", s_z (fun _ => LEN STRING)); (* 141 *)
  ("LEN__WSTRING", s_z (fun _ => LEN WSTRING)); (* 157 *)
  ("FIND__STRING", ss_z (fun P => FIND (p_profile P) STRING)); (* 170 *)
  ("FIND__WSTRING", ss_z (fun P => FIND (p_profile P) WSTRING)); (* 202 *)
  ("LEFT_EXT__STRING", szS (fun _ => LEFT_EXT STRING)); (* 236 *)
  ("LEFT_EXT__WSTRING", szS (fun _ => LEFT_EXT WSTRING)); (* 263 *)
  ("RIGHT_EXT__STRING", szS (fun _ => RIGHT_EXT STRING)); (* 294 *)
  ("RIGHT_EXT__WSTRING", szS (fun _ => RIGHT_EXT WSTRING)); (* 321 *)
  ("MID_EXT__STRING", szzS (fun P => MID_EXT (p_profile P) STRING)); (* 352 *)
  ("MID_EXT__WSTRING", szzS (fun P => MID_EXT (p_profile P) WSTRING)); (* 395 *)
  ("INSERT_EXT__STRING", sszS (fun _ => INSERT_EXT STRING)); (* 438 *)
  ("INSERT_EXT__WSTRING", sszS (fun _ => INSERT_EXT WSTRING)); (* 471 *)
  ("DELETE_EXT__STRING", szzS (fun P => DELETE_EXT (p_profile P) STRING)); (* 504 *)
  ("DELETE_EXT__WSTRING", szzS (fun P => DELETE_EXT (p_profile P) WSTRING)); (* 547 *)
  ("REPLACE_EXT__STRING", sszzS (fun P => REPLACE_EXT (p_profile P) STRING)); (* 591 *)
  ("REPLACE_EXT__WSTRING", sszzS (fun P => REPLACE_EXT (p_profile P) WSTRING)); (* 639 *)
  ("CONCAT__STRING", concat_fn STRING); (* 687 *)
  ("CONCAT_EXT__STRING", concat_ext STRING); (* 704 *)
  ("CONCAT__WSTRING", concat_fn WSTRING); (* 735 *)
  ("CONCAT_EXT__WSTRING", concat_ext WSTRING); (* 752 *)
  ("GT__STRING", sn_z GT_STR); (* 801 *)
  ("GT__WSTRING", sn_z GT_STR); (* 813 *)
  ("GE__STRING", sn_z GE_STR); (* 825 *)
  ("GE__WSTRING", sn_z GE_STR); (* 837 *)
  ("EQ__STRING", sn_z EQ_STR); (* 849 *)
  ("EQ__WSTRING", sn_z EQ_STR); (* 861 *)
  ("LE__STRING", sn_z LE_STR); (* 873 *)
  ("LE__WSTRING", sn_z LE_STR); (* 885 *)
  ("LT__STRING", sn_z LT_STR); (* 897 *)
  ("LT__WSTRING", sn_z LT_STR); (* 909 *)
  ("NE__STRING", ss_z (fun _ s t => omap Z.b2z (NE_STR s t))); (* 921 *)
  ("NE__WSTRING", ss_z (fun _ s t => omap Z.b2z (NE_STR s t))); (* 933 *)
  (* /repo/src/types.rs *)
  ("MAX__BOOL", zs MAX_ord); (* 116 *)
  ("MIN__BOOL", zs MIN_ord); (* 116 *)
  ("LIMIT__BOOL", z3 (fun _ a b c => Ok (LIMIT_ord a b c))); (* 116 *)
  ("MAX__BYTE", zs MAX_ord); (* 117 *)
  ("MIN__BYTE", zs MIN_ord); (* 117 *)
  ("LIMIT__BYTE", z3 (fun _ a b c => Ok (LIMIT_ord a b c))); (* 117 *)
  ("MAX__CHAR", zs MAX_ord); (* 118 *)
  ("MIN__CHAR", zs MIN_ord); (* 118 *)
  ("LIMIT__CHAR", z3 (fun _ a b c => Ok (LIMIT_ord a b c))); (* 118 *)
  ("MAX__WORD", zs MAX_ord); (* 119 *)
  ("MIN__WORD", zs MIN_ord); (* 119 *)
  ("LIMIT__WORD", z3 (fun _ a b c => Ok (LIMIT_ord a b c))); (* 119 *)
  ("MAX__WCHAR", zs MAX_ord); (* 120 *)
  ("MIN__WCHAR", zs MIN_ord); (* 120 *)
  ("LIMIT__WCHAR", z3 (fun _ a b c => Ok (LIMIT_ord a b c))); (* 120 *)
  ("MAX__DWORD", zs MAX_ord); (* 121 *)
  ("MIN__DWORD", zs MIN_ord); (* 121 *)
  ("LIMIT__DWORD", z3 (fun _ a b c => Ok (LIMIT_ord a b c))); (* 121 *)
  ("MAX__LWORD", zs MAX_ord); (* 122 *)
  ("MIN__LWORD", zs MIN_ord); (* 122 *)
  ("LIMIT__LWORD", z3 (fun _ a b c => Ok (LIMIT_ord a b c))); (* 122 *)
  ("MAX__SINT", zs MAX_ord); (* 124 *)
  ("MIN__SINT", zs MIN_ord); (* 124 *)
  ("LIMIT__SINT", z3 (fun _ a b c => Ok (LIMIT_ord a b c))); (* 124 *)
  ("MAX__USINT", zs MAX_ord); (* 125 *)
  ("MIN__USINT", zs MIN_ord); (* 125 *)
  ("LIMIT__USINT", z3 (fun _ a b c => Ok (LIMIT_ord a b c))); (* 125 *)
  ("MAX__INT", zs MAX_ord); (* 126 *)
  ("MIN__INT", zs MIN_ord); (* 126 *)
  ("LIMIT__INT", z3 (fun _ a b c => Ok (LIMIT_ord a b c))); (* 126 *)
  ("MAX__UINT", zs MAX_ord); (* 127 *)
  ("MIN__UINT", zs MIN_ord); (* 127 *)
  ("LIMIT__UINT", z3 (fun _ a b c => Ok (LIMIT_ord a b c))); (* 127 *)
  ("MAX__DINT", zs MAX_ord); (* 128 *)
  ("MIN__DINT", zs MIN_ord); (* 128 *)
  ("LIMIT__DINT", z3 (fun _ a b c => Ok (LIMIT_ord a b c))); (* 128 *)
  ("MAX__UDINT", zs MAX_ord); (* 129 *)
  ("MIN__UDINT", zs MIN_ord); (* 129 *)
  ("LIMIT__UDINT", z3 (fun _ a b c => Ok (LIMIT_ord a b c))); (* 129 *)
  ("MAX__LINT", zs MAX_ord); (* 130 *)
  ("MIN__LINT", zs MIN_ord); (* 130 *)
  ("LIMIT__LINT", z3 (fun _ a b c => Ok (LIMIT_ord a b c))); (* 130 *)
  ("MAX__ULINT", zs MAX_ord); (* 131 *)
  ("MIN__ULINT", zs MIN_ord); (* 131 *)
  ("LIMIT__ULINT", z3 (fun _ a b c => Ok (LIMIT_ord a b c))); (* 131 *)
  ("MAX__DATE", zs MAX_ord); (* 132 *)
  ("MIN__DATE", zs MIN_ord); (* 132 *)
  ("LIMIT__DATE", z3 (fun _ a b c => Ok (LIMIT_ord a b c))); (* 132 *)
  ("MAX__DATE_AND_TIME", zs MAX_ord); (* 133 *)
  ("MIN__DATE_AND_TIME", zs MIN_ord); (* 133 *)
  ("LIMIT__DATE_AND_TIME", z3 (fun _ a b c => Ok (LIMIT_ord a b c))); (* 133 *)
  ("MAX__TIME", zs MAX_ord); (* 139 *)
  ("MIN__TIME", zs MIN_ord); (* 139 *)
  ("LIMIT__TIME", z3 (fun _ a b c => Ok (LIMIT_ord a b c))); (* 139 *)
  ("MAX__TIME_OF_DAY", zs MAX_ord); (* 140 *)
  ("MIN__TIME_OF_DAY", zs MIN_ord); (* 140 *)
  ("LIMIT__TIME_OF_DAY", z3 (fun _ a b c => Ok (LIMIT_ord a b c))); (* 140 *)
  ("MAX__REAL", fs F32 MAX_float); (* 142 *)
  ("MIN__REAL", fs F32 MIN_float); (* 142 *)
  ("LIMIT__REAL", limit_float F32); (* 142 *)
  ("MAX__LREAL", fs F64 MAX_float); (* 143 *)
  ("MIN__LREAL", fs F64 MIN_float); (* 143 *)
  ("LIMIT__LREAL", limit_float F64); (* 143 *)
  (* /repo/src/validation_functions.rs *)
  ("IS_VALID__REAL", f_z (fun x => Z.b2z (IS_VALID x))); (* 12 *)
  ("IS_VALID__LREAL", f_z (fun x => Z.b2z (IS_VALID x))); (* 22 *)
  ("IS_VALID_BCD__BYTE", z1 (pure1 (fun x => Z.b2z (IS_VALID_BCD 8 x)))); (* 51 *)
  ("IS_VALID_BCD__WORD", z1 (pure1 (fun x => Z.b2z (IS_VALID_BCD 16 x)))); (* 60 *)
  ("IS_VALID_BCD__DWORD", z1 (pure1 (fun x => Z.b2z (IS_VALID_BCD 32 x)))); (* 69 *)
  ("IS_VALID_BCD__LWORD", z1 (pure1 (fun x => Z.b2z (IS_VALID_BCD 64 x)))) (* 78 *)
].

(** The function exported under a name: [#[no_mangle]], e.g. /repo/src/flanks.rs:18. *)
Definition find_code (n : string) : option code :=
  option_map snd (find (fun p => String.eqb (fst p) n) library).
(** A call of the exported function [n]; a symbol that does not exist cannot be linked.  Names:
    [no_mangle] in /repo/src/*.rs, lines in [library]. *)
Definition rust_call (P : platform) (n : string) (args : list value) : outcome (value * list value) :=
  match find_code n with Some c => c P args | None => Ub end.
