(** Model of the scalar functions: src/types.rs, src/bit_shift_functions.rs,
    src/endianness_conversion_functions.rs, src/validation_functions.rs,
    src/bit_num_conversion.rs. *)
From Coq Require Import ZArith List Bool SpecFloat.
From Verif Require Import Base ModelFloat.
Import ListNotations.
Open Scope Z_scope.

(** * MAX, MIN, LIMIT: /repo/src/types.rs *)

(** /repo/src/types.rs:72, 84 [slice::from_raw_parts(value, size)]: [mem] is the memory from
    the pointer to the end of its allocation. *)
Definition raw_slice {A} (mem : list A) (size : Z) : outcome (list A) :=
  if size <=? Z.of_nat (length mem) then Ok (firstn (Z.to_nat size) mem) else Ub.

(** [Iterator::max] on integers (Rust core): fold, later element wins ties.  Called at
    /repo/src/types.rs:73. *)
Definition iter_max (l : list Z) : option Z :=
  match l with
  | [] => None
  | x :: l' => Some (fold_left (fun a b => if b <? a then a else b) l' x)
  end.
(** [Iterator::min] on integers (Rust core), called at /repo/src/types.rs:86: the earlier
    element wins ties. *)
Definition iter_min (l : list Z) : option Z :=
  match l with
  | [] => None
  | x :: l' => Some (fold_left (fun a b => if b <? a then b else a) l' x)
  end.

(** /repo/src/types.rs:70-77 [$max_name] of [define_order_type]; [value = None] is the null
    pointer.  All instances (116-140) have this body. *)
Definition MAX_ord (size : Z) (value : option (list Z)) : outcome Z :=
  match value with
  | None => Panic
  | Some mem => let! arr := raw_slice mem size in unwrap (iter_max arr)
  end.

(** /repo/src/types.rs:83-90 [$min_name] of [define_order_type] *)
Definition MIN_ord (size : Z) (value : option (list Z)) : outcome Z :=
  match value with
  | None => Panic
  | Some mem => let! arr := raw_slice mem size in unwrap (iter_min arr)
  end.

(** /repo/src/types.rs:105-113 [limit] at an integer type; [$limit_name] 95-101. *)
Definition LIMIT_ord (mn value mx : Z) : Z :=
  if value <? mn then mn else if mx <? value then mx else value.

(** [f32::max] (Rust core), called at /repo/src/types.rs:28: a NaN argument is ignored.  The sign of the result
    for equal arguments (+0 and -0) is unspecified: [tie] chooses, per pair. *)
Definition fmax (tie : spec_float -> spec_float -> bool) (x y : spec_float) : spec_float :=
  match SFcompare x y with
  | Some Lt => y
  | Some Gt => x
  | Some Eq => if tie x y then x else y
  | None => match x with S754_nan => y | _ => x end
  end.
(** [f32::min], called at /repo/src/types.rs:45. *)
Definition fmin (tie : spec_float -> spec_float -> bool) (x y : spec_float) : spec_float :=
  match SFcompare x y with
  | Some Lt => x
  | Some Gt => y
  | Some Eq => if tie x y then x else y
  | None => match x with S754_nan => y | _ => x end
  end.

(** [Iterator::reduce] (Rust core), called at /repo/src/types.rs:28, 45. *)
Definition reduce {A} (f : A -> A -> A) (l : list A) : option A :=
  match l with [] => None | x :: l' => Some (fold_left f l' x) end.

(** /repo/src/types.rs:18-30 [$max_name] of [define_float_type] (REAL, LREAL 142-143) *)
Definition MAX_float tie (size : Z) (value : option (list spec_float)) : outcome spec_float :=
  match value with
  | None => Panic
  | Some mem => let! arr := raw_slice mem size in unwrap (reduce (fmax tie) arr)
  end.

(** /repo/src/types.rs:35-47 [$min_name] of [define_float_type] *)
Definition MIN_float tie (size : Z) (value : option (list spec_float)) : outcome spec_float :=
  match value with
  | None => Panic
  | Some mem => let! arr := raw_slice mem size in unwrap (reduce (fmin tie) arr)
  end.

(** /repo/src/types.rs:105-113 [limit] at f32/f64; [$limit_name] 52-58. *)
Definition LIMIT_float (mn value mx : spec_float) : spec_float :=
  if SFltb value mn then mn else if SFltb mx value then mx else value.

(** * SHL, SHR, ROL, ROR: /repo/src/bit_shift_functions.rs *)

(** Widths of BYTE, WORD, DWORD, LWORD: /repo/src/bit_shift_functions.rs:6, 13, 20, 27. *)
Definition bit_widths : list Z := [8; 16; 32; 64].

(** /repo/src/bit_shift_functions.rs:3-29 [input << n]: a shift amount of at least the width
    panics with overflow checks and is reduced modulo the width without. *)
Definition SHL (p : profile) (w x n : Z) : outcome Z :=
  if n <? w then Ok (Z.shiftl x n mod 2 ^ w)
  else match p with Debug => Panic | Release => Ok (Z.shiftl x (n mod w) mod 2 ^ w) end.

(** /repo/src/bit_shift_functions.rs:31-57 [input >> n] *)
Definition SHR (p : profile) (w x n : Z) : outcome Z :=
  if n <? w then Ok (Z.shiftr x n)
  else match p with Debug => Panic | Release => Ok (Z.shiftr x (n mod w)) end.

(** /repo/src/bit_shift_functions.rs:59-85 [input.rotate_left(n)] *)
Definition ROL (w x n : Z) : Z :=
  let k := n mod w in Z.lor (Z.shiftl x k mod 2 ^ w) (Z.shiftr x (w - k)).

(** /repo/src/bit_shift_functions.rs:87-113 [input.rotate_right(n)] *)
Definition ROR (w x n : Z) : Z :=
  let k := n mod w in Z.lor (Z.shiftr x k) (Z.shiftl x (w - k) mod 2 ^ w).

(** * Endianness: /repo/src/endianness_conversion_functions.rs *)

(** The [n] bytes of an unsigned value, least significant first, and back
    ([to_le_bytes]/[from_le_bytes] of Rust core); /repo/src/endianness_conversion_functions.rs:64-129. *)
Fixpoint le_bytes (n : nat) (x : Z) : list Z :=
  match n with O => [] | S k => x mod 256 :: le_bytes k (x / 256) end.
(** [from_le_bytes]; /repo/src/endianness_conversion_functions.rs:64-129. *)
Fixpoint of_le_bytes (l : list Z) : Z :=
  match l with [] => 0 | b :: l' => b + 256 * of_le_bytes l' end.
(** [to_be_bytes]/[from_be_bytes]; /repo/src/endianness_conversion_functions.rs:10-39, 64-129. *)
Definition be_bytes (n : nat) (x : Z) : list Z := rev (le_bytes n x).
(** [from_be_bytes]; /repo/src/endianness_conversion_functions.rs:64-129. *)
Definition of_be_bytes (l : list Z) : Z := of_le_bytes (rev l).

(** [swap_bytes] of Rust core at type [t]: what [to_be] and [to_le] may do at
    /repo/src/endianness_conversion_functions.rs:11, 20. *)
Definition swap_bytes (t : ity) (x : Z) : Z :=
  wrap t (of_be_bytes (le_bytes (Z.to_nat (it_bits t / 8)) (x mod 2 ^ it_bits t))).

(** [to_be] of Rust core on a host; /repo/src/endianness_conversion_functions.rs:11, 38. *)
Definition to_be (h : endian) (t : ity) (x : Z) : Z :=
  match h with LittleEndian => swap_bytes t x | BigEndian => x end.
(** [to_le] of Rust core on a host; /repo/src/endianness_conversion_functions.rs:20, 29. *)
Definition to_le (h : endian) (t : ity) (x : Z) : Z :=
  match h with LittleEndian => x | BigEndian => swap_bytes t x end.

(** Types of the instances: /repo/src/endianness_conversion_functions.rs:45-57. *)
Definition endian_types : list ity := [i16; i32; i64; u16; u32; u64].

(** /repo/src/endianness_conversion_functions.rs:10-12, 19-21, 28-30, 37-39 *)
Definition TO_BIG_ENDIAN (h : endian) (t : ity) (x : Z) : Z := to_be h t x.
(** /repo/src/endianness_conversion_functions.rs:19-21 *)
Definition TO_LITTLE_ENDIAN (h : endian) (t : ity) (x : Z) : Z := to_le h t x.
(** /repo/src/endianness_conversion_functions.rs:28-30 *)
Definition FROM_BIG_ENDIAN (h : endian) (t : ity) (x : Z) : Z := to_le h t x.
(** /repo/src/endianness_conversion_functions.rs:37-39 *)
Definition FROM_LITTLE_ENDIAN (h : endian) (t : ity) (x : Z) : Z := to_be h t x.

(** REAL/LREAL variants on the bit pattern, [n] bytes wide (4 or 8):
    /repo/src/endianness_conversion_functions.rs:64-66, 73-75, 82-84, 91-93 (f32) and
    100-102, 109-111, 118-120, 127-129 (f64). *)
Definition TO_BIG_ENDIAN_float (n : nat) (bits : Z) : Z := of_be_bytes (be_bytes n bits).
(** /repo/src/endianness_conversion_functions.rs:73-75, 109-111 *)
Definition TO_LITTLE_ENDIAN_float (n : nat) (bits : Z) : Z := of_le_bytes (le_bytes n bits).
(** /repo/src/endianness_conversion_functions.rs:82-84, 118-120 *)
Definition FROM_BIG_ENDIAN_float (n : nat) (bits : Z) : Z := of_le_bytes (le_bytes n bits).
(** /repo/src/endianness_conversion_functions.rs:91-93, 127-129 *)
Definition FROM_LITTLE_ENDIAN_float (n : nat) (bits : Z) : Z := of_be_bytes (be_bytes n bits).

(** * Validation: /repo/src/validation_functions.rs *)

(** /repo/src/validation_functions.rs:12-14, 22-24 [IS_VALID__REAL], [IS_VALID__LREAL] *)
Definition IS_VALID (x : fl) : bool := negb (is_nan x || is_infinite x).

(** /repo/src/validation_functions.rs:33-42: the loop [for i in 0..iterations], from index
    [i], [k] iterations left. *)
Fixpoint bcd_loop (x i : Z) (k : nat) : bool :=
  match k with
  | O => true
  | S k' => if 9 <? Z.land (Z.shiftr x (4 * i)) 15 then false else bcd_loop x (i + 1) k'
  end.

(** /repo/src/validation_functions.rs:28-44 [is_valid_bcd] at width [w]; instances
    IS_VALID_BCD__BYTE/WORD/DWORD/LWORD 50-80. *)
Definition IS_VALID_BCD (w x : Z) : bool := bcd_loop x 0 (Z.to_nat (w / 4)).

(** * Bit reinterpretation: /repo/src/bit_num_conversion.rs *)

(** /repo/src/bit_num_conversion.rs:6-8, 15-17, 24-26, 33-35 *)
Definition LWORD_TO_LREAL (x : Z) : fl := from_bits F64 x.
(** /repo/src/bit_num_conversion.rs:15-17 *)
Definition DWORD_TO_REAL (x : Z) : fl := from_bits F32 x.
(** /repo/src/bit_num_conversion.rs:24-26 *)
Definition LREAL_TO_LWORD (x : fl) : Z := to_bits F64 x.
(** /repo/src/bit_num_conversion.rs:33-35 *)
Definition REAL_TO_DWORD (x : fl) : Z := to_bits F32 x.
