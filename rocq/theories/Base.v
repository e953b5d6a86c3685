(** Common vocabulary of the model: outcomes, machine integers, build profile. *)
From Coq Require Import ZArith List Bool Lia.
Import ListNotations.
Open Scope Z_scope.

(** Result of calling a function of the library.
    [Panic]: a Rust panic ([unwrap], [expect], [panic!], [unreachable!], a failed
    overflow or shift check).  [Ub]: an access outside the memory handed in by the
    caller (undefined behaviour of the raw-pointer code).  Rust panics occur for example at
    /repo/src/date_time_extra_functions.rs:17, 83, 179, raw-pointer accesses at
    /repo/src/string_functions.rs:18-38. *)
Inductive outcome (A : Type) : Type :=
| Ok (a : A)
| Panic
| Ub.
Arguments Ok {A} a.
Arguments Panic {A}.
Arguments Ub {A}.

(** Sequencing: a statement after one that may panic, e.g.
    /repo/src/date_time_extra_functions.rs:177-181. *)
Definition obind {A B} (x : outcome A) (f : A -> outcome B) : outcome B :=
  match x with Ok a => f a | Panic => Panic | Ub => Ub end.

(** Sequencing, e.g. /repo/src/date_time_extra_functions.rs:177-181. *)
Notation "'let!' x ':=' e 'in' f" := (obind e (fun x => f))
  (at level 200, x binder, e at level 100, f at level 200, right associativity).

(** A pure step after one that may panic, e.g. /repo/src/string_functions.rs:141-143. *)
Definition omap {A B} (f : A -> B) (x : outcome A) : outcome B :=
  match x with Ok a => Ok (f a) | Panic => Panic | Ub => Ub end.

(** [Option::unwrap] / [Option::expect] of the Rust standard library.  Used e.g. at
    /repo/src/date_time_extra_functions.rs:17, 83, 167, 179. *)
Definition unwrap {A} (x : option A) : outcome A :=
  match x with Some a => Ok a | None => Panic end.

(** Build profile: cargo's dev profile has overflow checks, release has not.
    /repo/Cargo.toml sets neither, so both have to be considered. *)
Inductive profile := Debug | Release.

(** Byte order of the host the library is compiled for.  It decides the result of
    /repo/src/endianness_conversion_functions.rs:10-39. *)
Inductive endian := LittleEndian | BigEndian.

(** A Rust primitive integer type: signedness and width.  The parameter types of /repo/src/*.rs,
    e.g. /repo/src/types.rs:116-143. *)
Record ity := ITy { it_signed : bool; it_bits : Z }.

(** Smallest value of the type, e.g. of the counters /repo/src/counters.rs:57-388. *)
Definition imin (t : ity) : Z :=
  if it_signed t then - 2 ^ (it_bits t - 1) else 0.
(** Largest value of the type, e.g. of the counters /repo/src/counters.rs:57-388. *)
Definition imax (t : ity) : Z :=
  if it_signed t then 2 ^ (it_bits t - 1) - 1 else 2 ^ it_bits t - 1.
(** The values of the type, for statements (types as at /repo/src/types.rs:116-143). *)
Definition in_ity (t : ity) (x : Z) : Prop := imin t <= x <= imax t.
(** The same as a test ([checked_mul] at /repo/src/date_time_numeric_functions.rs:250). *)
Definition in_ityb (t : ity) (x : Z) : bool := (imin t <=? x) && (x <=? imax t).

(** Two's complement reduction: Rust's [as] cast between integer types.  Used e.g. at
    /repo/src/date_time_extra_functions.rs:300, 587, /repo/src/extra_functions.rs:198. *)
Definition wrap (t : ity) (x : Z) : Z :=
  if it_signed t
  then (x + 2 ^ (it_bits t - 1)) mod 2 ^ it_bits t - 2 ^ (it_bits t - 1)
  else x mod 2 ^ it_bits t.

(** The primitive types; e.g. /repo/src/types.rs:116-143, /repo/src/counters.rs:57-388. *)
Definition i8 := ITy true 8.
(** [i16], /repo/src/types.rs:126. *)
Definition i16 := ITy true 16.
(** [i32], /repo/src/types.rs:128. *)
Definition i32 := ITy true 32.
(** [i64], /repo/src/types.rs:130. *)
Definition i64 := ITy true 64.
(** [u8], /repo/src/types.rs:125. *)
Definition u8 := ITy false 8.
(** [u16], /repo/src/types.rs:127. *)
Definition u16 := ITy false 16.
(** [u32], /repo/src/types.rs:129. *)
Definition u32 := ITy false 32.
(** [u64], /repo/src/types.rs:131. *)
Definition u64 := ITy false 64.
(** [usize] on the 64-bit targets the library is built for (/repo/src/string_functions.rs:362-364). *)
Definition usize := u64.

(** All of them, for statements (/repo/src/types.rs:116-143). *)
Definition all_ity : list ity := [i8; i16; i32; i64; u8; u16; u32; u64].

(** Rust's [+], [-] on a primitive integer: panics on overflow in debug builds,
    wraps in release builds.  Used e.g. at /repo/src/string_functions.rs:369-370,
    /repo/src/extra_functions.rs:166-167. *)
Definition arith (p : profile) (t : ity) (exact : Z) : outcome Z :=
  if in_ityb t exact then Ok exact
  else match p with Debug => Panic | Release => Ok (wrap t exact) end.

(** [checked_add]/[checked_sub]/[checked_mul], and [try_into] between integers.  Used e.g. at
    /repo/src/date_time_numeric_functions.rs:250, 378-379. *)
Definition checked (t : ity) (exact : Z) : option Z :=
  if in_ityb t exact then Some exact else None.
