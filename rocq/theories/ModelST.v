(** The conversion and arithmetic functions written in Structured Text (ST).

    A small interpreter for the ST subset those functions use, and the functions themselves as
    data, one entry per FUNCTION with its source lines.  The semantics of ST assignment is that
    of the RuSTy compiler (not part of /repo): the value is converted to the declared type of
    the target, integers by truncation or sign/zero extension, integers to floats and floats to
    floats by rounding to nearest, floats to integers by truncation toward zero; a float whose
    integer part does not fit the target is LLVM poison, modelled as [Ub]. *)
From Coq Require Import ZArith List Bool String SpecFloat.
From Verif Require Import Base ModelFloat ModelScalar ModelChrono ModelDate ModelTimeNum ModelArith.
Import ListNotations.
Open Scope string_scope.
Open Scope Z_scope.

(** Elementary types.  BOOL is one byte holding 0 or 1.  The types of
    /repo/iec61131-st/num_conversion.st, bit_conversion.st. *)
Inductive st_ty := TBool | TInt (t : ity) | TFloat (f : fmt).

(** The ST type names used in /repo/iec61131-st/*.st and their RuSTy representation (all date
    and time types are 64-bit signed integers, see /repo/src/date_time_conversion.rs:9, 21). *)
Definition T_BOOL := TBool.
(** 8-bit types; /repo/iec61131-st/num_conversion.st, bit_conversion.st. *)
Definition T_SINT := TInt i8.    Definition T_USINT := TInt u8.   Definition T_BYTE := TInt u8.
(** 16-bit types; /repo/iec61131-st/num_conversion.st, bit_conversion.st. *)
Definition T_INT := TInt i16.    Definition T_UINT := TInt u16.   Definition T_WORD := TInt u16.
(** 32-bit types; /repo/iec61131-st/num_conversion.st, bit_conversion.st. *)
Definition T_DINT := TInt i32.   Definition T_UDINT := TInt u32.  Definition T_DWORD := TInt u32.
(** 64-bit types; /repo/iec61131-st/num_conversion.st, bit_conversion.st. *)
Definition T_LINT := TInt i64.   Definition T_ULINT := TInt u64.  Definition T_LWORD := TInt u64.
(** Characters; /repo/iec61131-st/string_conversion.st:28-128. *)
Definition T_CHAR := TInt u8.    Definition T_WCHAR := TInt u16.
(** Floating point; /repo/iec61131-st/num_conversion.st. *)
Definition T_REAL := TFloat F32. Definition T_LREAL := TFloat F64.
(** Durations; /repo/iec61131-st/date_time_conversion.st. *)
Definition T_TIME := TInt i64.   Definition T_LTIME := TInt i64.
(** Dates; /repo/iec61131-st/date_time_conversion.st. *)
Definition T_DATE := TInt i64.
(** Times of day; /repo/iec61131-st/date_time_conversion.st. *)
Definition T_TOD := TInt i64.    Definition T_LTOD := TInt i64.
(** Dates with time; /repo/iec61131-st/date_time_conversion.st. *)
Definition T_DT := TInt i64.     Definition T_LDT := TInt i64.

(** Values: integers (BOOL: 0 or 1) and floats.  Values of the variables of
    /repo/iec61131-st/num_conversion.st:6-11 and the others. *)
Inductive val := VInt (z : Z) | VFl (x : fl).

(** [fptrunc]/[fpext]: conversion between float formats, to nearest even; simplified:
    a NaN becomes the default quiet NaN of its sign, its payload is dropped.  E.g.
    /repo/iec61131-st/num_conversion.st:6-11. *)
Definition fl_convert (to : fmt) (x : fl) : fl :=
  match x with
  | FNum (S754_finite s m e) =>
      FNum (binary_normalize (f_prec to) (f_emax to) (if s then Zneg m else Zpos m) e s)
  | FNum S754_nan => FNum S754_nan
  | FNum y => FNum y
  | FNan s _ => FNan s (Z.to_pos (2 ^ (f_mw to - 1)))
  end.
(** [fptosi]/[fptoui]: truncation toward zero; infinities and NaN have no integer part.  E.g.
    /repo/iec61131-st/num_conversion.st:18-23. *)
Definition fl_trunc (x : fl) : option Z :=
  match x with
  | FNum (S754_zero _) => Some 0
  | FNum (S754_finite s m e) =>
      let n := scale_trunc (Zpos m) e in Some (if s then - n else n)
  | _ => None
  end.

(** Implicit conversion on assignment and argument passing.  E.g.
    /repo/iec61131-st/num_conversion.st:6-11, 18-23. *)
Definition st_cast (from to : st_ty) (v : val) : outcome val :=
  match from, to, v with
  | TBool, TBool, VInt z => Ok (VInt z)
  | TBool, TInt t, VInt z => Ok (VInt (wrap t z))
  | TInt _, TInt t, VInt z => Ok (VInt (wrap t z))
  | TInt _, TFloat f, VInt z => Ok (VFl (FNum (f_of_int f z)))
  | TFloat f, TFloat g, VFl x =>
      Ok (VFl (if (f_mw f =? f_mw g) then x else fl_convert g x))
  | TFloat _, TInt t, VFl x =>
      match fl_trunc x with
      | Some n => if in_ityb t n then Ok (VInt n) else Ub
      | None => Ub
      end
  | _, _, _ => Ub  (* not used by the functions below *)
  end.

(** Expressions and statements.  [ERet] is the function's result variable, written [@] in the
    citations; [EBit x n] is [x.n]; [EDeref t x] is [ptr^] after [ptr := &x] with
    [ptr : REF_TO t] of the same size.  Calls of generic functions name the instance RuSTy
    selects from the argument type.  E.g. /repo/iec61131-st/bit_conversion.st:46, 203-206, 218,
    /repo/iec61131-st/numerical_functions.st:20-21, 67. *)
Inductive cmp := CEq | CNe | CLt.
(** Expressions of the bodies in /repo/iec61131-st/*.st; the table [st_funs] cites each. *)
Inductive expr :=
  | EVar (x : string) | ERet | ELit (z : Z) | ELitR (z : Z) | EBool (b : bool)
  | EBit (x : string) (n : Z) | EDeref (t : st_ty) (x : string)
  | ECmp (c : cmp) (a b : expr) | EMul (a b : expr) | ECall (f : string) (args : list expr).
(** Statements: assignment of the result and IF, e.g.
    /repo/iec61131-st/numerical_functions.st:18-22. *)
Inductive stmt := SAssign (e : expr) | SIf (c : expr) (th el : list stmt).
(** A function: name, inputs, result type and body, e.g.
    /repo/iec61131-st/num_conversion.st:6-11. *)
Record st_fun := Fn { fn_name : string; fn_args : list (string * st_ty);
                      fn_ret : st_ty; fn_body : list stmt }.

(** Arithmetic conversion of two operands: float if one is, else at least DINT and wide enough.
    E.g. /repo/iec61131-st/numerical_functions.st:20-21. *)
Definition st_common (a b : st_ty) : st_ty :=
  match a, b with
  | TFloat f, TFloat g => if f_mw f <? f_mw g then TFloat g else TFloat f
  | TFloat f, _ => TFloat f
  | _, TFloat g => TFloat g
  | TInt s, TInt t =>
      if it_bits s <? it_bits t then if it_bits t <? 32 then TInt i32 else TInt t
      else if it_bits s <? 32 then TInt i32 else TInt s
  | TInt s, TBool => if it_bits s <? 32 then TInt i32 else TInt s
  | TBool, TInt s => if it_bits s <? 32 then TInt i32 else TInt s
  | TBool, TBool => TInt i32
  end.
(** Comparisons, e.g. /repo/iec61131-st/numerical_functions.st:20. *)
Definition st_compare (c : cmp) (a b : val) : outcome bool :=
  match a, b with
  | VInt x, VInt y => Ok (match c with CEq => x =? y | CNe => negb (x =? y) | CLt => x <? y end)
  | VFl x, VFl y =>
      Ok (match c with
          | CEq => SFeqb (fl_sf x) (fl_sf y)
          | CNe => negb (SFeqb (fl_sf x) (fl_sf y))
          | CLt => SFltb (fl_sf x) (fl_sf y)
          end)
  | _, _ => Ub
  end.
(** Multiplication, e.g. /repo/iec61131-st/numerical_functions.st:21, 67. *)
Definition st_mul (t : st_ty) (a b : val) : outcome val :=
  match t, a, b with
  | TInt i, VInt x, VInt y => Ok (VInt (wrap i (x * y)))
  | TFloat f, VFl x, VFl y =>
      Ok (VFl (fl_of_sf f (SFmul (f_prec f) (f_emax f) (fl_sf x) (fl_sf y))))
  | _, _, _ => Ub
  end.

(** Functions marked [{external}] that the table below calls: declared types and the model of
    their Rust implementation, e.g. /repo/iec61131-st/numerical_functions.st:77-82 with
    /repo/src/numerical_functions.rs:6.  [v] is the chrono generation (see ModelChrono). *)
Record st_ext := Ext { ex_name : string; ex_args : list st_ty; ex_ret : st_ty;
                       ex_sem : chrono -> list val -> outcome val }.
(** External [fn(f) -> f], e.g. /repo/src/numerical_functions.rs:6. *)
Definition float1 (g : fl -> fl) (_ : chrono) (l : list val) : outcome val :=
  match l with [VFl x] => Ok (VFl (g x)) | _ => Ub end.
(** External [fn(i) -> i], e.g. /repo/src/date_time_conversion.rs:8. *)
Definition int1 (g : chrono -> Z -> outcome Z) (v : chrono) (l : list val) : outcome val :=
  match l with [VInt x] => omap VInt (g v x) | _ => Ub end.
(** External [fn(f, i) -> f], e.g. /repo/src/arithmetic_functions.rs:221. *)
Definition float_int (g : fl -> Z -> fl) (_ : chrono) (l : list val) : outcome val :=
  match l with [VFl x; VInt n] => Ok (VFl (g x n)) | _ => Ub end.
(** The external functions called by ST bodies; declared in /repo/iec61131-st/*.st at the lines
    given. *)
Definition externals : list st_ext := [
  Ext "ROUND__REAL" [T_REAL] T_REAL (float1 (ROUND F32));     (* numerical_functions.st:77-82 *)
  Ext "ROUND__LREAL" [T_LREAL] T_LREAL (float1 (ROUND F64));
  Ext "SQRT__REAL" [T_REAL] T_REAL (float1 (SQRT F32));       (* arithmetic_functions.st:16-21 *)
  Ext "SQRT__LREAL" [T_LREAL] T_LREAL (float1 (SQRT F64));
  Ext "EXPT__REAL__DINT" [T_REAL; T_DINT] T_REAL (float_int (EXPT_DINT F32));  (* 123-129 *)
  Ext "EXPT__LREAL__DINT" [T_LREAL; T_DINT] T_LREAL (float_int (EXPT_DINT F64));  (* 147-153 *)
  Ext "DATE_AND_TIME_TO_DATE" [T_DT] T_DATE (int1 DATE_AND_TIME_TO_DATE);
    (* date_time_conversion.st:6-11 *)
  Ext "DATE_AND_TIME_TO_TIME_OF_DAY" [T_DT] T_TOD (int1 DATE_AND_TIME_TO_TIME_OF_DAY)
    (* date_time_conversion.st:18-23 *)
].

(** The ST functions of /repo/iec61131-st/*.st, in source order; files and lines inside. *)
Definition st_functions : list st_fun := [
  (* /repo/iec61131-st/num_conversion.st *)
  Fn "LREAL_TO_REAL" [("in", T_LREAL)] T_REAL [SAssign (EVar "in")] (* 6-11 *);
  Fn "LREAL_TO_LINT" [("in", T_LREAL)] T_LINT [SAssign (ECall "ROUND__LREAL" [EVar "in"])] (* 18-23 *);
  Fn "LREAL_TO_DINT" [("in", T_LREAL)] T_DINT [SAssign (ECall "ROUND__LREAL" [EVar "in"])] (* 30-35 *);
  Fn "LREAL_TO_INT" [("in", T_LREAL)] T_INT [SAssign (ECall "ROUND__LREAL" [EVar "in"])] (* 42-47 *);
  Fn "LREAL_TO_SINT" [("in", T_LREAL)] T_SINT [SAssign (ECall "ROUND__LREAL" [EVar "in"])] (* 54-59 *);
  Fn "LREAL_TO_ULINT" [("in", T_LREAL)] T_ULINT [SAssign (ECall "ROUND__LREAL" [EVar "in"])] (* 66-71 *);
  Fn "LREAL_TO_UDINT" [("in", T_LREAL)] T_UDINT [SAssign (ECall "ROUND__LREAL" [EVar "in"])] (* 78-83 *);
  Fn "LREAL_TO_UINT" [("in", T_LREAL)] T_UINT [SAssign (ECall "ROUND__LREAL" [EVar "in"])] (* 90-95 *);
  Fn "LREAL_TO_USINT" [("in", T_LREAL)] T_USINT [SAssign (ECall "ROUND__LREAL" [EVar "in"])] (* 102-107 *);
  Fn "REAL_TO_LREAL" [("in", T_REAL)] T_LREAL [SAssign (EVar "in")] (* 114-119 *);
  Fn "REAL_TO_LINT" [("in", T_REAL)] T_LINT [SAssign (ECall "ROUND__REAL" [EVar "in"])] (* 126-131 *);
  Fn "REAL_TO_DINT" [("in", T_REAL)] T_DINT [SAssign (ECall "ROUND__REAL" [EVar "in"])] (* 138-143 *);
  Fn "REAL_TO_INT" [("in", T_REAL)] T_INT [SAssign (ECall "ROUND__REAL" [EVar "in"])] (* 150-155 *);
  Fn "REAL_TO_SINT" [("in", T_REAL)] T_SINT [SAssign (ECall "ROUND__REAL" [EVar "in"])] (* 162-167 *);
  Fn "REAL_TO_ULINT" [("in", T_REAL)] T_ULINT [SAssign (ECall "ROUND__REAL" [EVar "in"])] (* 174-179 *);
  Fn "REAL_TO_UDINT" [("in", T_REAL)] T_UDINT [SAssign (ECall "ROUND__REAL" [EVar "in"])] (* 186-191 *);
  Fn "REAL_TO_UINT" [("in", T_REAL)] T_UINT [SAssign (ECall "ROUND__REAL" [EVar "in"])] (* 198-203 *);
  Fn "REAL_TO_USINT" [("in", T_REAL)] T_USINT [SAssign (ECall "ROUND__REAL" [EVar "in"])] (* 210-215 *);
  Fn "LINT_TO_LREAL" [("in", T_LINT)] T_LREAL [SAssign (EVar "in")] (* 222-227 *);
  Fn "LINT_TO_REAL" [("in", T_LINT)] T_REAL [SAssign (EVar "in")] (* 234-239 *);
  Fn "LINT_TO_DINT" [("in", T_LINT)] T_DINT [SAssign (EVar "in")] (* 246-251 *);
  Fn "LINT_TO_INT" [("in", T_LINT)] T_INT [SAssign (EVar "in")] (* 258-263 *);
  Fn "LINT_TO_SINT" [("in", T_LINT)] T_SINT [SAssign (EVar "in")] (* 270-275 *);
  Fn "LINT_TO_ULINT" [("in", T_LINT)] T_ULINT [SAssign (EVar "in")] (* 282-287 *);
  Fn "LINT_TO_UDINT" [("in", T_LINT)] T_UDINT [SAssign (EVar "in")] (* 294-299 *);
  Fn "LINT_TO_UINT" [("in", T_LINT)] T_UINT [SAssign (EVar "in")] (* 306-311 *);
  Fn "LINT_TO_USINT" [("in", T_LINT)] T_USINT [SAssign (EVar "in")] (* 318-323 *);
  Fn "DINT_TO_LREAL" [("in", T_DINT)] T_LREAL [SAssign (EVar "in")] (* 330-335 *);
  Fn "DINT_TO_REAL" [("in", T_DINT)] T_REAL [SAssign (EVar "in")] (* 342-347 *);
  Fn "DINT_TO_LINT" [("in", T_DINT)] T_LINT [SAssign (EVar "in")] (* 354-359 *);
  Fn "DINT_TO_INT" [("in", T_DINT)] T_INT [SAssign (EVar "in")] (* 366-371 *);
  Fn "DINT_TO_SINT" [("in", T_DINT)] T_SINT [SAssign (EVar "in")] (* 378-383 *);
  Fn "DINT_TO_ULINT" [("in", T_DINT)] T_ULINT [SAssign (EVar "in")] (* 390-395 *);
  Fn "DINT_TO_UDINT" [("in", T_DINT)] T_UDINT [SAssign (EVar "in")] (* 402-407 *);
  Fn "DINT_TO_UINT" [("in", T_DINT)] T_UINT [SAssign (EVar "in")] (* 414-419 *);
  Fn "DINT_TO_USINT" [("in", T_DINT)] T_USINT [SAssign (EVar "in")] (* 426-431 *);
  Fn "INT_TO_LREAL" [("in", T_INT)] T_LREAL [SAssign (EVar "in")] (* 438-443 *);
  Fn "INT_TO_REAL" [("in", T_INT)] T_REAL [SAssign (EVar "in")] (* 450-455 *);
  Fn "INT_TO_LINT" [("in", T_INT)] T_LINT [SAssign (EVar "in")] (* 462-467 *);
  Fn "INT_TO_DINT" [("in", T_INT)] T_DINT [SAssign (EVar "in")] (* 474-479 *);
  Fn "INT_TO_SINT" [("in", T_INT)] T_SINT [SAssign (EVar "in")] (* 486-491 *);
  Fn "INT_TO_ULINT" [("in", T_INT)] T_ULINT [SAssign (EVar "in")] (* 498-503 *);
  Fn "INT_TO_UDINT" [("in", T_INT)] T_UDINT [SAssign (EVar "in")] (* 510-515 *);
  Fn "INT_TO_UINT" [("in", T_INT)] T_UINT [SAssign (EVar "in")] (* 522-527 *);
  Fn "INT_TO_USINT" [("in", T_INT)] T_USINT [SAssign (EVar "in")] (* 534-539 *);
  Fn "SINT_TO_LREAL" [("in", T_SINT)] T_LREAL [SAssign (EVar "in")] (* 546-551 *);
  Fn "SINT_TO_REAL" [("in", T_SINT)] T_REAL [SAssign (EVar "in")] (* 558-563 *);
  Fn "SINT_TO_LINT" [("in", T_SINT)] T_LINT [SAssign (EVar "in")] (* 570-575 *);
  Fn "SINT_TO_DINT" [("in", T_SINT)] T_DINT [SAssign (EVar "in")] (* 582-587 *);
  Fn "SINT_TO_INT" [("in", T_SINT)] T_INT [SAssign (EVar "in")] (* 594-599 *);
  Fn "SINT_TO_ULINT" [("in", T_SINT)] T_ULINT [SAssign (EVar "in")] (* 606-611 *);
  Fn "SINT_TO_UDINT" [("in", T_SINT)] T_UDINT [SAssign (EVar "in")] (* 618-623 *);
  Fn "SINT_TO_UINT" [("in", T_SINT)] T_UINT [SAssign (EVar "in")] (* 630-635 *);
  Fn "SINT_TO_USINT" [("in", T_SINT)] T_USINT [SAssign (EVar "in")] (* 642-647 *);
  Fn "ULINT_TO_LREAL" [("in", T_ULINT)] T_LREAL [SAssign (EVar "in")] (* 654-659 *);
  Fn "ULINT_TO_REAL" [("in", T_ULINT)] T_REAL [SAssign (EVar "in")] (* 666-671 *);
  Fn "ULINT_TO_LINT" [("in", T_ULINT)] T_LINT [SAssign (EVar "in")] (* 678-683 *);
  Fn "ULINT_TO_DINT" [("in", T_ULINT)] T_DINT [SAssign (EVar "in")] (* 690-695 *);
  Fn "ULINT_TO_INT" [("in", T_ULINT)] T_INT [SAssign (EVar "in")] (* 702-707 *);
  Fn "ULINT_TO_SINT" [("in", T_ULINT)] T_SINT [SAssign (EVar "in")] (* 714-719 *);
  Fn "ULINT_TO_UDINT" [("in", T_ULINT)] T_UDINT [SAssign (EVar "in")] (* 726-731 *);
  Fn "ULINT_TO_UINT" [("in", T_ULINT)] T_UINT [SAssign (EVar "in")] (* 738-743 *);
  Fn "ULINT_TO_USINT" [("in", T_ULINT)] T_USINT [SAssign (EVar "in")] (* 750-755 *);
  Fn "UDINT_TO_LREAL" [("in", T_UDINT)] T_LREAL [SAssign (EVar "in")] (* 762-767 *);
  Fn "UDINT_TO_REAL" [("in", T_UDINT)] T_REAL [SAssign (EVar "in")] (* 774-779 *);
  Fn "UDINT_TO_LINT" [("in", T_UDINT)] T_LINT [SAssign (EVar "in")] (* 786-791 *);
  Fn "UDINT_TO_DINT" [("in", T_UDINT)] T_DINT [SAssign (EVar "in")] (* 798-803 *);
  Fn "UDINT_TO_INT" [("in", T_UDINT)] T_INT [SAssign (EVar "in")] (* 810-815 *);
  Fn "UDINT_TO_SINT" [("in", T_UDINT)] T_SINT [SAssign (EVar "in")] (* 822-827 *);
  Fn "UDINT_TO_ULINT" [("in", T_UDINT)] T_ULINT [SAssign (EVar "in")] (* 834-839 *);
  Fn "UDINT_TO_UINT" [("in", T_UDINT)] T_UINT [SAssign (EVar "in")] (* 846-851 *);
  Fn "UDINT_TO_USINT" [("in", T_UDINT)] T_USINT [SAssign (EVar "in")] (* 858-863 *);
  Fn "UINT_TO_LREAL" [("in", T_UINT)] T_LREAL [SAssign (EVar "in")] (* 870-875 *);
  Fn "UINT_TO_REAL" [("in", T_UINT)] T_REAL [SAssign (EVar "in")] (* 882-887 *);
  Fn "UINT_TO_LINT" [("in", T_UINT)] T_LINT [SAssign (EVar "in")] (* 894-899 *);
  Fn "UINT_TO_DINT" [("in", T_UINT)] T_DINT [SAssign (EVar "in")] (* 906-911 *);
  Fn "UINT_TO_INT" [("in", T_UINT)] T_INT [SAssign (EVar "in")] (* 918-923 *);
  Fn "UINT_TO_SINT" [("in", T_UINT)] T_SINT [SAssign (EVar "in")] (* 930-935 *);
  Fn "UINT_TO_ULINT" [("in", T_UINT)] T_ULINT [SAssign (EVar "in")] (* 942-947 *);
  Fn "UINT_TO_UDINT" [("in", T_UINT)] T_UDINT [SAssign (EVar "in")] (* 954-959 *);
  Fn "UINT_TO_USINT" [("in", T_UINT)] T_USINT [SAssign (EVar "in")] (* 966-971 *);
  Fn "USINT_TO_LREAL" [("in", T_USINT)] T_LREAL [SAssign (EVar "in")] (* 978-983 *);
  Fn "USINT_TO_REAL" [("in", T_USINT)] T_REAL [SAssign (EVar "in")] (* 990-995 *);
  Fn "USINT_TO_LINT" [("in", T_USINT)] T_LINT [SAssign (EVar "in")] (* 1002-1007 *);
  Fn "USINT_TO_DINT" [("in", T_USINT)] T_DINT [SAssign (EVar "in")] (* 1014-1019 *);
  Fn "USINT_TO_INT" [("in", T_USINT)] T_INT [SAssign (EVar "in")] (* 1026-1031 *);
  Fn "USINT_TO_SINT" [("in", T_USINT)] T_SINT [SAssign (EVar "in")] (* 1038-1043 *);
  Fn "USINT_TO_ULINT" [("in", T_USINT)] T_ULINT [SAssign (EVar "in")] (* 1050-1055 *);
  Fn "USINT_TO_UDINT" [("in", T_USINT)] T_UDINT [SAssign (EVar "in")] (* 1062-1067 *);
  Fn "USINT_TO_UINT" [("in", T_USINT)] T_UINT [SAssign (EVar "in")] (* 1074-1079 *);
  (* /repo/iec61131-st/bit_conversion.st *)
  Fn "LWORD_TO_DWORD" [("in", T_LWORD)] T_DWORD [SAssign (EVar "in")] (* 6-11 *);
  Fn "LWORD_TO_WORD" [("in", T_LWORD)] T_WORD [SAssign (EVar "in")] (* 18-23 *);
  Fn "LWORD_TO_BYTE" [("in", T_LWORD)] T_BYTE [SAssign (EVar "in")] (* 30-35 *);
  Fn "LWORD_TO_BOOL" [("in", T_LWORD)] T_BOOL [SAssign (EBit "in" 0)] (* 42-47 *);
  Fn "DWORD_TO_LWORD" [("in", T_DWORD)] T_LWORD [SAssign (EVar "in")] (* 54-59 *);
  Fn "DWORD_TO_WORD" [("in", T_DWORD)] T_WORD [SAssign (EVar "in")] (* 66-71 *);
  Fn "DWORD_TO_BYTE" [("in", T_DWORD)] T_BYTE [SAssign (EVar "in")] (* 78-83 *);
  Fn "DWORD_TO_BOOL" [("in", T_DWORD)] T_BOOL [SAssign (EBit "in" 0)] (* 90-95 *);
  Fn "WORD_TO_LWORD" [("in", T_WORD)] T_LWORD [SAssign (EVar "in")] (* 102-107 *);
  Fn "WORD_TO_DWORD" [("in", T_WORD)] T_DWORD [SAssign (EVar "in")] (* 114-119 *);
  Fn "WORD_TO_BYTE" [("in", T_WORD)] T_BYTE [SAssign (EVar "in")] (* 126-131 *);
  Fn "WORD_TO_BOOL" [("in", T_WORD)] T_BOOL [SAssign (EBit "in" 0)] (* 138-143 *);
  Fn "BYTE_TO_LWORD" [("in", T_BYTE)] T_LWORD [SAssign (EVar "in")] (* 150-155 *);
  Fn "BYTE_TO_DWORD" [("in", T_BYTE)] T_DWORD [SAssign (EVar "in")] (* 162-167 *);
  Fn "BYTE_TO_WORD" [("in", T_BYTE)] T_WORD [SAssign (EVar "in")] (* 174-179 *);
  Fn "BYTE_TO_BOOL" [("in", T_BYTE)] T_BOOL [SAssign (EBit "in" 0)] (* 186-191 *);
  Fn "BYTE_TO_CHAR" [("in", T_BYTE)] T_CHAR [SAssign (EDeref T_CHAR "in")] (* 198-207 *);
  Fn "BOOL_TO_LWORD" [("in", T_BOOL)] T_LWORD [SIf (ECmp CNe (EVar "in") (ELit 0)) [SAssign (ELit 1)] [SAssign (ELit 0)]] (* 214-223 *);
  Fn "BOOL_TO_DWORD" [("in", T_BOOL)] T_DWORD [SIf (ECmp CNe (EVar "in") (ELit 0)) [SAssign (ELit 1)] [SAssign (ELit 0)]] (* 230-239 *);
  Fn "BOOL_TO_WORD" [("in", T_BOOL)] T_WORD [SIf (ECmp CNe (EVar "in") (ELit 0)) [SAssign (ELit 1)] [SAssign (ELit 0)]] (* 246-255 *);
  Fn "BOOL_TO_BYTE" [("in", T_BOOL)] T_BYTE [SIf (ECmp CNe (EVar "in") (ELit 0)) [SAssign (ELit 1)] [SAssign (ELit 0)]] (* 262-271 *);
  Fn "CHAR_TO_BYTE" [("in", T_CHAR)] T_BYTE [SAssign (EDeref T_BYTE "in")] (* 278-287 *);
  Fn "CHAR_TO_WORD" [("in", T_CHAR)] T_WORD [SAssign (ECall "CHAR_TO_BYTE" [EVar "in"])] (* 294-299 *);
  Fn "CHAR_TO_DWORD" [("in", T_CHAR)] T_DWORD [SAssign (ECall "CHAR_TO_BYTE" [EVar "in"])] (* 306-311 *);
  Fn "CHAR_TO_LWORD" [("in", T_CHAR)] T_LWORD [SAssign (ECall "CHAR_TO_BYTE" [EVar "in"])] (* 318-323 *);
  Fn "WCHAR_TO_WORD" [("in", T_WCHAR)] T_WORD [SAssign (EDeref T_WORD "in")] (* 330-339 *);
  Fn "WCHAR_TO_DWORD" [("in", T_WCHAR)] T_DWORD [SAssign (ECall "WCHAR_TO_WORD" [EVar "in"])] (* 346-351 *);
  Fn "WCHAR_TO_LWORD" [("in", T_WCHAR)] T_LWORD [SAssign (ECall "WCHAR_TO_WORD" [EVar "in"])] (* 358-363 *);
  (* /repo/iec61131-st/bit_num_conversion.st *)
  Fn "LWORD_TO_LINT" [("in", T_LWORD)] T_LINT [SAssign (EVar "in")] (* 18-23 *);
  Fn "LWORD_TO_DINT" [("in", T_LWORD)] T_DINT [SAssign (EVar "in")] (* 30-35 *);
  Fn "LWORD_TO_INT" [("in", T_LWORD)] T_INT [SAssign (EVar "in")] (* 42-47 *);
  Fn "LWORD_TO_SINT" [("in", T_LWORD)] T_SINT [SAssign (EVar "in")] (* 54-59 *);
  Fn "LWORD_TO_ULINT" [("in", T_LWORD)] T_ULINT [SAssign (EVar "in")] (* 66-71 *);
  Fn "LWORD_TO_UDINT" [("in", T_LWORD)] T_UDINT [SAssign (EVar "in")] (* 78-83 *);
  Fn "LWORD_TO_UINT" [("in", T_LWORD)] T_UINT [SAssign (EVar "in")] (* 90-95 *);
  Fn "LWORD_TO_USINT" [("in", T_LWORD)] T_USINT [SAssign (EVar "in")] (* 102-107 *);
  Fn "DWORD_TO_LINT" [("in", T_DWORD)] T_LINT [SAssign (EVar "in")] (* 126-131 *);
  Fn "DWORD_TO_DINT" [("in", T_DWORD)] T_DINT [SAssign (EVar "in")] (* 138-143 *);
  Fn "DWORD_TO_INT" [("in", T_DWORD)] T_INT [SAssign (EVar "in")] (* 150-155 *);
  Fn "DWORD_TO_SINT" [("in", T_DWORD)] T_SINT [SAssign (EVar "in")] (* 162-167 *);
  Fn "DWORD_TO_ULINT" [("in", T_DWORD)] T_ULINT [SAssign (EVar "in")] (* 174-179 *);
  Fn "DWORD_TO_UDINT" [("in", T_DWORD)] T_UDINT [SAssign (EVar "in")] (* 186-191 *);
  Fn "DWORD_TO_UINT" [("in", T_DWORD)] T_UINT [SAssign (EVar "in")] (* 198-203 *);
  Fn "DWORD_TO_USINT" [("in", T_DWORD)] T_USINT [SAssign (EVar "in")] (* 210-215 *);
  Fn "WORD_TO_LINT" [("in", T_WORD)] T_LINT [SAssign (EVar "in")] (* 222-227 *);
  Fn "WORD_TO_DINT" [("in", T_WORD)] T_DINT [SAssign (EVar "in")] (* 234-239 *);
  Fn "WORD_TO_INT" [("in", T_WORD)] T_INT [SAssign (EVar "in")] (* 246-251 *);
  Fn "WORD_TO_SINT" [("in", T_WORD)] T_SINT [SAssign (EVar "in")] (* 258-263 *);
  Fn "WORD_TO_ULINT" [("in", T_WORD)] T_ULINT [SAssign (EVar "in")] (* 270-275 *);
  Fn "WORD_TO_UDINT" [("in", T_WORD)] T_UDINT [SAssign (EVar "in")] (* 282-287 *);
  Fn "WORD_TO_UINT" [("in", T_WORD)] T_UINT [SAssign (EVar "in")] (* 294-299 *);
  Fn "WORD_TO_USINT" [("in", T_WORD)] T_USINT [SAssign (EVar "in")] (* 306-311 *);
  Fn "BYTE_TO_LINT" [("in", T_BYTE)] T_LINT [SAssign (EVar "in")] (* 318-323 *);
  Fn "BYTE_TO_DINT" [("in", T_BYTE)] T_DINT [SAssign (EVar "in")] (* 330-335 *);
  Fn "BYTE_TO_INT" [("in", T_BYTE)] T_INT [SAssign (EVar "in")] (* 342-347 *);
  Fn "BYTE_TO_SINT" [("in", T_BYTE)] T_SINT [SAssign (EVar "in")] (* 354-359 *);
  Fn "BYTE_TO_ULINT" [("in", T_BYTE)] T_ULINT [SAssign (EVar "in")] (* 366-371 *);
  Fn "BYTE_TO_UDINT" [("in", T_BYTE)] T_UDINT [SAssign (EVar "in")] (* 378-383 *);
  Fn "BYTE_TO_UINT" [("in", T_BYTE)] T_UINT [SAssign (EVar "in")] (* 390-395 *);
  Fn "BYTE_TO_USINT" [("in", T_BYTE)] T_USINT [SAssign (EVar "in")] (* 402-407 *);
  Fn "BOOL_TO_LINT" [("in", T_BOOL)] T_LINT [SAssign (EVar "in")] (* 414-419 *);
  Fn "BOOL_TO_DINT" [("in", T_BOOL)] T_DINT [SAssign (EVar "in")] (* 426-431 *);
  Fn "BOOL_TO_INT" [("in", T_BOOL)] T_INT [SAssign (EVar "in")] (* 438-443 *);
  Fn "BOOL_TO_SINT" [("in", T_BOOL)] T_SINT [SAssign (EVar "in")] (* 450-455 *);
  Fn "BOOL_TO_ULINT" [("in", T_BOOL)] T_ULINT [SAssign (EVar "in")] (* 462-467 *);
  Fn "BOOL_TO_UDINT" [("in", T_BOOL)] T_UDINT [SAssign (EVar "in")] (* 474-479 *);
  Fn "BOOL_TO_UINT" [("in", T_BOOL)] T_UINT [SAssign (EVar "in")] (* 486-491 *);
  Fn "BOOL_TO_USINT" [("in", T_BOOL)] T_USINT [SAssign (EVar "in")] (* 498-503 *);
  Fn "LINT_TO_LWORD" [("in", T_LINT)] T_LWORD [SAssign (EVar "in")] (* 534-539 *);
  Fn "LINT_TO_DWORD" [("in", T_LINT)] T_DWORD [SAssign (EVar "in")] (* 546-551 *);
  Fn "LINT_TO_WORD" [("in", T_LINT)] T_WORD [SAssign (EVar "in")] (* 558-563 *);
  Fn "LINT_TO_BYTE" [("in", T_LINT)] T_BYTE [SAssign (EVar "in")] (* 570-575 *);
  Fn "DINT_TO_LWORD" [("in", T_DINT)] T_LWORD [SAssign (EVar "in")] (* 582-587 *);
  Fn "DINT_TO_DWORD" [("in", T_DINT)] T_DWORD [SAssign (EVar "in")] (* 594-599 *);
  Fn "DINT_TO_WORD" [("in", T_DINT)] T_WORD [SAssign (EVar "in")] (* 606-611 *);
  Fn "DINT_TO_BYTE" [("in", T_DINT)] T_BYTE [SAssign (EVar "in")] (* 618-623 *);
  Fn "INT_TO_LWORD" [("in", T_INT)] T_LWORD [SAssign (EVar "in")] (* 630-635 *);
  Fn "INT_TO_DWORD" [("in", T_INT)] T_DWORD [SAssign (EVar "in")] (* 642-647 *);
  Fn "INT_TO_WORD" [("in", T_INT)] T_WORD [SAssign (EVar "in")] (* 654-659 *);
  Fn "INT_TO_BYTE" [("in", T_INT)] T_BYTE [SAssign (EVar "in")] (* 666-671 *);
  Fn "SINT_TO_LWORD" [("in", T_SINT)] T_LWORD [SAssign (EVar "in")] (* 678-683 *);
  Fn "SINT_TO_DWORD" [("in", T_SINT)] T_DWORD [SAssign (EVar "in")] (* 690-695 *);
  Fn "SINT_TO_WORD" [("in", T_SINT)] T_WORD [SAssign (EVar "in")] (* 702-707 *);
  Fn "SINT_TO_BYTE" [("in", T_SINT)] T_BYTE [SAssign (EVar "in")] (* 714-719 *);
  Fn "ULINT_TO_LWORD" [("in", T_ULINT)] T_LWORD [SAssign (EVar "in")] (* 726-731 *);
  Fn "ULINT_TO_DWORD" [("in", T_ULINT)] T_DWORD [SAssign (EVar "in")] (* 738-743 *);
  Fn "ULINT_TO_WORD" [("in", T_ULINT)] T_WORD [SAssign (EVar "in")] (* 750-755 *);
  Fn "ULINT_TO_BYTE" [("in", T_ULINT)] T_BYTE [SAssign (EVar "in")] (* 762-767 *);
  Fn "UDINT_TO_LWORD" [("in", T_UDINT)] T_LWORD [SAssign (EVar "in")] (* 774-779 *);
  Fn "UDINT_TO_DWORD" [("in", T_UDINT)] T_DWORD [SAssign (EVar "in")] (* 786-791 *);
  Fn "UDINT_TO_WORD" [("in", T_UDINT)] T_WORD [SAssign (EVar "in")] (* 798-803 *);
  Fn "UDINT_TO_BYTE" [("in", T_UDINT)] T_BYTE [SAssign (EVar "in")] (* 810-815 *);
  Fn "UINT_TO_LWORD" [("in", T_UINT)] T_LWORD [SAssign (EVar "in")] (* 822-827 *);
  Fn "UINT_TO_DWORD" [("in", T_UINT)] T_DWORD [SAssign (EVar "in")] (* 834-839 *);
  Fn "UINT_TO_WORD" [("in", T_UINT)] T_WORD [SAssign (EVar "in")] (* 846-851 *);
  Fn "UINT_TO_BYTE" [("in", T_UINT)] T_BYTE [SAssign (EVar "in")] (* 858-863 *);
  Fn "USINT_TO_LWORD" [("in", T_USINT)] T_LWORD [SAssign (EVar "in")] (* 870-875 *);
  Fn "USINT_TO_DWORD" [("in", T_USINT)] T_DWORD [SAssign (EVar "in")] (* 882-887 *);
  Fn "USINT_TO_WORD" [("in", T_USINT)] T_WORD [SAssign (EVar "in")] (* 894-899 *);
  Fn "USINT_TO_BYTE" [("in", T_USINT)] T_BYTE [SAssign (EVar "in")] (* 906-911 *);
  (* /repo/iec61131-st/numerical_functions.st *)
  Fn "ABS__DINT" [("in", T_DINT)] T_DINT [SAssign (EVar "in"); SIf (ECmp CLt ERet (ELit 0)) [SAssign (EMul (ELit (-1)) ERet)] []] (* 15-23 *);
  Fn "ABS__SINT" [("in", T_SINT)] T_SINT [SAssign (ECall "ABS__DINT" [EVar "in"])] (* 26-31 *);
  Fn "ABS__INT" [("in", T_INT)] T_INT [SAssign (ECall "ABS__DINT" [EVar "in"])] (* 34-39 *);
  Fn "ABS__LINT" [("in", T_LINT)] T_LINT [SAssign (EVar "in"); SIf (ECmp CLt ERet (ELit 0)) [SAssign (EMul (ELit (-1)) ERet)] []] (* 42-50 *);
  Fn "ABS__REAL" [("in", T_REAL)] T_REAL [SAssign (ECall "ABS__LREAL" [EVar "in"])] (* 53-58 *);
  Fn "ABS__LREAL" [("in", T_LREAL)] T_LREAL [SAssign (EVar "in"); SIf (ECmp CLt ERet (ELit 0)) [SAssign (EMul (ELitR (-1)) ERet)] []] (* 61-69 *);
  (* /repo/iec61131-st/arithmetic_functions.st *)
  Fn "EXPT__REAL__USINT" [("in1", T_REAL); ("in2", T_USINT)] T_REAL [SAssign (ECall "EXPT__REAL__DINT" [EVar "in1"; EVar "in2"])] (* 170-176 *);
  Fn "EXPT__REAL__UINT" [("in1", T_REAL); ("in2", T_UINT)] T_REAL [SAssign (ECall "EXPT__REAL__DINT" [EVar "in1"; EVar "in2"])] (* 178-184 *);
  Fn "EXPT__REAL__UDINT" [("in1", T_REAL); ("in2", T_UDINT)] T_REAL [SAssign (ECall "EXPT__REAL__DINT" [EVar "in1"; EVar "in2"])] (* 186-192 *);
  Fn "EXPT__REAL__ULINT" [("in1", T_REAL); ("in2", T_ULINT)] T_REAL [SAssign (ECall "EXPT__REAL__DINT" [EVar "in1"; EVar "in2"])] (* 194-200 *);
  Fn "EXPT__REAL__SINT" [("in1", T_REAL); ("in2", T_SINT)] T_REAL [SAssign (ECall "EXPT__REAL__DINT" [EVar "in1"; EVar "in2"])] (* 202-208 *);
  Fn "EXPT__REAL__INT" [("in1", T_REAL); ("in2", T_INT)] T_REAL [SAssign (ECall "EXPT__REAL__DINT" [EVar "in1"; EVar "in2"])] (* 210-216 *);
  Fn "EXPT__REAL__LINT" [("in1", T_REAL); ("in2", T_LINT)] T_REAL [SAssign (ECall "EXPT__REAL__DINT" [EVar "in1"; EVar "in2"])] (* 218-224 *);
  Fn "EXPT__LREAL__USINT" [("in1", T_LREAL); ("in2", T_USINT)] T_LREAL [SAssign (ECall "EXPT__LREAL__DINT" [EVar "in1"; EVar "in2"])] (* 226-232 *);
  Fn "EXPT__LREAL__UINT" [("in1", T_LREAL); ("in2", T_UINT)] T_LREAL [SAssign (ECall "EXPT__LREAL__DINT" [EVar "in1"; EVar "in2"])] (* 234-240 *);
  Fn "EXPT__LREAL__UDINT" [("in1", T_LREAL); ("in2", T_UDINT)] T_LREAL [SAssign (ECall "EXPT__LREAL__DINT" [EVar "in1"; EVar "in2"])] (* 242-248 *);
  Fn "EXPT__LREAL__ULINT" [("in1", T_LREAL); ("in2", T_ULINT)] T_LREAL [SAssign (ECall "EXPT__LREAL__DINT" [EVar "in1"; EVar "in2"])] (* 250-256 *);
  Fn "EXPT__LREAL__SINT" [("in1", T_LREAL); ("in2", T_SINT)] T_LREAL [SAssign (ECall "EXPT__LREAL__DINT" [EVar "in1"; EVar "in2"])] (* 258-264 *);
  Fn "EXPT__LREAL__INT" [("in1", T_LREAL); ("in2", T_INT)] T_LREAL [SAssign (ECall "EXPT__LREAL__DINT" [EVar "in1"; EVar "in2"])] (* 266-272 *);
  Fn "EXPT__LREAL__LINT" [("in1", T_LREAL); ("in2", T_LINT)] T_LREAL [SAssign (ECall "EXPT__LREAL__DINT" [EVar "in1"; EVar "in2"])] (* 274-280 *);
  (* /repo/iec61131-st/extra_functions.st *)
  Fn "TOD_TO_LWORD" [("in", T_TOD)] T_LWORD [SAssign (EVar "in")] (* 406-411 *);
  Fn "LTOD_TO_LWORD" [("in", T_TOD)] T_LWORD [SAssign (EVar "in")] (* 413-418 *);
  Fn "DT_TO_LWORD" [("in", T_DT)] T_LWORD [SAssign (EVar "in")] (* 425-430 *);
  Fn "LDT_TO_LWORD" [("in", T_DT)] T_LWORD [SAssign (EVar "in")] (* 432-437 *);
  Fn "DATE_TO_LWORD" [("in", T_DATE)] T_LWORD [SAssign (EVar "in")] (* 444-449 *);
  Fn "LDATE_TO_LWORD" [("in", T_DATE)] T_LWORD [SAssign (EVar "in")] (* 451-456 *);
  Fn "TIME_TO_LWORD" [("in", T_TIME)] T_LWORD [SAssign (EVar "in")] (* 463-468 *);
  Fn "LTIME_TO_LWORD" [("in", T_TIME)] T_LWORD [SAssign (EVar "in")] (* 470-475 *);
  Fn "TIME_TO_LINT" [("in", T_TIME)] T_LINT [SAssign (EVar "in")] (* 510-515 *);
  Fn "LTIME_TO_LINT" [("in", T_TIME)] T_LINT [SAssign (EVar "in")] (* 517-522 *);
  Fn "TOD_TO_LINT" [("in", T_TOD)] T_LINT [SAssign (EVar "in")] (* 529-534 *);
  Fn "LTOD_TO_LINT" [("in", T_TOD)] T_LINT [SAssign (EVar "in")] (* 536-541 *);
  Fn "DT_TO_LINT" [("in", T_DT)] T_LINT [SAssign (EVar "in")] (* 548-553 *);
  Fn "LDT_TO_LINT" [("in", T_DT)] T_LINT [SAssign (EVar "in")] (* 555-560 *);
  Fn "DATE_TO_LINT" [("in", T_DATE)] T_LINT [SAssign (EVar "in")] (* 567-572 *);
  Fn "LDATE_TO_LINT" [("in", T_DATE)] T_LINT [SAssign (EVar "in")] (* 574-579 *);
  Fn "DT_TO_ULINT" [("in", T_DT)] T_ULINT [SAssign (EVar "in")] (* 586-591 *);
  Fn "LDT_TO_ULINT" [("in", T_DT)] T_ULINT [SAssign (EVar "in")] (* 593-598 *);
  Fn "TIME_TO_ULINT" [("in", T_TIME)] T_ULINT [SAssign (EVar "in")] (* 605-610 *);
  Fn "LTIME_TO_ULINT" [("in", T_TIME)] T_ULINT [SAssign (EVar "in")] (* 612-617 *);
  Fn "DATE_TO_ULINT" [("in", T_DATE)] T_ULINT [SAssign (EVar "in")] (* 624-629 *);
  Fn "LDATE_TO_ULINT" [("in", T_DATE)] T_ULINT [SAssign (EVar "in")] (* 631-636 *);
  Fn "TOD_TO_ULINT" [("in", T_TOD)] T_ULINT [SAssign (EVar "in")] (* 643-648 *);
  Fn "LTOD_TO_ULINT" [("in", T_TOD)] T_ULINT [SAssign (EVar "in")] (* 650-655 *);
  Fn "TIME_TO_LREAL" [("in", T_TIME)] T_LREAL [SAssign (EVar "in")] (* 747-752 *);
  Fn "LTIME_TO_LREAL" [("in", T_TIME)] T_LREAL [SAssign (EVar "in")] (* 754-759 *);
  Fn "LREAL_TO_TIME" [("in", T_LREAL)] T_TIME [SAssign (ECall "ROUND__LREAL" [EVar "in"])] (* 766-772 *);
  Fn "LREAL_TO_LTIME" [("in", T_LREAL)] T_TIME [SAssign (ECall "ROUND__LREAL" [EVar "in"])] (* 774-779 *);
  Fn "LWORD_TO_DATE" [("in", T_LWORD)] T_DATE [SAssign (EVar "in")] (* 786-791 *);
  Fn "LWORD_TO_LDATE" [("in", T_LWORD)] T_DATE [SAssign (EVar "in")] (* 793-798 *);
  Fn "LWORD_TO_DT" [("in", T_LWORD)] T_DT [SAssign (EVar "in")] (* 805-810 *);
  Fn "LWORD_TO_LDT" [("in", T_LWORD)] T_DT [SAssign (EVar "in")] (* 812-817 *);
  Fn "LWORD_TO_TOD" [("in", T_LWORD)] T_TOD [SAssign (EVar "in")] (* 824-829 *);
  Fn "LWORD_TO_LTOD" [("in", T_LWORD)] T_TOD [SAssign (EVar "in")] (* 831-836 *);
  Fn "LWORD_TO_TIME" [("in", T_LWORD)] T_TIME [SAssign (EVar "in")] (* 843-848 *);
  Fn "LWORD_TO_LTIME" [("in", T_LWORD)] T_TIME [SAssign (EVar "in")] (* 850-855 *);
  Fn "ULINT_TO_DATE" [("in", T_ULINT)] T_DATE [SAssign (EVar "in")] (* 862-867 *);
  Fn "ULINT_TO_LDATE" [("in", T_ULINT)] T_DATE [SAssign (EVar "in")] (* 869-874 *);
  Fn "ULINT_TO_DT" [("in", T_ULINT)] T_DT [SAssign (EVar "in")] (* 881-886 *);
  Fn "ULINT_TO_LDT" [("in", T_ULINT)] T_DT [SAssign (EVar "in")] (* 888-893 *);
  Fn "ULINT_TO_TOD" [("in", T_ULINT)] T_TOD [SAssign (EVar "in")] (* 900-905 *);
  Fn "ULINT_TO_LTOD" [("in", T_ULINT)] T_TOD [SAssign (EVar "in")] (* 907-912 *);
  Fn "ULINT_TO_TIME" [("in", T_ULINT)] T_TIME [SAssign (EVar "in")] (* 919-924 *);
  Fn "ULINT_TO_LTIME" [("in", T_ULINT)] T_LTIME [SAssign (EVar "in")] (* 926-931 *);
  Fn "LINT_TO_TIME" [("in", T_LINT)] T_TIME [SAssign (EVar "in")] (* 938-943 *);
  Fn "LINT_TO_LTIME" [("in", T_LINT)] T_TIME [SAssign (EVar "in")] (* 945-950 *);
  Fn "LINT_TO_TOD" [("in", T_LINT)] T_TOD [SAssign (EVar "in")] (* 957-962 *);
  Fn "LINT_TO_LTOD" [("in", T_LINT)] T_TOD [SAssign (EVar "in")] (* 964-969 *);
  Fn "LINT_TO_DATE" [("in", T_LINT)] T_DATE [SAssign (EVar "in")] (* 976-981 *);
  Fn "LINT_TO_LDATE" [("in", T_LINT)] T_DATE [SAssign (EVar "in")] (* 983-988 *);
  Fn "LINT_TO_BOOL" [("in", T_LINT)] T_BOOL [SIf (ECmp CEq (EVar "in") (ELit 0)) [SAssign (EBool false)] [SAssign (EBool true)]] (* 995-1004 *);
  Fn "DINT_TO_BOOL" [("in", T_DINT)] T_BOOL [SAssign (ECall "LINT_TO_BOOL" [EVar "in"])] (* 1011-1016 *);
  Fn "TRUNC__REAL" [("in", T_REAL)] T_LINT [SAssign (EVar "in")] (* 1029-1034 *);
  Fn "TRUNC__LREAL" [("in", T_LREAL)] T_LINT [SAssign (EVar "in")] (* 1036-1041 *);
  (* /repo/iec61131-st/date_time_conversion.st *)
  Fn "LTIME_TO_TIME" [("in", T_LTIME)] T_TIME [SAssign (EVar "in")] (* 30-35 *);
  Fn "TIME_TO_LTIME" [("in", T_TIME)] T_LTIME [SAssign (EVar "in")] (* 42-47 *);
  Fn "LDT_TO_DT" [("in", T_LDT)] T_DT [SAssign (EVar "in")] (* 54-59 *);
  Fn "LDT_TO_DATE" [("in", T_LDT)] T_DATE [SAssign (ECall "DATE_AND_TIME_TO_DATE" [EVar "in"])] (* 66-71 *);
  Fn "LDT_TO_LTOD" [("in", T_LDT)] T_LTOD [SAssign (ECall "DATE_AND_TIME_TO_TIME_OF_DAY" [EVar "in"])] (* 78-83 *);
  Fn "LDT_TO_TOD" [("in", T_LDT)] T_TOD [SAssign (ECall "DATE_AND_TIME_TO_TIME_OF_DAY" [EVar "in"])] (* 90-95 *);
  Fn "DT_TO_LDT" [("in", T_DT)] T_LDT [SAssign (EVar "in")] (* 102-107 *);
  Fn "DT_TO_DATE" [("in", T_DT)] T_DATE [SAssign (ECall "DATE_AND_TIME_TO_DATE" [EVar "in"])] (* 114-119 *);
  Fn "DT_TO_LTOD" [("in", T_DT)] T_LTOD [SAssign (ECall "DATE_AND_TIME_TO_TIME_OF_DAY" [EVar "in"])] (* 126-131 *);
  Fn "DT_TO_TOD" [("in", T_DT)] T_TOD [SAssign (ECall "DATE_AND_TIME_TO_TIME_OF_DAY" [EVar "in"])] (* 138-143 *);
  Fn "LTOD_TO_TOD" [("in", T_LTOD)] T_TOD [SAssign (EVar "in")] (* 150-155 *);
  Fn "TOD_TO_LTOD" [("in", T_TOD)] T_LTOD [SAssign (EVar "in")]  (* 162-167 *)
].

(** The function of a name in /repo/iec61131-st/*.st. *)
Definition find_fun (n : string) : option st_fun :=
  find (fun f => String.eqb (fn_name f) n) st_functions.
(** The external function of a name, e.g. /repo/iec61131-st/numerical_functions.st:77-82. *)
Definition find_ext (n : string) : option st_ext :=
  find (fun e => String.eqb (ex_name e) n) externals.

(** Bindings of the input variables of a running function.  VAR_INPUT, e.g.
    /repo/iec61131-st/num_conversion.st:6-11. *)
Definition env := list (string * (st_ty * val)).
(** Reading an input variable, e.g. /repo/iec61131-st/num_conversion.st:10. *)
Definition lookup (x : string) (r : env) : outcome (st_ty * val) :=
  match find (fun p => String.eqb (fst p) x) r with Some (_, b) => Ok b | None => Ub end.

(** Initial value of a result variable.  E.g. of /repo/iec61131-st/numerical_functions.st:18-22. *)
Definition st_zero (t : st_ty) : val :=
  match t with TFloat _ => VFl (FNum (S754_zero false)) | _ => VInt 0 end.

(** Argument passing, e.g. /repo/iec61131-st/num_conversion.st:18-23. *)
Fixpoint cast_all (from : list (st_ty * val)) (to : list st_ty) : outcome (list val) :=
  match from, to with
  | [], [] => Ok []
  | (s, v) :: from', t :: to' =>
      let! w := st_cast s t v in let! ws := cast_all from' to' in Ok (w :: ws)
  | _, _ => Ub
  end.

(** Expressions, given how calls behave ([call name actuals] returns declared type and value).  E.g.
    /repo/iec61131-st/bit_conversion.st:46, 206, /repo/iec61131-st/numerical_functions.st:20-21. *)
Fixpoint st_expr (call : string -> list (st_ty * val) -> outcome (st_ty * val))
    (r : env) (ret : st_ty * val) (e : expr) : outcome (st_ty * val) :=
  match e with
  | EVar x => lookup x r
  | ERet => Ok ret
  | ELit z => Ok (TInt i32, VInt z)
  | ELitR z => Ok (TFloat F32, VFl (FNum (f_of_int F32 z)))
  | EBool b => Ok (TBool, VInt (if b then 1 else 0))
  | EBit x n =>
      let! '(_, v) := lookup x r in
      match v with VInt z => Ok (TBool, VInt ((z / 2 ^ n) mod 2)) | VFl _ => Ub end
  | EDeref t x =>
      let! '(_, v) := lookup x r in
      match t, v with TInt i, VInt z => Ok (t, VInt (wrap i z)) | _, _ => Ub end
  | ECmp c a b =>
      let! '(s, x) := st_expr call r ret a in
      let! '(t, y) := st_expr call r ret b in
      let k := st_common s t in
      let! x' := st_cast s k x in
      let! y' := st_cast t k y in
      let! q := st_compare c x' y' in Ok (TBool, VInt (if q then 1 else 0))
  | EMul a b =>
      let! '(s, x) := st_expr call r ret a in
      let! '(t, y) := st_expr call r ret b in
      let k := st_common s t in
      let! x' := st_cast s k x in
      let! y' := st_cast t k y in
      let! z := st_mul k x' y' in Ok (k, z)
  | ECall f args =>
      let! l := (fix go l := match l with
                 | [] => Ok []
                 | a :: l' => let! b := st_expr call r ret a in let! bs := go l' in Ok (b :: bs)
                 end) args in
      call f l
  end.

(** Statements: the value of the result variable after execution.  E.g.
    /repo/iec61131-st/bit_conversion.st:218-222, /repo/iec61131-st/numerical_functions.st:18-22. *)
Fixpoint st_stmt (ev : st_ty * val -> expr -> outcome (st_ty * val)) (t : st_ty) (s : stmt)
    (ret : val) : outcome val :=
  match s with
  | SAssign e => let! '(u, v) := ev (t, ret) e in st_cast u t v
  | SIf c th el =>
      let! '(_, v) := ev (t, ret) c in
      let go := fix go (l : list stmt) (ret : val) : outcome val :=
        match l with [] => Ok ret | s' :: l' => let! r' := st_stmt ev t s' ret in go l' r' end in
      match v with VInt 0 => go el ret | _ => go th ret end
  end.
(** A list of statements, e.g. /repo/iec61131-st/bit_conversion.st:218-222. *)
Fixpoint st_block (ev : st_ty * val -> expr -> outcome (st_ty * val)) (t : st_ty) (l : list stmt)
    (ret : val) : outcome val :=
  match l with [] => Ok ret | s :: l' => let! r := st_stmt ev t s ret in st_block ev t l' r end.

(** Calls.  [fuel] bounds the call depth; the functions above never nest deeper than two.  E.g.
    /repo/iec61131-st/num_conversion.st:18-23. *)
Fixpoint st_call_fuel (fuel : nat) (v : chrono) (n : string) (actuals : list (st_ty * val))
    : outcome (st_ty * val) :=
  match fuel with
  | O => Ub
  | S k =>
      match find_fun n, find_ext n with
      | Some f, _ =>
          let! l := cast_all actuals (map snd (fn_args f)) in
          let r := combine (map fst (fn_args f)) (combine (map snd (fn_args f)) l) in
          let! x := st_block (st_expr (st_call_fuel k v) r) (fn_ret f) (fn_body f)
                             (st_zero (fn_ret f)) in
          Ok (fn_ret f, x)
      | None, Some e =>
          let! l := cast_all actuals (ex_args e) in
          let! x := ex_sem e v l in
          Ok (ex_ret e, x)
      | None, None => Ub
      end
  end.

(** A program calls function [n] with actual parameters of the declared types.
    /repo/iec61131-st/num_conversion.st, bit_conversion.st, bit_num_conversion.st and the other
    files of [st_functions]. *)
Definition st_call (v : chrono) (n : string) (args : list val) : outcome val :=
  let tys := match find_fun n, find_ext n with
             | Some f, _ => map snd (fn_args f) | None, Some e => ex_args e | _, _ => [] end in
  let! '(_, r) := st_call_fuel 3 v n (combine tys args) in Ok r.
