(** The interface between the Structured Text declarations in /repo/iec61131-st/*.st and the
    symbols exported by the Rust code in /repo/src/*.rs, and the ST functions that only call
    another function.

    Function blocks (FUNCTION_BLOCK) are in ModelLayout.v; their Rust functions take a single
    pointer to the instance ([Inst]).  The macros of /repo/src/types.rs and
    /repo/src/endianness_conversion_functions.rs are listed expanded, with the line of the macro
    call.  Lengths of STRING types are left out. *)
From Coq Require Import String ZArith List Bool.
From Verif Require Import Base.
Import ListNotations.
Open Scope list_scope.
Open Scope string_scope.

(** Rust types in signatures; [Ptr true] is [*mut T] or [&mut T], [Ptr false] is [*const T] or [&T];
    [Inst] is a function block instance.  Signatures of /repo/src/*.rs, lines in [rust_symbols]. *)
Inductive rty := U8 | U16 | U32 | U64 | I8 | I16 | I32 | I64 | RF32 | RF64 | RBool | Unit | Inst
  | Ptr (mutable : bool) (t : rty).
(** A [#[no_mangle]] function: name, whether it is declared [extern "C"], parameters, result.
    /repo/src/*.rs, lines in [rust_symbols]. *)
Record symbol := Sym { sy_name : string; sy_c : bool; sy_params : list rty; sy_ret : rty }.

(** ST types, and the generic type classes of IEC 61131-3 used in the declarations.
    /repo/iec61131-st/*.st, lines in [st_decls]. *)
Inductive sty := S_BOOL | S_BYTE | S_WORD | S_DWORD | S_LWORD | S_SINT | S_INT | S_DINT | S_LINT
  | S_USINT | S_UINT | S_UDINT | S_ULINT | S_REAL | S_LREAL | S_CHAR | S_WCHAR | S_TIME | S_LTIME
  | S_DATE | S_LDATE | S_TOD | S_LTOD | S_DT | S_LDT | S_STRING | S_WSTRING.
(** The generic type classes, e.g. /repo/iec61131-st/selectors.st:40,
    /repo/iec61131-st/string_functions.st:12. *)
Inductive class := ANY | ANY_ELEMENTARY | ANY_NUM | ANY_INT | ANY_REAL | ANY_BIT | ANY_STRING.
(** A type in a declaration: a type or the variable of a generic function, e.g.
    /repo/iec61131-st/selectors.st:40-44. *)
Inductive tyref := Ty (t : sty) | Var (x : string).
(** VAR_INPUT, VAR_INPUT {ref}, VAR_OUTPUT, VAR_IN_OUT, and the variadic {sized} T... of VAR_INPUT
    and VAR_INPUT {ref}.  E.g. /repo/iec61131-st/string_functions.st:11-15,
    /repo/iec61131-st/selectors.st:11, 25. *)
Inductive pkind := Input | InputRef | Output | InOut | Sized | SizedRef.
(** Bodies: none; [F := e]; a call statement [e]; anything else (modelled in ModelST.v and
    ModelExtra.v).  E.g. /repo/iec61131-st/extra_functions.st:6-18. *)
Inductive expr := Arg (x : string) | Result | Call (f : string) (args : list expr).
(** The body of a function as far as [st_decls] records it (/repo/iec61131-st/*.st). *)
Inductive body := Empty | Assign (e : expr) | Do (e : expr) | Other.
(** A FUNCTION: name, {external}, type parameters, result, parameters, body.
    /repo/iec61131-st/*.st, lines in [st_decls]. *)
Record decl := Decl { d_name : string; d_external : bool; d_generic : list (string * class);
                      d_ret : tyref; d_params : list (string * pkind * tyref); d_body : body }.

(** The exported symbols of /repo/src/*.rs, in source order; the line of the [fn]. *)
Definition rust_symbols : list symbol := [
  (* /repo/src/arithmetic_functions.rs *)
  Sym "SQRT__REAL" true [RF32] RF32; (* 23 *)
  Sym "SQRT__LREAL" true [RF64] RF64; (* 32 *)
  Sym "LN__REAL" true [RF32] RF32; (* 41 *)
  Sym "LN__LREAL" true [RF64] RF64; (* 50 *)
  Sym "LOG__REAL" true [RF32] RF32; (* 59 *)
  Sym "LOG__LREAL" true [RF64] RF64; (* 68 *)
  Sym "EXP__REAL" true [RF32] RF32; (* 77 *)
  Sym "EXP__LREAL" true [RF64] RF64; (* 86 *)
  Sym "SIN__REAL" true [RF32] RF32; (* 96 *)
  Sym "SIN__LREAL" true [RF64] RF64; (* 105 *)
  Sym "COS__REAL" true [RF32] RF32; (* 114 *)
  Sym "COS__LREAL" true [RF64] RF64; (* 123 *)
  Sym "TAN__REAL" true [RF32] RF32; (* 132 *)
  Sym "TAN__LREAL" true [RF64] RF64; (* 141 *)
  Sym "ASIN__REAL" true [RF32] RF32; (* 150 *)
  Sym "ASIN__LREAL" true [RF64] RF64; (* 159 *)
  Sym "ACOS__REAL" true [RF32] RF32; (* 168 *)
  Sym "ACOS__LREAL" true [RF64] RF64; (* 178 *)
  Sym "ATAN__REAL" true [RF32] RF32; (* 187 *)
  Sym "ATAN__LREAL" true [RF64] RF64; (* 196 *)
  Sym "ATAN2__REAL" true [RF32; RF32] RF32; (* 206 *)
  Sym "ATAN2__LREAL" true [RF64; RF64] RF64; (* 215 *)
  Sym "EXPT__REAL__DINT" true [RF32; I32] RF32; (* 221 *)
  Sym "EXPT__LREAL__DINT" true [RF64; I32] RF64; (* 227 *)
  Sym "EXPT__REAL__REAL" true [RF32; RF32] RF32; (* 233 *)
  Sym "EXPT__REAL__LREAL" true [RF32; RF64] RF32; (* 239 *)
  Sym "EXPT__LREAL__REAL" true [RF64; RF32] RF64; (* 247 *)
  Sym "EXPT__LREAL__LREAL" true [RF64; RF64] RF64; (* 254 *)
  (* /repo/src/bistable_functionblocks.rs *)
  Sym "SR" true [Ptr true Inst] Unit; (* 23 *)
  Sym "RS" true [Ptr true Inst] Unit; (* 35 *)
  (* /repo/src/bit_num_conversion.rs *)
  Sym "LWORD_TO_LREAL" true [U64] RF64; (* 6 *)
  Sym "DWORD_TO_REAL" true [U32] RF32; (* 15 *)
  Sym "LREAL_TO_LWORD" true [RF64] U64; (* 24 *)
  Sym "REAL_TO_DWORD" true [RF32] U32; (* 33 *)
  (* /repo/src/bit_shift_functions.rs *)
  Sym "SHL__BYTE" false [U8; U32] U8; (* 6 *)
  Sym "SHL__WORD" false [U16; U32] U16; (* 13 *)
  Sym "SHL__DWORD" false [U32; U32] U32; (* 20 *)
  Sym "SHL__LWORD" false [U64; U32] U64; (* 27 *)
  Sym "SHR__BYTE" false [U8; U32] U8; (* 34 *)
  Sym "SHR__WORD" false [U16; U32] U16; (* 41 *)
  Sym "SHR__DWORD" false [U32; U32] U32; (* 48 *)
  Sym "SHR__LWORD" false [U64; U32] U64; (* 55 *)
  Sym "ROL__BYTE" false [U8; U32] U8; (* 62 *)
  Sym "ROL__WORD" false [U16; U32] U16; (* 69 *)
  Sym "ROL__DWORD" false [U32; U32] U32; (* 76 *)
  Sym "ROL__LWORD" false [U64; U32] U64; (* 83 *)
  Sym "ROR__BYTE" false [U8; U32] U8; (* 90 *)
  Sym "ROR__WORD" false [U16; U32] U16; (* 97 *)
  Sym "ROR__DWORD" false [U32; U32] U32; (* 104 *)
  Sym "ROR__LWORD" false [U64; U32] U64; (* 111 *)
  (* /repo/src/counters.rs *)
  Sym "CTU" true [Ptr true Inst] Unit; (* 57 *)
  Sym "CTU_INT" true [Ptr true Inst] Unit; (* 69 *)
  Sym "CTU_DINT" true [Ptr true Inst] Unit; (* 81 *)
  Sym "CTU_UDINT" true [Ptr true Inst] Unit; (* 93 *)
  Sym "CTU_LINT" true [Ptr true Inst] Unit; (* 105 *)
  Sym "CTU_ULINT" true [Ptr true Inst] Unit; (* 117 *)
  Sym "CTD" true [Ptr true Inst] Unit; (* 173 *)
  Sym "CTD_INT" true [Ptr true Inst] Unit; (* 185 *)
  Sym "CTD_DINT" true [Ptr true Inst] Unit; (* 197 *)
  Sym "CTD_UDINT" true [Ptr true Inst] Unit; (* 209 *)
  Sym "CTD_LINT" true [Ptr true Inst] Unit; (* 221 *)
  Sym "CTD_ULINT" true [Ptr true Inst] Unit; (* 233 *)
  Sym "CTUD" true [Ptr true Inst] Unit; (* 320 *)
  Sym "CTUD_INT" true [Ptr true Inst] Unit; (* 332 *)
  Sym "CTUD_DINT" true [Ptr true Inst] Unit; (* 344 *)
  Sym "CTUD_UDINT" true [Ptr true Inst] Unit; (* 356 *)
  Sym "CTUD_LINT" true [Ptr true Inst] Unit; (* 368 *)
  Sym "CTUD_ULINT" true [Ptr true Inst] Unit; (* 380 *)
  (* /repo/src/date_time_conversion.rs *)
  Sym "DATE_AND_TIME_TO_DATE" true [I64] I64; (* 8 *)
  Sym "DATE_AND_TIME_TO_TIME_OF_DAY" true [I64] I64; (* 23 *)
  (* /repo/src/date_time_extra_functions.rs *)
  Sym "CONCAT_DATE_TOD" true [I64; I64] I64; (* 8 *)
  Sym "CONCAT_DATE__INT" true [I16; I16; I16] I64; (* 26 *)
  Sym "CONCAT_DATE__UINT" true [U16; U16; U16] I64; (* 35 *)
  Sym "CONCAT_DATE__DINT" true [I32; I32; I32] I64; (* 44 *)
  Sym "CONCAT_DATE__UDINT" true [U32; U32; U32] I64; (* 53 *)
  Sym "CONCAT_DATE__LINT" true [I64; I64; I64] I64; (* 62 *)
  Sym "CONCAT_DATE__ULINT" true [U64; U64; U64] I64; (* 71 *)
  Sym "concat_date" true [I32; U32; U32] I64; (* 80 *)
  Sym "CONCAT_TOD__SINT" true [I8; I8; I8; I8] I64; (* 92 *)
  Sym "CONCAT_TOD__USINT" true [U8; U8; U8; U8] I64; (* 101 *)
  Sym "CONCAT_TOD__INT" true [I16; I16; I16; I16] I64; (* 110 *)
  Sym "CONCAT_TOD__UINT" true [U16; U16; U16; U16] I64; (* 119 *)
  Sym "CONCAT_TOD__DINT" true [I32; I32; I32; I32] I64; (* 128 *)
  Sym "CONCAT_TOD__UDINT" true [U32; U32; U32; U32] I64; (* 137 *)
  Sym "CONCAT_TOD__LINT" true [I64; I64; I64; I64] I64; (* 146 *)
  Sym "CONCAT_TOD__ULINT" true [U64; U64; U64; U64] I64; (* 155 *)
  Sym "concat_tod" true [U32; U32; U32; U32] I64; (* 164 *)
  Sym "SPLIT_DATE__INT" true [I64; Ptr true I16; Ptr true I16; Ptr true I16] I16; (* 176 *)
  Sym "SPLIT_DATE__UINT" true [I64; Ptr true U16; Ptr true U16; Ptr true U16] I16; (* 192 *)
  Sym "SPLIT_DATE__DINT" true [I64; Ptr true I32; Ptr true I32; Ptr true I32] I16; (* 212 *)
  Sym "SPLIT_DATE__UDINT" true [I64; Ptr true U32; Ptr true U32; Ptr true U32] I16; (* 231 *)
  Sym "SPLIT_DATE__LINT" true [I64; Ptr true I64; Ptr true I64; Ptr true I64] I16; (* 251 *)
  Sym "SPLIT_DATE__ULINT" true [I64; Ptr true U64; Ptr true U64; Ptr true U64] I16; (* 272 *)
  Sym "SPLIT_TOD__INT" true [I64; Ptr true I16; Ptr true I16; Ptr true I16; Ptr true I16] I16; (* 292 *)
  Sym "SPLIT_TOD__UINT" true [I64; Ptr true U16; Ptr true U16; Ptr true U16; Ptr true U16] I16; (* 313 *)
  Sym "SPLIT_TOD__DINT" true [I64; Ptr true I32; Ptr true I32; Ptr true I32; Ptr true I32] I16; (* 334 *)
  Sym "SPLIT_TOD__UDINT" true [I64; Ptr true U32; Ptr true U32; Ptr true U32; Ptr true U32] I16; (* 355 *)
  Sym "SPLIT_TOD__LINT" true [I64; Ptr true I64; Ptr true I64; Ptr true I64; Ptr true I64] I16; (* 376 *)
  Sym "SPLIT_TOD__ULINT" true [I64; Ptr true U64; Ptr true U64; Ptr true U64; Ptr true U64] I16; (* 397 *)
  Sym "SPLIT_DT__INT" true [I64; Ptr true I16; Ptr true I16; Ptr true I16; Ptr true I16; Ptr true I16; Ptr true I16; Ptr true I16] I16; (* 418 *)
  Sym "SPLIT_DT__UINT" true [I64; Ptr true U16; Ptr true U16; Ptr true U16; Ptr true U16; Ptr true U16; Ptr true U16; Ptr true U16] I16; (* 446 *)
  Sym "SPLIT_DT__DINT" true [I64; Ptr true I32; Ptr true I32; Ptr true I32; Ptr true I32; Ptr true I32; Ptr true I32; Ptr true I32] I16; (* 474 *)
  Sym "SPLIT_DT__UDINT" true [I64; Ptr true U32; Ptr true U32; Ptr true U32; Ptr true U32; Ptr true U32; Ptr true U32; Ptr true U32] I16; (* 501 *)
  Sym "SPLIT_DT__LINT" true [I64; Ptr true I64; Ptr true I64; Ptr true I64; Ptr true I64; Ptr true I64; Ptr true I64; Ptr true I64] I16; (* 529 *)
  Sym "SPLIT_DT__ULINT" true [I64; Ptr true U64; Ptr true U64; Ptr true U64; Ptr true U64; Ptr true U64; Ptr true U64; Ptr true U64] I16; (* 557 *)
  Sym "DAY_OF_WEEK" true [I64] I8; (* 585 *)
  (* /repo/src/date_time_numeric_functions.rs *)
  Sym "ADD_TIME" true [I64; I64] I64; (* 9 *)
  Sym "ADD_TOD_TIME" true [I64; I64] I64; (* 23 *)
  Sym "ADD_DT_TIME" true [I64; I64] I64; (* 33 *)
  Sym "SUB_TIME" true [I64; I64] I64; (* 51 *)
  Sym "SUB_DATE_DATE" true [I64; I64] I64; (* 65 *)
  Sym "SUB_TOD_TIME" true [I64; I64] I64; (* 75 *)
  Sym "SUB_TOD_TOD" true [I64; I64] I64; (* 85 *)
  Sym "SUB_DT_TIME" true [I64; I64] I64; (* 103 *)
  Sym "SUB_DT_DT" true [I64; I64] I64; (* 121 *)
  Sym "MUL__TIME__SINT" true [I64; I8] I64; (* 131 *)
  Sym "MUL__TIME__INT" true [I64; I16] I64; (* 141 *)
  Sym "MUL__TIME__DINT" true [I64; I32] I64; (* 151 *)
  Sym "MUL__TIME__LINT" true [I64; I64] I64; (* 161 *)
  Sym "MUL_TIME__SINT" true [I64; I8] I64; (* 171 *)
  Sym "MUL_TIME__INT" true [I64; I16] I64; (* 181 *)
  Sym "MUL_TIME__DINT" true [I64; I32] I64; (* 191 *)
  Sym "MUL_TIME__LINT" true [I64; I64] I64; (* 201 *)
  Sym "MUL_LTIME__SINT" true [I64; I8] I64; (* 211 *)
  Sym "MUL_LTIME__INT" true [I64; I16] I64; (* 221 *)
  Sym "MUL_LTIME__DINT" true [I64; I32] I64; (* 231 *)
  Sym "MUL_LTIME__LINT" true [I64; I64] I64; (* 241 *)
  Sym "MUL__TIME__USINT" true [I64; U8] I64; (* 259 *)
  Sym "MUL__TIME__UINT" true [I64; U16] I64; (* 269 *)
  Sym "MUL__TIME__UDINT" true [I64; U32] I64; (* 279 *)
  Sym "MUL__TIME__ULINT" true [I64; U64] I64; (* 289 *)
  Sym "MUL_TIME__USINT" true [I64; U8] I64; (* 299 *)
  Sym "MUL_TIME__UINT" true [I64; U16] I64; (* 309 *)
  Sym "MUL_TIME__UDINT" true [I64; U32] I64; (* 319 *)
  Sym "MUL_TIME__ULINT" true [I64; U64] I64; (* 329 *)
  Sym "MUL_LTIME__USINT" true [I64; U8] I64; (* 339 *)
  Sym "MUL_LTIME__UINT" true [I64; U16] I64; (* 349 *)
  Sym "MUL_LTIME__UDINT" true [I64; U32] I64; (* 359 *)
  Sym "MUL_LTIME__ULINT" true [I64; U64] I64; (* 369 *)
  Sym "DIV__TIME__SINT" true [I64; I8] I64; (* 389 *)
  Sym "DIV__TIME__INT" true [I64; I16] I64; (* 399 *)
  Sym "DIV__TIME__DINT" true [I64; I32] I64; (* 409 *)
  Sym "DIV__TIME__LINT" true [I64; I64] I64; (* 419 *)
  Sym "DIV_TIME__SINT" true [I64; I8] I64; (* 429 *)
  Sym "DIV_TIME__INT" true [I64; I16] I64; (* 439 *)
  Sym "DIV_TIME__DINT" true [I64; I32] I64; (* 449 *)
  Sym "DIV_TIME__LINT" true [I64; I64] I64; (* 459 *)
  Sym "DIV_LTIME__SINT" true [I64; I8] I64; (* 469 *)
  Sym "DIV_LTIME__INT" true [I64; I16] I64; (* 479 *)
  Sym "DIV_LTIME__DINT" true [I64; I32] I64; (* 489 *)
  Sym "DIV_LTIME__LINT" true [I64; I64] I64; (* 499 *)
  Sym "DIV__TIME__USINT" true [I64; U8] I64; (* 517 *)
  Sym "DIV__TIME__UINT" true [I64; U16] I64; (* 527 *)
  Sym "DIV__TIME__UDINT" true [I64; U32] I64; (* 537 *)
  Sym "DIV__TIME__ULINT" true [I64; U64] I64; (* 547 *)
  Sym "DIV_TIME__USINT" true [I64; U8] I64; (* 557 *)
  Sym "DIV_TIME__UINT" true [I64; U16] I64; (* 567 *)
  Sym "DIV_TIME__UDINT" true [I64; U32] I64; (* 577 *)
  Sym "DIV_TIME__ULINT" true [I64; U64] I64; (* 587 *)
  Sym "DIV_LTIME__USINT" true [I64; U8] I64; (* 597 *)
  Sym "DIV_LTIME__UINT" true [I64; U16] I64; (* 607 *)
  Sym "DIV_LTIME__UDINT" true [I64; U32] I64; (* 617 *)
  Sym "DIV_LTIME__ULINT" true [I64; U64] I64; (* 627 *)
  Sym "MUL__TIME__REAL" true [I64; RF32] I64; (* 647 *)
  Sym "MUL_TIME__REAL" true [I64; RF32] I64; (* 657 *)
  Sym "MUL_LTIME__REAL" true [I64; RF32] I64; (* 667 *)
  Sym "MUL__TIME__LREAL" true [I64; RF64] I64; (* 695 *)
  Sym "MUL_TIME__LREAL" true [I64; RF64] I64; (* 705 *)
  Sym "MUL_LTIME__LREAL" true [I64; RF64] I64; (* 715 *)
  Sym "DIV__TIME__REAL" true [I64; RF32] I64; (* 743 *)
  Sym "DIV_TIME__REAL" true [I64; RF32] I64; (* 753 *)
  Sym "DIV_LTIME__REAL" true [I64; RF32] I64; (* 763 *)
  Sym "DIV__TIME__LREAL" true [I64; RF64] I64; (* 791 *)
  Sym "DIV_TIME__LREAL" true [I64; RF64] I64; (* 801 *)
  Sym "DIV_LTIME__LREAL" true [I64; RF64] I64; (* 811 *)
  (* /repo/src/endianness_conversion_functions.rs *)
  Sym "TO_BIG_ENDIAN__REAL" false [RF32] RF32; (* 64 *)
  Sym "TO_LITTLE_ENDIAN__REAL" false [RF32] RF32; (* 73 *)
  Sym "FROM_BIG_ENDIAN__REAL" false [RF32] RF32; (* 82 *)
  Sym "FROM_LITTLE_ENDIAN__REAL" false [RF32] RF32; (* 91 *)
  Sym "TO_BIG_ENDIAN__LREAL" false [RF64] RF64; (* 100 *)
  Sym "TO_LITTLE_ENDIAN__LREAL" false [RF64] RF64; (* 109 *)
  Sym "FROM_BIG_ENDIAN__LREAL" false [RF64] RF64; (* 118 *)
  Sym "FROM_LITTLE_ENDIAN__LREAL" false [RF64] RF64; (* 127 *)
  Sym "TO_BIG_ENDIAN__INT" false [I16] I16; (* 45 *)
  Sym "TO_LITTLE_ENDIAN__INT" false [I16] I16; (* 45 *)
  Sym "FROM_BIG_ENDIAN__INT" false [I16] I16; (* 45 *)
  Sym "FROM_LITTLE_ENDIAN__INT" false [I16] I16; (* 45 *)
  Sym "TO_BIG_ENDIAN__DINT" false [I32] I32; (* 46 *)
  Sym "TO_LITTLE_ENDIAN__DINT" false [I32] I32; (* 46 *)
  Sym "FROM_BIG_ENDIAN__DINT" false [I32] I32; (* 46 *)
  Sym "FROM_LITTLE_ENDIAN__DINT" false [I32] I32; (* 46 *)
  Sym "TO_BIG_ENDIAN__LINT" false [I64] I64; (* 47 *)
  Sym "TO_LITTLE_ENDIAN__LINT" false [I64] I64; (* 47 *)
  Sym "FROM_BIG_ENDIAN__LINT" false [I64] I64; (* 47 *)
  Sym "FROM_LITTLE_ENDIAN__LINT" false [I64] I64; (* 47 *)
  Sym "TO_BIG_ENDIAN__UINT" false [U16] U16; (* 48 *)
  Sym "TO_LITTLE_ENDIAN__UINT" false [U16] U16; (* 48 *)
  Sym "FROM_BIG_ENDIAN__UINT" false [U16] U16; (* 48 *)
  Sym "FROM_LITTLE_ENDIAN__UINT" false [U16] U16; (* 48 *)
  Sym "TO_BIG_ENDIAN__UDINT" false [U32] U32; (* 49 *)
  Sym "TO_LITTLE_ENDIAN__UDINT" false [U32] U32; (* 49 *)
  Sym "FROM_BIG_ENDIAN__UDINT" false [U32] U32; (* 49 *)
  Sym "FROM_LITTLE_ENDIAN__UDINT" false [U32] U32; (* 49 *)
  Sym "TO_BIG_ENDIAN__ULINT" false [U64] U64; (* 50 *)
  Sym "TO_LITTLE_ENDIAN__ULINT" false [U64] U64; (* 50 *)
  Sym "FROM_BIG_ENDIAN__ULINT" false [U64] U64; (* 50 *)
  Sym "FROM_LITTLE_ENDIAN__ULINT" false [U64] U64; (* 50 *)
  Sym "TO_BIG_ENDIAN__WORD" false [U16] U16; (* 51 *)
  Sym "TO_LITTLE_ENDIAN__WORD" false [U16] U16; (* 51 *)
  Sym "FROM_BIG_ENDIAN__WORD" false [U16] U16; (* 51 *)
  Sym "FROM_LITTLE_ENDIAN__WORD" false [U16] U16; (* 51 *)
  Sym "TO_BIG_ENDIAN__DWORD" false [U32] U32; (* 52 *)
  Sym "TO_LITTLE_ENDIAN__DWORD" false [U32] U32; (* 52 *)
  Sym "FROM_BIG_ENDIAN__DWORD" false [U32] U32; (* 52 *)
  Sym "FROM_LITTLE_ENDIAN__DWORD" false [U32] U32; (* 52 *)
  Sym "TO_BIG_ENDIAN__LWORD" false [U64] U64; (* 53 *)
  Sym "TO_LITTLE_ENDIAN__LWORD" false [U64] U64; (* 53 *)
  Sym "FROM_BIG_ENDIAN__LWORD" false [U64] U64; (* 53 *)
  Sym "FROM_LITTLE_ENDIAN__LWORD" false [U64] U64; (* 53 *)
  Sym "TO_BIG_ENDIAN__WCHAR" false [U16] U16; (* 54 *)
  Sym "TO_LITTLE_ENDIAN__WCHAR" false [U16] U16; (* 54 *)
  Sym "FROM_BIG_ENDIAN__WCHAR" false [U16] U16; (* 54 *)
  Sym "FROM_LITTLE_ENDIAN__WCHAR" false [U16] U16; (* 54 *)
  Sym "TO_BIG_ENDIAN__DATE" false [I64] I64; (* 55 *)
  Sym "TO_LITTLE_ENDIAN__DATE" false [I64] I64; (* 55 *)
  Sym "FROM_BIG_ENDIAN__DATE" false [I64] I64; (* 55 *)
  Sym "FROM_LITTLE_ENDIAN__DATE" false [I64] I64; (* 55 *)
  Sym "TO_BIG_ENDIAN__TIME_OF_DAY" false [I64] I64; (* 56 *)
  Sym "TO_LITTLE_ENDIAN__TIME_OF_DAY" false [I64] I64; (* 56 *)
  Sym "FROM_BIG_ENDIAN__TIME_OF_DAY" false [I64] I64; (* 56 *)
  Sym "FROM_LITTLE_ENDIAN__TIME_OF_DAY" false [I64] I64; (* 56 *)
  Sym "TO_BIG_ENDIAN__DATE_AND_TIME" false [I64] I64; (* 57 *)
  Sym "TO_LITTLE_ENDIAN__DATE_AND_TIME" false [I64] I64; (* 57 *)
  Sym "FROM_BIG_ENDIAN__DATE_AND_TIME" false [I64] I64; (* 57 *)
  Sym "FROM_LITTLE_ENDIAN__DATE_AND_TIME" false [I64] I64; (* 57 *)
  (* /repo/src/extra_functions.rs *)
  Sym "BYTE_TO_STRING_EXT" true [U8; Ptr true U8] I32; (* 24 *)
  Sym "LWORD_TO_STRING_EXT" true [U64; Ptr true U8] I32; (* 36 *)
  Sym "LINT_TO_STRING_EXT" true [I64; Ptr true U8] I32; (* 48 *)
  Sym "LREAL_TO_STRING_EXT" true [RF64; Ptr true U8] I32; (* 59 *)
  Sym "REAL_TO_STRING_EXT" true [RF64; Ptr true U8] I32; (* 75 *)
  Sym "STRING_TO_LINT" true [Ptr false U8] I64; (* 118 *)
  Sym "STRING_TO_DINT" true [Ptr false U8] I32; (* 126 *)
  Sym "STRING_TO_LREAL" true [Ptr false U8] RF64; (* 151 *)
  Sym "STRING_TO_REAL" true [Ptr false U8] RF32; (* 159 *)
  Sym "TIME" true [] I64; (* 165 *)
  Sym "TIME_TO_STRING_EXT" true [I64; Ptr true U8] I32; (* 174 *)
  Sym "DT_TO_STRING_EXT" true [I64; Ptr true U8] I32; (* 215 *)
  Sym "DATE_TO_STRING_EXT" true [I64; Ptr true U8] I32; (* 230 *)
  Sym "TOD_TO_STRING_EXT" true [I64; Ptr true U8] I32; (* 244 *)
  (* /repo/src/flanks.rs *)
  Sym "R_TRIG" true [Ptr true Inst] Unit; (* 19 *)
  Sym "F_TRIG" true [Ptr true Inst] Unit; (* 26 *)
  (* /repo/src/numerical_functions.rs *)
  Sym "ROUND__REAL" true [RF32] RF32; (* 6 *)
  Sym "ROUND__LREAL" true [RF64] RF64; (* 15 *)
  (* /repo/src/string_conversion.rs *)
  Sym "WSTRING_TO_STRING_EXT" true [Ptr false U16; Ptr true U8] I32; (* 13 *)
  Sym "STRING_TO_WSTRING_EXT" true [Ptr false U8; Ptr true U16] I32; (* 32 *)
  Sym "WCHAR_TO_CHAR" true [U16] U8; (* 51 *)
  Sym "CHAR_TO_WCHAR" true [U8] U16; (* 69 *)
  (* /repo/src/string_functions.rs *)
  Sym "LEN__STRING" true [Ptr false U8] I32; (* 141 *)
  Sym "LEN__WSTRING" true [Ptr false U16] I32; (* 157 *)
  Sym "FIND__STRING" true [Ptr false U8; Ptr false U8] I32; (* 170 *)
  Sym "FIND__WSTRING" true [Ptr false U16; Ptr false U16] I32; (* 202 *)
  Sym "LEFT_EXT__STRING" true [Ptr false U8; I32; Ptr true U8] I32; (* 236 *)
  Sym "LEFT_EXT__WSTRING" true [Ptr false U16; I32; Ptr true U16] I32; (* 263 *)
  Sym "RIGHT_EXT__STRING" true [Ptr false U8; I32; Ptr true U8] I32; (* 294 *)
  Sym "RIGHT_EXT__WSTRING" true [Ptr false U16; I32; Ptr true U16] I32; (* 321 *)
  Sym "MID_EXT__STRING" true [Ptr false U8; I32; I32; Ptr true U8] I32; (* 352 *)
  Sym "MID_EXT__WSTRING" true [Ptr false U16; I32; I32; Ptr true U16] I32; (* 395 *)
  Sym "INSERT_EXT__STRING" true [Ptr false U8; Ptr false U8; I32; Ptr true U8] I32; (* 438 *)
  Sym "INSERT_EXT__WSTRING" true [Ptr false U16; Ptr false U16; I32; Ptr true U16] I32; (* 471 *)
  Sym "DELETE_EXT__STRING" true [Ptr false U8; I32; I32; Ptr true U8] I32; (* 504 *)
  Sym "DELETE_EXT__WSTRING" true [Ptr false U16; I32; I32; Ptr true U16] I32; (* 547 *)
  Sym "REPLACE_EXT__STRING" true [Ptr false U8; Ptr false U8; I32; I32; Ptr true U8] I32; (* 591 *)
  Sym "REPLACE_EXT__WSTRING" true [Ptr false U16; Ptr false U16; I32; I32; Ptr true U16] I32; (* 639 *)
  Sym "CONCAT__STRING" true [Ptr true U8; I32; Ptr false (Ptr false U8)] Unit; (* 687 *)
  Sym "CONCAT_EXT__STRING" true [Ptr true U8; I32; Ptr false (Ptr false U8)] I32; (* 704 *)
  Sym "CONCAT__WSTRING" true [Ptr true U16; I32; Ptr false (Ptr false U16)] Unit; (* 735 *)
  Sym "CONCAT_EXT__WSTRING" true [Ptr true U16; I32; Ptr false (Ptr false U16)] I32; (* 752 *)
  Sym "GT__STRING" true [I32; Ptr false (Ptr false U8)] RBool; (* 801 *)
  Sym "GT__WSTRING" true [I32; Ptr false (Ptr false U16)] RBool; (* 813 *)
  Sym "GE__STRING" true [I32; Ptr false (Ptr false U8)] RBool; (* 825 *)
  Sym "GE__WSTRING" true [I32; Ptr false (Ptr false U16)] RBool; (* 837 *)
  Sym "EQ__STRING" true [I32; Ptr false (Ptr false U8)] RBool; (* 849 *)
  Sym "EQ__WSTRING" true [I32; Ptr false (Ptr false U16)] RBool; (* 861 *)
  Sym "LE__STRING" true [I32; Ptr false (Ptr false U8)] RBool; (* 873 *)
  Sym "LE__WSTRING" true [I32; Ptr false (Ptr false U16)] RBool; (* 885 *)
  Sym "LT__STRING" true [I32; Ptr false (Ptr false U8)] RBool; (* 897 *)
  Sym "LT__WSTRING" true [I32; Ptr false (Ptr false U16)] RBool; (* 909 *)
  Sym "NE__STRING" true [Ptr false U8; Ptr false U8] RBool; (* 921 *)
  Sym "NE__WSTRING" true [Ptr false U16; Ptr false U16] RBool; (* 933 *)
  (* /repo/src/timers.rs *)
  Sym "TP" true [Ptr true Inst] Unit; (* 84 *)
  Sym "TON" true [Ptr true Inst] Unit; (* 109 *)
  Sym "TOF" true [Ptr true Inst] Unit; (* 135 *)
  Sym "TP_TIME" true [Ptr true Inst] Unit; (* 157 *)
  Sym "TP_LTIME" true [Ptr true Inst] Unit; (* 163 *)
  Sym "TON_TIME" true [Ptr true Inst] Unit; (* 169 *)
  Sym "TON_LTIME" true [Ptr true Inst] Unit; (* 175 *)
  Sym "TOF_TIME" true [Ptr true Inst] Unit; (* 181 *)
  Sym "TOF_LTIME" true [Ptr true Inst] Unit; (* 187 *)
  (* /repo/src/types.rs *)
  Sym "MAX__BOOL" true [U32; Ptr false U8] U8; (* 116 *)
  Sym "MIN__BOOL" true [U32; Ptr false U8] U8; (* 116 *)
  Sym "LIMIT__BOOL" true [U8; U8; U8] U8; (* 116 *)
  Sym "MAX__BYTE" true [U32; Ptr false U8] U8; (* 117 *)
  Sym "MIN__BYTE" true [U32; Ptr false U8] U8; (* 117 *)
  Sym "LIMIT__BYTE" true [U8; U8; U8] U8; (* 117 *)
  Sym "MAX__CHAR" true [U32; Ptr false U8] U8; (* 118 *)
  Sym "MIN__CHAR" true [U32; Ptr false U8] U8; (* 118 *)
  Sym "LIMIT__CHAR" true [U8; U8; U8] U8; (* 118 *)
  Sym "MAX__WORD" true [U32; Ptr false U16] U16; (* 119 *)
  Sym "MIN__WORD" true [U32; Ptr false U16] U16; (* 119 *)
  Sym "LIMIT__WORD" true [U16; U16; U16] U16; (* 119 *)
  Sym "MAX__WCHAR" true [U32; Ptr false U16] U16; (* 120 *)
  Sym "MIN__WCHAR" true [U32; Ptr false U16] U16; (* 120 *)
  Sym "LIMIT__WCHAR" true [U16; U16; U16] U16; (* 120 *)
  Sym "MAX__DWORD" true [U32; Ptr false U32] U32; (* 121 *)
  Sym "MIN__DWORD" true [U32; Ptr false U32] U32; (* 121 *)
  Sym "LIMIT__DWORD" true [U32; U32; U32] U32; (* 121 *)
  Sym "MAX__LWORD" true [U32; Ptr false U64] U64; (* 122 *)
  Sym "MIN__LWORD" true [U32; Ptr false U64] U64; (* 122 *)
  Sym "LIMIT__LWORD" true [U64; U64; U64] U64; (* 122 *)
  Sym "MAX__SINT" true [U32; Ptr false I8] I8; (* 124 *)
  Sym "MIN__SINT" true [U32; Ptr false I8] I8; (* 124 *)
  Sym "LIMIT__SINT" true [I8; I8; I8] I8; (* 124 *)
  Sym "MAX__USINT" true [U32; Ptr false U8] U8; (* 125 *)
  Sym "MIN__USINT" true [U32; Ptr false U8] U8; (* 125 *)
  Sym "LIMIT__USINT" true [U8; U8; U8] U8; (* 125 *)
  Sym "MAX__INT" true [U32; Ptr false I16] I16; (* 126 *)
  Sym "MIN__INT" true [U32; Ptr false I16] I16; (* 126 *)
  Sym "LIMIT__INT" true [I16; I16; I16] I16; (* 126 *)
  Sym "MAX__UINT" true [U32; Ptr false U16] U16; (* 127 *)
  Sym "MIN__UINT" true [U32; Ptr false U16] U16; (* 127 *)
  Sym "LIMIT__UINT" true [U16; U16; U16] U16; (* 127 *)
  Sym "MAX__DINT" true [U32; Ptr false I32] I32; (* 128 *)
  Sym "MIN__DINT" true [U32; Ptr false I32] I32; (* 128 *)
  Sym "LIMIT__DINT" true [I32; I32; I32] I32; (* 128 *)
  Sym "MAX__UDINT" true [U32; Ptr false U32] U32; (* 129 *)
  Sym "MIN__UDINT" true [U32; Ptr false U32] U32; (* 129 *)
  Sym "LIMIT__UDINT" true [U32; U32; U32] U32; (* 129 *)
  Sym "MAX__LINT" true [U32; Ptr false I64] I64; (* 130 *)
  Sym "MIN__LINT" true [U32; Ptr false I64] I64; (* 130 *)
  Sym "LIMIT__LINT" true [I64; I64; I64] I64; (* 130 *)
  Sym "MAX__ULINT" true [U32; Ptr false U64] U64; (* 131 *)
  Sym "MIN__ULINT" true [U32; Ptr false U64] U64; (* 131 *)
  Sym "LIMIT__ULINT" true [U64; U64; U64] U64; (* 131 *)
  Sym "MAX__DATE" true [U32; Ptr false I64] I64; (* 132 *)
  Sym "MIN__DATE" true [U32; Ptr false I64] I64; (* 132 *)
  Sym "LIMIT__DATE" true [I64; I64; I64] I64; (* 132 *)
  Sym "MAX__DATE_AND_TIME" true [U32; Ptr false I64] I64; (* 133 *)
  Sym "MIN__DATE_AND_TIME" true [U32; Ptr false I64] I64; (* 133 *)
  Sym "LIMIT__DATE_AND_TIME" true [I64; I64; I64] I64; (* 133 *)
  Sym "MAX__TIME" true [U32; Ptr false I64] I64; (* 139 *)
  Sym "MIN__TIME" true [U32; Ptr false I64] I64; (* 139 *)
  Sym "LIMIT__TIME" true [I64; I64; I64] I64; (* 139 *)
  Sym "MAX__TIME_OF_DAY" true [U32; Ptr false I64] I64; (* 140 *)
  Sym "MIN__TIME_OF_DAY" true [U32; Ptr false I64] I64; (* 140 *)
  Sym "LIMIT__TIME_OF_DAY" true [I64; I64; I64] I64; (* 140 *)
  Sym "MAX__REAL" true [U32; Ptr false RF32] RF32; (* 142 *)
  Sym "MIN__REAL" true [U32; Ptr false RF32] RF32; (* 142 *)
  Sym "LIMIT__REAL" true [RF32; RF32; RF32] RF32; (* 142 *)
  Sym "MAX__LREAL" true [U32; Ptr false RF64] RF64; (* 143 *)
  Sym "MIN__LREAL" true [U32; Ptr false RF64] RF64; (* 143 *)
  Sym "LIMIT__LREAL" true [RF64; RF64; RF64] RF64; (* 143 *)
  (* /repo/src/validation_functions.rs *)
  Sym "IS_VALID__REAL" true [RF32] RBool; (* 12 *)
  Sym "IS_VALID__LREAL" true [RF64] RBool; (* 22 *)
  Sym "IS_VALID_BCD__BYTE" true [U8] RBool; (* 51 *)
  Sym "IS_VALID_BCD__WORD" true [U16] RBool; (* 60 *)
  Sym "IS_VALID_BCD__DWORD" true [U32] RBool; (* 69 *)
  Sym "IS_VALID_BCD__LWORD" true [U64] RBool (* 78 *)
].

(** Every FUNCTION of /repo/iec61131-st/*.st, in source order; the line of its header. *)
Definition st_decls : list decl := [
  (* /repo/iec61131-st/arithmetic_functions.st *)
  Decl "SQRT" true [("T", ANY_REAL)] (Var "T")
    [("in", Input, Var "T")] Empty; (* 17 *)
  Decl "LN" true [("T", ANY_REAL)] (Var "T")
    [("in", Input, Var "T")] Empty; (* 28 *)
  Decl "LOG" true [("T", ANY_REAL)] (Var "T")
    [("in", Input, Var "T")] Empty; (* 37 *)
  Decl "EXP" true [("T", ANY_REAL)] (Var "T")
    [("in", Input, Var "T")] Empty; (* 45 *)
  Decl "SIN" true [("T", ANY_REAL)] (Var "T")
    [("rad", Input, Var "T")] Empty; (* 56 *)
  Decl "COS" true [("T", ANY_REAL)] (Var "T")
    [("rad", Input, Var "T")] Empty; (* 64 *)
  Decl "TAN" true [("T", ANY_REAL)] (Var "T")
    [("rad", Input, Var "T")] Empty; (* 72 *)
  Decl "ASIN" true [("T", ANY_REAL)] (Var "T")
    [("in", Input, Var "T")] Empty; (* 80 *)
  Decl "ACOS" true [("T", ANY_REAL)] (Var "T")
    [("in", Input, Var "T")] Empty; (* 88 *)
  Decl "ATAN" true [("T", ANY_REAL)] (Var "T")
    [("in", Input, Var "T")] Empty; (* 96 *)
  Decl "ATAN2" true [("T", ANY_REAL)] (Var "T")
    [("y", Input, Var "T"); ("x", Input, Var "T")] Empty; (* 104 *)
  Decl "EXPT" true [("T", ANY_REAL); ("U", ANY_NUM)] (Var "T")
    [("in1", Input, Var "T"); ("in2", Input, Var "U")] Empty; (* 112 *)
  Decl "EXPT__REAL__DINT" true [] (Ty S_REAL)
    [("in1", Input, Ty S_REAL); ("in2", Input, Ty S_DINT)] Empty; (* 120 *)
  Decl "EXPT__REAL__REAL" true [] (Ty S_REAL)
    [("in1", Input, Ty S_REAL); ("in2", Input, Ty S_REAL)] Empty; (* 128 *)
  Decl "EXPT__REAL__LREAL" true [] (Ty S_REAL)
    [("in1", Input, Ty S_REAL); ("in2", Input, Ty S_LREAL)] Empty; (* 139 *)
  Decl "EXPT__LREAL__DINT" true [] (Ty S_LREAL)
    [("in1", Input, Ty S_LREAL); ("in2", Input, Ty S_DINT)] Empty; (* 147 *)
  Decl "EXPT__LREAL__REAL" true [] (Ty S_LREAL)
    [("in1", Input, Ty S_LREAL); ("in2", Input, Ty S_REAL)] Empty; (* 155 *)
  Decl "EXPT__LREAL__LREAL" true [] (Ty S_LREAL)
    [("in1", Input, Ty S_LREAL); ("in2", Input, Ty S_LREAL)] Empty; (* 163 *)
  Decl "EXPT__REAL__USINT" false [] (Ty S_REAL)
    [("in1", Input, Ty S_REAL); ("in2", Input, Ty S_USINT)] Other; (* 170 *)
  Decl "EXPT__REAL__UINT" false [] (Ty S_REAL)
    [("in1", Input, Ty S_REAL); ("in2", Input, Ty S_UINT)] Other; (* 178 *)
  Decl "EXPT__REAL__UDINT" false [] (Ty S_REAL)
    [("in1", Input, Ty S_REAL); ("in2", Input, Ty S_UDINT)] Other; (* 186 *)
  Decl "EXPT__REAL__ULINT" false [] (Ty S_REAL)
    [("in1", Input, Ty S_REAL); ("in2", Input, Ty S_ULINT)] Other; (* 194 *)
  Decl "EXPT__REAL__SINT" false [] (Ty S_REAL)
    [("in1", Input, Ty S_REAL); ("in2", Input, Ty S_SINT)] Other; (* 202 *)
  Decl "EXPT__REAL__INT" false [] (Ty S_REAL)
    [("in1", Input, Ty S_REAL); ("in2", Input, Ty S_INT)] Other; (* 210 *)
  Decl "EXPT__REAL__LINT" false [] (Ty S_REAL)
    [("in1", Input, Ty S_REAL); ("in2", Input, Ty S_LINT)] Other; (* 218 *)
  Decl "EXPT__LREAL__USINT" false [] (Ty S_LREAL)
    [("in1", Input, Ty S_LREAL); ("in2", Input, Ty S_USINT)] Other; (* 226 *)
  Decl "EXPT__LREAL__UINT" false [] (Ty S_LREAL)
    [("in1", Input, Ty S_LREAL); ("in2", Input, Ty S_UINT)] Other; (* 234 *)
  Decl "EXPT__LREAL__UDINT" false [] (Ty S_LREAL)
    [("in1", Input, Ty S_LREAL); ("in2", Input, Ty S_UDINT)] Other; (* 242 *)
  Decl "EXPT__LREAL__ULINT" false [] (Ty S_LREAL)
    [("in1", Input, Ty S_LREAL); ("in2", Input, Ty S_ULINT)] Other; (* 250 *)
  Decl "EXPT__LREAL__SINT" false [] (Ty S_LREAL)
    [("in1", Input, Ty S_LREAL); ("in2", Input, Ty S_SINT)] Other; (* 258 *)
  Decl "EXPT__LREAL__INT" false [] (Ty S_LREAL)
    [("in1", Input, Ty S_LREAL); ("in2", Input, Ty S_INT)] Other; (* 266 *)
  Decl "EXPT__LREAL__LINT" false [] (Ty S_LREAL)
    [("in1", Input, Ty S_LREAL); ("in2", Input, Ty S_LINT)] Other; (* 274 *)
  (* /repo/iec61131-st/bit_conversion.st *)
  Decl "LWORD_TO_DWORD" false [] (Ty S_DWORD)
    [("in", Input, Ty S_LWORD)] Other; (* 6 *)
  Decl "LWORD_TO_WORD" false [] (Ty S_WORD)
    [("in", Input, Ty S_LWORD)] Other; (* 18 *)
  Decl "LWORD_TO_BYTE" false [] (Ty S_BYTE)
    [("in", Input, Ty S_LWORD)] Other; (* 30 *)
  Decl "LWORD_TO_BOOL" false [] (Ty S_BOOL)
    [("in", Input, Ty S_LWORD)] Other; (* 42 *)
  Decl "DWORD_TO_LWORD" false [] (Ty S_LWORD)
    [("in", Input, Ty S_DWORD)] Other; (* 54 *)
  Decl "DWORD_TO_WORD" false [] (Ty S_WORD)
    [("in", Input, Ty S_DWORD)] Other; (* 66 *)
  Decl "DWORD_TO_BYTE" false [] (Ty S_BYTE)
    [("in", Input, Ty S_DWORD)] Other; (* 78 *)
  Decl "DWORD_TO_BOOL" false [] (Ty S_BOOL)
    [("in", Input, Ty S_DWORD)] Other; (* 90 *)
  Decl "WORD_TO_LWORD" false [] (Ty S_LWORD)
    [("in", Input, Ty S_WORD)] Other; (* 102 *)
  Decl "WORD_TO_DWORD" false [] (Ty S_DWORD)
    [("in", Input, Ty S_WORD)] Other; (* 114 *)
  Decl "WORD_TO_BYTE" false [] (Ty S_BYTE)
    [("in", Input, Ty S_WORD)] Other; (* 126 *)
  Decl "WORD_TO_BOOL" false [] (Ty S_BOOL)
    [("in", Input, Ty S_WORD)] Other; (* 138 *)
  Decl "BYTE_TO_LWORD" false [] (Ty S_LWORD)
    [("in", Input, Ty S_BYTE)] Other; (* 150 *)
  Decl "BYTE_TO_DWORD" false [] (Ty S_DWORD)
    [("in", Input, Ty S_BYTE)] Other; (* 162 *)
  Decl "BYTE_TO_WORD" false [] (Ty S_WORD)
    [("in", Input, Ty S_BYTE)] Other; (* 174 *)
  Decl "BYTE_TO_BOOL" false [] (Ty S_BOOL)
    [("in", Input, Ty S_BYTE)] Other; (* 186 *)
  Decl "BYTE_TO_CHAR" false [] (Ty S_CHAR)
    [("in", Input, Ty S_BYTE)] Other; (* 198 *)
  Decl "BOOL_TO_LWORD" false [] (Ty S_LWORD)
    [("in", Input, Ty S_BOOL)] Other; (* 214 *)
  Decl "BOOL_TO_DWORD" false [] (Ty S_DWORD)
    [("in", Input, Ty S_BOOL)] Other; (* 230 *)
  Decl "BOOL_TO_WORD" false [] (Ty S_WORD)
    [("in", Input, Ty S_BOOL)] Other; (* 246 *)
  Decl "BOOL_TO_BYTE" false [] (Ty S_BYTE)
    [("in", Input, Ty S_BOOL)] Other; (* 262 *)
  Decl "CHAR_TO_BYTE" false [] (Ty S_BYTE)
    [("in", Input, Ty S_CHAR)] Other; (* 278 *)
  Decl "CHAR_TO_WORD" false [] (Ty S_WORD)
    [("in", Input, Ty S_CHAR)] Other; (* 294 *)
  Decl "CHAR_TO_DWORD" false [] (Ty S_DWORD)
    [("in", Input, Ty S_CHAR)] Other; (* 306 *)
  Decl "CHAR_TO_LWORD" false [] (Ty S_LWORD)
    [("in", Input, Ty S_CHAR)] Other; (* 318 *)
  Decl "WCHAR_TO_WORD" false [] (Ty S_WORD)
    [("in", Input, Ty S_WCHAR)] Other; (* 330 *)
  Decl "WCHAR_TO_DWORD" false [] (Ty S_DWORD)
    [("in", Input, Ty S_WCHAR)] Other; (* 346 *)
  Decl "WCHAR_TO_LWORD" false [] (Ty S_LWORD)
    [("in", Input, Ty S_WCHAR)] Other; (* 358 *)
  (* /repo/iec61131-st/bit_num_conversion.st *)
  Decl "LWORD_TO_LREAL" true [] (Ty S_LREAL)
    [("in", Input, Ty S_LWORD)] Empty; (* 7 *)
  Decl "LWORD_TO_LINT" false [] (Ty S_LINT)
    [("in", Input, Ty S_LWORD)] Other; (* 18 *)
  Decl "LWORD_TO_DINT" false [] (Ty S_DINT)
    [("in", Input, Ty S_LWORD)] Other; (* 30 *)
  Decl "LWORD_TO_INT" false [] (Ty S_INT)
    [("in", Input, Ty S_LWORD)] Other; (* 42 *)
  Decl "LWORD_TO_SINT" false [] (Ty S_SINT)
    [("in", Input, Ty S_LWORD)] Other; (* 54 *)
  Decl "LWORD_TO_ULINT" false [] (Ty S_ULINT)
    [("in", Input, Ty S_LWORD)] Other; (* 66 *)
  Decl "LWORD_TO_UDINT" false [] (Ty S_UDINT)
    [("in", Input, Ty S_LWORD)] Other; (* 78 *)
  Decl "LWORD_TO_UINT" false [] (Ty S_UINT)
    [("in", Input, Ty S_LWORD)] Other; (* 90 *)
  Decl "LWORD_TO_USINT" false [] (Ty S_USINT)
    [("in", Input, Ty S_LWORD)] Other; (* 102 *)
  Decl "DWORD_TO_REAL" true [] (Ty S_REAL)
    [("in", Input, Ty S_DWORD)] Empty; (* 115 *)
  Decl "DWORD_TO_LINT" false [] (Ty S_LINT)
    [("in", Input, Ty S_DWORD)] Other; (* 126 *)
  Decl "DWORD_TO_DINT" false [] (Ty S_DINT)
    [("in", Input, Ty S_DWORD)] Other; (* 138 *)
  Decl "DWORD_TO_INT" false [] (Ty S_INT)
    [("in", Input, Ty S_DWORD)] Other; (* 150 *)
  Decl "DWORD_TO_SINT" false [] (Ty S_SINT)
    [("in", Input, Ty S_DWORD)] Other; (* 162 *)
  Decl "DWORD_TO_ULINT" false [] (Ty S_ULINT)
    [("in", Input, Ty S_DWORD)] Other; (* 174 *)
  Decl "DWORD_TO_UDINT" false [] (Ty S_UDINT)
    [("in", Input, Ty S_DWORD)] Other; (* 186 *)
  Decl "DWORD_TO_UINT" false [] (Ty S_UINT)
    [("in", Input, Ty S_DWORD)] Other; (* 198 *)
  Decl "DWORD_TO_USINT" false [] (Ty S_USINT)
    [("in", Input, Ty S_DWORD)] Other; (* 210 *)
  Decl "WORD_TO_LINT" false [] (Ty S_LINT)
    [("in", Input, Ty S_WORD)] Other; (* 222 *)
  Decl "WORD_TO_DINT" false [] (Ty S_DINT)
    [("in", Input, Ty S_WORD)] Other; (* 234 *)
  Decl "WORD_TO_INT" false [] (Ty S_INT)
    [("in", Input, Ty S_WORD)] Other; (* 246 *)
  Decl "WORD_TO_SINT" false [] (Ty S_SINT)
    [("in", Input, Ty S_WORD)] Other; (* 258 *)
  Decl "WORD_TO_ULINT" false [] (Ty S_ULINT)
    [("in", Input, Ty S_WORD)] Other; (* 270 *)
  Decl "WORD_TO_UDINT" false [] (Ty S_UDINT)
    [("in", Input, Ty S_WORD)] Other; (* 282 *)
  Decl "WORD_TO_UINT" false [] (Ty S_UINT)
    [("in", Input, Ty S_WORD)] Other; (* 294 *)
  Decl "WORD_TO_USINT" false [] (Ty S_USINT)
    [("in", Input, Ty S_WORD)] Other; (* 306 *)
  Decl "BYTE_TO_LINT" false [] (Ty S_LINT)
    [("in", Input, Ty S_BYTE)] Other; (* 318 *)
  Decl "BYTE_TO_DINT" false [] (Ty S_DINT)
    [("in", Input, Ty S_BYTE)] Other; (* 330 *)
  Decl "BYTE_TO_INT" false [] (Ty S_INT)
    [("in", Input, Ty S_BYTE)] Other; (* 342 *)
  Decl "BYTE_TO_SINT" false [] (Ty S_SINT)
    [("in", Input, Ty S_BYTE)] Other; (* 354 *)
  Decl "BYTE_TO_ULINT" false [] (Ty S_ULINT)
    [("in", Input, Ty S_BYTE)] Other; (* 366 *)
  Decl "BYTE_TO_UDINT" false [] (Ty S_UDINT)
    [("in", Input, Ty S_BYTE)] Other; (* 378 *)
  Decl "BYTE_TO_UINT" false [] (Ty S_UINT)
    [("in", Input, Ty S_BYTE)] Other; (* 390 *)
  Decl "BYTE_TO_USINT" false [] (Ty S_USINT)
    [("in", Input, Ty S_BYTE)] Other; (* 402 *)
  Decl "BOOL_TO_LINT" false [] (Ty S_LINT)
    [("in", Input, Ty S_BOOL)] Other; (* 414 *)
  Decl "BOOL_TO_DINT" false [] (Ty S_DINT)
    [("in", Input, Ty S_BOOL)] Other; (* 426 *)
  Decl "BOOL_TO_INT" false [] (Ty S_INT)
    [("in", Input, Ty S_BOOL)] Other; (* 438 *)
  Decl "BOOL_TO_SINT" false [] (Ty S_SINT)
    [("in", Input, Ty S_BOOL)] Other; (* 450 *)
  Decl "BOOL_TO_ULINT" false [] (Ty S_ULINT)
    [("in", Input, Ty S_BOOL)] Other; (* 462 *)
  Decl "BOOL_TO_UDINT" false [] (Ty S_UDINT)
    [("in", Input, Ty S_BOOL)] Other; (* 474 *)
  Decl "BOOL_TO_UINT" false [] (Ty S_UINT)
    [("in", Input, Ty S_BOOL)] Other; (* 486 *)
  Decl "BOOL_TO_USINT" false [] (Ty S_USINT)
    [("in", Input, Ty S_BOOL)] Other; (* 498 *)
  Decl "LREAL_TO_LWORD" true [] (Ty S_LWORD)
    [("in", Input, Ty S_LREAL)] Empty; (* 511 *)
  Decl "REAL_TO_DWORD" true [] (Ty S_DWORD)
    [("in", Input, Ty S_REAL)] Empty; (* 523 *)
  Decl "LINT_TO_LWORD" false [] (Ty S_LWORD)
    [("in", Input, Ty S_LINT)] Other; (* 534 *)
  Decl "LINT_TO_DWORD" false [] (Ty S_DWORD)
    [("in", Input, Ty S_LINT)] Other; (* 546 *)
  Decl "LINT_TO_WORD" false [] (Ty S_WORD)
    [("in", Input, Ty S_LINT)] Other; (* 558 *)
  Decl "LINT_TO_BYTE" false [] (Ty S_BYTE)
    [("in", Input, Ty S_LINT)] Other; (* 570 *)
  Decl "DINT_TO_LWORD" false [] (Ty S_LWORD)
    [("in", Input, Ty S_DINT)] Other; (* 582 *)
  Decl "DINT_TO_DWORD" false [] (Ty S_DWORD)
    [("in", Input, Ty S_DINT)] Other; (* 594 *)
  Decl "DINT_TO_WORD" false [] (Ty S_WORD)
    [("in", Input, Ty S_DINT)] Other; (* 606 *)
  Decl "DINT_TO_BYTE" false [] (Ty S_BYTE)
    [("in", Input, Ty S_DINT)] Other; (* 618 *)
  Decl "INT_TO_LWORD" false [] (Ty S_LWORD)
    [("in", Input, Ty S_INT)] Other; (* 630 *)
  Decl "INT_TO_DWORD" false [] (Ty S_DWORD)
    [("in", Input, Ty S_INT)] Other; (* 642 *)
  Decl "INT_TO_WORD" false [] (Ty S_WORD)
    [("in", Input, Ty S_INT)] Other; (* 654 *)
  Decl "INT_TO_BYTE" false [] (Ty S_BYTE)
    [("in", Input, Ty S_INT)] Other; (* 666 *)
  Decl "SINT_TO_LWORD" false [] (Ty S_LWORD)
    [("in", Input, Ty S_SINT)] Other; (* 678 *)
  Decl "SINT_TO_DWORD" false [] (Ty S_DWORD)
    [("in", Input, Ty S_SINT)] Other; (* 690 *)
  Decl "SINT_TO_WORD" false [] (Ty S_WORD)
    [("in", Input, Ty S_SINT)] Other; (* 702 *)
  Decl "SINT_TO_BYTE" false [] (Ty S_BYTE)
    [("in", Input, Ty S_SINT)] Other; (* 714 *)
  Decl "ULINT_TO_LWORD" false [] (Ty S_LWORD)
    [("in", Input, Ty S_ULINT)] Other; (* 726 *)
  Decl "ULINT_TO_DWORD" false [] (Ty S_DWORD)
    [("in", Input, Ty S_ULINT)] Other; (* 738 *)
  Decl "ULINT_TO_WORD" false [] (Ty S_WORD)
    [("in", Input, Ty S_ULINT)] Other; (* 750 *)
  Decl "ULINT_TO_BYTE" false [] (Ty S_BYTE)
    [("in", Input, Ty S_ULINT)] Other; (* 762 *)
  Decl "UDINT_TO_LWORD" false [] (Ty S_LWORD)
    [("in", Input, Ty S_UDINT)] Other; (* 774 *)
  Decl "UDINT_TO_DWORD" false [] (Ty S_DWORD)
    [("in", Input, Ty S_UDINT)] Other; (* 786 *)
  Decl "UDINT_TO_WORD" false [] (Ty S_WORD)
    [("in", Input, Ty S_UDINT)] Other; (* 798 *)
  Decl "UDINT_TO_BYTE" false [] (Ty S_BYTE)
    [("in", Input, Ty S_UDINT)] Other; (* 810 *)
  Decl "UINT_TO_LWORD" false [] (Ty S_LWORD)
    [("in", Input, Ty S_UINT)] Other; (* 822 *)
  Decl "UINT_TO_DWORD" false [] (Ty S_DWORD)
    [("in", Input, Ty S_UINT)] Other; (* 834 *)
  Decl "UINT_TO_WORD" false [] (Ty S_WORD)
    [("in", Input, Ty S_UINT)] Other; (* 846 *)
  Decl "UINT_TO_BYTE" false [] (Ty S_BYTE)
    [("in", Input, Ty S_UINT)] Other; (* 858 *)
  Decl "USINT_TO_LWORD" false [] (Ty S_LWORD)
    [("in", Input, Ty S_USINT)] Other; (* 870 *)
  Decl "USINT_TO_DWORD" false [] (Ty S_DWORD)
    [("in", Input, Ty S_USINT)] Other; (* 882 *)
  Decl "USINT_TO_WORD" false [] (Ty S_WORD)
    [("in", Input, Ty S_USINT)] Other; (* 894 *)
  Decl "USINT_TO_BYTE" false [] (Ty S_BYTE)
    [("in", Input, Ty S_USINT)] Other; (* 906 *)
  (* /repo/iec61131-st/bit_shift_functions.st *)
  Decl "SHL" true [("T", ANY_BIT)] (Var "T")
    [("IN", Input, Var "T"); ("n", Input, Ty S_UDINT)] Empty; (* 10 *)
  Decl "SHR" true [("T", ANY_BIT)] (Var "T")
    [("IN", Input, Var "T"); ("n", Input, Ty S_UDINT)] Empty; (* 29 *)
  Decl "ROL" true [("T", ANY_BIT)] (Var "T")
    [("IN", Input, Var "T"); ("n", Input, Ty S_UDINT)] Empty; (* 46 *)
  Decl "ROR" true [("T", ANY_BIT)] (Var "T")
    [("IN", Input, Var "T"); ("n", Input, Ty S_UDINT)] Empty; (* 63 *)
  (* /repo/iec61131-st/date_time_conversion.st *)
  Decl "DATE_AND_TIME_TO_DATE" true [] (Ty S_DATE)
    [("in", Input, Ty S_DT)] Empty; (* 7 *)
  Decl "DATE_AND_TIME_TO_TIME_OF_DAY" true [] (Ty S_TOD)
    [("in", Input, Ty S_DT)] Empty; (* 19 *)
  Decl "LTIME_TO_TIME" false [] (Ty S_TIME)
    [("in", Input, Ty S_LTIME)] Other; (* 30 *)
  Decl "TIME_TO_LTIME" false [] (Ty S_LTIME)
    [("in", Input, Ty S_TIME)] Other; (* 42 *)
  Decl "LDT_TO_DT" false [] (Ty S_DT)
    [("in", Input, Ty S_LDT)] Other; (* 54 *)
  Decl "LDT_TO_DATE" false [] (Ty S_DATE)
    [("in", Input, Ty S_LDT)] (Assign (Call "DATE_AND_TIME_TO_DATE" [Arg "in"])); (* 66 *)
  Decl "LDT_TO_LTOD" false [] (Ty S_LTOD)
    [("in", Input, Ty S_LDT)] (Assign (Call "DATE_AND_TIME_TO_TIME_OF_DAY" [Arg "in"])); (* 78 *)
  Decl "LDT_TO_TOD" false [] (Ty S_TOD)
    [("in", Input, Ty S_LDT)] (Assign (Call "DATE_AND_TIME_TO_TIME_OF_DAY" [Arg "in"])); (* 90 *)
  Decl "DT_TO_LDT" false [] (Ty S_LDT)
    [("in", Input, Ty S_DT)] Other; (* 102 *)
  Decl "DT_TO_DATE" false [] (Ty S_DATE)
    [("in", Input, Ty S_DT)] (Assign (Call "DATE_AND_TIME_TO_DATE" [Arg "in"])); (* 114 *)
  Decl "DT_TO_LTOD" false [] (Ty S_LTOD)
    [("in", Input, Ty S_DT)] (Assign (Call "DATE_AND_TIME_TO_TIME_OF_DAY" [Arg "in"])); (* 126 *)
  Decl "DT_TO_TOD" false [] (Ty S_TOD)
    [("in", Input, Ty S_DT)] (Assign (Call "DATE_AND_TIME_TO_TIME_OF_DAY" [Arg "in"])); (* 138 *)
  Decl "LTOD_TO_TOD" false [] (Ty S_TOD)
    [("in", Input, Ty S_LTOD)] Other; (* 150 *)
  Decl "TOD_TO_LTOD" false [] (Ty S_LTOD)
    [("in", Input, Ty S_TOD)] Other; (* 162 *)
  (* /repo/iec61131-st/date_time_extra_functions.st *)
  Decl "CONCAT_DATE_TOD" true [] (Ty S_DT)
    [("date_input", Input, Ty S_DATE); ("tod_input", Input, Ty S_TOD)] Empty; (* 7 *)
  Decl "CONCAT_DATE_LTOD" false [] (Ty S_DT)
    [("date_input", Input, Ty S_DATE); ("tod_input", Input, Ty S_LTOD)] (Assign (Call "CONCAT_DATE_TOD" [Arg "date_input"; Arg "tod_input"])); (* 19 *)
  Decl "CONCAT_DATE" true [("T", ANY_INT)] (Ty S_DATE)
    [("year", Input, Var "T"); ("month", Input, Var "T"); ("day", Input, Var "T")] Empty; (* 33 *)
  Decl "CONCAT_TOD" true [("T", ANY_INT)] (Ty S_TOD)
    [("hour", Input, Var "T"); ("minute", Input, Var "T"); ("second", Input, Var "T"); ("millisecond", Input, Var "T")] Empty; (* 47 *)
  Decl "CONCAT_LTOD" false [("T", ANY_INT)] (Ty S_LTOD)
    [("hour", Input, Var "T"); ("minute", Input, Var "T"); ("second", Input, Var "T"); ("millisecond", Input, Var "T")] Empty; (* 61 *)
  Decl "CONCAT_LTOD__SINT" false [] (Ty S_LTOD)
    [("hour", Input, Ty S_SINT); ("minute", Input, Ty S_SINT); ("second", Input, Ty S_SINT); ("millisecond", Input, Ty S_SINT)] (Assign (Call "CONCAT_TOD" [Arg "hour"; Arg "minute"; Arg "second"; Arg "millisecond"])); (* 71 *)
  Decl "CONCAT_LTOD__USINT" false [] (Ty S_LTOD)
    [("hour", Input, Ty S_USINT); ("minute", Input, Ty S_USINT); ("second", Input, Ty S_USINT); ("millisecond", Input, Ty S_USINT)] (Assign (Call "CONCAT_TOD" [Arg "hour"; Arg "minute"; Arg "second"; Arg "millisecond"])); (* 82 *)
  Decl "CONCAT_LTOD__INT" false [] (Ty S_LTOD)
    [("hour", Input, Ty S_INT); ("minute", Input, Ty S_INT); ("second", Input, Ty S_INT); ("millisecond", Input, Ty S_INT)] (Assign (Call "CONCAT_TOD" [Arg "hour"; Arg "minute"; Arg "second"; Arg "millisecond"])); (* 93 *)
  Decl "CONCAT_LTOD__UINT" false [] (Ty S_LTOD)
    [("hour", Input, Ty S_UINT); ("minute", Input, Ty S_UINT); ("second", Input, Ty S_UINT); ("millisecond", Input, Ty S_UINT)] (Assign (Call "CONCAT_TOD" [Arg "hour"; Arg "minute"; Arg "second"; Arg "millisecond"])); (* 104 *)
  Decl "CONCAT_LTOD__DINT" false [] (Ty S_LTOD)
    [("hour", Input, Ty S_DINT); ("minute", Input, Ty S_DINT); ("second", Input, Ty S_DINT); ("millisecond", Input, Ty S_DINT)] (Assign (Call "CONCAT_TOD" [Arg "hour"; Arg "minute"; Arg "second"; Arg "millisecond"])); (* 115 *)
  Decl "CONCAT_LTOD__UDINT" false [] (Ty S_LTOD)
    [("hour", Input, Ty S_UDINT); ("minute", Input, Ty S_UDINT); ("second", Input, Ty S_UDINT); ("millisecond", Input, Ty S_UDINT)] (Assign (Call "CONCAT_TOD" [Arg "hour"; Arg "minute"; Arg "second"; Arg "millisecond"])); (* 126 *)
  Decl "CONCAT_LTOD__LINT" false [] (Ty S_LTOD)
    [("hour", Input, Ty S_LINT); ("minute", Input, Ty S_LINT); ("second", Input, Ty S_LINT); ("millisecond", Input, Ty S_LINT)] (Assign (Call "CONCAT_TOD" [Arg "hour"; Arg "minute"; Arg "second"; Arg "millisecond"])); (* 137 *)
  Decl "CONCAT_LTOD__ULINT" false [] (Ty S_LTOD)
    [("hour", Input, Ty S_ULINT); ("minute", Input, Ty S_ULINT); ("second", Input, Ty S_ULINT); ("millisecond", Input, Ty S_ULINT)] (Assign (Call "CONCAT_TOD" [Arg "hour"; Arg "minute"; Arg "second"; Arg "millisecond"])); (* 148 *)
  Decl "CONCAT_DT" false [("T", ANY_INT)] (Ty S_DT)
    [("year", Input, Var "T"); ("month", Input, Var "T"); ("day", Input, Var "T"); ("hour", Input, Var "T"); ("minute", Input, Var "T"); ("second", Input, Var "T"); ("millisecond", Input, Var "T")] Empty; (* 163 *)
  Decl "CONCAT_DT__INT" false [] (Ty S_DT)
    [("year", Input, Ty S_INT); ("month", Input, Ty S_INT); ("day", Input, Ty S_INT); ("hour", Input, Ty S_INT); ("minute", Input, Ty S_INT); ("second", Input, Ty S_INT); ("millisecond", Input, Ty S_INT)] (Assign (Call "CONCAT_DATE_TOD" [Call "CONCAT_DATE" [Arg "year"; Arg "month"; Arg "day"]; Call "CONCAT_TOD" [Arg "hour"; Arg "minute"; Arg "second"; Arg "millisecond"]])); (* 176 *)
  Decl "CONCAT_DT__UINT" false [] (Ty S_DT)
    [("year", Input, Ty S_UINT); ("month", Input, Ty S_UINT); ("day", Input, Ty S_UINT); ("hour", Input, Ty S_UINT); ("minute", Input, Ty S_UINT); ("second", Input, Ty S_UINT); ("millisecond", Input, Ty S_UINT)] (Assign (Call "CONCAT_DATE_TOD" [Call "CONCAT_DATE" [Arg "year"; Arg "month"; Arg "day"]; Call "CONCAT_TOD" [Arg "hour"; Arg "minute"; Arg "second"; Arg "millisecond"]])); (* 190 *)
  Decl "CONCAT_DT__DINT" false [] (Ty S_DT)
    [("year", Input, Ty S_DINT); ("month", Input, Ty S_DINT); ("day", Input, Ty S_DINT); ("hour", Input, Ty S_DINT); ("minute", Input, Ty S_DINT); ("second", Input, Ty S_DINT); ("millisecond", Input, Ty S_DINT)] (Assign (Call "CONCAT_DATE_TOD" [Call "CONCAT_DATE" [Arg "year"; Arg "month"; Arg "day"]; Call "CONCAT_TOD" [Arg "hour"; Arg "minute"; Arg "second"; Arg "millisecond"]])); (* 204 *)
  Decl "CONCAT_DT__UDINT" false [] (Ty S_DT)
    [("year", Input, Ty S_UDINT); ("month", Input, Ty S_UDINT); ("day", Input, Ty S_UDINT); ("hour", Input, Ty S_UDINT); ("minute", Input, Ty S_UDINT); ("second", Input, Ty S_UDINT); ("millisecond", Input, Ty S_UDINT)] (Assign (Call "CONCAT_DATE_TOD" [Call "CONCAT_DATE" [Arg "year"; Arg "month"; Arg "day"]; Call "CONCAT_TOD" [Arg "hour"; Arg "minute"; Arg "second"; Arg "millisecond"]])); (* 218 *)
  Decl "CONCAT_DT__LINT" false [] (Ty S_DT)
    [("year", Input, Ty S_LINT); ("month", Input, Ty S_LINT); ("day", Input, Ty S_LINT); ("hour", Input, Ty S_LINT); ("minute", Input, Ty S_LINT); ("second", Input, Ty S_LINT); ("millisecond", Input, Ty S_LINT)] (Assign (Call "CONCAT_DATE_TOD" [Call "CONCAT_DATE" [Arg "year"; Arg "month"; Arg "day"]; Call "CONCAT_TOD" [Arg "hour"; Arg "minute"; Arg "second"; Arg "millisecond"]])); (* 232 *)
  Decl "CONCAT_DT__ULINT" false [] (Ty S_DT)
    [("year", Input, Ty S_ULINT); ("month", Input, Ty S_ULINT); ("day", Input, Ty S_ULINT); ("hour", Input, Ty S_ULINT); ("minute", Input, Ty S_ULINT); ("second", Input, Ty S_ULINT); ("millisecond", Input, Ty S_ULINT)] (Assign (Call "CONCAT_DATE_TOD" [Call "CONCAT_DATE" [Arg "year"; Arg "month"; Arg "day"]; Call "CONCAT_TOD" [Arg "hour"; Arg "minute"; Arg "second"; Arg "millisecond"]])); (* 246 *)
  Decl "CONCAT_LDT" false [("T", ANY_INT)] (Ty S_LDT)
    [("year", Input, Var "T"); ("month", Input, Var "T"); ("day", Input, Var "T"); ("hour", Input, Var "T"); ("minute", Input, Var "T"); ("second", Input, Var "T"); ("millisecond", Input, Var "T")] Empty; (* 264 *)
  Decl "CONCAT_LDT__INT" false [] (Ty S_LDT)
    [("year", Input, Ty S_INT); ("month", Input, Ty S_INT); ("day", Input, Ty S_INT); ("hour", Input, Ty S_INT); ("minute", Input, Ty S_INT); ("second", Input, Ty S_INT); ("millisecond", Input, Ty S_INT)] (Assign (Call "CONCAT_DATE_LTOD" [Call "CONCAT_DATE" [Arg "year"; Arg "month"; Arg "day"]; Call "CONCAT_LTOD" [Arg "hour"; Arg "minute"; Arg "second"; Arg "millisecond"]])); (* 277 *)
  Decl "CONCAT_LDT__UINT" false [] (Ty S_LDT)
    [("year", Input, Ty S_UINT); ("month", Input, Ty S_UINT); ("day", Input, Ty S_UINT); ("hour", Input, Ty S_UINT); ("minute", Input, Ty S_UINT); ("second", Input, Ty S_UINT); ("millisecond", Input, Ty S_UINT)] (Assign (Call "CONCAT_DATE_LTOD" [Call "CONCAT_DATE" [Arg "year"; Arg "month"; Arg "day"]; Call "CONCAT_LTOD" [Arg "hour"; Arg "minute"; Arg "second"; Arg "millisecond"]])); (* 291 *)
  Decl "CONCAT_LDT__DINT" false [] (Ty S_LDT)
    [("year", Input, Ty S_DINT); ("month", Input, Ty S_DINT); ("day", Input, Ty S_DINT); ("hour", Input, Ty S_DINT); ("minute", Input, Ty S_DINT); ("second", Input, Ty S_DINT); ("millisecond", Input, Ty S_DINT)] (Assign (Call "CONCAT_DATE_LTOD" [Call "CONCAT_DATE" [Arg "year"; Arg "month"; Arg "day"]; Call "CONCAT_LTOD" [Arg "hour"; Arg "minute"; Arg "second"; Arg "millisecond"]])); (* 305 *)
  Decl "CONCAT_LDT__UDINT" false [] (Ty S_LDT)
    [("year", Input, Ty S_UDINT); ("month", Input, Ty S_UDINT); ("day", Input, Ty S_UDINT); ("hour", Input, Ty S_UDINT); ("minute", Input, Ty S_UDINT); ("second", Input, Ty S_UDINT); ("millisecond", Input, Ty S_UDINT)] (Assign (Call "CONCAT_DATE_LTOD" [Call "CONCAT_DATE" [Arg "year"; Arg "month"; Arg "day"]; Call "CONCAT_LTOD" [Arg "hour"; Arg "minute"; Arg "second"; Arg "millisecond"]])); (* 319 *)
  Decl "CONCAT_LDT__LINT" false [] (Ty S_LDT)
    [("year", Input, Ty S_LINT); ("month", Input, Ty S_LINT); ("day", Input, Ty S_LINT); ("hour", Input, Ty S_LINT); ("minute", Input, Ty S_LINT); ("second", Input, Ty S_LINT); ("millisecond", Input, Ty S_LINT)] (Assign (Call "CONCAT_DATE_LTOD" [Call "CONCAT_DATE" [Arg "year"; Arg "month"; Arg "day"]; Call "CONCAT_LTOD" [Arg "hour"; Arg "minute"; Arg "second"; Arg "millisecond"]])); (* 333 *)
  Decl "CONCAT_LDT__ULINT" false [] (Ty S_LDT)
    [("year", Input, Ty S_ULINT); ("month", Input, Ty S_ULINT); ("day", Input, Ty S_ULINT); ("hour", Input, Ty S_ULINT); ("minute", Input, Ty S_ULINT); ("second", Input, Ty S_ULINT); ("millisecond", Input, Ty S_ULINT)] (Assign (Call "CONCAT_DATE_LTOD" [Call "CONCAT_DATE" [Arg "year"; Arg "month"; Arg "day"]; Call "CONCAT_LTOD" [Arg "hour"; Arg "minute"; Arg "second"; Arg "millisecond"]])); (* 347 *)
  Decl "SPLIT_DATE" false [("T", ANY_INT)] (Ty S_INT)
    [("in", Input, Ty S_DATE); ("year", Output, Var "T"); ("month", Output, Var "T"); ("day", Output, Var "T")] Empty; (* 365 *)
  Decl "SPLIT_DATE__INT" true [] (Ty S_INT)
    [("in", Input, Ty S_DATE); ("year", Output, Ty S_INT); ("month", Output, Ty S_INT); ("day", Output, Ty S_INT)] Empty; (* 378 *)
  Decl "SPLIT_DATE__UINT" true [] (Ty S_INT)
    [("in", Input, Ty S_DATE); ("year", Output, Ty S_UINT); ("month", Output, Ty S_UINT); ("day", Output, Ty S_UINT)] Empty; (* 391 *)
  Decl "SPLIT_DATE__DINT" true [] (Ty S_INT)
    [("in", Input, Ty S_DATE); ("year", Output, Ty S_DINT); ("month", Output, Ty S_DINT); ("day", Output, Ty S_DINT)] Empty; (* 404 *)
  Decl "SPLIT_DATE__UDINT" true [] (Ty S_INT)
    [("in", Input, Ty S_DATE); ("year", Output, Ty S_UDINT); ("month", Output, Ty S_UDINT); ("day", Output, Ty S_UDINT)] Empty; (* 417 *)
  Decl "SPLIT_DATE__LINT" true [] (Ty S_INT)
    [("in", Input, Ty S_DATE); ("year", Output, Ty S_LINT); ("month", Output, Ty S_LINT); ("day", Output, Ty S_LINT)] Empty; (* 430 *)
  Decl "SPLIT_DATE__ULINT" true [] (Ty S_INT)
    [("in", Input, Ty S_DATE); ("year", Output, Ty S_ULINT); ("month", Output, Ty S_ULINT); ("day", Output, Ty S_ULINT)] Empty; (* 443 *)
  Decl "SPLIT_TOD" false [("T", ANY_INT)] (Ty S_INT)
    [("in", Input, Ty S_TOD); ("hour", Output, Var "T"); ("minute", Output, Var "T"); ("second", Output, Var "T"); ("millisecond", Output, Var "T")] Empty; (* 459 *)
  Decl "SPLIT_TOD__INT" true [] (Ty S_INT)
    [("in", Input, Ty S_TOD); ("hour", Output, Ty S_INT); ("minute", Output, Ty S_INT); ("second", Output, Ty S_INT); ("millisecond", Output, Ty S_INT)] Empty; (* 473 *)
  Decl "SPLIT_TOD__UINT" true [] (Ty S_INT)
    [("in", Input, Ty S_TOD); ("hour", Output, Ty S_UINT); ("minute", Output, Ty S_UINT); ("second", Output, Ty S_UINT); ("millisecond", Output, Ty S_UINT)] Empty; (* 487 *)
  Decl "SPLIT_TOD__DINT" true [] (Ty S_INT)
    [("in", Input, Ty S_TOD); ("hour", Output, Ty S_DINT); ("minute", Output, Ty S_DINT); ("second", Output, Ty S_DINT); ("millisecond", Output, Ty S_DINT)] Empty; (* 501 *)
  Decl "SPLIT_TOD__UDINT" true [] (Ty S_INT)
    [("in", Input, Ty S_TOD); ("hour", Output, Ty S_UDINT); ("minute", Output, Ty S_UDINT); ("second", Output, Ty S_UDINT); ("millisecond", Output, Ty S_UDINT)] Empty; (* 515 *)
  Decl "SPLIT_TOD__LINT" true [] (Ty S_INT)
    [("in", Input, Ty S_TOD); ("hour", Output, Ty S_LINT); ("minute", Output, Ty S_LINT); ("second", Output, Ty S_LINT); ("millisecond", Output, Ty S_LINT)] Empty; (* 529 *)
  Decl "SPLIT_TOD__ULINT" true [] (Ty S_INT)
    [("in", Input, Ty S_TOD); ("hour", Output, Ty S_ULINT); ("minute", Output, Ty S_ULINT); ("second", Output, Ty S_ULINT); ("millisecond", Output, Ty S_ULINT)] Empty; (* 543 *)
  Decl "SPLIT_LTOD" false [("T", ANY_INT)] (Ty S_INT)
    [("in", Input, Ty S_LTOD); ("hour", Output, Var "T"); ("minute", Output, Var "T"); ("second", Output, Var "T"); ("millisecond", Output, Var "T")] Empty; (* 560 *)
  Decl "SPLIT_LTOD__INT" false [] (Ty S_INT)
    [("in", Input, Ty S_LTOD); ("hour", Output, Ty S_INT); ("minute", Output, Ty S_INT); ("second", Output, Ty S_INT); ("millisecond", Output, Ty S_INT)] (Assign (Call "SPLIT_TOD__INT" [Arg "in"; Arg "hour"; Arg "minute"; Arg "second"; Arg "millisecond"])); (* 573 *)
  Decl "SPLIT_LTOD__UINT" false [] (Ty S_INT)
    [("in", Input, Ty S_LTOD); ("hour", Output, Ty S_UINT); ("minute", Output, Ty S_UINT); ("second", Output, Ty S_UINT); ("millisecond", Output, Ty S_UINT)] (Assign (Call "SPLIT_TOD__UINT" [Arg "in"; Arg "hour"; Arg "minute"; Arg "second"; Arg "millisecond"])); (* 587 *)
  Decl "SPLIT_LTOD__DINT" false [] (Ty S_INT)
    [("in", Input, Ty S_LTOD); ("hour", Output, Ty S_DINT); ("minute", Output, Ty S_DINT); ("second", Output, Ty S_DINT); ("millisecond", Output, Ty S_DINT)] (Assign (Call "SPLIT_TOD__DINT" [Arg "in"; Arg "hour"; Arg "minute"; Arg "second"; Arg "millisecond"])); (* 601 *)
  Decl "SPLIT_LTOD__UDINT" false [] (Ty S_INT)
    [("in", Input, Ty S_LTOD); ("hour", Output, Ty S_UDINT); ("minute", Output, Ty S_UDINT); ("second", Output, Ty S_UDINT); ("millisecond", Output, Ty S_UDINT)] (Assign (Call "SPLIT_TOD__UDINT" [Arg "in"; Arg "hour"; Arg "minute"; Arg "second"; Arg "millisecond"])); (* 615 *)
  Decl "SPLIT_LTOD__LINT" false [] (Ty S_INT)
    [("in", Input, Ty S_LTOD); ("hour", Output, Ty S_LINT); ("minute", Output, Ty S_LINT); ("second", Output, Ty S_LINT); ("millisecond", Output, Ty S_LINT)] (Assign (Call "SPLIT_TOD__LINT" [Arg "in"; Arg "hour"; Arg "minute"; Arg "second"; Arg "millisecond"])); (* 629 *)
  Decl "SPLIT_LTOD__ULINT" false [] (Ty S_INT)
    [("in", Input, Ty S_LTOD); ("hour", Output, Ty S_ULINT); ("minute", Output, Ty S_ULINT); ("second", Output, Ty S_ULINT); ("millisecond", Output, Ty S_ULINT)] (Assign (Call "SPLIT_TOD__ULINT" [Arg "in"; Arg "hour"; Arg "minute"; Arg "second"; Arg "millisecond"])); (* 643 *)
  Decl "SPLIT_DT" false [("T", ANY_INT)] (Ty S_INT)
    [("in", Input, Ty S_DT); ("year", Output, Var "T"); ("month", Output, Var "T"); ("day", Output, Var "T"); ("hour", Output, Var "T"); ("minute", Output, Var "T"); ("second", Output, Var "T"); ("millisecond", Output, Var "T")] Empty; (* 661 *)
  Decl "SPLIT_DT__INT" true [] (Ty S_INT)
    [("in", Input, Ty S_DT); ("year", Output, Ty S_INT); ("month", Output, Ty S_INT); ("day", Output, Ty S_INT); ("hour", Output, Ty S_INT); ("minute", Output, Ty S_INT); ("second", Output, Ty S_INT); ("millisecond", Output, Ty S_INT)] Empty; (* 678 *)
  Decl "SPLIT_DT__UINT" true [] (Ty S_INT)
    [("in", Input, Ty S_DT); ("year", Output, Ty S_UINT); ("month", Output, Ty S_UINT); ("day", Output, Ty S_UINT); ("hour", Output, Ty S_UINT); ("minute", Output, Ty S_UINT); ("second", Output, Ty S_UINT); ("millisecond", Output, Ty S_UINT)] Empty; (* 695 *)
  Decl "SPLIT_DT__DINT" true [] (Ty S_INT)
    [("in", Input, Ty S_DT); ("year", Output, Ty S_DINT); ("month", Output, Ty S_DINT); ("day", Output, Ty S_DINT); ("hour", Output, Ty S_DINT); ("minute", Output, Ty S_DINT); ("second", Output, Ty S_DINT); ("millisecond", Output, Ty S_DINT)] Empty; (* 712 *)
  Decl "SPLIT_DT__UDINT" true [] (Ty S_INT)
    [("in", Input, Ty S_DT); ("year", Output, Ty S_UDINT); ("month", Output, Ty S_UDINT); ("day", Output, Ty S_UDINT); ("hour", Output, Ty S_UDINT); ("minute", Output, Ty S_UDINT); ("second", Output, Ty S_UDINT); ("millisecond", Output, Ty S_UDINT)] Empty; (* 729 *)
  Decl "SPLIT_DT__LINT" true [] (Ty S_INT)
    [("in", Input, Ty S_DT); ("year", Output, Ty S_LINT); ("month", Output, Ty S_LINT); ("day", Output, Ty S_LINT); ("hour", Output, Ty S_LINT); ("minute", Output, Ty S_LINT); ("second", Output, Ty S_LINT); ("millisecond", Output, Ty S_LINT)] Empty; (* 746 *)
  Decl "SPLIT_DT__ULINT" true [] (Ty S_INT)
    [("in", Input, Ty S_DT); ("year", Output, Ty S_ULINT); ("month", Output, Ty S_ULINT); ("day", Output, Ty S_ULINT); ("hour", Output, Ty S_ULINT); ("minute", Output, Ty S_ULINT); ("second", Output, Ty S_ULINT); ("millisecond", Output, Ty S_ULINT)] Empty; (* 763 *)
  Decl "SPLIT_LDT" false [("T", ANY_INT)] (Ty S_INT)
    [("in", Input, Ty S_LDT); ("year", Output, Var "T"); ("month", Output, Var "T"); ("day", Output, Var "T"); ("hour", Output, Var "T"); ("minute", Output, Var "T"); ("second", Output, Var "T"); ("millisecond", Output, Var "T")] Empty; (* 783 *)
  Decl "SPLIT_LDT__INT" true [] (Ty S_INT)
    [("in", Input, Ty S_LDT); ("year", Output, Ty S_INT); ("month", Output, Ty S_INT); ("day", Output, Ty S_INT); ("hour", Output, Ty S_INT); ("minute", Output, Ty S_INT); ("second", Output, Ty S_INT); ("millisecond", Output, Ty S_INT)] (Assign (Call "SPLIT_DT__INT" [Arg "in"; Arg "year"; Arg "month"; Arg "day"; Arg "hour"; Arg "minute"; Arg "second"; Arg "millisecond"])); (* 800 *)
  Decl "SPLIT_LDT__UINT" true [] (Ty S_INT)
    [("in", Input, Ty S_LDT); ("year", Output, Ty S_UINT); ("month", Output, Ty S_UINT); ("day", Output, Ty S_UINT); ("hour", Output, Ty S_UINT); ("minute", Output, Ty S_UINT); ("second", Output, Ty S_UINT); ("millisecond", Output, Ty S_UINT)] (Assign (Call "SPLIT_DT__UINT" [Arg "in"; Arg "year"; Arg "month"; Arg "day"; Arg "hour"; Arg "minute"; Arg "second"; Arg "millisecond"])); (* 818 *)
  Decl "SPLIT_LDT__DINT" true [] (Ty S_INT)
    [("in", Input, Ty S_LDT); ("year", Output, Ty S_DINT); ("month", Output, Ty S_DINT); ("day", Output, Ty S_DINT); ("hour", Output, Ty S_DINT); ("minute", Output, Ty S_DINT); ("second", Output, Ty S_DINT); ("millisecond", Output, Ty S_DINT)] (Assign (Call "SPLIT_DT__DINT" [Arg "in"; Arg "year"; Arg "month"; Arg "day"; Arg "hour"; Arg "minute"; Arg "second"; Arg "millisecond"])); (* 836 *)
  Decl "SPLIT_LDT__UDINT" true [] (Ty S_INT)
    [("in", Input, Ty S_LDT); ("year", Output, Ty S_UDINT); ("month", Output, Ty S_UDINT); ("day", Output, Ty S_UDINT); ("hour", Output, Ty S_UDINT); ("minute", Output, Ty S_UDINT); ("second", Output, Ty S_UDINT); ("millisecond", Output, Ty S_UDINT)] (Assign (Call "SPLIT_DT__UDINT" [Arg "in"; Arg "year"; Arg "month"; Arg "day"; Arg "hour"; Arg "minute"; Arg "second"; Arg "millisecond"])); (* 854 *)
  Decl "SPLIT_LDT__LINT" true [] (Ty S_INT)
    [("in", Input, Ty S_LDT); ("year", Output, Ty S_LINT); ("month", Output, Ty S_LINT); ("day", Output, Ty S_LINT); ("hour", Output, Ty S_LINT); ("minute", Output, Ty S_LINT); ("second", Output, Ty S_LINT); ("millisecond", Output, Ty S_LINT)] (Assign (Call "SPLIT_DT__LINT" [Arg "in"; Arg "year"; Arg "month"; Arg "day"; Arg "hour"; Arg "minute"; Arg "second"; Arg "millisecond"])); (* 872 *)
  Decl "SPLIT_LDT__ULINT" true [] (Ty S_INT)
    [("in", Input, Ty S_LDT); ("year", Output, Ty S_ULINT); ("month", Output, Ty S_ULINT); ("day", Output, Ty S_ULINT); ("hour", Output, Ty S_ULINT); ("minute", Output, Ty S_ULINT); ("second", Output, Ty S_ULINT); ("millisecond", Output, Ty S_ULINT)] (Assign (Call "SPLIT_DT__ULINT" [Arg "in"; Arg "year"; Arg "month"; Arg "day"; Arg "hour"; Arg "minute"; Arg "second"; Arg "millisecond"])); (* 890 *)
  Decl "DAY_OF_WEEK" true [] (Ty S_SINT)
    [("in", Input, Ty S_DATE)] Empty; (* 913 *)
  (* /repo/iec61131-st/date_time_numeric_functions.st *)
  Decl "ADD" false [("T1", ANY); ("T2", ANY)] (Var "T1")
    [("IN1", Input, Var "T1"); ("IN2", Input, Var "T2")] Empty; (* 6 *)
  Decl "ADD__TIME__TIME" false [] (Ty S_TIME)
    [("IN1", Input, Ty S_TIME); ("IN2", Input, Ty S_TIME)] (Assign (Call "ADD_TIME" [Arg "IN1"; Arg "IN2"])); (* 14 *)
  Decl "ADD_TIME" true [] (Ty S_TIME)
    [("IN1", Input, Ty S_TIME); ("IN2", Input, Ty S_TIME)] Empty; (* 28 *)
  Decl "ADD_LTIME" false [] (Ty S_LTIME)
    [("IN1", Input, Ty S_LTIME); ("IN2", Input, Ty S_LTIME)] (Assign (Call "ADD_TIME" [Arg "IN1"; Arg "IN2"])); (* 40 *)
  Decl "ADD__TIME_OF_DAY__TIME" false [] (Ty S_TOD)
    [("IN1", Input, Ty S_TOD); ("IN2", Input, Ty S_TIME)] (Assign (Call "ADD_TOD_TIME" [Arg "IN1"; Arg "IN2"])); (* 49 *)
  Decl "ADD_TOD_TIME" true [] (Ty S_TOD)
    [("IN1", Input, Ty S_TOD); ("IN2", Input, Ty S_TIME)] Empty; (* 64 *)
  Decl "ADD_LTOD_LTIME" false [] (Ty S_LTOD)
    [("IN1", Input, Ty S_LTOD); ("IN2", Input, Ty S_LTIME)] (Assign (Call "ADD_TOD_TIME" [Arg "IN1"; Arg "IN2"])); (* 77 *)
  Decl "ADD__DATE_AND_TIME__TIME" false [] (Ty S_DT)
    [("IN1", Input, Ty S_DT); ("IN2", Input, Ty S_TIME)] (Assign (Call "ADD_DT_TIME" [Arg "IN1"; Arg "IN2"])); (* 86 *)
  Decl "ADD_DT_TIME" true [] (Ty S_DT)
    [("IN1", Input, Ty S_DT); ("IN2", Input, Ty S_TIME)] Empty; (* 101 *)
  Decl "ADD_LDT_LTIME" false [] (Ty S_LDT)
    [("IN1", Input, Ty S_LDT); ("IN2", Input, Ty S_LTIME)] (Assign (Call "ADD_DT_TIME" [Arg "IN1"; Arg "IN2"])); (* 114 *)
  Decl "SUB" false [("T1", ANY); ("T2", ANY)] (Var "T1")
    [("IN1", Input, Var "T1"); ("IN2", Input, Var "T2")] Empty; (* 127 *)
  Decl "SUB__TIME__TIME" false [] (Ty S_TIME)
    [("IN1", Input, Ty S_TIME); ("IN2", Input, Ty S_TIME)] (Assign (Call "SUB_TIME" [Arg "IN1"; Arg "IN2"])); (* 135 *)
  Decl "SUB_TIME" true [] (Ty S_TIME)
    [("IN1", Input, Ty S_TIME); ("IN2", Input, Ty S_TIME)] Empty; (* 149 *)
  Decl "SUB_LTIME" false [] (Ty S_LTIME)
    [("IN1", Input, Ty S_LTIME); ("IN2", Input, Ty S_LTIME)] (Assign (Call "SUB_TIME" [Arg "IN1"; Arg "IN2"])); (* 161 *)
  Decl "SUB__DATE__DATE" false [] (Ty S_TIME)
    [("IN1", Input, Ty S_DATE); ("IN2", Input, Ty S_DATE)] (Assign (Call "SUB_DATE_DATE" [Arg "IN1"; Arg "IN2"])); (* 170 *)
  Decl "SUB_DATE_DATE" true [] (Ty S_TIME)
    [("IN1", Input, Ty S_DATE); ("IN2", Input, Ty S_DATE)] Empty; (* 185 *)
  Decl "SUB_LDATE_LDATE" false [] (Ty S_LTIME)
    [("IN1", Input, Ty S_LDATE); ("IN2", Input, Ty S_LDATE)] (Assign (Call "SUB_DATE_DATE" [Arg "IN1"; Arg "IN2"])); (* 198 *)
  Decl "SUB__TIME_OF_DAY__TIME" false [] (Ty S_TOD)
    [("IN1", Input, Ty S_TOD); ("IN2", Input, Ty S_TIME)] (Assign (Call "SUB_TOD_TIME" [Arg "IN1"; Arg "IN2"])); (* 207 *)
  Decl "SUB_TOD_TIME" true [] (Ty S_TOD)
    [("IN1", Input, Ty S_TOD); ("IN2", Input, Ty S_TIME)] Empty; (* 222 *)
  Decl "SUB_LTOD_LTIME" false [] (Ty S_LTOD)
    [("IN1", Input, Ty S_LTOD); ("IN2", Input, Ty S_LTIME)] (Assign (Call "SUB_TOD_TIME" [Arg "IN1"; Arg "IN2"])); (* 235 *)
  Decl "SUB__TIME_OF_DAY__TIME_OF_DAY" false [] (Ty S_TIME)
    [("IN1", Input, Ty S_TOD); ("IN2", Input, Ty S_TOD)] (Assign (Call "SUB_TOD_TOD" [Arg "IN1"; Arg "IN2"])); (* 244 *)
  Decl "SUB_TOD_TOD" true [] (Ty S_TIME)
    [("IN1", Input, Ty S_TOD); ("IN2", Input, Ty S_TOD)] Empty; (* 259 *)
  Decl "SUB_LTOD_LTOD" false [] (Ty S_LTIME)
    [("IN1", Input, Ty S_LTOD); ("IN2", Input, Ty S_LTOD)] (Assign (Call "SUB_TOD_TOD" [Arg "IN1"; Arg "IN2"])); (* 272 *)
  Decl "SUB__DATE_AND_TIME__TIME" false [] (Ty S_DT)
    [("IN1", Input, Ty S_DT); ("IN2", Input, Ty S_TIME)] (Assign (Call "SUB_DT_TIME" [Arg "IN1"; Arg "IN2"])); (* 281 *)
  Decl "SUB_DT_TIME" true [] (Ty S_DT)
    [("IN1", Input, Ty S_DT); ("IN2", Input, Ty S_TIME)] Empty; (* 296 *)
  Decl "SUB_LDT_LTIME" false [] (Ty S_LDT)
    [("IN1", Input, Ty S_LDT); ("IN2", Input, Ty S_LTIME)] (Assign (Call "SUB_DT_TIME" [Arg "IN1"; Arg "IN2"])); (* 309 *)
  Decl "SUB__DATE_AND_TIME__DATE_AND_TIME" false [] (Ty S_TIME)
    [("IN1", Input, Ty S_DT); ("IN2", Input, Ty S_DT)] (Assign (Call "SUB_DT_DT" [Arg "IN1"; Arg "IN2"])); (* 318 *)
  Decl "SUB_DT_DT" true [] (Ty S_TIME)
    [("IN1", Input, Ty S_DT); ("IN2", Input, Ty S_DT)] Empty; (* 333 *)
  Decl "SUB_LDT_LDT" false [] (Ty S_LTIME)
    [("IN1", Input, Ty S_LDT); ("IN2", Input, Ty S_LDT)] (Assign (Call "SUB_DT_DT" [Arg "IN1"; Arg "IN2"])); (* 346 *)
  Decl "MUL" false [("T1", ANY); ("T2", ANY)] (Var "T1")
    [("IN1", Input, Var "T1"); ("IN2", Input, Var "T2")] Empty; (* 359 *)
  Decl "MUL_TIME" false [("T", ANY_NUM)] (Ty S_TIME)
    [("IN1", Input, Ty S_TIME); ("IN2", Input, Var "T")] Empty; (* 371 *)
  Decl "MUL_LTIME" false [("T", ANY_NUM)] (Ty S_LTIME)
    [("IN1", Input, Ty S_LTIME); ("IN2", Input, Var "T")] Empty; (* 383 *)
  Decl "DIV" false [("T1", ANY); ("T2", ANY)] (Var "T1")
    [("IN1", Input, Var "T1"); ("IN2", Input, Var "T2")] Empty; (* 395 *)
  Decl "DIV_TIME" false [("T", ANY_NUM)] (Ty S_TIME)
    [("IN1", Input, Ty S_TIME); ("IN2", Input, Var "T")] Empty; (* 407 *)
  Decl "DIV_LTIME" false [("T", ANY_NUM)] (Ty S_LTIME)
    [("IN1", Input, Ty S_LTIME); ("IN2", Input, Var "T")] Empty; (* 419 *)
  (* /repo/iec61131-st/endianness_conversion_functions.st *)
  Decl "TO_BIG_ENDIAN" true [("T", ANY)] (Var "T")
    [("in", Input, Var "T")] Empty; (* 7 *)
  Decl "TO_LITTLE_ENDIAN" true [("T", ANY)] (Var "T")
    [("in", Input, Var "T")] Empty; (* 19 *)
  Decl "FROM_BIG_ENDIAN" true [("T", ANY)] (Var "T")
    [("in", Input, Var "T")] Empty; (* 31 *)
  Decl "FROM_LITTLE_ENDIAN" true [("T", ANY)] (Var "T")
    [("in", Input, Var "T")] Empty; (* 43 *)
  (* /repo/iec61131-st/extra_functions.st *)
  Decl "BYTE_TO_STRING" false [] (Ty S_STRING)
    [("IN", Input, Ty S_BYTE)] (Do (Call "BYTE_TO_STRING_EXT" [Arg "IN"; Result])); (* 6 *)
  Decl "BYTE_TO_STRING_EXT" true [] (Ty S_DINT)
    [("IN", Input, Ty S_BYTE); ("OUT", InOut, Ty S_STRING)] Empty; (* 14 *)
  Decl "LWORD_TO_STRING_EXT" true [] (Ty S_DINT)
    [("IN", Input, Ty S_LWORD); ("OUT", InOut, Ty S_STRING)] Empty; (* 24 *)
  Decl "LWORD_TO_STRING" false [] (Ty S_STRING)
    [("IN", Input, Ty S_LWORD)] (Do (Call "LWORD_TO_STRING_EXT" [Arg "IN"; Result])); (* 38 *)
  Decl "DWORD_TO_STRING" false [] (Ty S_STRING)
    [("IN", Input, Ty S_DWORD)] (Do (Call "LWORD_TO_STRING_EXT" [Arg "IN"; Result])); (* 50 *)
  Decl "LINT_TO_STRING_EXT" true [] (Ty S_DINT)
    [("IN", Input, Ty S_LINT); ("OUT", InOut, Ty S_STRING)] Empty; (* 58 *)
  Decl "LINT_TO_STRING" false [] (Ty S_STRING)
    [("IN", Input, Ty S_LINT)] (Do (Call "LINT_TO_STRING_EXT" [Arg "IN"; Result])); (* 72 *)
  Decl "DINT_TO_STRING" false [] (Ty S_STRING)
    [("IN", Input, Ty S_DINT)] (Do (Call "LINT_TO_STRING_EXT" [Arg "IN"; Result])); (* 84 *)
  Decl "LREAL_TO_STRING_EXT" true [] (Ty S_DINT)
    [("IN", Input, Ty S_LREAL); ("OUT", InOut, Ty S_STRING)] Empty; (* 92 *)
  Decl "DT_TO_STRING" false [] (Ty S_STRING)
    [("IN", Input, Ty S_DT)] (Do (Call "DT_TO_STRING_EXT" [Arg "IN"; Result])); (* 106 *)
  Decl "LDT_TO_STRING" false [] (Ty S_STRING)
    [("IN", Input, Ty S_DT)] (Do (Call "DT_TO_STRING_EXT" [Arg "IN"; Result])); (* 113 *)
  Decl "DT_TO_STRING_EXT" true [] (Ty S_DINT)
    [("IN", Input, Ty S_DT); ("OUT", InOut, Ty S_STRING)] Empty; (* 121 *)
  Decl "DT_TO_WSTRING" false [] (Ty S_WSTRING)
    [("IN", Input, Ty S_DT)] (Do (Call "STRING_TO_WSTRING_EXT" [Call "DT_TO_STRING" [Arg "IN"]; Result])); (* 135 *)
  Decl "LDT_TO_WSTRING" false [] (Ty S_WSTRING)
    [("IN", Input, Ty S_DT)] (Do (Call "STRING_TO_WSTRING_EXT" [Call "DT_TO_STRING" [Arg "IN"]; Result])); (* 142 *)
  Decl "TIME_TO_STRING" false [] (Ty S_STRING)
    [("IN", Input, Ty S_TIME)] (Do (Call "TIME_TO_STRING_EXT" [Arg "IN"; Result])); (* 154 *)
  Decl "LTIME_TO_STRING" false [] (Ty S_STRING)
    [("IN", Input, Ty S_TIME)] (Do (Call "TIME_TO_STRING_EXT" [Arg "IN"; Result])); (* 161 *)
  Decl "TIME_TO_STRING_EXT" true [] (Ty S_DINT)
    [("IN", Input, Ty S_TIME); ("OUT", InOut, Ty S_STRING)] Empty; (* 169 *)
  Decl "TIME_TO_WSTRING" false [] (Ty S_WSTRING)
    [("IN", Input, Ty S_TIME)] (Do (Call "STRING_TO_WSTRING_EXT" [Call "TIME_TO_STRING" [Arg "IN"]; Result])); (* 183 *)
  Decl "LTIME_TO_WSTRING" false [] (Ty S_WSTRING)
    [("IN", Input, Ty S_TIME)] (Do (Call "STRING_TO_WSTRING_EXT" [Call "TIME_TO_STRING" [Arg "IN"]; Result])); (* 190 *)
  Decl "DATE_TO_STRING" false [] (Ty S_STRING)
    [("IN", Input, Ty S_DATE)] (Do (Call "DATE_TO_STRING_EXT" [Arg "IN"; Result])); (* 202 *)
  Decl "LDATE_TO_STRING" false [] (Ty S_STRING)
    [("IN", Input, Ty S_DATE)] (Do (Call "DATE_TO_STRING_EXT" [Arg "IN"; Result])); (* 209 *)
  Decl "DATE_TO_STRING_EXT" true [] (Ty S_DINT)
    [("IN", Input, Ty S_DATE); ("OUT", InOut, Ty S_STRING)] Empty; (* 217 *)
  Decl "DATE_TO_WSTRING" false [] (Ty S_WSTRING)
    [("IN", Input, Ty S_DATE)] (Do (Call "STRING_TO_WSTRING_EXT" [Call "DATE_TO_STRING" [Arg "IN"]; Result])); (* 231 *)
  Decl "LDATE_TO_WSTRING" false [] (Ty S_WSTRING)
    [("IN", Input, Ty S_DATE)] (Do (Call "STRING_TO_WSTRING_EXT" [Call "DATE_TO_STRING" [Arg "IN"]; Result])); (* 238 *)
  Decl "TOD_TO_STRING" false [] (Ty S_STRING)
    [("IN", Input, Ty S_TOD)] (Do (Call "TOD_TO_STRING_EXT" [Arg "IN"; Result])); (* 250 *)
  Decl "LTOD_TO_STRING" false [] (Ty S_STRING)
    [("IN", Input, Ty S_TOD)] (Do (Call "TOD_TO_STRING_EXT" [Arg "IN"; Result])); (* 257 *)
  Decl "TOD_TO_STRING_EXT" true [] (Ty S_DINT)
    [("IN", Input, Ty S_TOD); ("OUT", InOut, Ty S_STRING)] Empty; (* 265 *)
  Decl "TOD_TO_WSTRING" false [] (Ty S_WSTRING)
    [("IN", Input, Ty S_TOD)] (Do (Call "STRING_TO_WSTRING_EXT" [Call "TOD_TO_STRING" [Arg "IN"]; Result])); (* 279 *)
  Decl "LTOD_TO_WSTRING" false [] (Ty S_WSTRING)
    [("IN", Input, Ty S_TOD)] (Do (Call "STRING_TO_WSTRING_EXT" [Call "TOD_TO_STRING" [Arg "IN"]; Result])); (* 286 *)
  Decl "BYTE_TO_WSTRING" false [] (Ty S_WSTRING)
    [("IN", Input, Ty S_BYTE)] (Do (Call "STRING_TO_WSTRING_EXT" [Call "BYTE_TO_STRING" [Arg "IN"]; Result])); (* 298 *)
  Decl "LWORD_TO_WSTRING" false [] (Ty S_WSTRING)
    [("IN", Input, Ty S_LWORD)] (Do (Call "STRING_TO_WSTRING_EXT" [Call "LWORD_TO_STRING" [Arg "IN"]; Result])); (* 310 *)
  Decl "DWORD_TO_WSTRING" false [] (Ty S_WSTRING)
    [("IN", Input, Ty S_DWORD)] (Assign (Call "LWORD_TO_WSTRING" [Arg "IN"])); (* 322 *)
  Decl "LINT_TO_WSTRING" false [] (Ty S_WSTRING)
    [("IN", Input, Ty S_LINT)] (Do (Call "STRING_TO_WSTRING_EXT" [Call "LINT_TO_STRING" [Arg "IN"]; Result])); (* 334 *)
  Decl "DINT_TO_WSTRING" false [] (Ty S_WSTRING)
    [("IN", Input, Ty S_DINT)] (Assign (Call "LINT_TO_WSTRING" [Arg "IN"])); (* 346 *)
  Decl "LREAL_TO_STRING" false [] (Ty S_STRING)
    [("IN", Input, Ty S_LREAL)] (Do (Call "LREAL_TO_STRING_EXT" [Arg "IN"; Result])); (* 358 *)
  Decl "REAL_TO_STRING" false [] (Ty S_STRING)
    [("IN", Input, Ty S_REAL)] (Do (Call "LREAL_TO_STRING_EXT" [Arg "IN"; Result])); (* 370 *)
  Decl "LREAL_TO_WSTRING" false [] (Ty S_WSTRING)
    [("IN", Input, Ty S_LREAL)] (Do (Call "STRING_TO_WSTRING_EXT" [Call "LREAL_TO_STRING" [Arg "IN"]; Result])); (* 382 *)
  Decl "REAL_TO_WSTRING" false [] (Ty S_WSTRING)
    [("IN", Input, Ty S_REAL)] (Assign (Call "LREAL_TO_WSTRING" [Arg "IN"])); (* 394 *)
  Decl "TOD_TO_LWORD" false [] (Ty S_LWORD)
    [("IN", Input, Ty S_TOD)] Other; (* 406 *)
  Decl "LTOD_TO_LWORD" false [] (Ty S_LWORD)
    [("IN", Input, Ty S_TOD)] Other; (* 413 *)
  Decl "DT_TO_LWORD" false [] (Ty S_LWORD)
    [("IN", Input, Ty S_DT)] Other; (* 425 *)
  Decl "LDT_TO_LWORD" false [] (Ty S_LWORD)
    [("IN", Input, Ty S_DT)] Other; (* 432 *)
  Decl "DATE_TO_LWORD" false [] (Ty S_LWORD)
    [("IN", Input, Ty S_DATE)] Other; (* 444 *)
  Decl "LDATE_TO_LWORD" false [] (Ty S_LWORD)
    [("IN", Input, Ty S_DATE)] Other; (* 451 *)
  Decl "TIME_TO_LWORD" false [] (Ty S_LWORD)
    [("IN", Input, Ty S_TIME)] Other; (* 463 *)
  Decl "LTIME_TO_LWORD" false [] (Ty S_LWORD)
    [("IN", Input, Ty S_TIME)] Other; (* 470 *)
  Decl "STRING_TO_LINT" true [] (Ty S_LINT)
    [("IN", InputRef, Ty S_STRING)] Empty; (* 483 *)
  Decl "WSTRING_TO_LINT" false [] (Ty S_LINT)
    [("IN", InputRef, Ty S_WSTRING)] Other; (* 494 *)
  Decl "TIME_TO_LINT" false [] (Ty S_LINT)
    [("IN", Input, Ty S_TIME)] Other; (* 510 *)
  Decl "LTIME_TO_LINT" false [] (Ty S_LINT)
    [("IN", Input, Ty S_TIME)] Other; (* 517 *)
  Decl "TOD_TO_LINT" false [] (Ty S_LINT)
    [("IN", Input, Ty S_TOD)] Other; (* 529 *)
  Decl "LTOD_TO_LINT" false [] (Ty S_LINT)
    [("IN", Input, Ty S_TOD)] Other; (* 536 *)
  Decl "DT_TO_LINT" false [] (Ty S_LINT)
    [("IN", Input, Ty S_DT)] Other; (* 548 *)
  Decl "LDT_TO_LINT" false [] (Ty S_LINT)
    [("IN", Input, Ty S_DT)] Other; (* 555 *)
  Decl "DATE_TO_LINT" false [] (Ty S_LINT)
    [("IN", Input, Ty S_DATE)] Other; (* 567 *)
  Decl "LDATE_TO_LINT" false [] (Ty S_LINT)
    [("IN", Input, Ty S_DATE)] Other; (* 574 *)
  Decl "DT_TO_ULINT" false [] (Ty S_ULINT)
    [("IN", Input, Ty S_DT)] Other; (* 586 *)
  Decl "LDT_TO_ULINT" false [] (Ty S_ULINT)
    [("IN", Input, Ty S_DT)] Other; (* 593 *)
  Decl "TIME_TO_ULINT" false [] (Ty S_ULINT)
    [("IN", Input, Ty S_TIME)] Other; (* 605 *)
  Decl "LTIME_TO_ULINT" false [] (Ty S_ULINT)
    [("IN", Input, Ty S_TIME)] Other; (* 612 *)
  Decl "DATE_TO_ULINT" false [] (Ty S_ULINT)
    [("IN", Input, Ty S_DATE)] Other; (* 624 *)
  Decl "LDATE_TO_ULINT" false [] (Ty S_ULINT)
    [("IN", Input, Ty S_DATE)] Other; (* 631 *)
  Decl "TOD_TO_ULINT" false [] (Ty S_ULINT)
    [("IN", Input, Ty S_TOD)] Other; (* 643 *)
  Decl "LTOD_TO_ULINT" false [] (Ty S_ULINT)
    [("IN", Input, Ty S_TOD)] Other; (* 650 *)
  Decl "STRING_TO_DINT" true [] (Ty S_DINT)
    [("IN", InputRef, Ty S_STRING)] Empty; (* 663 *)
  Decl "WSTRING_TO_DINT" false [] (Ty S_DINT)
    [("IN", InputRef, Ty S_WSTRING)] Other; (* 674 *)
  Decl "STRING_TO_LREAL" true [] (Ty S_LREAL)
    [("IN", InputRef, Ty S_STRING)] Empty; (* 691 *)
  Decl "STRING_TO_REAL" true [] (Ty S_REAL)
    [("IN", InputRef, Ty S_STRING)] Empty; (* 703 *)
  Decl "WSTRING_TO_LREAL" false [] (Ty S_LREAL)
    [("IN", InputRef, Ty S_WSTRING)] Other; (* 714 *)
  Decl "WSTRING_TO_REAL" false [] (Ty S_REAL)
    [("IN", InputRef, Ty S_WSTRING)] Other; (* 730 *)
  Decl "TIME_TO_LREAL" false [] (Ty S_LREAL)
    [("IN", Input, Ty S_TIME)] Other; (* 747 *)
  Decl "LTIME_TO_LREAL" false [] (Ty S_LREAL)
    [("IN", Input, Ty S_TIME)] Other; (* 754 *)
  Decl "LREAL_TO_TIME" false [] (Ty S_TIME)
    [("IN", Input, Ty S_LREAL)] (Assign (Call "ROUND" [Arg "IN"])); (* 766 *)
  Decl "LREAL_TO_LTIME" false [] (Ty S_TIME)
    [("IN", Input, Ty S_LREAL)] (Assign (Call "ROUND" [Arg "IN"])); (* 774 *)
  Decl "LWORD_TO_DATE" false [] (Ty S_DATE)
    [("IN", Input, Ty S_LWORD)] Other; (* 786 *)
  Decl "LWORD_TO_LDATE" false [] (Ty S_DATE)
    [("IN", Input, Ty S_LWORD)] Other; (* 793 *)
  Decl "LWORD_TO_DT" false [] (Ty S_DT)
    [("IN", Input, Ty S_LWORD)] Other; (* 805 *)
  Decl "LWORD_TO_LDT" false [] (Ty S_DT)
    [("IN", Input, Ty S_LWORD)] Other; (* 812 *)
  Decl "LWORD_TO_TOD" false [] (Ty S_TOD)
    [("IN", Input, Ty S_LWORD)] Other; (* 824 *)
  Decl "LWORD_TO_LTOD" false [] (Ty S_TOD)
    [("IN", Input, Ty S_LWORD)] Other; (* 831 *)
  Decl "LWORD_TO_TIME" false [] (Ty S_TIME)
    [("IN", Input, Ty S_LWORD)] Other; (* 843 *)
  Decl "LWORD_TO_LTIME" false [] (Ty S_TIME)
    [("IN", Input, Ty S_LWORD)] Other; (* 850 *)
  Decl "ULINT_TO_DATE" false [] (Ty S_DATE)
    [("IN", Input, Ty S_ULINT)] Other; (* 862 *)
  Decl "ULINT_TO_LDATE" false [] (Ty S_DATE)
    [("IN", Input, Ty S_ULINT)] Other; (* 869 *)
  Decl "ULINT_TO_DT" false [] (Ty S_DT)
    [("IN", Input, Ty S_ULINT)] Other; (* 881 *)
  Decl "ULINT_TO_LDT" false [] (Ty S_DT)
    [("IN", Input, Ty S_ULINT)] Other; (* 888 *)
  Decl "ULINT_TO_TOD" false [] (Ty S_TOD)
    [("IN", Input, Ty S_ULINT)] Other; (* 900 *)
  Decl "ULINT_TO_LTOD" false [] (Ty S_TOD)
    [("IN", Input, Ty S_ULINT)] Other; (* 907 *)
  Decl "ULINT_TO_TIME" false [] (Ty S_TIME)
    [("IN", Input, Ty S_ULINT)] Other; (* 919 *)
  Decl "ULINT_TO_LTIME" false [] (Ty S_LTIME)
    [("IN", Input, Ty S_ULINT)] Other; (* 926 *)
  Decl "LINT_TO_TIME" false [] (Ty S_TIME)
    [("IN", Input, Ty S_LINT)] Other; (* 938 *)
  Decl "LINT_TO_LTIME" false [] (Ty S_TIME)
    [("IN", Input, Ty S_LINT)] Other; (* 945 *)
  Decl "LINT_TO_TOD" false [] (Ty S_TOD)
    [("IN", Input, Ty S_LINT)] Other; (* 957 *)
  Decl "LINT_TO_LTOD" false [] (Ty S_TOD)
    [("IN", Input, Ty S_LINT)] Other; (* 964 *)
  Decl "LINT_TO_DATE" false [] (Ty S_DATE)
    [("IN", Input, Ty S_LINT)] Other; (* 976 *)
  Decl "LINT_TO_LDATE" false [] (Ty S_DATE)
    [("IN", Input, Ty S_LINT)] Other; (* 983 *)
  Decl "LINT_TO_BOOL" false [] (Ty S_BOOL)
    [("IN", Input, Ty S_LINT)] Other; (* 995 *)
  Decl "DINT_TO_BOOL" false [] (Ty S_BOOL)
    [("IN", Input, Ty S_DINT)] (Assign (Call "LINT_TO_BOOL" [Arg "IN"])); (* 1011 *)
  Decl "TRUNC" false [("T", ANY_REAL)] (Ty S_LINT)
    [("IN", Input, Var "T")] Empty; (* 1023 *)
  Decl "TRUNC__REAL" false [] (Ty S_LINT)
    [("IN", Input, Ty S_REAL)] Other; (* 1029 *)
  Decl "TRUNC__LREAL" false [] (Ty S_LINT)
    [("IN", Input, Ty S_LREAL)] Other; (* 1036 *)
  Decl "TIME" true [] (Ty S_TIME)
    [] Empty; (* 1050 *)
  (* /repo/iec61131-st/num_conversion.st *)
  Decl "LREAL_TO_REAL" false [] (Ty S_REAL)
    [("in", Input, Ty S_LREAL)] Other; (* 6 *)
  Decl "LREAL_TO_LINT" false [] (Ty S_LINT)
    [("in", Input, Ty S_LREAL)] Other; (* 18 *)
  Decl "LREAL_TO_DINT" false [] (Ty S_DINT)
    [("in", Input, Ty S_LREAL)] Other; (* 30 *)
  Decl "LREAL_TO_INT" false [] (Ty S_INT)
    [("in", Input, Ty S_LREAL)] Other; (* 42 *)
  Decl "LREAL_TO_SINT" false [] (Ty S_SINT)
    [("in", Input, Ty S_LREAL)] Other; (* 54 *)
  Decl "LREAL_TO_ULINT" false [] (Ty S_ULINT)
    [("in", Input, Ty S_LREAL)] Other; (* 66 *)
  Decl "LREAL_TO_UDINT" false [] (Ty S_UDINT)
    [("in", Input, Ty S_LREAL)] Other; (* 78 *)
  Decl "LREAL_TO_UINT" false [] (Ty S_UINT)
    [("in", Input, Ty S_LREAL)] Other; (* 90 *)
  Decl "LREAL_TO_USINT" false [] (Ty S_USINT)
    [("in", Input, Ty S_LREAL)] Other; (* 102 *)
  Decl "REAL_TO_LREAL" false [] (Ty S_LREAL)
    [("in", Input, Ty S_REAL)] Other; (* 114 *)
  Decl "REAL_TO_LINT" false [] (Ty S_LINT)
    [("in", Input, Ty S_REAL)] Other; (* 126 *)
  Decl "REAL_TO_DINT" false [] (Ty S_DINT)
    [("in", Input, Ty S_REAL)] Other; (* 138 *)
  Decl "REAL_TO_INT" false [] (Ty S_INT)
    [("in", Input, Ty S_REAL)] Other; (* 150 *)
  Decl "REAL_TO_SINT" false [] (Ty S_SINT)
    [("in", Input, Ty S_REAL)] Other; (* 162 *)
  Decl "REAL_TO_ULINT" false [] (Ty S_ULINT)
    [("in", Input, Ty S_REAL)] Other; (* 174 *)
  Decl "REAL_TO_UDINT" false [] (Ty S_UDINT)
    [("in", Input, Ty S_REAL)] Other; (* 186 *)
  Decl "REAL_TO_UINT" false [] (Ty S_UINT)
    [("in", Input, Ty S_REAL)] Other; (* 198 *)
  Decl "REAL_TO_USINT" false [] (Ty S_USINT)
    [("in", Input, Ty S_REAL)] Other; (* 210 *)
  Decl "LINT_TO_LREAL" false [] (Ty S_LREAL)
    [("in", Input, Ty S_LINT)] Other; (* 222 *)
  Decl "LINT_TO_REAL" false [] (Ty S_REAL)
    [("in", Input, Ty S_LINT)] Other; (* 234 *)
  Decl "LINT_TO_DINT" false [] (Ty S_DINT)
    [("in", Input, Ty S_LINT)] Other; (* 246 *)
  Decl "LINT_TO_INT" false [] (Ty S_INT)
    [("in", Input, Ty S_LINT)] Other; (* 258 *)
  Decl "LINT_TO_SINT" false [] (Ty S_SINT)
    [("in", Input, Ty S_LINT)] Other; (* 270 *)
  Decl "LINT_TO_ULINT" false [] (Ty S_ULINT)
    [("in", Input, Ty S_LINT)] Other; (* 282 *)
  Decl "LINT_TO_UDINT" false [] (Ty S_UDINT)
    [("in", Input, Ty S_LINT)] Other; (* 294 *)
  Decl "LINT_TO_UINT" false [] (Ty S_UINT)
    [("in", Input, Ty S_LINT)] Other; (* 306 *)
  Decl "LINT_TO_USINT" false [] (Ty S_USINT)
    [("in", Input, Ty S_LINT)] Other; (* 318 *)
  Decl "DINT_TO_LREAL" false [] (Ty S_LREAL)
    [("in", Input, Ty S_DINT)] Other; (* 330 *)
  Decl "DINT_TO_REAL" false [] (Ty S_REAL)
    [("in", Input, Ty S_DINT)] Other; (* 342 *)
  Decl "DINT_TO_LINT" false [] (Ty S_LINT)
    [("in", Input, Ty S_DINT)] Other; (* 354 *)
  Decl "DINT_TO_INT" false [] (Ty S_INT)
    [("in", Input, Ty S_DINT)] Other; (* 366 *)
  Decl "DINT_TO_SINT" false [] (Ty S_SINT)
    [("in", Input, Ty S_DINT)] Other; (* 378 *)
  Decl "DINT_TO_ULINT" false [] (Ty S_ULINT)
    [("in", Input, Ty S_DINT)] Other; (* 390 *)
  Decl "DINT_TO_UDINT" false [] (Ty S_UDINT)
    [("in", Input, Ty S_DINT)] Other; (* 402 *)
  Decl "DINT_TO_UINT" false [] (Ty S_UINT)
    [("in", Input, Ty S_DINT)] Other; (* 414 *)
  Decl "DINT_TO_USINT" false [] (Ty S_USINT)
    [("in", Input, Ty S_DINT)] Other; (* 426 *)
  Decl "INT_TO_LREAL" false [] (Ty S_LREAL)
    [("in", Input, Ty S_INT)] Other; (* 438 *)
  Decl "INT_TO_REAL" false [] (Ty S_REAL)
    [("in", Input, Ty S_INT)] Other; (* 450 *)
  Decl "INT_TO_LINT" false [] (Ty S_LINT)
    [("in", Input, Ty S_INT)] Other; (* 462 *)
  Decl "INT_TO_DINT" false [] (Ty S_DINT)
    [("in", Input, Ty S_INT)] Other; (* 474 *)
  Decl "INT_TO_SINT" false [] (Ty S_SINT)
    [("in", Input, Ty S_INT)] Other; (* 486 *)
  Decl "INT_TO_ULINT" false [] (Ty S_ULINT)
    [("in", Input, Ty S_INT)] Other; (* 498 *)
  Decl "INT_TO_UDINT" false [] (Ty S_UDINT)
    [("in", Input, Ty S_INT)] Other; (* 510 *)
  Decl "INT_TO_UINT" false [] (Ty S_UINT)
    [("in", Input, Ty S_INT)] Other; (* 522 *)
  Decl "INT_TO_USINT" false [] (Ty S_USINT)
    [("in", Input, Ty S_INT)] Other; (* 534 *)
  Decl "SINT_TO_LREAL" false [] (Ty S_LREAL)
    [("in", Input, Ty S_SINT)] Other; (* 546 *)
  Decl "SINT_TO_REAL" false [] (Ty S_REAL)
    [("in", Input, Ty S_SINT)] Other; (* 558 *)
  Decl "SINT_TO_LINT" false [] (Ty S_LINT)
    [("in", Input, Ty S_SINT)] Other; (* 570 *)
  Decl "SINT_TO_DINT" false [] (Ty S_DINT)
    [("in", Input, Ty S_SINT)] Other; (* 582 *)
  Decl "SINT_TO_INT" false [] (Ty S_INT)
    [("in", Input, Ty S_SINT)] Other; (* 594 *)
  Decl "SINT_TO_ULINT" false [] (Ty S_ULINT)
    [("in", Input, Ty S_SINT)] Other; (* 606 *)
  Decl "SINT_TO_UDINT" false [] (Ty S_UDINT)
    [("in", Input, Ty S_SINT)] Other; (* 618 *)
  Decl "SINT_TO_UINT" false [] (Ty S_UINT)
    [("in", Input, Ty S_SINT)] Other; (* 630 *)
  Decl "SINT_TO_USINT" false [] (Ty S_USINT)
    [("in", Input, Ty S_SINT)] Other; (* 642 *)
  Decl "ULINT_TO_LREAL" false [] (Ty S_LREAL)
    [("in", Input, Ty S_ULINT)] Other; (* 654 *)
  Decl "ULINT_TO_REAL" false [] (Ty S_REAL)
    [("in", Input, Ty S_ULINT)] Other; (* 666 *)
  Decl "ULINT_TO_LINT" false [] (Ty S_LINT)
    [("in", Input, Ty S_ULINT)] Other; (* 678 *)
  Decl "ULINT_TO_DINT" false [] (Ty S_DINT)
    [("in", Input, Ty S_ULINT)] Other; (* 690 *)
  Decl "ULINT_TO_INT" false [] (Ty S_INT)
    [("in", Input, Ty S_ULINT)] Other; (* 702 *)
  Decl "ULINT_TO_SINT" false [] (Ty S_SINT)
    [("in", Input, Ty S_ULINT)] Other; (* 714 *)
  Decl "ULINT_TO_UDINT" false [] (Ty S_UDINT)
    [("in", Input, Ty S_ULINT)] Other; (* 726 *)
  Decl "ULINT_TO_UINT" false [] (Ty S_UINT)
    [("in", Input, Ty S_ULINT)] Other; (* 738 *)
  Decl "ULINT_TO_USINT" false [] (Ty S_USINT)
    [("in", Input, Ty S_ULINT)] Other; (* 750 *)
  Decl "UDINT_TO_LREAL" false [] (Ty S_LREAL)
    [("in", Input, Ty S_UDINT)] Other; (* 762 *)
  Decl "UDINT_TO_REAL" false [] (Ty S_REAL)
    [("in", Input, Ty S_UDINT)] Other; (* 774 *)
  Decl "UDINT_TO_LINT" false [] (Ty S_LINT)
    [("in", Input, Ty S_UDINT)] Other; (* 786 *)
  Decl "UDINT_TO_DINT" false [] (Ty S_DINT)
    [("in", Input, Ty S_UDINT)] Other; (* 798 *)
  Decl "UDINT_TO_INT" false [] (Ty S_INT)
    [("in", Input, Ty S_UDINT)] Other; (* 810 *)
  Decl "UDINT_TO_SINT" false [] (Ty S_SINT)
    [("in", Input, Ty S_UDINT)] Other; (* 822 *)
  Decl "UDINT_TO_ULINT" false [] (Ty S_ULINT)
    [("in", Input, Ty S_UDINT)] Other; (* 834 *)
  Decl "UDINT_TO_UINT" false [] (Ty S_UINT)
    [("in", Input, Ty S_UDINT)] Other; (* 846 *)
  Decl "UDINT_TO_USINT" false [] (Ty S_USINT)
    [("in", Input, Ty S_UDINT)] Other; (* 858 *)
  Decl "UINT_TO_LREAL" false [] (Ty S_LREAL)
    [("in", Input, Ty S_UINT)] Other; (* 870 *)
  Decl "UINT_TO_REAL" false [] (Ty S_REAL)
    [("in", Input, Ty S_UINT)] Other; (* 882 *)
  Decl "UINT_TO_LINT" false [] (Ty S_LINT)
    [("in", Input, Ty S_UINT)] Other; (* 894 *)
  Decl "UINT_TO_DINT" false [] (Ty S_DINT)
    [("in", Input, Ty S_UINT)] Other; (* 906 *)
  Decl "UINT_TO_INT" false [] (Ty S_INT)
    [("in", Input, Ty S_UINT)] Other; (* 918 *)
  Decl "UINT_TO_SINT" false [] (Ty S_SINT)
    [("in", Input, Ty S_UINT)] Other; (* 930 *)
  Decl "UINT_TO_ULINT" false [] (Ty S_ULINT)
    [("in", Input, Ty S_UINT)] Other; (* 942 *)
  Decl "UINT_TO_UDINT" false [] (Ty S_UDINT)
    [("in", Input, Ty S_UINT)] Other; (* 954 *)
  Decl "UINT_TO_USINT" false [] (Ty S_USINT)
    [("in", Input, Ty S_UINT)] Other; (* 966 *)
  Decl "USINT_TO_LREAL" false [] (Ty S_LREAL)
    [("in", Input, Ty S_USINT)] Other; (* 978 *)
  Decl "USINT_TO_REAL" false [] (Ty S_REAL)
    [("in", Input, Ty S_USINT)] Other; (* 990 *)
  Decl "USINT_TO_LINT" false [] (Ty S_LINT)
    [("in", Input, Ty S_USINT)] Other; (* 1002 *)
  Decl "USINT_TO_DINT" false [] (Ty S_DINT)
    [("in", Input, Ty S_USINT)] Other; (* 1014 *)
  Decl "USINT_TO_INT" false [] (Ty S_INT)
    [("in", Input, Ty S_USINT)] Other; (* 1026 *)
  Decl "USINT_TO_SINT" false [] (Ty S_SINT)
    [("in", Input, Ty S_USINT)] Other; (* 1038 *)
  Decl "USINT_TO_ULINT" false [] (Ty S_ULINT)
    [("in", Input, Ty S_USINT)] Other; (* 1050 *)
  Decl "USINT_TO_UDINT" false [] (Ty S_UDINT)
    [("in", Input, Ty S_USINT)] Other; (* 1062 *)
  Decl "USINT_TO_UINT" false [] (Ty S_UINT)
    [("in", Input, Ty S_USINT)] Other; (* 1074 *)
  (* /repo/iec61131-st/numerical_functions.st *)
  Decl "ABS" false [("T", ANY_NUM)] (Var "T")
    [("IN", Input, Var "T")] Empty; (* 6 *)
  Decl "ABS__DINT" false [] (Ty S_DINT)
    [("IN", Input, Ty S_DINT)] Other; (* 15 *)
  Decl "ABS__SINT" false [] (Ty S_SINT)
    [("IN", Input, Ty S_SINT)] Other; (* 26 *)
  Decl "ABS__INT" false [] (Ty S_INT)
    [("IN", Input, Ty S_INT)] Other; (* 34 *)
  Decl "ABS__LINT" false [] (Ty S_LINT)
    [("IN", Input, Ty S_LINT)] Other; (* 42 *)
  Decl "ABS__REAL" false [] (Ty S_REAL)
    [("IN", Input, Ty S_REAL)] Other; (* 53 *)
  Decl "ABS__LREAL" false [] (Ty S_LREAL)
    [("IN", Input, Ty S_LREAL)] Other; (* 61 *)
  Decl "ROUND" true [("T", ANY_REAL)] (Var "T")
    [("in", Input, Var "T")] Empty; (* 78 *)
  (* /repo/iec61131-st/selectors.st *)
  Decl "MAX" true [("T", ANY_ELEMENTARY)] (Var "T")
    [("IN", Sized, Var "T")] Empty; (* 9 *)
  Decl "MIN" true [("T", ANY_ELEMENTARY)] (Var "T")
    [("IN", Sized, Var "T")] Empty; (* 23 *)
  Decl "LIMIT" true [("T", ANY_ELEMENTARY)] (Var "T")
    [("MIN", Input, Var "T"); ("IN", Input, Var "T"); ("MAX", Input, Var "T")] Empty; (* 40 *)
  (* /repo/iec61131-st/string_conversion.st *)
  Decl "WSTRING_TO_STRING" false [] (Ty S_STRING)
    [("in", InputRef, Ty S_WSTRING)] (Do (Call "WSTRING_TO_STRING_EXT" [Arg "in"; Result])); (* 6 *)
  Decl "WSTRING_TO_STRING_EXT" true [] (Ty S_DINT)
    [("in", InputRef, Ty S_WSTRING); ("out", InOut, Ty S_STRING)] Empty; (* 14 *)
  Decl "WSTRING_TO_WCHAR" false [] (Ty S_WCHAR)
    [("in", InputRef, Ty S_WSTRING)] Other; (* 28 *)
  Decl "STRING_TO_WSTRING" false [] (Ty S_WSTRING)
    [("in", InputRef, Ty S_STRING)] (Do (Call "STRING_TO_WSTRING_EXT" [Arg "in"; Result])); (* 45 *)
  Decl "STRING_TO_WSTRING_EXT" true [] (Ty S_DINT)
    [("in", InputRef, Ty S_STRING); ("out", InOut, Ty S_WSTRING)] Empty; (* 53 *)
  Decl "STRING_TO_CHAR" false [] (Ty S_CHAR)
    [("in", InputRef, Ty S_STRING)] Other; (* 67 *)
  Decl "WCHAR_TO_WSTRING" false [] (Ty S_WSTRING)
    [("in", Input, Ty S_WCHAR)] Other; (* 83 *)
  Decl "WCHAR_TO_CHAR" true [] (Ty S_CHAR)
    [("in", Input, Ty S_WCHAR)] Empty; (* 100 *)
  Decl "CHAR_TO_STRING" false [] (Ty S_STRING)
    [("in", Input, Ty S_CHAR)] Other; (* 111 *)
  Decl "CHAR_TO_WCHAR" true [] (Ty S_WCHAR)
    [("in", Input, Ty S_CHAR)] Empty; (* 128 *)
  (* /repo/iec61131-st/string_functions.st *)
  Decl "LEN" true [("T", ANY_STRING)] (Ty S_DINT)
    [("IN", InputRef, Var "T")] Empty; (* 12 *)
  Decl "LEFT" false [("T", ANY_STRING)] (Var "T")
    [("IN", InputRef, Var "T"); ("L", Input, Ty S_DINT)] Empty; (* 25 *)
  Decl "LEFT_EXT" true [("T", ANY_STRING)] (Ty S_DINT)
    [("IN", InputRef, Var "T"); ("L", Input, Ty S_DINT); ("OUT", InOut, Var "T")] Empty; (* 35 *)
  Decl "LEFT__STRING" false [] (Ty S_STRING)
    [("IN", InputRef, Ty S_STRING); ("L", Input, Ty S_DINT)] (Do (Call "LEFT_EXT" [Arg "IN"; Arg "L"; Result])); (* 47 *)
  Decl "LEFT__WSTRING" false [] (Ty S_WSTRING)
    [("IN", InputRef, Ty S_WSTRING); ("L", Input, Ty S_DINT)] (Do (Call "LEFT_EXT" [Arg "IN"; Arg "L"; Result])); (* 57 *)
  Decl "LEFT_EXT__STRING" true [] (Ty S_DINT)
    [("IN", InputRef, Ty S_STRING); ("L", Input, Ty S_DINT); ("OUT", InOut, Ty S_STRING)] Empty; (* 68 *)
  Decl "LEFT_EXT__WSTRING" true [] (Ty S_DINT)
    [("IN", InputRef, Ty S_WSTRING); ("L", Input, Ty S_DINT); ("OUT", InOut, Ty S_WSTRING)] Empty; (* 81 *)
  Decl "RIGHT" false [("T", ANY_STRING)] (Var "T")
    [("IN", InputRef, Var "T"); ("L", Input, Ty S_DINT)] Empty; (* 100 *)
  Decl "RIGHT_EXT" true [("T", ANY_STRING)] (Ty S_DINT)
    [("IN", InputRef, Var "T"); ("L", Input, Ty S_DINT); ("OUT", InOut, Var "T")] Empty; (* 110 *)
  Decl "RIGHT__STRING" false [] (Ty S_STRING)
    [("IN", InputRef, Ty S_STRING); ("L", Input, Ty S_DINT)] (Do (Call "RIGHT_EXT" [Arg "IN"; Arg "L"; Result])); (* 122 *)
  Decl "RIGHT__WSTRING" false [] (Ty S_WSTRING)
    [("IN", InputRef, Ty S_WSTRING); ("L", Input, Ty S_DINT)] (Do (Call "RIGHT_EXT" [Arg "IN"; Arg "L"; Result])); (* 132 *)
  Decl "RIGHT_EXT__STRING" true [] (Ty S_DINT)
    [("IN", InputRef, Ty S_STRING); ("L", Input, Ty S_DINT); ("OUT", InOut, Ty S_STRING)] Empty; (* 143 *)
  Decl "RIGHT_EXT__WSTRING" true [] (Ty S_DINT)
    [("IN", InputRef, Ty S_WSTRING); ("L", Input, Ty S_DINT); ("OUT", InOut, Ty S_WSTRING)] Empty; (* 156 *)
  Decl "MID" false [("T", ANY_STRING)] (Var "T")
    [("IN", InputRef, Var "T"); ("L", Input, Ty S_DINT); ("P", Input, Ty S_DINT)] Empty; (* 178 *)
  Decl "MID_EXT" true [("T", ANY_STRING)] (Ty S_DINT)
    [("IN", InputRef, Var "T"); ("L", Input, Ty S_DINT); ("P", Input, Ty S_DINT); ("OUT", InOut, Var "T")] Empty; (* 189 *)
  Decl "MID__STRING" false [] (Ty S_STRING)
    [("IN", InputRef, Ty S_STRING); ("L", Input, Ty S_DINT); ("P", Input, Ty S_DINT)] (Do (Call "MID_EXT" [Arg "IN"; Arg "L"; Arg "P"; Result])); (* 202 *)
  Decl "MID__WSTRING" false [] (Ty S_WSTRING)
    [("IN", InputRef, Ty S_WSTRING); ("L", Input, Ty S_DINT); ("P", Input, Ty S_DINT)] (Do (Call "MID_EXT" [Arg "IN"; Arg "L"; Arg "P"; Result])); (* 213 *)
  Decl "MID_EXT__STRING" true [] (Ty S_DINT)
    [("IN", InputRef, Ty S_STRING); ("L", Input, Ty S_DINT); ("P", Input, Ty S_DINT); ("OUT", InOut, Ty S_STRING)] Empty; (* 225 *)
  Decl "MID_EXT__WSTRING" true [] (Ty S_DINT)
    [("IN", InputRef, Ty S_WSTRING); ("L", Input, Ty S_DINT); ("P", Input, Ty S_DINT); ("OUT", InOut, Ty S_WSTRING)] Empty; (* 239 *)
  Decl "CONCAT__STRING" true [] (Ty S_STRING)
    [("args", SizedRef, Ty S_STRING)] Empty; (* 262 *)
  Decl "CONCAT__WSTRING" true [] (Ty S_WSTRING)
    [("args", SizedRef, Ty S_WSTRING)] Empty; (* 269 *)
  Decl "CONCAT" false [("T", ANY_STRING)] (Var "T")
    [("args", SizedRef, Var "T")] Empty; (* 275 *)
  Decl "CONCAT_EXT" true [("T", ANY_STRING)] (Ty S_DINT)
    [("OUT", InOut, Var "T"); ("args", SizedRef, Var "T")] Empty; (* 282 *)
  Decl "INSERT" false [("T", ANY_STRING)] (Var "T")
    [("IN1", InputRef, Var "T"); ("IN2", InputRef, Var "T"); ("P", Input, Ty S_DINT)] Empty; (* 300 *)
  Decl "INSERT_EXT" true [("T", ANY_STRING)] (Ty S_DINT)
    [("IN1", InputRef, Var "T"); ("IN2", InputRef, Var "T"); ("P", Input, Ty S_DINT); ("OUT", InOut, Var "T")] Empty; (* 311 *)
  Decl "INSERT__STRING" false [] (Ty S_STRING)
    [("IN1", InputRef, Ty S_STRING); ("IN2", InputRef, Ty S_STRING); ("P", Input, Ty S_DINT)] (Do (Call "INSERT_EXT" [Arg "IN1"; Arg "IN2"; Arg "P"; Result])); (* 324 *)
  Decl "INSERT__WSTRING" false [] (Ty S_WSTRING)
    [("IN1", InputRef, Ty S_WSTRING); ("IN2", InputRef, Ty S_WSTRING); ("P", Input, Ty S_DINT)] (Do (Call "INSERT_EXT" [Arg "IN1"; Arg "IN2"; Arg "P"; Result])); (* 335 *)
  Decl "INSERT_EXT__STRING" true [] (Ty S_DINT)
    [("IN1", InputRef, Ty S_STRING); ("IN2", InputRef, Ty S_STRING); ("P", Input, Ty S_DINT); ("OUT", InOut, Ty S_STRING)] Empty; (* 347 *)
  Decl "INSERT_EXT__WSTRING" true [] (Ty S_DINT)
    [("IN1", InputRef, Ty S_WSTRING); ("IN2", InputRef, Ty S_WSTRING); ("P", Input, Ty S_DINT); ("OUT", InOut, Ty S_WSTRING)] Empty; (* 361 *)
  Decl "DELETE" false [("T", ANY_STRING)] (Var "T")
    [("IN", InputRef, Var "T"); ("L", Input, Ty S_DINT); ("P", Input, Ty S_DINT)] Empty; (* 382 *)
  Decl "DELETE_EXT" true [("T", ANY_STRING)] (Ty S_DINT)
    [("IN", InputRef, Var "T"); ("L", Input, Ty S_DINT); ("P", Input, Ty S_DINT); ("OUT", InOut, Var "T")] Empty; (* 393 *)
  Decl "DELETE__STRING" false [] (Ty S_STRING)
    [("IN", InputRef, Ty S_STRING); ("L", Input, Ty S_DINT); ("P", Input, Ty S_DINT)] (Do (Call "DELETE_EXT" [Arg "IN"; Arg "L"; Arg "P"; Result])); (* 406 *)
  Decl "DELETE__WSTRING" false [] (Ty S_WSTRING)
    [("IN", InputRef, Ty S_WSTRING); ("L", Input, Ty S_DINT); ("P", Input, Ty S_DINT)] (Do (Call "DELETE_EXT" [Arg "IN"; Arg "L"; Arg "P"; Result])); (* 417 *)
  Decl "DELETE_EXT__STRING" true [] (Ty S_DINT)
    [("IN", InputRef, Ty S_STRING); ("L", Input, Ty S_DINT); ("P", Input, Ty S_DINT); ("OUT", InOut, Ty S_STRING)] Empty; (* 429 *)
  Decl "DELETE_EXT__WSTRING" true [] (Ty S_DINT)
    [("IN", InputRef, Ty S_WSTRING); ("L", Input, Ty S_DINT); ("P", Input, Ty S_DINT); ("OUT", InOut, Ty S_WSTRING)] Empty; (* 443 *)
  Decl "REPLACE" false [("T", ANY_STRING)] (Var "T")
    [("IN1", InputRef, Var "T"); ("IN2", InputRef, Var "T"); ("L", Input, Ty S_DINT); ("P", Input, Ty S_DINT)] Empty; (* 464 *)
  Decl "REPLACE_EXT" true [("T", ANY_STRING)] (Ty S_DINT)
    [("IN1", InputRef, Var "T"); ("IN2", InputRef, Var "T"); ("L", Input, Ty S_DINT); ("P", Input, Ty S_DINT); ("OUT", InOut, Var "T")] Empty; (* 476 *)
  Decl "REPLACE__STRING" false [] (Ty S_STRING)
    [("IN1", InputRef, Ty S_STRING); ("IN2", InputRef, Ty S_STRING); ("L", Input, Ty S_DINT); ("P", Input, Ty S_DINT)] (Do (Call "REPLACE_EXT" [Arg "IN1"; Arg "IN2"; Arg "L"; Arg "P"; Result])); (* 490 *)
  Decl "REPLACE__WSTRING" false [] (Ty S_WSTRING)
    [("IN1", InputRef, Ty S_WSTRING); ("IN2", InputRef, Ty S_WSTRING); ("L", Input, Ty S_DINT); ("P", Input, Ty S_DINT)] (Do (Call "REPLACE_EXT" [Arg "IN1"; Arg "IN2"; Arg "L"; Arg "P"; Result])); (* 502 *)
  Decl "REPLACE_EXT__STRING" true [] (Ty S_DINT)
    [("IN1", InputRef, Ty S_STRING); ("IN2", InputRef, Ty S_STRING); ("L", Input, Ty S_DINT); ("P", Input, Ty S_DINT); ("OUT", InOut, Ty S_STRING)] Empty; (* 515 *)
  Decl "REPLACE_EXT__WSTRING" true [] (Ty S_DINT)
    [("IN1", InputRef, Ty S_WSTRING); ("IN2", InputRef, Ty S_WSTRING); ("L", Input, Ty S_DINT); ("P", Input, Ty S_DINT); ("OUT", InOut, Ty S_WSTRING)] Empty; (* 530 *)
  Decl "FIND" true [("T", ANY_STRING)] (Ty S_DINT)
    [("IN1", InputRef, Var "T"); ("IN2", InputRef, Var "T")] Empty; (* 553 *)
  Decl "GT" true [("T", ANY_STRING)] (Ty S_BOOL)
    [("IN1", SizedRef, Var "T")] Empty; (* 568 *)
  Decl "STRING_GREATER" false [] (Ty S_BOOL)
    [("a", Input, Ty S_STRING); ("b", Input, Ty S_STRING)] Other; (* 575 *)
  Decl "WSTRING_GREATER" false [] (Ty S_BOOL)
    [("a", Input, Ty S_WSTRING); ("b", Input, Ty S_WSTRING)] Other; (* 582 *)
  Decl "GE" true [("T", ANY_STRING)] (Ty S_BOOL)
    [("IN1", SizedRef, Var "T")] Empty; (* 596 *)
  Decl "EQ" true [("T", ANY_STRING)] (Ty S_BOOL)
    [("IN1", SizedRef, Var "T")] Empty; (* 610 *)
  Decl "STRING_EQUAL" false [] (Ty S_BOOL)
    [("a", Input, Ty S_STRING); ("b", Input, Ty S_STRING)] Other; (* 616 *)
  Decl "WSTRING_EQUAL" false [] (Ty S_BOOL)
    [("a", Input, Ty S_WSTRING); ("b", Input, Ty S_WSTRING)] Other; (* 623 *)
  Decl "LE" true [("T", ANY_STRING)] (Ty S_BOOL)
    [("IN1", SizedRef, Var "T")] Empty; (* 638 *)
  Decl "LT" true [("T", ANY_STRING)] (Ty S_BOOL)
    [("IN1", SizedRef, Var "T")] Empty; (* 652 *)
  Decl "STRING_LESS" false [] (Ty S_BOOL)
    [("a", Input, Ty S_STRING); ("b", Input, Ty S_STRING)] Other; (* 658 *)
  Decl "WSTRING_LESS" false [] (Ty S_BOOL)
    [("a", Input, Ty S_WSTRING); ("b", Input, Ty S_WSTRING)] Other; (* 665 *)
  Decl "NE" true [("T", ANY_STRING)] (Ty S_BOOL)
    [("IN1", InputRef, Var "T"); ("IN2", InputRef, Var "T")] Empty; (* 680 *)
  (* /repo/iec61131-st/validation_functions.st *)
  Decl "IS_VALID" true [("T", ANY_REAL)] (Ty S_BOOL)
    [("IN", Input, Var "T")] Empty; (* 10 *)
  Decl "IS_VALID_BCD" true [("T", ANY_BIT)] (Ty S_BOOL)
    [("IN", Input, Var "T")] Empty (* 27 *)
].

(** The name of a type in the name of a generic instance, e.g. MAX__TIME_OF_DAY
    (/repo/src/types.rs:140).  The L-types are aliases of the short ones in RuSTy. *)
Definition ty_name (t : sty) : string :=
  match t with
  | S_BOOL => "BOOL" | S_BYTE => "BYTE" | S_WORD => "WORD" | S_DWORD => "DWORD" | S_LWORD => "LWORD"
  | S_SINT => "SINT" | S_INT => "INT" | S_DINT => "DINT" | S_LINT => "LINT"
  | S_USINT => "USINT" | S_UINT => "UINT" | S_UDINT => "UDINT" | S_ULINT => "ULINT"
  | S_REAL => "REAL" | S_LREAL => "LREAL" | S_CHAR => "CHAR" | S_WCHAR => "WCHAR"
  | S_TIME | S_LTIME => "TIME" | S_DATE | S_LDATE => "DATE"
  | S_TOD | S_LTOD => "TIME_OF_DAY" | S_DT | S_LDT => "DATE_AND_TIME"
  | S_STRING => "STRING" | S_WSTRING => "WSTRING"
  end.
(** The instance of generic [g] for the types [ts], e.g. EXPT__REAL__DINT
    (/repo/src/arithmetic_functions.rs). *)
Definition instance_name (g : string) (ts : list sty) : string :=
  fold_left (fun n t => n ++ "__" ++ ty_name t) ts g.

(** The declaration of a name in /repo/iec61131-st/*.st. *)
Definition find_decl (n : string) : option decl := find (fun d => String.eqb (d_name d) n) st_decls.
(** The function of that name exported by /repo/src/*.rs. *)
Definition find_symbol (n : string) : option symbol :=
  find (fun s => String.eqb (sy_name s) n) rust_symbols.

(** * Execution of the functions that only call others

    [V] is any type of values and [ext n actuals] any behaviour of the functions that are not
    calls of others (externals and [Other] bodies): it gets the values of all parameters, in the
    order of the declaration, and returns the result and the final values of the parameters.
    Arguments are passed without conversion, which is right only for types of the same
    representation; others are [Ub] here (DWORD_TO_STRING and the like are in ModelExtra.v).  The
    correspondence of /repo/iec61131-st/*.st with the signatures of /repo/src/*.rs (lines in the two
    tables). *)
Definition repr (t : sty) : rty :=
  match t with
  | S_BOOL | S_BYTE | S_USINT | S_CHAR => U8 | S_WORD | S_UINT | S_WCHAR => U16
  | S_DWORD | S_UDINT => U32 | S_LWORD | S_ULINT => U64
  | S_SINT => I8 | S_INT => I16 | S_DINT => I32 | S_LINT => I64
  | S_REAL => RF32 | S_LREAL => RF64
  | S_TIME | S_LTIME | S_DATE | S_LDATE | S_TOD | S_LTOD | S_DT | S_LDT => I64
  | S_STRING => Ptr true U8 | S_WSTRING => Ptr true U16
  end.
(** Equality of the types of signatures (/repo/src/*.rs). *)
Fixpoint rty_eqb (a b : rty) : bool :=
  match a, b with
  | U8, U8 | U16, U16 | U32, U32 | U64, U64 | I8, I8 | I16, I16 | I32, I32 | I64, I64
  | RF32, RF32 | RF64, RF64 | RBool, RBool | Unit, Unit | Inst, Inst => true
  | Ptr m s, Ptr n t => Bool.eqb m n && rty_eqb s t
  | _, _ => false
  end.

(** The type a type variable gets from the arguments.  Generic functions: e.g.
    /repo/iec61131-st/arithmetic_functions.st:17. *)
Fixpoint infer (x : string) (ps : list (string * pkind * tyref)) (ts : list sty) : option sty :=
  match ps, ts with
  | (_, _, Var y) :: ps', t :: ts' => if String.eqb x y then Some t else infer x ps' ts'
  | (_, _, Ty _) :: ps', _ :: ts' => infer x ps' ts'
  | _, _ => None
  end.
(** Variadic parameters take all the remaining arguments.  E.g. /repo/iec61131-st/selectors.st:11
    ([{sized} T...]). *)
Definition variadic (d : decl) : option (string * pkind * tyref) :=
  match d_params d with [(n, Sized, t)] => Some (n, Sized, t) | [(n, SizedRef, t)] => Some (n, SizedRef, t)
  | _ => None end.
(** Every type variable of a generic function (/repo/iec61131-st/arithmetic_functions.st:17) has a
    type. *)
Fixpoint all_some {A} (l : list (option A)) : option (list A) :=
  match l with
  | [] => Some []
  | Some a :: r => option_map (cons a) (all_some r)
  | None :: _ => None
  end.
(** The function a call denotes: the instance selected by the argument types.  E.g. the calls at
    /repo/iec61131-st/string_functions.st:122-130. *)
Definition resolve (f : string) (ts : list sty) : option string :=
  match find_decl f with
  | Some d =>
      match d_generic d with
      | [] => Some f
      | g =>
          let ps := match variadic d with Some p => map (fun _ => p) ts | None => d_params d end in
          option_map (instance_name f) (all_some (map (fun x => infer (fst x) ps ts) g))
      end
  | None => None
  end.
(** Declared parameter types of a function that is not generic, or of an instance without
    declaration of its own.  E.g. /repo/iec61131-st/arithmetic_functions.st:17. *)
Definition subst (g : list (string * class)) (ts : list sty) (t : tyref) : option sty :=
  match t with
  | Ty s => Some s
  | Var x => option_map snd (find (fun p => String.eqb (fst p) x) (combine (map fst g) ts))
  end.

(** Variables: name, type and value; the result variable is called [@].  VAR sections of
    /repo/iec61131-st/*.st. *)
Definition env (V : Type) := list (string * (sty * V)).
(** Reading a variable in a body, e.g. /repo/iec61131-st/extra_functions.st:10. *)
Definition get {V} (x : string) (r : env V) : outcome (sty * V) :=
  match find (fun p => String.eqb (fst p) x) r with Some p => Ok (snd p) | None => Ub end.
(** Assigning a variable in a body, e.g. /repo/iec61131-st/extra_functions.st:500. *)
Definition put {V} (x : string) (v : V) (r : env V) : env V :=
  map (fun p => if String.eqb (fst p) x then (x, (fst (snd p), v)) else p) r.

(** Final values of the parameters into the variables given for VAR_OUTPUT and VAR_IN_OUT.  E.g.
    /repo/iec61131-st/string_functions.st:122-130. *)
Fixpoint copy_out {V} (ps : list (string * pkind * tyref)) (args : list expr) (outs : list V) (r : env V)
    : env V :=
  match ps, args, outs with
  | (_, k, _) :: ps', a :: args', v :: outs' =>
      let r' := copy_out ps' args' outs' r in
      match k, a with
      | Output, Arg x | InOut, Arg x => put x v r'
      | Output, Result | InOut, Result => put "@" v r'
      | _, _ => r'
      end
  | _, _, _ => r
  end.
(** Actual and declared parameter types (/repo/iec61131-st/*.st). *)
Fixpoint same_reprs (ts : list sty) (ps : list (string * pkind * tyref)) : bool :=
  match ts, ps with
  | [], [] => true
  | t :: ts', (_, _, Ty s) :: ps' => rty_eqb (repr t) (repr s) && same_reprs ts' ps'
  | _ :: ts', (_, _, Var _) :: ps' => same_reprs ts' ps'
  | _, _ => false
  end.

(** Expressions: type, value, and the variables after output parameters are copied back.  E.g.
    /repo/iec61131-st/string_functions.st:122-130. *)
Fixpoint eval {V} (call : string -> list V -> outcome (V * list V)) (r : env V) (e : expr)
    : outcome (sty * V * env V) :=
  match e with
  | Arg x => let! tv := get x r in Ok (tv, r)
  | Result => let! tv := get "@" r in Ok (tv, r)
  | Call g args =>
      let! l := (fix go (l : list expr) := match l with
                 | [] => Ok []
                 | a :: l' => let! '(tv, _) := eval call r a in let! tvs := go l' in Ok (tv :: tvs)
                 end) args in
      let ts := map fst l in
      match find_decl g, resolve g ts with
      | Some d, Some n =>
          let ps := match variadic d with Some p => map (fun _ => p) ts | None => d_params d end in
          if same_reprs ts ps then
            let! '(v, outs) := call n (map snd l) in
            match (match find_decl n with Some d' => d_ret d' | None => d_ret d end) with
            | Ty t => Ok (t, v, copy_out ps args outs r)
            | Var _ => Ub
            end
          else Ub
      | _, _ => Ub
      end
  end.
(** The values of the parameters of a function of /repo/iec61131-st/*.st. *)
Fixpoint get_all {V} (xs : list string) (r : env V) : outcome (list V) :=
  match xs with
  | [] => Ok []
  | x :: xs' => let! '(_, v) := get x r in let! vs := get_all xs' r in Ok (v :: vs)
  end.

(** Call of function [f] (not generic).  [fuel] bounds the call depth.  Functions of
    /repo/iec61131-st/*.st, lines in [st_decls]. *)
Fixpoint run {V} (ext : string -> list V -> outcome (V * list V)) (init : sty -> V) (fuel : nat)
    (f : string) (actuals : list V) : outcome (V * list V) :=
  match fuel with
  | O => Ub
  | S k =>
      match find_decl f with
      | Some (Decl _ false [] (Ty t) ps b) =>
          let types := map (fun p => match snd p with Ty s => s | Var _ => t end) ps in
          let names := map (fun p => fst (fst p)) ps in
          let r0 := ("@", (t, init t)) :: combine names (combine types actuals) in
          match b with
          | Assign e =>
              let! '(u, v, r) := eval (run ext init k) r0 e in
              let! outs := get_all names r in
              if rty_eqb (repr u) (repr t) then Ok (v, outs) else Ub
          | Do e =>
              let! '(_, _, r) := eval (run ext init k) r0 e in
              let! '(_, v) := get "@" r in
              let! outs := get_all names r in
              Ok (v, outs)
          | _ => ext f actuals
          end
      | _ => ext f actuals
      end
  end.
