(** Specification vocabulary for the interface between ST declarations and Rust symbols. *)
From Coq Require Import String ZArith List Bool.
From Verif Require Import Base ModelLink.
Import ListNotations.
Open Scope list_scope.
Open Scope string_scope.

(** Rust types that hold a value of an ST type.  Date and time types are 64-bit nanosecond counts. *)
Definition value_types (t : sty) : list rty :=
  match t with
  | S_BOOL => [U8; RBool]
  | S_BYTE | S_USINT | S_CHAR => [U8] | S_WORD | S_UINT | S_WCHAR => [U16]
  | S_DWORD | S_UDINT => [U32] | S_LWORD | S_ULINT => [U64]
  | S_SINT => [I8] | S_INT => [I16] | S_DINT => [I32] | S_LINT => [I64]
  | S_REAL => [RF32] | S_LREAL => [RF64]
  | S_TIME | S_LTIME | S_DATE | S_LDATE | S_TOD | S_LTOD | S_DT | S_LDT => [I64]
  | S_STRING | S_WSTRING => []
  end.
(** Rust types of the memory behind a pointer to an ST variable: strings are arrays of units. *)
Definition memory_types (t : sty) : list rty :=
  match t with S_STRING => [U8] | S_WSTRING => [U16] | _ => value_types t end.
Definition is_string (t : sty) : Prop := t = S_STRING \/ t = S_WSTRING.

(** How RuSTy passes a parameter to an external function. *)
Inductive passed : pkind -> sty -> list rty -> Prop :=
| by_value : forall t r, List.In r (value_types t) -> passed Input t [r]
| string_by_value : forall t r, is_string t -> List.In r (memory_types t) -> passed Input t [Ptr false r]
| by_reference : forall t r, List.In r (memory_types t) -> passed InputRef t [Ptr false r]
| output : forall t r, List.In r (memory_types t) -> passed Output t [Ptr true r]
| in_out : forall t r, List.In r (memory_types t) -> passed InOut t [Ptr true r]
| array : forall t n r, List.In n [I32; U32] -> List.In r (value_types t) -> passed Sized t [n; Ptr false r]
| array_of_references : forall t n r, List.In n [I32; U32] -> List.In r (memory_types t) ->
    passed SizedRef t [n; Ptr false (Ptr false r)].
(** The symbol has the interface of a function with this result and these parameters; a string
    result is a pointer to the caller's memory, passed first. *)
Definition implements (s : symbol) (ret : sty) (params : list (pkind * sty)) : Prop :=
  exists parts, Forall2 (fun p l => passed (fst p) (snd p) l) params parts /\
    ((is_string ret /\ sy_ret s = Unit /\ exists r, List.In r (memory_types ret) /\
        sy_params s = Ptr true r :: concat parts) \/
     (List.In (sy_ret s) (value_types ret) /\ sy_params s = concat parts)).

(** The result and parameters of a declaration, its type parameters replaced by [ts]. *)
Definition means (d : decl) (ts : list sty) (r : tyref) (t : sty) : Prop :=
  r = Ty t \/ exists x, r = Var x /\ List.In (x, t) (combine (map fst (d_generic d)) ts).
Definition typed (d : decl) (ts : list sty) (ret : sty) (params : list (pkind * sty)) : Prop :=
  length ts = length (d_generic d) /\ means d ts (d_ret d) ret /\
  Forall2 (fun p q => snd (fst p) = fst q /\ means d ts (snd p) (snd q)) (d_params d) params.

(** The members of the generic type classes (IEC 61131-3, table of generic data types). *)
Definition members (c : class) : list sty :=
  let reals := [S_REAL; S_LREAL] in
  let ints := [S_SINT; S_INT; S_DINT; S_LINT; S_USINT; S_UINT; S_UDINT; S_ULINT] in
  let bits := [S_BOOL; S_BYTE; S_WORD; S_DWORD; S_LWORD] in
  let strings := [S_STRING; S_WSTRING] in
  let times := [S_TIME; S_LTIME; S_DATE; S_LDATE; S_TOD; S_LTOD; S_DT; S_LDT] in
  let elementary := (reals ++ ints ++ bits ++ strings ++ [S_CHAR; S_WCHAR] ++ times)%list in
  match c with
  | ANY_REAL => reals | ANY_INT => ints | ANY_NUM => (reals ++ ints)%list | ANY_BIT => bits
  | ANY_STRING => strings | ANY_ELEMENTARY => elementary | ANY => elementary
  end.

(** There is code for the function [n]: a Rust symbol, or an ST body. *)
Definition has_code (n : string) : Prop :=
  (exists s, List.In s rust_symbols /\ sy_name s = n) \/
  (exists d, List.In d st_decls /\ d_name d = n /\ d_generic d = [] /\ d_external d = false /\
     d_body d <> Empty).

(** A program: what a call does, for any values and any behaviour of the functions that are not
    written as calls of others. *)
Definition calls {V} (ext : string -> list V -> outcome (V * list V)) (init : sty -> V) (f : string)
    (actuals : list V) : outcome (V * list V) := run ext init 3 f actuals.

(** The functions that are another one under a different name. *)
Definition aliases : list (string * string) := [
  ("ADD__TIME__TIME", "ADD_TIME"); ("ADD_LTIME", "ADD_TIME");
  ("ADD__TIME_OF_DAY__TIME", "ADD_TOD_TIME"); ("ADD_LTOD_LTIME", "ADD_TOD_TIME");
  ("ADD__DATE_AND_TIME__TIME", "ADD_DT_TIME"); ("ADD_LDT_LTIME", "ADD_DT_TIME");
  ("SUB__TIME__TIME", "SUB_TIME"); ("SUB_LTIME", "SUB_TIME");
  ("SUB__DATE__DATE", "SUB_DATE_DATE"); ("SUB_LDATE_LDATE", "SUB_DATE_DATE");
  ("SUB__TIME_OF_DAY__TIME", "SUB_TOD_TIME"); ("SUB_LTOD_LTIME", "SUB_TOD_TIME");
  ("SUB__TIME_OF_DAY__TIME_OF_DAY", "SUB_TOD_TOD"); ("SUB_LTOD_LTOD", "SUB_TOD_TOD");
  ("SUB__DATE_AND_TIME__TIME", "SUB_DT_TIME"); ("SUB_LDT_LTIME", "SUB_DT_TIME");
  ("SUB__DATE_AND_TIME__DATE_AND_TIME", "SUB_DT_DT"); ("SUB_LDT_LDT", "SUB_DT_DT");
  ("CONCAT_DATE_LTOD", "CONCAT_DATE_TOD");
  ("CONCAT_LTOD__SINT", "CONCAT_TOD__SINT"); ("CONCAT_LTOD__USINT", "CONCAT_TOD__USINT");
  ("CONCAT_LTOD__INT", "CONCAT_TOD__INT"); ("CONCAT_LTOD__UINT", "CONCAT_TOD__UINT");
  ("CONCAT_LTOD__DINT", "CONCAT_TOD__DINT"); ("CONCAT_LTOD__UDINT", "CONCAT_TOD__UDINT");
  ("CONCAT_LTOD__LINT", "CONCAT_TOD__LINT"); ("CONCAT_LTOD__ULINT", "CONCAT_TOD__ULINT");
  ("LDT_TO_DATE", "DATE_AND_TIME_TO_DATE"); ("DT_TO_DATE", "DATE_AND_TIME_TO_DATE");
  ("LDT_TO_LTOD", "DATE_AND_TIME_TO_TIME_OF_DAY"); ("LDT_TO_TOD", "DATE_AND_TIME_TO_TIME_OF_DAY");
  ("DT_TO_LTOD", "DATE_AND_TIME_TO_TIME_OF_DAY"); ("DT_TO_TOD", "DATE_AND_TIME_TO_TIME_OF_DAY") ].
(** The functions that return what another one stores in its last parameter, and the type of
    the result. *)
Definition result_of : list (string * string * sty) := [
  ("LEFT__STRING", "LEFT_EXT__STRING", S_STRING); ("LEFT__WSTRING", "LEFT_EXT__WSTRING", S_WSTRING);
  ("RIGHT__STRING", "RIGHT_EXT__STRING", S_STRING); ("RIGHT__WSTRING", "RIGHT_EXT__WSTRING", S_WSTRING);
  ("MID__STRING", "MID_EXT__STRING", S_STRING); ("MID__WSTRING", "MID_EXT__WSTRING", S_WSTRING);
  ("INSERT__STRING", "INSERT_EXT__STRING", S_STRING); ("INSERT__WSTRING", "INSERT_EXT__WSTRING", S_WSTRING);
  ("DELETE__STRING", "DELETE_EXT__STRING", S_STRING); ("DELETE__WSTRING", "DELETE_EXT__WSTRING", S_WSTRING);
  ("REPLACE__STRING", "REPLACE_EXT__STRING", S_STRING); ("REPLACE__WSTRING", "REPLACE_EXT__WSTRING", S_WSTRING);
  ("WSTRING_TO_STRING", "WSTRING_TO_STRING_EXT", S_STRING); ("STRING_TO_WSTRING", "STRING_TO_WSTRING_EXT", S_WSTRING);
  ("BYTE_TO_STRING", "BYTE_TO_STRING_EXT", S_STRING); ("LWORD_TO_STRING", "LWORD_TO_STRING_EXT", S_STRING);
  ("LINT_TO_STRING", "LINT_TO_STRING_EXT", S_STRING); ("LREAL_TO_STRING", "LREAL_TO_STRING_EXT", S_STRING);
  ("DT_TO_STRING", "DT_TO_STRING_EXT", S_STRING); ("LDT_TO_STRING", "DT_TO_STRING_EXT", S_STRING);
  ("TIME_TO_STRING", "TIME_TO_STRING_EXT", S_STRING); ("LTIME_TO_STRING", "TIME_TO_STRING_EXT", S_STRING);
  ("DATE_TO_STRING", "DATE_TO_STRING_EXT", S_STRING); ("LDATE_TO_STRING", "DATE_TO_STRING_EXT", S_STRING);
  ("TOD_TO_STRING", "TOD_TO_STRING_EXT", S_STRING); ("LTOD_TO_STRING", "TOD_TO_STRING_EXT", S_STRING) ].
(** The functions that widen the text another one produces. *)
Definition widened : list (string * string) := [
  ("BYTE_TO_WSTRING", "BYTE_TO_STRING_EXT"); ("LWORD_TO_WSTRING", "LWORD_TO_STRING_EXT");
  ("LINT_TO_WSTRING", "LINT_TO_STRING_EXT"); ("LREAL_TO_WSTRING", "LREAL_TO_STRING_EXT");
  ("DT_TO_WSTRING", "DT_TO_STRING_EXT"); ("LDT_TO_WSTRING", "DT_TO_STRING_EXT");
  ("TIME_TO_WSTRING", "TIME_TO_STRING_EXT"); ("LTIME_TO_WSTRING", "TIME_TO_STRING_EXT");
  ("DATE_TO_WSTRING", "DATE_TO_STRING_EXT"); ("LDATE_TO_WSTRING", "DATE_TO_STRING_EXT");
  ("TOD_TO_WSTRING", "TOD_TO_STRING_EXT"); ("LTOD_TO_WSTRING", "TOD_TO_STRING_EXT") ].
(** The integer types of CONCAT_DT and SPLIT_LTOD. *)
Definition wide_ints : list sty := [S_INT; S_UINT; S_DINT; S_UDINT; S_LINT; S_ULINT].

(** Number of parameters. *)
Definition arity (f : string) : nat :=
  match find_decl f with Some d => length (d_params d) | None => O end.

(** The class members for which the instance of a generic function has no code. *)
Definition no_code : list (string * list sty) :=
  let bit := [S_BOOL] in
  let short := [S_SINT; S_USINT] in
  let strings := [S_STRING; S_WSTRING] in
  let no_order := [S_BOOL; S_BYTE; S_SINT; S_USINT; S_CHAR; S_TIME; S_LTIME; S_STRING; S_WSTRING] in [
  ("SHL", bit); ("SHR", bit); ("ROL", bit); ("ROR", bit); ("IS_VALID_BCD", bit);
  ("CONCAT_DATE", short); ("CONCAT_DT", short); ("CONCAT_LDT", short);
  ("SPLIT_DATE", short); ("SPLIT_TOD", short); ("SPLIT_LTOD", short); ("SPLIT_DT", short);
  ("SPLIT_LDT", [S_SINT; S_INT; S_DINT; S_LINT; S_USINT; S_UINT; S_UDINT; S_ULINT]);
  ("ABS", [S_USINT; S_UINT; S_UDINT; S_ULINT]);
  ("MAX", strings); ("MIN", strings); ("LIMIT", strings);
  ("TO_BIG_ENDIAN", no_order); ("TO_LITTLE_ENDIAN", no_order);
  ("FROM_BIG_ENDIAN", no_order); ("FROM_LITTLE_ENDIAN", no_order) ].

(** The function blocks, which the ST side declares as FUNCTION_BLOCK (see ModelLayout.v). *)
Definition function_blocks : list string :=
  ["SR"; "RS"; "R_TRIG"; "F_TRIG";
   "CTU"; "CTU_INT"; "CTU_DINT"; "CTU_UDINT"; "CTU_LINT"; "CTU_ULINT";
   "CTD"; "CTD_INT"; "CTD_DINT"; "CTD_UDINT"; "CTD_LINT"; "CTD_ULINT";
   "CTUD"; "CTUD_INT"; "CTUD_DINT"; "CTUD_UDINT"; "CTUD_LINT"; "CTUD_ULINT";
   "TP"; "TON"; "TOF"; "TP_TIME"; "TP_LTIME"; "TON_TIME"; "TON_LTIME"; "TOF_TIME"; "TOF_LTIME"].

(** Two types have the same representation, as a value and in memory. *)
Definition alike (t u : sty) : Prop := value_types t = value_types u /\ memory_types t = memory_types u.
