(** Specification vocabulary for calls of the library functions by name. *)
From Coq Require Import String ZArith List Bool.
From Verif Require Import Base ModelLink ModelLib SpecLink.
Import ListNotations.
Open Scope list_scope.
Open Scope string_scope.
Open Scope Z_scope.

(** The integers of an ST type (REAL, LREAL and the string types have none). *)
Definition bounds (t : sty) : Z * Z :=
  match t with
  | S_BOOL => (0, 1)
  | S_BYTE | S_USINT | S_CHAR => (0, 2 ^ 8 - 1)
  | S_WORD | S_UINT | S_WCHAR => (0, 2 ^ 16 - 1)
  | S_DWORD | S_UDINT => (0, 2 ^ 32 - 1)
  | S_LWORD | S_ULINT => (0, 2 ^ 64 - 1)
  | S_SINT => (- 2 ^ 7, 2 ^ 7 - 1) | S_INT => (- 2 ^ 15, 2 ^ 15 - 1)
  | S_DINT => (- 2 ^ 31, 2 ^ 31 - 1) | S_LINT => (- 2 ^ 63, 2 ^ 63 - 1)
  | S_TIME | S_LTIME | S_DATE | S_LDATE | S_TOD | S_LTOD | S_DT | S_LDT => (- 2 ^ 63, 2 ^ 63 - 1)
  | S_REAL | S_LREAL | S_STRING | S_WSTRING => (1, 0)
  end.
Definition of_type (t : sty) (z : Z) : Prop := fst (bounds t) <= z <= snd (bounds t).
Definition of_typeb (t : sty) (z : Z) : bool := (fst (bounds t) <=? z) && (z <=? snd (bounds t)).

(** The result of a call. *)
Definition result (o : outcome (value * list value)) : outcome value := omap fst o.
Definition Int (z : Z) : outcome value := Ok (VZ z).

Definition integers : list sty := [S_SINT; S_INT; S_DINT; S_LINT; S_USINT; S_UINT; S_UDINT; S_ULINT].
Definition numbers : list sty := (integers ++ [S_REAL; S_LREAL])%list.
Definition bit_strings : list sty := [S_BYTE; S_WORD; S_DWORD; S_LWORD].
Definition ordered : list sty :=
  ([S_BOOL; S_CHAR; S_WCHAR; S_TIME; S_LTIME; S_DATE; S_LDATE; S_TOD; S_LTOD; S_DT; S_LDT] ++
   bit_strings ++ integers)%list.
Definition products : list string := ["MUL__TIME"; "MUL_TIME"; "MUL_LTIME"].
Definition quotients : list string := ["DIV__TIME"; "DIV_TIME"; "DIV_LTIME"].

(** The functions with several integer types: name, number of leading parameters whose type is
    fixed, types of the others. *)
Definition overloaded : list (string * nat * list sty) :=
  (map (fun f => (f, 1%nat, integers)) (products ++ quotients) ++
   [("MAX", 0%nat, ordered); ("MIN", 0%nat, ordered); ("LIMIT", 0%nat, ordered);
    ("CONCAT_DATE", 0%nat, wide_ints); ("CONCAT_TOD", 0%nat, integers);
    ("IS_VALID_BCD", 0%nat, bit_strings)])%list.
(** The functions that return parts of a date and time in output parameters, and their number. *)
Definition splits : list (string * nat) := [("SPLIT_DATE", 3%nat); ("SPLIT_TOD", 4%nat); ("SPLIT_DT", 7%nat)].

(** Number of bits. *)
Definition width (t : sty) : Z :=
  match t with S_BYTE => 8 | S_WORD => 16 | S_DWORD => 32 | _ => 64 end.

(** The names of the sums and differences of date and time values. *)
Definition sums : list string :=
  ["ADD_TIME"; "ADD_LTIME"; "ADD__TIME__TIME"; "ADD_TOD_TIME"; "ADD_LTOD_LTIME"; "ADD__TIME_OF_DAY__TIME";
   "ADD_DT_TIME"; "ADD_LDT_LTIME"; "ADD__DATE_AND_TIME__TIME"].
Definition differences : list string :=
  ["SUB_TIME"; "SUB_LTIME"; "SUB__TIME__TIME"; "SUB_DATE_DATE"; "SUB_LDATE_LDATE"; "SUB__DATE__DATE";
   "SUB_TOD_TIME"; "SUB_LTOD_LTIME"; "SUB__TIME_OF_DAY__TIME"; "SUB_TOD_TOD"; "SUB_LTOD_LTOD";
   "SUB__TIME_OF_DAY__TIME_OF_DAY"; "SUB_DT_TIME"; "SUB_LDT_LTIME"; "SUB__DATE_AND_TIME__TIME";
   "SUB_DT_DT"; "SUB_LDT_LDT"; "SUB__DATE_AND_TIME__DATE_AND_TIME"].

(** The types of the integer byte order conversions. *)
Definition byte_ordered : list sty :=
  [S_INT; S_DINT; S_LINT; S_UINT; S_UDINT; S_ULINT; S_WORD; S_DWORD; S_LWORD; S_WCHAR; S_DATE; S_LDATE; S_TOD; S_LTOD;
   S_DT; S_LDT].
