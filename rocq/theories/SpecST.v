(** Specification vocabulary for the ST functions: type names and their ranges. *)
From Coq Require Import ZArith List String.
From Verif Require Import Base ModelFloat.
Import ListNotations.
Open Scope string_scope.

(** The integer and bit types of IEC 61131-3 with signedness and width. *)
Definition int_names : list (string * ity) := [
  ("SINT", ITy true 8); ("INT", ITy true 16); ("DINT", ITy true 32); ("LINT", ITy true 64);
  ("USINT", ITy false 8); ("UINT", ITy false 16); ("UDINT", ITy false 32); ("ULINT", ITy false 64);
  ("BYTE", ITy false 8); ("WORD", ITy false 16); ("DWORD", ITy false 32); ("LWORD", ITy false 64)].
Definition numeric_names : list (string * ity) := firstn 8 int_names.
Definition bit_names : list (string * ity) := skipn 8 int_names.
Definition float_names : list (string * fmt) := [("REAL", F32); ("LREAL", F64)].
(** The date and time types; all are 64-bit signed nanosecond counts. *)
Definition time_names : list string :=
  ["TIME"; "LTIME"; "DATE"; "LDATE"; "TOD"; "LTOD"; "DT"; "LDT"].

(** Name of the function converting [x] to [y]. *)
Definition to (x y : string) : string := x ++ "_TO_" ++ y.
