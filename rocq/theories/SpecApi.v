(** Specification vocabulary: the functions a program can call, their values, and which of them can
    abort or be undefined. *)
From Coq Require Import String ZArith List Bool.
From Verif Require Import Base ModelFloat ModelLink ModelLib SpecScalar SpecLink SpecLib SpecSafe.
Import ListNotations.
Open Scope list_scope.
Open Scope string_scope.
Open Scope Z_scope.

(** The values of an elementary type; strings are not covered here. *)
Definition holds (t : sty) (v : value) : Prop :=
  match t with
  | S_BOOL => v = VZ 0 \/ v = VZ 1
  | S_STRING | S_WSTRING => False
  | _ => SpecSafe.typed (repr t) v
  end.
Definition no_string (t : sty) : Prop := t <> S_STRING /\ t <> S_WSTRING.

(** Functions that abort for some arguments: dates that do not exist or are not representable, results that
    are not representable. *)
Definition aborting : list string :=
  ["DATE_AND_TIME_TO_DATE"; "LDT_TO_DATE"; "DT_TO_DATE"; "CONCAT_DATE_TOD"; "CONCAT_DATE_LTOD"] ++
  map (fun t => instance_name "CONCAT_LTOD" [t]) integers ++
  map (fun t => instance_name "CONCAT_DT" [t]) wide_ints ++
  map (fun t => instance_name "CONCAT_LDT" [t]) wide_ints ++
  ["ADD_TIME"; "ADD__TIME__TIME"; "ADD_LTIME";
   "ADD_TOD_TIME"; "ADD__TIME_OF_DAY__TIME"; "ADD_LTOD_LTIME";
   "ADD_DT_TIME"; "ADD__DATE_AND_TIME__TIME"; "ADD_LDT_LTIME";
   "SUB_TIME"; "SUB__TIME__TIME"; "SUB_LTIME";
   "SUB_DATE_DATE"; "SUB__DATE__DATE"; "SUB_LDATE_LDATE";
   "SUB_TOD_TIME"; "SUB__TIME_OF_DAY__TIME"; "SUB_LTOD_LTIME";
   "SUB_TOD_TOD"; "SUB__TIME_OF_DAY__TIME_OF_DAY"; "SUB_LTOD_LTOD";
   "SUB_DT_TIME"; "SUB__DATE_AND_TIME__TIME"; "SUB_LDT_LTIME";
   "SUB_DT_DT"; "SUB__DATE_AND_TIME__DATE_AND_TIME"; "SUB_LDT_LDT"].
(** Functions whose behaviour is undefined for some arguments: floating-point numbers outside the
    integer type, and functions without code. *)
Definition undefined : list string :=
  flat_map (fun r => map (fun i => r ++ "_TO_" ++ i)
    ["LINT"; "DINT"; "INT"; "SINT"; "ULINT"; "UDINT"; "UINT"; "USINT"])%string ["LREAL"; "REAL"] ++
  ["TRUNC__REAL"; "TRUNC__LREAL"; "LREAL_TO_TIME"; "LREAL_TO_LTIME"] ++ map (fun t => instance_name "SPLIT_LDT" [t]) wide_ints.
(** A function with a fixed number of parameters. *)
Definition fixed_arity (d : decl) : Prop :=
  Forall (fun p => snd (fst p) <> Sized /\ snd (fst p) <> SizedRef) (d_params d).
