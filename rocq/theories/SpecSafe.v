(** Specification vocabulary: typed arguments and results of the exported functions on numbers. *)
From Coq Require Import String ZArith List Bool.
From Verif Require Import Base ModelFloat ModelLink ModelLib SpecScalar SpecLink SpecLib.
Import ListNotations.
Open Scope list_scope.
Open Scope string_scope.
Open Scope Z_scope.

(** A value of a Rust type; for a pointer, of the type it points to. *)
Fixpoint typed (t : rty) (v : value) : Prop :=
  match t, v with
  | U8, VZ z => 0 <= z <= 2 ^ 8 - 1
  | U16, VZ z => 0 <= z <= 2 ^ 16 - 1
  | U32, VZ z => 0 <= z <= 2 ^ 32 - 1
  | U64, VZ z => 0 <= z <= 2 ^ 64 - 1
  | I8, VZ z => - 2 ^ 7 <= z <= 2 ^ 7 - 1
  | I16, VZ z => - 2 ^ 15 <= z <= 2 ^ 15 - 1
  | I32, VZ z => - 2 ^ 31 <= z <= 2 ^ 31 - 1
  | I64, VZ z => - 2 ^ 63 <= z <= 2 ^ 63 - 1
  | RBool, VZ z => z = 0 \/ z = 1
  | RF32, VF x => fl_valid F32 x
  | RF64, VF x => fl_valid F64 x
  | Ptr _ u, _ => typed u v
  | _, _ => False
  end.

(** Parameters that are numbers, or outputs for numbers ([Ptr true U8] is a string). *)
Definition number (t : rty) : bool :=
  match t with Unit | Inst | Ptr _ _ => false | _ => true end.
Definition plain (t : rty) : bool :=
  match t with Ptr m u => m && number u && negb (match u with U8 => true | _ => false end) | _ => number t end.
(** A count and an array of numbers. *)
Definition array (l : list rty) : option rty :=
  match l with
  | [U32; Ptr false t] => if number t then Some t else None
  | _ => None
  end.
(** The functions whose parameters are numbers, outputs for numbers, or one array of numbers. *)
Definition numeric (s : symbol) : bool :=
  match array (sy_params s) with Some _ => true | None => forallb plain (sy_params s) end.
(** Arguments of the types the function has; an array has at least one element. *)
Definition arguments (s : symbol) (args : list value) : Prop :=
  match array (sy_params s) with
  | Some t => args <> [] /\ Forall (typed t) args
  | None => Forall2 typed (sy_params s) args
  end.

(** Platforms: the clock shows a time of day (with leap seconds), the mathematical library returns
    numbers of the format. *)
Definition sane (P : platform) : Prop :=
  0 <= fst (p_clock P) < 86400 /\ 0 <= snd (p_clock P) < 2000000000 /\
  forall m f l, Forall (fl_valid f) l -> fl_valid f (p_math P m f l).

(** The functions that abort for some arguments, by build profile. *)
Definition can_abort (p : profile) : list string :=
  (match p with
   | Debug => map (fun t => instance_name "SHL" [t]) bit_strings ++ map (fun t => instance_name "SHR" [t]) bit_strings
   | Release => []
   end ++
   map (fun t => instance_name "CONCAT_DATE" [t]) wide_ints ++ map (fun t => instance_name "CONCAT_TOD" [t]) integers ++
   ["concat_date"; "concat_tod"; "CONCAT_DATE_TOD"; "DATE_AND_TIME_TO_DATE";
    "ADD_TIME"; "ADD_TOD_TIME"; "ADD_DT_TIME"; "SUB_TIME"; "SUB_DATE_DATE"; "SUB_TOD_TIME"; "SUB_TOD_TOD";
    "SUB_DT_TIME"; "SUB_DT_DT"] ++
   flat_map (fun f => map (fun t => instance_name f [t]) numbers) (products ++ quotients))%list.
