(** The script that writes the numeric conversion functions, /repo/utils/code_gen.py. *)
From Coq Require Import ZArith List Bool String.
From Verif Require Import Base ModelFloat ModelChrono ModelST.
Import ListNotations.
Open Scope string_scope.

(** [types]: names in the script's order, each with the type it denotes in ST.
    /repo/utils/code_gen.py:5-6. *)
Definition gen_types : list (string * st_ty) := [
  ("LREAL", T_LREAL); ("REAL", T_REAL); ("LINT", T_LINT); ("DINT", T_DINT); ("INT", T_INT);
  ("SINT", T_SINT); ("ULINT", T_ULINT); ("UDINT", T_UDINT); ("UINT", T_UINT); ("USINT", T_USINT)].

(** [src.format(type_a, type_b)].  Simplified: the function the text declares, not the text; the
    comment in the template is dropped.  /repo/utils/code_gen.py:8-20. *)
Definition gen_src (a b : string * st_ty) : st_fun :=
  Fn (fst a ++ "_TO_" ++ fst b) [("in", snd a)] (snd b) [SAssign (EVar "in")].

(** The functions written to gen.txt, in order.  /repo/utils/code_gen.py:22-26. *)
Definition generated : list st_fun :=
  flat_map (fun a => flat_map (fun b =>
    if negb (String.eqb (fst a) (fst b)) then [gen_src a b] else []) gen_types) gen_types.

(** The functions of the library's file, the first of [st_functions].
    /repo/iec61131-st/num_conversion.st:1-1079. *)
Definition num_conversion_st : list st_fun := firstn 90 st_functions.

(** A program calls function [n] of the generated file; like [st_call].
    /repo/utils/code_gen.py:13-18. *)
Definition gen_call (v : chrono) (n : string) (args : list val) : outcome val :=
  match find (fun f => String.eqb (fn_name f) n) generated with
  | Some f =>
      let! l := cast_all (combine (map snd (fn_args f)) args) (map snd (fn_args f)) in
      let r := combine (map fst (fn_args f)) (combine (map snd (fn_args f)) l) in
      st_block (st_expr (st_call_fuel 2 v) r) (fn_ret f) (fn_body f) (st_zero (fn_ret f))
  | None => Ub
  end.
