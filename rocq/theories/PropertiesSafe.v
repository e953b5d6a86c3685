(** C90: which exported functions on numbers can abort; all others return, and every value returned or written is of
    its type. *)
From Coq Require Import String ZArith List Bool SpecFloat.
From Verif Require Import Base ModelFloat ModelChrono ModelTimeNum ModelLink ModelLib SpecScalar SpecLib SpecSafe
  ProofSafe ProofSafe2.
Import ListNotations.
Open Scope list_scope.
Open Scope string_scope.
Open Scope Z_scope.

(** Called with arguments of its parameter types, an exported function on numbers either returns a value of its
    result type, leaving values of their types in its parameters, or aborts and is one of those listed. *)
Theorem C90_result_of_type_or_listed_abort : forall s P args, List.In s rust_symbols -> numeric s = true -> sane P ->
  arguments s args ->
  match rust_call P (sy_name s) args with
  | Ok (r, a) => typed (sy_ret s) r /\ arguments s a
  | Panic => List.In (sy_name s) (can_abort (p_profile P))
  | Ub => False
  end.
Proof. intros s P args I N S A. exact (all_symbols s I N P args S A). Qed.
Print Assumptions C90_result_of_type_or_listed_abort.

(** Every function listed does abort, in that build profile, for some arguments of its parameter types. *)
Theorem C90_listed_functions_abort : forall p n, List.In n (can_abort p) ->
  exists s P args, List.In s rust_symbols /\ sy_name s = n /\ numeric s = true /\ sane P /\ p_profile P = p /\
    arguments s args /\ rust_call P n args = Panic.
Proof. exact all_abort. Qed.
Print Assumptions C90_listed_functions_abort.

(** 289 functions are covered; 95 (debug) or 87 (release) of them can abort. *)
Example C90_counts : (length (filter numeric rust_symbols), length (can_abort Debug), length (can_abort Release)) = (289, 95, 87)%nat.
Proof. vm_compute. reflexivity. Qed.
(** Hypotheses are met: a platform; a function that returns, one that aborts, one with outputs, one with an array. *)
Example C90_platform : sane (a_platform Release). Proof. exact (a_platform_sane Release). Qed.
Definition symbol_named (n : string) : option symbol := find (fun s => String.eqb (sy_name s) n) rust_symbols.
Example C90_shift :
  option_map numeric (symbol_named "SHL__BYTE") = Some true /\
  rust_call (a_platform Release) "SHL__BYTE" [VZ 129; VZ 9] = Ok (VZ 2, [VZ 129; VZ 9]) /\
  rust_call (a_platform Debug) "SHL__BYTE" [VZ 129; VZ 9] = Panic.
Proof. repeat split; vm_compute; reflexivity. Qed.
Example C90_split :
  rust_call (a_platform Debug) "SPLIT_DATE__UINT" [VZ (-1); VZ 0; VZ 0; VZ 0] =
    Ok (VZ 0, [VZ (-1); VZ 1969; VZ 12; VZ 31]) /\
  option_map sy_params (symbol_named "SPLIT_DATE__UINT") = Some [I64; Ptr true U16; Ptr true U16; Ptr true U16].
Proof. split; vm_compute; reflexivity. Qed.
Example C90_array :
  rust_call (a_platform Debug) "MAX__SINT" [VZ (-3); VZ 5; VZ 4] = Ok (VZ 5, [VZ (-3); VZ 5; VZ 4]) /\
  option_map (fun s => array (sy_params s)) (symbol_named "MAX__SINT") = Some (Some I8).
Proof. split; vm_compute; reflexivity. Qed.
Example C90_float_result :
  rust_call (a_platform Debug) "MUL__TIME__LREAL" [VZ 3000000000; VF (FNum (f_of_int F64 2))] =
    Ok (VZ 6000000000, [VZ 3000000000; VF (FNum (f_of_int F64 2))]).
Proof. vm_compute. reflexivity. Qed.
