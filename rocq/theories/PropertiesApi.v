(** C102: which functions of the library a program calls can abort or are undefined; all others return a value of the
    declared type. *)
From Coq Require Import String ZArith List Bool SpecFloat.
From Verif Require Import Base ModelFloat ModelTimeNum ModelLink ModelLib ModelApi SpecScalar SpecLink SpecLib SpecSafe SpecApi
  ProofSafe ProofSafe2 ProofApi2 ProofApi3.
Import ListNotations.
Open Scope list_scope.
Open Scope string_scope.
Open Scope Z_scope.

(** A call of a declared function without string parameters, with arguments of the declared types: it returns a value
    of the declared type and leaves values of their types in the parameters, unless the function is listed. *)
Theorem C102_result_of_type_or_listed : forall d t ts P args, List.In d st_decls -> d_generic d = [] -> d_ret d = Ty t ->
  map snd (d_params d) = map Ty ts -> Forall no_string (t :: ts) -> sane P -> Forall2 holds ts args ->
  match api P (d_name d) args with
  | Ok (r, outs) => holds t r /\ Forall2 holds ts outs
  | Panic => List.In (d_name d) aborting
  | Ub => List.In (d_name d) undefined
  end.
Proof. exact decls_safe. Qed.
Print Assumptions C102_result_of_type_or_listed.

(** The lists are exact, in both build profiles. *)
Theorem C102_listed_abort : forall p n, List.In n aborting -> exists d t ts P args, List.In d st_decls /\ d_name d = n /\
  d_generic d = [] /\ d_ret d = Ty t /\ map snd (d_params d) = map Ty ts /\ Forall no_string (t :: ts) /\
  sane P /\ p_profile P = p /\ Forall2 holds ts args /\ api P n args = Panic.
Proof. exact listed_abort. Qed.
Print Assumptions C102_listed_abort.
Theorem C102_listed_undefined : forall p n, List.In n undefined -> exists d t ts P args, List.In d st_decls /\ d_name d = n /\
  d_generic d = [] /\ d_ret d = Ty t /\ map snd (d_params d) = map Ty ts /\ Forall no_string (t :: ts) /\
  sane P /\ p_profile P = p /\ Forall2 holds ts args /\ api P n args = Ub.
Proof. exact listed_undefined. Qed.
Print Assumptions C102_listed_undefined.

(** A call of a generic function by its generic name, its type parameters replaced by types of their classes for which
    there is code; the instances that can abort are those above and the exported ones of C90. *)
Theorem C102_generic_calls : forall d ts ret ps P args, List.In d st_decls -> d_generic d <> [] -> fixed_arity d ->
  Forall2 (fun x t => List.In t (members (snd x))) (d_generic d) ts -> SpecLink.typed d ts ret ps ->
  Forall no_string (ret :: map snd ps) -> has_code (instance_name (d_name d) ts) -> sane P -> Forall2 holds (map snd ps) args ->
  match call P (d_name d) (combine (map snd ps) args) with
  | Ok (t, v) => holds ret v
  | Panic => List.In (instance_name (d_name d) ts) (aborting ++ can_abort (p_profile P))
  | Ub => List.In (instance_name (d_name d) ts) undefined
  end.
Proof.
  intros d ts ret ps P args D G F. exact (generics_safe d ts ret ps P args D G (fixed_not_sized d F)).
Qed.
Print Assumptions C102_generic_calls.

(** MAX and MIN of any number of arguments of any type that is not a string. *)
Theorem C102_any_number_of_arguments : forall f t P args, List.In f ["MAX"; "MIN"] -> List.In t (members ANY_ELEMENTARY) ->
  no_string t -> sane P -> Forall (holds t) args -> args <> [] ->
  exists v, call P f (map (pair t) args) = Ok (t, v) /\ holds t v.
Proof. exact any_number. Qed.
Print Assumptions C102_any_number_of_arguments.

(** 371 functions are covered, 52 can abort, 26 can be undefined. *)
Example C102_counts : (length (filter covered st_decls), length aborting, length undefined) = (371, 52, 26)%nat.
Proof. vm_compute. reflexivity. Qed.
(** Hypotheses are met: a function that returns, one with a converted result, one that aborts, generic calls. *)
Example C102_declared : exists d, List.In d st_decls /\ d_name d = "DINT_TO_REAL" /\ d_generic d = [] /\ d_ret d = Ty S_REAL /\
  map snd (d_params d) = map Ty [S_DINT] /\ Forall no_string [S_REAL; S_DINT] /\ Forall2 holds [S_DINT] [VZ (-5)].
Proof.
  destruct (find_decl "DINT_TO_REAL") as [d|] eqn:F; [|vm_compute in F; discriminate F].
  pose proof F as G. unfold find_decl in G. apply find_some in G as [D N]. vm_compute in F. injection F as F.
  exists d. split; [exact D|]. rewrite <- F. repeat (split; [reflexivity|]).
  split; [repeat constructor; discriminate|]. constructor; [split; discriminate|constructor].
Qed.
Example C102_values :
  omap fst (api (a_platform Debug) "DINT_TO_REAL" [VZ (-5)]) = Ok (VF (FNum (f_of_int F32 (-5)))) /\
  omap fst (api (a_platform Debug) "CONCAT_DT__INT" [VZ 1970; VZ 1; VZ 2; VZ 3; VZ 0; VZ 0; VZ 0]) = Ok (VZ 97200000000000) /\
  omap fst (api (a_platform Debug) "CONCAT_DT__INT" [VZ 1970; VZ 2; VZ 29; VZ 3; VZ 0; VZ 0; VZ 0]) = Panic /\
  omap fst (api (a_platform Debug) "REAL_TO_DINT" [VF (FNum (f_of_int F32 (2 ^ 40)))]) = Ub.
Proof. repeat split; vm_compute; reflexivity. Qed.
Example C102_generic_values :
  call (a_platform Debug) "SUB" [(S_TOD, VZ 5); (S_TIME, VZ 3)] = Ok (S_TOD, VZ 2) /\
  call (a_platform Debug) "SHL" [(S_BYTE, VZ 129); (S_UDINT, VZ 1)] = Ok (S_BYTE, VZ 2) /\
  call (a_platform Debug) "LIMIT" [(S_BOOL, VZ 0); (S_BOOL, VZ 1); (S_BOOL, VZ 1)] = Ok (S_BOOL, VZ 1) /\
  call (a_platform Debug) "MAX" [(S_DT, VZ 4); (S_DT, VZ 7); (S_DT, VZ (-1))] = Ok (S_DT, VZ 7).
Proof. repeat split; vm_compute; reflexivity. Qed.
Example C102_generic_types : exists d, List.In d st_decls /\ d_name d = "LIMIT" /\ d_generic d <> [] /\ fixed_arity d /\
  Forall2 (fun x t => List.In t (members (snd x))) (d_generic d) [S_BOOL] /\
  SpecLink.typed d [S_BOOL] S_BOOL [(Input, S_BOOL); (Input, S_BOOL); (Input, S_BOOL)].
Proof.
  destruct (find_decl "LIMIT") as [d|] eqn:F; [|vm_compute in F; discriminate F].
  pose proof F as G. unfold find_decl in G. apply find_some in G as [D N]. vm_compute in F. injection F as F.
  exists d. split; [exact D|]. rewrite <- F. split; [reflexivity|]. split; [discriminate|].
  split; [repeat constructor; discriminate|]. split; [constructor; [cbn; tauto|constructor]|].
  assert (M : means d [S_BOOL] (Var "T") S_BOOL) by (right; exists "T"; split; [reflexivity|rewrite <- F; now left]). rewrite <- F in M.
  split; [reflexivity|]. split; [exact M|]. repeat (constructor; [split; [reflexivity|exact M]|]). constructor.
Qed.
