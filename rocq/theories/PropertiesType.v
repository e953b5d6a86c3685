(** C120: types of nested expressions, and which of them can fail. *)
From Coq Require Import String ZArith List Bool SpecFloat.
From Verif Require Import Base ModelFloat ModelTimeNum ModelLink ModelLib ModelApi SpecScalar SpecLink SpecLib SpecSafe SpecApi SpecCall SpecType
  ProofSafe ProofSafe2 ProofApi3 ProofType.
Import ListNotations.
Open Scope string_scope.
Open Scope list_scope.
Open Scope Z_scope.

(** An expression of any depth over functions without strings has a value of its type, unless a function that it calls
    is one of those that can abort or be undefined (C90, C102). *)
Theorem C120_value_of_type : forall P r e t fs, sane P -> has_type (variable r) e t fs ->
  match value_in P r e with
  | Ok (t', v) => t' = t /\ holds t v
  | Panic => exists n, List.In n fs /\ List.In n (aborting ++ can_abort (p_profile P))
  | Ub => exists n, List.In n fs /\ List.In n undefined
  end.
Proof. exact typed_value. Qed.
Print Assumptions C120_value_of_type.
Theorem C120_never_fails : forall P r e t fs, sane P -> has_type (variable r) e t fs ->
  (forall n, List.In n fs -> ~ List.In n (aborting ++ can_abort (p_profile P) ++ undefined)) ->
  exists v, value_in P r e = Ok (t, v) /\ holds t v.
Proof.
  intros P r e t fs SP H N. pose proof (typed_value P r e t fs SP H) as V. destruct (value_in P r e) as [[t' v]| |].
  - destruct V as [-> V]. now exists v.
  - exfalso. destruct V as (n & I & L). apply (N n I). rewrite app_assoc. apply in_or_app. now left.
  - exfalso. destruct V as (n & I & L). apply (N n I). rewrite app_assoc. apply in_or_app. now right.
Qed.
Print Assumptions C120_never_fails.

(** The types of the variables determine the type of the expression and the functions it calls. *)
Theorem C120_unique_type : forall r e t fs t' fs', has_type (variable r) e t fs -> has_type (variable r) e t' fs' ->
  t = t' /\ fs = fs'.
Proof. intros r e t fs t' fs' H H'. exact (proj1 (unique (variable r) (variable_unique r)) e t fs H t' fs' H'). Qed.
Print Assumptions C120_unique_type.

(** A program of assignments keeps a value of its type in every variable; it can only be stopped by a listed function. *)
Theorem C120_programs : forall P r prog fs, sane P -> well_typed (variable r) prog fs ->
  match executes P r prog with
  | Ok r' => forall x t, variable r x t -> variable r' x t
  | Panic => exists n, List.In n fs /\ List.In n (aborting ++ can_abort (p_profile P))
  | Ub => exists n, List.In n fs /\ List.In n undefined
  end.
Proof. intros P r prog fs. exact (program_runs P prog r fs). Qed.
Print Assumptions C120_programs.
(** So it does when it is executed again and again, as by a PLC. *)
Theorem C120_cycles : forall P r prog fs, sane P -> well_typed (variable r) prog fs ->
  (forall n, List.In n fs -> ~ List.In n (aborting ++ can_abort (p_profile P) ++ undefined)) ->
  forall k, exists r', executes P r (concat (repeat prog k)) = Ok r' /\ forall x t, variable r x t -> variable r' x t.
Proof. intros P r prog fs. exact (cycles P prog fs r). Qed.
Print Assumptions C120_cycles.

(** * The hypotheses are met *)
Definition vars1 : env value := [("b", (S_BYTE, VZ 129)); ("n", (S_INT, VZ (-5))); ("k", (S_DINT, VZ 1));
  ("d", (S_DATE, VZ 86400000000000)); ("x", (S_REAL, VF (FNum (f_of_int F32 2)))); ("t", (S_TIME, VZ 7))].
(** MAX(ROL(b, k), b): the DINT [k] is passed for a UDINT. *)
Definition rotated : expr := Call "MAX" [Call "ROL" [Arg "b"; Arg "k"]; Arg "b"].
(** SUB(d, d) is a TIME. *)
Definition difference : expr := Call "SUB" [Arg "d"; Arg "d"].
(** REAL_TO_DINT(SQRT(DINT_TO_REAL(n))): -5 has no square root. *)
Definition root : expr := Call "REAL_TO_DINT" [Call "SQRT" [Call "DINT_TO_REAL" [Arg "n"]]].
Ltac var := constructor; eexists; split; [reflexivity|vm_compute; intuition discriminate].
Ltac code := apply has_code_of; vm_compute; reflexivity.
Example C120_rotated : has_type (variable vars1) rotated S_BYTE ["MAX__BYTE"; "ROL__BYTE"].
Proof.
  apply (ht_extreme _ "MAX" _ _ S_BYTE 2%nat ["ROL__BYTE"]); [now left|vm_compute; tauto|split; discriminate|].
  apply (hts_cons _ _ _ _ _ ["ROL__BYTE"] []); [|apply (hts_cons _ _ _ _ _ [] []); [var|constructor]].
  assert (D : find_decl "ROL" = Some (Decl "ROL" true [("T", ANY_BIT)] (Var "T") [("IN", Input, Var "T"); ("n", Input, Ty S_UDINT)] Empty)) by (vm_compute; reflexivity).
  apply declared_in in D. apply (ht_call (variable vars1) _ [S_BYTE] [Arg "b"; Arg "k"] [S_BYTE; S_DINT] S_BYTE []) in D; [exact D|repeat constructor; vm_compute; tauto|code| | |].
  - apply (hts_cons _ _ _ _ _ [] []); [var|]. apply (hts_cons _ _ _ _ _ [] []); [var|constructor].
  - apply Forall2_cons; [split; [reflexivity|]; split; [split; discriminate|now left]|].
    apply Forall2_cons; [split; [reflexivity|]; split; [split; discriminate|]|constructor]. right. left. split; vm_compute; tauto.
  - split; [split; discriminate|]. right. split; [apply undeclared_of; vm_compute; reflexivity|]. right. exists "T". split; [reflexivity|now left].
Qed.
Example C120_rotated_value : value_in (a_platform Debug) vars1 rotated = Ok (S_BYTE, VZ 129).
Proof. vm_compute. reflexivity. Qed.
Example C120_rotated_safe : forall n, List.In n ["MAX__BYTE"; "ROL__BYTE"] -> ~ List.In n (aborting ++ can_abort Debug ++ undefined).
Proof. intros n I M. apply (In_mem n) in M. destruct I as [<-|[<-|[]]]; vm_compute in M; discriminate M. Qed.
Example C120_difference : has_type (variable vars1) difference S_TIME ["SUB__DATE__DATE"].
Proof.
  assert (D : find_decl "SUB" = Some (Decl "SUB" false [("T1", ANY); ("T2", ANY)] (Var "T1") [("IN1", Input, Var "T1"); ("IN2", Input, Var "T2")] Empty)) by (vm_compute; reflexivity).
  apply declared_in in D. apply (ht_call (variable vars1) _ [S_DATE; S_DATE] [Arg "d"; Arg "d"] [S_DATE; S_DATE] S_TIME []) in D; [exact D|repeat constructor; vm_compute; tauto|code| | |].
  - apply (hts_cons _ _ _ _ _ [] []); [var|]. apply (hts_cons _ _ _ _ _ [] []); [var|constructor].
  - apply Forall2_cons; [split; [reflexivity|]; split; [split; discriminate|now left]|].
    apply Forall2_cons; [split; [reflexivity|]; split; [split; discriminate|right; now left]|constructor].
  - split; [split; discriminate|]. left. destruct (find_decl "SUB__DATE__DATE") as [d|] eqn:F; [|vm_compute in F; discriminate F].
    exists d. split; [exact (declared_in _ _ F)|]. vm_compute in F. injection F as <-. split; reflexivity.
Qed.
Example C120_root_undefined : value_in (a_platform Debug) vars1 root = Ub /\ List.In "REAL_TO_DINT" undefined.
Proof. split; [vm_compute; reflexivity|]. apply mem_In. vm_compute. reflexivity. Qed.
(** b := MAX(ROL(b, k), b); t := SUB(d, d); *)
Definition program1 : list (string * expr) := [("b", rotated); ("t", difference)].
Example C120_program : well_typed (variable vars1) program1 ["MAX__BYTE"; "ROL__BYTE"; "SUB__DATE__DATE"].
Proof.
  apply (wt_assign _ "b" rotated S_BYTE S_BYTE ["MAX__BYTE"; "ROL__BYTE"] _ ["SUB__DATE__DATE"]); [eexists; split; [reflexivity|vm_compute; intuition discriminate]|exact C120_rotated|now left|].
  apply (wt_assign _ "t" difference S_TIME S_TIME ["SUB__DATE__DATE"] _ []); [eexists; split; [reflexivity|vm_compute; intuition discriminate]|exact C120_difference|now left|constructor].
Qed.
