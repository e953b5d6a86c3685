(** Properties C82 to C84: the ST declarations, the exported Rust symbols and the ST functions that
    call other functions. *)
From Coq Require Import String ZArith List Bool.
From Verif Require ModelLayout.
From Verif Require Import Base ModelLink SpecLink ProofLink.
Import ListNotations.
Open Scope list_scope.
Open Scope string_scope.

(** * C82: every function declared external is exported with the declared interface *)

(** A symbol whose name is that of a declared function, or of an instance of a declared generic
    function, has the declared result and parameters. *)
Theorem C82_interfaces_agree : forall d ts s, List.In d st_decls -> length ts = length (d_generic d) ->
  List.In s rust_symbols -> sy_name s = instance_name (d_name d) ts ->
  exists ret ps, typed d ts ret ps /\ implements s ret ps.
Proof. exact interfaces_agree. Qed.
Print Assumptions C82_interfaces_agree.
(** Missing: the six instances of SPLIT_LDT. *)
Theorem C82_external_is_exported_partial : forall d, List.In d st_decls -> d_external d = true ->
  d_generic d = [] ->
  ((exists s, List.In s rust_symbols /\ sy_name s = d_name d) <->
   ~ List.In (d_name d) ["SPLIT_LDT__INT"; "SPLIT_LDT__UINT"; "SPLIT_LDT__DINT"; "SPLIT_LDT__UDINT";
                         "SPLIT_LDT__LINT"; "SPLIT_LDT__ULINT"]).
Proof. exact externals. Qed.
Print Assumptions C82_external_is_exported_partial.
(** SPLIT_LDT is declared external although it has a body, and there is no symbol. *)
Theorem C82_external_is_exported_refuted : exists d, List.In d st_decls /\ d_external d = true /\
  d_generic d = [] /\ d_name d = "SPLIT_LDT__DINT" /\ d_body d <> Empty /\
  forall s, List.In s rust_symbols -> sy_name s <> d_name d.
Proof.
  destruct (find_decl "SPLIT_LDT__DINT") as [d|] eqn:F; [|vm_compute in F; discriminate F].
  pose proof F as G. unfold find_decl in G. apply find_some in G as [D N]. vm_compute in F. injection F as F.
  exists d. split; [exact D|]. rewrite <- F. split; [reflexivity|]. split; [reflexivity|].
  split; [reflexivity|]. split; [discriminate|]. intros s S E.
  pose proof (externals d D) as Y. rewrite <- F in Y. destruct (Y eq_refl eq_refl) as [X _].
  apply X; [now exists s|]. right. right. now left.
Qed.
Print Assumptions C82_external_is_exported_refuted.
(** Names are unique on both sides, so a name denotes one function. *)
Theorem C82_unique_names : NoDup (map sy_name rust_symbols) /\ NoDup (map d_name st_decls).
Proof. exact unique_names. Qed.
Print Assumptions C82_unique_names.
(** RuSTy calls external functions with the C calling convention; these symbols do not have it. *)
Theorem C82_calling_convention_partial : forall s, List.In s rust_symbols ->
  (sy_c s = false <-> exists g t, sy_name s = instance_name g [t] /\
     List.In g ["SHL"; "SHR"; "ROL"; "ROR"; "TO_BIG_ENDIAN"; "TO_LITTLE_ENDIAN"; "FROM_BIG_ENDIAN";
                "FROM_LITTLE_ENDIAN"]).
Proof.
  intros s S. rewrite (check_c_sound _ c_checked s S). split; intros (g & t & A & B); exists g, t; now split.
Qed.
Print Assumptions C82_calling_convention_partial.
Theorem C82_calling_convention_refuted : exists s, List.In s rust_symbols /\ sy_name s = "SHL__BYTE" /\ sy_c s = false.
Proof.
  destruct (find_symbol "SHL__BYTE") as [s|] eqn:F; [|vm_compute in F; discriminate F].
  pose proof F as G. unfold find_symbol in G. apply find_some in G as [D N]. vm_compute in F. injection F as F.
  exists s. split; [exact D|]. now rewrite <- F.
Qed.
Print Assumptions C82_calling_convention_refuted.
(** The exported symbols that no declaration reaches. *)
Theorem C82_exported_is_declared_partial : forall s, List.In s rust_symbols ->
  ((exists d ts, List.In d st_decls /\ length ts = length (d_generic d) /\ sy_name s = instance_name (d_name d) ts) <->
   ~ List.In (sy_name s) (["concat_date"; "concat_tod"; "REAL_TO_STRING_EXT"] ++ function_blocks)%list).
Proof. exact (check_symbols_sound _ _ symbols_checked). Qed.
Print Assumptions C82_exported_is_declared_partial.
(** A generic function declared external has an exported instance. *)
Theorem C82_external_generic_is_exported : forall d, List.In d st_decls -> d_external d = true -> d_generic d <> [] ->
  exists ts s, length ts = length (d_generic d) /\ List.In s rust_symbols /\ sy_name s = instance_name (d_name d) ts.
Proof.
  assert (C : forallb (fun d => negb (d_external d && negb (length (d_generic d) =? 0)%nat) ||
    existsb (fun ts => (length ts =? length (d_generic d))%nat && match find_symbol (instance_name (d_name d) ts) with Some _ => true | None => false end)
      [[S_REAL]; [S_BYTE]; [S_DINT]; [S_STRING]; [S_REAL; S_REAL]]) st_decls = true) by (vm_compute; reflexivity).
  intros d D E G. rewrite forallb_forall in C. specialize (C d D). rewrite E in C.
  destruct (d_generic d) as [|g l]; [contradiction|]. cbn [length Nat.eqb andb negb orb] in C.
  apply existsb_exists in C as (ts & _ & C). apply andb_true_iff in C as [L C]. apply Nat.eqb_eq in L.
  destruct (find_symbol (instance_name (d_name d) ts)) as [s|] eqn:F; [|discriminate C].
  apply find_some in F as [S N]. apply String.eqb_eq in N. exists ts, s. split; [exact L|]. split; [exact S|exact N].
Qed.
Print Assumptions C82_external_generic_is_exported.

(** The function blocks: a symbol takes an instance if and only if ST declares a block of its name; it
    then takes nothing else, may write to the instance, and has the C calling convention. *)
Theorem C82_function_blocks :
  (forall s, List.In s rust_symbols ->
     ((exists m, List.In (Ptr m Inst) (sy_params s)) <-> ModelLayout.block (sy_name s) ModelLayout.st_blocks <> None)) /\
  (forall n, ModelLayout.block n ModelLayout.st_blocks <> None ->
     exists s, List.In s rust_symbols /\ s = Sym n true [Ptr true Inst] Unit).
Proof.
  assert (C : forallb (fun s => Bool.eqb (existsb (fun p => match p with Ptr _ Inst => true | _ => false end) (sy_params s))
    (match ModelLayout.block (sy_name s) ModelLayout.st_blocks with Some _ => true | None => false end)) rust_symbols = true)
    by (vm_compute; reflexivity).
  assert (B : forallb (fun b => match find_symbol (fst b) with
    | Some (Sym n true [Ptr true Inst] Unit) => true | _ => false end) ModelLayout.st_blocks = true) by (vm_compute; reflexivity).
  split.
  - intros s S. rewrite forallb_forall in C. specialize (C s S). apply Bool.eqb_prop in C. split.
    + intros (m & P). assert (X : existsb (fun p => match p with Ptr _ Inst => true | _ => false end) (sy_params s) = true)
        by (apply existsb_exists; exists (Ptr m Inst); split; [exact P|reflexivity]).
      rewrite X in C. destruct (ModelLayout.block _ _); [intros Q; discriminate Q|discriminate C].
    + destruct (ModelLayout.block _ _); [intros _|congruence]. apply existsb_exists in C as (p & P & E).
      destruct p as [| | | | | | | | | | | | |m []]; try discriminate E. exists m. exact P.
  - intros n H. assert (I : exists fs, List.In (n, fs) ModelLayout.st_blocks).
    { revert H. generalize ModelLayout.st_blocks as l. induction l as [|[k fs] l IH]; cbn [ModelLayout.block]; [congruence|].
      destruct (String.eqb k n) eqn:K; intros H.
      - apply String.eqb_eq in K. subst. exists fs. now left.
      - destruct (IH H) as [gs G]. exists gs. now right. }
    destruct I as [fs I]. rewrite forallb_forall in B. specialize (B _ I). cbn [fst] in B.
    destruct (find_symbol n) as [s|] eqn:F; [|discriminate B]. apply find_some in F as [D N]. apply String.eqb_eq in N.
    exists s. split; [exact D|]. destruct s as [k c ps r]. cbn [sy_name] in N. subst k.
    destruct c; [|discriminate B]. destruct ps as [|[| | | | | | | | | | | | |[] []] [|? ?]]; try discriminate B.
    destruct r; try discriminate B. reflexivity.
Qed.
Print Assumptions C82_function_blocks.
Example C82_ton : ModelLayout.block "TON" ModelLayout.st_blocks <> None /\
  List.In (Sym "TON" true [Ptr true Inst] Unit) rust_symbols.
Proof. split; [discriminate|]. destruct C82_function_blocks as [_ F]. destruct (F "TON") as (s & S & ->); [discriminate|exact S]. Qed.

(** The tables are not trivial: 525 declarations, 367 symbols; an instance of a generic function and
    a string function with a result. *)
Example C82_sizes : length st_decls = 525%nat /\ length rust_symbols = 367%nat.
Proof. split; vm_compute; reflexivity. Qed.
Example C82_limit : exists d s, find_decl "LIMIT" = Some d /\ find_symbol "LIMIT__DINT" = Some s /\
  sy_name s = instance_name (d_name d) [S_DINT] /\ sy_params s = [I32; I32; I32].
Proof. do 2 eexists. repeat split; vm_compute; reflexivity. Qed.
Example C82_concat : exists d s, find_decl "CONCAT_EXT" = Some d /\ find_symbol "CONCAT_EXT__WSTRING" = Some s /\
  sy_name s = instance_name (d_name d) [S_WSTRING].
Proof. do 2 eexists. repeat split; vm_compute; reflexivity. Qed.

(** * C83: a generic function can be called with every type of its class *)

(** Missing: the instances listed in [no_code]. *)
Theorem C83_instance_has_code_partial : forall d x c t, List.In d st_decls -> d_generic d = [(x, c)] ->
  List.In t (members c) ->
  (has_code (instance_name (d_name d) [t]) <-> ~ exists l, List.In (d_name d, l) no_code /\ List.In t l).
Proof. exact generic_code. Qed.
Print Assumptions C83_instance_has_code_partial.
(** ABS of an unsigned number. *)
Theorem C83_instance_has_code_refuted : exists d x c t, List.In d st_decls /\ d_name d = "ABS" /\
  d_generic d = [(x, c)] /\ List.In t (members c) /\ t = S_UDINT /\ ~ has_code (instance_name (d_name d) [t]).
Proof.
  destruct (find_decl "ABS") as [d|] eqn:F; [|vm_compute in F; discriminate F].
  pose proof F as G. unfold find_decl in G. apply find_some in G as [D N]. vm_compute in F. injection F as F.
  assert (Q : d_generic d = [("T", ANY_NUM)]) by now rewrite <- F.
  assert (M : List.In S_UDINT (members ANY_NUM)) by (repeat (first [left; reflexivity | right])).
  assert (A : d_name d = "ABS") by now rewrite <- F.
  exists d, "T", ANY_NUM, S_UDINT.
  split; [exact D|]. split; [exact A|]. split; [exact Q|]. split; [exact M|]. split; [reflexivity|].
  intros C. apply (generic_code d "T" ANY_NUM S_UDINT D Q M) in C. apply C.
  rewrite A. exists [S_USINT; S_UINT; S_UDINT; S_ULINT]. split; [|repeat (first [left; reflexivity | right])].
  unfold no_code. repeat (first [left; reflexivity | right]).
Qed.
Print Assumptions C83_instance_has_code_refuted.
Theorem C83_expt_has_code : forall t u, List.In t (members ANY_REAL) -> List.In u (members ANY_NUM) ->
  has_code (instance_name "EXPT" [t; u]).
Proof. exact expt_code. Qed.
Print Assumptions C83_expt_has_code.
(** An instance with a declaration of its own has the interface of the generic declaration, so the
    code selected for a call fits the call. *)
Theorem C83_instance_fits_generic : forall d e ts, List.In d st_decls -> d_generic d <> [] ->
  length ts = length (d_generic d) -> List.In e st_decls -> d_generic e = [] ->
  d_name e = instance_name (d_name d) ts ->
  exists r ps r' ps', typed d ts r ps /\ typed e [] r' ps' /\ alike r r' /\
    Forall2 (fun p q => fst p = fst q /\ alike (snd p) (snd q)) ps ps'.
Proof. exact (check_instances_sound _ instances_checked). Qed.
Print Assumptions C83_instance_fits_generic.

Example C83_max : exists d, find_decl "MAX" = Some d /\ d_generic d = [("T", ANY_ELEMENTARY)] /\
  length (members ANY_ELEMENTARY) = 27%nat.
Proof. eexists. repeat split; vm_compute; reflexivity. Qed.
Example C83_sub : exists d e, find_decl "SUB" = Some d /\ length (d_generic d) = 2%nat /\
  find_decl (instance_name "SUB" [S_LDT; S_TIME]) = Some e.
Proof. do 2 eexists. repeat split; vm_compute; reflexivity. Qed.

(** * C84: the functions written in ST give what the function they call gives

    For every type of values, every library of external functions [ext] and all initial values. *)

Theorem C84_aliases : forall V (ext : string -> list V -> outcome (V * list V)) init f g args,
  List.In (f, g) aliases -> length args = arity f ->
  omap fst (calls ext init f args) = omap fst (ext g args).
Proof. exact alias_calls. Qed.
Print Assumptions C84_aliases.
Theorem C84_result_parameter : forall V (ext : string -> list V -> outcome (V * list V)) init f g t args,
  List.In (f, g, t) result_of -> S (length args) = arity g ->
  (forall v outs, ext g (args ++ [init t])%list = Ok (v, outs) -> length outs = S (length args)) ->
  omap fst (calls ext init f args) = let! '(_, outs) := ext g (args ++ [init t])%list in Ok (last outs (init t)).
Proof. exact result_calls. Qed.
Print Assumptions C84_result_parameter.
Theorem C84_wide_texts : forall V (ext : string -> list V -> outcome (V * list V)) init f g a u p v q w,
  List.In (f, g) widened ->
  ext g [a; init S_STRING] = Ok (u, [p; v]) ->
  ext "STRING_TO_WSTRING_EXT" [v; init S_WSTRING] = Ok (q, w) -> length w = 2%nat ->
  omap fst (calls ext init f [a]) = Ok (last w (init S_WSTRING)).
Proof. exact widened_calls. Qed.
Print Assumptions C84_wide_texts.
Theorem C84_concat_dt : forall V (ext : string -> list V -> outcome (V * list V)) init t c
    y m d h mi s ms date outs tod outs',
  List.In t wide_ints -> List.In c ["CONCAT_DT"; "CONCAT_LDT"] ->
  ext (instance_name "CONCAT_DATE" [t]) [y; m; d] = Ok (date, outs) -> length outs = 3%nat ->
  ext (instance_name "CONCAT_TOD" [t]) [h; mi; s; ms] = Ok (tod, outs') -> length outs' = 4%nat ->
  omap fst (calls ext init (instance_name c [t]) [y; m; d; h; mi; s; ms]) =
  omap fst (ext "CONCAT_DATE_TOD" [date; tod]).
Proof. exact concat_calls. Qed.
Print Assumptions C84_concat_dt.
Theorem C84_split_ltod : forall V (ext : string -> list V -> outcome (V * list V)) init t x v vs outs,
  List.In t wide_ints -> length vs = 4%nat -> length outs = 4%nat ->
  ext (instance_name "SPLIT_TOD" [t]) (x :: vs) = Ok (v, x :: outs) ->
  calls ext init (instance_name "SPLIT_LTOD" [t]) (x :: vs) = Ok (v, x :: outs).
Proof. exact split_ltod_calls. Qed.
Print Assumptions C84_split_ltod.

(** A library on integers: every function returns a code of its name's length and its arguments,
    and stores 7 in its last parameter. *)
Definition toy (f : string) (args : list Z) : outcome (Z * list Z) :=
  Ok ((Z.of_nat (String.length f) + 2 * fold_right Z.add 0 args)%Z, (removelast args ++ [7%Z])%list).
Example C84_add : calls toy (fun _ => 0%Z) "ADD_LTIME" [3%Z; 5%Z] = Ok (24%Z, [3%Z; 5%Z]).
Proof. vm_compute. reflexivity. Qed.
Example C84_left : calls toy (fun _ => 0%Z) "LEFT__STRING" [3%Z; 5%Z] = Ok (7%Z, [3%Z; 5%Z]).
Proof. vm_compute. reflexivity. Qed.
Example C84_concat : exists r, calls toy (fun _ => 0%Z) "CONCAT_DT__INT" [1%Z; 2%Z; 3%Z; 4%Z; 5%Z; 6%Z; 7%Z] = Ok r.
Proof. eexists. vm_compute. reflexivity. Qed.
