(** Properties C99 and C100: formal parameters of overloaded functions; the declared conversions. *)
From Coq Require Import String ZArith List Bool.
From Verif Require Import Base ModelLink SpecConv ProofConv.
Import ListNotations.
Open Scope list_scope.
Open Scope string_scope.

Theorem C99_formal_parameters : forall d d', List.In d st_decls -> List.In d' st_decls -> instance_of d' d ->
  formals d' = formals d.
Proof. exact instances. Qed.
Print Assumptions C99_formal_parameters.

Example an_instance : exists d d', List.In d st_decls /\ List.In d' st_decls /\ instance_of d' d /\
  d_name d = "MID" /\ d_name d' = "MID__WSTRING" /\ length (formals d) = 3%nat.
Proof.
  assert (F : match find (fun d => String.eqb (d_name d) "MID") st_decls with
              | Some d => Nat.eqb (length (formals d)) 3 | None => false end = true) by (vm_compute; reflexivity).
  assert (F' : (if find (fun d => String.eqb (d_name d) "MID__WSTRING") st_decls then true else false) = true)
    by (vm_compute; reflexivity).
  destruct (find (fun d => String.eqb (d_name d) "MID") st_decls) as [d|] eqn:E; [|discriminate].
  destruct (find (fun d => String.eqb (d_name d) "MID__WSTRING") st_decls) as [d'|] eqn:E'; [|discriminate].
  exists d, d'. destruct (find_some _ _ E) as [I N]. destruct (find_some _ _ E') as [I' N'].
  apply String.eqb_eq in N. apply String.eqb_eq in N'. split; [exact I|]. split; [exact I'|].
  split; [exists "WSTRING"; now rewrite N, N'|]. split; [exact N|]. split; [exact N'|]. now apply PeanoNat.Nat.eqb_eq.
Qed.
(** Every typed function has a generic one that a program calls. *)
Theorem C99_generic : forall d' b s, List.In d' st_decls -> d_name d' = b ++ "__" ++ s ->
  exists d, List.In d st_decls /\ instance_of d' d.
Proof. exact generic. Qed.
Print Assumptions C99_generic.

Example many_instances :
  length (filter (fun d => existsb (fun d' => String.prefix (d_name d ++ "__") (d_name d')) st_decls) st_decls) = 26%nat /\
  length (filter (fun d => has_suffix_type (d_name d)) st_decls) = 113%nat.
Proof. vm_compute. split; reflexivity. Qed.

(** Missing: LIMIT, SIN, COS and TAN; their parameters have other names. *)
Theorem C99_standard_names_partial : forall n l, List.In (n, l) standard_formals ->
  ~ List.In n ["LIMIT"; "SIN"; "COS"; "TAN"] ->
  exists d, List.In d st_decls /\ d_name d = n /\ formal_names d = l.
Proof. exact standard. Qed.
Print Assumptions C99_standard_names_partial.

Theorem C99_standard_names_refuted : exists n l, List.In (n, l) standard_formals /\
  ~ exists d, List.In d st_decls /\ d_name d = n /\ formal_names d = l.
Proof.
  exists "LIMIT", ["MN"; "IN"; "MX"]. assert (I : List.In ("LIMIT", ["MN"; "IN"; "MX"]) standard_formals) by (unfold standard_formals; cbn; tauto).
  split; [exact I|]. intros (d & D & E & F). revert F. apply (nonstandard "LIMIT"); auto. cbn. tauto.
Qed.
Print Assumptions C99_standard_names_refuted.

(** What LIMIT and the trigonometric functions call their parameters. *)
Example other_names : map formal_names (filter (fun d => existsb (String.eqb (d_name d)) ["LIMIT"; "SIN"; "COS"; "TAN"]) st_decls) =
  [["RAD"]; ["RAD"]; ["RAD"]; ["MIN"; "IN"; "MAX"]].
Proof. vm_compute. reflexivity. Qed.

(** A function named like a conversion takes and gives what its name says. *)
Theorem C100_names : forall d a b, List.In d st_decls -> d_name d = conversion_name a b -> converts a b.
Proof. exact named. Qed.
Print Assumptions C100_names.

Theorem C100_numbers : forall a b, List.In a (integer_types ++ real_types)%list -> List.In b (integer_types ++ real_types)%list ->
  a <> b -> converts a b.
Proof. exact numbers. Qed.
Print Assumptions C100_numbers.

Theorem C100_words_and_integers : forall a b,
  List.In a (word_types ++ integer_types)%list -> List.In b (word_types ++ integer_types)%list -> a <> b -> converts a b.
Proof. exact words. Qed.
Print Assumptions C100_words_and_integers.

Theorem C100_from_bool : forall b, List.In b (word_types ++ integer_types)%list -> converts S_BOOL b.
Proof. exact from_bool. Qed.
Print Assumptions C100_from_bool.

(** Missing: the reverse of the conversions in [one_way]; these are exactly the ones that have none. *)
Theorem C100_reverse_partial : forall a b, scalar a = true -> scalar b = true ->
  (List.In (a, b) one_way <-> converts a b /\ ~ converts b a).
Proof. exact reverse. Qed.
Print Assumptions C100_reverse_partial.

Theorem C100_reverse_refuted : exists a b, scalar a = true /\ scalar b = true /\ converts a b /\ ~ converts b a.
Proof. exists S_DT, S_LINT. split; [reflexivity|]. split; [reflexivity|]. apply reverse; cbn; tauto. Qed.
Print Assumptions C100_reverse_refuted.

Example how_many : length (filter (fun p => declared (fst p) (snd p)) (list_prod all_types all_types)) = 304%nat.
Proof. vm_compute. reflexivity. Qed.
