(** Specification vocabulary for calls of string functions in a program. *)
From Coq Require Import String ZArith List.
From Verif Require Import Base ModelString ModelLink ModelLib ModelApi SpecDate SpecText.
Import ListNotations.
Open Scope Z_scope.

Definition string_type (k : kind) : sty := match k with STRING => S_STRING | WSTRING => S_WSTRING end.
(** The call returns a STRING (WSTRING) that holds the text [t]. *)
Definition gives (k : kind) (t : list Z) (o : outcome (sty * value)) : Prop :=
  exists d, o = Ok (string_type k, VS d) /\ holds k d t.
(** The call returns TRUE if [p], FALSE if not. *)
Definition tells (p : Prop) (o : outcome (sty * value)) : Prop :=
  (p /\ o = Ok (S_BOOL, VZ 1)) \/ (~ p /\ o = Ok (S_BOOL, VZ 0)).
(** The call returns a STRING (WSTRING) of the units [s]. *)
Definition prints (k : kind) (s : list Z) (o : outcome (sty * value)) : Prop :=
  exists d, o = Ok (string_type k, VS d) /\ reads d s.
(** The value of the expression [e] in a program with the variables [r]. *)
Definition value_in (P : platform) (r : env value) (e : expr) : outcome (sty * value) :=
  omap fst (value_of (api P) r e).
(** [x] is a STRING (WSTRING) variable that holds the text [t]; a DINT variable of value [n]. *)
Definition string_var (k : kind) (r : env value) (x : string) (t : list Z) : Prop :=
  exists d, get x r = Ok (string_type k, VS d) /\ holds k d t.
Definition dint_var (r : env value) (x : string) (n : Z) : Prop :=
  get x r = Ok (S_DINT, VZ n) /\ in_ity i32 n.
(** The expression mentions only the parameters [ps], and calls declared functions with as many
    arguments as they have parameters. *)
Inductive well_scoped (ps : list string) : expr -> Prop :=
| scoped_arg : forall x, List.In x ps -> well_scoped ps (Arg x)
| scoped_result : well_scoped ps Result
| scoped_call : forall f args d, List.In d st_decls -> d_name d = f -> length (d_params d) = length args ->
    Forall (well_scoped ps) args -> well_scoped ps (Call f args).
(** The program executes [f(x, y1, ..., yk);] with the variables [r]: the parts are assigned to the
    variables [ys] of type [t], all other variables keep their values. *)
Definition splits_into (P : platform) (r : env value) (f x : string) (ys : list string) (t : sty) (parts : list Z)
    (r' : env value) : Prop :=
  value_of (api P) r (Call f (map Arg (x :: ys))) = Ok (S_INT, VZ 0, r') /\
  Forall2 (fun y z => get y r' = Ok (t, VZ z)) ys parts /\ (forall z, ~ List.In z ys -> get z r' = get z r).
(** Distinct variables of type [t]. *)
Definition variables (t : sty) (ys : list string) (r : env value) : Prop :=
  NoDup ys /\ Forall (fun y => exists a, get y r = Ok (t, a)) ys.
(** Arguments of the integer type [t]. *)
Definition ints (t : sty) (l : list Z) : list (sty * value) := map (fun z => (t, VZ z)) l.
(** Integer types that hold a year and not more than a DINT or UDINT does. *)
Definition narrow_ints : list sty := [S_INT; S_UINT; S_DINT; S_UDINT].
(** The calendar day [k] days after [x]. *)
Definition days_later (k : Z) (x : Z * Z * Z) : Z * Z * Z := Nat.iter (Z.to_nat k) next_day x.
(** The call returns [z] exactly if [p] holds, and aborts otherwise. *)
Definition delivers (t : sty) (z : Z) (p : Prop) (o : outcome (sty * value)) : Prop :=
  (p -> o = Ok (t, VZ z)) /\ (~ p -> o = Panic).
