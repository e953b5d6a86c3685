(** Specification vocabulary: the types of the expressions of a program, and what they call. *)
From Coq Require Import String ZArith List Bool.
From Verif Require Import Base ModelFloat ModelLink ModelLib ModelApi SpecScalar SpecLink SpecLib SpecSafe SpecApi SpecCall.
Import ListNotations.
Open Scope list_scope.
Open Scope string_scope.

(** Types that are converted to each other when a value of one is passed or assigned to the other. *)
Definition wholes : list sty :=
  [S_SINT; S_INT; S_DINT; S_LINT; S_USINT; S_UINT; S_UDINT; S_ULINT; S_BYTE; S_WORD; S_DWORD; S_LWORD].
Definition floats : list sty := [S_REAL; S_LREAL].
Definition converts (s t : sty) : Prop :=
  s = t \/ List.In s wholes /\ List.In t (wholes ++ floats) \/ List.In s floats /\ List.In t floats.
(** The type [s] of an argument suits the parameter [p] of [d], with [ts] for the type variables of [d]: it is
    the type of the variable, or is converted to the declared type. *)
Definition suits (d : decl) (ts : list sty) (p : string * pkind * tyref) (s : sty) : Prop :=
  snd (fst p) = Input /\ no_string s /\
  match snd p with Var x => List.In (x, s) (combine (map fst (d_generic d)) ts) | Ty t => converts s t end.
(** The result of [n], the instance of [d] for the types [ts]: the type its own declaration gives, or that of [d]. *)
Definition result_is (d : decl) (ts : list sty) (t : sty) : Prop :=
  let n := instance_name (d_name d) ts in
  no_string t /\
  ((exists d', List.In d' st_decls /\ d_name d' = n /\ d_ret d' = Ty t) \/
   (forall d', List.In d' st_decls -> d_name d' <> n) /\ means d ts (d_ret d) t).

(** [has_type G e t fs]: with the variables [G] the expression [e] has the type [t]; it calls the functions [fs]. *)
Inductive has_type (G : string -> sty -> Prop) : expr -> sty -> list string -> Prop :=
| ht_variable : forall x t, G x t -> has_type G (Arg x) t []
| ht_call : forall d ts es ss t fs, List.In d st_decls ->
    Forall2 (fun x t => List.In t (members (snd x))) (d_generic d) ts -> has_code (instance_name (d_name d) ts) ->
    have_types G es ss fs -> Forall2 (suits d ts) (d_params d) ss -> result_is d ts t ->
    has_type G (Call (d_name d) es) t (instance_name (d_name d) ts :: fs)
| ht_extreme : forall f e es t n fs, List.In f ["MAX"; "MIN"] -> List.In t (members ANY_ELEMENTARY) -> no_string t ->
    have_types G (e :: es) (repeat t n) fs -> has_type G (Call f (e :: es)) t (instance_name f [t] :: fs)
with have_types (G : string -> sty -> Prop) : list expr -> list sty -> list string -> Prop :=
| hts_nil : have_types G [] [] []
| hts_cons : forall e es t ts fs gs, has_type G e t fs -> have_types G es ts gs -> have_types G (e :: es) (t :: ts) (fs ++ gs).

(** [x] is a variable of type [t] and has a value of that type. *)
Definition variable (r : env value) (x : string) (t : sty) : Prop := exists v, get x r = Ok (t, v) /\ holds t v.

(** A program: a sequence of assignments [x := e], executed with the variables [r].  The value is converted to the
    type of the variable. *)
Fixpoint executes (P : platform) (r : env value) (prog : list (string * expr)) : outcome (env value) :=
  match prog with
  | [] => Ok r
  | (x, e) :: prog' =>
      let! '(s, v) := value_in P r e in
      let! '(t, _) := get x r in
      let! w := coerce s t v in
      executes P (ModelLink.put x w r) prog'
  end.
Inductive well_typed (G : string -> sty -> Prop) : list (string * expr) -> list string -> Prop :=
| wt_nil : well_typed G [] []
| wt_assign : forall x e t s fs prog gs, G x t -> has_type G e s fs -> converts s t -> well_typed G prog gs ->
    well_typed G ((x, e) :: prog) (fs ++ gs).
