(** Specification vocabulary: what a call of an exported string function may depend on. *)
From Coq Require Import String ZArith List Bool.
From Verif Require Import Base ModelLink ModelLib SpecText SpecSafe.
Import ListNotations.
Open Scope list_scope.
Open Scope string_scope.
Open Scope Z_scope.

(** A pointer to the units of a STRING or WSTRING that is read, or written. *)
Definition is_text (t : rty) : bool := match t with Ptr false U8 | Ptr false U16 => true | _ => false end.
Definition is_dest (t : rty) : bool := match t with Ptr true U8 | Ptr true U16 => true | _ => false end.

(** Equal numbers, or memory that holds the same units up to the first NUL. *)
Definition same (t : rty) (v v' : value) : Prop :=
  if is_text t then exists m m' s, v = VS m /\ v' = VS m' /\ reads m s /\ reads m' s
  else v = v' /\ typed t v.
Fixpoint same_args (ts : list rty) (a a' : list value) : Prop :=
  match ts, a, a' with
  | [], [], [] => True
  | t :: ts, v :: a, v' :: a' => same t v v' /\ same_args ts a a'
  | _, _, _ => False
  end.

Definition inputs (ts : list rty) : bool := forallb (fun t => number t || is_text t) ts.
(** The parameters are numbers and strings, no arrays. *)
Definition reader (s : symbol) : bool :=
  match array (sy_params s) with Some _ => false | None => inputs (sy_params s) && existsb is_text (sy_params s) end.
(** The same followed by a destination. *)
Definition writer (s : symbol) : bool :=
  match rev (sy_params s) with d :: r => is_dest d && inputs (rev r) && negb (Nat.eqb (length r) 0) | [] => false end.
Definition writer_inputs (s : symbol) : list rty := removelast (sy_params s).
(** A count and an array of strings. *)
Definition compares (s : symbol) : bool :=
  match sy_params s with [I32; Ptr false u] => is_text u | _ => false end.
Definition concatenates (s : symbol) : bool :=
  match sy_params s with [d; I32; Ptr false u] => is_dest d && is_text u | _ => false end.

(** The call with inputs [a] stores [w] at the beginning of the destination, whatever it contained, and
    nothing else ([Some w]), or aborts ([None]); it needs a destination of [n] units. *)
Definition effect (call : list Z -> outcome (list Z)) (n : nat) (r : option (list Z)) : Prop :=
  forall dest, ((length dest < n)%nat -> call dest = Ub) /\
    ((n <= length dest)%nat ->
       call dest = match r with Some w => Ok (w ++ skipn (length w) dest)%list | None => Panic end).
(** The destination after a call whose destination is the last or the first parameter; the inputs
    are unchanged and the result is 0. *)
Definition call_last (P : platform) (f : string) (a : list value) (dest : list Z) (after : outcome (list Z)) : Prop :=
  rust_call P f (a ++ [VS dest])%list = omap (fun d => (VZ 0, (a ++ [VS d])%list)) after.
Definition call_first (P : platform) (f : string) (a : list value) (dest : list Z) (after : outcome (list Z)) : Prop :=
  rust_call P f (VS dest :: a) = omap (fun d => (VZ 0, VS d :: a)) after.
