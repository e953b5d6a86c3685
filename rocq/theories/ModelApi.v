(** The library as a program sees it: every FUNCTION declared in /repo/iec61131-st/*.st, called by
    name.  An external function is the exported Rust function of that name; a function whose body
    only calls other functions is executed by [run] of ModelLink.v, the conversion and arithmetic
    functions by [st_call] of ModelST.v, and the other functions by their models in ModelExtra.v and
    ModelWrap.v. *)
From Coq Require Import String ZArith List Bool SpecFloat.
From Verif Require Import Base ModelFloat ModelTimeNum ModelText ModelString ModelExtra ModelST ModelWrap ModelLink ModelLib.
Import ListNotations.
Open Scope Z_scope.
Open Scope string_scope.

(** Values of elementary types.  /repo/iec61131-st/num_conversion.st:6-11 and the others. *)
Definition to_val (v : value) : option val :=
  match v with VZ z => Some (VInt z) | VF x => Some (VFl x) | VS _ => None end.
(** Numbers of ModelST.v as values of programs: results of the bodies, e.g.
    /repo/iec61131-st/num_conversion.st:6-11. *)
Definition of_val (v : val) : value := match v with VInt z => VZ z | VFl x => VF x end.

(** ST functions with string parameters or results whose body is more than calls.
    /repo/iec61131-st/extra_functions.st:494-503, 674-683, 714-723, 730-739,
    /repo/iec61131-st/string_conversion.st:28-36, 67-75, 83-91, 111-119,
    /repo/iec61131-st/string_functions.st:575-587, 589-601, 616-628, 630-642, 658-670, 672-684.
    Simplified: what CHAR_TO_STRING reads behind its parameter is not known here. *)
Definition text_functions : list (string * code) := [
  ("WSTRING_TO_LINT", s_z (fun _ => WSTRING_TO_LINT)); ("WSTRING_TO_DINT", s_z (fun _ => WSTRING_TO_DINT));
  ("WSTRING_TO_LREAL", s_f WSTRING_TO_LREAL); ("WSTRING_TO_REAL", s_f WSTRING_TO_REAL);
  ("WSTRING_TO_WCHAR", s_z (fun _ => STRING_TO_CHAR)); ("STRING_TO_CHAR", s_z (fun _ => STRING_TO_CHAR));
  ("WCHAR_TO_WSTRING", fun _ _ => Ub); ("CHAR_TO_STRING", fun _ _ => Ub);
  ("STRING_GREATER", ss_z (fun _ a b => omap Z.b2z (STRING_GREATER a b)));
  ("WSTRING_GREATER", ss_z (fun _ a b => omap Z.b2z (STRING_GREATER a b)));
  ("STRING_EQUAL", ss_z (fun _ a b => omap Z.b2z (STRING_EQUAL a b)));
  ("WSTRING_EQUAL", ss_z (fun _ a b => omap Z.b2z (STRING_EQUAL a b)));
  ("STRING_LESS", ss_z (fun _ a b => omap Z.b2z (STRING_LESS a b)));
  ("WSTRING_LESS", ss_z (fun _ a b => omap Z.b2z (STRING_LESS a b)))].

(** Functions that are not executed by [run]: exported Rust functions (/repo/src/*.rs), the functions
    above, and the ST functions of ModelST.v (/repo/iec61131-st/*.st). *)
Definition basic (P : platform) (n : string) (args : list value) : outcome (value * list value) :=
  match find_code n with
  | Some _ => rust_call P n args
  | None =>
      match find (fun e => String.eqb (fst e) n) text_functions with
      | Some e => snd e P args
      | None =>
          match all_some (map to_val args) with
          | Some l => let! r := st_call (p_chrono P) n l in Ok (of_val r, args)
          | None => Ub
          end
      end
  end.

(** Initial values of result variables: zero, and for strings a NUL in every unit.  RuSTy's default
    for the functions of /repo/iec61131-st/*.st. *)
Definition initial (t : sty) : value :=
  match t with
  | S_STRING | S_WSTRING => VS ModelWrap.result
  | S_REAL | S_LREAL => VF (FNum (S754_zero false))
  | _ => VZ 0
  end.

(** Types of ModelST.v.  /repo/iec61131-st/num_conversion.st:6-11 and the others. *)
Definition st_type (t : sty) : option st_ty :=
  match t with
  | S_BOOL => Some T_BOOL
  | S_BYTE | S_USINT | S_CHAR => Some T_BYTE | S_WORD | S_UINT | S_WCHAR => Some T_WORD
  | S_DWORD | S_UDINT => Some T_DWORD | S_LWORD | S_ULINT => Some T_LWORD
  | S_SINT => Some T_SINT | S_INT => Some T_INT | S_DINT => Some T_DINT
  | S_REAL => Some T_REAL | S_LREAL => Some T_LREAL
  | S_STRING | S_WSTRING => None
  | _ => Some T_LINT
  end.
(** Implicit conversion of arguments and assigned values.  E.g. of [IN] at
    /repo/iec61131-st/extra_functions.st:54, 88, of the result of ROUND at 771. *)
Definition coerce (from to : sty) (v : value) : outcome value :=
  if rty_eqb (repr from) (repr to) then Ok v
  else match st_type from, st_type to, to_val v with
       | Some s, Some t, Some x => omap of_val (st_cast s t x)
       | _, _, _ => Ub
       end.
(** The parameter that each argument is for: a variadic parameter takes all the remaining arguments.
    E.g. /repo/iec61131-st/string_functions.st:282-289. *)
Fixpoint formals (ps : list (string * pkind * tyref)) (ts : list sty) : list (string * pkind * tyref) :=
  match ps with
  | [(n, Sized, t)] => map (fun _ => (n, Sized, t)) ts
  | [(n, SizedRef, t)] => map (fun _ => (n, SizedRef, t)) ts
  | p :: ps' => p :: formals ps' (tl ts)
  | [] => []
  end.
(** Arguments for parameters [ps], as at /repo/iec61131-st/extra_functions.st:54. *)
Fixpoint coerce_all (ps : list (string * pkind * tyref)) (l : list (sty * value)) : outcome (list value) :=
  match ps, l with
  | [], [] => Ok []
  | (_, _, Ty t) :: ps', (s, v) :: l' =>
      let! w := coerce s t v in let! ws := coerce_all ps' l' in Ok (w :: ws)
  | (_, _, Var _) :: ps', (_, v) :: l' => let! ws := coerce_all ps' l' in Ok (v :: ws)
  | _, _ => Ub
  end.

(** A call with typed arguments: the instance is selected by the types of the arguments, the
    arguments are converted to the parameter types, the result has the declared type or, for a
    type variable, that of the argument.  [invoke] executes a function that is not generic.  E.g.
    /repo/iec61131-st/arithmetic_functions.st:17, /repo/iec61131-st/extra_functions.st:771. *)
Definition dispatch (invoke : string -> list value -> outcome (value * list value)) (f : string)
    (l : list (sty * value)) : outcome (sty * value * list (string * pkind * tyref) * list value) :=
  let ts := map fst l in
  match find_decl f, resolve f ts with
  | Some d, Some n =>
      let ps := formals (d_params d) ts in
      let! args := coerce_all ps l in
      let! '(v, outs) := invoke n args in
      match (match find_decl n with Some d' => d_ret d' | None => d_ret d end) with
      | Ty t => Ok (t, v, ps, outs)
      | Var x => match infer x ps ts with Some t => Ok (t, v, ps, outs) | None => Ub end
      end
  | _, _ => Ub
  end.
(** Expressions, as at /repo/iec61131-st/extra_functions.st:54, 771. *)
Fixpoint value_of (invoke : string -> list value -> outcome (value * list value)) (r : env value)
    (e : ModelLink.expr) : outcome (sty * value * env value) :=
  match e with
  | Arg x => let! tv := get x r in Ok (tv, r)
  | Result => let! tv := get "@" r in Ok (tv, r)
  | Call f args =>
      let! l := (fix go (l : list ModelLink.expr) := match l with
                 | [] => Ok []
                 | a :: l' => let! '(tv, _) := value_of invoke r a in let! tvs := go l' in Ok (tv :: tvs)
                 end) args in
      let! '(t, v, ps, outs) := dispatch invoke f l in
      Ok (t, v, copy_out ps args outs r)
  end.

(** A call of a function that is not generic, or of an instance by its name; the arguments have the
    declared types.  [fuel] bounds the call depth.  Bodies that only call functions are executed,
    e.g. /repo/iec61131-st/extra_functions.st:54, 771; an external function
    (/repo/iec61131-st/arithmetic_functions.st:16) has no other code than Rust's. *)
Fixpoint invoke (P : platform) (fuel : nat) (n : string) (args : list value) : outcome (value * list value) :=
  match fuel with
  | O => Ub
  | S k =>
      match find_decl n with
      | Some (Decl _ false [] (Ty t) ps b) =>
          let types := map (fun p => match snd p with Ty s => s | Var _ => t end) ps in
          let names := map (fun p => fst (fst p)) ps in
          let r0 := ("@", (t, initial t)) :: combine names (combine types args) in
          match b with
          | Assign e =>
              let! '(u, v, r) := value_of (invoke P k) r0 e in
              let! w := coerce u t v in
              let! outs := get_all names r in
              Ok (w, outs)
          | Do e =>
              let! '(_, _, r) := value_of (invoke P k) r0 e in
              let! '(_, v) := get "@" r in
              let! outs := get_all names r in
              Ok (v, outs)
          | _ => basic P n args
          end
      | Some (Decl _ true _ _ _ _) => rust_call P n args
      | _ => basic P n args
      end
  end.
(** The depth of calls in /repo/iec61131-st/*.st is at most 3 (e.g.
    /repo/iec61131-st/extra_functions.st:766-772). *)
Definition api (P : platform) (n : string) (args : list value) : outcome (value * list value) := invoke P 5 n args.
(** A call of any function by a program, result type and value.  E.g.
    /repo/iec61131-st/arithmetic_functions.st:17. *)
Definition call (P : platform) (f : string) (args : list (sty * value)) : outcome (sty * value) :=
  let! '(t, v, _, _) := dispatch (api P) f args in Ok (t, v).
