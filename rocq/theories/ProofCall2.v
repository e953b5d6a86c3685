(** Proofs about calls of conversions to text in a program. *)
From Coq Require Import String Ascii ZArith Lia List Bool SpecFloat.
From Verif Require Import Base ModelFloat ModelTimeNum ModelText ModelString ModelExtra ModelST ModelWrap ModelLink ModelLib
  ModelApi SpecScalar SpecText SpecLink SpecLib SpecName SpecWrap SpecCall ProofLib ProofName ProofWrap ProofExtra ProofCall.
Import ListNotations.
Open Scope list_scope.
Open Scope string_scope.
Open Scope Z_scope.

Notation res := ModelWrap.result.
Lemma value_two : forall inv r f a b t, value_of inv r a = Ok (t, r) -> 
  value_of inv r (Call f [a; b]) = 
  let! '(tv, _) := value_of inv r b in 
  let! '(u, v, ps, outs) := dispatch inv f [t; tv] in Ok (u, v, copy_out ps [a; b] outs r).
Proof.
  intros inv r f a b t H. cbn [value_of]. rewrite H. cbn [obind]. 
  destruct (value_of inv r b) as [[tv r']| |]; reflexivity.
Qed.
Lemma value_fail : forall inv r f a b, (value_of inv r a = Panic -> value_of inv r (Call f [a; b]) = Panic) /\
  (value_of inv r a = Ub -> value_of inv r (Call f [a; b]) = Ub).
Proof. intros inv r f a b. split; intros H; cbn [value_of]; rewrite H; reflexivity. Qed.

Lemma dispatch_eq : forall inv f l d n args u, find_decl f = Some d -> resolve f (map fst l) = Some n ->
  coerce_all (formals (d_params d) (map fst l)) l = Ok args ->
  (match find_decl n with Some d' => d_ret d' | None => d_ret d end) = Ty u ->
  dispatch inv f l = let! '(v, outs) := inv n args in Ok (u, v, formals (d_params d) (map fst l), outs).
Proof.
  intros inv f l d n args u D R C U. unfold dispatch. cbv zeta. rewrite D, R, C. cbn [obind].
  destruct (inv n args) as [[v outs]| |]; try reflexivity. cbn [obind]. now rewrite U.
Qed.

(** Functions that pass their argument and their result to an exported function, and those that
    widen such a text. *)
Definition direct : list (string * string * sty) :=
  [("BYTE", "BYTE", S_BYTE); ("LWORD", "LWORD", S_LWORD); ("LINT", "LINT", S_LINT); ("LREAL", "LREAL", S_LREAL);
   ("DT", "DT", S_DT); ("LDT", "DT", S_DT); ("TIME", "TIME", S_TIME); ("LTIME", "TIME", S_TIME);
   ("DATE", "DATE", S_DATE); ("LDATE", "DATE", S_DATE); ("TOD", "TOD", S_TOD); ("LTOD", "TOD", S_TOD)].
Ltac pick H := repeat (destruct H as [H|H]; [injection H as <- <- <-|]); [..|destruct H].
Lemma direct_text : forall P k f g t a o, List.In (f, g, t) direct ->
  rust_call P (g ++ "_TO_STRING_EXT") [a; VS res] = obind o (fun d => Ok (VZ 0, [a; VS d])) ->
  invoke P (S (S k)) (f ++ "_TO_STRING") [a] = obind o (fun d => Ok (VS d, [a])).
Proof.
  intros P k f g t a o I E. pick I; cbv [append] in *; exec; rewrite E; destruct o; reflexivity.
Qed.
Definition wide_body (g : string) : expr := Call "STRING_TO_WSTRING_EXT" [Call g [Arg "IN"]; Result].
Lemma wide_value : forall P k g t a d,
  let r0 := [("@", (S_WSTRING, VS res)); ("IN", (t, a))] in
  value_of (invoke P (S k)) r0 (Call g [Arg "IN"]) = Ok (S_STRING, VS d, r0) ->
  value_of (invoke P (S k)) r0 (wide_body g) =
  obind (STRING_TO_WSTRING d) (fun e => Ok (S_DINT, VZ 0, [("@", (S_WSTRING, VS e)); ("IN", (t, a))])).
Proof.
  intros P k g t a d r0 G. unfold wide_body. rewrite (value_two _ _ _ _ _ _ G).
  assert (E : rust_call P "STRING_TO_WSTRING_EXT" [VS d; VS res] =
    obind (STRING_TO_WSTRING d) (fun e => Ok (VZ 0, [VS d; VS e]))) by (name_of; reflexivity).
  exec. rewrite E. destruct (STRING_TO_WSTRING d); reflexivity.
Qed.
Lemma wide_text : forall P k f g t a o, List.In (f, g, t) direct ->
  rust_call P (g ++ "_TO_STRING_EXT") [a; VS res] = obind o (fun d => Ok (VZ 0, [a; VS d])) ->
  invoke P (S (S (S k))) (f ++ "_TO_WSTRING") [a] = obind o (fun d => obind (STRING_TO_WSTRING d) (fun e => Ok (VS e, [a]))).
Proof.
  intros P k f g t a o I E.
  set (r0 := [("@", (S_WSTRING, VS res)); ("IN", (t, a))]).
  assert (G : value_of (invoke P (S (S k))) r0 (Call (g ++ "_TO_STRING") [Arg "IN"]) = obind o (fun d => Ok (S_STRING, VS d, r0))).
  { unfold r0. clear r0. pick I; cbv [append] in *; exec; rewrite E; destruct o; reflexivity. }
  transitivity (let! '(_, _, r) := value_of (invoke P (S (S k))) r0 (wide_body (g ++ "_TO_STRING")) in
    let! '(_, v) := get "@" r in let! outs := get_all ["IN"] r in Ok (v, outs)).
  { unfold r0. clear G r0 E. pick I; reflexivity. }
  destruct o as [d| |].
  - cbn [obind] in *. unfold r0 in *. rewrite (wide_value P _ _ t a d G).
    destruct (STRING_TO_WSTRING d); reflexivity.
  - unfold wide_body. rewrite (proj1 (value_fail _ _ _ _ _) G). reflexivity.
  - unfold wide_body. rewrite (proj2 (value_fail _ _ _ _ _) G). reflexivity.
Qed.
(** Functions that pass their argument to a function with a wider parameter. *)
Definition widening : list (string * string * sty) :=
  [("DWORD", "LWORD", S_DWORD); ("DINT", "LINT", S_DINT); ("REAL", "LREAL", S_REAL)].
Definition wider (t : sty) : sty := match t with S_DWORD => S_LWORD | S_DINT => S_LINT | _ => S_LREAL end.
Lemma widening_text : forall P k f g t a b o, List.In (f, g, t) widening -> coerce t (wider t) a = Ok b ->
  rust_call P (g ++ "_TO_STRING_EXT") [b; VS res] = obind o (fun d => Ok (VZ 0, [b; VS d])) ->
  invoke P (S (S k)) (f ++ "_TO_STRING") [a] = obind o (fun d => Ok (VS d, [a])).
Proof.
  intros P k f g t a b o I C E.
  set (r0 := [("@", (S_STRING, VS res)); ("IN", (t, a))]).
  assert (X : dispatch (invoke P (S k)) (g ++ "_TO_STRING_EXT") [(t, a); (S_STRING, VS res)] =
    obind o (fun d => Ok (S_DINT, VZ 0, [("IN", Input, Ty (wider t)); ("OUT", InOut, Ty S_STRING)], [b; VS d]))).
  { assert (Y : coerce_all [("IN", Input, Ty (wider t)); ("OUT", InOut, Ty S_STRING)] [(t, a); (S_STRING, VS res)] = Ok [b; VS res])
      by (cbn [coerce_all]; rewrite C; reflexivity).
    clear C r0. pick I; (erewrite dispatch_eq;
      [|vm_compute; reflexivity|vm_compute; reflexivity|exact Y|vm_compute; reflexivity]);
      cbv [append] in E; change (invoke P (S k)) with (invoke P (S k)); exec; rewrite E; destruct o; reflexivity. }
  transitivity (let! '(_, _, r) := (let! '(u, v, ps, outs) := dispatch (invoke P (S k)) (g ++ "_TO_STRING_EXT") [(t, a); (S_STRING, VS res)] in
       Ok (u, v, copy_out ps [Arg "IN"; Result] outs r0)) in
    let! '(_, v) := get "@" r in let! outs := get_all ["IN"] r in Ok (v, outs)).
  { unfold r0. clear X r0 E C. pick I; reflexivity. }
  rewrite X. destruct o; reflexivity.
Qed.
Lemma widening_wide : forall P k f g t a b o, List.In (f, g, t) widening -> coerce t (wider t) a = Ok b ->
  rust_call P (g ++ "_TO_STRING_EXT") [b; VS res] = obind o (fun d => Ok (VZ 0, [b; VS d])) ->
  invoke P (S (S (S (S k)))) (f ++ "_TO_WSTRING") [a] = obind o (fun d => obind (STRING_TO_WSTRING d) (fun e => Ok (VS e, [a]))).
Proof.
  intros P k f g t a b o I C E.
  assert (W : invoke P (S (S (S k))) (g ++ "_TO_WSTRING") [b] = obind o (fun d => obind (STRING_TO_WSTRING d) (fun e => Ok (VS e, [b])))).
  { apply (wide_text P k g g (wider t) b o); [|exact E]. clear -I. pick I; cbn; tauto. }
  set (r0 := [("@", (S_WSTRING, VS res)); ("IN", (t, a))]).
  assert (X : dispatch (invoke P (S (S (S k)))) (g ++ "_TO_WSTRING") [(t, a)] =
    let! '(v, outs) := invoke P (S (S (S k))) (g ++ "_TO_WSTRING") [b] in Ok (S_WSTRING, v, [("IN", Input, Ty (wider t))], outs)).
  { assert (Y : coerce_all [("IN", Input, Ty (wider t))] [(t, a)] = Ok [b]) by (cbn [coerce_all]; rewrite C; reflexivity).
    clear C r0 E W. pick I; (erewrite dispatch_eq;
      [|vm_compute; reflexivity|vm_compute; reflexivity|exact Y|vm_compute; reflexivity]); reflexivity. }
  transitivity (let! '(u, v, r) := (let! '(u, v, ps, outs) := dispatch (invoke P (S (S (S k)))) (g ++ "_TO_WSTRING") [(t, a)] in
       Ok (u, v, copy_out ps [Arg "IN"] outs r0)) in
    let! w := coerce u S_WSTRING v in let! outs := get_all ["IN"] r in Ok (w, outs)).
  { unfold r0. clear X r0 E C W. pick I; reflexivity. }
  rewrite X, W. destruct o as [d| |]; try reflexivity. cbn [obind]. destruct (STRING_TO_WSTRING d); reflexivity.
Qed.
