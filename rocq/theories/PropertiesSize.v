(** C122: texts of bounded length stay within their memory. *)
From Coq Require Import String ZArith List Bool Lia.
From Verif Require Import Base ModelText ModelString ModelExtra ModelLink ModelLib ModelApi SpecText SpecWrap SpecCall SpecType SpecSize ProofSafe2 ProofSize.
Import ListNotations.
Open Scope string_scope.
Open Scope list_scope.
Open Scope Z_scope.
Local Opaque ModelApi.call value_in api.

(** A text expression, bounded by the rules of SpecSize.v, gives a text within its bound or aborts the program:
    it never reads or writes beyond a string. *)
Theorem C122_text : forall P G r e k n, as_described G r -> text_at_most (p_profile P) G e k n ->
  (exists t, gives k t (value_in P r e) /\ (size k t <= n)%nat) \/ value_in P r e = Panic.
Proof. intros P G r e k n D. exact (text_bound P G r D e k n). Qed.
Print Assumptions C122_text.
(** Numbers taken from texts are DINT numbers, and lengths and positions are not negative. *)
Theorem C122_count : forall P G r e b, as_described G r -> count_of (p_profile P) G e b ->
  (exists z, value_in P r e = Ok (S_DINT, VZ z) /\ in_ity i32 z /\ (b = true -> 0 <= z)) \/ value_in P r e = Panic.
Proof. intros P G r e b D. exact (count_bound P G r D e b). Qed.
Print Assumptions C122_count.
Theorem C122_comparison : forall P G r e, as_described G r -> compared (p_profile P) G e ->
  (exists z, value_in P r e = Ok (S_BOOL, VZ z) /\ (z = 0 \/ z = 1)) \/ value_in P r e = Panic.
Proof. intros P G r e D. exact (compared_bool P G r D e). Qed.
Print Assumptions C122_comparison.
(** A program of such assignments, executed any number of times, leaves every variable as it was described. *)
Theorem C122_program : forall P G prog r, as_described G r -> bounded_program (p_profile P) G prog ->
  (exists r', executes P r prog = Ok r' /\ as_described G r') \/ executes P r prog = Panic.
Proof. exact program_bounds. Qed.
Print Assumptions C122_program.
Theorem C122_cycles : forall P G prog r k, as_described G r -> bounded_program (p_profile P) G prog ->
  (exists r', executes P r (concat (repeat prog k)) = Ok r' /\ as_described G r') \/ executes P r (concat (repeat prog k)) = Panic.
Proof. exact cycles_bounds. Qed.
Print Assumptions C122_cycles.
(** The bounds that are not obvious are reached, and cannot be lowered: a DELETE with a negative length nearly
    doubles a text in release builds, the conversion of a WSTRING triples its units.  Where the bound is larger than
    the capacity the memory behind the result is overwritten. *)
Theorem C122_delete_bound_reached : forall P k n, p_profile P = Release -> (2 <= n)%nat -> Z.of_nat n < 2 ^ 31 ->
  exists src t t' L N, holds k src t /\ size k t = n /\ in_ity i32 L /\ in_ity i32 N /\ size k t' = remains Release false n /\
    let o := ModelApi.call P "DELETE" [(string_type k, VS src); (S_DINT, VZ L); (S_DINT, VZ N)] in
    ((remains Release false n <= capacity)%nat -> gives k t' o) /\ ((capacity < remains Release false n)%nat -> o = Ub).
Proof.
  intros P k n R N S. exists (stored k (xs n)), (xs n), (xs (remains Release false n)), (1 - Z.of_nat n), (Z.of_nat n).
  split; [apply stored_holds, xs_text|]. split; [apply xs_size|]. unfold in_ity. change (imin i32) with (- 2 ^ 31). change (imax i32) with (2 ^ 31 - 1).
  split; [lia|]. split; [lia|]. split; [apply xs_size|]. exact (delete_reaches P k n R N S).
Qed.
Print Assumptions C122_delete_bound_reached.
Theorem C122_narrow_bound_reached : forall P n, exists src t, holds WSTRING src t /\ size WSTRING t = n /\ size STRING t = (3 * n)%nat /\
  let o := ModelApi.call P "WSTRING_TO_STRING" [(S_WSTRING, VS src)] in
  ((3 * n <= capacity)%nat -> gives STRING t o) /\ ((capacity < 3 * n)%nat -> o = Ub).
Proof.
  intros P n. exists (stored WSTRING (wide_xs n)), (wide_xs n). split; [apply stored_holds, wide_text|].
  split; [apply wide_sizes|]. split; [apply wide_sizes|]. exact (narrow_reaches P n).
Qed.
Print Assumptions C122_narrow_bound_reached.

(** A case: a line is made of a name and a number, one of its characters is replaced, a part is removed. *)
Definition sorts : string -> option sort := fun x =>
  if String.eqb x "name" then Some (Text_up_to STRING 20) else if String.eqb x "line" then Some (Text_up_to STRING 80)
  else if String.eqb x "copy" then Some (Text_up_to STRING 100) else if String.eqb x "wide" then Some (Text_up_to WSTRING 199) else if String.eqb x "n" then Some (Count true)
  else if String.eqb x "m" then Some (Count false) else None.
Definition vars : env value := [("name", (S_STRING, VS (str "valve" ++ [0])%list)); ("line", (S_STRING, VS [0])); ("copy", (S_STRING, VS [0]));
  ("wide", (S_WSTRING, VS [0]));   ("n", (S_DINT, VZ 12)); ("m", (S_DINT, VZ (-3)))].
(* line := CONCAT(name, DINT_TO_STRING(m));
   n := LEN(line);
   copy := REPLACE(line, name, FIND(line, name), n);
   wide := STRING_TO_WSTRING(DELETE(copy, m, n)); *)
Definition prog : list (string * expr) :=
  [("line", Call "CONCAT" [Arg "name"; Call "DINT_TO_STRING" [Arg "m"]]); ("n", Call "LEN" [Arg "line"]);
   ("copy", Call "REPLACE" [Arg "line"; Arg "name"; Call "FIND" [Arg "line"; Arg "name"]; Arg "n"]);
   ("wide", Call "STRING_TO_WSTRING" [Call "DELETE" [Arg "copy"; Arg "m"; Arg "n"]])].
Lemma described : as_described sorts vars.
Proof.
  assert (A : forall s d, forallb (fun c => (1 <=? c) && (c <? 128))%bool s = true -> d = s ++ [0] -> holds STRING d s).
  { intros s d H ->. assert (F : Forall (fun c => 1 <= c < 128) s) by (apply Forall_forall; intros c C; rewrite forallb_forall in H; specialize (H c C); lia).
    split; [revert F; apply Forall_impl; intros c C; unfold is_scalar; lia|]. exists []. f_equal.
    clear H. induction F as [|c s C F IH]; [reflexivity|]. cbn [units flat_map] in *. unfold units in IH. rewrite <- IH at 1.
    unfold utf8_char at 1. assert (c <? 0x80 = true) as -> by lia. reflexivity. }
  intros x s. unfold sorts. repeat (match goal with |- context [String.eqb x ?y] => destruct (String.eqb_spec x y) as [->|_] end; [intros E; injection E as <-; cbn [has_sort]|]).
  - exists (str "valve"). split; [eexists; split; [reflexivity|apply A; reflexivity]|vm_compute; lia].
  - exists []. split; [eexists; split; [reflexivity|apply A; reflexivity]|vm_compute; lia].
  - exists []. split; [eexists; split; [reflexivity|apply A; reflexivity]|vm_compute; lia].
  - exists []. split; [eexists; split; [reflexivity|]|vm_compute; lia]. split; [constructor|now exists []].
  - exists 12. split; [split; [reflexivity|vm_compute; split; discriminate]|lia].
  - exists (-3). split; [split; [reflexivity|vm_compute; split; discriminate]|discriminate].
  - discriminate.
Qed.
Ltac cap := vm_compute; lia.
Example C122_program_case : forall p, bounded_program p sorts prog.
Proof.
  intros p.
  assert (V : forall x k n, sorts x = Some (Text_up_to k n) -> text_at_most p sorts (Arg x) k n) by (intros; now constructor).
  assert (W : forall x b, sorts x = Some (Count b) -> count_of p sorts (Arg x) b) by (intros; now constructor).
  constructor; [|constructor; [|constructor; [|constructor; [|constructor]]]].
  - exists (20 + (11 + 0))%nat. split; [|lia]. apply z_concat; [|cap]. apply zs_cons; [now apply V|]. apply zs_cons; [|constructor].
    apply (z_print _ _ "DINT_TO_STRING" STRING _ false); [now left|now apply W].
  - exists true. split; [|reflexivity]. eapply (w_len _ _ _ STRING 80); [now apply V|cap].
  - exists (remains p true 80 + 20)%nat. split; [|destruct p; cap].
    apply (z_replace _ _ _ _ _ _ STRING 80 20 true true); [now apply V|now apply V|destruct p; cap| |now apply W].
    apply (w_find _ _ _ _ STRING 80 20); [now apply V|now apply V|cap].
  - exists (remains p false 100)%nat. split; [|destruct p; cap].
    apply z_wide; [|destruct p; cap]. apply (z_delete _ _ _ _ _ STRING 100 false true); [now apply V|destruct p; cap|now apply W|now apply W].
Qed.
Example C122_case : forall P k, (exists r', executes P vars (concat (repeat prog k)) = Ok r' /\ as_described sorts r') \/
  executes P vars (concat (repeat prog k)) = Panic.
Proof. intros P k. exact (C122_cycles P sorts prog vars k described (C122_program_case (p_profile P))). Qed.
(** The negative length: a release build repeats three characters, a debug build aborts. *)
Transparent ModelApi.call value_in api.
Definition shown (x : string) (o : outcome (env value)) : outcome (option (list Z)) :=
  omap (fun r => match get x r with Ok (_, VS d) => Some (firstn 15 d) | _ => None end) o.
Example C122_computed : shown "copy" (executes (a_platform Release) vars prog) = Ok (Some (str "valve-valve" ++ [0; 0; 0; 0])) /\
  shown "wide" (executes (a_platform Release) vars prog) = Ok (Some (str "valve-ve-valve" ++ [0])) /\
  shown "wide" (executes (a_platform Debug) vars prog) = Panic.
Proof. repeat split; vm_compute; reflexivity. Qed.
