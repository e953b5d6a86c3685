(** Specification vocabulary: how long the texts of a program can become.  [text_at_most] bounds the units of a text
    expression, from the capacities of its variables. *)
From Coq Require Import String ZArith List Bool.
From Verif Require Import Base ModelString ModelLink ModelLib SpecText SpecWrap SpecCall.
Import ListNotations.
Open Scope list_scope.
Open Scope string_scope.

(** Units that a result has room for. *)
Definition capacity : nat := 2048.
(** What DELETE and REPLACE leave at most of a text of [n] units.  Release builds accept negative lengths and
    then repeat a part of the text. *)
Definition remains (p : profile) (not_negative : bool) (n : nat) : nat :=
  match p with Debug => n | Release => if not_negative then n else n + (n - 1) end.

(** What is known of a variable: a text of at most [n] units; a DINT, not negative if [b]. *)
Inductive sort := Text_up_to (k : kind) (n : nat) | Count (b : bool).

Section SizeRules.
  (** The build, and the variables. *)
  Variables (p : profile) (G : string -> option sort).

  (** [text_at_most e k n]: [e] is a text of kind [k] and has at most [n] units; no result on the way is longer than
      [capacity].  [count_of e b]: [e] is a DINT; it is not negative if [b]. *)
  Inductive text_at_most : expr -> kind -> nat -> Prop :=
  | z_variable : forall x k n, G x = Some (Text_up_to k n) -> text_at_most (Arg x) k n
  | z_end : forall f e i k n b, List.In f ["LEFT"; "RIGHT"] -> text_at_most e k n -> (n <= capacity)%nat -> count_of i b -> text_at_most (Call f [e; i]) k n
  | z_mid : forall e l i k n b c, text_at_most e k n -> (n <= capacity)%nat -> count_of l b -> count_of i c -> text_at_most (Call "MID" [e; l; i]) k n
  | z_delete : forall e l i k n b c, text_at_most e k n -> (remains p b n <= capacity)%nat -> count_of l b -> count_of i c ->
      text_at_most (Call "DELETE" [e; l; i]) k (remains p b n)
  | z_insert : forall e e' i k n m b, text_at_most e k n -> text_at_most e' k m -> (n + m <= capacity)%nat -> count_of i b ->
      text_at_most (Call "INSERT" [e; e'; i]) k (n + m)
  | z_replace : forall e e' l i k n m b c, text_at_most e k n -> text_at_most e' k m -> (remains p b n + m <= capacity)%nat -> count_of l b -> count_of i c ->
      text_at_most (Call "REPLACE" [e; e'; l; i]) k (remains p b n + m)
  | z_concat : forall e es k n, texts_at_most (e :: es) k n -> (n <= capacity)%nat -> text_at_most (Call "CONCAT" (e :: es)) k n
  | z_narrow : forall e n, text_at_most e WSTRING n -> (3 * n <= capacity)%nat -> text_at_most (Call "WSTRING_TO_STRING" [e]) STRING (3 * n)
  | z_wide : forall e n, text_at_most e STRING n -> (n <= capacity)%nat -> text_at_most (Call "STRING_TO_WSTRING" [e]) WSTRING n
  | z_print : forall f k i b, List.In (f, k) [("DINT_TO_STRING", STRING); ("DINT_TO_WSTRING", WSTRING)] -> count_of i b -> text_at_most (Call f [i]) k 11
  with texts_at_most : list expr -> kind -> nat -> Prop :=
  | zs_nil : forall k, texts_at_most [] k 0
  | zs_cons : forall e es k n m, text_at_most e k n -> texts_at_most es k m -> texts_at_most (e :: es) k (n + m)
  with count_of : expr -> bool -> Prop :=
  | w_variable : forall x b, G x = Some (Count b) -> count_of (Arg x) b
  | w_len : forall e k n, text_at_most e k n -> (n <= capacity)%nat -> count_of (Call "LEN" [e]) true
  | w_find : forall e e' k n m, text_at_most e k n -> text_at_most e' k m -> (n <= capacity)%nat -> count_of (Call "FIND" [e; e']) true
  | w_parse : forall e n, text_at_most e STRING n -> count_of (Call "STRING_TO_DINT" [e]) false
  | w_max : forall e e' b c, count_of e b -> count_of e' c -> count_of (Call "MAX" [e; e']) (b || c)
  | w_min : forall e e' b c, count_of e b -> count_of e' c -> count_of (Call "MIN" [e; e']) (b && c).
  (** A comparison of two texts. *)
  Definition compared (e : expr) : Prop := exists f a b k n m,
    e = Call f [a; b] /\ List.In f ["EQ"; "NE"; "LT"; "GT"; "LE"; "GE"] /\ text_at_most a k n /\ text_at_most b k m.

  (** A program of assignments, in which no text is too long for its variable and the variables known not to be
      negative stay so. *)
  Definition fits_into (x : string) (e : expr) : Prop :=
    match G x with
    | Some (Text_up_to k m) => exists n, text_at_most e k n /\ (n <= m)%nat
    | Some (Count c) => exists b, count_of e b /\ (c = true -> b = true)
    | None => False
    end.
  Definition bounded_program (prog : list (string * expr)) : Prop := Forall (fun a => fits_into (fst a) (snd a)) prog.
End SizeRules.

(** The variables [r] are as described. *)
Definition has_sort (r : env value) (x : string) (s : sort) : Prop :=
  match s with
  | Text_up_to k n => exists t, string_var k r x t /\ (size k t <= n)%nat
  | Count b => exists z, dint_var r x z /\ (b = true -> (0 <= z)%Z)
  end.
Definition as_described (G : string -> option sort) (r : env value) : Prop := forall x s, G x = Some s -> has_sort r x s.
