(** Specification vocabulary: the programs with integers, times, dates, texts of bounded length, real numbers of bounded
    size and function blocks, for which SpecRefine.v says everything that happens.  [known] is from SpecWhole.v: a value of
    a type, perhaps not negative; a text of a kind of at most so many units. *)
From Coq Require Import String ZArith List Bool Reals.
From Verif Require Import Base ModelFB ModelLayout ModelMachine ModelFloat ModelString ModelLink ModelLib ModelApi
  SpecMachine SpecScalar SpecText SpecLink SpecLib SpecWrap SpecConv SpecCall SpecNum SpecTerm SpecType SpecProgram SpecSize SpecWhole SpecRefine.
Import ListNotations.
Open Scope string_scope.
Open Scope list_scope.

(** What is known of a variable or expression; of a real number of the type [t] the integers [lo] and [hi] it lies between. *)
Inductive described := Known (s : known) | Between (t : sty) (lo hi : Z).
Coercion Known : known >-> described.
Definition any_values (ts : list sty) : list described := map (fun t => Known (any_value t)) ts.
(** The meaning [m] is as described. *)
Definition meets (s : described) (m : meaning) : Prop :=
  match s with
  | Known (A_value t b) => exists z, m = Whole t z /\ of_type t z /\ (b = true -> (0 <= z)%Z)
  | Known (A_text k n) => exists t, m = Text k t /\ text t /\ (SpecWrap.size k t <= n)%nat
  | Between t lo hi => exists q, m = Real t q /\ List.In t reals /\ representable_real t q /\ (IZR lo <= q <= IZR hi)%R
  end.
(** The integer [z] is a number of the type. *)
Definition exact (t : sty) (z : Z) : Prop := representable_real t (IZR z).
(** The types written as texts, and the units that takes at most. *)
Definition shown_types : list (sty * nat) :=
  [(S_BYTE, 3); (S_DWORD, 10); (S_LWORD, 20); (S_DINT, 11); (S_LINT, 20); (S_DATE, 10); (S_LDATE, 10); (S_TOD, 18); (S_LTOD, 18);
   (S_DT, 29); (S_LDT, 29); (S_TIME, 35); (S_LTIME, 35)]%nat.

Section CompleteRules.
  (** The build, and the variables. *)
  Variables (p : profile) (G : string -> option described).

  (** [formed e s]: the expression [e] has a meaning as described by [s], unless it aborts. *)
  Inductive formed : expr -> described -> Prop :=
  | fo_variable : forall x s, G x = Some s -> formed (Arg x) s
  | fo_weaker : forall e (s s' : known), formed e s -> weaker s s' -> formed e s'
  (* The functions of C119: conversions, shifts, selection, times and dates. *)
  | fo_call : forall f es ts t, takes f ts t -> formed_all es (any_values ts) -> formed (Call f es) (any_value t)
  | fo_max : forall e e' b c, formed e (A_value S_DINT b) -> formed e' (A_value S_DINT c) -> formed (Call "MAX" [e; e']) (A_value S_DINT (b || c))
  | fo_min : forall e e' b c, formed e (A_value S_DINT b) -> formed e' (A_value S_DINT c) -> formed (Call "MIN" [e; e']) (A_value S_DINT (b && c))
  (* Functions of texts. *)
  | fo_end : forall f e i k n, List.In f ["LEFT"; "RIGHT"] -> formed e (A_text k n) -> (n <= capacity)%nat -> formed i (any_value S_DINT) ->
      formed (Call f [e; i]) (A_text k n)
  | fo_mid : forall e l i k n, formed e (A_text k n) -> (n <= capacity)%nat -> formed l (any_value S_DINT) -> formed i (any_value S_DINT) ->
      formed (Call "MID" [e; l; i]) (A_text k n)
  | fo_delete : forall e l i k n b, formed e (A_text k n) -> (remains p b n <= capacity)%nat -> formed l (A_value S_DINT b) -> formed i (any_value S_DINT) ->
      formed (Call "DELETE" [e; l; i]) (A_text k (remains p b n))
  | fo_insert : forall e e' i k n m, formed e (A_text k n) -> formed e' (A_text k m) -> (n + m <= capacity)%nat -> formed i (any_value S_DINT) ->
      formed (Call "INSERT" [e; e'; i]) (A_text k (n + m))
  | fo_replace : forall e e' l i k n m b, formed e (A_text k n) -> formed e' (A_text k m) -> (remains p b n + m <= capacity)%nat ->
      formed l (A_value S_DINT b) -> formed i (any_value S_DINT) -> formed (Call "REPLACE" [e; e'; l; i]) (A_text k (remains p b n + m))
  | fo_concat : forall e es k ns, formed_all (e :: es) (map (fun n => Known (A_text k n)) ns) -> (list_sum ns <= capacity)%nat ->
      formed (Call "CONCAT" (e :: es)) (A_text k (list_sum ns))
  | fo_narrow : forall e n, formed e (A_text WSTRING n) -> (3 * n <= capacity)%nat -> formed (Call "WSTRING_TO_STRING" [e]) (A_text STRING (3 * n))
  | fo_wide : forall e n, formed e (A_text STRING n) -> (n <= capacity)%nat -> formed (Call "STRING_TO_WSTRING" [e]) (A_text WSTRING n)
  (* Between texts and values. *)
  | fo_print : forall e t k n, List.In (t, n) shown_types -> formed e (any_value t) -> formed (Call (to_text t k) [e]) (A_text k n)
  | fo_read : forall e t n, List.In t [S_LINT; S_DINT] -> formed e (A_text STRING n) -> formed (Call (of_text STRING t) [e]) (any_value t)
  | fo_read_wide : forall e t n, List.In t [S_LINT; S_DINT] -> formed e (A_text WSTRING n) -> (3 * n <= 80)%nat ->
      formed (Call (of_text WSTRING t) [e]) (any_value t)
  | fo_len : forall e k n, formed e (A_text k n) -> (n <= capacity)%nat -> formed (Call "LEN" [e]) (A_value S_DINT true)
  | fo_find : forall e e' k n m, formed e (A_text k n) -> formed e' (A_text k m) -> (n <= capacity)%nat -> formed (Call "FIND" [e; e']) (A_value S_DINT true)
  | fo_compare : forall f e e' k n m, List.In f ["EQ"; "NE"; "LT"; "GT"; "LE"; "GE"] -> formed e (A_text k n) -> formed e' (A_text k m) ->
      formed (Call f [e; e']) (any_value S_BOOL)
  | fo_first : forall e n, formed e (A_text STRING n) -> formed (Call "STRING_TO_CHAR" [e]) (any_value S_CHAR)
  | fo_first_wide : forall e n, formed e (A_text WSTRING n) -> formed (Call "WSTRING_TO_WCHAR" [e]) (any_value S_WCHAR)
    (* Real numbers. *)
  | fo_range : forall e t lo hi lo' hi', formed e (Between t lo hi) -> (lo' <= lo)%Z -> (hi <= hi')%Z -> formed e (Between t lo' hi')
  | fo_abs : forall e t lo hi, formed e (Between t lo hi) -> formed (Call "ABS" [e]) (Between t 0 (Z.max (- lo) hi))
  | fo_round : forall e t lo hi, formed e (Between t lo hi) -> formed (Call "ROUND" [e]) (Between t lo hi)
  | fo_trunc : forall e t lo hi, formed e (Between t lo hi) -> of_type S_LINT lo -> of_type S_LINT hi -> formed (Call "TRUNC" [e]) (any_value S_LINT)
  | fo_to_integer : forall e t a lo hi, formed e (Between t lo hi) -> List.In a integers -> of_type a lo -> of_type a hi ->
      formed (Call (conversion_name t a) [e]) (A_value a (0 <=? lo)%Z)
  | fo_of_integer : forall e t a b lo hi, List.In t reals -> List.In a integers -> formed e (A_value a b) ->
      (forall z, of_type a z -> (b = true -> (0 <= z)%Z) -> (lo <= z <= hi)%Z) -> exact t lo -> exact t hi -> formed (Call (conversion_name a t) [e]) (Between t lo hi)
  | fo_widen : forall e lo hi, formed e (Between S_REAL lo hi) -> formed (Call "REAL_TO_LREAL" [e]) (Between S_LREAL lo hi)
  | fo_narrow_real : forall e lo hi, formed e (Between S_LREAL lo hi) -> exact S_REAL lo -> exact S_REAL hi -> formed (Call "LREAL_TO_REAL" [e]) (Between S_REAL lo hi)
  | fo_sqrt : forall e t lo hi, formed e (Between t lo hi) -> (0 <= lo)%Z -> (1 <= hi)%Z -> formed (Call "SQRT" [e]) (Between t 0 hi)
  | fo_extreme : forall f e es t lo hi, List.In f ["MAX"; "MIN"] -> formed_all (e :: es) (repeat (Between t lo hi) (length (e :: es))) -> formed (Call f (e :: es)) (Between t lo hi)
  | fo_limit : forall a e b t l1 h1 l2 h2 l3 h3, formed a (Between t l1 h1) -> formed e (Between t l2 h2) -> formed b (Between t l3 h3) -> (h1 <= l3)%Z ->
      formed (Call "LIMIT" [a; e; b]) (Between t l1 h3)
  | fo_valid : forall e t lo hi, formed e (Between t lo hi) -> formed (Call "IS_VALID" [e]) (any_value S_BOOL)
  | fo_time_lreal : forall e t b lo hi, List.In t [S_TIME; S_LTIME] -> formed e (A_value t b) ->
      (forall z, of_type t z -> (b = true -> (0 <= z)%Z) -> (lo <= z <= hi)%Z) -> exact S_LREAL lo -> exact S_LREAL hi ->
      formed (Call (conversion_name t S_LREAL) [e]) (Between S_LREAL lo hi)
  | fo_lreal_time : forall e t lo hi, List.In t [S_TIME; S_LTIME] -> formed e (Between S_LREAL lo hi) -> of_type S_TIME lo -> of_type S_TIME hi ->
      formed (Call (conversion_name S_LREAL t) [e]) (any_value S_TIME)
  | fo_print_real : forall e t k lo hi, formed e (Between t lo hi) -> (0 < lo \/ hi < 0)%Z -> formed (Call (to_text t k) [e]) (A_text k 81)
  with formed_all : list expr -> list described -> Prop :=
  | fos_nil : formed_all [] []
  | fos_cons : forall e es s ss, formed e s -> formed_all es ss -> formed_all (e :: es) (s :: ss).

  (** The statement keeps to what is known of the variables. *)
  Inductive regular (insts : list instance) : statement -> Prop :=
  | rg_value : forall x e u t b c, G x = Some (Known (A_value t b)) -> formed e (A_value u c) -> u = t \/ List.In u wholes /\ List.In t wholes ->
      (b = true -> u = t /\ c = true) -> regular insts (Let x e)
  | rg_text : forall x e k n, G x = Some (Known (A_text k n)) -> formed e (A_text k n) -> regular insts (Let x e)
  | rg_real : forall x e t lo hi, G x = Some (Between t lo hi) -> formed e (Between t lo hi) -> regular insts (Let x e)
  | rg_to_real : forall x e a b t lo hi, G x = Some (Between t lo hi) -> formed e (A_value a b) -> List.In a wholes -> List.In t reals ->
      (forall z, of_type a z -> (b = true -> (0 <= z)%Z) -> (lo <= z <= hi)%Z) -> exact t lo -> exact t hi -> regular insts (Let x e)
  | rg_widen : forall x e lo hi, G x = Some (Between S_LREAL lo hi) -> formed e (Between S_REAL lo hi) -> regular insts (Let x e)
  | rg_narrow : forall x e lo hi, G x = Some (Between S_REAL lo hi) -> formed e (Between S_LREAL lo hi) -> exact S_REAL lo -> exact S_REAL hi -> regular insts (Let x e)
  | rg_use : forall i ins outs its ots, List.In i insts -> interface (i_name i) its ots -> map fst ins = map fst its ->
      formed_all (map snd ins) (any_values (map snd its)) ->
      Forall (fun o => exists t, List.In (snd o, t) ots /\ G (fst o) = Some (Known (any_value t))) outs -> regular insts (Use i ins outs)
  | rg_split : forall f x ys tx t b, List.In (f, tx, length ys) splittable -> G x = Some (Known (A_value tx b)) -> List.In t wide_ints -> NoDup ys ->
      Forall (fun y => exists c, G y = Some (Known (A_value t c))) ys -> regular insts (Split f x ys).

  (** The variables are as described. *)
  Definition meets_all (s : store) : Prop := forall x d, G x = Some d -> exists m, s x = Some m /\ meets d m.
End CompleteRules.
