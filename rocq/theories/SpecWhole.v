(** Specification vocabulary: programs that mix numbers, dates, texts and function blocks. *)
From Coq Require Import String ZArith List Bool.
From Verif Require Import Base ModelFB ModelLayout ModelMachine ModelFloat ModelString ModelLink ModelLib ModelApi
  SpecMachine SpecScalar SpecText SpecLink SpecLib SpecWrap SpecConv SpecSafe SpecApi SpecCall SpecTerm SpecType SpecProgram SpecSize.
Import ListNotations.
Open Scope string_scope.
Open Scope list_scope.

(** What is known of a variable or an expression: a value of the type [t], not negative if [b]; a text of kind [k] of at
    most [n] units. *)
Inductive known := A_value (t : sty) (b : bool) | A_text (k : kind) (n : nat).
Definition is_known (s : known) (tv : sty * value) : Prop :=
  match s with
  | A_value t b => fst tv = t /\ SpecApi.holds t (snd tv) /\ (b = true -> exists z, snd tv = VZ z /\ (0 <= z)%Z)
  | A_text k n => exists d t, tv = (string_type k, VS d) /\ SpecText.holds k d t /\ (SpecWrap.size k t <= n)%nat
  end.
Definition any_value (t : sty) : known := A_value t false.
(** Less is known. *)
Inductive weaker : known -> known -> Prop :=
| wk_value : forall t b, weaker (A_value t b) (any_value t)
| wk_text : forall k n m, (n <= m)%nat -> weaker (A_text k n) (A_text k m).

(** The types whose values can be written as texts, and the units that takes at most. *)
Definition written_types : list (sty * nat) :=
  [(S_BYTE, 3); (S_DWORD, 10); (S_LWORD, 20); (S_DINT, 11); (S_LINT, 20); (S_DATE, 10); (S_LDATE, 10); (S_TOD, 18); (S_LTOD, 18);
   (S_DT, 29); (S_LDT, 29); (S_TIME, 35); (S_LTIME, 35); (S_REAL, 81); (S_LREAL, 81)]%nat.
(** The types read from texts. *)
Definition read_types : list sty := [S_LINT; S_DINT; S_REAL; S_LREAL].

Section WholeRules.
  (** The build, and the variables. *)
  Variables (p : profile) (G : string -> option known).

  (** [makes e s fs]: the expression [e] has a value as described by [s]; it calls the functions [fs]. *)
  Inductive makes : expr -> known -> list string -> Prop :=
  | mk_variable : forall x s, G x = Some s -> makes (Arg x) s []
  | mk_weaker : forall e s s' fs, makes e s fs -> weaker s s' -> makes e s' fs
  (* Functions of numbers, times and dates: those that C120 types. *)
  | mk_call : forall d ts es ss t fs, List.In d st_decls ->
      Forall2 (fun x t => List.In t (members (snd x))) (d_generic d) ts -> has_code (instance_name (d_name d) ts) ->
      make_all es (map any_value ss) fs -> Forall2 (suits d ts) (d_params d) ss -> result_is d ts t ->
      makes (Call (d_name d) es) (any_value t) (instance_name (d_name d) ts :: fs)
  | mk_extreme : forall f e es t n fs, List.In f ["MAX"; "MIN"] -> List.In t (members ANY_ELEMENTARY) -> no_string t ->
      make_all (e :: es) (repeat (any_value t) n) fs -> makes (Call f (e :: es)) (any_value t) (instance_name f [t] :: fs)
  (* The larger of two DINT is not negative if one of them is not, the smaller if both are not. *)
  | mk_max : forall e e' b c fs gs, makes e (A_value S_DINT b) fs -> makes e' (A_value S_DINT c) gs ->
      makes (Call "MAX" [e; e']) (A_value S_DINT (b || c)) (instance_name "MAX" [S_DINT] :: fs ++ gs)
  | mk_min : forall e e' b c fs gs, makes e (A_value S_DINT b) fs -> makes e' (A_value S_DINT c) gs ->
      makes (Call "MIN" [e; e']) (A_value S_DINT (b && c)) (instance_name "MIN" [S_DINT] :: fs ++ gs)
  (* Functions of texts: those of C122. *)
  | mk_end : forall f e i k n fs gs, List.In f ["LEFT"; "RIGHT"] -> makes e (A_text k n) fs -> (n <= capacity)%nat -> makes i (any_value S_DINT) gs ->
      makes (Call f [e; i]) (A_text k n) (f :: fs ++ gs)
  | mk_mid : forall e l i k n fs gs hs, makes e (A_text k n) fs -> (n <= capacity)%nat -> makes l (any_value S_DINT) gs -> makes i (any_value S_DINT) hs ->
      makes (Call "MID" [e; l; i]) (A_text k n) ("MID" :: fs ++ gs ++ hs)
  | mk_delete : forall e l i k n b fs gs hs, makes e (A_text k n) fs -> (remains p b n <= capacity)%nat -> makes l (A_value S_DINT b) gs ->
      makes i (any_value S_DINT) hs -> makes (Call "DELETE" [e; l; i]) (A_text k (remains p b n)) ("DELETE" :: fs ++ gs ++ hs)
  | mk_insert : forall e e' i k n m fs gs hs, makes e (A_text k n) fs -> makes e' (A_text k m) gs -> (n + m <= capacity)%nat ->
      makes i (any_value S_DINT) hs -> makes (Call "INSERT" [e; e'; i]) (A_text k (n + m)) ("INSERT" :: fs ++ gs ++ hs)
  | mk_replace : forall e e' l i k n m b fs gs hs js, makes e (A_text k n) fs -> makes e' (A_text k m) gs -> (remains p b n + m <= capacity)%nat ->
      makes l (A_value S_DINT b) hs -> makes i (any_value S_DINT) js ->
      makes (Call "REPLACE" [e; e'; l; i]) (A_text k (remains p b n + m)) ("REPLACE" :: fs ++ gs ++ hs ++ js)
  | mk_concat : forall e es k ns fs, make_all (e :: es) (map (A_text k) ns) fs -> (list_sum ns <= capacity)%nat ->
      makes (Call "CONCAT" (e :: es)) (A_text k (list_sum ns)) ("CONCAT" :: fs)
  | mk_narrow : forall e n fs, makes e (A_text WSTRING n) fs -> (3 * n <= capacity)%nat ->
      makes (Call "WSTRING_TO_STRING" [e]) (A_text STRING (3 * n)) ("WSTRING_TO_STRING" :: fs)
  | mk_wide : forall e n fs, makes e (A_text STRING n) fs -> (n <= capacity)%nat ->
      makes (Call "STRING_TO_WSTRING" [e]) (A_text WSTRING n) ("STRING_TO_WSTRING" :: fs)
  (* Between texts and values. *)
  | mk_print : forall e t k n fs, List.In (t, n) written_types -> makes e (any_value t) fs ->
      makes (Call (to_text t k) [e]) (A_text k n) (to_text t k :: fs)
  | mk_read : forall e t n fs, List.In t read_types -> makes e (A_text STRING n) fs ->
      makes (Call (of_text STRING t) [e]) (any_value t) (of_text STRING t :: fs)
  | mk_read_wide : forall e t n fs, List.In t read_types -> makes e (A_text WSTRING n) fs -> (3 * n <= 80)%nat ->
      makes (Call (of_text WSTRING t) [e]) (any_value t) (of_text WSTRING t :: fs)
  | mk_len : forall e k n fs, makes e (A_text k n) fs -> (n <= capacity)%nat -> makes (Call "LEN" [e]) (A_value S_DINT true) ("LEN" :: fs)
  | mk_find : forall e e' k n m fs gs, makes e (A_text k n) fs -> makes e' (A_text k m) gs -> (n <= capacity)%nat ->
      makes (Call "FIND" [e; e']) (A_value S_DINT true) ("FIND" :: fs ++ gs)
  | mk_compare : forall f e e' k n m fs gs, List.In f ["EQ"; "NE"; "LT"; "GT"; "LE"; "GE"] -> makes e (A_text k n) fs -> makes e' (A_text k m) gs ->
      makes (Call f [e; e']) (any_value S_BOOL) (f :: fs ++ gs)
  with make_all : list expr -> list known -> list string -> Prop :=
  | mks_nil : make_all [] [] []
  | mks_cons : forall e es s ss fs gs, makes e s fs -> make_all es ss gs -> make_all (e :: es) (s :: ss) (fs ++ gs).

  (** [sound insts s fs]: the statement [s] keeps to what is known of the variables. *)
  Inductive sound (insts : list instance) : statement -> list string -> Prop :=
  | so_value : forall x e s t b c fs, G x = Some (A_value t b) -> makes e (A_value s c) fs -> converts s t -> (b = true -> s = t /\ c = true) ->
      sound insts (Let x e) fs
  | so_text : forall x e k n fs, G x = Some (A_text k n) -> makes e (A_text k n) fs -> sound insts (Let x e) fs
  | so_use : forall i ins outs its ots fs, List.In i insts -> interface (i_name i) its ots ->
      map fst ins = map fst its -> make_all (map snd ins) (map any_value (map snd its)) fs ->
      Forall (fun o => exists t, List.In (snd o, t) ots /\ G (fst o) = Some (any_value t)) outs ->
      sound insts (Use i ins outs) (i_name i :: fs)
  | so_split : forall f x ys tx t b, List.In (f, tx, length ys) splittable -> G x = Some (A_value tx b) -> List.In t wide_ints -> NoDup ys ->
      Forall (fun y => exists c, G y = Some (A_value t c)) ys -> sound insts (Split f x ys) [instance_name f [t]].
End WholeRules.

(** The functions of texts that abort when a position, a length or a literal is out of range (C40-C63). *)
Definition text_aborts : list string :=
  ["LEFT"; "RIGHT"; "MID"; "DELETE"; "INSERT"; "REPLACE"; "LREAL_TO_STRING"; "LREAL_TO_WSTRING"] ++
  map (of_text STRING) read_types ++ map (of_text WSTRING) read_types.
(** What can stop a program. *)
Definition stoppers (p : profile) : list string := text_aborts ++ pulses ++ aborting ++ can_abort p.

(** The variables [r] are as described. *)
Definition as_known (G : string -> option known) (r : env value) : Prop :=
  forall x s, G x = Some s -> exists tv, get x r = Ok tv /\ is_known s tv.
(** The start of a program: its statements are sound, its instances lie apart in zeroed memory. *)
Definition prepared (rp : option_repr) (P : platform) (G : string -> option known) (insts : list instance) (r : env value)
  (m : ModelLayout.mem) (qs : list (statement * (Z * Z))) : Prop :=
  sane P /\ placed rp insts /\ (forall i, List.In i insts -> zeroed rp m i) /\ clock_runs 0 qs /\ as_known G r /\
  Forall (fun q => exists fs, sound (p_profile P) G insts (fst q) fs) qs.
