(** Specification vocabulary: programs that assign expressions to variables and call instances of function blocks. *)
From Coq Require Import String ZArith List Bool.
From Verif Require Import Base ModelFB ModelCounters ModelTimers ModelLayout SpecFB ModelMachine ModelFloat ModelLink ModelLib ModelApi
  SpecMachine SpecScalar SpecDate SpecLink SpecLib SpecSafe SpecApi SpecCall SpecType.
Import ListNotations.
Open Scope string_scope.
Open Scope list_scope.
Open Scope Z_scope.

(** A statement: [x := e], or a call of the block instance [i] with expressions for its inputs, whose outputs are then
    assigned to variables: [i(CU := e, PV := e'); x := i.Q; y := i.CV], or a call of a function that takes the date or time
    [x] apart and assigns the parts to the variables [ys]: [SPLIT_DATE(x, y, m, d)]. *)
Inductive statement :=
| Let (x : string) (e : expr)
| Use (i : instance) (ins : list (string * expr)) (outs : list (string * string))
| Split (f x : string) (ys : list string).

(** A value as an input of a block, and an output of a block as a value. *)
Definition as_input (tv : sty * value) : outcome fval :=
  match tv with
  | (S_BOOL, VZ z) => Ok (VBool (negb (z =? 0)))
  | (_, VZ z) => Ok (VInt z)
  | _ => Ub
  end.
Definition as_value (v : fval) : outcome value :=
  match v with VBool b => Ok (VZ (Z.b2z b)) | VInt z => Ok (VZ z) | VStart _ => Ub end.
Fixpoint inputs (P : platform) (r : env value) (ins : list (string * expr)) : outcome (list (string * fval)) :=
  match ins with
  | [] => Ok []
  | (n, e) :: ins' =>
      let! tv := value_in P r e in
      let! v := as_input tv in
      let! vs := inputs P r ins' in
      Ok ((n, v) :: vs)
  end.
Fixpoint assign_outputs (rp : option_repr) (m : ModelLayout.mem) (i : instance) (outs : list (string * string)) (r : env value)
  : outcome (env value) :=
  match outs with
  | [] => Ok r
  | (x, var) :: outs' =>
      let! v := st_read rp m i var in
      let! w := as_value v in
      assign_outputs rp m i outs' (ModelLink.put x w r)
  end.

(** Execution, each statement with the two clock readings that a timer called there makes: the variables and the
    memory of the instances afterwards, and the calls of blocks in the order they were made, each with the variables
    at the time. *)
Definition executes_one (rp : option_repr) (P : platform) (r : env value) (m : ModelLayout.mem) (q : statement * (Z * Z))
  : outcome (env value * ModelLayout.mem * list (env value * ModelMachine.call)) :=
  match fst q with
  | Let x e => let! r' := executes P r [(x, e)] in Ok (r', m, [])
  | Use i ins outs =>
      let! vs := inputs P r ins in
      let c := ModelMachine.Call i vs (fst (snd q)) (snd (snd q)) in
      let! m' := st_call rp (p_profile P) m c in
      let! r' := assign_outputs rp m' i outs r in
      Ok (r', m', [(r, c)])
  | Split f x ys => let! '(_, r') := value_of (api P) r (ModelLink.Call f (map Arg (x :: ys))) in Ok (r', m, [])
  end.
Fixpoint executes_all (rp : option_repr) (P : platform) (r : env value) (m : ModelLayout.mem) (qs : list (statement * (Z * Z)))
  : outcome (env value * ModelLayout.mem * list (env value * ModelMachine.call)) :=
  match qs with
  | [] => Ok (r, m, [])
  | q :: qs' =>
      let! '(r1, m1, l1) := executes_one rp P r m q in
      let! '(r2, m2, l2) := executes_all rp P r1 m1 qs' in
      Ok (r2, m2, (l1 ++ l2)%list)
  end.

(** The calls of the instance [i]. *)
Definition made_to (i : instance) (log : list (env value * ModelMachine.call)) : list (env value * ModelMachine.call) :=
  filter (fun e => same_instance (c_inst (snd e)) i) log.
(** The clock does not run backwards, starting at [lo], and stays below 2^63 ns. *)
Fixpoint clock_runs (lo : Z) (qs : list (statement * (Z * Z))) : Prop :=
  match qs with
  | [] => True
  | (_, (n1, n2)) :: qs' => lo <= n1 /\ n1 <= n2 /\ n2 < 2 ^ 63 /\ clock_runs n2 qs'
  end.

(** The inputs and outputs of the blocks. *)
Definition counter_values : list (sty * ity) :=
  [(S_INT, i16); (S_DINT, i32); (S_UDINT, u32); (S_LINT, i64); (S_ULINT, u64)].
Definition timer_values : list (string * sty) :=
  [("TP", S_TIME); ("TP_TIME", S_TIME); ("TP_LTIME", S_LTIME); ("TON", S_TIME); ("TON_TIME", S_TIME);
   ("TON_LTIME", S_LTIME); ("TOF", S_TIME); ("TOF_TIME", S_TIME); ("TOF_LTIME", S_LTIME)].
Inductive interface : string -> list (string * sty) -> list (string * sty) -> Prop :=
| if_up : forall n t s, List.In (n, t) up_counters -> List.In (s, t) counter_values ->
    interface n [("CU", S_BOOL); ("R", S_BOOL); ("PV", s)] [("Q", S_BOOL); ("CV", s)]
| if_down : forall n t s, List.In (n, t) down_counters -> List.In (s, t) counter_values ->
    interface n [("CD", S_BOOL); ("LD", S_BOOL); ("PV", s)] [("Q", S_BOOL); ("CV", s)]
| if_up_down : forall n t s, List.In (n, t) up_down_counters -> List.In (s, t) counter_values ->
    interface n [("CU", S_BOOL); ("CD", S_BOOL); ("R", S_BOOL); ("LD", S_BOOL); ("PV", s)]
      [("QU", S_BOOL); ("QD", S_BOOL); ("CV", s)]
| if_bistable : forall n f a b, List.In (n, f, (a, b)) bistables -> interface n [(a, S_BOOL); (b, S_BOOL)] [("Q1", S_BOOL)]
| if_trigger : forall n f, List.In (n, f) triggers -> interface n [("CLK", S_BOOL)] [("Q", S_BOOL)]
| if_timer : forall n s, List.In (n, s) timer_values -> interface n [("IN", S_BOOL); ("PT", s)] [("Q", S_BOOL); ("ET", s)].
(** The blocks that can abort (C12). *)
Definition pulses : list string := ["TP"; "TP_TIME"; "TP_LTIME"].

(** The functions that take a date or time apart, what they take apart and the number of parts. *)
Definition splittable : list (string * sty * nat) :=
  [("SPLIT_DATE", S_DATE, 3%nat); ("SPLIT_TOD", S_TOD, 4%nat); ("SPLIT_LTOD", S_LTOD, 4%nat); ("SPLIT_DT", S_DT, 7%nat)].
(** [taken_apart f n zs]: these functions take [n] nanoseconds apart into [zs]. *)
Inductive taken_apart : string -> Z -> list Z -> Prop :=
| ta_date : forall n y m d, day_number (y, m, d) (n / DAY) -> taken_apart "SPLIT_DATE" n [y; m; d]
| ta_tod : forall f n h mi s ms, List.In f ["SPLIT_TOD"; "SPLIT_LTOD"] -> valid_clock h mi s ms -> clock_ns h mi s ms = n mod DAY - n mod MILLI ->
    taken_apart f n [h; mi; s; ms]
| ta_dt : forall n y m d h mi s ms, day_number (y, m, d) (n / DAY) -> valid_clock h mi s ms -> clock_ns h mi s ms = n mod DAY - n mod MILLI ->
    taken_apart "SPLIT_DT" n [y; m; d; h; mi; s; ms].
(** [proper G insts s fs]: the statement [s] is typed, with the variables [G] and the instances [insts]; it calls the
    functions and blocks [fs]. *)
Inductive proper (G : string -> sty -> Prop) (insts : list instance) : statement -> list string -> Prop :=
| pr_let : forall x e t s fs, G x t -> has_type G e s fs -> converts s t -> proper G insts (Let x e) fs
| pr_use : forall i ins outs its ots fs, List.In i insts -> interface (i_name i) its ots ->
    map fst ins = map fst its -> have_types G (map snd ins) (map snd its) fs ->
    Forall (fun o => exists t, List.In (snd o, t) ots /\ G (fst o) t) outs ->
    proper G insts (Use i ins outs) (i_name i :: fs)
| pr_split : forall f x ys tx t, List.In (f, tx, length ys) splittable -> G x tx -> List.In t wide_ints -> NoDup ys ->
    Forall (fun y => G y t) ys -> proper G insts (Split f x ys) [instance_name f [t]].

(** The start of a program: its statements are typed, its instances lie apart in zeroed memory. *)
Definition ready (rp : option_repr) (P : platform) (insts : list instance) (r : env value) (m : ModelLayout.mem)
  (qs : list (statement * (Z * Z))) : Prop :=
  sane P /\ placed rp insts /\ (forall i, List.In i insts -> zeroed rp m i) /\ clock_runs 0 qs /\
  Forall (fun q => exists fs, proper (variable r) insts (fst q) fs) qs.
(** All calls of the instance [i] have the inputs [ins]. *)
Definition always (i : instance) (ins : list (string * expr)) (qs : list (statement * (Z * Z))) : Prop :=
  forall ins' outs k, List.In (Use i ins' outs, k) qs -> ins' = ins.
(** The BOOL expression [e] has the value [b]; the expression [e] of type [t] has the value [z]. *)
Definition is_bool (P : platform) (r : env value) (e : expr) (b : bool) : Prop := value_in P r e = Ok (S_BOOL, VZ (Z.b2z b)).
Definition is_whole (P : platform) (r : env value) (e : expr) (t : sty) (z : Z) : Prop := value_in P r e = Ok (t, VZ z).

(** [up_down_count t h v]: an up-down counter of type [t] called with the inputs [h] counts [v].  A call with R or LD
    sets the value and leaves the edges unseen. *)
Inductive up_down_count (t : ity) : list ctud_in -> Z -> Prop :=
| udc_start : up_down_count t [] 0
| udc_call : forall h v i, up_down_count t h v ->
    up_down_count t (h ++ [i])
      (if cudi_r i then 0 else if cudi_ld i then cudi_pv i else
       clamp (imin t) (imax t) (v + bit (cudi_cu i && negb (ctud_cu_level h)) - bit (cudi_cd i && negb (ctud_cd_level h)))).
