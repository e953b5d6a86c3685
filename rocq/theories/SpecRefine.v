(** Specification vocabulary: what a program does, told without bytes, memory and Rust code.  Variables have meanings
    (SpecTerm.v), an instance of a function block has the history of its calls. *)
From Coq Require Import String ZArith List Bool Reals.
From Verif Require Import Base ModelFB ModelCounters ModelTimers ModelLayout ModelMachine ModelFloat ModelString ModelLink ModelLib ModelApi
  SpecFB SpecMachine SpecScalar SpecText SpecLink SpecLib SpecCall SpecExpr SpecNum SpecTerm SpecType SpecProgram.
Import ListNotations.
Open Scope string_scope.
Open Scope list_scope.
Open Scope Z_scope.

(** ** Variables *)
Definition store := string -> option meaning.
Definition kind_type (m : meaning) : sty := match m with Whole t _ => t | Text k _ => string_type k | Real t _ => t end.
Definition assign (x : string) (m : meaning) (s : store) : store := fun y => if String.eqb y x then Some m else s y.
(** The variables [r] have the meanings [s]. *)
Definition represents (r : env value) (s : store) : Prop := forall x m, s x = Some m -> exists tv, get x r = Ok tv /\ stands_for tv m.

(** ** Expressions *)
Inductive denotes (P : platform) (s : store) : expr -> meaning -> Prop :=
| den_variable : forall x m, s x = Some m -> denotes P s (Arg x) m
| den_call : forall f es ms m, Forall2 (denotes P s) es ms -> yields P f ms m -> denotes P s (Call f es) m.
Inductive breaks (P : platform) (s : store) : expr -> Prop :=
| br_here : forall f es ms, Forall2 (denotes P s) es ms -> fails P f ms -> breaks P s (Call f es)
| br_inside : forall f es ms e es', Forall2 (denotes P s) es ms -> breaks P s e -> breaks P s (Call f (es ++ e :: es')).
(** The value [m] assigned to a variable of type [t] becomes [m']: integers are converted, keeping their lowest bits; real
    numbers, and integers to real numbers, are rounded. *)
Inductive becomes : meaning -> sty -> meaning -> Prop :=
| bc_same : forall m, becomes m (kind_type m) m
| bc_whole : forall a b z w, List.In a wholes -> List.In b wholes -> of_type b w -> w mod values b = z mod values b -> becomes (Whole a z) b (Whole b w)
| bc_to_real : forall a t z p, List.In a wholes -> List.In t reals -> rounds_to t (IZR z) p -> becomes (Whole a z) t (Real t p)
| bc_widen : forall q, becomes (Real S_REAL q) S_LREAL (Real S_LREAL q)
| bc_narrow : forall q p, (Rabs q < IZR (2 ^ 128 - 2 ^ 103))%R -> rounds_to S_REAL q p -> becomes (Real S_LREAL q) S_REAL (Real S_REAL p).

(** ** Function blocks *)
(** A call: the values of the inputs, in the order they are declared, and the clock readings. *)
Record event := Event { v_inputs : list Z; v_now1 : Z; v_now2 : Z }.
Definition on (z : Z) : bool := negb (z =? 0).
Definition up_input (e : event) : ctu_in := match v_inputs e with [a; b; c] => CtuIn (on a) (on b) c | _ => CtuIn false false 0 end.
Definition down_input (e : event) : ctd_in := match v_inputs e with [a; b; c] => CtdIn (on a) (on b) c | _ => CtdIn false false 0 end.
Definition up_down_input (e : event) : ctud_in :=
  match v_inputs e with [a; b; c; d; x] => CtudIn (on a) (on b) (on c) (on d) x | _ => CtudIn false false false false 0 end.
Definition two_inputs (e : event) : bool * bool := match v_inputs e with [a; b] => (on a, on b) | _ => (false, false) end.
Definition one_input (e : event) : bool := match v_inputs e with [a] => on a | _ => false end.
Definition timed_input (e : event) : tcall := match v_inputs e with [a; b] => TCall (on a) b (v_now1 e) (v_now2 e) | _ => TCall false 0 0 0 end.

(** Counters: [up_count t h v]: after the calls [h] the counter of type [t] shows [v]. *)
Inductive up_count (t : ity) : list ctu_in -> Z -> Prop :=
| uc_start : up_count t [] 0
| uc_call : forall h v i, up_count t h v ->
    up_count t (h ++ [i]) (if cui_r i then 0 else Z.min (imax t) (v + bit (cui_cu i && negb (ctu_level h)))).
Inductive down_count (t : ity) : list ctd_in -> Z -> Prop :=
| dc_start : down_count t [] 0
| dc_call : forall h v i, down_count t h v ->
    down_count t (h ++ [i]) (if cdi_ld i then cdi_pv i else Z.max (imin t) (v - bit (cdi_cd i && negb (ctd_level h)))).
(** Timers.  The time [d] since the start of a timer exceeds the preset; a negative preset is never exceeded (C15). *)
Definition expired (pt d : Z) : bool := (0 <=? pt) && (pt <? d).
(** Q and ET after the calls [h] and [c]. *)
Definition on_delay (h : list tcall) (c : tcall) : bool * Z :=
  match suffix_while tc_in (h ++ [c]) with
  | [] => (false, 0)
  | [_] => (false, 0)
  | f :: _ => (expired (tc_pt c) (tc_t2 c - tc_t1 f), Z.min (tc_pt c) (tc_t1 c - tc_t1 f))
  end.
Definition off_delay (h : list tcall) (c : tcall) : bool * Z :=
  if tc_in c then (true, 0)
  else if existsb tc_in h then
    match suffix_while (fun d => negb (tc_in d)) (h ++ [c]) with
    | [] => (true, 0)
    | [_] => (true, 0)
    | f :: _ => (negb (expired (tc_pt c) (tc_t2 c - tc_t1 f)), Z.min (tc_pt c) (tc_t1 c - tc_t1 f))
    end
  else (false, 0).
(** A pulse that began at [t] is forgotten when IN falls in a call after its end (C13). *)
Definition forgotten (h : list tcall) (c : tcall) (t : Z) : bool :=
  expired (tc_pt c) (tc_t2 c - t) && (List.last (map tc_in h) false && negb (tc_in c)).
(** [pulse h o]: after the calls [h] a pulse timer remembers the pulse that began at [t], [o = Some t], or none.  A call with
    IN FALSE while none is remembered aborts (C12), so there is no [o] then. *)
Inductive pulse : list tcall -> option Z -> Prop :=
| pu_fresh : pulse [] None
| pu_begin : forall h c, pulse h None -> tc_in c = true -> pulse (h ++ [c]) (Some (tc_t1 c))
| pu_call : forall h c t, pulse h (Some t) -> pulse (h ++ [c]) (if forgotten h c t then None else Some t).
Definition on_delays : list string := ["TON"; "TON_TIME"; "TON_LTIME"].
Definition off_delays : list string := ["TOF"; "TOF_TIME"; "TOF_LTIME"].

(** [shows n h var m]: an instance of the block [n] called with [h] shows [m] at its output [var]. *)
Inductive shows : string -> list event -> string -> meaning -> Prop :=
| sh_up : forall n t s h v, List.In (n, t) up_counters -> List.In (s, t) counter_values -> up_count t (map up_input h) v ->
    shows n h "CV" (Whole s v)
| sh_up_q : forall n t h e v, List.In (n, t) up_counters -> up_count t (map up_input (h ++ [e])) v ->
    shows n (h ++ [e]) "Q" (Whole S_BOOL (Z.b2z (cui_pv (up_input e) <=? v)))
| sh_down : forall n t s h v, List.In (n, t) down_counters -> List.In (s, t) counter_values -> down_count t (map down_input h) v ->
    shows n h "CV" (Whole s v)
| sh_down_q : forall n t h e v, List.In (n, t) down_counters -> down_count t (map down_input (h ++ [e])) v ->
    shows n (h ++ [e]) "Q" (Whole S_BOOL (Z.b2z (v <=? 0)))
| sh_up_down : forall n t s h v, List.In (n, t) up_down_counters -> List.In (s, t) counter_values -> up_down_count t (map up_down_input h) v ->
    shows n h "CV" (Whole s v)
| sh_up_down_qu : forall n t h e v, List.In (n, t) up_down_counters -> up_down_count t (map up_down_input (h ++ [e])) v ->
    shows n (h ++ [e]) "QU" (Whole S_BOOL (Z.b2z (cudi_pv (up_down_input e) <=? v)))
| sh_up_down_qd : forall n t h e v, List.In (n, t) up_down_counters -> up_down_count t (map up_down_input (h ++ [e])) v ->
    shows n (h ++ [e]) "QD" (Whole S_BOOL (Z.b2z (v <=? 0)))
| sh_sr : forall h, shows "SR" h "Q1" (Whole S_BOOL (Z.b2z match last_such (fun x => fst x || snd x) (map two_inputs h) with Some (s, _) => s | None => false end))
| sh_rs : forall h, shows "RS" h "Q1" (Whole S_BOOL (Z.b2z match last_such (fun x => fst x || snd x) (map two_inputs h) with Some (_, r) => negb r | None => false end))
| sh_rising : forall h e, shows "R_TRIG" (h ++ [e]) "Q" (Whole S_BOOL (Z.b2z (one_input e && negb (List.last (map one_input h) false))))
| sh_falling : forall h e, shows "F_TRIG" (h ++ [e]) "Q" (Whole S_BOOL (Z.b2z (negb (one_input e) && List.last (map one_input h) false)))
| sh_on : forall n h e, List.In n on_delays ->
    shows n (h ++ [e]) "Q" (Whole S_BOOL (Z.b2z (fst (on_delay (map timed_input h) (timed_input e)))))
| sh_on_et : forall n s h e, List.In n on_delays -> List.In (n, s) timer_values ->
    shows n (h ++ [e]) "ET" (Whole s (snd (on_delay (map timed_input h) (timed_input e))))
| sh_off : forall n h e, List.In n off_delays ->
    shows n (h ++ [e]) "Q" (Whole S_BOOL (Z.b2z (fst (off_delay (map timed_input h) (timed_input e)))))
| sh_off_et : forall n s h e, List.In n off_delays -> List.In (n, s) timer_values ->
    shows n (h ++ [e]) "ET" (Whole s (snd (off_delay (map timed_input h) (timed_input e))))
| sh_pulse_begin : forall n h e, List.In n pulses -> pulse (map timed_input h) None -> tc_in (timed_input e) = true ->
    shows n (h ++ [e]) "Q" (Whole S_BOOL 1)
| sh_pulse_begin_et : forall n s h e, List.In n pulses -> List.In (n, s) timer_values -> pulse (map timed_input h) None -> tc_in (timed_input e) = true ->
    shows n (h ++ [e]) "ET" (Whole s 0)
| sh_pulse : forall n h e t, List.In n pulses -> pulse (map timed_input h) (Some t) ->
    shows n (h ++ [e]) "Q" (Whole S_BOOL (Z.b2z (negb (expired (tc_pt (timed_input e)) (tc_t2 (timed_input e) - t)))))
| sh_pulse_et : forall n s h e t, List.In n pulses -> List.In (n, s) timer_values -> pulse (map timed_input h) (Some t) ->
    shows n (h ++ [e]) "ET"
      (Whole s (if forgotten (map timed_input h) (timed_input e) t then 0 else Z.min (tc_pt (timed_input e)) (tc_t1 (timed_input e) - t))).
(** A pulse timer is not called with IN FALSE while it remembers no pulse; the other blocks are called in any way. *)
Definition accepts (n : string) (h : list event) : Prop := List.In n pulses -> exists o, pulse (map timed_input h) o.

(** ** Programs *)
(** The calls made so far, in order. *)
Definition history := list (instance * event).
Definition events_of (i : instance) (l : history) : list event := map snd (filter (fun x => same_instance (fst x) i) l).
(** The outputs of a block with the history [h] are assigned to variables of their types. *)
Inductive assigns (n : string) (h : list event) : list (string * string) -> store -> store -> Prop :=
| as_none : forall s, assigns n h [] s s
| as_one : forall x var outs s m m0 s', shows n h var m -> s x = Some m0 -> kind_type m0 = kind_type m -> assigns n h outs (assign x m s) s' ->
    assigns n h ((x, var) :: outs) s s'.
(** The variables [ys] get the values [zs] of type [t]. *)
Fixpoint assign_parts (t : sty) (ys : list string) (zs : list Z) (s : store) : store :=
  match ys, zs with y :: ys', z :: zs' => assign_parts t ys' zs' (assign y (Whole t z) s) | _, _ => s end.
Inductive does_one (P : platform) (insts : list instance) : store -> history -> statement * (Z * Z) -> store -> history -> Prop :=
| do_let : forall s l x e m m0 m' k, denotes P s e m -> s x = Some m0 -> becomes m (kind_type m0) m' ->
    does_one P insts s l (Let x e, k) (assign x m' s) l
| do_use : forall s l i ins outs its ots zs n1 n2 s', List.In i insts -> interface (i_name i) its ots -> map fst ins = map fst its ->
    Forall2 (denotes P s) (map snd ins) (map (fun tz => Whole (fst tz) (snd tz)) (combine (map snd its) zs)) -> length zs = length its ->
    accepts (i_name i) (events_of i (l ++ [(i, Event zs n1 n2)])) -> assigns (i_name i) (events_of i (l ++ [(i, Event zs n1 n2)])) outs s s' ->
    does_one P insts s l (Use i ins outs, (n1, n2)) s' (l ++ [(i, Event zs n1 n2)])
| do_split : forall s l f x ys tx t n zs k, List.In (f, tx, length ys) splittable -> s x = Some (Whole tx n) -> List.In t wide_ints -> NoDup ys ->
    Forall (fun y => exists z, s y = Some (Whole t z)) ys -> taken_apart f n zs -> does_one P insts s l (Split f x ys, k) (assign_parts t ys zs s) l.
Inductive does (P : platform) (insts : list instance) : store -> history -> list (statement * (Z * Z)) -> store -> history -> Prop :=
| do_nil : forall s l, does P insts s l [] s l
| do_cons : forall s l q qs s1 l1 s2 l2, does_one P insts s l q s1 l1 -> does P insts s1 l1 qs s2 l2 -> does P insts s l (q :: qs) s2 l2.
(** The program is aborted: by an expression, or by a pulse timer called with IN FALSE while it remembers no
    pulse. *)
Inductive is_stopped (P : platform) (insts : list instance) : store -> history -> list (statement * (Z * Z)) -> Prop :=
| stop_let : forall s l x e k qs, breaks P s e -> is_stopped P insts s l ((Let x e, k) :: qs)
| stop_input : forall s l i ins outs k qs n e ins1 ins2 its1 its2 ots zs, ins = ins1 ++ (n, e) :: ins2 -> interface (i_name i) (its1 ++ its2) ots ->
    Forall2 (denotes P s) (map snd ins1) (map (fun tz => Whole (fst tz) (snd tz)) (combine (map snd its1) zs)) -> length zs = length its1 ->
    breaks P s e -> is_stopped P insts s l ((Use i ins outs, k) :: qs)
| stop_pulse : forall s l i ins outs its ots pt n1 n2 qs, List.In i insts -> List.In (i_name i) pulses -> interface (i_name i) its ots ->
    map fst ins = map fst its -> Forall2 (denotes P s) (map snd ins) (map (fun tz => Whole (fst tz) (snd tz)) (combine (map snd its) [0; pt])) ->
    pulse (map timed_input (events_of i l)) None -> is_stopped P insts s l ((Use i ins outs, (n1, n2)) :: qs)
| stop_later : forall s l q qs s1 l1, does_one P insts s l q s1 l1 -> is_stopped P insts s1 l1 qs -> is_stopped P insts s l (q :: qs).
(** Where zeroed memory is not a fresh timer (C81), nothing is said about programs with timers. *)
Definition timers_fresh (rp : option_repr) (insts : list instance) : Prop :=
  rp = Tagged \/ forall i, List.In i insts -> ~ List.In (i_name i) (map fst timer_values).
(** The outputs of the instances are as their histories say. *)
Definition outputs_shown (rp : option_repr) (m : ModelLayout.mem) (insts : list instance) (l : history) : Prop :=
  forall i var w, List.In i insts -> shows (i_name i) (events_of i l) var w ->
  exists v x, st_read rp m i var = Ok v /\ as_value v = Ok x /\ stands_for (kind_type w, x) w.
(** Instances apart from each other in zeroed memory, the clock not running backwards. *)
Definition started (rp : option_repr) (insts : list instance) (m : ModelLayout.mem) (qs : list (statement * (Z * Z))) : Prop :=
  placed rp insts /\ (forall i, List.In i insts -> zeroed rp m i) /\ timers_fresh rp insts /\ clock_runs 0 qs.

(** ** Programs with integers, bit strings, times and dates *)
Inductive typed_by (G : string -> option sty) : expr -> sty -> Prop :=
| tb_variable : forall x t, G x = Some t -> typed_by G (Arg x) t
| tb_call : forall f es ts t, Forall2 (typed_by G) es ts -> takes f ts t -> typed_by G (Call f es) t.
Inductive ordinary (G : string -> option sty) (insts : list instance) : statement -> Prop :=
| or_let : forall x e t u, G x = Some t -> typed_by G e u -> u = t \/ List.In u wholes /\ List.In t wholes -> ordinary G insts (Let x e)
| or_use : forall i ins outs its ots, List.In i insts -> interface (i_name i) its ots -> map fst ins = map fst its -> Forall2 (typed_by G) (map snd ins) (map snd its) ->
    Forall (fun o => exists t, List.In (snd o, t) ots /\ G (fst o) = Some t) outs -> ordinary G insts (Use i ins outs)
| or_split : forall f x ys tx t, List.In (f, tx, length ys) splittable -> G x = Some tx -> List.In t wide_ints -> NoDup ys -> Forall (fun y => G y = Some t) ys ->
    ordinary G insts (Split f x ys).
Definition stores (G : string -> option sty) (s : store) : Prop := forall x t, G x = Some t -> exists z, s x = Some (Whole t z) /\ of_type t z.
