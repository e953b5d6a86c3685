(** Vocabulary for C91. *)
From Coq Require Import String ZArith List Bool.
From Verif Require Import Base ModelFB ModelCounters ModelTimers ModelLayout ModelMachine.
Import ListNotations.
Open Scope list_scope.
Open Scope string_scope.
Open Scope Z_scope.

(** The bytes an instance occupies in ST: from its address, as many as its declaration takes. *)
Definition size_of (r : option_repr) (i : instance) : Z :=
  match block (i_name i) st_blocks with Some ss => struct_size r ss | None => 0 end.
Definition occupies (r : option_repr) (i : instance) (a : Z) : Prop :=
  i_base i <= a < i_base i + size_of r i.

(** The instances of a program: declared blocks at addresses where they do not overlap. *)
Definition placed (r : option_repr) (insts : list instance) : Prop :=
  (forall i, In i insts -> block (i_name i) st_blocks <> None) /\
  (forall i j a, In i insts -> In j insts -> occupies r i a -> occupies r j a -> i = j).

(** The calls of a program that go to instance [i]. *)
Definition same_instance (i j : instance) : bool :=
  String.eqb (i_name i) (i_name j) && (i_base i =? i_base j).
Definition calls_of (i : instance) (prog : list call) : list call :=
  filter (fun c => same_instance (c_inst c) i) prog.

(** All bytes of the instance are zero. *)
Definition zeroed (r : option_repr) (m : mem) (i : instance) : Prop :=
  forall a, occupies r i a -> m a = 0.

(** The outputs of an instance after a run: each variable read by ST, or the abort. *)
Definition outputs (r : option_repr) (i : instance) (vars : list string) (o : outcome mem)
  : outcome (list (outcome fval)) :=
  omap (fun m => map (st_read r m i) vars) o.

(** The counter blocks and their element types. *)
Definition up_counters : list (string * ity) :=
  [("CTU", i16); ("CTU_INT", i16); ("CTU_DINT", i32); ("CTU_UDINT", u32); ("CTU_LINT", i64);
   ("CTU_ULINT", u64)].
Definition down_counters : list (string * ity) :=
  [("CTD", i16); ("CTD_INT", i16); ("CTD_DINT", i32); ("CTD_UDINT", u32); ("CTD_LINT", i64);
   ("CTD_ULINT", u64)].
Definition up_down_counters : list (string * ity) :=
  [("CTUD", i16); ("CTUD_INT", i16); ("CTUD_DINT", i32); ("CTUD_UDINT", u32);
   ("CTUD_LINT", i64); ("CTUD_ULINT", u64)].
(** The timer blocks. *)
Definition timers : list (string * (timer -> Z -> Z -> outcome timer)) :=
  [("TP", TP); ("TP_TIME", TP); ("TP_LTIME", TP); ("TON", TON); ("TON_TIME", TON);
   ("TON_LTIME", TON); ("TOF", TOF); ("TOF_TIME", TOF); ("TOF_LTIME", TOF)].
(** The bistables, their functions and the names of their set and reset inputs. *)
Definition bistables : list (string * (sr_params -> sr_params) * (string * string)) :=
  [("SR", SR, ("SET1", "RESET")); ("RS", RS, ("SET", "RESET1"))].
(** The edge triggers. *)
Definition triggers : list (string * (trigger -> trigger)) := [("R_TRIG", R_TRIG); ("F_TRIG", F_TRIG)].

(** Same outcome, and the same memory at the addresses of [P]. *)
Definition same_on (P : Z -> Prop) (x y : outcome mem) : Prop :=
  match x, y with
  | Ok m1, Ok m2 => forall a, P a -> m1 a = m2 a
  | Panic, Panic => True
  | Ub, Ub => True
  | _, _ => False
  end.

(** * Vocabulary for C92 *)

(** The program that calls a counter instance with the inputs of a history. *)
Definition up_program (i : instance) (h : list ctu_in) : list call :=
  map (fun x => Call i [("CU", VBool (cui_cu x)); ("R", VBool (cui_r x)); ("PV", VInt (cui_pv x))] 0 0) h.
Definition down_program (i : instance) (h : list ctd_in) : list call :=
  map (fun x => Call i [("CD", VBool (cdi_cd x)); ("LD", VBool (cdi_ld x)); ("PV", VInt (cdi_pv x))] 0 0) h.
Definition up_down_program (i : instance) (h : list ctud_in) : list call :=
  map (fun x => Call i [("CU", VBool (cudi_cu x)); ("CD", VBool (cudi_cd x)); ("R", VBool (cudi_r x));
                        ("LD", VBool (cudi_ld x)); ("PV", VInt (cudi_pv x))] 0 0) h.

(** After every call of the program, the instance's CV is a value of type [t]. *)
Definition cv_stays_in {I} (t : ity) (r : option_repr) (p : profile) (m : mem) (i : instance)
  (program : instance -> list I -> list call) (h : list I) : Prop :=
  forall h1 h2 v, h = (h1 ++ h2)%list ->
    outputs r i ["CV"] (run r p m (program i h1)) = Ok [Ok (VInt v)] -> in_ity t v.
