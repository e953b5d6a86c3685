(** Specification vocabulary for the function blocks.  Nothing here refers to the model's
    internal state. *)
From Coq Require Import ZArith List Bool.
From Verif Require Import Base ModelCounters ModelTimers.
Import ListNotations.
Open Scope Z_scope.

(** The value a Boolean input had in the call before call [k]; before the first call it
    counts as FALSE. *)
Definition previous (l : list bool) (k : nat) : bool :=
  match k with O => false | S j => nth j l false end.

(** Number of rising edges in a sequence of levels, the level before it being [prev]. *)
Fixpoint rising_edges (prev : bool) (l : list bool) : Z :=
  match l with
  | [] => 0
  | b :: l' => (if b && negb prev then 1 else 0) + rising_edges b l'
  end.

(** The last element of [l] satisfying [f], if any. *)
Definition last_such {A} (f : A -> bool) (l : list A) : option A := find f (rev l).

(** [l] is empty or its last element satisfies [P]. *)
Definition ends_with {A} (P : A -> Prop) (l : list A) : Prop :=
  l = [] \/ exists l' x, l = l' ++ [x] /\ P x.

(** Level of CU in the last call of the history that was not a reset (FALSE if none). *)
Definition ctu_level (h : list ctu_in) : bool :=
  match last_such (fun i => negb (cui_r i)) h with Some i => cui_cu i | None => false end.

(** Level of CD in the last call of the history that was not a load (FALSE if none). *)
Definition ctd_level (h : list ctd_in) : bool :=
  match last_such (fun i => negb (cdi_ld i)) h with Some i => cdi_cd i | None => false end.

(** Value loaded by the last load of the history (0 if none: a fresh counter). *)
Definition ctd_loaded (h : list ctd_in) : Z :=
  match last_such cdi_ld h with Some i => cdi_pv i | None => 0 end.

(** Counting calls of a CTUD history: neither reset nor load. *)
Definition ctud_counts (i : ctud_in) : bool := negb (cudi_r i) && negb (cudi_ld i).
Definition ctud_cu_level (h : list ctud_in) : bool :=
  match last_such ctud_counts h with Some i => cudi_cu i | None => false end.
Definition ctud_cd_level (h : list ctud_in) : bool :=
  match last_such ctud_counts h with Some i => cudi_cd i | None => false end.

Definition clamp (lo hi x : Z) : Z := Z.max lo (Z.min hi x).
Definition bit (b : bool) : Z := if b then 1 else 0.

(** Net count of CTUD over counting calls, without saturation: simultaneous edges cancel. *)
Definition net_count (cu cd : bool) (h : list ctud_in) : Z :=
  rising_edges cu (map cudi_cu h) - rising_edges cd (map cudi_cd h).

(** IEC 61131-3 reading of CTU: an edge is a change between two consecutive calls. *)
Fixpoint iec_ctu_cv (hi : Z) (prev : bool) (cv : Z) (h : list ctu_in) : Z :=
  match h with
  | [] => cv
  | i :: h' =>
      iec_ctu_cv hi (cui_cu i)
        (if cui_r i then 0 else Z.min hi (cv + bit (cui_cu i && negb prev))) h'
  end.

(** CU is not changed by a reset call (with respect to the call before). *)
Fixpoint cu_steady_in_reset (prev : bool) (h : list ctu_in) : Prop :=
  match h with
  | [] => True
  | i :: h' => (cui_r i = true -> cui_cu i = prev) /\ cu_steady_in_reset (cui_cu i) h'
  end.

(** The same for CTD (LD instead of R). *)
Fixpoint iec_ctd_cv (lo : Z) (prev : bool) (cv : Z) (h : list ctd_in) : Z :=
  match h with
  | [] => cv
  | i :: h' =>
      iec_ctd_cv lo (cdi_cd i)
        (if cdi_ld i then cdi_pv i else Z.max lo (cv - bit (cdi_cd i && negb prev))) h'
  end.
Fixpoint cd_steady_in_load (prev : bool) (h : list ctd_in) : Prop :=
  match h with
  | [] => True
  | i :: h' => (cdi_ld i = true -> cdi_cd i = prev) /\ cd_steady_in_load (cdi_cd i) h'
  end.

(** The same for CTUD. *)
Fixpoint iec_ctud_cv (lo hi : Z) (pu pd : bool) (cv : Z) (h : list ctud_in) : Z :=
  match h with
  | [] => cv
  | i :: h' =>
      iec_ctud_cv lo hi (cudi_cu i) (cudi_cd i)
        (if cudi_r i then 0 else if cudi_ld i then cudi_pv i else
         clamp lo hi (cv + bit (cudi_cu i && negb pu) - bit (cudi_cd i && negb pd))) h'
  end.
Fixpoint ctud_steady (pu pd : bool) (h : list ctud_in) : Prop :=
  match h with
  | [] => True
  | i :: h' =>
      (ctud_counts i = false -> cudi_cu i = pu /\ cudi_cd i = pd) /\
      ctud_steady (cudi_cu i) (cudi_cd i) h'
  end.

(** * Timers *)

(** The longest suffix of [l] all of whose elements satisfy [f]. *)
Fixpoint suffix_while {A} (f : A -> bool) (l : list A) : list A :=
  match l with
  | [] => []
  | _ :: l' => if forallb f l then l else suffix_while f l'
  end.

(** The clock does not run backwards: within a call and from call to call, starting at
    [lo]. *)
Fixpoint clock_from (lo : Z) (h : list tcall) : Prop :=
  match h with
  | [] => True
  | c :: h' => lo <= tc_t1 c /\ tc_t1 c <= tc_t2 c /\ clock_from (tc_t2 c) h'
  end.

(** Clock readings are non-negative, monotone and less than 2^63 ns (292 years). *)
Definition clock_ok (h : list tcall) : Prop :=
  clock_from 0 h /\ Forall (fun c => tc_t2 c < 2 ^ 63) h.

Definition preset_ok (h : list tcall) : Prop :=
  Forall (fun c => 0 <= tc_pt c < 2 ^ 63) h.

(** All presets are negative TIME values. *)
Definition preset_negative (h : list tcall) : Prop :=
  Forall (fun c => - 2 ^ 63 <= tc_pt c < 0) h.

(** The outputs of a timer after a history: Q and ET, or an abort. *)
Definition timer_out (f : timer -> Z -> Z -> outcome timer) (h : list tcall)
  : outcome (bool * Z) :=
  omap (fun t => (t_output t, t_elapsed t)) (timer_run f timer_default h).

(** The Q and ET outputs of an outcome of [timer_out]. *)
Definition q_of (o : outcome (bool * Z)) : bool := match o with Ok (q, _) => q | _ => false end.
Definition et_of (o : outcome (bool * Z)) : Z := match o with Ok (_, e) => e | _ => 0 end.

(** All calls use the same preset time. *)
Definition constant_pt (pt : Z) (h : list tcall) : Prop := Forall (fun c => tc_pt c = pt) h.

(** The last two calls of the history form a falling edge of IN. *)
Definition ends_with_falling_in (h : list tcall) : Prop :=
  exists h' p l, h = h' ++ [p; l] /\ tc_in p = true /\ tc_in l = false.
