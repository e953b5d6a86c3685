(** Specification vocabulary for histories of timers that are shifted in time or polled more
    often, and for relations between different blocks. *)
From Coq Require Import ZArith List Bool.
From Verif Require Import Base ModelFB ModelCounters ModelTimers SpecFB.
Import ListNotations.
Open Scope Z_scope.

(** The same call [d] nanoseconds later. *)
Definition later (d : Z) (c : tcall) : tcall := TCall (tc_in c) (tc_pt c) (tc_t1 c + d) (tc_t2 c + d).
(** The level of IN in the last call of a history (FALSE before the first call). *)
Definition in_level (h : list tcall) : bool := last (map tc_in h) false.
(** The same call with inverted IN. *)
Definition inverted (c : tcall) : tcall := TCall (negb (tc_in c)) (tc_pt c) (tc_t1 c) (tc_t2 c).

(** [extra_polls h h']: [h'] is [h] with additional calls, none of which changes the level of
    IN that the call before it had. *)
Inductive extra_polls : list tcall -> list tcall -> Prop :=
| polls_same : forall h, extra_polls h h
| polls_more : forall h h1 c h2, extra_polls h (h1 ++ h2) -> tc_in c = in_level h1 -> h2 <> [] ->
    extra_polls h (h1 ++ c :: h2).

(** A call of CTUD as the call of CTU (or CTD) with the same count input. *)
Definition up_part (i : ctud_in) : ctu_in := CtuIn (cudi_cu i) (cudi_r i) (cudi_pv i).
Definition down_part (i : ctud_in) : ctd_in := CtdIn (cudi_cd i) (cudi_ld i) (cudi_pv i).
(** What is seen of a counter: its outputs. *)
Definition ctu_outputs (s : ctu_params) : bool * Z := (ctu_q s, ctu_cv s).
Definition ctd_outputs (s : ctd_params) : bool * Z := (ctd_q s, ctd_cv s).
