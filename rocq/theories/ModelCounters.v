(** Model of src/counters.rs: CTU, CTD, CTUD over any integer type. *)
From Coq Require Import ZArith List Bool.
From Verif Require Import Base ModelFB.
Import ListNotations.
Open Scope Z_scope.

(** Counter element types: /repo/src/counters.rs:57-119 (CTU, CTU_INT i16, _DINT i32,
    _UDINT u32, _LINT i64, _ULINT u64), 173-235 (CTD…), 320-382 (CTUD…). *)
Definition counter_types : list ity := [i16; i32; u32; i64; u64].

(** * CTU *)

(** /repo/src/counters.rs:7-14 [struct CTUParams<T>] *)
Record ctu_params := CtuParams {
  ctu_cu : bool; ctu_r : bool; ctu_pv : Z; ctu_q : bool; ctu_cv : Z; ctu_internal : signal }.

(** /repo/src/counters.rs:6 [derive(Default)] *)
Definition ctu_default : ctu_params := CtuParams false false 0 false 0 signal_default.

(** /repo/src/counters.rs:37-47 [ctu].  [&] does not short-circuit: the edge memory is
    updated even at the maximum.  [inc] (28-30) is [cv + 1] with the profile's overflow
    behaviour; [update_q] (20-22) is [cv >= pv]. *)
Definition ctu (p : profile) (t : ity) (s : ctu_params) : outcome ctu_params :=
  let! cv_sig :=
    (if ctu_r s then Ok (0, ctu_internal s)
     else
       let '(edge, sig) := rising_edge (ctu_internal s) (ctu_cu s) in
       if edge && (ctu_cv s <? imax t)
       then let! cv := arith p t (ctu_cv s + 1) in Ok (cv, sig)
       else Ok (ctu_cv s, sig)) in
  let '(cv, sig) := cv_sig in
  Ok (CtuParams (ctu_cu s) (ctu_r s) (ctu_pv s) (ctu_pv s <=? cv) cv sig).

(** Inputs of one call, as stored by the caller before the call
    (/repo/iec61131-st/counters.st:11-26 for CTU). *)
Record ctu_in := CtuIn { cui_cu : bool; cui_r : bool; cui_pv : Z }.

(** One call: the caller stores the inputs (/repo/iec61131-st/counters.st:11-26) and calls
    /repo/src/counters.rs:57-59. *)
Definition ctu_call (p : profile) (t : ity) (s : ctu_params) (i : ctu_in)
  : outcome ctu_params :=
  ctu p t (CtuParams (cui_cu i) (cui_r i) (cui_pv i) (ctu_q s) (ctu_cv s) (ctu_internal s)).

(** A history of calls of /repo/src/counters.rs:57-119 on one instance; a panic ends it. *)
Fixpoint ctu_run (p : profile) (t : ity) (s : ctu_params) (h : list ctu_in)
  : outcome ctu_params :=
  match h with
  | [] => Ok s
  | i :: h' => let! s' := ctu_call p t s i in ctu_run p t s' h'
  end.

(** * CTD *)

(** /repo/src/counters.rs:123-130 [struct CTDParams<T>] *)
Record ctd_params := CtdParams {
  ctd_cd : bool; ctd_ld : bool; ctd_pv : Z; ctd_q : bool; ctd_cv : Z; ctd_internal : signal }.

(** /repo/src/counters.rs:122 [derive(Default)] *)
Definition ctd_default : ctd_params := CtdParams false false 0 false 0 signal_default.

(** /repo/src/counters.rs:153-163 [ctd] (with [load] 140-142, [dec] 144-146,
    [update_q] 136-138). *)
Definition ctd (p : profile) (t : ity) (s : ctd_params) : outcome ctd_params :=
  let! cv_sig :=
    (if ctd_ld s then Ok (ctd_pv s, ctd_internal s)
     else
       let '(edge, sig) := rising_edge (ctd_internal s) (ctd_cd s) in
       if edge && (imin t <? ctd_cv s)
       then let! cv := arith p t (ctd_cv s - 1) in Ok (cv, sig)
       else Ok (ctd_cv s, sig)) in
  let '(cv, sig) := cv_sig in
  Ok (CtdParams (ctd_cd s) (ctd_ld s) (ctd_pv s) (cv <=? 0) cv sig).

(** Inputs of one call (/repo/iec61131-st/counters.st, CTD declarations). *)
Record ctd_in := CtdIn { cdi_cd : bool; cdi_ld : bool; cdi_pv : Z }.

(** One call: the caller stores the inputs and calls /repo/src/counters.rs:173-175. *)
Definition ctd_call (p : profile) (t : ity) (s : ctd_params) (i : ctd_in)
  : outcome ctd_params :=
  ctd p t (CtdParams (cdi_cd i) (cdi_ld i) (cdi_pv i) (ctd_q s) (ctd_cv s) (ctd_internal s)).

(** A history of calls of /repo/src/counters.rs:173-235 on one instance; a panic ends it. *)
Fixpoint ctd_run (p : profile) (t : ity) (s : ctd_params) (h : list ctd_in)
  : outcome ctd_params :=
  match h with
  | [] => Ok s
  | i :: h' => let! s' := ctd_call p t s i in ctd_run p t s' h'
  end.

(** * CTUD *)

(** /repo/src/counters.rs:239-250 [struct CTUDParams<T>] *)
Record ctud_params := CtudParams {
  cud_cu : bool; cud_cd : bool; cud_r : bool; cud_ld : bool; cud_pv : Z;
  cud_qu : bool; cud_qd : bool; cud_cv : Z;
  cud_up : signal; cud_down : signal }.

(** /repo/src/counters.rs:238 [derive(Default)] *)
Definition ctud_default : ctud_params :=
  CtudParams false false false false 0 false false 0 signal_default signal_default.

(** /repo/src/counters.rs:289-310 [ctud] (helpers 256-286). *)
Definition ctud (p : profile) (t : ity) (s : ctud_params) : outcome ctud_params :=
  let! cv_sigs :=
    (if cud_r s then Ok (0, cud_up s, cud_down s)
     else if cud_ld s then Ok (cud_pv s, cud_up s, cud_down s)
     else
       let '(edge_up, sup) := rising_edge (cud_up s) (cud_cu s) in
       let '(edge_down, sdown) := rising_edge (cud_down s) (cud_cd s) in
       if negb (edge_up && edge_down) then
         if edge_up && (cud_cv s <? imax t)
         then let! cv := arith p t (cud_cv s + 1) in Ok (cv, sup, sdown)
         else if edge_down && (imin t <? cud_cv s)
         then let! cv := arith p t (cud_cv s - 1) in Ok (cv, sup, sdown)
         else Ok (cud_cv s, sup, sdown)
       else Ok (cud_cv s, sup, sdown)) in
  let '(cv, sup, sdown) := cv_sigs in
  Ok (CtudParams (cud_cu s) (cud_cd s) (cud_r s) (cud_ld s) (cud_pv s)
        (cud_pv s <=? cv) (cv <=? 0) cv sup sdown).

(** Inputs of one call (/repo/iec61131-st/counters.st, CTUD declarations). *)
Record ctud_in := CtudIn { cudi_cu : bool; cudi_cd : bool; cudi_r : bool; cudi_ld : bool;
                           cudi_pv : Z }.

(** One call: the caller stores the inputs and calls /repo/src/counters.rs:320-322. *)
Definition ctud_call (p : profile) (t : ity) (s : ctud_params) (i : ctud_in)
  : outcome ctud_params :=
  ctud p t (CtudParams (cudi_cu i) (cudi_cd i) (cudi_r i) (cudi_ld i) (cudi_pv i)
              (cud_qu s) (cud_qd s) (cud_cv s) (cud_up s) (cud_down s)).

(** A history of calls of /repo/src/counters.rs:320-382 on one instance; a panic ends it. *)
Fixpoint ctud_run (p : profile) (t : ity) (s : ctud_params) (h : list ctud_in)
  : outcome ctud_params :=
  match h with
  | [] => Ok s
  | i :: h' => let! s' := ctud_call p t s i in ctud_run p t s' h'
  end.
