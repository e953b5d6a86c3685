(** The assertions of the project's own integration tests of function blocks, evaluated in the model.

    A test of /repo/tests/<file>.rs runs an ST program with one instance several times and compares
    the outputs.  Below it is: its line in that file, the type of the instance, and the calls the
    program makes one after the other, each with the reading of the (mocked) clock, the inputs
    assigned, and the outputs the test asserts after it.  Nothing here is a proof about all inputs:
    it checks the model against what the authors of the code observed when running it. *)
From Coq Require Import String ZArith List Bool.
From Verif Require Import Base ModelFB ModelCounters ModelTimers ModelLayout ModelMachine.
Import ListNotations.
Open Scope string_scope.
Open Scope Z_scope.
Open Scope list_scope.

(** [assert!] and [assert_eq!], e.g. /repo/tests/counters_tests.rs:49-50. *)
Definition same (a b : fval) : bool :=
  match a, b with
  | VBool x, VBool y => Bool.eqb x y
  | VInt x, VInt y => x =? y
  | _, _ => false
  end.

(** A test, e.g. /repo/tests/counters_tests.rs:21-63, executed on a memory of zeros (the Default of
    its struct, line 45). *)
Fixpoint passes (i : instance) (m : mem) (l : list (Z * list (string * fval) * list (string * fval))) : bool :=
  match l with
  | [] => true
  | (now, ins, outs) :: l' =>
      match st_call Tagged Debug m (Call i ins now now) with
      | Ok m' =>
          forallb (fun '(x, v) => match st_read Tagged m' i x with Ok w => same w v | _ => false end) outs
          && passes i m' l'
      | _ => false
      end
  end.
Definition all_pass (l : list (Z * string * list (Z * list (string * fval) * list (string * fval)))) : bool :=
  forallb (fun '(_, b, calls) => passes (Inst b 0) (fun _ => 0) calls) l.

(** /repo/tests/counters_tests.rs, at the lines given. *)
Definition counters_tests : list (Z * string * list (Z * list (string * fval) * list (string * fval))) := [
  (21, "CTU", [ (* ctu *)
     (0, [("CU", VBool true); ("R", VBool false); ("PV", VInt 3)], []);
     (0, [("CU", VBool false); ("R", VBool false); ("PV", VInt 3)], [("Q", VBool false); ("CV", VInt 1)]);
     (0, [("CU", VBool true); ("R", VBool false); ("PV", VInt 3)], []);
     (0, [("CU", VBool false); ("R", VBool false); ("PV", VInt 3)], [("Q", VBool false); ("CV", VInt 2)]);
     (0, [("CU", VBool true); ("R", VBool false); ("PV", VInt 3)], []);
     (0, [("CU", VBool false); ("R", VBool false); ("PV", VInt 3)], [("Q", VBool true); ("CV", VInt 3)]);
     (0, [("CU", VBool true); ("R", VBool true); ("PV", VInt 3)], [("Q", VBool false); ("CV", VInt 0)])]);
  (65, "CTU_INT", [ (* ctu_int *)
     (0, [("CU", VBool true); ("R", VBool false); ("PV", VInt 3)], []);
     (0, [("CU", VBool false); ("R", VBool false); ("PV", VInt 3)], [("Q", VBool false); ("CV", VInt 1)]);
     (0, [("CU", VBool true); ("R", VBool false); ("PV", VInt 3)], []);
     (0, [("CU", VBool false); ("R", VBool false); ("PV", VInt 3)], [("Q", VBool false); ("CV", VInt 2)]);
     (0, [("CU", VBool true); ("R", VBool false); ("PV", VInt 3)], []);
     (0, [("CU", VBool false); ("R", VBool false); ("PV", VInt 3)], [("Q", VBool true); ("CV", VInt 3)]);
     (0, [("CU", VBool true); ("R", VBool true); ("PV", VInt 3)], [("Q", VBool false); ("CV", VInt 0)])]);
  (109, "CTU_DINT", [ (* ctu_dint *)
     (0, [("CU", VBool true); ("R", VBool false); ("PV", VInt 3)], []);
     (0, [("CU", VBool false); ("R", VBool false); ("PV", VInt 3)], [("Q", VBool false); ("CV", VInt 1)]);
     (0, [("CU", VBool true); ("R", VBool false); ("PV", VInt 3)], []);
     (0, [("CU", VBool false); ("R", VBool false); ("PV", VInt 3)], [("Q", VBool false); ("CV", VInt 2)]);
     (0, [("CU", VBool true); ("R", VBool false); ("PV", VInt 3)], []);
     (0, [("CU", VBool false); ("R", VBool false); ("PV", VInt 3)], [("Q", VBool true); ("CV", VInt 3)]);
     (0, [("CU", VBool true); ("R", VBool true); ("PV", VInt 3)], [("Q", VBool false); ("CV", VInt 0)])]);
  (153, "CTU_UDINT", [ (* ctu_udint *)
     (0, [("CU", VBool true); ("R", VBool false); ("PV", VInt 3)], []);
     (0, [("CU", VBool false); ("R", VBool false); ("PV", VInt 3)], [("Q", VBool false); ("CV", VInt 1)]);
     (0, [("CU", VBool true); ("R", VBool false); ("PV", VInt 3)], []);
     (0, [("CU", VBool false); ("R", VBool false); ("PV", VInt 3)], [("Q", VBool false); ("CV", VInt 2)]);
     (0, [("CU", VBool true); ("R", VBool false); ("PV", VInt 3)], []);
     (0, [("CU", VBool false); ("R", VBool false); ("PV", VInt 3)], [("Q", VBool true); ("CV", VInt 3)]);
     (0, [("CU", VBool true); ("R", VBool true); ("PV", VInt 3)], [("Q", VBool false); ("CV", VInt 0)])]);
  (197, "CTU_LINT", [ (* ctu_lint *)
     (0, [("CU", VBool true); ("R", VBool false); ("PV", VInt 3)], []);
     (0, [("CU", VBool false); ("R", VBool false); ("PV", VInt 3)], [("Q", VBool false); ("CV", VInt 1)]);
     (0, [("CU", VBool true); ("R", VBool false); ("PV", VInt 3)], []);
     (0, [("CU", VBool false); ("R", VBool false); ("PV", VInt 3)], [("Q", VBool false); ("CV", VInt 2)]);
     (0, [("CU", VBool true); ("R", VBool false); ("PV", VInt 3)], []);
     (0, [("CU", VBool false); ("R", VBool false); ("PV", VInt 3)], [("Q", VBool true); ("CV", VInt 3)]);
     (0, [("CU", VBool true); ("R", VBool true); ("PV", VInt 3)], [("Q", VBool false); ("CV", VInt 0)])]);
  (241, "CTU_ULINT", [ (* ctu_ulint *)
     (0, [("CU", VBool true); ("R", VBool false); ("PV", VInt 3)], []);
     (0, [("CU", VBool false); ("R", VBool false); ("PV", VInt 3)], [("Q", VBool false); ("CV", VInt 1)]);
     (0, [("CU", VBool true); ("R", VBool false); ("PV", VInt 3)], []);
     (0, [("CU", VBool false); ("R", VBool false); ("PV", VInt 3)], [("Q", VBool false); ("CV", VInt 2)]);
     (0, [("CU", VBool true); ("R", VBool false); ("PV", VInt 3)], []);
     (0, [("CU", VBool false); ("R", VBool false); ("PV", VInt 3)], [("Q", VBool true); ("CV", VInt 3)]);
     (0, [("CU", VBool true); ("R", VBool true); ("PV", VInt 3)], [("Q", VBool false); ("CV", VInt 0)])]);
  (294, "CTD", [ (* ctd *)
     (0, [("CD", VBool true); ("LD", VBool true); ("PV", VInt 3)], []);
     (0, [("CD", VBool true); ("LD", VBool false); ("PV", VInt 3)], []);
     (0, [("CD", VBool false); ("LD", VBool false); ("PV", VInt 3)], [("Q", VBool false); ("CV", VInt 2)]);
     (0, [("CD", VBool true); ("LD", VBool false); ("PV", VInt 3)], []);
     (0, [("CD", VBool false); ("LD", VBool false); ("PV", VInt 3)], [("Q", VBool false); ("CV", VInt 1)]);
     (0, [("CD", VBool true); ("LD", VBool false); ("PV", VInt 3)], []);
     (0, [("CD", VBool false); ("LD", VBool false); ("PV", VInt 3)], [("Q", VBool true); ("CV", VInt 0)]);
     (0, [("CD", VBool true); ("LD", VBool false); ("PV", VInt 3)], []);
     (0, [("CD", VBool false); ("LD", VBool false); ("PV", VInt 3)], [("Q", VBool true); ("CV", VInt (-1))])]);
  (340, "CTD_INT", [ (* ctd_int *)
     (0, [("CD", VBool true); ("LD", VBool true); ("PV", VInt 3)], []);
     (0, [("CD", VBool true); ("LD", VBool false); ("PV", VInt 3)], []);
     (0, [("CD", VBool false); ("LD", VBool false); ("PV", VInt 3)], [("Q", VBool false); ("CV", VInt 2)]);
     (0, [("CD", VBool true); ("LD", VBool false); ("PV", VInt 3)], []);
     (0, [("CD", VBool false); ("LD", VBool false); ("PV", VInt 3)], [("Q", VBool false); ("CV", VInt 1)]);
     (0, [("CD", VBool true); ("LD", VBool false); ("PV", VInt 3)], []);
     (0, [("CD", VBool false); ("LD", VBool false); ("PV", VInt 3)], [("Q", VBool true); ("CV", VInt 0)]);
     (0, [("CD", VBool true); ("LD", VBool false); ("PV", VInt 3)], []);
     (0, [("CD", VBool false); ("LD", VBool false); ("PV", VInt 3)], [("Q", VBool true); ("CV", VInt (-1))])]);
  (386, "CTD_DINT", [ (* ctd_dint *)
     (0, [("CD", VBool true); ("LD", VBool true); ("PV", VInt 3)], []);
     (0, [("CD", VBool true); ("LD", VBool false); ("PV", VInt 3)], []);
     (0, [("CD", VBool false); ("LD", VBool false); ("PV", VInt 3)], [("Q", VBool false); ("CV", VInt 2)]);
     (0, [("CD", VBool true); ("LD", VBool false); ("PV", VInt 3)], []);
     (0, [("CD", VBool false); ("LD", VBool false); ("PV", VInt 3)], [("Q", VBool false); ("CV", VInt 1)]);
     (0, [("CD", VBool true); ("LD", VBool false); ("PV", VInt 3)], []);
     (0, [("CD", VBool false); ("LD", VBool false); ("PV", VInt 3)], [("Q", VBool true); ("CV", VInt 0)]);
     (0, [("CD", VBool true); ("LD", VBool false); ("PV", VInt 3)], []);
     (0, [("CD", VBool false); ("LD", VBool false); ("PV", VInt 3)], [("Q", VBool true); ("CV", VInt (-1))])]);
  (432, "CTD_UDINT", [ (* ctd_udint *)
     (0, [("CD", VBool true); ("LD", VBool true); ("PV", VInt 3)], []);
     (0, [("CD", VBool true); ("LD", VBool false); ("PV", VInt 3)], []);
     (0, [("CD", VBool false); ("LD", VBool false); ("PV", VInt 3)], [("Q", VBool false); ("CV", VInt 2)]);
     (0, [("CD", VBool true); ("LD", VBool false); ("PV", VInt 3)], []);
     (0, [("CD", VBool false); ("LD", VBool false); ("PV", VInt 3)], [("Q", VBool false); ("CV", VInt 1)]);
     (0, [("CD", VBool true); ("LD", VBool false); ("PV", VInt 3)], []);
     (0, [("CD", VBool false); ("LD", VBool false); ("PV", VInt 3)], [("Q", VBool true); ("CV", VInt 0)]);
     (0, [("CD", VBool true); ("LD", VBool false); ("PV", VInt 3)], []);
     (0, [("CD", VBool false); ("LD", VBool false); ("PV", VInt 3)], [("Q", VBool true); ("CV", VInt 0)])]);
  (478, "CTD_LINT", [ (* ctd_lint *)
     (0, [("CD", VBool true); ("LD", VBool true); ("PV", VInt 3)], []);
     (0, [("CD", VBool true); ("LD", VBool false); ("PV", VInt 3)], []);
     (0, [("CD", VBool false); ("LD", VBool false); ("PV", VInt 3)], [("Q", VBool false); ("CV", VInt 2)]);
     (0, [("CD", VBool true); ("LD", VBool false); ("PV", VInt 3)], []);
     (0, [("CD", VBool false); ("LD", VBool false); ("PV", VInt 3)], [("Q", VBool false); ("CV", VInt 1)]);
     (0, [("CD", VBool true); ("LD", VBool false); ("PV", VInt 3)], []);
     (0, [("CD", VBool false); ("LD", VBool false); ("PV", VInt 3)], [("Q", VBool true); ("CV", VInt 0)]);
     (0, [("CD", VBool true); ("LD", VBool false); ("PV", VInt 3)], []);
     (0, [("CD", VBool false); ("LD", VBool false); ("PV", VInt 3)], [("Q", VBool true); ("CV", VInt (-1))])]);
  (524, "CTD_ULINT", [ (* ctd_ulint *)
     (0, [("CD", VBool true); ("LD", VBool true); ("PV", VInt 3)], []);
     (0, [("CD", VBool true); ("LD", VBool false); ("PV", VInt 3)], []);
     (0, [("CD", VBool false); ("LD", VBool false); ("PV", VInt 3)], [("Q", VBool false); ("CV", VInt 2)]);
     (0, [("CD", VBool true); ("LD", VBool false); ("PV", VInt 3)], []);
     (0, [("CD", VBool false); ("LD", VBool false); ("PV", VInt 3)], [("Q", VBool false); ("CV", VInt 1)]);
     (0, [("CD", VBool true); ("LD", VBool false); ("PV", VInt 3)], []);
     (0, [("CD", VBool false); ("LD", VBool false); ("PV", VInt 3)], [("Q", VBool true); ("CV", VInt 0)]);
     (0, [("CD", VBool true); ("LD", VBool false); ("PV", VInt 3)], []);
     (0, [("CD", VBool false); ("LD", VBool false); ("PV", VInt 3)], [("Q", VBool true); ("CV", VInt 0)])]);
  (581, "CTUD", [ (* ctud *)
     (0, [("CU", VBool false); ("CD", VBool false); ("R", VBool false); ("LD", VBool true); ("PV", VInt 1)], [("QU", VBool true); ("QD", VBool false); ("CV", VInt 1)]);
     (0, [("CU", VBool true); ("CD", VBool true); ("R", VBool false); ("LD", VBool false); ("PV", VInt 1)], [("QU", VBool true); ("QD", VBool false); ("CV", VInt 1)]);
     (0, [("CU", VBool false); ("CD", VBool false); ("R", VBool false); ("LD", VBool false); ("PV", VInt 1)], []);
     (0, [("CU", VBool false); ("CD", VBool true); ("R", VBool false); ("LD", VBool false); ("PV", VInt 1)], [("QU", VBool false); ("QD", VBool true); ("CV", VInt 0)]);
     (0, [("CU", VBool true); ("CD", VBool false); ("R", VBool false); ("LD", VBool false); ("PV", VInt 1)], [("QU", VBool true); ("QD", VBool false); ("CV", VInt 1)]);
     (0, [("CU", VBool false); ("CD", VBool false); ("R", VBool true); ("LD", VBool false); ("PV", VInt 1)], [("QU", VBool false); ("QD", VBool true); ("CV", VInt 0)])]);
  (659, "CTUD_INT", [ (* ctud_int *)
     (0, [("CU", VBool false); ("CD", VBool false); ("R", VBool false); ("LD", VBool true); ("PV", VInt 1)], [("QU", VBool true); ("QD", VBool false); ("CV", VInt 1)]);
     (0, [("CU", VBool true); ("CD", VBool true); ("R", VBool false); ("LD", VBool false); ("PV", VInt 1)], [("QU", VBool true); ("QD", VBool false); ("CV", VInt 1)]);
     (0, [("CU", VBool false); ("CD", VBool false); ("R", VBool false); ("LD", VBool false); ("PV", VInt 1)], []);
     (0, [("CU", VBool false); ("CD", VBool true); ("R", VBool false); ("LD", VBool false); ("PV", VInt 1)], [("QU", VBool false); ("QD", VBool true); ("CV", VInt 0)]);
     (0, [("CU", VBool true); ("CD", VBool false); ("R", VBool false); ("LD", VBool false); ("PV", VInt 1)], [("QU", VBool true); ("QD", VBool false); ("CV", VInt 1)]);
     (0, [("CU", VBool false); ("CD", VBool false); ("R", VBool true); ("LD", VBool false); ("PV", VInt 1)], [("QU", VBool false); ("QD", VBool true); ("CV", VInt 0)])]);
  (737, "CTUD_DINT", [ (* ctud_dint *)
     (0, [("CU", VBool false); ("CD", VBool false); ("R", VBool false); ("LD", VBool true); ("PV", VInt 1)], [("QU", VBool true); ("QD", VBool false); ("CV", VInt 1)]);
     (0, [("CU", VBool true); ("CD", VBool true); ("R", VBool false); ("LD", VBool false); ("PV", VInt 1)], [("QU", VBool true); ("QD", VBool false); ("CV", VInt 1)]);
     (0, [("CU", VBool false); ("CD", VBool false); ("R", VBool false); ("LD", VBool false); ("PV", VInt 1)], []);
     (0, [("CU", VBool false); ("CD", VBool true); ("R", VBool false); ("LD", VBool false); ("PV", VInt 1)], [("QU", VBool false); ("QD", VBool true); ("CV", VInt 0)]);
     (0, [("CU", VBool true); ("CD", VBool false); ("R", VBool false); ("LD", VBool false); ("PV", VInt 1)], [("QU", VBool true); ("QD", VBool false); ("CV", VInt 1)]);
     (0, [("CU", VBool false); ("CD", VBool false); ("R", VBool true); ("LD", VBool false); ("PV", VInt 1)], [("QU", VBool false); ("QD", VBool true); ("CV", VInt 0)])]);
  (815, "CTUD_UDINT", [ (* ctud_udint *)
     (0, [("CU", VBool false); ("CD", VBool false); ("R", VBool false); ("LD", VBool true); ("PV", VInt 1)], [("QU", VBool true); ("QD", VBool false); ("CV", VInt 1)]);
     (0, [("CU", VBool true); ("CD", VBool true); ("R", VBool false); ("LD", VBool false); ("PV", VInt 1)], [("QU", VBool true); ("QD", VBool false); ("CV", VInt 1)]);
     (0, [("CU", VBool false); ("CD", VBool false); ("R", VBool false); ("LD", VBool false); ("PV", VInt 1)], []);
     (0, [("CU", VBool false); ("CD", VBool true); ("R", VBool false); ("LD", VBool false); ("PV", VInt 1)], [("QU", VBool false); ("QD", VBool true); ("CV", VInt 0)]);
     (0, [("CU", VBool true); ("CD", VBool false); ("R", VBool false); ("LD", VBool false); ("PV", VInt 1)], [("QU", VBool true); ("QD", VBool false); ("CV", VInt 1)]);
     (0, [("CU", VBool false); ("CD", VBool false); ("R", VBool true); ("LD", VBool false); ("PV", VInt 1)], [("QU", VBool false); ("QD", VBool true); ("CV", VInt 0)])]);
  (893, "CTUD_LINT", [ (* ctud_lint *)
     (0, [("CU", VBool false); ("CD", VBool false); ("R", VBool false); ("LD", VBool true); ("PV", VInt 1)], [("QU", VBool true); ("QD", VBool false); ("CV", VInt 1)]);
     (0, [("CU", VBool true); ("CD", VBool true); ("R", VBool false); ("LD", VBool false); ("PV", VInt 1)], [("QU", VBool true); ("QD", VBool false); ("CV", VInt 1)]);
     (0, [("CU", VBool false); ("CD", VBool false); ("R", VBool false); ("LD", VBool false); ("PV", VInt 1)], []);
     (0, [("CU", VBool false); ("CD", VBool true); ("R", VBool false); ("LD", VBool false); ("PV", VInt 1)], [("QU", VBool false); ("QD", VBool true); ("CV", VInt 0)]);
     (0, [("CU", VBool true); ("CD", VBool false); ("R", VBool false); ("LD", VBool false); ("PV", VInt 1)], [("QU", VBool true); ("QD", VBool false); ("CV", VInt 1)]);
     (0, [("CU", VBool false); ("CD", VBool false); ("R", VBool true); ("LD", VBool false); ("PV", VInt 1)], [("QU", VBool false); ("QD", VBool true); ("CV", VInt 0)])]);
  (971, "CTUD_ULINT", [ (* ctud_ulint *)
     (0, [("CU", VBool false); ("CD", VBool false); ("R", VBool false); ("LD", VBool true); ("PV", VInt 1)], [("QU", VBool true); ("QD", VBool false); ("CV", VInt 1)]);
     (0, [("CU", VBool true); ("CD", VBool true); ("R", VBool false); ("LD", VBool false); ("PV", VInt 1)], [("QU", VBool true); ("QD", VBool false); ("CV", VInt 1)]);
     (0, [("CU", VBool false); ("CD", VBool false); ("R", VBool false); ("LD", VBool false); ("PV", VInt 1)], []);
     (0, [("CU", VBool false); ("CD", VBool true); ("R", VBool false); ("LD", VBool false); ("PV", VInt 1)], [("QU", VBool false); ("QD", VBool true); ("CV", VInt 0)]);
     (0, [("CU", VBool true); ("CD", VBool false); ("R", VBool false); ("LD", VBool false); ("PV", VInt 1)], [("QU", VBool true); ("QD", VBool false); ("CV", VInt 1)]);
     (0, [("CU", VBool false); ("CD", VBool false); ("R", VBool true); ("LD", VBool false); ("PV", VInt 1)], [("QU", VBool false); ("QD", VBool true); ("CV", VInt 0)])])].
Example counters_tests_pass : all_pass counters_tests = true.
Proof. vm_compute. reflexivity. Qed.

(** /repo/tests/flank_tests.rs, at the lines given. *)
Definition flank_tests : list (Z * string * list (Z * list (string * fval) * list (string * fval))) := [
  (20, "R_TRIG", [ (* rising_edge_smoke_test *)
     (0, [("CLK", VBool true)], [("Q", VBool true)]);
     (0, [("CLK", VBool true)], [("Q", VBool false)])]);
  (47, "F_TRIG", [ (* falling_edge_smoke_test *)
     (0, [("CLK", VBool true)], [("Q", VBool false)]);
     (0, [("CLK", VBool false)], [("Q", VBool true)])])].
Example flank_tests_pass : all_pass flank_tests = true.
Proof. vm_compute. reflexivity. Qed.

(** /repo/tests/bistable_functionblocks_tests.rs, at the lines given. *)
Definition bistable_functionblocks_tests : list (Z * string * list (Z * list (string * fval) * list (string * fval))) := [
  (25, "SR", [ (* sr *)
     (0, [("SET1", VBool true); ("RESET", VBool true)], [("Q1", VBool true)]);
     (0, [("SET1", VBool false); ("RESET", VBool true)], [("Q1", VBool false)]);
     (0, [("SET1", VBool false); ("RESET", VBool false)], [("Q1", VBool false)]);
     (0, [("SET1", VBool true); ("RESET", VBool false)], [("Q1", VBool true)]);
     (0, [("SET1", VBool true); ("RESET", VBool true)], [("Q1", VBool true)]);
     (0, [("SET1", VBool true); ("RESET", VBool false)], [("Q1", VBool true)]);
     (0, [("SET1", VBool false); ("RESET", VBool false)], [("Q1", VBool true)]);
     (0, [("SET1", VBool false); ("RESET", VBool true)], []);
     (0, [("SET1", VBool false); ("RESET", VBool true)], [("Q1", VBool false)])]);
  (69, "RS", [ (* rs *)
     (0, [("SET", VBool true); ("RESET1", VBool true)], [("Q1", VBool false)]);
     (0, [("SET", VBool false); ("RESET1", VBool false)], [("Q1", VBool false)]);
     (0, [("SET", VBool true); ("RESET1", VBool false)], [("Q1", VBool true)]);
     (0, [("SET", VBool false); ("RESET1", VBool true)], [("Q1", VBool false)]);
     (0, [("SET", VBool false); ("RESET1", VBool true)], [("Q1", VBool false)]);
     (0, [("SET", VBool true); ("RESET1", VBool false)], []);
     (0, [("SET", VBool true); ("RESET1", VBool false)], [("Q1", VBool true)]);
     (0, [("SET", VBool false); ("RESET1", VBool false)], [("Q1", VBool true)]);
     (0, [("SET", VBool true); ("RESET1", VBool true)], [("Q1", VBool false)])])].
Example bistable_functionblocks_tests_pass : all_pass bistable_functionblocks_tests = true.
Proof. vm_compute. reflexivity. Qed.

(** /repo/tests/timer_tests.rs, at the lines given. *)
Definition timer_tests : list (Z * string * list (Z * list (string * fval) * list (string * fval))) := [
  (57, "TP", [ (* tp_true_for_time *)
     (0, [("IN", VBool true); ("PT", VInt 10000000)], [("Q", VBool true); ("ET", VInt 0)]);
     (5000000, [("IN", VBool true); ("PT", VInt 10000000)], [("Q", VBool true); ("ET", VInt 5000000)]);
     (10000000, [("IN", VBool true); ("PT", VInt 10000000)], [("Q", VBool true); ("ET", VInt 10000000)]);
     (15000000, [("IN", VBool true); ("PT", VInt 10000000)], [("Q", VBool false); ("ET", VInt 10000000)]);
     (20000000, [("IN", VBool false); ("PT", VInt 10000000)], [("Q", VBool false); ("ET", VInt 0)])]);
  (107, "TP", [ (* tp_does_not_retrigger_on_consecutive_input *)
     (0, [("IN", VBool true); ("PT", VInt 10000000)], [("Q", VBool true); ("ET", VInt 0)]);
     (10000000, [("IN", VBool true); ("PT", VInt 10000000)], [("Q", VBool true); ("ET", VInt 10000000)]);
     (15000000, [("IN", VBool true); ("PT", VInt 10000000)], [("Q", VBool false); ("ET", VInt 10000000)]);
     (20000000, [("IN", VBool true); ("PT", VInt 10000000)], [("Q", VBool false); ("ET", VInt 10000000)])]);
  (153, "TP", [ (* tp_not_interrupted_by_signal_change *)
     (0, [("IN", VBool true); ("PT", VInt 10000000)], [("Q", VBool true); ("ET", VInt 0)]);
     (1000000, [("IN", VBool false); ("PT", VInt 10000000)], [("Q", VBool true); ("ET", VInt 1000000)]);
     (2000000, [("IN", VBool true); ("PT", VInt 10000000)], [("Q", VBool true); ("ET", VInt 2000000)])]);
  (200, "TON", [ (* ton_returns_true_after_time_preset *)
     (0, [("IN", VBool true); ("PT", VInt 10000000)], [("Q", VBool false); ("ET", VInt 0)]);
     (5000000, [("IN", VBool true); ("PT", VInt 10000000)], [("Q", VBool false); ("ET", VInt 5000000)]);
     (10000000, [("IN", VBool true); ("PT", VInt 10000000)], [("Q", VBool false); ("ET", VInt 10000000)]);
     (15000000, [("IN", VBool true); ("PT", VInt 10000000)], [("Q", VBool true); ("ET", VInt 10000000)]);
     (20000000, [("IN", VBool false); ("PT", VInt 10000000)], [("Q", VBool false); ("ET", VInt 0)])]);
  (253, "TON", [ (* ton_counts_elapsed_time_while_waiting *)
     (0, [("IN", VBool true); ("PT", VInt 10000000)], [("Q", VBool false); ("ET", VInt 0)]);
     (5000000, [("IN", VBool true); ("PT", VInt 10000000)], [("Q", VBool false); ("ET", VInt 5000000)]);
     (6000000, [("IN", VBool false); ("PT", VInt 10000000)], [("Q", VBool false); ("ET", VInt 0)])]);
  (294, "TON", [ (* ton_waits_again_after_turining_off *)
     (0, [("IN", VBool true); ("PT", VInt 9000000)], [("Q", VBool false); ("ET", VInt 0)]);
     (5000000, [("IN", VBool true); ("PT", VInt 9000000)], [("Q", VBool false); ("ET", VInt 5000000)]);
     (10000000, [("IN", VBool true); ("PT", VInt 9000000)], [("Q", VBool true); ("ET", VInt 9000000)]);
     (15000000, [("IN", VBool false); ("PT", VInt 9000000)], [("Q", VBool false); ("ET", VInt 0)]);
     (20000000, [("IN", VBool true); ("PT", VInt 9000000)], [("Q", VBool false); ("ET", VInt 0)]);
     (30000000, [("IN", VBool true); ("PT", VInt 9000000)], [("Q", VBool true); ("ET", VInt 9000000)])]);
  (353, "TOF", [ (* toff_starts_timer_after_input_is_off *)
     (0, [("IN", VBool true); ("PT", VInt 9000000)], [("Q", VBool true); ("ET", VInt 0)]);
     (10000000, [("IN", VBool false); ("PT", VInt 9000000)], [("Q", VBool true); ("ET", VInt 0)]);
     (15000000, [("IN", VBool false); ("PT", VInt 9000000)], [("Q", VBool true); ("ET", VInt 5000000)])]);
  (393, "TOF", [ (* toff_runs_for_preset_time *)
     (0, [("IN", VBool true); ("PT", VInt 9000000)], [("Q", VBool true); ("ET", VInt 0)]);
     (10000000, [("IN", VBool false); ("PT", VInt 9000000)], [("Q", VBool true); ("ET", VInt 0)]);
     (20000000, [("IN", VBool false); ("PT", VInt 9000000)], [("Q", VBool false); ("ET", VInt 9000000)]);
     (25000000, [("IN", VBool true); ("PT", VInt 9000000)], [("Q", VBool true); ("ET", VInt 0)])]);
  (441, "TOF", [ (* toff_keeps_returning_true_if_input_returns_to_true *)
     (0, [("IN", VBool true); ("PT", VInt 9000000)], [("Q", VBool true); ("ET", VInt 0)]);
     (10000000, [("IN", VBool false); ("PT", VInt 9000000)], [("Q", VBool true); ("ET", VInt 0)]);
     (15000000, [("IN", VBool false); ("PT", VInt 9000000)], [("Q", VBool true); ("ET", VInt 5000000)]);
     (16000000, [("IN", VBool true); ("PT", VInt 9000000)], [("Q", VBool true); ("ET", VInt 0)]);
     (20000000, [("IN", VBool false); ("PT", VInt 9000000)], [("Q", VBool true); ("ET", VInt 0)]);
     (25000000, [("IN", VBool false); ("PT", VInt 9000000)], [("Q", VBool true); ("ET", VInt 5000000)])])].
Example timer_tests_pass : all_pass timer_tests = true.
Proof. vm_compute. reflexivity. Qed.
