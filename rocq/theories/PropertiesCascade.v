(** Property C117: counters and edge triggers wired together. *)
From Coq Require Import ZArith List Bool Lia.
From Verif Require Import Base ModelFB ModelCounters SpecFB SpecCascade ProofCascade.
Import ListNotations.
Open Scope Z_scope.

(** low(CU := x, R := low.Q, PV := n); high(CU := low.Q): if x is nowhere FALSE for a single cycle only,
    the two counters are the quotient and the remainder of the number of rising edges, and low.Q is TRUE
    in the cycles of every n-th edge. *)
Theorem C117_cascade : forall p tl th n limit, In tl counter_types -> In th counter_types -> 1 <= n <= imax tl ->
  forall xs, no_short_gap xs -> exists low high,
    cascade p tl th n limit ctu_default ctu_default xs = Ok (low, high) /\
    let e := rising_edges false xs in
    ctu_cv high = Z.min (imax th) (e / n) /\
    ctu_q low = rises xs && (e mod n =? 0) /\
    ctu_cv low = (if ctu_q low then n else e mod n).
Proof. exact cascade_total. Qed.
Print Assumptions C117_cascade.
Ltac each_gap a E := repeat (destruct a as [|? a]; [discriminate E|]; try discriminate E; injection E as _ E).
Definition seven : list bool :=
  [true; false; false; true; true; false; false; true; false; false; true; false; false; true; true; false;
   false; true; false; false; true].
Example C117_cascade_case : no_short_gap seven /\ rising_edges false seven = 7 /\
  exists low high, cascade Debug i16 u64 3 0 ctu_default ctu_default seven = Ok (low, high) /\
    ctu_cv high = 2 /\ ctu_cv low = 1 /\ ctu_q low = false.
Proof.
  split; [|split; [reflexivity|eexists; eexists; split; [vm_compute; reflexivity|repeat split]]].
  intros a b E. unfold seven in E.
  each_gap a E.
Qed.
(** Whatever x does, no edge is counted twice. *)
Theorem C117_at_most : forall p tl th n limit, In tl counter_types -> In th counter_types -> 1 <= n <= imax tl ->
  forall xs, exists low high k,
    cascade p tl th n limit ctu_default ctu_default xs = Ok (low, high) /\
    ctu_cv high = Z.min (imax th) k /\ n * k + (if ctu_q low then 0 else ctu_cv low) <= rising_edges false xs.
Proof. exact cascade_at_most. Qed.
Print Assumptions C117_at_most.
(** The condition on x is needed: of pulses that follow each other as fast as possible one in n + 1 is
    lost, so that the first counter divides by n + 1 and not by n. *)
Theorem C117_fast : forall p tl th n limit, In tl counter_types -> In th counter_types -> 1 <= n <= imax tl ->
  forall m, exists low high,
    cascade p tl th n limit ctu_default ctu_default (fast_pulses m) = Ok (low, high) /\
    rising_edges false (fast_pulses m) = Z.of_nat m /\
    ctu_cv high = Z.min (imax th) ((Z.of_nat m + 1) / (n + 1)).
Proof. exact cascade_fast_high. Qed.
Print Assumptions C117_fast.
Example C117_fast_case : exists low high,
  cascade Debug i16 i16 2 0 ctu_default ctu_default (fast_pulses 6) = Ok (low, high) /\ ctu_cv high = 2.
Proof. eexists. eexists. split; vm_compute; reflexivity. Qed.

(** down(CD := x, LD := down.Q, PV := n): once loaded, in the second cycle, it counts down and loads
    itself again at every n-th edge. *)
Theorem C117_reloading : forall p t n x0, In t counter_types -> 1 <= n <= imax t ->
  forall xs, no_short_gap (x0 :: x0 :: xs) -> exists s,
    reloading p t n ctd_default (x0 :: x0 :: xs) = Ok s /\
    let e := rising_edges x0 xs in
    ctd_q s = rises (x0 :: x0 :: xs) && (e mod n =? 0) /\
    ctd_cv s = (if ctd_q s then 0 else n - e mod n).
Proof. exact reloading_total. Qed.
Print Assumptions C117_reloading.
Definition four : list bool := [false; false; true; false; false; true; false; false; true; false; false; true].
Example C117_reloading_case : no_short_gap four /\ rising_edges false (tl (tl four)) = 4 /\
  exists s, reloading Release u32 3 ctd_default four = Ok s /\ ctd_cv s = 2 /\ ctd_q s = false.
Proof.
  split; [|split; [reflexivity|eexists; split; [vm_compute; reflexivity|split; reflexivity]]].
  intros a b E. unfold four in E.
  each_gap a E.
Qed.

(** The edges of edges: a pulse of R_TRIG or F_TRIG lasts one cycle, so R_TRIG passes it on unchanged and
    F_TRIG passes it on one cycle later. *)
Theorem C117_edge_of_edge : forall xs,
  triggers_in_series R_TRIG R_TRIG xs = trig_outputs R_TRIG trigger_default xs /\
  triggers_in_series F_TRIG R_TRIG xs = trig_outputs F_TRIG trigger_default xs /\
  triggers_in_series R_TRIG F_TRIG xs = firstn (length xs) (false :: trig_outputs R_TRIG trigger_default xs).
Proof. intros xs. split; [apply rr_spec|]. split; [apply rf_spec|apply fr_spec]. Qed.
Print Assumptions C117_edge_of_edge.
Example C117_edge_case : triggers_in_series R_TRIG F_TRIG [true; true; false; true] = [false; true; false; false].
Proof. reflexivity. Qed.
(** Together the two triggers report every change of x, … *)
Theorem C117_every_change : forall xs,
  map (fun c => fst c || snd c)
    (combine (trig_outputs R_TRIG trigger_default xs) (trig_outputs F_TRIG trigger_default xs)) =
  map (fun c => xorb (fst c) (snd c)) (combine (false :: xs) xs).
Proof. intros xs. exact (each_call_changes xs trigger_default). Qed.
Print Assumptions C117_every_change.
(** … and either bistable, set by the one and reset by the other, rebuilds x. *)
Theorem C117_rebuilt : forall b, In b [SR; RS] -> forall s xs, sr_output s = false ->
  rebuilt b s xs = last xs false.
Proof. exact rebuilt_spec. Qed.
Print Assumptions C117_rebuilt.
Example C117_rebuilt_case : rebuilt RS (SrParams false false false) [false; true; true; false; true] = true.
Proof. reflexivity. Qed.
