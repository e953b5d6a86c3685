(** C92: counters of different element types agree while they stay in both ranges. *)
From Coq Require Import String ZArith List Bool Lia.
From Verif Require Import Base ModelFB ModelCounters ModelTimers ModelLayout ModelMachine
  SpecFB SpecLayout SpecMachine ProofMachine ProofMachine2 ProofAgree ProofAgree2.
Import ListNotations.
Open Scope list_scope.
Open Scope string_scope.
Open Scope Z_scope.

(** ** C92 *)

(** Two up counters of any names, anywhere in memory, in any build profile: the same calls give
    the same Q and CV as long as neither CV leaves the range of the other counter's type. *)
Theorem C92_up_counters : forall r p q m i j t u h,
  In (i_name i, t) up_counters -> In (i_name j, u) up_counters ->
  zeroed r m i -> zeroed r m j ->
  Forall (fun x => in_ity t (cui_pv x) /\ in_ity u (cui_pv x)) h ->
  cv_stays_in u r p m i up_program h -> cv_stays_in t r q m j up_program h ->
  outputs r i ["Q"; "CV"] (run r p m (up_program i h)) =
  outputs r j ["Q"; "CV"] (run r q m (up_program j h)).
Proof. exact up_agree. Qed.
Print Assumptions C92_up_counters.

Theorem C92_down_counters : forall r p q m i j t u h,
  In (i_name i, t) down_counters -> In (i_name j, u) down_counters ->
  zeroed r m i -> zeroed r m j ->
  Forall (fun x => in_ity t (cdi_pv x) /\ in_ity u (cdi_pv x)) h ->
  cv_stays_in u r p m i down_program h -> cv_stays_in t r q m j down_program h ->
  outputs r i ["Q"; "CV"] (run r p m (down_program i h)) =
  outputs r j ["Q"; "CV"] (run r q m (down_program j h)).
Proof. exact down_agree. Qed.
Print Assumptions C92_down_counters.

Theorem C92_up_down_counters : forall r p q m i j t u h,
  In (i_name i, t) up_down_counters -> In (i_name j, u) up_down_counters ->
  zeroed r m i -> zeroed r m j ->
  Forall (fun x => in_ity t (cudi_pv x) /\ in_ity u (cudi_pv x)) h ->
  cv_stays_in u r p m i up_down_program h -> cv_stays_in t r q m j up_down_program h ->
  outputs r i ["QU"; "QD"; "CV"] (run r p m (up_down_program i h)) =
  outputs r j ["QU"; "QD"; "CV"] (run r q m (up_down_program j h)).
Proof. exact up_down_agree. Qed.
Print Assumptions C92_up_down_counters.

(** Up counters fed for less than 32767 calls meet the condition. *)
Theorem C92_short_histories : forall r p m i t u h,
  In (i_name i, t) up_counters -> In u counter_types -> zeroed r m i ->
  Forall (fun x => in_ity t (cui_pv x)) h -> Z.of_nat (length h) <= 32767 ->
  cv_stays_in u r p m i up_program h.
Proof. exact short_up. Qed.
Print Assumptions C92_short_histories.

(** The element types of C05 to C08 are those of the blocks that a program can declare. *)
Theorem C05_every_counter : forall n t,
  In (n, t) (up_counters ++ down_counters ++ up_down_counters) -> In t counter_types.
Proof.
  intros n t H. cbn in H. unfold counter_types. cbn.
  repeat (destruct H as [[= _ <-]|H]; [tauto|]). contradiction.
Qed.
Print Assumptions C05_every_counter.

(** The condition holds for a concrete history: check each prefix. *)
Ltac check_prefixes :=
  intros h1 h2 v E O;
  match goal with h := ?x |- _ => unfold h in E; clear h end;
  repeat (destruct h1 as [|x h1]; cbn [app] in E;
    [vm_compute in O; injection O as <-; split; vm_compute; discriminate
    |first [discriminate E | injection E as <- E]]).

Example C92_up_counters_case :
  let h := [CtuIn true false 2; CtuIn false false 2; CtuIn true false 2] in
  In ("CTU", i16) up_counters /\ In ("CTU_ULINT", u64) up_counters /\
  zeroed Niche (fun _ => 0) (Inst "CTU" 0) /\
  cv_stays_in u64 Niche Debug (fun _ => 0) (Inst "CTU" 0) up_program h /\
  cv_stays_in i16 Niche Release (fun _ => 0) (Inst "CTU_ULINT" 64) up_program h /\
  outputs Niche (Inst "CTU_ULINT" 64) ["Q"; "CV"]
    (run Niche Release (fun _ => 0) (up_program (Inst "CTU_ULINT" 64) h)) =
  Ok [Ok (VBool true); Ok (VInt 2)].
Proof.
  intros h. split; [cbn; tauto|]. split; [cbn; tauto|]. split; [intros a _; reflexivity|].
  split; [check_prefixes|]. split; [check_prefixes|]. vm_compute. reflexivity.
Qed.

(** A down counter loaded with 3 and counted once; and one whose CV becomes negative, which
    leaves the range of the unsigned types. *)
Example C92_down_counters_case :
  let h := [CtdIn false true 3; CtdIn true false 0] in
  let h' := [CtdIn true false 0] in
  cv_stays_in u32 Niche Debug (fun _ => 0) (Inst "CTD_DINT" 0) down_program h /\
  cv_stays_in i32 Niche Debug (fun _ => 0) (Inst "CTD_UDINT" 0) down_program h /\
  outputs Niche (Inst "CTD_DINT" 0) ["Q"; "CV"]
    (run Niche Debug (fun _ => 0) (down_program (Inst "CTD_DINT" 0) h)) =
  Ok [Ok (VBool false); Ok (VInt 2)] /\
  outputs Niche (Inst "CTD_DINT" 0) ["Q"; "CV"]
    (run Niche Debug (fun _ => 0) (down_program (Inst "CTD_DINT" 0) h')) =
  Ok [Ok (VBool true); Ok (VInt (-1))] /\
  outputs Niche (Inst "CTD_UDINT" 0) ["Q"; "CV"]
    (run Niche Debug (fun _ => 0) (down_program (Inst "CTD_UDINT" 0) h')) =
  Ok [Ok (VBool true); Ok (VInt 0)].
Proof.
  intros h h'. split; [clear h'; check_prefixes|]. split; [clear h'; check_prefixes|].
  split; [|split]; vm_compute; reflexivity.
Qed.

Example C92_up_down_counters_case :
  let h := [CtudIn false false false true 3; CtudIn false true false false 3;
            CtudIn true false false false 2] in
  cv_stays_in u32 Tagged Debug (fun _ => 0) (Inst "CTUD_LINT" 0) up_down_program h /\
  cv_stays_in i64 Tagged Debug (fun _ => 0) (Inst "CTUD_UDINT" 0) up_down_program h /\
  outputs Tagged (Inst "CTUD_LINT" 0) ["QU"; "QD"; "CV"]
    (run Tagged Debug (fun _ => 0) (up_down_program (Inst "CTUD_LINT" 0) h)) =
  Ok [Ok (VBool true); Ok (VBool false); Ok (VInt 3)].
Proof.
  intros h. split; [check_prefixes|]. split; [check_prefixes|]. vm_compute. reflexivity.
Qed.

Example C92_short_histories_case :
  Z.of_nat (length (repeat (CtuIn true false 5) 32767)) <= 32767.
Proof. vm_compute. discriminate. Qed.
