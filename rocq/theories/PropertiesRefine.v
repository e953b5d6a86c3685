(** C124: programs do what the reference says: values of expressions, counts, edges and delays, told without bytes and
    memory. *)
From Coq Require Import String ZArith List Bool Lia Reals.
From Verif Require Import Base ModelFB ModelCounters ModelTimers ModelLayout ModelMachine ModelFloat ModelText ModelString ModelExtra ModelLink ModelLib ModelApi
  SpecFB SpecLayout SpecMachine SpecScalar SpecDate SpecText SpecLink SpecLib SpecSafe SpecApi SpecCall SpecExpr SpecTerm SpecType SpecProgram SpecRefine
  ProofSafe2 ProofRefine ProofRefine4 ProofRefine5.
Import ListNotations.
Open Scope string_scope.
Open Scope list_scope.
Open Scope Z_scope.

(** A program that has a meaning runs without abort and without undefined behaviour, and ends with the variables and the
    outputs of its instances that its meaning says. *)
Theorem C124_refines : forall rp P insts r m s qs s' l, started rp insts m qs -> represents r s -> does P insts s [] qs s' l ->
  exists r' m' log, executes_all rp P r m qs = Ok (r', m', log) /\ represents r' s' /\ outputs_shown rp m' insts l.
Proof. exact program_refines. Qed.
Print Assumptions C124_refines.
(** A program that the reference says is stopped aborts. *)
Theorem C124_stops : forall rp P insts r m s qs, started rp insts m qs -> represents r s -> is_stopped P insts s [] qs ->
  executes_all rp P r m qs = Panic.
Proof. exact program_stops. Qed.
Print Assumptions C124_stops.
(** A program has at most one meaning. *)
Theorem C124_unique : forall rp P insts r m s qs s1 l1 s2 l2, started rp insts m qs -> represents r s ->
  does P insts s [] qs s1 l1 -> does P insts s [] qs s2 l2 -> forall x, s1 x = s2 x.
Proof. exact program_unique. Qed.
Print Assumptions C124_unique.
(** Every typed program with integers, bit strings, times, dates and function blocks has a meaning or is stopped; so for these the reference says exactly what happens. *)
Theorem C124_complete : forall rp P G insts r m s qs, started rp insts m qs -> represents r s -> stores G s ->
  Forall (fun q => ordinary G insts (fst q)) qs ->
  match executes_all rp P r m qs with
  | Ok (r', m', _) => exists s' l, does P insts s [] qs s' l /\ represents r' s' /\ outputs_shown rp m' insts l
  | Panic => is_stopped P insts s [] qs
  | Ub => False
  end.
Proof.
  intros rp P G insts r m s qs ST R S F. destruct (program_complete rp P G insts r m s qs ST R S F) as [(s' & l & D)|B].
  - destruct (program_refines rp P insts r m s qs s' l ST R D) as (r' & m' & log & -> & A & O). exists s', l. exact (conj D (conj A O)).
  - now rewrite (program_stops rp P insts r m s qs ST R B).
Qed.
Print Assumptions C124_complete.

(** * Cases *)
Definition counter5 : instance := ModelMachine.Inst "CTU_INT" 1000.
Definition timer5 : instance := ModelMachine.Inst "TON" 1016.
Definition insts5 : list instance := [counter5; timer5].
Definition ab : list Z := [0x61; 0x62].
Definition vars5 : env value :=
  [("go", (S_BOOL, VZ 1)); ("off", (S_BOOL, VZ 0)); ("limit", (S_INT, VZ 1)); ("count", (S_INT, VZ 0)); ("full", (S_BOOL, VZ 0));
   ("wide", (S_DINT, VZ 0)); ("delay", (S_TIME, VZ 10)); ("late", (S_BOOL, VZ 0)); ("word", (S_STRING, VS (ab ++ repeat 0 79)))].
Definition start5 : store := fun x =>
  match find (fun y => String.eqb (fst y) x)
    [("go", Whole S_BOOL 1); ("off", Whole S_BOOL 0); ("limit", Whole S_INT 1); ("count", Whole S_INT 0); ("full", Whole S_BOOL 0);
     ("wide", Whole S_DINT 0); ("delay", Whole S_TIME 10); ("late", Whole S_BOOL 0); ("word", Text STRING ab)] with
  | Some y => Some (snd y)
  | None => None
  end.
Definition qs5 : list (statement * (Z * Z)) :=
  [(Use counter5 [("CU", Arg "go"); ("R", Arg "off"); ("PV", Arg "limit")] [("count", "CV"); ("full", "Q")], (1, 1));
   (Let "wide" (Call "MAX" [Arg "count"; Arg "limit"]), (2, 2));
   (Use timer5 [("IN", Arg "full"); ("PT", Arg "delay")] [("late", "Q")], (5, 5));
   (Use timer5 [("IN", Arg "full"); ("PT", Arg "delay")] [("late", "Q")], (20, 20));
   (Let "word" (Call "CONCAT" [Arg "word"; Arg "word"]), (21, 21))].
Example C124_case_started : started Tagged insts5 (fun _ => 0) qs5.
Proof.
  split; [split|].
  - intros i H. cbn in H. destruct H as [<-|[<-|[]]]; vm_compute; discriminate.
  - assert (S1 : size_of Tagged counter5 = 10) by (vm_compute; reflexivity). assert (S2 : size_of Tagged timer5 = 64) by (vm_compute; reflexivity).
    intros i j a I J. unfold occupies. cbn [List.In insts5] in I, J.
    destruct I as [<-|[<-|[]]], J as [<-|[<-|[]]]; trivial; rewrite ?S1, ?S2; cbn [i_base counter5 timer5]; lia.
  - split; [intros i _ a _; reflexivity|]. split; [now left|]. vm_compute. intuition discriminate.
Qed.
Lemma find_cases : forall (A : Type) x (l : list (string * A)) m,
  match find (fun y => String.eqb (fst y) x) l with Some y => Some (snd y) | None => None end = Some m -> List.In (x, m) l.
Proof.
  intros A x l m H. induction l as [|[y a] l IH]; [discriminate H|]. cbn [find fst] in H. destruct (String.eqb_spec y x) as [->|N]; [injection H as <-; now left|right; now apply IH].
Qed.
Example C124_case_represents : represents vars5 start5.
Proof.
  intros x m H. apply find_cases in H. cbn [List.In] in H.
  repeat (destruct H as [H|H]; [injection H as <- <-; first
    [eexists; split; [reflexivity|]; split; [reflexivity|unfold of_type; cbn; lia]
    |exists (S_STRING, VS (ab ++ repeat 0 79)); split; [reflexivity|]; exists (ab ++ repeat 0 79); split; [reflexivity|]]|]); [|contradiction].
  split; [repeat constructor; vm_compute; intuition discriminate|]. exists (repeat 0 78). reflexivity.
Qed.
Ltac known := apply den_variable; reflexivity.
Ltac args := repeat (apply Forall2_cons; [known|]); apply Forall2_nil.
(** The counter counts one edge and is full; the on-delay of 10 has passed at 20; the text is doubled. *)
Example C124_case_does : exists s' l, does (a_platform Debug) insts5 start5 [] qs5 s' l /\
  s' "count" = Some (Whole S_INT 1) /\ s' "wide" = Some (Whole S_DINT 1) /\ s' "late" = Some (Whole S_BOOL 1) /\ s' "word" = Some (Text STRING (ab ++ ab)) /\
  events_of timer5 l = [Event [1; 10] 5 5; Event [1; 10] 20 20].
Proof.
  do 2 eexists. split; [|].
  - apply do_cons with (s1 := assign "full" (Whole S_BOOL 1) (assign "count" (Whole S_INT 1) start5)) (l1 := [(counter5, Event [1; 0; 1] 1 1)]).
    { apply (do_use _ _ _ [] counter5 _ _ [("CU", S_BOOL); ("R", S_BOOL); ("PV", S_INT)] [("Q", S_BOOL); ("CV", S_INT)] [1; 0; 1] 1 1); [now left|apply (if_up _ i16); cbn; tauto|reflexivity|cbn [map snd combine fst]; args|reflexivity|intros H; cbn in H; intuition discriminate|].
      assert (C : up_count i16 (map up_input [Event [1; 0; 1] 1 1]) 1) by exact (uc_call i16 [] 0 _ (uc_start i16)).
      apply as_one with (m := Whole S_INT 1) (m0 := Whole S_INT 0); [apply (sh_up _ i16 S_INT); [cbn; tauto|cbn; tauto|exact C]|reflexivity|reflexivity|].
      apply as_one with (m := Whole S_BOOL 1) (m0 := Whole S_BOOL 0); [|reflexivity|reflexivity|constructor].
      exact (sh_up_q "CTU_INT" i16 [] (Event [1; 0; 1] 1 1) 1 ltac:(cbn; tauto) C). }
    apply do_cons with (s1 := assign "wide" (Whole S_DINT 1) (assign "full" (Whole S_BOOL 1) (assign "count" (Whole S_INT 1) start5))) (l1 := [(counter5, Event [1; 0; 1] 1 1)]).
    { apply (do_let _ _ _ _ _ _ (Whole S_INT 1) (Whole S_DINT 0)); [|reflexivity|apply bc_whole; [cbn; tauto|cbn; tauto|unfold of_type; cbn; lia|reflexivity]].
      apply (den_call _ _ _ _ (map (Whole S_INT) [1; 1])); [cbn [map]; args|]. apply y_max; [cbn; tauto|]. split; [now left|]. intros z [<-|[<-|[]]]; lia. }
    apply do_cons with (s1 := assign "late" (Whole S_BOOL 0) (assign "wide" (Whole S_DINT 1) (assign "full" (Whole S_BOOL 1) (assign "count" (Whole S_INT 1) start5))))
      (l1 := [(counter5, Event [1; 0; 1] 1 1); (timer5, Event [1; 10] 5 5)]).
    { apply (do_use _ _ _ [(counter5, Event [1; 0; 1] 1 1)] timer5 _ _ [("IN", S_BOOL); ("PT", S_TIME)] [("Q", S_BOOL); ("ET", S_TIME)] [1; 10] 5 5);
        [right; now left|apply if_timer; cbn; tauto|reflexivity|cbn [map snd combine fst]; args|reflexivity|intros H; cbn in H; intuition discriminate|].
      apply as_one with (m := Whole S_BOOL 0) (m0 := Whole S_BOOL 0); [|reflexivity|reflexivity|constructor].
      apply (sh_on "TON" [] (Event [1; 10] 5 5)). cbn; tauto. }
    apply do_cons with (s1 := assign "late" (Whole S_BOOL 1) (assign "late" (Whole S_BOOL 0) (assign "wide" (Whole S_DINT 1) (assign "full" (Whole S_BOOL 1) (assign "count" (Whole S_INT 1) start5)))))
      (l1 := [(counter5, Event [1; 0; 1] 1 1); (timer5, Event [1; 10] 5 5); (timer5, Event [1; 10] 20 20)]).
    { apply (do_use _ _ _ [(counter5, Event [1; 0; 1] 1 1); (timer5, Event [1; 10] 5 5)] timer5 _ _ [("IN", S_BOOL); ("PT", S_TIME)] [("Q", S_BOOL); ("ET", S_TIME)] [1; 10] 20 20);
        [right; now left|apply if_timer; cbn; tauto|reflexivity|cbn [map snd combine fst]; args|reflexivity|intros H; cbn in H; intuition discriminate|].
      apply as_one with (m := Whole S_BOOL 1) (m0 := Whole S_BOOL 0); [|reflexivity|reflexivity|constructor].
      apply (sh_on "TON" [Event [1; 10] 5 5] (Event [1; 10] 20 20)). cbn; tauto. }
    eapply do_cons; [|constructor].
    apply (do_let _ _ _ _ _ _ (Text STRING (ab ++ ab)) (Text STRING ab) (Text STRING (ab ++ ab))); [|reflexivity|exact (bc_same (Text STRING (ab ++ ab)))].
    apply (den_call _ _ _ _ (map (Text STRING) [ab; ab])); [cbn [map]; args|]. apply (y_concat _ STRING [ab; ab]); [discriminate|]. unfold short. vm_compute. lia.
  - split; [reflexivity|]. split; [reflexivity|]. split; [reflexivity|]. split; reflexivity.
Qed.
(** It is so. *)
Example C124_case_runs : omap (fun '(r, m, log) => (map (fun x => get x r) ["count"; "wide"; "late"; "full"], omap (fun tv => match snd tv with VS d => firstn 5 d | _ => [] end) (get "word" r), st_read Tagged m timer5 "ET"))
    (executes_all Tagged (a_platform Debug) vars5 (fun _ => 0) qs5) =
  Ok ([Ok (S_INT, VZ 1); Ok (S_DINT, VZ 1); Ok (S_BOOL, VZ 1); Ok (S_BOOL, VZ 1)], Ok (ab ++ ab ++ [0]), Ok (ModelMachine.VInt 10)).
Proof. vm_compute. reflexivity. Qed.
(** A multiple of a time that is out of range stops the program, after an assignment went well. *)
Definition qs6 : list (statement * (Z * Z)) :=
  [(Let "delay" (Call "MUL" [Arg "delay"; Arg "limit"]), (1, 1));
   (Use timer5 [("IN", Arg "go"); ("PT", Call "MUL" [Arg "delay"; Arg "big"])] [("late", "Q")], (5, 5))].
Definition start6 : store := assign "big" (Whole S_LINT (2 ^ 62)) start5.
Example C124_case_stops : is_stopped (a_platform Debug) insts5 start6 [] qs6.
Proof.
  eapply stop_later.
  - apply (do_let _ _ _ _ _ _ (Whole S_TIME (10 * 1)) (Whole S_TIME 10) (Whole S_TIME (10 * 1))); [|reflexivity|exact (bc_same (Whole S_TIME (10 * 1)))].
    apply (den_call _ _ _ _ [Whole S_TIME 10; Whole S_INT 1]); [args|]. apply y_mul; [cbn; tauto|unfold of_type; cbn; lia|unfold of_type; cbn; lia].
  - apply (stop_input _ _ _ _ _ _ _ _ _ "PT" (Call "MUL" [Arg "delay"; Arg "big"]) [("IN", Arg "go")] [] [("IN", S_BOOL)] [("PT", S_TIME)] [("Q", S_BOOL); ("ET", S_TIME)] [1]); [reflexivity|apply if_timer; cbn; tauto|cbn [map snd combine fst]; args|reflexivity|].
    apply (br_here _ _ _ _ [Whole S_TIME (10 * 1); Whole S_LINT (2 ^ 62)]); [args|]. apply f_mul; [cbn; tauto|]. intros [_ H]. unfold of_type in H. cbn in H. lia.
Qed.
Definition kinds5 (x : string) : option sty := match start5 x with Some (Whole t _) => Some t | _ => None end.
Example C124_case_ordinary : stores kinds5 start5 /\ Forall (fun q => ordinary kinds5 insts5 (fst q)) (firstn 4 qs5).
Proof.
  split.
  - intros x t H. unfold kinds5 in H. destruct (start5 x) as [m|] eqn:E; [|discriminate H]. unfold start5 in E. apply find_cases in E. cbn [List.In] in E.
    repeat (destruct E as [E|E]; [injection E as <- <-; first [discriminate H|injection H as <-; eexists; split; [reflexivity|unfold of_type; cbn; lia]]|]). contradiction.
  - repeat apply Forall_cons; try apply Forall_nil.
    + apply (or_use _ _ _ _ _ [("CU", S_BOOL); ("R", S_BOOL); ("PV", S_INT)] [("Q", S_BOOL); ("CV", S_INT)]); [now left|apply (if_up _ i16); cbn; tauto|reflexivity| |].
      * cbn [map snd]. repeat (apply Forall2_cons; [apply tb_variable; reflexivity|]). apply Forall2_nil.
      * repeat apply Forall_cons; [exists S_INT|exists S_BOOL|apply Forall_nil]; (split; [cbn; tauto|reflexivity]).
    + apply (or_let _ _ _ _ S_DINT S_INT); [reflexivity| |right; split; cbn; tauto].
      apply (tb_call _ _ _ (repeat S_INT 2)); [cbn [repeat]; repeat (apply Forall2_cons; [apply tb_variable; reflexivity|]); apply Forall2_nil|]. apply takes_select; cbn; tauto.
    + apply (or_use _ _ _ _ _ [("IN", S_BOOL); ("PT", S_TIME)] [("Q", S_BOOL); ("ET", S_TIME)]); [right; now left|apply if_timer; cbn; tauto|reflexivity| |].
      * cbn [map snd]. repeat (apply Forall2_cons; [apply tb_variable; reflexivity|]). apply Forall2_nil.
      * repeat apply Forall_cons; [exists S_BOOL|apply Forall_nil]; (split; [cbn; tauto|reflexivity]).
    + apply (or_use _ _ _ _ _ [("IN", S_BOOL); ("PT", S_TIME)] [("Q", S_BOOL); ("ET", S_TIME)]); [right; now left|apply if_timer; cbn; tauto|reflexivity| |].
      * cbn [map snd]. repeat (apply Forall2_cons; [apply tb_variable; reflexivity|]). apply Forall2_nil.
      * repeat apply Forall_cons; [exists S_BOOL|apply Forall_nil]; (split; [cbn; tauto|reflexivity]).
Qed.
(** A pulse timer in the reference: a pulse of 10 begins at 5, has ended at 20 with IN TRUE, and is forgotten at 30; then a
    call with IN FALSE stops the program.  The code does so. *)
Definition pulse7 : instance := ModelMachine.Inst "TP" 1016.
Definition calls7 : list event := [Event [1; 10] 5 5; Event [1; 10] 12 12; Event [1; 10] 20 20; Event [0; 10] 30 30].
Example C124_case_pulse : pulse (map timed_input (firstn 3 calls7)) (Some 5) /\ pulse (map timed_input calls7) None /\
  shows "TP" (firstn 2 calls7) "Q" (Whole S_BOOL 1) /\ shows "TP" (firstn 2 calls7) "ET" (Whole S_TIME 7) /\
  shows "TP" (firstn 3 calls7) "Q" (Whole S_BOOL 0) /\ shows "TP" calls7 "ET" (Whole S_TIME 0).
Proof.
  assert (P1 : pulse (map timed_input (firstn 1 calls7)) (Some 5)) by exact (pu_begin [] (timed_input (Event [1; 10] 5 5)) pu_fresh eq_refl).
  assert (P2 : pulse (map timed_input (firstn 2 calls7)) (Some 5)) by exact (pu_call _ (timed_input (Event [1; 10] 12 12)) 5 P1).
  assert (P3 : pulse (map timed_input (firstn 3 calls7)) (Some 5)) by exact (pu_call _ (timed_input (Event [1; 10] 20 20)) 5 P2).
  assert (N : List.In "TP" pulses) by now left. assert (V : List.In ("TP", S_TIME) timer_values) by (cbn; tauto).
  split; [exact P3|]. split; [exact (pu_call _ (timed_input (Event [0; 10] 30 30)) 5 P3)|].
  split; [exact (sh_pulse "TP" (firstn 1 calls7) (Event [1; 10] 12 12) 5 N P1)|]. split; [exact (sh_pulse_et "TP" S_TIME (firstn 1 calls7) (Event [1; 10] 12 12) 5 N V P1)|].
  split; [exact (sh_pulse "TP" (firstn 2 calls7) (Event [1; 10] 20 20) 5 N P2)|exact (sh_pulse_et "TP" S_TIME (firstn 3 calls7) (Event [0; 10] 30 30) 5 N V P3)].
Qed.
Definition qs7 : list (statement * (Z * Z)) :=
  [(Use pulse7 [("IN", Arg "go"); ("PT", Arg "delay")] [("late", "Q")], (5, 5)); (Use pulse7 [("IN", Arg "go"); ("PT", Arg "delay")] [("late", "Q")], (12, 12));
   (Use pulse7 [("IN", Arg "go"); ("PT", Arg "delay")] [("late", "Q")], (20, 20)); (Use pulse7 [("IN", Arg "off"); ("PT", Arg "delay")] [("late", "Q")], (30, 30))].
Example C124_case_pulse_runs :
  omap (fun '(_, m, _) => (st_read Tagged m pulse7 "Q", st_read Tagged m pulse7 "ET")) (executes_all Tagged (a_platform Debug) vars5 (fun _ => 0) (firstn 2 qs7)) =
    Ok (Ok (ModelMachine.VBool true), Ok (ModelMachine.VInt 7)) /\
  omap (fun '(_, m, _) => (st_read Tagged m pulse7 "Q", st_read Tagged m pulse7 "ET")) (executes_all Tagged (a_platform Debug) vars5 (fun _ => 0) qs7) =
    Ok (Ok (ModelMachine.VBool false), Ok (ModelMachine.VInt 0)) /\
  omap (fun _ => tt) (executes_all Tagged (a_platform Debug) vars5 (fun _ => 0) (qs7 ++ [(Use pulse7 [("IN", Arg "off"); ("PT", Arg "delay")] [], (40, 40))])) = Panic.
Proof. vm_compute. split; [reflexivity|split; reflexivity]. Qed.
(** A date with time of day, 1969-12-31-23:59:58.007 and 65 ns, is taken apart by the reference and by the code. *)
Definition start9 : store := fun x =>
  if String.eqb x "at" then Some (Whole S_DT (-1992999935)) else if existsb (String.eqb x) ["y"; "m"; "d"; "h"; "mi"; "s"; "ms"] then Some (Whole S_INT 0) else None.
Definition vars9 : env value := ("at", (S_DT, VZ (-1992999935))) :: map (fun x => (x, (S_INT, VZ 0))) ["y"; "m"; "d"; "h"; "mi"; "s"; "ms"].
Definition split9 : statement := Split "SPLIT_DT" "at" ["y"; "m"; "d"; "h"; "mi"; "s"; "ms"].
Example C124_case_split : does_one (a_platform Debug) [] start9 [] (split9, (1, 1)) (assign_parts S_INT ["y"; "m"; "d"; "h"; "mi"; "s"; "ms"] [1969; 12; 31; 23; 59; 58; 7] start9) [] /\
  omap (fun '(r, _, _) => map (fun x => get x r) ["y"; "m"; "d"; "h"; "mi"; "s"; "ms"]) (executes_all Tagged (a_platform Debug) vars9 (fun _ => 0) [(split9, (1, 1))]) =
    Ok (map (fun z => Ok (S_INT, VZ z)) [1969; 12; 31; 23; 59; 58; 7]).
Proof.
  split; [|vm_compute; reflexivity]. apply (do_split _ _ _ _ _ _ _ S_DT S_INT (-1992999935)).
  - do 3 right. now left.
  - reflexivity.
  - cbn; tauto.
  - repeat constructor; cbn; intuition discriminate.
  - repeat (apply Forall_cons; [eexists; reflexivity|]). apply Forall_nil.
  - apply ta_dt; [|vm_compute; intuition discriminate|vm_compute; reflexivity]. change (day_number (1969, 12, 31) (-1)). apply (day_prev _ 0); [vm_compute; intuition discriminate|exact day_epoch].
Qed.
