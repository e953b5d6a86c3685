(** C125: the reference says everything that happens in programs with integers, times, dates, texts of bounded length,
    real numbers of known range and function blocks. *)
From Coq Require Import String ZArith List Bool Lia Reals Lra SpecFloat.
From Flocq Require Import Core BinarySingleNaN.
From Verif Require Import Base ModelFB ModelCounters ModelTimers ModelLayout ModelMachine ModelFloat ModelText ModelString ModelExtra ModelLink ModelLib ModelApi
  SpecFB SpecLayout SpecMachine SpecScalar SpecReal SpecText SpecLink SpecLib SpecWrap SpecSafe SpecApi SpecCall SpecExpr SpecNum SpecTerm SpecType SpecProgram SpecSize SpecWhole SpecRefine SpecComplete
  ProofSafe2 ProofCompleteR ProofComplete ProofComplete2.
Import ListNotations.
Open Scope string_scope.
Open Scope list_scope.
Open Scope Z_scope.

(** An expression that keeps to the bounds is computed exactly if it has a meaning, which is then as described; it aborts
    exactly if the reference says so, and there is no undefined behaviour. *)
Theorem C125_expression : forall P G r s e d, represents r s -> meets_all G s -> formed (p_profile P) G e d ->
  match value_in P r e with
  | Ok tv => exists m, denotes P s e m /\ meets d m /\ stands_for tv m
  | Panic => breaks P s e
  | Ub => False
  end.
Proof. exact formed_value. Qed.
Print Assumptions C125_expression.
(** The same of programs: what is known of the variables stays known. *)
Theorem C125_complete : forall rp P G insts r m s qs, started rp insts m qs -> represents r s -> meets_all G s ->
  Forall (fun q => regular (p_profile P) G insts (fst q)) qs ->
  match executes_all rp P r m qs with
  | Ok (r', m', _) => exists s' l, does P insts s [] qs s' l /\ meets_all G s' /\ represents r' s' /\ outputs_shown rp m' insts l
  | Panic => is_stopped P insts s [] qs
  | Ub => False
  end.
Proof. exact texts_complete. Qed.
Print Assumptions C125_complete.

(** * Cases *)
(** A counter up to the length of a text; a label of the text and the count; the text loses its first character. *)
Definition counter8 : instance := ModelMachine.Inst "CTU_DINT" 1000.
Definition insts8 : list instance := [counter8].
Definition empty8 : list Z := repeat 0 81.
Definition vars8 : env value :=
  [("go", (S_BOOL, VZ 1)); ("off", (S_BOOL, VZ 0)); ("one", (S_DINT, VZ 1)); ("count", (S_DINT, VZ 0)); ("full", (S_BOOL, VZ 0));
   ("word", (S_STRING, VS ([0x61; 0x62] ++ repeat 0 79))); ("label", (S_STRING, VS empty8))].
Definition start8 : store := fun x =>
  match find (fun y => String.eqb (fst y) x)
    [("go", Whole S_BOOL 1); ("off", Whole S_BOOL 0); ("one", Whole S_DINT 1); ("count", Whole S_DINT 0); ("full", Whole S_BOOL 0);
     ("word", Text STRING [0x61; 0x62]); ("label", Text STRING [])] with
  | Some y => Some (snd y)
  | None => None
  end.
Definition known8 : string -> option described := fun x =>
  match find (fun y => String.eqb (fst y) x)
    [("go", Known (any_value S_BOOL)); ("off", Known (any_value S_BOOL)); ("one", Known (A_value S_DINT true)); ("count", Known (any_value S_DINT));
     ("full", Known (any_value S_BOOL)); ("word", Known (A_text STRING 5)); ("label", Known (A_text STRING 20))] with
  | Some y => Some (snd y)
  | None => None
  end.
Definition cycle8 (now : Z) : list (statement * (Z * Z)) :=
  [(Use counter8 [("CU", Arg "go"); ("R", Arg "off"); ("PV", Call "LEN" [Arg "word"])] [("count", "CV"); ("full", "Q")], (now, now));
   (Let "label" (Call "CONCAT" [Arg "word"; Call "DINT_TO_STRING" [Arg "count"]]), (now, now));
   (Let "word" (Call "DELETE" [Arg "word"; Arg "one"; Arg "one"]), (now, now))].
Lemma found : forall (A : Type) x (l : list (string * A)) m,
  match find (fun y => String.eqb (fst y) x) l with Some y => Some (snd y) | None => None end = Some m -> List.In (x, m) l.
Proof.
  intros A x l m H. induction l as [|[y a] l IH]; [discriminate H|]. cbn [find fst] in H. destruct (String.eqb_spec y x) as [->|N]; [injection H as <-; now left|right; now apply IH].
Qed.
Example C125_case_started : started Tagged insts8 (fun _ => 0) (cycle8 1 ++ cycle8 2 ++ cycle8 3).
Proof.
  split; [split|].
  - intros i H. cbn in H. destruct H as [<-|[]]; vm_compute; discriminate.
  - intros i j a I J. cbn [List.In insts8] in I, J. destruct I as [<-|[]], J as [<-|[]]; trivial.
  - split; [intros i _ a _; reflexivity|]. split; [now left|]. vm_compute. intuition discriminate.
Qed.
Example C125_case_represents : represents vars8 start8.
Proof.
  intros x m H. apply found in H. cbn [List.In] in H.
  repeat (destruct H as [H|H]; [injection H as <- <-; first
    [eexists; split; [reflexivity|]; split; [reflexivity|unfold of_type; cbn; lia]
    |eexists; split; [reflexivity|]; eexists; split; [reflexivity|]; split; [repeat constructor; vm_compute; intuition discriminate|]]|]); [| |contradiction].
  - exists (repeat 0 78). reflexivity.
  - exists (repeat 0 80). reflexivity.
Qed.
Example C125_case_meets : meets_all known8 start8.
Proof.
  intros x d H. apply found in H. cbn [List.In] in H.
  repeat (destruct H as [H|H]; [injection H as <- <-; eexists; split; [reflexivity|];
    first [eexists; split; [reflexivity|]; split; [unfold of_type; cbn; lia|intros; (discriminate || lia)]
          |eexists; split; [reflexivity|]; split; [repeat constructor; vm_compute; intuition discriminate|vm_compute; lia]]|]). contradiction.
Qed.
Example C125_case_regular : forall p now, Forall (fun q => regular p known8 insts8 (fst q)) (cycle8 now).
Proof.
  intros p now. unfold cycle8. repeat apply Forall_cons; try apply Forall_nil; cbn [fst].
  - apply (rg_use _ _ _ _ _ _ [("CU", S_BOOL); ("R", S_BOOL); ("PV", S_DINT)] [("Q", S_BOOL); ("CV", S_DINT)]); [now left|apply (if_up _ i32); cbn; tauto|reflexivity| |].
    + cbn [map snd]. repeat (apply fos_cons; [first [apply fo_variable; reflexivity|idtac]|]); [|apply fos_nil].
      apply fo_weaker with (s := A_value S_DINT true); [|apply wk_value]. apply fo_len with (k := STRING) (n := 5%nat); [apply fo_variable; reflexivity|unfold capacity; lia].
    + repeat apply Forall_cons; [exists S_DINT|exists S_BOOL|apply Forall_nil]; (split; [cbn; tauto|reflexivity]).
  - apply (rg_text _ _ _ _ _ STRING 20%nat); [reflexivity|]. apply fo_weaker with (s := A_text STRING (list_sum [5; 11]%nat)); [|apply wk_text; cbn; lia].
    apply fo_concat; [|unfold capacity; cbn; lia]. apply fos_cons; [apply fo_variable; reflexivity|]. apply fos_cons; [|apply fos_nil].
    apply (fo_print p known8 (Arg "count") S_DINT STRING 11%nat); [cbn; tauto|apply fo_variable; reflexivity].
  - apply (rg_text _ _ _ _ _ STRING 5%nat); [reflexivity|]. assert (R : remains p true 5 = 5%nat) by now destruct p. rewrite <- R.
    apply fo_delete; [apply fo_variable; reflexivity|rewrite R; unfold capacity; lia|apply fo_variable; reflexivity|].
    apply fo_weaker with (s := A_value S_DINT true); [apply fo_variable; reflexivity|apply wk_value].
Qed.
(** The second cycle leaves "b1" as label, as one edge was counted, and no word; the third is stopped, since nothing can be deleted from the empty word. *)
Example C125_case_runs : omap (fun '(r, _, _) => (get "count" r, omap (fun tv => match snd tv with VS d => firstn 3 d | _ => [] end) (get "label" r), omap (fun tv => match snd tv with VS d => firstn 3 d | _ => [] end) (get "word" r)))
    (executes_all Tagged (a_platform Debug) vars8 (fun _ => 0) (cycle8 1 ++ cycle8 2)) =
  Ok (Ok (S_DINT, VZ 1), Ok [0x62; 0x31; 0], Ok [0; 0; 0]).
Proof. vm_compute. reflexivity. Qed.
Example C125_case_stops : is_stopped (a_platform Debug) insts8 start8 [] (cycle8 1 ++ cycle8 2 ++ cycle8 3).
Proof.
  pose proof (C125_complete Tagged (a_platform Debug) known8 insts8 vars8 (fun _ => 0) start8 _ C125_case_started C125_case_represents C125_case_meets) as H.
  assert (E : executes_all Tagged (a_platform Debug) vars8 (fun _ => 0) (cycle8 1 ++ cycle8 2 ++ cycle8 3) = Panic) by (vm_compute; reflexivity).
  rewrite E in H. apply H. rewrite !Forall_app. repeat split; apply C125_case_regular.
Qed.
(** The parts of a date are not negative; the month is the number of characters to take. *)
Definition known9 : string -> option described := fun x =>
  match find (fun y => String.eqb (fst y) x) 
    [("day", Known (any_value S_DATE)); ("y", Known (A_value S_DINT true)); ("m", Known (A_value S_DINT true)); ("d", Known (A_value S_DINT true)); ("word", Known (A_text STRING 5))] with
  | Some y => Some (snd y)
  | None => None
  end.
Example C125_case_split : forall p, regular p known9 [] (Split "SPLIT_DATE" "day" ["y"; "m"; "d"]) /\ regular p known9 [] (Let "word" (Call "LEFT" [Arg "word"; Arg "m"])).
Proof.
  intros p. split.
  - apply (rg_split _ _ _ _ _ _ S_DATE S_DINT false); [now left|reflexivity|cbn; tauto|repeat constructor; cbn; intuition discriminate|].
    repeat (apply Forall_cons; [eexists; reflexivity|]). apply Forall_nil.
  - apply (rg_text _ _ _ _ _ STRING 5%nat); [reflexivity|]. apply fo_end; [now left|apply fo_variable; reflexivity|unfold capacity; lia|].
    apply fo_weaker with (s := A_value S_DINT true); [apply fo_variable; reflexivity|apply wk_value].
Qed.
(** Real numbers: the root of a level, which is at most 32767 if the level is, rounded and limited; the level must not be
    negative, which is known of the unsigned type. *)
Definition known10 : string -> option described := fun x =>
  match find (fun y => String.eqb (fst y) x)
    [("level", Known (any_value S_UINT)); ("root", Between S_REAL 0 65536); ("low", Between S_REAL 1 1); ("high", Between S_REAL 200 250); ("whole", Known (A_value S_USINT true));
     ("label", Known (A_text STRING 81))] with
  | Some y => Some (snd y)
  | None => None
  end.
Definition vars10 : env value :=
  [("level", (S_UINT, VZ 10000)); ("root", (S_REAL, VF (FNum (S754_zero false)))); ("low", (S_REAL, VF (FNum (S754_finite false 8388608 (-23))))); ("high", (S_REAL, VF (FNum (S754_finite false 13107200 (-16)))));
   ("whole", (S_USINT, VZ 0)); ("label", (S_STRING, VS empty8))].
Definition start10 : store := fun x =>
  match find (fun y => String.eqb (fst y) x)
    [("level", Whole S_UINT 10000); ("root", Real S_REAL 0); ("low", Real S_REAL 1); ("high", Real S_REAL 200); ("whole", Whole S_USINT 0); ("label", Text STRING [])] with
  | Some y => Some (snd y)
  | None => None
  end.
Definition bounded10 : expr := Call "LIMIT" [Arg "low"; Call "ROUND" [Arg "root"]; Arg "high"].
Definition cycle10 : list (statement * (Z * Z)) :=
  [(Let "root" (Call "SQRT" [Call "UINT_TO_REAL" [Arg "level"]]), (1, 1));
   (Let "whole" (Call "REAL_TO_USINT" [bounded10]), (1, 1));
   (Let "label" (Call "REAL_TO_STRING" [bounded10]), (1, 1))].
Example C125_case_reals : forall p, Forall (fun q => regular p known10 [] (fst q)) cycle10.
Proof.
  intros p.
  assert (B : formed p known10 bounded10 (Between S_REAL 1 250)).
  { apply (fo_limit p known10 _ _ _ S_REAL 1 1 0 65536 200 250); [apply fo_variable; reflexivity|apply fo_round, fo_variable; reflexivity|apply fo_variable; reflexivity|lia]. }
  repeat apply Forall_cons; try apply Forall_nil; cbn [fst].
  - apply (rg_real _ _ _ _ _ S_REAL 0 65536); [reflexivity|]. apply (fo_sqrt p known10 _ S_REAL 0 65536); [|lia|lia].
    apply (fo_of_integer p known10 (Arg "level") S_REAL S_UINT false); [now left|cbn; tauto|apply fo_variable; reflexivity| | |].
    + intros z Z _. revert Z. unfold of_type. cbn. lia.
    + apply small_exact; [now left|reflexivity].
    + apply small_exact; [now left|reflexivity].
  - apply (rg_value _ _ _ _ _ S_USINT S_USINT true true); [reflexivity| |now left|intros _; split; reflexivity].
    apply (fo_to_integer p known10 bounded10 S_REAL S_USINT 1 250 B); [cbn; tauto|vm_compute; intuition discriminate|vm_compute; intuition discriminate].
  - apply (rg_text _ _ _ _ _ STRING 81%nat); [reflexivity|]. apply (fo_print_real p known10 bounded10 S_REAL STRING 1 250 B). left. lia.
Qed.
Example C125_case_reals_met : represents vars10 start10 /\ meets_all known10 start10.
Proof.
  assert (V1 : fl_value (FNum (S754_finite false 8388608 (-23))) = 1%R).
  { unfold fl_value, sf_value, fl_sf, SF2R, F2R. cbn [Fnum Fexp cond_Zopp]. change (IZR 8388608) with (IZR (1 * 2 ^ 23)). rewrite mult_IZR, (IZR_Zpower radix2), Rmult_assoc, <- bpow_plus by discriminate. cbn. ring. }
  assert (V2 : fl_value (FNum (S754_finite false 13107200 (-16))) = 200%R).
  { unfold fl_value, sf_value, fl_sf, SF2R, F2R. cbn [Fnum Fexp cond_Zopp]. change (IZR 13107200) with (IZR (200 * 2 ^ 16)). rewrite mult_IZR, (IZR_Zpower radix2), Rmult_assoc, <- bpow_plus by discriminate. cbn. ring. }
  assert (R : forall z, Z.abs z < 2 ^ 24 -> exact S_REAL z) by (intros z; apply small_exact; now left).
  assert (RL : List.In S_REAL reals) by now left.
  split; intros x m H; apply found in H; cbn [List.In] in H; destruct H as [H|[H|[H|[H|[H|[H|[]]]]]]]; injection H as <- <-; (eexists; split; [reflexivity|]).
  - split; [reflexivity|unfold of_type; cbn; lia].
  - eexists. split; [reflexivity|]. split; [exact RL|]. split; [vm_compute; reflexivity|]. split; reflexivity.
  - eexists. split; [reflexivity|]. split; [exact RL|]. split; [vm_compute; reflexivity|]. split; [reflexivity|exact V1].
  - eexists. split; [reflexivity|]. split; [exact RL|]. split; [vm_compute; reflexivity|]. split; [reflexivity|exact V2].
  - split; [reflexivity|unfold of_type; cbn; lia].
  - eexists. split; [reflexivity|]. split; [constructor|]. exists (repeat 0 80). reflexivity.
  - exists 10000. split; [reflexivity|]. split; [unfold of_type; cbn; lia|discriminate].
  - exists 0%R. split; [reflexivity|]. split; [exact RL|]. split; [exact (R 0 eq_refl)|lra].
  - exists 1%R. split; [reflexivity|]. split; [exact RL|]. split; [exact (R 1 eq_refl)|lra].
  - exists 200%R. split; [reflexivity|]. split; [exact RL|]. split; [exact (R 200 eq_refl)|lra].
  - exists 0. split; [reflexivity|]. split; [unfold of_type; cbn; lia|lia].
  - exists []. split; [reflexivity|]. split; [constructor|vm_compute; lia].
Qed.
(** Assignment to a variable of another type converts: the level to a REAL, a REAL to an LREAL and back. *)
Definition known11 : string -> option described := fun x =>
  match find (fun y => String.eqb (fst y) x) [("level", Known (any_value S_UINT)); ("small", Between S_REAL 0 65536); ("large", Between S_LREAL 0 65536)] with
  | Some y => Some (snd y)
  | None => None
  end.
Example C125_case_converted : forall p, Forall (regular p known11 []) [Let "small" (Arg "level"); Let "large" (Arg "small"); Let "small" (Call "SQRT" [Arg "large"])].
Proof.
  intros p. assert (R : forall z, Z.abs z < 2 ^ 24 -> exact S_REAL z) by (intros z; apply small_exact; now left). repeat apply Forall_cons; try apply Forall_nil.
  - apply (rg_to_real _ _ _ _ _ S_UINT false S_REAL 0 65536); [reflexivity|apply fo_variable; reflexivity|cbn; tauto|now left| |now apply R|now apply R].
    intros z Z _. revert Z. unfold of_type. cbn. lia.
  - apply (rg_widen _ _ _ _ _ 0 65536); [reflexivity|apply fo_variable; reflexivity].
  - apply (rg_narrow _ _ _ _ _ 0 65536); [reflexivity| |now apply R|now apply R]. apply (fo_sqrt p known11 _ S_LREAL 0 65536); [apply fo_variable; reflexivity|lia|lia].
Qed.
(** The root of 10000 is 100. *)
Example C125_case_reals_run : omap (fun '(r, _, _) => (get "whole" r, omap (fun tv => match snd tv with VS d => firstn 11 d | _ => [] end) (get "label" r)))
    (executes_all Tagged (a_platform Debug) vars10 (fun _ => 0) cycle10) = Ok (Ok (S_USINT, VZ 100), Ok (str "100.000000" ++ [0])).
Proof. vm_compute. reflexivity. Qed.
