(** Properties C113 and C114: programs that take dates and times apart, put them together and
    calculate with them.  See SpecCall.v for [splits_into], [value_in], [variables], [days_later] and
    [delivers], SpecDate.v for the calendar. *)
From Coq Require Import String Ascii ZArith Lia List Bool SpecFloat.
From Verif Require Import Base ModelFloat ModelTimeNum ModelText ModelString ModelExtra ModelDate ModelChrono ModelST ModelWrap ModelLink ModelLib
  ModelApi SpecScalar SpecDate SpecText SpecLink SpecLib SpecName SpecWrap SpecCall ProofBase ProofDate ProofDate2 ProofProg ProofProg2 ProofProg3 ProofProg4.
Import ListNotations.
Open Scope string_scope.
Open Scope list_scope.
Open Scope Z_scope.

(** * C113: SPLIT and CONCAT in a program *)
(** SPLIT_DATE assigns the calendar day to the variables, and CONCAT_DATE of these variables is the
    date again. *)
Theorem C113_date : forall P r t x ys n, List.In t wide_ints -> get x r = Ok (S_DATE, VZ n) -> of_type S_DATE n ->
  variables t ys r -> length ys = 3%nat ->
  exists y m d r', splits_into P r "SPLIT_DATE" x ys t [y; m; d] r' /\ day_number (y, m, d) (n / DAY) /\
    value_in P r' (Call "CONCAT_DATE" (map Arg ys)) =
      if of_typeb S_DATE (n - n mod DAY) then Ok (S_DATE, VZ (n - n mod DAY)) else Panic.
Proof. exact split_date_prog. Qed.
Print Assumptions C113_date.
(** The same for times of day, down to the millisecond. *)
Theorem C113_tod : forall P r f g tx t x ys n,
  List.In (f, g, tx) [("SPLIT_TOD", "CONCAT_TOD", S_TOD); ("SPLIT_LTOD", "CONCAT_LTOD", S_LTOD)] ->
  List.In t wide_ints -> get x r = Ok (tx, VZ n) -> of_type tx n -> variables t ys r -> length ys = 4%nat ->
  exists h mi s ms r', splits_into P r f x ys t [h; mi; s; ms] r' /\ valid_clock h mi s ms /\
    clock_ns h mi s ms = n mod DAY - n mod MILLI /\
    value_in P r' (Call g (map Arg ys)) = Ok (tx, VZ (n mod DAY - n mod MILLI)).
Proof. exact split_tod_prog. Qed.
Print Assumptions C113_tod.
(** The same for dates and times. *)
Theorem C113_dt : forall P r t x ys n, List.In t wide_ints -> get x r = Ok (S_DT, VZ n) -> of_type S_DT n ->
  variables t ys r -> length ys = 7%nat ->
  exists y m d h mi s ms r', splits_into P r "SPLIT_DT" x ys t [y; m; d; h; mi; s; ms] r' /\
    day_number (y, m, d) (n / DAY) /\ valid_clock h mi s ms /\ clock_ns h mi s ms = n mod DAY - n mod MILLI /\
    value_in P r' (Call "CONCAT_DT" (map Arg ys)) =
      (if of_typeb S_DT (n - n mod DAY) then Ok (S_DT, VZ (n - n mod MILLI)) else Panic) /\
    value_in P r' (Call "CONCAT_LDT" (map Arg ys)) =
      (if of_typeb S_DT (n - n mod DAY) then Ok (S_LDT, VZ (n - n mod MILLI)) else Panic).
Proof. exact split_dt_prog. Qed.
Print Assumptions C113_dt.
(** What CONCAT puts together, SPLIT takes apart again, into variables of any integer type. *)
Theorem C113_date_back : forall P r u t y m d n x ys, List.In u narrow_ints -> of_type u y -> of_type u m -> of_type u d ->
  call P "CONCAT_DATE" (ints u [y; m; d]) = Ok (S_DATE, VZ n) ->
  List.In t wide_ints -> get x r = Ok (S_DATE, VZ n) -> variables t ys r -> length ys = 3%nat ->
  exists r', splits_into P r "SPLIT_DATE" x ys t [y; m; d] r'.
Proof. exact date_back. Qed.
Print Assumptions C113_date_back.
Theorem C113_tod_back : forall P r f g tx u t h mi s ms n x ys,
  List.In (f, g, tx) [("SPLIT_TOD", "CONCAT_TOD", S_TOD); ("SPLIT_LTOD", "CONCAT_LTOD", S_LTOD)] ->
  List.In u integers -> Forall (of_type u) [h; mi; s; ms] -> valid_clock h mi s ms ->
  call P g (ints u [h; mi; s; ms]) = Ok (tx, VZ n) ->
  List.In t wide_ints -> get x r = Ok (tx, VZ n) -> variables t ys r -> length ys = 4%nat ->
  exists r', splits_into P r f x ys t [h; mi; s; ms] r'.
Proof. exact tod_back. Qed.
Print Assumptions C113_tod_back.
Theorem C113_dt_back : forall P r u t y m d h mi s ms n x ys, List.In u narrow_ints -> Forall (of_type u) [y; m; d; h; mi; s; ms] ->
  valid_clock h mi s ms -> call P "CONCAT_DT" (ints u [y; m; d; h; mi; s; ms]) = Ok (S_DT, VZ n) ->
  List.In t wide_ints -> get x r = Ok (S_DT, VZ n) -> variables t ys r -> length ys = 7%nat ->
  exists r', splits_into P r "SPLIT_DT" x ys t [y; m; d; h; mi; s; ms] r'.
Proof. exact dt_back. Qed.
Print Assumptions C113_dt_back.

Definition there : platform :=
  Platform Debug (ModelChrono.Chrono true true) DurRound LittleEndian (fun _ _ => true) (0, 0) (fun _ _ _ => FNan false 1).
Definition vars : env value :=
  [("date", (S_DATE, VZ 951782400000000000)); ("dt", (S_DT, VZ 951827696789012345)); ("y", (S_UINT, VZ 7)); ("m", (S_UINT, VZ 7));
   ("d", (S_UINT, VZ 7)); ("h", (S_UINT, VZ 7)); ("mi", (S_UINT, VZ 7)); ("s", (S_UINT, VZ 7)); ("ms", (S_UINT, VZ 7));
   ("dt2", (S_DT, VZ (951827696789012345 + 1 * DAY)))].
Lemma vars_ok : variables S_UINT ["y"; "m"; "d"] vars /\ variables S_UINT ["y"; "m"; "d"; "h"; "mi"; "s"; "ms"] vars.
Proof.
  split; (split; [repeat (constructor; [cbn; intuition discriminate|]); constructor
                 |repeat (constructor; [eexists; reflexivity|]); constructor]).
Qed.
(** The 29th of February 2000. *)
Example C113_ex_date : exists r', splits_into there vars "SPLIT_DATE" "date" ["y"; "m"; "d"] S_UINT [2000; 2; 29] r' /\
  value_in there r' (Call "CONCAT_DATE" [Arg "y"; Arg "m"; Arg "d"]) = Ok (S_DATE, VZ 951782400000000000).
Proof.
  eexists. split; [split; [|split]|].
  - vm_compute. reflexivity.
  - repeat (constructor; [reflexivity|]). constructor.
  - intros z N. cbn in N. unfold get, vars. cbn [find fst snd].
    repeat match goal with |- context [String.eqb ?a z] => destruct (String.eqb_spec a z); [try (subst; tauto); reflexivity|] end; reflexivity.
  - vm_compute. reflexivity.
Qed.
Example C113_ex_hyp : get "date" vars = Ok (S_DATE, VZ 951782400000000000) /\ of_type S_DATE 951782400000000000 /\ List.In S_UINT wide_ints.
Proof. split; [reflexivity|]. split; [split; discriminate|cbn; tauto]. Qed.
Example C113_ex_dt : exists r', value_of (api there) vars (Call "SPLIT_DT" (map Arg ["dt"; "y"; "m"; "d"; "h"; "mi"; "s"; "ms"])) = Ok (S_INT, VZ 0, r') /\
  map (fun x => get x r') ["y"; "m"; "d"; "h"; "mi"; "s"; "ms"] = map (fun z => Ok (S_UINT, VZ z)) [2000; 2; 29; 12; 34; 56; 789] /\
  value_in there r' (Call "CONCAT_LDT" (map Arg ["y"; "m"; "d"; "h"; "mi"; "s"; "ms"])) = Ok (S_LDT, VZ 951827696789000000).
Proof. eexists. split; [vm_compute; reflexivity|]. split; vm_compute; reflexivity. Qed.
Example C113_ex_back : call there "CONCAT_DATE" (ints S_INT [2000; 2; 29]) = Ok (S_DATE, VZ 951782400000000000) /\
  call there "CONCAT_LTOD" (ints S_SINT [23; 59; 58; 127]) = Ok (S_LTOD, VZ 86398127000000) /\
  call there "CONCAT_DT" (ints S_UDINT [1969; 12; 31; 23; 59; 59; 999]) = Ok (S_DT, VZ (-1000000)).
Proof. repeat split; vm_compute; reflexivity. Qed.

(** * C114: the calendar in calculations *)
(** ADD and SUB by their generic names: exact, or an abort. *)
Theorem C114_sums : forall P a b, of_type S_TIME a -> of_type S_TIME b ->
  delivers S_TIME (a + b) (of_type S_TIME (a + b)) (call P "ADD" [(S_TIME, VZ a); (S_TIME, VZ b)]) /\
  delivers S_TIME (a - b) (of_type S_TIME (a - b)) (call P "SUB" [(S_TIME, VZ a); (S_TIME, VZ b)]) /\
  (forall t, List.In t [S_DATE; S_TOD; S_DT] ->
     delivers S_TIME (a - b) (of_type S_TIME (a - b)) (call P "SUB" [(t, VZ a); (t, VZ b)])) /\
  (forall t, List.In t [S_TOD; S_DT] ->
     delivers t (a + b) (representable (p_chrono P) (a + b)) (call P "ADD" [(t, VZ a); (S_TIME, VZ b)]) /\
     delivers t (a - b) (representable (p_chrono P) (a - b)) (call P "SUB" [(t, VZ a); (S_TIME, VZ b)])).
Proof. exact sums_exact. Qed.
Print Assumptions C114_sums.
(** Adding k times 24 hours to a DT moves the calendar by k days and leaves the time of day. *)
Theorem C114_add_days : forall P n k, of_type S_DT n -> representable (p_chrono P) (n + k * DAY) -> 0 <= k ->
  call P "ADD" [(S_DT, VZ n); (S_TIME, VZ (k * DAY))] = Ok (S_DT, VZ (n + k * DAY)) /\
  forall r t x z ys, List.In t wide_ints -> get x r = Ok (S_DT, VZ n) -> get z r = Ok (S_DT, VZ (n + k * DAY)) ->
    variables t ys r -> length ys = 7%nat ->
    exists y m d y' m' d' h mi s ms r1 r2, days_later k (y, m, d) = (y', m', d') /\
      splits_into P r "SPLIT_DT" x ys t [y; m; d; h; mi; s; ms] r1 /\
      splits_into P r "SPLIT_DT" z ys t [y'; m'; d'; h; mi; s; ms] r2.
Proof. exact add_days. Qed.
Print Assumptions C114_add_days.
(** The difference of two dates is the number of days from the one to the other. *)
Theorem C114_days_between : forall P u v x x' a b k, List.In u narrow_ints -> List.In v narrow_ints ->
  let '(y, m, d) := x in let '(y', m', d') := x' in
  Forall (of_type u) [y; m; d] -> Forall (of_type v) [y'; m'; d'] -> 0 <= k -> days_later k x = x' ->
  call P "CONCAT_DATE" (ints u [y; m; d]) = Ok (S_DATE, VZ a) -> call P "CONCAT_DATE" (ints v [y'; m'; d']) = Ok (S_DATE, VZ b) ->
  call P "SUB" [(S_DATE, VZ b); (S_DATE, VZ a)] = (if of_typeb S_TIME (k * DAY) then Ok (S_TIME, VZ (k * DAY)) else Panic) /\
  call P "SUB" [(S_DATE, VZ a); (S_DATE, VZ b)] = (if of_typeb S_TIME (- k * DAY) then Ok (S_TIME, VZ (- k * DAY)) else Panic).
Proof. exact between. Qed.
Print Assumptions C114_days_between.
(** From the first of a month to the first of the next: the length of the month. *)
Theorem C114_month_length : forall P u y m a b, List.In u narrow_ints -> 1 <= m <= 11 -> Forall (of_type u) [y; m; m + 1; 1] ->
  call P "CONCAT_DATE" (ints u [y; m; 1]) = Ok (S_DATE, VZ a) -> call P "CONCAT_DATE" (ints u [y; m + 1; 1]) = Ok (S_DATE, VZ b) ->
  call P "SUB" [(S_DATE, VZ b); (S_DATE, VZ a)] = Ok (S_TIME, VZ (days_in_month y m * DAY)).
Proof. exact month_length. Qed.
Print Assumptions C114_month_length.
(** From New Year to New Year: 365 or 366 days. *)
Theorem C114_year_length : forall P u y a b, List.In u narrow_ints -> Forall (of_type u) [y; y + 1; 1] ->
  call P "CONCAT_DATE" (ints u [y; 1; 1]) = Ok (S_DATE, VZ a) -> call P "CONCAT_DATE" (ints u [y + 1; 1; 1]) = Ok (S_DATE, VZ b) ->
  call P "SUB" [(S_DATE, VZ b); (S_DATE, VZ a)] = Ok (S_TIME, VZ ((if is_leapb y then 366 else 365) * DAY)).
Proof. exact year_length. Qed.
Print Assumptions C114_year_length.
(** The day of the week advances with the days. *)
Theorem C114_weekday : forall P u v x x' a b k w, List.In u narrow_ints -> List.In v narrow_ints ->
  let '(y, m, d) := x in let '(y', m', d') := x' in
  Forall (of_type u) [y; m; d] -> Forall (of_type v) [y'; m'; d'] -> 0 <= k -> days_later k x = x' ->
  call P "CONCAT_DATE" (ints u [y; m; d]) = Ok (S_DATE, VZ a) -> call P "CONCAT_DATE" (ints v [y'; m'; d']) = Ok (S_DATE, VZ b) ->
  call P "DAY_OF_WEEK" [(S_DATE, VZ a)] = Ok (S_SINT, VZ w) -> call P "DAY_OF_WEEK" [(S_DATE, VZ b)] = Ok (S_SINT, VZ ((w + k) mod 7)).
Proof. exact weekday_later. Qed.
Print Assumptions C114_weekday.
(** After 400 years the days of the week are the same. *)
Theorem C114_cycle : forall P u y m d a b w, List.In u narrow_ints -> Forall (of_type u) [y; y + 400; m; d] ->
  call P "CONCAT_DATE" (ints u [y; m; d]) = Ok (S_DATE, VZ a) -> call P "CONCAT_DATE" (ints u [y + 400; m; d]) = Ok (S_DATE, VZ b) ->
  b = a + 146097 * DAY /\
  (call P "DAY_OF_WEEK" [(S_DATE, VZ a)] = Ok (S_SINT, VZ w) -> call P "DAY_OF_WEEK" [(S_DATE, VZ b)] = Ok (S_SINT, VZ w)).
Proof. exact calendar_cycle. Qed.
Print Assumptions C114_cycle.
(** The 29th of February can be made exactly in leap years. *)
Theorem C114_leap_day : forall P u y, List.In u narrow_ints -> of_type u y -> 1678 <= y <= 2261 ->
  (is_leapb y = true -> exists a, call P "CONCAT_DATE" (ints u [y; 2; 29]) = Ok (S_DATE, VZ a)) /\
  (is_leapb y = false -> call P "CONCAT_DATE" (ints u [y; 2; 29]) = Panic).
Proof. exact leap_day. Qed.
Print Assumptions C114_leap_day.

Example C114_ex_add : representable (p_chrono there) (951827696789012345 + 1 * DAY) /\
  call there "ADD" [(S_DT, VZ 951827696789012345); (S_TIME, VZ (1 * DAY))] = Ok (S_DT, VZ 951914096789012345) /\
  days_later 1 (2000, 2, 29) = (2000, 3, 1).
Proof.
  split; [|split; vm_compute; reflexivity]. split; [split; discriminate|]. intros _. unfold SECOND, DAY. lia.
Qed.
Example C114_ex_split : exists r1 r2,
  splits_into there vars "SPLIT_DT" "dt" ["y"; "m"; "d"; "h"; "mi"; "s"; "ms"] S_UINT [2000; 2; 29; 12; 34; 56; 789] r1 /\
  splits_into there vars "SPLIT_DT" "dt2" ["y"; "m"; "d"; "h"; "mi"; "s"; "ms"] S_UINT [2000; 3; 1; 12; 34; 56; 789] r2.
Proof.
  destruct (C114_add_days there 951827696789012345 1) as [_ H]; [split; discriminate|apply C114_ex_add|lia|].
  destruct (H vars S_UINT "dt" "dt2" ["y"; "m"; "d"; "h"; "mi"; "s"; "ms"]) as (y & m & d & y' & m' & d' & h & mi & s & ms & r1 & r2 & L & S1 & S2);
    [cbn; tauto|reflexivity|reflexivity|apply vars_ok|reflexivity|].
  assert (E : [y; m; d; h; mi; s; ms] = [2000; 2; 29; 12; 34; 56; 789]).
  { destruct S1 as (E & F & _). vm_compute in E. injection E as <-.
    repeat match goal with F : Forall2 _ (_ :: _) _ |- _ => inversion F; clear F; subst; match goal with G : get _ _ = _ |- _ => vm_compute in G; injection G as <- end end. reflexivity. }
  injection E as -> -> -> -> -> -> ->. vm_compute in L. injection L as <- <- <-. now exists r1, r2.
Qed.
Example C114_ex_dates :
  call there "CONCAT_DATE" (ints S_INT [1900; 2; 1]) = Ok (S_DATE, VZ (-2206310400000000000)) /\
  call there "CONCAT_DATE" (ints S_INT [1900; 3; 1]) = Ok (S_DATE, VZ (-2203891200000000000)) /\
  call there "SUB" [(S_DATE, VZ (-2203891200000000000)); (S_DATE, VZ (-2206310400000000000))] = Ok (S_TIME, VZ (28 * DAY)) /\
  call there "DAY_OF_WEEK" [(S_DATE, VZ (-2203891200000000000))] = Ok (S_SINT, VZ 4).
Proof. repeat split; vm_compute; reflexivity. Qed.
Example C114_ex_cycle : exists a b, call there "CONCAT_DATE" (ints S_UINT [1800; 2; 28]) = Ok (S_DATE, VZ a) /\
  call there "CONCAT_DATE" (ints S_UINT [1800 + 400; 2; 28]) = Ok (S_DATE, VZ b) /\ Forall (of_type S_UINT) [1800; 1800 + 400; 2; 28].
Proof.
  do 2 eexists. split; [vm_compute; reflexivity|]. split; [vm_compute; reflexivity|].
  repeat (constructor; [split; discriminate|]). constructor.
Qed.
