(** Proofs about programs that calculate with dates and times: the calendar. *)
From Coq Require Import String Ascii ZArith Lia List Bool SpecFloat.
From Verif Require Import Base ModelFloat ModelTimeNum ModelText ModelString ModelExtra ModelDate ModelChrono ModelST ModelWrap ModelLink ModelLib
  ModelApi SpecScalar SpecDate SpecText SpecLink SpecLib SpecName SpecWrap SpecCall ProofBase ProofDate ProofDate2 ProofLib ProofName ProofName3 ProofCall2 ProofCall3 ProofProg
  ProofProg2 ProofProg3.
Import ListNotations.
Open Scope string_scope.
Open Scope list_scope.
Open Scope Z_scope.

(** * ADD and SUB of date and time values by their generic names *)
Lemma forward2 : forall P k n m t g x1 x2 t1 t2 a b o,
  find_decl n = Some (Decl m false [] (Ty t) [(x1, Input, Ty t1); (x2, Input, Ty t2)] (Assign (Call g [Arg x1; Arg x2]))) ->
  x1 = "IN1" -> x2 = "IN2" ->
  find_decl g = Some (Decl g true [] (Ty t) [(x1, Input, Ty t1); (x2, Input, Ty t2)] Empty) ->
  rust_call P g [VZ a; VZ b] = obind o (fun z => Ok (VZ z, [VZ a; VZ b])) ->
  invoke P (S (S k)) n [VZ a; VZ b] = obind o (fun z => Ok (VZ z, [VZ a; VZ b])).
Proof.
  intros P k n m t g x1 x2 t1 t2 a b o D -> -> Dg E. rewrite (invoke_assign P _ n m t _ _ _ D). cbv zeta. cbn [map fst snd combine].
  set (r0 := [("@", (t, initial t)); ("IN1", (t1, VZ a)); ("IN2", (t2, VZ b))]).
  assert (X : value_of (invoke P (S k)) r0 (Call g (map Arg ["IN1"; "IN2"])) = obind o (fun z => Ok (t, VZ z, r0))).
  { apply (pure_value _ _ _ [(t1, VZ a); (t2, VZ b)]); [repeat (constructor; [reflexivity|]); constructor|].
    exists [("IN1", Input, Ty t1); ("IN2", Input, Ty t2)], [VZ a; VZ b]. split; [|repeat constructor].
    rewrite (dispatch_eq _ g _ _ g [VZ a; VZ b] t Dg).
    - rewrite (invoke_external P k g g t _ _ Dg), E. destruct o; reflexivity.
    - unfold resolve. now rewrite Dg.
    - cbn [map fst d_params formals tl coerce_all]. unfold coerce.
      replace (rty_eqb (repr t1) (repr t1)) with true by (destruct t1; reflexivity).
      replace (rty_eqb (repr t2) (repr t2)) with true by (destruct t2; reflexivity). reflexivity.
    - now rewrite Dg. }
  cbn [map] in X. rewrite X. destruct o as [z| |]; [|reflexivity..]. cbn [obind]. unfold coerce.
  replace (rty_eqb (repr t) (repr t)) with true by (destruct t; reflexivity). reflexivity.
Qed.
Lemma sum_calls : forall P a b,
  call P "ADD" [(S_TIME, VZ a); (S_TIME, VZ b)] = stamp S_TIME (ADD_TIME a b) /\
  call P "ADD" [(S_TOD, VZ a); (S_TIME, VZ b)] = stamp S_TOD (ADD_TOD_TIME (p_chrono P) a b) /\
  call P "ADD" [(S_DT, VZ a); (S_TIME, VZ b)] = stamp S_DT (ADD_DT_TIME (p_chrono P) a b) /\
  call P "SUB" [(S_TIME, VZ a); (S_TIME, VZ b)] = stamp S_TIME (SUB_TIME a b) /\
  call P "SUB" [(S_DATE, VZ a); (S_DATE, VZ b)] = stamp S_TIME (SUB_DATE_DATE a b) /\
  call P "SUB" [(S_TOD, VZ a); (S_TIME, VZ b)] = stamp S_TOD (SUB_TOD_TIME (p_chrono P) a b) /\
  call P "SUB" [(S_TOD, VZ a); (S_TOD, VZ b)] = stamp S_TIME (SUB_TOD_TOD a b) /\
  call P "SUB" [(S_DT, VZ a); (S_TIME, VZ b)] = stamp S_DT (SUB_DT_TIME (p_chrono P) a b) /\
  call P "SUB" [(S_DT, VZ a); (S_DT, VZ b)] = stamp S_TIME (SUB_DT_DT a b).
Proof.
  intros P a b. unfold call.
  Ltac one P a b o := 
    (erewrite dispatch_eq; [|vm_compute; reflexivity|vm_compute; reflexivity|reflexivity|vm_compute; reflexivity]);
    unfold api; (erewrite (forward2 P 3 _ _ _ _ _ _ _ _ a b o); [|vm_compute; reflexivity|reflexivity|reflexivity|vm_compute; reflexivity|
      name_of; cbv [z2]; destruct o; reflexivity]); destruct o; reflexivity.
  split; [one P a b (ADD_TIME a b)|]. split; [one P a b (ADD_TOD_TIME (p_chrono P) a b)|]. split; [one P a b (ADD_DT_TIME (p_chrono P) a b)|].
  split; [one P a b (SUB_TIME a b)|]. split; [one P a b (SUB_DATE_DATE a b)|]. split; [one P a b (SUB_TOD_TIME (p_chrono P) a b)|].
  split; [one P a b (SUB_TOD_TOD a b)|]. split; [one P a b (SUB_DT_TIME (p_chrono P) a b)|one P a b (SUB_DT_DT a b)].
Qed.

(** The results: exact, or an abort. *)
Lemma stamp_in : forall t z (b : bool) (p : Prop) o, o = (if b then Ok z else Panic) -> (b = true <-> p) -> delivers t z p (stamp t o).
Proof.
  intros t z b p o -> B. destruct b; split; intros H; try reflexivity; [contradiction (H (proj1 B eq_refl))|].
  apply B in H. discriminate H.
Qed.
Lemma stamp_rep : forall t z (p : Prop) o, (p -> o = Ok z) /\ (~ p -> o = Panic) -> delivers t z p (stamp t o).
Proof. intros t z p o [A B]. split; intros H; [rewrite (A H)|rewrite (B H)]; reflexivity. Qed.
Lemma sums_exact : forall P a b, of_type S_TIME a -> of_type S_TIME b ->
  delivers S_TIME (a + b) (of_type S_TIME (a + b)) (call P "ADD" [(S_TIME, VZ a); (S_TIME, VZ b)]) /\
  delivers S_TIME (a - b) (of_type S_TIME (a - b)) (call P "SUB" [(S_TIME, VZ a); (S_TIME, VZ b)]) /\
  (forall t, List.In t [S_DATE; S_TOD; S_DT] ->
     delivers S_TIME (a - b) (of_type S_TIME (a - b)) (call P "SUB" [(t, VZ a); (t, VZ b)])) /\
  (forall t, List.In t [S_TOD; S_DT] ->
     delivers t (a + b) (representable (p_chrono P) (a + b)) (call P "ADD" [(t, VZ a); (S_TIME, VZ b)]) /\
     delivers t (a - b) (representable (p_chrono P) (a - b)) (call P "SUB" [(t, VZ a); (S_TIME, VZ b)])).
Proof.
  intros P a b A B. destruct (sum_calls P a b) as (E1 & E2 & E3 & E4 & E5 & E6 & E7 & E8 & E9).
  assert (I : forall z, in_ityb i64 z = true <-> of_type S_TIME z) by (intros z; rewrite in_ityb_iff; unfold of_type, in_ity; cbn; lia).
  split; [rewrite E1; apply (stamp_in _ _ (in_ityb i64 (a + b))); [now apply add_time_lemma|apply I]|].
  split; [rewrite E4; apply (stamp_in _ _ (in_ityb i64 (a - b))); [now apply sub_time_lemma|apply I]|]. split.
  - intros t [<-|[<-|[<-|[]]]]; [rewrite E5|rewrite E7|rewrite E9];
      (apply (stamp_in _ _ (in_ityb i64 (a - b))); [now apply sub_datetimes_lemma|apply I]).
  - intros t [<-|[<-|[]]]; [rewrite E2, E6|rewrite E3, E8];
      (split; apply stamp_rep; [apply add_datetime_lemma|apply sub_datetime_lemma]).
Qed.
Lemma next_day_valid : forall x, valid_date x -> valid_date (next_day x).
Proof.
  intros [[y m] d] [M D]. unfold next_day. destruct (d <? days_in_month y m) eqn:E; [apply Z.ltb_lt in E; split; lia|].
  assert (B : forall y m, 1 <= days_in_month y m) by (intros; unfold days_in_month; destruct (_ || _); [lia|]; destruct (_ =? 2); [destruct (is_leapb _); lia|lia]).
  destruct (m <? 12) eqn:F; [apply Z.ltb_lt in F|]; (split; [lia|]); (split; [lia|apply B]).
Qed.
Lemma days_later_number : forall x n k, 0 <= k -> day_number x n -> day_number (days_later k x) (n + k).
Proof.
  intros x n k K N. unfold days_later. rewrite <- (Z2Nat.id k K) at 2. generalize (Z.to_nat k). clear k K. intros k.
  induction k as [|k IH]; [now rewrite Z.add_0_r|]. cbn [Nat.iter nat_rect].
  replace (n + Z.of_nat (S k)) with (n + Z.of_nat k + 1) by lia. apply day_next. exact IH.
Qed.
Lemma add_days : forall P n k, of_type S_DT n -> representable (p_chrono P) (n + k * DAY) -> 0 <= k ->
  call P "ADD" [(S_DT, VZ n); (S_TIME, VZ (k * DAY))] = Ok (S_DT, VZ (n + k * DAY)) /\
  forall r t x z ys, List.In t wide_ints -> get x r = Ok (S_DT, VZ n) -> get z r = Ok (S_DT, VZ (n + k * DAY)) ->
    variables t ys r -> length ys = 7%nat ->
    exists y m d y' m' d' h mi s ms r1 r2, days_later k (y, m, d) = (y', m', d') /\
      splits_into P r "SPLIT_DT" x ys t [y; m; d; h; mi; s; ms] r1 /\
      splits_into P r "SPLIT_DT" z ys t [y'; m'; d'; h; mi; s; ms] r2.
Proof.
  intros P n k I R K. split.
  - destruct (sum_calls P n (k * DAY)) as (_ & _ & -> & _). unfold ADD_DT_TIME. now rewrite (proj1 (add_datetime_lemma (p_chrono P) n (k * DAY)) R).
  - intros r t x z ys T G1 G2 V L. destruct R as [I2 _].
    destruct (split_dt_prog P r t x ys n T G1 I V L) as (y & m & d & h & mi & s & ms & r1 & S1 & N1 & C1 & B1 & _).
    destruct (split_dt_prog P r t z ys _ T G2 I2 V L) as (y' & m' & d' & h' & mi' & s' & ms' & r2 & S2 & N2 & C2 & B2 & _).
    replace ((n + k * DAY) / DAY) with (n / DAY + k) in N2 by (rewrite Z.div_add by discriminate; reflexivity).
    replace ((n + k * DAY) mod DAY - (n + k * DAY) mod MILLI) with (n mod DAY - n mod MILLI) in B2
      by (rewrite Z.mod_add by discriminate; replace (k * DAY) with (k * 86400000 * MILLI) by (unfold DAY, MILLI; lia); rewrite Z.mod_add by discriminate; reflexivity).
    rewrite <- B1 in B2. destruct (clock_unique _ _ _ _ _ _ _ _ C2 C1 B2) as (-> & -> & -> & ->).
    exists y, m, d, y', m', d', h, mi, s, ms, r1, r2. split; [|split; assumption].
    exact (day_number_inj _ _ _ (days_later_number _ _ _ K N1) N2).
Qed.

(** * Distances between dates *)
Lemma concat_date_number : forall P u y m d a, List.In u narrow_ints -> Forall (of_type u) [y; m; d] ->
  call P "CONCAT_DATE" (ints u [y; m; d]) = Ok (S_DATE, VZ a) ->
  exists n, a = n * DAY /\ day_number (y, m, d) n /\ in_ity i64 a /\ 1677 <= y <= 2262.
Proof.
  intros P u y m d a U F E. inversion F as [|? ? Y F']; subst. inversion F' as [|? ? M F'']; subst. inversion F'' as [|? ? D _]; subst.
  rewrite concat_date_call in E by (try apply narrow_wide; assumption). apply stamp_ok in E.
  destruct (narrow_ity u U) as (i & Ni & R). apply R in Y, M, D.
  destruct (CONCAT_DATE_ok_valid _ i y m d a Ni Y M D E) as [Va Yr].
  destruct (CONCAT_DATE_valid (p_chrono P) i y m d Ni Y M D Va) as (k & K & E'). rewrite E in E'.
  destruct (in_ityb i64 (k * DAY)) eqn:B; [|discriminate E']. injection E' as ->. apply in_ityb_iff in B. exists k. repeat split; try assumption; try apply Yr.
  - apply B. - apply B.
Qed.
Lemma between : forall P u v x x' a b k, List.In u narrow_ints -> List.In v narrow_ints ->
  let '(y, m, d) := x in let '(y', m', d') := x' in
  Forall (of_type u) [y; m; d] -> Forall (of_type v) [y'; m'; d'] -> 0 <= k -> days_later k x = x' ->
  call P "CONCAT_DATE" (ints u [y; m; d]) = Ok (S_DATE, VZ a) -> call P "CONCAT_DATE" (ints v [y'; m'; d']) = Ok (S_DATE, VZ b) ->
  call P "SUB" [(S_DATE, VZ b); (S_DATE, VZ a)] = (if of_typeb S_TIME (k * DAY) then Ok (S_TIME, VZ (k * DAY)) else Panic) /\
  call P "SUB" [(S_DATE, VZ a); (S_DATE, VZ b)] = (if of_typeb S_TIME (- k * DAY) then Ok (S_TIME, VZ (- k * DAY)) else Panic).
Proof.
  intros P u v [[y m] d] [[y' m'] d'] a b k U V F F' K X E E'.
  destruct (concat_date_number P u y m d a U F E) as (n & -> & N & I & _).
  destruct (concat_date_number P v y' m' d' b V F' E') as (n' & -> & N' & I' & _).
  pose proof (days_later_number _ _ _ K N) as N2. rewrite X in N2. apply day_number_iff in N', N2.
  assert (n' = n + k) as -> by (destruct N', N2; congruence).
  destruct (sum_calls P ((n + k) * DAY) (n * DAY)) as (_ & _ & _ & _ & -> & _).
  destruct (sum_calls P (n * DAY) ((n + k) * DAY)) as (_ & _ & _ & _ & -> & _).
  unfold SUB_DATE_DATE. rewrite !sub_datetimes_lemma by assumption.
  replace ((n + k) * DAY - n * DAY) with (k * DAY) by lia. replace (n * DAY - (n + k) * DAY) with (- k * DAY) by lia.
  change (of_typeb S_TIME (k * DAY)) with (in_ityb i64 (k * DAY)). change (of_typeb S_TIME (- k * DAY)) with (in_ityb i64 (- k * DAY)).
  destruct (in_ityb i64 (k * DAY)), (in_ityb i64 (- k * DAY)); split; reflexivity.
Qed.

(** Months and years. *)
Lemma later_in_month : forall y m j, 1 <= m <= 12 -> 0 <= j < days_in_month y m -> days_later j (y, m, 1) = (y, m, 1 + j).
Proof.
  intros y m j M J. unfold days_later. rewrite <- (Z2Nat.id j) in J |- * at 2 by lia. revert J. generalize (Z.to_nat j). clear j.
  induction n as [|n IH]; intros J; [reflexivity|]. cbn [Nat.iter nat_rect]. unfold Nat.iter in IH. rewrite IH by lia.
  unfold next_day. replace (1 + Z.of_nat n <? days_in_month y m) with true by (symmetry; apply Z.ltb_lt; lia). f_equal. lia.
Qed.
Lemma next_month : forall y m, 1 <= m <= 12 -> days_later (days_in_month y m) (y, m, 1) = if m <? 12 then (y, m + 1, 1) else (y + 1, 1, 1).
Proof.
  intros y m M.
  assert (B : 1 <= days_in_month y m) by (unfold days_in_month; destruct (_ || _); [lia|]; destruct (_ =? 2); [destruct (is_leapb _); lia|lia]).
  replace (days_in_month y m) with (Z.succ (days_in_month y m - 1)) at 1 by lia.
  unfold days_later. rewrite Z2Nat.inj_succ by lia. cbn [Nat.iter nat_rect]. change (nat_rect _ ?z (fun _ => ?f) ?n) with (Nat.iter n f z).
  pose proof (later_in_month y m (days_in_month y m - 1) M) as L. unfold days_later in L. unfold Nat.iter in *. rewrite L by lia.
  unfold next_day. replace (1 + (days_in_month y m - 1) <? days_in_month y m) with false by (symmetry; apply Z.ltb_ge; lia). reflexivity.
Qed.
Lemma days_later_add : forall a b x, 0 <= a -> 0 <= b -> days_later (a + b) x = days_later b (days_later a x).
Proof.
  intros a b x A B. unfold days_later. rewrite Z.add_comm, Z2Nat.inj_add by lia. generalize (Z.to_nat b), (Z.to_nat a). intros n k.
  induction n as [|n IH]; [reflexivity|]. cbn [Nat.add Nat.iter nat_rect]. f_equal. exact IH.
Qed.
Lemma next_year : forall y, days_later (if is_leapb y then 366 else 365) (y, 1, 1) = (y + 1, 1, 1).
Proof.
  intros y.
  assert (M : forall k m, 1 <= m <= 11 -> 0 <= k -> days_later k (y, 1, 1) = (y, m, 1) -> days_later (k + days_in_month y m) (y, 1, 1) = (y, m + 1, 1)).
  { intros k m Hm K E. assert (0 <= days_in_month y m) by (unfold days_in_month; destruct (_ || _); [lia|]; destruct (_ =? 2); [destruct (is_leapb _); lia|lia]).
    rewrite days_later_add, E, next_month by lia. replace (m <? 12) with true by (symmetry; apply Z.ltb_lt; lia). reflexivity. }
  assert (E : days_later (if is_leapb y then 335 else 334) (y, 1, 1) = (y, 12, 1)).
  { pose proof (M 0 1 ltac:(lia) ltac:(lia) eq_refl) as H. change (days_in_month y 1) with 31 in H.
    apply (M _ 2) in H; [|lia|lia]. unfold days_in_month in H. cbn [Z.eqb Pos.eqb orb] in H.
    destruct (is_leapb y);
    (cbn [Z.add Pos.add Pos.succ Pos.add_carry] in H;
    do 9 (apply M in H; [|lia|lia]; match type of H with context [days_in_month y ?m] => change (days_in_month y m) with 31 in H || change (days_in_month y m) with 30 in H end; cbn [Z.add Pos.add Pos.succ Pos.add_carry] in H);
    exact H). }
  replace (if is_leapb y then 366 else 365) with ((if is_leapb y then 335 else 334) + 31) by (destruct (is_leapb y); reflexivity).
  rewrite days_later_add, E by (destruct (is_leapb y); lia). exact (next_month y 12 ltac:(lia)).
Qed.
Lemma month_length : forall P u y m a b, List.In u narrow_ints -> 1 <= m <= 11 -> Forall (of_type u) [y; m; m + 1; 1] ->
  call P "CONCAT_DATE" (ints u [y; m; 1]) = Ok (S_DATE, VZ a) -> call P "CONCAT_DATE" (ints u [y; m + 1; 1]) = Ok (S_DATE, VZ b) ->
  call P "SUB" [(S_DATE, VZ b); (S_DATE, VZ a)] = Ok (S_TIME, VZ (days_in_month y m * DAY)).
Proof.
  intros P u y m a b U M F A B. inversion F as [|? ? F1 G]; subst. inversion G as [|? ? F2 G2]; subst. inversion G2 as [|? ? F3 G3]; subst.
  inversion G3 as [|? ? F4 G4]; subst.
  assert (D : 0 <= days_in_month y m <= 31) by (unfold days_in_month; destruct (_ || _); [lia|]; destruct (_ =? 2); [destruct (is_leapb _); lia|lia]).
  pose proof (next_month y m ltac:(lia)) as N. replace (m <? 12) with true in N by (symmetry; apply Z.ltb_lt; lia).
  destruct (between P u u (y, m, 1) (y, m + 1, 1) a b (days_in_month y m) U U) as [-> _];
    [repeat (constructor; [assumption|]); constructor|repeat (constructor; [assumption|]); constructor|lia|exact N|exact A|exact B|].
  replace (of_typeb S_TIME (days_in_month y m * DAY)) with true; [reflexivity|]. symmetry. unfold of_typeb. cbn [bounds fst snd].
  apply andb_true_iff. unfold DAY. rewrite !Z.leb_le. lia.
Qed.
Lemma year_length : forall P u y a b, List.In u narrow_ints -> Forall (of_type u) [y; y + 1; 1] ->
  call P "CONCAT_DATE" (ints u [y; 1; 1]) = Ok (S_DATE, VZ a) -> call P "CONCAT_DATE" (ints u [y + 1; 1; 1]) = Ok (S_DATE, VZ b) ->
  call P "SUB" [(S_DATE, VZ b); (S_DATE, VZ a)] = Ok (S_TIME, VZ ((if is_leapb y then 366 else 365) * DAY)).
Proof.
  intros P u y a b U F A B. inversion F as [|? ? F1 G]; subst. inversion G as [|? ? F2 G2]; subst. inversion G2 as [|? ? F3 G3]; subst.
  destruct (between P u u (y, 1, 1) (y + 1, 1, 1) a b (if is_leapb y then 366 else 365) U U) as [-> _];
    [repeat (constructor; [assumption|]); constructor|repeat (constructor; [assumption|]); constructor|destruct (is_leapb y); lia|apply next_year|exact A|exact B|].
  destruct (is_leapb y); reflexivity.
Qed.
Lemma weekday_call : forall P n, of_type S_DATE n -> call P "DAY_OF_WEEK" [(S_DATE, VZ n)] = Ok (S_SINT, VZ ((n / DAY + 4) mod 7)).
Proof.
  intros P n I. by_unary. destruct (weekday_name P n I) as (w & E & _ & ->).
  change (api P "DAY_OF_WEEK" [VZ n]) with (rust_call P "DAY_OF_WEEK" [VZ n]). rewrite E. reflexivity.
Qed.
Lemma weekday_later : forall P u v x x' a b k w, List.In u narrow_ints -> List.In v narrow_ints ->
  let '(y, m, d) := x in let '(y', m', d') := x' in
  Forall (of_type u) [y; m; d] -> Forall (of_type v) [y'; m'; d'] -> 0 <= k -> days_later k x = x' ->
  call P "CONCAT_DATE" (ints u [y; m; d]) = Ok (S_DATE, VZ a) -> call P "CONCAT_DATE" (ints v [y'; m'; d']) = Ok (S_DATE, VZ b) ->
  call P "DAY_OF_WEEK" [(S_DATE, VZ a)] = Ok (S_SINT, VZ w) -> call P "DAY_OF_WEEK" [(S_DATE, VZ b)] = Ok (S_SINT, VZ ((w + k) mod 7)).
Proof.
  intros P u v [[y m] d] [[y' m'] d'] a b k w U V F F' K X E E' W.
  destruct (concat_date_number P u y m d a U F E) as (n & -> & N & I & _).
  destruct (concat_date_number P v y' m' d' b V F' E') as (n' & -> & N' & I' & _).
  pose proof (days_later_number _ _ _ K N) as N2. rewrite X in N2. apply day_number_iff in N', N2.
  assert (n' = n + k) as -> by (destruct N', N2; congruence).
  rewrite weekday_call in W by exact I. rewrite weekday_call by exact I'. rewrite !Z.div_mul in * by discriminate.
  injection W as <-. rewrite Zplus_mod_idemp_l. do 3 f_equal. f_equal. lia.
Qed.
Lemma cycle_days : forall y m d, nd_days (nd_of (y + 400, m, d)) = nd_days (nd_of (y, m, d)) + 146097.
Proof.
  intros y m d. unfold nd_days, nd_of. cbn [nd_year nd_ord]. unfold year_start.
  assert (L : ch_leap (y + 400) = ch_leap y).
  { rewrite !leap_eq. unfold is_leapb. replace ((y + 400) mod 400) with (y mod 400) by dlia. replace ((y + 400) mod 4) with (y mod 4) by dlia.
    replace ((y + 400) mod 100) with (y mod 100) by dlia. reflexivity. }
  rewrite L. replace (y + 400) with (400 * 1 + y) by lia. rewrite year_delta_cycle. lia.
Qed.
Lemma calendar_cycle : forall P u y m d a b w, List.In u narrow_ints -> Forall (of_type u) [y; y + 400; m; d] ->
  call P "CONCAT_DATE" (ints u [y; m; d]) = Ok (S_DATE, VZ a) -> call P "CONCAT_DATE" (ints u [y + 400; m; d]) = Ok (S_DATE, VZ b) ->
  b = a + 146097 * DAY /\
  (call P "DAY_OF_WEEK" [(S_DATE, VZ a)] = Ok (S_SINT, VZ w) -> call P "DAY_OF_WEEK" [(S_DATE, VZ b)] = Ok (S_SINT, VZ w)).
Proof.
  intros P u y m d a b w U F E E'. inversion F as [|? ? F1 G]; subst. inversion G as [|? ? F2 G2]; subst. inversion G2 as [|? ? F3 G3]; subst.
  inversion G3 as [|? ? F4 G4]; subst.
  destruct (concat_date_number P u y m d a U) as (n & -> & N & I & _); [repeat (constructor; [assumption|]); constructor|exact E|].
  destruct (concat_date_number P u (y + 400) m d b U) as (n' & -> & N' & I' & _); [repeat (constructor; [assumption|]); constructor|exact E'|].
  apply day_number_iff in N, N'. destruct N as [_ N], N' as [_ N']. rewrite cycle_days, N in N'. subst n'. split; [lia|].
  rewrite !weekday_call by assumption. rewrite !Z.div_mul by discriminate. intros W. injection W as <-.
  do 3 f_equal. replace (n + 146097 + 4) with (n + 4 + 20871 * 7) by lia. apply Z.mod_add. discriminate.
Qed.
Lemma leap_day : forall P u y, List.In u narrow_ints -> of_type u y -> 1678 <= y <= 2261 ->
  (is_leapb y = true -> exists a, call P "CONCAT_DATE" (ints u [y; 2; 29]) = Ok (S_DATE, VZ a)) /\
  (is_leapb y = false -> call P "CONCAT_DATE" (ints u [y; 2; 29]) = Panic).
Proof.
  intros P u y U Y R.
  assert (B : forall z, 0 <= z <= 2262 -> of_type u z) by (intros z Z; apply small_type; [now apply narrow_wide|exact Z]).
  rewrite concat_date_call by (try apply narrow_wide; try apply B; assumption || lia).
  destruct (narrow_ity u U) as (i & Ni & T).
  assert (I : in_ity i y /\ in_ity i 2 /\ in_ity i 29) by (rewrite <- !T; repeat split; apply B; lia). destruct I as (I1 & I2 & I3).
  assert (V : valid_date (y, 2, 29) <-> is_leapb y = true).
  { unfold valid_date, days_in_month. cbn [Z.eqb Pos.eqb orb]. destruct (is_leapb y); split; intros H; try discriminate H; try reflexivity; lia. }
  split; intros L.
  - destruct (CONCAT_DATE_valid (p_chrono P) i y 2 29 Ni I1 I2 I3 (proj2 V L)) as (k & K & ->).
    assert (Q : in_ityb i64 (k * DAY) = true).
    { apply in_ityb_iff. rewrite i64_range. apply day_number_iff in K. destruct K as [_ <-]. unfold nd_days, nd_of. cbn [nd_year nd_ord].
      destruct (Z.lt_ge_cases 1677 y) as [_|]; [|lia]. pose proof (year_start_mono 1677 y ltac:(lia)) as Lo. pose proof (year_start_mono y 2262 ltac:(lia)) as Hi.
      change (year_start 1677) with 612513 in Lo. change (year_start 2262) with 826179 in Hi.
      assert (0 <= b2z (ch_leap 1677)) by (vm_compute; discriminate). assert (0 <= b2z (ch_leap y) <= 1) by (destruct (ch_leap y); cbn; lia).
      assert (31 = cum (ch_leap y) 2) by (destruct (ch_leap y); reflexivity). unfold DAY. lia. }
    rewrite Q. exists (k * DAY). reflexivity.
  - rewrite (CONCAT_DATE_invalid (p_chrono P) i y 2 29 Ni I1 I2 I3); [reflexivity|]. rewrite V, L. discriminate.
Qed.
