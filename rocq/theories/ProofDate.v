(** Proofs about the calendar and the date functions. *)
From Coq Require Import ZArith List Bool Lia.
From Verif Require Import Base ModelChrono ModelDate SpecDate ProofBase.
Import ListNotations.
Open Scope Z_scope.

Ltac dlia := Z.div_mod_to_equations; lia.

(** * Years and days *)

(** Days from 0000-01-01 to January 1st of year [y]. *)
Definition year_start (y : Z) : Z := 365 * y + year_delta y.
(** Days from 1970-01-01. *)
Definition nd_days (d : ndate) : Z := year_start (nd_year d) + nd_ord d - 1 - 719528.
Definition b2z (b : bool) : Z := if b then 1 else 0.
Definition valid_nd (d : ndate) : Prop := 1 <= nd_ord d <= 365 + b2z (ch_leap (nd_year d)).

Lemma year_delta_succ : forall y, year_delta (y + 1) = year_delta y + b2z (ch_leap y).
Proof.
  intros y. unfold year_delta, ch_leap, b2z.
  destruct (Z.eqb_spec (y mod 4) 0), (Z.eqb_spec (y mod 100) 0), (Z.eqb_spec (y mod 400) 0);
    cbn [andb orb negb]; dlia.
Qed.

Lemma year_delta_cycle : forall q r, year_delta (400 * q + r) = 97 * q + year_delta r.
Proof. intros. unfold year_delta. dlia. Qed.

Lemma ch_leap_mod : forall y, ch_leap (y mod 400) = ch_leap y.
Proof.
  intros y. unfold ch_leap. rewrite Z.mod_mod by lia.
  replace ((y mod 400) mod 4) with (y mod 4) by dlia.
  replace ((y mod 400) mod 100) with (y mod 100) by dlia. reflexivity.
Qed.

Lemma year_start_mono : forall a b, a < b -> year_start a + 365 + b2z (ch_leap a) <= year_start b.
Proof.
  intros a b H. unfold year_start.
  assert (E : 365 * (a + 1) + year_delta (a + 1) <= 365 * b + year_delta b).
  { unfold year_delta. dlia. }
  rewrite year_delta_succ in E. lia.
Qed.

Lemma nd_days_inj : forall a b, valid_nd a -> valid_nd b -> nd_days a = nd_days b -> a = b.
Proof.
  intros [y1 o1] [y2 o2] V1 V2 E. unfold valid_nd, nd_days in *. cbn [nd_year nd_ord] in *.
  destruct (Z.lt_trichotomy y1 y2) as [H|[H|H]].
  - pose proof (year_start_mono _ _ H). lia.
  - subst. f_equal. lia.
  - pose proof (year_start_mono _ _ H). lia.
Qed.

Lemma cycle_to_yo_spec : forall c, 0 <= c < 146097 ->
  let '(y, o) := cycle_to_yo c in
  0 <= y < 400 /\ 1 <= o <= 365 + b2z (ch_leap y) /\ yo_to_cycle y o = c.
Proof.
  intros c H. unfold cycle_to_yo, yo_to_cycle. cbv zeta.
  assert (Y : 0 <= c / 365 <= 400) by dlia.
  assert (O : c = 365 * (c / 365) + c mod 365 /\ 0 <= c mod 365 < 365) by dlia.
  set (y := c / 365) in *. set (o := c mod 365) in *.
  assert (B : forall z, -1 <= z <= 400 -> 0 <= year_delta z <= 97).
  { intros z Hz. unfold year_delta. dlia. }
  pose proof (B y) as B1. pose proof (B (y - 1)) as B2.
  pose proof (year_delta_succ (y - 1)) as S. replace (y - 1 + 1) with y in S by lia.
  assert (N : y = 0 -> year_delta y = 0) by (intros ->; reflexivity).
  assert (N' : y = 400 -> year_delta y = 97) by (intros ->; reflexivity).
  destruct (Z.ltb_spec o (year_delta y)).
  - split; [lia|]. split; lia.
  - split; [lia|]. split; [|lia]. unfold b2z. destruct (ch_leap y); lia.
Qed.

Lemma nd_days_cycle : forall d,
  nd_days d = nd_year d / 400 * 146097 + nd_cycle d - 719528.
Proof.
  intros [y o]. unfold nd_days, nd_cycle, yo_to_cycle, year_start. cbn [nd_year nd_ord].
  rewrite (Z.div_mod y 400) at 1 2 by lia. rewrite year_delta_cycle. lia.
Qed.

Lemma of_cycle : forall q c, 0 <= c < 146097 ->
  let d := let '(y, o) := cycle_to_yo c in NDate (q * 400 + y) o in
  valid_nd d /\ nd_days d = q * 146097 + c - 719528.
Proof.
  intros q c H. pose proof (cycle_to_yo_spec c H) as S. destruct (cycle_to_yo c) as [y o].
  destruct S as (Y & O & C). cbv zeta. unfold valid_nd. cbn [nd_year nd_ord].
  rewrite (Z.add_comm (q * 400) y), <- (ch_leap_mod (y + q * 400)), Z.mod_add, (Z.mod_small y) by lia.
  split; [exact O|]. unfold nd_days, year_start. cbn [nd_year nd_ord].
  replace (y + q * 400) with (400 * q + y) by lia. rewrite year_delta_cycle.
  unfold yo_to_cycle in C. lia.
Qed.

Lemma from_days_spec : forall n, valid_nd (from_num_days_from_ce (n + 719163)) /\
  nd_days (from_num_days_from_ce (n + 719163)) = n.
Proof.
  intros n. unfold from_num_days_from_ce. cbv zeta.
  pose proof (of_cycle ((n + 719163 + 365) / 146097) ((n + 719163 + 365) mod 146097)) as H.
  destruct (cycle_to_yo ((n + 719163 + 365) mod 146097)) as [y o].
  destruct H as [V E]; [dlia|]. split; [exact V|]. rewrite E. dlia.
Qed.

Lemma date_add_days_spec : forall d k, valid_nd (date_add_days d k) /\
  nd_days (date_add_days d k) = nd_days d + k.
Proof.
  intros d k. rewrite (nd_days_cycle d). unfold date_add_days. cbv zeta. fold (nd_cycle d).
  pose proof (of_cycle (nd_year d / 400 + (nd_cycle d + k) / 146097)
                ((nd_cycle d + k) mod 146097)) as H.
  destruct (cycle_to_yo ((nd_cycle d + k) mod 146097)) as [y o].
  destruct H as [V E]; [dlia|]. split; [exact V|]. rewrite E. dlia.
Qed.

Lemma num_days_spec : forall d, num_days_from_ce d - 719163 = nd_days d.
Proof.
  intros [y o]. unfold num_days_from_ce, nd_days, year_start, year_delta.
  cbn [nd_year nd_ord]. rewrite !Z.shiftr_div_pow2 by lia. change (2 ^ 2) with 4.
  destruct (Z.ltb_spec (y - 1) 0).
  - set (e := 1 + - (y - 1) / 400). assert (y - 1 + e * 400 >= 0) by (unfold e; dlia).
    clearbody e. dlia.
  - dlia.
Qed.

(** * Months *)

Lemma leap_eq : forall y, ch_leap y = is_leapb y.
Proof.
  intros. unfold ch_leap, is_leapb.
  destruct (Z.eqb_spec (y mod 4) 0), (Z.eqb_spec (y mod 100) 0), (Z.eqb_spec (y mod 400) 0);
    cbn; try reflexivity; exfalso; dlia.
Qed.

Definition cum (leap : bool) (m : Z) : Z :=
  fold_right Z.add 0 (firstn (Z.to_nat (m - 1)) (month_lengths leap)).

Lemma month_cases : forall m, 1 <= m <= 12 ->
  m = 1 \/ m = 2 \/ m = 3 \/ m = 4 \/ m = 5 \/ m = 6 \/ m = 7 \/ m = 8 \/ m = 9 \/ m = 10 \/
  m = 11 \/ m = 12.
Proof. intros. lia. Qed.

Lemma nth_month : forall y m, 1 <= m <= 12 ->
  nth (Z.to_nat (m - 1)) (month_lengths (ch_leap y)) 0 = days_in_month y m.
Proof.
  intros y m H. unfold days_in_month. rewrite leap_eq.
  destruct (month_cases m H) as [->|[->|[->|[->|[->|[->|[->|[->|[->|[->|[->| ->]]]]]]]]]]];
    reflexivity.
Qed.

Lemma md_search_spec : forall leap o, 1 <= o <= 365 + b2z leap ->
  let '(m, d) := md_search (month_lengths leap) 1 o in
  1 <= m <= 12 /\ 1 <= d <= nth (Z.to_nat (m - 1)) (month_lengths leap) 0 /\
  o = cum leap m + d.
Proof.
  intros leap o H. unfold cum.
  destruct leap; cbn [b2z] in H; cbn [month_lengths md_search];
  repeat match goal with
  | |- context [Z.leb ?a ?b] => destruct (Z.leb_spec a b)
  end; cbn; unfold Pos.to_nat; cbn -[Z.add]; lia.
Qed.

Lemma ymd_spec : forall d, valid_nd d ->
  let '(y, m, dd) := ymd d in
  y = nd_year d /\ valid_date (y, m, dd) /\ nd_ord d = cum (ch_leap y) m + dd.
Proof.
  intros d V. unfold ymd, nd_md. pose proof (md_search_spec _ _ V) as S.
  destruct (md_search _ 1 (nd_ord d)) as [m dd]. destruct S as (M & D & O).
  split; [reflexivity|]. split; [|exact O]. unfold valid_date. rewrite nth_month in D by lia. lia.
Qed.

(** The date model of a calendar date. *)
Definition nd_of (x : Z * Z * Z) : ndate :=
  let '(y, m, d) := x in NDate y (cum (ch_leap y) m + d).

Lemma cum_bounds : forall y m d, 1 <= m <= 12 -> 1 <= d <= days_in_month y m ->
  valid_nd (NDate y (cum (ch_leap y) m + d)) /\
  cum (ch_leap y) (m + 1) = cum (ch_leap y) m + days_in_month y m.
Proof.
  intros y m d M. unfold valid_nd, days_in_month. cbn [nd_year nd_ord]. rewrite leap_eq.
  destruct (month_cases m M) as [->|[->|[->|[->|[->|[->|[->|[->|[->|[->|[->| ->]]]]]]]]]]];
    destruct (is_leapb y);
    repeat match goal with |- context [cum ?b ?k] =>
      let v := eval vm_compute in (cum b k) in change (cum b k) with v end;
    cbn -[Z.add]; lia.
Qed.

Lemma nd_of_valid : forall x, valid_date x -> valid_nd (nd_of x).
Proof. intros [[y m] d] [M D]. now apply cum_bounds. Qed.

Lemma cum_mono : forall leap m m', 1 <= m -> m < m' -> m' <= 12 ->
  cum leap m + nth (Z.to_nat (m - 1)) (month_lengths leap) 0 <= cum leap m'.
Proof.
  intros leap m m' H1 H2 H3.
  assert (A : 1 <= m <= 12) by lia. assert (B : 1 <= m' <= 12) by lia.
  destruct (month_cases m A) as [->|[->|[->|[->|[->|[->|[->|[->|[->|[->|[->| ->]]]]]]]]]]];
  destruct (month_cases m' B) as [->|[->|[->|[->|[->|[->|[->|[->|[->|[->|[->| ->]]]]]]]]]]];
  try lia; destruct leap; vm_compute; discriminate.
Qed.

Lemma ymd_nd_of : forall x, valid_date x -> ymd (nd_of x) = x.
Proof.
  intros [[y m] d] V. pose proof (ymd_spec _ (nd_of_valid _ V)) as S.
  destruct (ymd (nd_of (y, m, d))) as [[y' m'] d']. destruct S as (-> & V' & O).
  unfold nd_of in *. cbn [nd_year nd_ord] in *. destruct V as [M D], V' as [M' D'].
  assert (m = m').
  { rewrite <- nth_month in D, D' by lia.
    destruct (Z.lt_trichotomy m m') as [H|[H|H]]; [|exact H|].
    - pose proof (cum_mono (ch_leap y) m m'). lia.
    - pose proof (cum_mono (ch_leap y) m' m). lia. }
  subst m'. do 2 f_equal. lia.
Qed.

Lemma nd_of_ymd : forall d, valid_nd d -> nd_of (ymd d) = d /\ valid_date (ymd d).
Proof.
  intros d V. pose proof (ymd_spec d V) as S. destruct (ymd d) as [[y m] dd].
  destruct S as (-> & V' & O). split; [|exact V']. unfold nd_of. rewrite <- O. now destruct d.
Qed.

Lemma next_day_spec : forall x, valid_date x ->
  valid_date (next_day x) /\ nd_days (nd_of (next_day x)) = nd_days (nd_of x) + 1.
Proof.
  intros [[y m] d] V. unfold next_day. destruct V as [M D].
  destruct (Z.ltb_spec d (days_in_month y m)).
  - split; [split; lia|]. unfold nd_of, nd_days. cbn [nd_year nd_ord]. lia.
  - assert (d = days_in_month y m) by lia. destruct (Z.ltb_spec m 12).
    + split.
      * split; [lia|]. unfold days_in_month.
        destruct (_ || _); [lia|]. destruct (_ =? 2); [destruct (is_leapb y)|]; lia.
      * unfold nd_of, nd_days. cbn [nd_year nd_ord].
        destruct (cum_bounds y m d M D) as [_ ->]. lia.
    + assert (m = 12) by lia. subst m. split; [split; cbn; lia|].
      unfold nd_of, nd_days, year_start. cbn [nd_year nd_ord]. rewrite year_delta_succ.
      assert (d = 31) by (subst d; reflexivity). subst d.
      destruct (ch_leap y), (ch_leap (y + 1));
      repeat match goal with |- context [cum ?b ?k] =>
        let v := eval vm_compute in (cum b k) in change (cum b k) with v end; cbn [b2z]; lia.
Qed.

Lemma next_day_surj : forall x, valid_date x -> exists x', valid_date x' /\ next_day x' = x.
Proof.
  intros x V. set (d := nd_of x). pose proof (nd_of_valid x V) as Vd.
  destruct (from_days_spec (nd_days d - 1)) as [Vp Ep].
  set (p := from_num_days_from_ce (nd_days d - 1 + 719163)) in *.
  destruct (nd_of_ymd p Vp) as [Np Vy]. exists (ymd p). split; [exact Vy|].
  destruct (next_day_spec _ Vy) as [Vn En]. rewrite Np, Ep in En.
  rewrite <- (ymd_nd_of x V), <- (ymd_nd_of _ Vn). f_equal. apply nd_days_inj.
  - now apply nd_of_valid.
  - exact Vd.
  - rewrite En. fold d. lia.
Qed.

(** The walking specification coincides with the day count. *)
Lemma day_number_sound : forall x n, day_number x n -> valid_date x /\ nd_days (nd_of x) = n.
Proof.
  induction 1 as [|x n H [V E]|x n V H [V' E]].
  - split; [split; cbn; lia|reflexivity].
  - destruct (next_day_spec x V) as [V' E']. split; [exact V'|]. lia.
  - split; [exact V|]. destruct (next_day_spec x V) as [_ E']. lia.
Qed.

Lemma day_number_complete_pos : forall k x, valid_date x -> nd_days (nd_of x) = Z.of_nat k ->
  day_number x (Z.of_nat k).
Proof.
  induction k as [|k IH]; intros x V E.
  - replace x with (1970, 1, 1); [constructor|].
    rewrite <- (ymd_nd_of x V), <- (ymd_nd_of (1970, 1, 1)) by (split; cbn; lia).
    f_equal. apply nd_days_inj.
    + apply nd_of_valid. split; cbn; lia.
    + now apply nd_of_valid.
    + rewrite E. reflexivity.
  - destruct (next_day_surj x V) as (x' & V' & <-). rewrite Nat2Z.inj_succ in *.
    replace (Z.succ (Z.of_nat k)) with (Z.of_nat k + 1) by lia. apply day_next. apply IH; [exact V'|].
    destruct (next_day_spec x' V'). lia.
Qed.

Lemma day_number_complete_neg : forall k x, valid_date x -> nd_days (nd_of x) = - Z.of_nat k ->
  day_number x (- Z.of_nat k).
Proof.
  induction k as [|k IH]; intros x V E.
  - apply (day_number_complete_pos 0); assumption.
  - rewrite Nat2Z.inj_succ in *. replace (- Z.succ (Z.of_nat k)) with (- Z.of_nat k - 1) in * by lia.
    destruct (next_day_spec x V) as [V' E']. apply day_prev; [exact V|]. apply IH; [exact V'|]. lia.
Qed.

Lemma day_number_iff : forall x n, day_number x n <-> valid_date x /\ nd_days (nd_of x) = n.
Proof.
  intros x n. split; [apply day_number_sound|]. intros [V E].
  destruct (Z.le_gt_cases 0 n).
  - assert (E2 : n = Z.of_nat (Z.to_nat n)) by lia. rewrite E2.
    apply day_number_complete_pos; [exact V|]. lia.
  - assert (E2 : n = - Z.of_nat (Z.to_nat (- n))) by lia. rewrite E2.
    apply day_number_complete_neg; [exact V|]. lia.
Qed.

Lemma day_number_unique : forall x, valid_date x ->
  exists n, day_number x n /\ forall n', day_number x n' -> n' = n.
Proof.
  intros x V. exists (nd_days (nd_of x)). split; [now apply day_number_iff|].
  intros n' H. now apply day_number_iff in H.
Qed.

Lemma day_number_inj : forall x y n, day_number x n -> day_number y n -> x = y.
Proof.
  intros x y n Hx Hy. apply day_number_iff in Hx, Hy. destruct Hx as [Vx Ex], Hy as [Vy Ey].
  rewrite <- (ymd_nd_of x Vx), <- (ymd_nd_of y Vy). f_equal.
  apply nd_days_inj; auto using nd_of_valid. congruence.
Qed.

(** * Timestamps *)

Lemma of_ts_spec : forall n,
  let t := of_timestamp_nanos n in
  valid_nd (dt_date t) /\ nd_days (dt_date t) = n / DAY /\
  nt_secs (dt_time t) = n / SECOND mod 86400 /\ nt_frac (dt_time t) = n mod SECOND.
Proof.
  intros n. unfold of_timestamp_nanos. cbv zeta.
  assert (E : (if Z.rem n GIGA <? 0 then (Z.quot n GIGA - 1, Z.rem n GIGA + GIGA)
               else (Z.quot n GIGA, Z.rem n GIGA)) = (n / SECOND, n mod SECOND)).
  { unfold GIGA, SECOND. destruct (Z.ltb_spec (Z.rem n 1000000000) 0); f_equal;
      Z.quot_rem_to_equations; dlia. }
  rewrite E. cbn [dt_date dt_time nt_secs nt_frac].
  destruct (from_days_spec (n / SECOND / 86400)) as [V D].
  split; [exact V|]. split; [|split; reflexivity]. rewrite D.
  rewrite Z.div_div by (unfold SECOND; lia). reflexivity.
Qed.

(** The value a (date, time) pair denotes. *)
Definition ndt_ns (t : ndt) : Z :=
  nd_days (dt_date t) * DAY + nt_secs (dt_time t) * SECOND + nt_frac (dt_time t).

Lemma of_ts_ns : forall n, ndt_ns (of_timestamp_nanos n) = n.
Proof.
  intros n. destruct (of_ts_spec n) as (_ & D & S & F). unfold ndt_ns. rewrite D, S, F.
  unfold DAY, SECOND. dlia.
Qed.

Lemma timestamp_eq : forall t, timestamp t * SECOND + subsec_nanos t = ndt_ns t.
Proof.
  intros t. unfold timestamp, subsec_nanos, ndt_ns. rewrite num_days_spec. unfold DAY, SECOND. lia.
Qed.

Lemma checked_spec : forall t x, (in_ity t x /\ checked t x = Some x) \/
  (~ in_ity t x /\ checked t x = None).
Proof.
  intros t x. unfold checked. destruct (in_ityb t x) eqn:E.
  - left. now rewrite in_ityb_iff in E.
  - right. split; [|reflexivity]. rewrite <- in_ityb_iff. congruence.
Qed.

Lemma i64_range : forall x, in_ity i64 x <-> -9223372036854775808 <= x <= 9223372036854775807.
Proof. intros. reflexivity. Qed.

Lemma ts_nanos_ok : forall v t, 0 <= nt_frac (dt_time t) < SECOND -> representable v (ndt_ns t) ->
  timestamp_nanos v t = Ok (ndt_ns t).
Proof.
  intros v t F [R L]. rewrite i64_range in R. rewrite <- timestamp_eq in *.
  unfold timestamp_nanos, subsec_nanos in *. change GIGA with SECOND.
  set (s := timestamp t) in *. set (n := nt_frac (dt_time t)) in *. unfold SECOND in *.
  destruct (negb (nanos_floor v) && (s <? 0) && (0 <? n)) eqn:C.
  - destruct (checked_spec i64 ((s + 1) * 1000000000)) as [[A ->]|[A _]].
    + destruct (checked_spec i64 ((s + 1) * 1000000000 + (n - 1000000000))) as [[B ->]|[B _]].
      * cbn. f_equal. lia.
      * exfalso. apply B. rewrite i64_range. lia.
    + exfalso. apply A. rewrite i64_range.
      apply andb_true_iff in C. destruct C as [C C3]. apply andb_true_iff in C.
      destruct C as [C1 C2]. lia.
  - destruct (checked_spec i64 (s * 1000000000)) as [[A ->]|[A _]].
    + destruct (checked_spec i64 (s * 1000000000 + n)) as [[B ->]|[B _]]; [reflexivity|].
      exfalso. apply B. rewrite i64_range. lia.
    + exfalso. apply A. rewrite i64_range. split; [|lia].
      destruct (nanos_floor v); cbn in C; [specialize (L eq_refl); lia|].
      apply andb_false_iff in C. destruct C as [C|C]; lia.
Qed.

Lemma ts_nanos_panic : forall v t, 0 <= nt_frac (dt_time t) < SECOND ->
  ~ representable v (ndt_ns t) -> timestamp_nanos v t = Panic.
Proof.
  intros v t F R. unfold representable in R. rewrite i64_range in R. rewrite <- timestamp_eq in *.
  unfold timestamp_nanos, subsec_nanos in *. change GIGA with SECOND.
  set (s := timestamp t) in *. set (n := nt_frac (dt_time t)) in *. unfold SECOND in *.
  destruct (negb (nanos_floor v) && (s <? 0) && (0 <? n)) eqn:C.
  - destruct (checked_spec i64 ((s + 1) * 1000000000)) as [[A ->]|[A ->]]; [|reflexivity].
    destruct (checked_spec i64 ((s + 1) * 1000000000 + (n - 1000000000))) as [[B ->]|[B ->]];
      [|reflexivity].
    exfalso. apply R. rewrite i64_range in *.
    apply andb_true_iff in C. destruct C as [C C3]. apply andb_true_iff in C.
    destruct C as [C1 C2]. destruct (nanos_floor v); [discriminate|]. split; [lia|discriminate].
  - destruct (checked_spec i64 (s * 1000000000)) as [[A ->]|[A ->]]; [|reflexivity].
    destruct (checked_spec i64 (s * 1000000000 + n)) as [[B ->]|[B ->]]; [|reflexivity].
    exfalso. apply R. rewrite i64_range in *. split; [lia|]. intros; lia.
Qed.

Lemma representable_dec : forall v x, {representable v x} + {~ representable v x}.
Proof.
  intros v x. unfold representable. destruct (in_ityb i64 x) eqn:E.
  - rewrite in_ityb_iff in E. destruct (nanos_floor v).
    + destruct (Z_le_dec (-9223372036 * SECOND) x); [left|right]; tauto.
    + left. split; [exact E|discriminate].
  - right. rewrite <- in_ityb_iff, E. intros [? _]. discriminate.
Qed.

(** A multiple of a second is representable iff it is in range. *)
Lemma representable_sec : forall v k, representable v (k * SECOND) <-> in_ity i64 (k * SECOND).
Proof.
  intros v k. unfold representable. rewrite i64_range. unfold SECOND. split; [tauto|].
  intros H. split; [exact H|]. intros _. lia.
Qed.

(** * Functions *)

Lemma hms_ok : forall v d s n, 0 <= s < 86400 -> 0 <= n < SECOND ->
  and_hms_nano_opt v d (s / 3600) (s / 60 mod 60) (s mod 60) n = Some (NDt d (NTime s n)).
Proof.
  intros v d s n Hs Hn. unfold and_hms_nano_opt, from_hms_nano_opt. unfold SECOND, GIGA in *.
  destruct (Z.leb_spec 24 (s / 3600)); [exfalso; dlia|].
  destruct (Z.leb_spec 60 (s / 60 mod 60)); [exfalso; dlia|].
  destruct (Z.leb_spec 60 (s mod 60)); [exfalso; dlia|].
  destruct (Z.leb_spec (2 * 1000000000) n); [lia|].
  destruct (Z.leb_spec 1000000000 n); [lia|]. cbn [orb andb].
  rewrite andb_false_r. cbn [orb andb]. do 3 f_equal. dlia.
Qed.

Lemma epoch_ymd : from_ymd_opt 1970 1 1 = Some (NDate 1970 1). Proof. reflexivity. Qed.
Lemma epoch_days : nd_days (NDate 1970 1) = 0. Proof. reflexivity. Qed.

Lemma dt_to_tod : forall v n, DATE_AND_TIME_TO_TIME_OF_DAY v n = Ok (n mod DAY).
Proof.
  intros v n. unfold DATE_AND_TIME_TO_TIME_OF_DAY. rewrite epoch_ymd.
  destruct (of_ts_spec n) as (_ & _ & S & F). unfold hour, minute, second, subsec_nanos.
  rewrite hms_ok.
  - cbn [unwrap obind].
    assert (E : ndt_ns (NDt (NDate 1970 1) (NTime (nt_secs (dt_time (of_timestamp_nanos n)))
              (nt_frac (dt_time (of_timestamp_nanos n))))) = n mod DAY).
    { unfold ndt_ns. cbn [dt_date dt_time nt_secs nt_frac]. rewrite epoch_days, S, F.
      unfold DAY, SECOND. dlia. }
    rewrite <- E. apply ts_nanos_ok.
    + cbn. rewrite F. unfold SECOND. dlia.
    + rewrite E. split; [rewrite i64_range|intros _]; unfold DAY, SECOND; dlia.
  - rewrite S. dlia.
  - rewrite F. unfold SECOND. dlia.
Qed.

Lemma midnight_ndt : forall v d, and_hms_opt v d 0 0 0 = Some (NDt d (NTime 0 0)).
Proof. intros v d. unfold and_hms_opt. apply (hms_ok v d 0 0); unfold SECOND; lia. Qed.

Lemma midnight_ns : forall v d,
  timestamp_nanos v (NDt d (NTime 0 0)) =
  if in_ityb i64 (nd_days d * DAY) then Ok (nd_days d * DAY) else Panic.
Proof.
  intros v d.
  assert (E : ndt_ns (NDt d (NTime 0 0)) = nd_days d * DAY).
  { unfold ndt_ns. cbn [dt_date dt_time nt_secs nt_frac]. lia. }
  assert (E2 : nd_days d * DAY = nd_days d * 86400 * SECOND) by (unfold DAY, SECOND; lia).
  destruct (in_ityb i64 (nd_days d * DAY)) eqn:B.
  - rewrite <- E. apply ts_nanos_ok; [cbn; unfold SECOND; lia|]. rewrite E, E2, representable_sec,
      <- E2. now apply in_ityb_iff.
  - apply ts_nanos_panic; [cbn; unfold SECOND; lia|]. rewrite E, E2, representable_sec, <- E2.
    rewrite <- in_ityb_iff. congruence.
Qed.

Lemma dt_to_date : forall v n, DATE_AND_TIME_TO_DATE v n =
  if in_ityb i64 (n / DAY * DAY) then Ok (n / DAY * DAY) else Panic.
Proof.
  intros v n. unfold DATE_AND_TIME_TO_DATE. rewrite midnight_ndt. cbn [unwrap obind].
  rewrite midnight_ns. destruct (of_ts_spec n) as (_ & -> & _). reflexivity.
Qed.

Lemma concat_date_tod_spec : forall v a b,
  (representable v (a / DAY * DAY + b mod DAY) ->
   CONCAT_DATE_TOD v a b = Ok (a / DAY * DAY + b mod DAY)) /\
  (~ representable v (a / DAY * DAY + b mod DAY) -> CONCAT_DATE_TOD v a b = Panic).
Proof.
  intros v a b. unfold CONCAT_DATE_TOD.
  destruct (of_ts_spec b) as (_ & _ & S & F). destruct (of_ts_spec a) as (_ & D & _).
  unfold hour, minute, second, subsec_nanos.
  rewrite hms_ok; [|rewrite S; dlia|rewrite F; unfold SECOND; dlia].
  cbn [unwrap obind].
  assert (E : ndt_ns (NDt (dt_date (of_timestamp_nanos a)) (NTime
              (nt_secs (dt_time (of_timestamp_nanos b)))
              (nt_frac (dt_time (of_timestamp_nanos b))))) = a / DAY * DAY + b mod DAY).
  { unfold ndt_ns. cbn [dt_date dt_time nt_secs nt_frac]. rewrite D, S, F.
    unfold DAY, SECOND. dlia. }
  rewrite <- E. split; intros R; [apply ts_nanos_ok|apply ts_nanos_panic]; auto;
    cbn; rewrite F; unfold SECOND; dlia.
Qed.

Lemma from_ymd_some : forall y m d, valid_date (y, m, d) -> -262143 <= y <= 262142 ->
  from_ymd_opt y m d = Some (nd_of (y, m, d)).
Proof.
  intros y m d [M D] Y. unfold from_ymd_opt. rewrite nth_month by lia.
  repeat match goal with
  | |- context [Z.leb ?a ?b] => destruct (Z.leb_spec a b); [|lia]
  end. reflexivity.
Qed.

Lemma from_ymd_none : forall y m d, ~ (valid_date (y, m, d) /\ -262143 <= y <= 262142) ->
  from_ymd_opt y m d = None.
Proof.
  intros y m d H. unfold from_ymd_opt.
  destruct (Z.leb_spec (-262143) y); [|reflexivity].
  destruct (Z.leb_spec y 262142); [|reflexivity].
  destruct (Z.leb_spec 1 m); [|reflexivity].
  destruct (Z.leb_spec m 12); [|reflexivity].
  destruct (Z.leb_spec 1 d); [|reflexivity]. cbn [andb].
  rewrite nth_month by lia.
  destruct (Z.leb_spec d (days_in_month y m)); [|reflexivity].
  exfalso. apply H. unfold valid_date. lia.
Qed.

(** Dates in the 64-bit nanosecond range have years 1677 to 2262. *)
Lemma year_range : forall d, valid_nd d -> -106752 <= nd_days d <= 106751 ->
  1677 <= nd_year d <= 2262.
Proof.
  intros d V H. unfold valid_nd, nd_days in *.
  destruct (Z.lt_ge_cases (nd_year d) 1677) as [L|L].
  - pose proof (year_start_mono _ _ L). change (year_start 1677) with 612513 in *. lia.
  - split; [lia|]. destruct (Z.lt_ge_cases 2262 (nd_year d)) as [G|G]; [|lia].
    pose proof (year_start_mono _ _ G). change (year_start 2262) with 826179 in *.
    change (b2z (ch_leap 2262)) with 0 in *. lia.
Qed.

Lemma day_of_i64 : forall n, in_ity i64 n -> -106752 <= n / DAY <= 106751.
Proof. intros n H. rewrite i64_range in H. unfold DAY. dlia. Qed.

Lemma concat_date_valid : forall v y m d, valid_date (y, m, d) ->
  concat_date v y m d =
  if in_ityb i64 (nd_days (nd_of (y, m, d)) * DAY) then Ok (nd_days (nd_of (y, m, d)) * DAY)
  else Panic.
Proof.
  intros v y m d V. unfold concat_date.
  destruct (Z_le_dec (-262143) y) as [Y1|Y1]; [destruct (Z_le_dec y 262142) as [Y2|Y2]|].
  - rewrite from_ymd_some, midnight_ndt by (auto; lia). cbn [unwrap obind]. apply midnight_ns.
  - rewrite from_ymd_none by (intros [_ ?]; lia). cbn [unwrap obind].
    destruct (in_ityb i64 _) eqn:B; [|reflexivity]. exfalso. rewrite in_ityb_iff in B.
    apply day_of_i64 in B. rewrite Z.div_mul in B by discriminate.
    apply year_range in B; [|now apply nd_of_valid]. cbn [nd_of nd_year] in B. lia.
  - rewrite from_ymd_none by (intros [_ ?]; lia). cbn [unwrap obind].
    destruct (in_ityb i64 _) eqn:B; [|reflexivity]. exfalso. rewrite in_ityb_iff in B.
    apply day_of_i64 in B. rewrite Z.div_mul in B by discriminate.
    apply year_range in B; [|now apply nd_of_valid]. cbn [nd_of nd_year] in B. lia.
Qed.

Lemma concat_date_invalid : forall v y m d, ~ valid_date (y, m, d) -> concat_date v y m d = Panic.
Proof.
  intros v y m d V. unfold concat_date. rewrite from_ymd_none by tauto. reflexivity.
Qed.
