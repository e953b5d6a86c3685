(** Properties C26-C35, C72: calendar, clock and date arithmetic.
    [v] ranges over the chrono releases, see [ModelChrono.chrono]. *)
From Coq Require Import ZArith List Bool Lia.
From Verif Require Import Base ModelChrono ModelDate SpecDate ProofBase ProofDate ProofDate2.
Import ListNotations.
Open Scope Z_scope.

(** ** C26 *)
Theorem C26_calendar_total : forall x, valid_date x ->
  exists n, day_number x n /\ forall n', day_number x n' -> n' = n.
Proof. exact day_number_unique. Qed.
Theorem C26_concat_date_valid : forall v t y m d, narrow t ->
  in_ity t y -> in_ity t m -> in_ity t d -> valid_date (y, m, d) ->
  exists n, day_number (y, m, d) n /\
    CONCAT_DATE v y m d = if in_ityb i64 (n * DAY) then Ok (n * DAY) else Panic.
Proof. exact CONCAT_DATE_valid. Qed.
Theorem C26_concat_date_invalid : forall v t y m d, narrow t ->
  in_ity t y -> in_ity t m -> in_ity t d -> ~ valid_date (y, m, d) ->
  CONCAT_DATE v y m d = Panic.
Proof. exact CONCAT_DATE_invalid. Qed.
Theorem C26_consecutive_days : forall v t x a b, narrow t ->
  let '(y, m, d) := x in let '(y', m', d') := next_day x in
  in_ity t y -> in_ity t m -> in_ity t d -> in_ity t y' -> in_ity t m' -> in_ity t d' ->
  CONCAT_DATE v y m d = Ok a -> CONCAT_DATE v y' m' d' = Ok b -> b = a + DAY.
Proof.
  intros v t [[y m] d] a b Ht. destruct (next_day (y, m, d)) as [[y' m'] d'] eqn:Nx.
  intros Hy Hm Hd Hy' Hm' Hd' A B.
  destruct (CONCAT_DATE_ok_valid v t y m d a) as [V _]; try assumption.
  destruct (next_day_spec _ V) as [V' E]. rewrite Nx in V', E.
  destruct (CONCAT_DATE_valid v t y m d) as (n & N & EA); try assumption.
  destruct (CONCAT_DATE_valid v t y' m' d') as (n' & N' & EB); try assumption.
  apply day_number_iff in N, N'. destruct N as [_ N], N' as [_ N'].
  rewrite EA in A. rewrite EB in B.
  destruct (in_ityb i64 (n * DAY)); [|discriminate].
  destruct (in_ityb i64 (n' * DAY)); [|discriminate].
  injection A as <-. injection B as <-. unfold DAY in *. lia.
Qed.
Example C26_example : forall v, narrow i16 /\ in_ity i16 2000 /\ valid_date (2000, 2, 29) /\
  next_day (2000, 2, 29) = (2000, 3, 1) /\
  CONCAT_DATE v 2000 2 29 = Ok 951782400000000000 /\
  CONCAT_DATE v 2000 3 1 = Ok 951868800000000000 /\
  CONCAT_DATE v 1900 2 29 = Panic /\ CONCAT_DATE v 1677 9 21 = Panic.
Proof. intros v. split; [vm_compute; tauto|]. destruct v as [[] []]; vm_compute; repeat split; discriminate. Qed.
Print Assumptions C26_calendar_total.
Print Assumptions C26_concat_date_valid.
Print Assumptions C26_concat_date_invalid.
Print Assumptions C26_consecutive_days.

(** ** C27 *)
Theorem C27_split_date_total : forall t n, In t date_types -> in_ity i64 n ->
  exists y m d, SPLIT_DATE t n = Ok (y, m, d) /\ day_number (y, m, d) (n / DAY).
Proof. exact split_date_lemma. Qed.
Theorem C27_split_of_concat : forall v t t' y m d r, narrow t -> In t' date_types ->
  in_ity t y -> in_ity t m -> in_ity t d -> CONCAT_DATE v y m d = Ok r ->
  SPLIT_DATE t' r = Ok (y, m, d).
Proof.
  intros v t t' y m d r Ht Ht' Hy Hm Hd E.
  destruct (CONCAT_DATE_ok_valid v t y m d r) as [V _]; try assumption.
  destruct (CONCAT_DATE_valid v t y m d) as (n & N & EA); try assumption. rewrite EA in E.
  destruct (in_ityb i64 (n * DAY)) eqn:B; [|discriminate]. injection E as <-.
  rewrite in_ityb_iff in B. destruct (split_date_lemma t' _ Ht' B) as (y' & m' & d' & S & N').
  rewrite Z.div_mul in N' by discriminate. rewrite S. f_equal. eapply day_number_inj; eauto.
Qed.
Theorem C27_concat_of_split : forall v t n y m d, In t date_types -> in_ity i64 n ->
  SPLIT_DATE t n = Ok (y, m, d) ->
  CONCAT_DATE v y m d = if in_ityb i64 (n / DAY * DAY) then Ok (n / DAY * DAY) else Panic.
Proof.
  intros v t n y m d Ht Hn E. destruct (split_date_lemma t n Ht Hn) as (y' & m' & d' & S & N).
  rewrite S in E. injection E as -> -> ->. assert (N0 := N). apply day_number_iff in N.
  destruct N as [V N]. pose proof (month_day_small _ _ _ V) as [M D].
  pose proof (year_range _ (nd_of_valid _ V)) as Y. rewrite N in Y.
  specialize (Y (day_of_i64 n Hn)). cbn [nd_of nd_year] in Y.
  assert (Ni : narrow i32) by (unfold narrow; cbn; tauto).
  destruct (CONCAT_DATE_valid v i32 y m d) as (k & K & ->); try assumption;
    try (unfold in_ity; cbn; lia).
  assert (k = n / DAY) by (apply day_number_iff in K; destruct K; congruence). now subst k.
Qed.
Example C27_example : In u16 date_types /\ in_ity i64 (-1) /\
  SPLIT_DATE u16 (-1) = Ok (1969, 12, 31) /\
  SPLIT_DATE i16 (-9223372036854775808) = Ok (1677, 9, 21) /\
  CONCAT_DATE (Chrono false false) 1677 9 21 = Panic.
Proof. split; [vm_compute; tauto|]. vm_compute. repeat split; discriminate. Qed.
Print Assumptions C27_split_date_total.
Print Assumptions C27_split_of_concat.
Print Assumptions C27_concat_of_split.

(** ** C28 *)
Theorem C28_dt_is_date_plus_tod : forall v n, in_ity i64 n ->
  exists tod, DATE_AND_TIME_TO_TIME_OF_DAY v n = Ok tod /\ 0 <= tod < DAY /\
  (in_ity i64 (n - tod) ->
   exists date, DATE_AND_TIME_TO_DATE v n = Ok date /\ date mod DAY = 0 /\ date + tod = n /\
     CONCAT_DATE_TOD v date tod = Ok n) /\
  (~ in_ity i64 (n - tod) -> DATE_AND_TIME_TO_DATE v n = Panic).
Proof.
  intros v n Hn. exists (n mod DAY). split; [apply dt_to_tod|].
  assert (B : 0 <= n mod DAY < DAY) by (apply Z.mod_pos_bound; reflexivity).
  assert (E : n - n mod DAY = n / DAY * DAY) by (unfold DAY; dlia).
  split; [exact B|]. rewrite E. split; intros H.
  - exists (n / DAY * DAY). rewrite dt_to_date. rewrite <- in_ityb_iff in H. rewrite H.
    split; [reflexivity|]. split; [apply Z.mod_mul; discriminate|]. split; [lia|].
    destruct (concat_date_tod_spec v (n / DAY * DAY) (n mod DAY)) as [C _].
    rewrite Z.div_mul, Z.mod_mod in C by discriminate.
    replace (n / DAY * DAY + n mod DAY) with n in C by lia. apply C.
    split; [exact Hn|]. intros _. rewrite in_ityb_iff, i64_range in H.
    unfold DAY, SECOND in *. dlia.
  - rewrite dt_to_date. rewrite <- in_ityb_iff in H. destruct (in_ityb i64 _); [|reflexivity].
    exfalso. now apply H.
Qed.
Theorem C28_concat_date_tod : forall v a b,
  (representable v (a / DAY * DAY + b mod DAY) ->
   CONCAT_DATE_TOD v a b = Ok (a / DAY * DAY + b mod DAY)) /\
  (~ representable v (a / DAY * DAY + b mod DAY) -> CONCAT_DATE_TOD v a b = Panic).
Proof. exact concat_date_tod_spec. Qed.
Example C28_example : forall v,
  DATE_AND_TIME_TO_TIME_OF_DAY v (-1) = Ok 86399999999999 /\
  DATE_AND_TIME_TO_DATE v (-1) = Ok (-86400000000000) /\
  DATE_AND_TIME_TO_DATE v (-9223372036854775808) = Panic.
Proof. intros [[] []]; repeat split. Qed.
Print Assumptions C28_dt_is_date_plus_tod.
Print Assumptions C28_concat_date_tod.

(** ** C29 *)
Theorem C29_concat_tod_valid : forall v t h mi s ms, narrow t ->
  in_ity t h -> in_ity t mi -> in_ity t s -> in_ity t ms -> valid_clock h mi s ms ->
  CONCAT_TOD v h mi s ms = Ok (clock_ns h mi s ms).
Proof.
  intros. apply (CONCAT_TOD_lemma v t); try assumption. unfold valid_clock, accepts_millis in *. lia.
Qed.
Theorem C29_split_tod_total : forall t n, In t date_types ->
  exists h mi s ms, SPLIT_TOD t n = (h, mi, s, ms) /\ valid_clock h mi s ms /\
    clock_ns h mi s ms <= n mod DAY < clock_ns h mi s ms + MILLI.
Proof. exact split_tod_lemma. Qed.
Theorem C29_split_of_concat : forall v t t' h mi s ms r, narrow t -> In t' date_types ->
  in_ity t h -> in_ity t mi -> in_ity t s -> in_ity t ms -> valid_clock h mi s ms ->
  CONCAT_TOD v h mi s ms = Ok r -> SPLIT_TOD t' r = (h, mi, s, ms).
Proof.
  intros v t t' h mi s ms r Ht Ht' H1 H2 H3 H4 C E.
  rewrite (C29_concat_tod_valid v t) in E by assumption. injection E as <-.
  destruct (split_tod_lemma t' (clock_ns h mi s ms) Ht') as (h' & mi' & s' & ms' & -> & C' & B).
  assert (R : 0 <= clock_ns h mi s ms < DAY).
  { unfold valid_clock, clock_ns, HOUR, MINUTE, SECOND, MILLI, DAY in *. lia. }
  rewrite Z.mod_small in B by exact R.
  destruct (clock_unique h mi s ms h' mi' s' ms' (clock_ns h mi s ms)) as (-> & -> & -> & ->);
    try assumption; [unfold MILLI; lia|reflexivity].
Qed.
Example C29_example : forall v, valid_clock 23 59 58 999 /\
  CONCAT_TOD v 23 59 58 999 = Ok 86398999000000 /\
  SPLIT_TOD i16 86398999000000 = (23, 59, 58, 999).
Proof. intros [[] []]; repeat split; discriminate. Qed.
Print Assumptions C29_concat_tod_valid.
Print Assumptions C29_split_tod_total.
Print Assumptions C29_split_of_concat.

(** ** C30: false; 23:59:59 plus 1999 ms is accepted by every release. *)
Theorem C30_concat_tod_range_refuted : forall v,
  CONCAT_TOD v 23 59 59 1999 = Ok 86400999000000 /\ DAY <= 86400999000000.
Proof. intros [[] []]; split; [reflexivity|discriminate|reflexivity|discriminate
  |reflexivity|discriminate|reflexivity|discriminate]. Qed.
(** Exactly what is accepted: clock fields in range and up to 1999 ms (on any second for
    older releases, on second 59 for newer ones). *)
Theorem C30_concat_tod_exact_partial : forall v t h mi s ms, narrow t ->
  in_ity t h -> in_ity t mi -> in_ity t s -> in_ity t ms ->
  (0 <= h < 24 /\ 0 <= mi < 60 /\ 0 <= s < 60 /\ 0 <= ms /\ accepts_millis v s ms ->
   CONCAT_TOD v h mi s ms = Ok (clock_ns h mi s ms)) /\
  (~ (0 <= h < 24 /\ 0 <= mi < 60 /\ 0 <= s < 60 /\ 0 <= ms /\ accepts_millis v s ms) ->
   CONCAT_TOD v h mi s ms = Panic).
Proof. exact CONCAT_TOD_lemma. Qed.
Example C30_example : CONCAT_TOD (Chrono false false) 23 59 58 1000 = Panic /\
  CONCAT_TOD (Chrono true false) 23 59 58 1000 = Ok 86399000000000 /\
  CONCAT_TOD (Chrono false false) 23 59 59 2000 = Panic /\
  CONCAT_TOD (Chrono false false) (-1) 59 59 0 = Panic.
Proof. repeat split. Qed.
Print Assumptions C30_concat_tod_range_refuted.
Print Assumptions C30_concat_tod_exact_partial.

(** ** C31: false for LINT and ULINT, whose arguments are reduced modulo 2^32. *)
Theorem C31_wide_concat_refuted : forall v t, t = i64 \/ t = u64 ->
  exists y m d h mi s ms r r' r'',
    (in_ity t y /\ in_ity t m /\ in_ity t d /\ ~ valid_date (y, m, d)) /\
    (in_ity t h /\ in_ity t mi /\ in_ity t s /\ in_ity t ms /\ 24 <= h /\ 60 <= mi) /\
    CONCAT_DATE v y m d = Ok r /\ CONCAT_TOD v h mi s ms = Ok r' /\
    CONCAT_DT v y m d h mi s ms = Ok r''.
Proof.
  intros v t Ht. exists (4294967296 + 2000), 4294967297, 1, 4294967296, 4294967296, 0, 0,
    946684800000000000, 0, 946684800000000000.
  split; [|split].
  - destruct Ht as [-> | ->]; unfold in_ity, valid_date; cbn; repeat split; try discriminate;
      intros [[? H] _]; apply H; reflexivity.
  - destruct Ht as [-> | ->]; unfold in_ity; cbn; repeat split; discriminate.
  - destruct v as [[] []]; repeat split.
Qed.
(** The types of up to 32 bits do reject (fields: see C30 for leap-second milliseconds). *)
Theorem C31_narrow_concat_rejects_partial : forall v t y m d h mi s ms r, narrow t ->
  in_ity t y -> in_ity t m -> in_ity t d ->
  in_ity t h -> in_ity t mi -> in_ity t s -> in_ity t ms ->
  CONCAT_DT v y m d h mi s ms = Ok r ->
  valid_date (y, m, d) /\ 1677 <= y <= 2262 /\
  0 <= h < 24 /\ 0 <= mi < 60 /\ 0 <= s < 60 /\ 0 <= ms < 2000.
Proof.
  intros v t y m d h mi s ms r Ht Hy Hm Hd Hh Hmi Hs Hms E. unfold CONCAT_DT in E.
  destruct (CONCAT_DATE v y m d) as [a| |] eqn:E1; try discriminate. cbn [obind] in E.
  destruct (CONCAT_DATE_ok_valid v t y m d a) as [V Y]; try assumption.
  split; [exact V|]. split; [exact Y|].
  destruct (CONCAT_TOD_lemma v t h mi s ms) as [_ P]; try assumption.
  assert (Dec : (0 <= h < 24 /\ 0 <= mi < 60 /\ 0 <= s < 60 /\ 0 <= ms /\ accepts_millis v s ms)
    \/ ~ (0 <= h < 24 /\ 0 <= mi < 60 /\ 0 <= s < 60 /\ 0 <= ms /\ accepts_millis v s ms)).
  { unfold accepts_millis. destruct (leap_any v); [assert (true = true) by reflexivity|
      assert (false <> true) by discriminate]; lia. }
  destruct Dec as [D|D].
  - unfold accepts_millis in D. lia.
  - rewrite P in E by exact D. discriminate.
Qed.
(** For every type: the result is that of the arguments modulo 2^32. *)
Theorem C31_reduced_modulo_partial : forall v y m d y' m' d',
  y mod 2 ^ 32 = y' mod 2 ^ 32 -> m mod 2 ^ 32 = m' mod 2 ^ 32 -> d mod 2 ^ 32 = d' mod 2 ^ 32 ->
  CONCAT_DATE v y m d = CONCAT_DATE v y' m' d'.
Proof.
  intros v y m d y' m' d' Ey Em Ed. unfold CONCAT_DATE. f_equal; [|exact Em|exact Ed].
  unfold wrap. cbn [i32 it_signed it_bits].
  rewrite <- (Zplus_mod_idemp_l y), <- (Zplus_mod_idemp_l y'), Ey. reflexivity.
Qed.
Example C31_example : narrow u32 /\ in_ity u32 4294967295 /\
  CONCAT_DT (Chrono true true) 2000 1 1 1 2 3 4 = Ok 946688523004000000.
Proof. split; [vm_compute; tauto|]. vm_compute. repeat split; discriminate. Qed.
Print Assumptions C31_wide_concat_refuted.
Print Assumptions C31_narrow_concat_rejects_partial.
Print Assumptions C31_reduced_modulo_partial.

(** ** C32 *)
Theorem C32_day_of_week_cycle : forall n,
  0 <= DAY_OF_WEEK n <= 6 /\
  DAY_OF_WEEK (n + DAY) = (DAY_OF_WEEK n + 1) mod 7 /\
  (forall n', n' / DAY = n / DAY -> DAY_OF_WEEK n' = DAY_OF_WEEK n).
Proof.
  intros n. rewrite !day_of_week_lemma.
  replace ((n + DAY) / DAY) with (n / DAY + 1) by (unfold DAY; dlia).
  split; [dlia|]. split; [dlia|]. intros n' E. now rewrite day_of_week_lemma, E.
Qed.
Theorem C32_epoch_is_thursday : DAY_OF_WEEK 0 = 4.
Proof. reflexivity. Qed.
Example C32_example : DAY_OF_WEEK 951782400000000000 = 2 /\ DAY_OF_WEEK (-1) = 3.
Proof. split; reflexivity. Qed.
Print Assumptions C32_day_of_week_cycle.
Print Assumptions C32_epoch_is_thursday.

(** ** C33 *)
Theorem C33_split_dt_total : forall t n, In t date_types -> in_ity i64 n ->
  exists y mo d h mi s ms, SPLIT_DT t n = Ok (y, mo, d, h, mi, s, ms) /\
    day_number (y, mo, d) (n / DAY) /\ valid_clock h mi s ms /\
    clock_ns h mi s ms <= n mod DAY < clock_ns h mi s ms + MILLI.
Proof. exact split_dt_lemma. Qed.
Theorem C33_concat_dt_valid : forall v t y mo d h mi s ms n, narrow t ->
  in_ity t y -> in_ity t mo -> in_ity t d ->
  in_ity t h -> in_ity t mi -> in_ity t s -> in_ity t ms ->
  day_number (y, mo, d) n -> valid_clock h mi s ms ->
  CONCAT_DT v y mo d h mi s ms =
  if in_ityb i64 (n * DAY) && in_ityb i64 (n * DAY + clock_ns h mi s ms)
  then Ok (n * DAY + clock_ns h mi s ms) else Panic.
Proof. exact CONCAT_DT_lemma. Qed.
Theorem C33_concat_of_split : forall v t n y mo d h mi s ms, In t date_types -> in_ity i64 n ->
  in_ity i64 (n / DAY * DAY) -> SPLIT_DT t n = Ok (y, mo, d, h, mi, s, ms) ->
  CONCAT_DT v y mo d h mi s ms = Ok (n - n mod MILLI).
Proof.
  intros v t n y mo d h mi s ms Ht Hn Hm E.
  destruct (split_dt_lemma t n Ht Hn) as (y' & mo' & d' & h' & mi' & s' & ms' & S & N & C & B).
  rewrite S in E. injection E as -> -> -> -> -> -> ->.
  assert (N0 := N). apply day_number_iff in N. destruct N as [V N].
  pose proof (month_day_small _ _ _ V) as [M D].
  pose proof (year_range _ (nd_of_valid _ V)) as Y. rewrite N in Y.
  specialize (Y (day_of_i64 n Hn)). cbn [nd_of nd_year] in Y.
  assert (Ni : narrow i32) by (unfold narrow; cbn; tauto).
  rewrite (CONCAT_DT_lemma v i32 y mo d h mi s ms (n / DAY)); try assumption;
    try (unfold valid_clock in C; unfold in_ity; cbn; lia).
  assert (E : n / DAY * DAY + clock_ns h mi s ms = n - n mod MILLI).
  { assert (K : exists k, clock_ns h mi s ms = k * MILLI).
    { exists (h * 3600000 + mi * 60000 + s * 1000 + ms).
      unfold clock_ns, HOUR, MINUTE, SECOND, MILLI. lia. }
    destruct K as [k K]. rewrite K in *. unfold DAY, MILLI in *. dlia. }
  rewrite E. rewrite <- in_ityb_iff in Hm. rewrite Hm. cbn [andb].
  replace (in_ityb i64 (n - n mod MILLI)) with true; [reflexivity|].
  symmetry. rewrite in_ityb_iff in *. rewrite i64_range in *. rewrite <- E in *.
  assert (0 <= clock_ns h mi s ms).
  { unfold valid_clock, clock_ns, HOUR, MINUTE, SECOND, MILLI in *. lia. }
  split; [lia|]. rewrite E. unfold MILLI. dlia.
Qed.
Theorem C33_split_of_concat : forall v t t' y mo d h mi s ms r, narrow t -> In t' date_types ->
  in_ity t y -> in_ity t mo -> in_ity t d ->
  in_ity t h -> in_ity t mi -> in_ity t s -> in_ity t ms ->
  valid_clock h mi s ms -> CONCAT_DT v y mo d h mi s ms = Ok r ->
  SPLIT_DT t' r = Ok (y, mo, d, h, mi, s, ms).
Proof.
  intros v t t' y mo d h mi s ms r Ht Ht' Hy Hmo Hd Hh Hmi Hs Hms C E.
  assert (V : valid_date (y, mo, d)).
  { unfold CONCAT_DT in E. destruct (CONCAT_DATE v y mo d) as [a| |] eqn:E1; try discriminate.
    destruct (CONCAT_DATE_ok_valid v t y mo d a); assumption. }
  destruct (day_number_unique _ V) as (n & N & _).
  rewrite (CONCAT_DT_lemma v t y mo d h mi s ms n) in E by assumption.
  destruct (in_ityb i64 (n * DAY)); [|discriminate]. cbn [andb] in E.
  destruct (in_ityb i64 (n * DAY + clock_ns h mi s ms)) eqn:B; [|discriminate].
  injection E as <-. rewrite in_ityb_iff in B.
  assert (R : 0 <= clock_ns h mi s ms < DAY).
  { unfold valid_clock, clock_ns, HOUR, MINUTE, SECOND, MILLI, DAY in *. lia. }
  destruct (split_dt_lemma t' _ Ht' B) as (y' & mo' & d' & h' & mi' & s' & ms' & -> & N' & C' & K).
  rewrite Z.add_comm, Z.div_add, Z.div_small in N' by (unfold DAY in *; lia).
  rewrite Z.add_comm, Z.mod_add, Z.mod_small in K by (unfold DAY in *; lia).
  pose proof (day_number_inj _ _ _ N N') as I. injection I as <- <- <-.
  destruct (clock_unique h mi s ms h' mi' s' ms' (clock_ns h mi s ms)) as (-> & -> & -> & ->);
    try assumption; [unfold MILLI; lia|reflexivity].
Qed.
Example C33_example : forall v, day_number (1970, 1, 1) 0 /\ valid_clock 1 2 3 4 /\
  CONCAT_DT v 2022 9 13 21 30 45 123 = Ok 1663104645123000000 /\
  SPLIT_DT i32 1663104645123456789 = Ok (2022, 9, 13, 21, 30, 45, 123).
Proof. intros [[] []]; (split; [constructor|]); repeat split; discriminate. Qed.
Print Assumptions C33_split_dt_total.
Print Assumptions C33_concat_dt_valid.
Print Assumptions C33_concat_of_split.
Print Assumptions C33_split_of_concat.

(** ** C34 *)
Theorem C34_time_exact_or_abort : forall a b, in_ity i64 a -> in_ity i64 b ->
  ADD_TIME a b = (if in_ityb i64 (a + b) then Ok (a + b) else Panic) /\
  SUB_TIME a b = (if in_ityb i64 (a - b) then Ok (a - b) else Panic) /\
  SUB_DATE_DATE a b = (if in_ityb i64 (a - b) then Ok (a - b) else Panic) /\
  SUB_TOD_TOD a b = (if in_ityb i64 (a - b) then Ok (a - b) else Panic) /\
  SUB_DT_DT a b = (if in_ityb i64 (a - b) then Ok (a - b) else Panic).
Proof.
  intros. split; [now apply add_time_lemma|]. split; [now apply sub_time_lemma|].
  unfold SUB_DATE_DATE, SUB_TOD_TOD, SUB_DT_DT. repeat split; now apply sub_datetimes_lemma.
Qed.
Theorem C34_datetime_exact_or_abort : forall v a b, nanos_floor v = false ->
  ADD_DT_TIME v a b = (if in_ityb i64 (a + b) then Ok (a + b) else Panic) /\
  ADD_TOD_TIME v a b = (if in_ityb i64 (a + b) then Ok (a + b) else Panic) /\
  SUB_DT_TIME v a b = (if in_ityb i64 (a - b) then Ok (a - b) else Panic) /\
  SUB_TOD_TIME v a b = (if in_ityb i64 (a - b) then Ok (a - b) else Panic).
Proof.
  intros v a b F.
  assert (R : forall x, representable v x <-> in_ity i64 x).
  { intros x. unfold representable. split; [tauto|]. intros H. split; [exact H|congruence]. }
  assert (A : add_datetime_time v a b = if in_ityb i64 (a + b) then Ok (a + b) else Panic).
  { destruct (add_datetime_lemma v a b) as [P Q]. rewrite R, <- in_ityb_iff in P, Q.
    destruct (in_ityb i64 (a + b)); [now apply P|apply Q; discriminate]. }
  assert (S : sub_datetime_duration v a b = if in_ityb i64 (a - b) then Ok (a - b) else Panic).
  { destruct (sub_datetime_lemma v a b) as [P Q]. rewrite R, <- in_ityb_iff in P, Q.
    destruct (in_ityb i64 (a - b)); [now apply P|apply Q; discriminate]. }
  repeat split; assumption.
Qed.
(** Older chrono releases abort although the result fits, in its lowest partial second. *)
Theorem C34_old_release_refuted : forall v, nanos_floor v = true ->
  in_ity i64 (-9223372036000000000 + -1) /\
  ADD_DT_TIME v (-9223372036000000000) (-1) = Panic.
Proof. intros [[] []] H; (split; [split; discriminate|]); try discriminate; reflexivity. Qed.
Theorem C34_datetime_every_release_partial : forall v a b,
  ((representable v (a + b) -> ADD_DT_TIME v a b = Ok (a + b)) /\
   (~ representable v (a + b) -> ADD_DT_TIME v a b = Panic)) /\
  ((representable v (a - b) -> SUB_DT_TIME v a b = Ok (a - b)) /\
   (~ representable v (a - b) -> SUB_DT_TIME v a b = Panic)) /\
  ADD_TOD_TIME v a b = ADD_DT_TIME v a b /\ SUB_TOD_TIME v a b = SUB_DT_TIME v a b.
Proof.
  intros. split; [apply add_datetime_lemma|]. split; [apply sub_datetime_lemma|].
  split; reflexivity.
Qed.
Example C34_example : forall v,
  ADD_TIME 9223372036854775807 1 = Panic /\ ADD_TIME 9223372036854775806 1 = Ok 9223372036854775807 /\
  SUB_TIME (-9223372036854775807) 1 = Ok (-9223372036854775808) /\
  ADD_DT_TIME v 86399000000000 1000000000 = Ok 86400000000000 /\
  SUB_DT_TIME v 0 1 = Ok (-1) /\ SUB_DT_DT (-1) 9223372036854775807 = Ok (-9223372036854775808).
Proof. intros [[] []]; repeat split. Qed.
Print Assumptions C34_time_exact_or_abort.
Print Assumptions C34_datetime_exact_or_abort.
Print Assumptions C34_old_release_refuted.
Print Assumptions C34_datetime_every_release_partial.

(** ** C35 *)
Theorem C35_date_arithmetic_laws : forall v d t x,
  in_ity i64 d -> in_ity i64 t -> ADD_DT_TIME v d t = Ok x ->
  (representable v d -> SUB_DT_TIME v x t = Ok d) /\ SUB_DT_DT x d = Ok t.
Proof.
  intros v d t x Hd Ht E. unfold ADD_DT_TIME, SUB_DT_TIME, SUB_DT_DT in *.
  destruct (add_datetime_lemma v d t) as [P Q].
  destruct (representable_dec v (d + t)) as [R|R]; [|rewrite Q in E by exact R; discriminate].
  rewrite P in E by exact R. injection E as <-. split.
  - intros Rd. destruct (sub_datetime_lemma v (d + t) t) as [S _].
    replace (d + t - t) with d in S by lia. now apply S.
  - rewrite sub_datetimes_lemma by (try assumption; apply R).
    replace (d + t - d) with t by lia. rewrite <- in_ityb_iff in Ht. now rewrite Ht.
Qed.
Theorem C35_add_difference : forall v d e t,
  in_ity i64 d -> representable v e -> SUB_DT_DT e d = Ok t -> ADD_DT_TIME v d t = Ok e.
Proof.
  intros v d e t Hd He E. unfold ADD_DT_TIME, SUB_DT_DT in *.
  rewrite sub_datetimes_lemma in E by (try assumption; apply He).
  destruct (in_ityb i64 (e - d)); [|discriminate]. injection E as <-.
  destruct (add_datetime_lemma v d (e - d)) as [P _].
  replace (d + (e - d)) with e in P by lia. now apply P.
Qed.
Theorem C35_tod_does_not_wrap : forall v tod t, 0 <= tod < DAY -> 0 <= t < DAY ->
  ADD_TOD_TIME v tod t = Ok (tod + t).
Proof.
  intros v tod t A B. apply add_datetime_lemma. split; [rewrite i64_range|intros _];
    unfold DAY, SECOND in *; lia.
Qed.
Example C35_example : forall v, representable v 5 /\ ADD_DT_TIME v 5 7 = Ok 12 /\
  SUB_DT_TIME v 12 7 = Ok 5 /\ SUB_DT_DT 12 5 = Ok 7 /\
  ADD_TOD_TIME v 82800000000000 7200000000000 = Ok 90000000000000.
Proof.
  intros v. split; [split; [split; discriminate|discriminate]|].
  destruct v as [[] []]; repeat split.
Qed.
Print Assumptions C35_date_arithmetic_laws.
Print Assumptions C35_add_difference.
Print Assumptions C35_tod_does_not_wrap.

(** ** C72: false; the leap-second milliseconds of C30 move CONCAT_DT back by a day. *)
Theorem C72_concat_dt_sum_refuted : forall v, exists a b r,
  CONCAT_DATE v 2000 1 1 = Ok a /\ CONCAT_TOD v 23 59 59 1999 = Ok b /\
  CONCAT_DT v 2000 1 1 23 59 59 1999 = Ok r /\ r <> a + b /\ r = a + b - DAY.
Proof.
  intros v. exists 946684800000000000, 86400999000000, 946684800999000000.
  destruct v as [[] []]; repeat split; discriminate.
Qed.
Theorem C72_concat_dt_sum_partial : forall v y mo d h mi s ms a b r,
  CONCAT_DATE v y mo d = Ok a -> CONCAT_TOD v h mi s ms = Ok b ->
  CONCAT_DT v y mo d h mi s ms = Ok r ->
  (b < DAY -> r = a + b) /\ (DAY <= b -> r = a + b - DAY).
Proof.
  intros v y mo d h mi s ms a b r EA EB E. unfold CONCAT_DT in E. rewrite EA, EB in E.
  cbn [obind] in E.
  assert (A : exists k, a = k * DAY).
  { unfold CONCAT_DATE in EA. assert (EA' := EA). apply concat_date_year in EA'.
    destruct EA' as [V _]. rewrite concat_date_valid in EA by exact V.
    destruct (in_ityb i64 _); [|discriminate]. injection EA as <-. eauto. }
  destruct A as [k ->].
  assert (B : 0 <= b < DAY + 1000000000000).
  { unfold CONCAT_TOD in EB.
    assert (P : forall x, 0 <= wrap u32 x).
    { intros x. unfold wrap. cbn [u32 it_signed it_bits]. dlia. }
    destruct (concat_tod_lemma v (wrap u32 h) (wrap u32 mi) (wrap u32 s) (wrap u32 ms)
      (P h) (P mi) (P s) (P ms)) as [C D].
    pose proof (P h). pose proof (P mi). pose proof (P s). pose proof (P ms).
    destruct (Z_lt_dec (wrap u32 ms) 2000) as [L|L].
    - destruct (Z_lt_dec (wrap u32 h) 24); [|rewrite D in EB by lia; discriminate].
      destruct (Z_lt_dec (wrap u32 mi) 60); [|rewrite D in EB by lia; discriminate].
      destruct (Z_lt_dec (wrap u32 s) 60); [|rewrite D in EB by lia; discriminate].
      assert (Dec : accepts_millis v (wrap u32 s) (wrap u32 ms) \/
                    ~ accepts_millis v (wrap u32 s) (wrap u32 ms)).
      { unfold accepts_millis. destruct (leap_any v); [assert (true = true) by reflexivity|
          assert (false <> true) by discriminate]; lia. }
      destruct Dec as [Y|N]; [|rewrite D in EB by tauto; discriminate].
      rewrite C in EB by tauto. injection EB as <-.
      unfold clock_ns, HOUR, MINUTE, SECOND, MILLI, DAY in *. lia.
    - rewrite D in EB; [discriminate|]. unfold accepts_millis. lia. }
  destruct (concat_date_tod_spec v (k * DAY) b) as [P Q].
  rewrite Z.div_mul in P, Q by discriminate.
  destruct (representable_dec v (k * DAY + b mod DAY)) as [R|R];
    [|rewrite Q in E by exact R; discriminate].
  rewrite P in E by exact R. injection E as <-.
  unfold DAY in *. split; intros; dlia.
Qed.
Example C72_example : forall v, CONCAT_DT v 2000 1 1 23 59 58 999 = Ok 946771198999000000.
Proof. intros [[] []]; reflexivity. Qed.
Print Assumptions C72_concat_dt_sum_refuted.
Print Assumptions C72_concat_dt_sum_partial.
