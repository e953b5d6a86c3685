(** Proofs about CONCAT/SPLIT/DAY_OF_WEEK and date arithmetic. *)
From Coq Require Import ZArith List Bool Lia.
From Verif Require Import Base ModelChrono ModelDate SpecDate ProofBase ProofDate.
Import ListNotations.
Open Scope Z_scope.

Lemma wrap_u32 : forall x, -2147483648 <= x < 4294967296 ->
  (0 <= x -> wrap u32 x = x) /\ (x < 0 -> 2147483648 <= wrap u32 x).
Proof. intros x H. unfold wrap. cbn [u32 it_signed it_bits]. split; intros; dlia. Qed.

Lemma wrap_i32 : forall x, -2147483648 <= x < 4294967296 ->
  (x < 2147483648 -> wrap i32 x = x) /\ (2147483648 <= x -> wrap i32 x < 0).
Proof. intros x H. unfold wrap. cbn [i32 it_signed it_bits]. change (2 ^ (32 - 1)) with 2147483648.
  change (2 ^ 32) with 4294967296. split; intros; dlia. Qed.

Lemma narrow_range : forall t x, narrow t -> in_ity t x -> -2147483648 <= x < 4294967296.
Proof.
  intros t x H. unfold narrow in H. cbn in H.
  repeat (destruct H as [<-|H]; [unfold in_ity; cbn; lia|]). contradiction.
Qed.

Lemma concat_date_year : forall v y m d r, concat_date v y m d = Ok r ->
  valid_date (y, m, d) /\ 1677 <= y <= 2262.
Proof.
  intros v y m d r H.
  destruct (from_ymd_opt y m d) as [nd|] eqn:F.
  2:{ unfold concat_date in H. rewrite F in H. discriminate. }
  assert (V : valid_date (y, m, d)).
  { unfold from_ymd_opt in F.
    destruct (Z.leb_spec 1 m); [|rewrite ?andb_false_r in F; cbn in F; rewrite ?andb_false_r in F; discriminate].
    destruct (Z.leb_spec m 12); [|rewrite ?andb_false_r in F; cbn in F; rewrite ?andb_false_r in F; discriminate].
    destruct (Z.leb_spec 1 d); [|rewrite ?andb_false_r in F; cbn in F; rewrite ?andb_false_r in F; discriminate].
    rewrite nth_month in F by lia.
    destruct (Z.leb_spec d (days_in_month y m)); [|rewrite ?andb_false_r in F; discriminate].
    split; lia. }
  split; [exact V|]. rewrite concat_date_valid in H by exact V.
  destruct (in_ityb i64 _) eqn:B; [|discriminate]. rewrite in_ityb_iff in B.
  apply day_of_i64 in B. rewrite Z.div_mul in B by discriminate.
  apply year_range in B; [|now apply nd_of_valid]. exact B.
Qed.

Lemma CONCAT_DATE_valid : forall v t y m d, narrow t ->
  in_ity t y -> in_ity t m -> in_ity t d -> valid_date (y, m, d) ->
  exists n, day_number (y, m, d) n /\
    CONCAT_DATE v y m d = if in_ityb i64 (n * DAY) then Ok (n * DAY) else Panic.
Proof.
  intros v t y m d Ht Hy Hm Hd V. exists (nd_days (nd_of (y, m, d))).
  split; [now apply day_number_iff|]. unfold CONCAT_DATE.
  apply (narrow_range t) in Hy; [|exact Ht]. apply (narrow_range t) in Hm; [|exact Ht].
  apply (narrow_range t) in Hd; [|exact Ht].
  assert (M := V). destruct M as [M D].
  destruct (wrap_u32 m Hm) as [Em _]. rewrite Em by lia.
  destruct (wrap_u32 d Hd) as [Ed _]. rewrite Ed by lia.
  destruct (wrap_i32 y Hy) as [W1 W2]. destruct (Z.lt_ge_cases y 2147483648) as [L|L].
  - rewrite W1 by exact L. now apply concat_date_valid.
  - specialize (W2 L). destruct (concat_date v (wrap i32 y) m d) eqn:E.
    + apply concat_date_year in E. lia.
    + destruct (in_ityb i64 _) eqn:B; [|reflexivity]. exfalso. rewrite in_ityb_iff in B.
      apply day_of_i64 in B. rewrite Z.div_mul in B by discriminate.
      apply year_range in B; [|now apply nd_of_valid]. cbn [nd_of nd_year] in B. lia.
    + unfold concat_date in E. destruct (from_ymd_opt _ _ _); [|discriminate].
      rewrite midnight_ndt in E. cbn [unwrap obind] in E. rewrite midnight_ns in E.
      destruct (in_ityb _ _); discriminate.
Qed.

Lemma CONCAT_DATE_invalid : forall v t y m d, narrow t ->
  in_ity t y -> in_ity t m -> in_ity t d -> ~ valid_date (y, m, d) ->
  CONCAT_DATE v y m d = Panic.
Proof.
  intros v t y m d Ht Hy Hm Hd V. unfold CONCAT_DATE.
  apply (narrow_range t) in Hy; [|exact Ht]. apply (narrow_range t) in Hm; [|exact Ht].
  apply (narrow_range t) in Hd; [|exact Ht].
  destruct (concat_date v (wrap i32 y) (wrap u32 m) (wrap u32 d)) eqn:E.
  - exfalso. apply concat_date_year in E. destruct E as [[M D] Y].
    assert (D31 : days_in_month (wrap i32 y) (wrap u32 m) <= 31).
    { unfold days_in_month. destruct (_ || _); [lia|]. destruct (_ =? 2); [|lia].
      destruct (is_leapb _); lia. }
    destruct (wrap_u32 m Hm) as [M1 M2], (wrap_u32 d Hd) as [D1 D2], (wrap_i32 y Hy) as [Y1 Y2].
    destruct (Z.lt_ge_cases m 0); [specialize (M2 ltac:(lia)); lia|]. rewrite M1 in * by lia.
    destruct (Z.lt_ge_cases d 0); [specialize (D2 ltac:(lia)); lia|]. rewrite D1 in * by lia.
    destruct (Z.lt_ge_cases y 2147483648); [|specialize (Y2 ltac:(lia)); lia].
    rewrite Y1 in * by lia. apply V. split; assumption.
  - reflexivity.
  - unfold concat_date in E. destruct (from_ymd_opt _ _ _); [|discriminate].
    rewrite midnight_ndt in E. cbn [unwrap obind] in E. rewrite midnight_ns in E.
    destruct (in_ityb _ _); discriminate.
Qed.

Lemma CONCAT_DATE_ok_valid : forall v t y m d r, narrow t ->
  in_ity t y -> in_ity t m -> in_ity t d -> CONCAT_DATE v y m d = Ok r ->
  valid_date (y, m, d) /\ 1677 <= y <= 2262.
Proof.
  intros v t y m d r Ht Hy Hm Hd E.
  assert (Dec : valid_date (y, m, d) \/ ~ valid_date (y, m, d)) by (unfold valid_date; lia).
  destruct Dec as [V|V].
  - split; [exact V|].
    destruct (CONCAT_DATE_valid v t y m d Ht Hy Hm Hd V) as (n & N & E').
    rewrite E' in E. destruct (in_ityb i64 _) eqn:B; [|discriminate]. rewrite in_ityb_iff in B.
    apply day_of_i64 in B. rewrite Z.div_mul in B by discriminate.
    apply day_number_iff in N. destruct N as [_ N]. rewrite <- N in B.
    apply year_range in B; [|now apply nd_of_valid]. exact B.
  - rewrite (CONCAT_DATE_invalid v t) in E by assumption. discriminate.
Qed.

(** * SPLIT *)

Lemma date_type_fields : forall t, In t date_types ->
  (forall x, 1677 <= x <= 2262 -> checked t x = Some x) /\
  (forall x, 0 <= x < 1000 -> wrap t x = x).
Proof.
  intros t H. cbn in H.
  repeat (destruct H as [<-|H]; [split; intros x Hx; [
    match goal with |- checked ?t x = _ => destruct (checked_spec t x) as [[_ ->]|[N _]] end;
      [reflexivity|exfalso; apply N; unfold in_ity; cbn; lia]
    | apply wrap_id; [reflexivity|unfold in_ity; cbn; lia]]|]). contradiction.
Qed.

Lemma month_day_small : forall y m d, valid_date (y, m, d) -> 0 <= m < 1000 /\ 0 <= d < 1000.
Proof.
  intros y m d [M D]. assert (days_in_month y m <= 31).
  { unfold days_in_month. destruct (_ || _); [lia|]. destruct (_ =? 2); [|lia].
    destruct (is_leapb _); lia. }
  lia.
Qed.

Lemma split_date_lemma : forall t n, In t date_types -> in_ity i64 n ->
  exists y m d, SPLIT_DATE t n = Ok (y, m, d) /\ day_number (y, m, d) (n / DAY).
Proof.
  intros t n Ht Hn. destruct (date_type_fields t Ht) as [C W].
  destruct (of_ts_spec n) as (V & D & _). unfold SPLIT_DATE.
  destruct (nd_of_ymd _ V) as [N Vy].
  pose proof (year_range _ V) as Y. rewrite D in Y. specialize (Y (day_of_i64 n Hn)).
  destruct (ymd (dt_date (of_timestamp_nanos n))) as [[y m] d] eqn:E.
  assert (y = nd_year (dt_date (of_timestamp_nanos n))) by (rewrite <- N; reflexivity). subst y.
  destruct (month_day_small _ _ _ Vy) as [M Dd].
  rewrite C by exact Y. cbn [unwrap obind]. rewrite !W by assumption.
  do 3 eexists. split; [reflexivity|]. apply day_number_iff. split; [exact Vy|].
  rewrite N. exact D.
Qed.

Lemma split_tod_lemma : forall t n, In t date_types ->
  exists h mi s ms, SPLIT_TOD t n = (h, mi, s, ms) /\ valid_clock h mi s ms /\
    clock_ns h mi s ms <= n mod DAY < clock_ns h mi s ms + MILLI.
Proof.
  intros t n Ht. destruct (date_type_fields t Ht) as [_ W].
  destruct (of_ts_spec n) as (_ & _ & S & F).
  unfold SPLIT_TOD, hour, minute, second, subsec_millis. rewrite S, F.
  assert (B : 0 <= n / SECOND mod 86400 < 86400) by dlia.
  assert (B2 : 0 <= n mod SECOND < SECOND) by (unfold SECOND; dlia).
  assert (E : n mod DAY = n / SECOND mod 86400 * SECOND + n mod SECOND)
    by (unfold DAY, SECOND; dlia).
  rewrite E. set (s := n / SECOND mod 86400) in *. set (f := n mod SECOND) in *.
  clearbody s f. unfold SECOND in B2.
  rewrite !W by dlia. do 4 eexists. split; [reflexivity|]. unfold valid_clock, clock_ns.
  unfold HOUR, MINUTE, SECOND, MILLI. split; [dlia|]. dlia.
Qed.

Lemma split_dt_lemma : forall t n, In t date_types -> in_ity i64 n ->
  exists y mo d h mi s ms, SPLIT_DT t n = Ok (y, mo, d, h, mi, s, ms) /\
    day_number (y, mo, d) (n / DAY) /\ valid_clock h mi s ms /\
    clock_ns h mi s ms <= n mod DAY < clock_ns h mi s ms + MILLI.
Proof.
  intros t n Ht Hn.
  destruct (split_date_lemma t n Ht Hn) as (y & m & d & E1 & N).
  destruct (split_tod_lemma t n Ht) as (h & mi & s & ms & E2 & C).
  exists y, m, d, h, mi, s, ms. split; [|auto].
  unfold SPLIT_DATE, SPLIT_TOD, SPLIT_DT in *.
  destruct (ymd (dt_date (of_timestamp_nanos n))) as [[y0 m0] d0].
  destruct (checked t y0); cbn [unwrap obind] in *; [|discriminate].
  injection E1 as <- <- <-. injection E2 as <- <- <- <-. reflexivity.
Qed.

(** * CONCAT_TOD *)

Lemma concat_tod_lemma : forall v h m s ms, 0 <= h -> 0 <= m -> 0 <= s -> 0 <= ms ->
  (h < 24 /\ m < 60 /\ s < 60 /\ accepts_millis v s ms ->
   concat_tod v h m s ms = Ok (clock_ns h m s ms)) /\
  (~ (h < 24 /\ m < 60 /\ s < 60 /\ accepts_millis v s ms) -> concat_tod v h m s ms = Panic).
Proof.
  intros v h m s ms H0 M0 S0 Q0. unfold concat_tod. rewrite epoch_ymd.
  unfold and_hms_milli_opt, and_hms_nano_opt, from_hms_nano_opt, accepts_millis.
  split.
  - intros (H & M & S & A).
    destruct (checked_spec u32 (ms * 1000000)) as [[_ ->]|[N _]].
    2:{ exfalso. apply N. unfold in_ity. cbn -[Z.mul]. lia. }
    destruct (Z.leb_spec 24 h); [lia|]. destruct (Z.leb_spec 60 m); [lia|].
    destruct (Z.leb_spec 60 s); [lia|].
    destruct (Z.leb_spec (2 * GIGA) (ms * 1000000)); [unfold GIGA in *; lia|].
    cbn [orb].
    assert (E : negb (leap_any v) && (GIGA <=? ms * 1000000) && negb (s =? 59) = false).
    { destruct (leap_any v); [reflexivity|]. cbn [negb andb].
      destruct (Z.leb_spec GIGA (ms * 1000000)); [|reflexivity]. unfold GIGA in *.
      destruct (Z.eqb_spec s 59); [reflexivity|]. exfalso. intuition; try discriminate; lia. }
    rewrite E. cbn [unwrap obind].
    unfold timestamp_nanos, timestamp, subsec_nanos. cbn [dt_date dt_time nt_secs nt_frac].
    rewrite num_days_spec, epoch_days. rewrite Z.mul_0_l, Z.add_0_l.
    destruct (Z.ltb_spec (h * 3600 + m * 60 + s) 0); [lia|].
    rewrite andb_false_r. cbn [andb].
    destruct (checked_spec i64 ((h * 3600 + m * 60 + s) * GIGA)) as [[_ ->]|[N _]].
    + destruct (checked_spec i64 ((h * 3600 + m * 60 + s) * GIGA + ms * 1000000))
        as [[_ ->]|[N _]].
      * cbn [unwrap]. f_equal. unfold clock_ns, GIGA, HOUR, MINUTE, SECOND, MILLI. lia.
      * exfalso. apply N. rewrite i64_range. unfold GIGA. lia.
    + exfalso. apply N. rewrite i64_range. unfold GIGA. lia.
  - intros A. destruct (checked_spec u32 (ms * 1000000)) as [[R ->]|[_ ->]]; [|reflexivity].
    destruct (Z.leb_spec 24 h); [reflexivity|]. destruct (Z.leb_spec 60 m); [reflexivity|].
    destruct (Z.leb_spec 60 s); [reflexivity|].
    destruct (Z.leb_spec (2 * GIGA) (ms * 1000000)); [reflexivity|]. cbn [orb].
    destruct (leap_any v); cbn [negb andb].
    + exfalso. apply A. unfold GIGA in *. intuition lia.
    + destruct (Z.leb_spec GIGA (ms * 1000000)).
      * destruct (Z.eqb_spec s 59); [|reflexivity]. exfalso. apply A. unfold GIGA in *.
        intuition lia.
      * exfalso. apply A. unfold GIGA in *. intuition lia.
Qed.

Lemma CONCAT_TOD_lemma : forall v t h m s ms, narrow t ->
  in_ity t h -> in_ity t m -> in_ity t s -> in_ity t ms ->
  (0 <= h < 24 /\ 0 <= m < 60 /\ 0 <= s < 60 /\ 0 <= ms /\ accepts_millis v s ms ->
   CONCAT_TOD v h m s ms = Ok (clock_ns h m s ms)) /\
  (~ (0 <= h < 24 /\ 0 <= m < 60 /\ 0 <= s < 60 /\ 0 <= ms /\ accepts_millis v s ms) ->
   CONCAT_TOD v h m s ms = Panic).
Proof.
  intros v t h m s ms Ht Hh Hm Hs Hq. unfold CONCAT_TOD.
  apply (narrow_range t) in Hh, Hm, Hs, Hq; try exact Ht.
  destruct (wrap_u32 h Hh) as [H1 H2], (wrap_u32 m Hm) as [M1 M2], (wrap_u32 s Hs) as [S1 S2],
    (wrap_u32 ms Hq) as [Q1 Q2].
  assert (P : forall x, 0 <= wrap u32 x).
  { intros x. unfold wrap. cbn [u32 it_signed it_bits]. dlia. }
  destruct (concat_tod_lemma v (wrap u32 h) (wrap u32 m) (wrap u32 s) (wrap u32 ms)
    (P h) (P m) (P s) (P ms)) as [A B].
  split; intros C.
  - rewrite H1, M1, S1, Q1 in A by lia. rewrite H1, M1, S1, Q1 by lia. apply A. tauto.
  - apply B. intros D. apply C. unfold accepts_millis in *.
    destruct (Z.lt_ge_cases h 0); [specialize (H2 ltac:(lia)); lia|]. rewrite H1 in * by lia.
    destruct (Z.lt_ge_cases m 0); [specialize (M2 ltac:(lia)); lia|]. rewrite M1 in * by lia.
    destruct (Z.lt_ge_cases s 0); [specialize (S2 ltac:(lia)); lia|]. rewrite S1 in * by lia.
    destruct (Z.lt_ge_cases ms 0); [specialize (Q2 ltac:(lia)); lia|]. rewrite Q1 in * by lia.
    intuition lia.
Qed.

(** * DAY_OF_WEEK *)

Lemma day_of_week_lemma : forall n, DAY_OF_WEEK n = (n / DAY + 4) mod 7.
Proof.
  intros n. unfold DAY_OF_WEEK, num_days_from_sunday.
  destruct (of_ts_spec n) as (_ & D & _). rewrite nd_days_cycle in D. fold (nd_cycle
    (dt_date (of_timestamp_nanos n))). set (d := dt_date (of_timestamp_nanos n)) in *.
  rewrite wrap_id.
  - rewrite <- D. dlia.
  - reflexivity.
  - unfold in_ity. cbn -[Z.modulo]. dlia.
Qed.

(** * Durations *)

Definition du_ns (d : dur) : Z := du_secs d * SECOND + du_nanos d.
Definition du_ok (d : dur) : Prop := 0 <= du_nanos d < SECOND.

Lemma du_nanoseconds_spec : forall n, du_ok (du_nanoseconds n) /\ du_ns (du_nanoseconds n) = n.
Proof. intros. unfold du_ok, du_ns, du_nanoseconds, GIGA, SECOND. cbn. dlia. Qed.

Lemma du_add_spec : forall a b, du_ok a -> du_ok b ->
  - 9000000000000 * SECOND <= du_ns a <= 9000000000000 * SECOND ->
  - 9000000000000 * SECOND <= du_ns b <= 9000000000000 * SECOND ->
  exists c, du_add a b = Some c /\ du_ok c /\ du_ns c = du_ns a + du_ns b.
Proof.
  intros [s1 n1] [s2 n2] A B L1 L2. unfold du_ok, du_ns, du_add, du_check, du_limit in *.
  cbn [du_secs du_nanos] in *. change GIGA with SECOND. unfold SECOND in *.
  destruct (Z.leb_spec 1000000000 (n1 + n2)); cbn [du_secs du_nanos].
  - destruct (Z.leb_spec (- (9223372036854775)) (s1 + s2 + 1)); [|lia].
    destruct (Z.leb_spec (s1 + s2 + 1) 9223372036854775); [|lia].
    eexists. split; [reflexivity|]. cbn [du_secs du_nanos]. lia.
  - destruct (Z.leb_spec (- (9223372036854775)) (s1 + s2)); [|lia].
    destruct (Z.leb_spec (s1 + s2) 9223372036854775); [|lia].
    eexists. split; [reflexivity|]. cbn [du_secs du_nanos]. lia.
Qed.

Lemma du_sub_spec : forall a b, du_ok a -> du_ok b ->
  - 9000000000000 * SECOND <= du_ns a <= 9000000000000 * SECOND ->
  - 9000000000000 * SECOND <= du_ns b <= 9000000000000 * SECOND ->
  exists c, du_sub a b = Some c /\ du_ok c /\ du_ns c = du_ns a - du_ns b.
Proof.
  intros [s1 n1] [s2 n2] A B L1 L2. unfold du_ok, du_ns, du_sub, du_check, du_limit in *.
  cbn [du_secs du_nanos] in *. change GIGA with SECOND. unfold SECOND in *.
  destruct (Z.ltb_spec (n1 - n2) 0); cbn [du_secs du_nanos].
  - destruct (Z.leb_spec (- (9223372036854775)) (s1 - s2 - 1)); [|lia].
    destruct (Z.leb_spec (s1 - s2 - 1) 9223372036854775); [|lia].
    eexists. split; [reflexivity|]. cbn [du_secs du_nanos]. lia.
  - destruct (Z.leb_spec (- (9223372036854775)) (s1 - s2)); [|lia].
    destruct (Z.leb_spec (s1 - s2) 9223372036854775); [|lia].
    eexists. split; [reflexivity|]. cbn [du_secs du_nanos]. lia.
Qed.

Lemma du_neg_spec : forall a, du_ok a -> du_ok (du_neg a) /\ du_ns (du_neg a) = - du_ns a.
Proof.
  intros [s n] A. unfold du_ok, du_ns, du_neg in *. cbn [du_secs du_nanos] in *.
  change GIGA with SECOND. unfold SECOND in *.
  destruct (Z.eqb_spec n 0); cbn [du_secs du_nanos]; lia.
Qed.

Lemma du_num_spec : forall d, du_ok d ->
  du_num_nanoseconds d = (if in_ityb i64 (du_ns d) then Some (du_ns d) else None) /\
  du_num_seconds d * SECOND + du_subsec d = du_ns d.
Proof.
  intros [s n] A. unfold du_ok, du_ns, du_num_nanoseconds, du_num_seconds, du_subsec in *.
  cbn [du_secs du_nanos] in *. change GIGA with SECOND. unfold SECOND in *.
  assert (E : (if (s <? 0) && (0 <? n) then s + 1 else s) * 1000000000 +
              (if (s <? 0) && (0 <? n) then n - 1000000000 else n) = s * 1000000000 + n).
  { destruct ((s <? 0) && (0 <? n)); lia. }
  split; [|exact E].
  destruct (in_ityb i64 (s * 1000000000 + n)) eqn:B.
  - rewrite in_ityb_iff, i64_range in B.
    destruct (checked_spec i64 ((if (s <? 0) && (0 <? n) then s + 1 else s) * 1000000000))
      as [[_ ->]|[N _]].
    + rewrite E. destruct (checked_spec i64 (s * 1000000000 + n)) as [[_ ->]|[N _]];
        [reflexivity|]. exfalso. apply N. now rewrite i64_range.
    + exfalso. apply N. rewrite i64_range.
      destruct (Z.ltb_spec s 0), (Z.ltb_spec 0 n); cbn [andb]; lia.
  - destruct (checked_spec i64 ((if (s <? 0) && (0 <? n) then s + 1 else s) * 1000000000))
      as [[_ ->]|[_ ->]]; [|reflexivity].
    rewrite E. unfold checked. now rewrite B.
Qed.

Lemma i64_du : forall n, in_ity i64 n ->
  - 9000000000000 * SECOND <= n <= 9000000000000 * SECOND.
Proof. intros n H. rewrite i64_range in H. unfold SECOND. lia. Qed.

Lemma unwrap_if : forall (b : bool) (x : Z),
  unwrap (if b then Some x else None) = if b then Ok x else Panic.
Proof. intros [] x; reflexivity. Qed.

Lemma add_time_lemma : forall a b, in_ity i64 a -> in_ity i64 b ->
  ADD_TIME a b = if in_ityb i64 (a + b) then Ok (a + b) else Panic.
Proof.
  intros a b Ha Hb. unfold ADD_TIME.
  destruct (du_nanoseconds_spec a) as [A1 A2], (du_nanoseconds_spec b) as [B1 B2].
  destruct (du_add_spec (du_nanoseconds a) (du_nanoseconds b)) as (c & -> & C1 & C2);
    try assumption; rewrite ?A2, ?B2; try (now apply i64_du).
  cbn [unwrap obind]. rewrite A2, B2 in C2. destruct (du_num_spec c C1) as [-> _].
  rewrite C2. apply unwrap_if.
Qed.

Lemma sub_time_lemma : forall a b, in_ity i64 a -> in_ity i64 b ->
  SUB_TIME a b = if in_ityb i64 (a - b) then Ok (a - b) else Panic.
Proof.
  intros a b Ha Hb. unfold SUB_TIME.
  destruct (du_nanoseconds_spec a) as [A1 A2], (du_nanoseconds_spec b) as [B1 B2].
  destruct (du_sub_spec (du_nanoseconds a) (du_nanoseconds b)) as (c & -> & C1 & C2);
    try assumption; rewrite ?A2, ?B2; try (now apply i64_du).
  cbn [unwrap obind]. rewrite A2, B2 in C2. destruct (du_num_spec c C1) as [-> _].
  rewrite C2. apply unwrap_if.
Qed.

Definition time_ok (t : ntime) : Prop := 0 <= nt_secs t < 86400 /\ 0 <= nt_frac t < SECOND.

Lemma time_add_spec : forall t d, time_ok t -> du_ok d ->
  let '(t', more) := time_overflowing_add t d in
  time_ok t' /\ more = Z.quot more 86400 * 86400 /\
  more * SECOND + nt_secs t' * SECOND + nt_frac t' = nt_secs t * SECOND + nt_frac t + du_ns d.
Proof.
  intros [s f] d [S F] D. cbn [nt_secs nt_frac] in *.
  destruct (du_num_spec d D) as [_ E]. unfold time_overflowing_add. cbv zeta.
  cbn [nt_secs nt_frac]. change GIGA with SECOND.
  assert (Sub : - SECOND < du_subsec d < SECOND).
  { unfold du_subsec, du_ok in *. change GIGA with SECOND. unfold SECOND in *.
    destruct ((du_secs d <? 0) && (0 <? du_nanos d)) eqn:C; [|lia].
    apply andb_true_iff in C. lia. }
  set (r := du_num_seconds d) in *. set (n := du_subsec d) in *. clearbody r n.
  assert (Q : r = 86400 * Z.quot r 86400 + Z.rem r 86400) by (apply Z.quot_rem; lia).
  assert (R : -86400 < Z.rem r 86400 < 86400) by (Z.quot_rem_to_equations; lia).
  rewrite <- E. clear E. set (q := Z.quot r 86400) in *. set (i := Z.rem r 86400) in *.
  clearbody q i. subst r. replace (86400 * q + i - i) with (86400 * q) by lia.
  assert (QQ : forall k, Z.quot (86400 * k) 86400 = k).
  { intros k. rewrite Z.mul_comm. apply Z.quot_mul. lia. }
  unfold time_ok. unfold SECOND in *.
  destruct (Z.ltb_spec (f + n) 0) as [H1|H1].
  - destruct (Z.ltb_spec (s + i - 1) 0) as [H2|H2].
    + cbn [nt_secs nt_frac]. replace (86400 * q - 86400) with (86400 * (q - 1)) by lia.
      rewrite QQ. lia.
    + destruct (Z.leb_spec 86400 (s + i - 1)) as [H3|H3]; cbn [nt_secs nt_frac].
      * replace (86400 * q + 86400) with (86400 * (q + 1)) by lia. rewrite QQ. lia.
      * rewrite QQ. lia.
  - destruct (Z.leb_spec 1000000000 (f + n)) as [H4|H4].
    + destruct (Z.ltb_spec (s + i + 1) 0) as [H2|H2].
      * cbn [nt_secs nt_frac]. replace (86400 * q - 86400) with (86400 * (q - 1)) by lia.
        rewrite QQ. lia.
      * destruct (Z.leb_spec 86400 (s + i + 1)) as [H3|H3]; cbn [nt_secs nt_frac].
        -- replace (86400 * q + 86400) with (86400 * (q + 1)) by lia. rewrite QQ. lia.
        -- rewrite QQ. lia.
    + destruct (Z.ltb_spec (s + i) 0) as [H2|H2].
      * cbn [nt_secs nt_frac]. replace (86400 * q - 86400) with (86400 * (q - 1)) by lia.
        rewrite QQ. lia.
      * destruct (Z.leb_spec 86400 (s + i)) as [H3|H3]; cbn [nt_secs nt_frac].
        -- replace (86400 * q + 86400) with (86400 * (q + 1)) by lia. rewrite QQ. lia.
        -- rewrite QQ. lia.
Qed.

Lemma of_ts_time_ok : forall n, time_ok (dt_time (of_timestamp_nanos n)).
Proof.
  intros n. destruct (of_ts_spec n) as (_ & _ & S & F). unfold time_ok. rewrite S, F.
  unfold SECOND. split; dlia.
Qed.

Lemma dt_add_spec : forall t d, time_ok (dt_time t) -> du_ok d ->
  time_ok (dt_time (dt_add t d)) /\ ndt_ns (dt_add t d) = ndt_ns t + du_ns d.
Proof.
  intros t d T D. pose proof (time_add_spec _ d T D) as S. unfold dt_add.
  destruct (time_overflowing_add (dt_time t) d) as [t' more]. destruct S as (T' & M & E).
  cbn [dt_time]. split; [exact T'|]. unfold ndt_ns. cbn [dt_date dt_time].
  destruct (date_add_days_spec (dt_date t) (Z.quot more 86400)) as [_ ->].
  unfold DAY, SECOND in *. lia.
Qed.

Lemma dt_sub_spec : forall t d, time_ok (dt_time t) -> du_ok d ->
  time_ok (dt_time (dt_sub t d)) /\ ndt_ns (dt_sub t d) = ndt_ns t - du_ns d.
Proof.
  intros t d T D. destruct (du_neg_spec d D) as [D' ED].
  pose proof (time_add_spec _ (du_neg d) T D') as S. unfold dt_sub.
  destruct (time_overflowing_add (dt_time t) (du_neg d)) as [t' more].
  destruct S as (T' & M & E). cbn [dt_time]. split; [exact T'|]. unfold ndt_ns.
  cbn [dt_date dt_time]. rewrite Z.quot_opp_l, Z.opp_involutive by lia.
  destruct (date_add_days_spec (dt_date t) (Z.quot more 86400)) as [_ ->].
  unfold DAY, SECOND in *. lia.
Qed.

Lemma add_datetime_lemma : forall v a b,
  (representable v (a + b) -> add_datetime_time v a b = Ok (a + b)) /\
  (~ representable v (a + b) -> add_datetime_time v a b = Panic).
Proof.
  intros v a b. unfold add_datetime_time. destruct (du_nanoseconds_spec b) as [B1 B2].
  destruct (dt_add_spec (of_timestamp_nanos a) (du_nanoseconds b)) as [[_ T] E];
    [apply of_ts_time_ok|exact B1|].
  rewrite of_ts_ns, B2 in E. rewrite <- E.
  split; [apply ts_nanos_ok|apply ts_nanos_panic]; exact T.
Qed.

Lemma sub_datetime_lemma : forall v a b,
  (representable v (a - b) -> sub_datetime_duration v a b = Ok (a - b)) /\
  (~ representable v (a - b) -> sub_datetime_duration v a b = Panic).
Proof.
  intros v a b. unfold sub_datetime_duration. destruct (du_nanoseconds_spec b) as [B1 B2].
  destruct (dt_sub_spec (of_timestamp_nanos a) (du_nanoseconds b)) as [[_ T] E];
    [apply of_ts_time_ok|exact B1|].
  rewrite of_ts_ns, B2 in E. rewrite <- E.
  split; [apply ts_nanos_ok|apply ts_nanos_panic]; exact T.
Qed.

Lemma sub_datetimes_lemma : forall a b, in_ity i64 a -> in_ity i64 b ->
  sub_datetimes a b = if in_ityb i64 (a - b) then Ok (a - b) else Panic.
Proof.
  intros a b Ha Hb. unfold sub_datetimes, dt_since. cbv zeta.
  pose proof (of_ts_ns a) as Ea. pose proof (of_ts_ns b) as Eb.
  pose proof (of_ts_time_ok a) as [Sa Fa]. pose proof (of_ts_time_ok b) as [Sb Fb].
  unfold ndt_ns in Ea, Eb. rewrite nd_days_cycle in Ea, Eb.
  set (ta := of_timestamp_nanos a) in *. set (tb := of_timestamp_nanos b) in *.
  destruct (du_nanoseconds_spec (nt_frac (dt_time ta) - nt_frac (dt_time tb))) as [F1 F2].
  destruct (du_add_spec (du_seconds (nt_secs (dt_time ta) - nt_secs (dt_time tb)))
    (du_nanoseconds (nt_frac (dt_time ta) - nt_frac (dt_time tb)))) as (c & -> & C1 & C2).
  - unfold du_ok. cbn. unfold SECOND. lia.
  - exact F1.
  - unfold du_ns, du_seconds, SECOND. cbn [du_secs du_nanos]. lia.
  - rewrite F2. unfold SECOND in *. lia.
  - rewrite F2 in C2. unfold du_ns at 2 in C2. cbn [du_seconds du_secs du_nanos] in C2.
    set (days := (nd_year (dt_date ta) / 400 - nd_year (dt_date tb) / 400) * 146097 +
                 (nd_cycle (dt_date ta) - nd_cycle (dt_date tb))) in *.
    assert (ED : days * DAY + du_ns c = a - b) by (unfold days, DAY, SECOND in *; lia).
    rewrite i64_range in Ha, Hb.
    destruct (du_add_spec (du_seconds (days * 86400)) c) as (e & -> & E1 & E2).
    + unfold du_ok. cbn. unfold SECOND. lia.
    + exact C1.
    + unfold du_ns at 1 2, du_seconds. cbn [du_secs du_nanos]. unfold DAY, SECOND in *. lia.
    + unfold SECOND in *. lia.
    + cbn [unwrap obind]. destruct (du_num_spec e E1) as [-> _].
      assert (EE : du_ns e = a - b).
      { rewrite E2, <- ED. unfold du_ns at 1, du_seconds. cbn [du_secs du_nanos].
        unfold DAY, SECOND. lia. }
      rewrite EE. apply unwrap_if.
Qed.

(** * CONCAT_DT *)

Lemma CONCAT_DT_lemma : forall v t y mo d h mi s ms n, narrow t ->
  in_ity t y -> in_ity t mo -> in_ity t d ->
  in_ity t h -> in_ity t mi -> in_ity t s -> in_ity t ms ->
  day_number (y, mo, d) n -> valid_clock h mi s ms ->
  CONCAT_DT v y mo d h mi s ms =
  if in_ityb i64 (n * DAY) && in_ityb i64 (n * DAY + clock_ns h mi s ms)
  then Ok (n * DAY + clock_ns h mi s ms) else Panic.
Proof.
  intros v t y mo d h mi s ms n Ht Hy Hmo Hd Hh Hmi Hs Hms N C.
  assert (V : valid_date (y, mo, d)) by (now apply day_number_iff in N).
  destruct (CONCAT_DATE_valid v t y mo d) as (n' & N' & E); try assumption.
  assert (n' = n) by (apply day_number_iff in N, N'; destruct N, N'; congruence). subst n'.
  unfold CONCAT_DT. rewrite E. clear E. destruct (in_ityb i64 (n * DAY)) eqn:B; [|reflexivity].
  cbn [obind andb]. rewrite in_ityb_iff, i64_range in B.
  destruct (CONCAT_TOD_lemma v t h mi s ms) as [E _]; try assumption.
  rewrite E. 2:{ unfold valid_clock, accepts_millis in *. lia. } clear E. cbn [obind].
  destruct (concat_date_tod_spec v (n * DAY) (clock_ns h mi s ms)) as [P1 P2].
  rewrite Z.div_mul in P1, P2 by discriminate.
  assert (R : 0 <= clock_ns h mi s ms < DAY).
  { unfold valid_clock, clock_ns, HOUR, MINUTE, SECOND, MILLI, DAY in *. lia. }
  rewrite (Z.mod_small (clock_ns h mi s ms)) in P1, P2 by exact R.
  destruct (in_ityb i64 (n * DAY + clock_ns h mi s ms)) eqn:B2.
  - apply P1. split; [now apply in_ityb_iff|]. intros _. unfold DAY, SECOND in *. lia.
  - apply P2. intros [R' _]. rewrite <- in_ityb_iff in R'. congruence.
Qed.

Lemma clock_unique : forall h mi s ms h' mi' s' ms' x, valid_clock h mi s ms ->
  valid_clock h' mi' s' ms' ->
  clock_ns h mi s ms <= x < clock_ns h mi s ms + MILLI ->
  clock_ns h' mi' s' ms' <= x < clock_ns h' mi' s' ms' + MILLI ->
  h = h' /\ mi = mi' /\ s = s' /\ ms = ms'.
Proof.
  unfold valid_clock, clock_ns, HOUR, MINUTE, SECOND, MILLI. intros. lia.
Qed.
