(** The properties of the conversions, assembled. *)
From Coq Require Import String ZArith List Bool Lia Reals Lra SpecFloat.
From Verif Require Import Base ModelText ModelString ModelChrono ModelDate ModelFloat ModelST ModelExtra SpecScalar SpecDate SpecTimeNum SpecReal SpecText SpecExtra
  ProofBase ProofDate ProofReal2 ProofString ProofString2 ProofExtra ProofExtra2 ProofExtra3 ProofExtra4 ProofExtra5.
Import ListNotations.
Open Scope list_scope.
Open Scope Z_scope.

(** * Integers *)
Lemma small20 : forall t x, In t [u8; u32; u64; i32; i64] -> in_ity t x -> Z.abs x < 10 ^ 20.
Proof.
  intros t x I H. assert (G : - 10 ^ 20 < imin t /\ imax t < 10 ^ 20).
  { destruct I as [<-|[<-|[<-|[<-|[<-|[]]]]]]; split; reflexivity. }
  unfold in_ity in H. lia.
Qed.
Lemma int_string : forall t f x, integer_to_string t f -> in_ity t x ->
  exists d s, f x = Ok d /\ reads d s /\ canonical_int s x.
Proof.
  intros t f x F I.
  assert (B : Z.abs x < 10 ^ 20).
  { apply (small20 t); [|exact I]. destruct F as [[-> _]|[[-> _]|[[-> _]|[[-> _]|[-> _]]]]]; cbn; tauto. }
  destruct (int_to_string x B _ eq_refl) as (d & W & R & C). exists d, (dec_int x).
  destruct F as [[_ ->]|[[_ ->]|[[_ ->]|[[_ ->]|[_ ->]]]]]; exact (conj W (conj R C)).
Qed.
Lemma parse_canonical : forall t d s z, imin t <= 0 <= imax t -> reads d s -> canonical_int s z -> in_ity t z ->
  string_to_int t d = Ok z.
Proof. intros t d s z T R C I. apply (string_to_int_spec t d s T R). split; [now apply canonical_int_text|exact I]. Qed.
Lemma lint_round : forall x, in_ity i64 x -> exists d, LINT_TO_STRING x = Ok d /\ STRING_TO_LINT d = Ok x.
Proof.
  intros x I. destruct (int_string i64 LINT_TO_STRING x) as (d & s & E & R & C); [unfold integer_to_string; tauto|exact I|].
  exists d. split; [exact E|]. unfold STRING_TO_LINT. apply (parse_canonical _ _ s); auto. split; discriminate.
Qed.
Lemma dint_round : forall x, in_ity i32 x -> exists d, DINT_TO_STRING x = Ok d /\ STRING_TO_DINT d = Ok x.
Proof.
  intros x I. destruct (int_string i32 DINT_TO_STRING x) as (d & s & E & R & C); [unfold integer_to_string; tauto|exact I|].
  exists d. split; [exact E|]. unfold STRING_TO_DINT. apply (parse_canonical _ _ s); auto. split; discriminate.
Qed.
Lemma wide_parse : forall w s, reads w s -> ascii s -> (length s <= 80)%nat ->
  exists d, WSTRING_TO_STRING_EXT w str_temp = Ok d /\ reads d s.
Proof.
  intros w s R A L. destruct (w2s_temp w s (ascii_holds WSTRING w s R A)) as (d & E & RD).
  - now rewrite ascii_units.
  - rewrite ascii_units in RD by exact A. now exists d.
Qed.
Lemma i32_i64 : forall x, in_ity i32 x -> in_ity i64 x.
Proof.
  intros x H. unfold in_ity in *. change (imin i32) with (-2147483648) in H. change (imax i32) with 2147483647 in H.
  change (imin i64) with (-9223372036854775808). change (imax i64) with 9223372036854775807. lia.
Qed.
Lemma lint_wround : forall x, in_ity i64 x -> exists w, LINT_TO_WSTRING x = Ok w /\ WSTRING_TO_LINT w = Ok x.
Proof.
  intros x I. destruct (int_string i64 LINT_TO_STRING x) as (d & s & E & R & C); [unfold integer_to_string; tauto|exact I|].
  assert (B : Z.abs x < 10 ^ 20) by (apply (small20 i64); cbn; tauto).
  destruct (wide_int x _ d s B E R C) as (w & W & RW). exists w. split; [exact W|].
  pose proof (canonical_int_length _ _ 20 C ltac:(lia) B) as L.
  destruct (wide_parse w s RW (ascii_canonical_int _ _ C) ltac:(lia)) as (d' & E' & R').
  unfold WSTRING_TO_LINT. rewrite E'. cbn [obind]. apply (parse_canonical _ _ s); auto. split; discriminate.
Qed.
Lemma dint_wround : forall x, in_ity i32 x -> exists w, DINT_TO_WSTRING x = Ok w /\ WSTRING_TO_DINT w = Ok x.
Proof.
  intros x I. destruct (lint_wround x (i32_i64 x I)) as (w & W & P). exists w. split; [exact W|].
  unfold WSTRING_TO_DINT. unfold WSTRING_TO_LINT in P. destruct (WSTRING_TO_STRING_EXT w str_temp); try discriminate.
  cbn [obind] in *. rewrite P. cbn [omap]. f_equal. now apply (wrap_id i32).
Qed.
Lemma canonical_int_fun : forall s x y, canonical_int s x -> canonical_int s y -> x = y.
Proof.
  intros s x y [[_ [[_ A] _]]|(_ & r & -> & [[_ A] _])] [[_ [[_ B] _]]|(_ & r' & E & [[_ B] _])].
  - eapply digits_fun; eassumption.
  - subst s. apply digits10_range in A. cbn in A. apply Forall_cons_iff in A as [A _]. lia.
  - apply digits10_range in B. cbn in B. apply Forall_cons_iff in B as [B _]. lia.
  - apply app_inv_head in E as <-. pose proof (digits_fun _ _ _ A _ B). lia.
Qed.

(** * Stale destinations *)
Lemma int_ext : forall t f x dest, integer_to_string_ext t f -> in_ity t x -> (81 <= length dest)%nat ->
  exists s, canonical_int s x /\ f x dest = Ok (s ++ skipn (length s) dest) /\
    (reads (s ++ skipn (length s) dest) s <-> nth (length s) dest 1 = 0).
Proof.
  intros t f x dest F I L. exists (dec_int x).
  assert (B : Z.abs x < 10 ^ 20).
  { apply (small20 t); [|exact I]. destruct F as [[-> _]|[[-> _]|[-> _]]]; cbn; tauto. }
  pose proof (dec_int_canonical x) as C. pose proof (canonical_int_length _ _ 20 C ltac:(lia) B) as N.
  split; [exact C|]. split.
  - assert (E : f x dest = write_buf (dec_int x) dest) by (destruct F as [[_ ->]|[[_ ->]|[_ ->]]]; reflexivity).
    rewrite E. apply write_buf_ok; lia.
  - apply reads_stale; [|now apply canonical_int_nz in C]. lia.
Qed.

(** * WSTRING to integers *)
Lemma wint : forall w s t, holds WSTRING w t -> holds STRING s t -> (length (units STRING t) <= 80)%nat ->
  WSTRING_TO_LINT w = STRING_TO_LINT s /\ WSTRING_TO_DINT w = omap (wrap i32) (STRING_TO_LINT s).
Proof.
  intros w s t W S L. destruct (w2s_temp w t W L) as (d & E & R). unfold WSTRING_TO_LINT, WSTRING_TO_DINT. rewrite E. cbn [obind].
  unfold STRING_TO_LINT. rewrite (string_to_int_reads i64 d s _ R (holds_reads8 _ _ S)). now split.
Qed.
Lemma wint_ub : forall w t, holds WSTRING w t -> (80 < length (units STRING t))%nat ->
  WSTRING_TO_LINT w = Ub /\ WSTRING_TO_DINT w = Ub.
Proof. intros w t W L. unfold WSTRING_TO_LINT, WSTRING_TO_DINT. rewrite (w2s_temp_ub w t W L). now split. Qed.
Lemma wdint_small : forall w s t z, holds WSTRING w t -> holds STRING s t -> (length (units STRING t) <= 80)%nat ->
  STRING_TO_DINT s = Ok z -> WSTRING_TO_DINT w = Ok z.
Proof.
  intros w s t z W S L H. destruct (wint w s t W S L) as [_ ->]. pose proof (holds_reads8 _ _ S) as R.
  assert (I0 : imin i32 <= 0 <= imax i32) by (split; discriminate). assert (I1 : imin i64 <= 0 <= imax i64) by (split; discriminate).
  apply (string_to_int_spec i32 s _ I0 R) in H as [T I].
  assert (H : STRING_TO_LINT s = Ok z) by (apply (string_to_int_spec i64 s _ I1 R); split; [exact T|now apply i32_i64]).
  rewrite H. cbn [omap]. f_equal. now apply (wrap_id i32).
Qed.
Lemma wdint_iff : forall w s t, holds WSTRING w t -> holds STRING s t -> (length (units STRING t) <= 80)%nat ->
  (forall z, WSTRING_TO_DINT w = Ok z <-> exists n, int_text (units STRING t) n /\ in_ity i64 n /\ z = wrap i32 n) /\
  ((forall n, int_text (units STRING t) n -> ~ in_ity i64 n) -> WSTRING_TO_DINT w = Panic).
Proof.
  intros w s t W S L. destruct (wint w s t W S L) as [_ E]. rewrite E. clear E. pose proof (holds_reads8 _ _ S) as R.
  assert (I1 : imin i64 <= 0 <= imax i64) by (split; discriminate).
  pose proof (string_to_int_spec i64 s _ I1 R) as SP. fold STRING_TO_LINT in SP. split.
  - intros z. split.
    + destruct (STRING_TO_LINT s) as [n| |] eqn:Q; try discriminate. cbn [omap]. intros H. injection H as <-.
      exists n. destruct (proj1 (SP n) eq_refl). now split.
    + intros (n & T & I & ->). assert (Q : STRING_TO_LINT s = Ok n) by (apply SP; now split). rewrite Q. reflexivity.
  - intros H. destruct (string_to_int_total i64 s _ R) as [Q|[n Q]]; fold STRING_TO_LINT in Q; rewrite Q; [reflexivity|].
    exfalso. apply SP in Q as [T I]. exact (H n T I).
Qed.

(** * Times and dates *)
Lemma time_value_neg : forall t, in_ity i64 t -> t < 0 ->
  wrap u32 (Z.quot t DAY) = if - DAY <? t then 0 else 2 ^ 32 + Z.quot t DAY.
Proof.
  intros t I N. rewrite i64_range_ in I.
  assert (Q : Z.quot t DAY = - ((- t) / DAY)).
  { rewrite <- (Z.opp_involutive t) at 1. rewrite Z.quot_opp_l by discriminate. rewrite Z.quot_div_nonneg by (unfold DAY; lia). reflexivity. }
  rewrite Q. unfold wrap. cbn [u32 it_signed it_bits]. assert (0 <= (- t) / DAY < 106752) by (unfold DAY; dlia).
  destruct (Z.ltb_spec (- DAY) t) as [H1|H1].
  - rewrite Z.div_small by lia. reflexivity.
  - assert (1 <= (- t) / DAY) by (apply Z.div_le_lower_bound; unfold DAY in *; lia).
    rewrite <- (Z_mod_plus_full _ 1). rewrite Z.mod_small; lia.
Qed.
Lemma time_text_nonneg : forall t, 0 <= t -> in_ity i64 t -> exists d s, TIME_TO_STRING t = Ok d /\ reads d s /\ time_text s t.
Proof.
  intros t P I. destruct (time_items_text t) as (d & s & E & R & T). rewrite (time_positive t P I) in T. now exists d, s.
Qed.
Lemma reads_fun : forall d s s', reads d s -> reads d s' -> s = s'.
Proof.
  intros d s s' [N [rest E]] [N' [rest' E']]. subst d. revert s' N' E'. induction N as [|c s C _ IH]; intros [|c' s'] N' E.
  - reflexivity.
  - cbn in E. injection E as <- _. apply Forall_cons_iff in N' as [N' _]. congruence.
  - cbn in E. injection E as -> _. congruence.
  - cbn in E. injection E as -> E. apply Forall_cons_iff in N' as [_ N']. f_equal. now apply IH.
Qed.
Lemma time_distinct : forall t t' d d' s, 0 <= t -> 0 <= t' -> in_ity i64 t -> in_ity i64 t' ->
  TIME_TO_STRING t = Ok d -> TIME_TO_STRING t' = Ok d' -> reads d s -> reads d' s -> t = t'.
Proof.
  intros t t' d d' s P P' I I' E E' R R'.
  destruct (time_text_nonneg t P I) as (d1 & s1 & E1 & R1 & T1). destruct (time_text_nonneg t' P' I') as (d2 & s2 & E2 & R2 & T2).
  rewrite E1 in E. injection E as ->. rewrite E2 in E'. injection E' as ->.
  rewrite (reads_fun _ _ _ R1 R) in T1. rewrite (reads_fun _ _ _ R2 R') in T2. eapply time_text_fun; eassumption.
Qed.
Lemma date_of : forall n, in_ity i64 n -> exists d s y m dd, DATE_TO_STRING n = Ok d /\ reads d s /\
  date_text s y m dd /\ day_number (y, m, dd) (n / DAY).
Proof.
  intros n I. destruct (date_string n I) as (y & m & dd & T & D). destruct (date_text_len _ _ _ _ T) as [L N].
  destruct (write_zero _ ltac:(rewrite L; lia) N) as (d & W & R). exists d, (date_to_string (dt_date (of_timestamp_nanos n))), y, m, dd.
  exact (conj W (conj R (conj T D))).
Qed.
Lemma tod_of : forall n, exists d s h m sec ns, TOD_TO_STRING n = Ok d /\ reads d s /\ clock_text s h m sec ns /\
  0 <= h < 24 /\ 0 <= m < 60 /\ 0 <= sec < 60 /\ 0 <= ns < SECOND /\ h * HOUR + m * MINUTE + sec * SECOND + ns = n mod DAY.
Proof.
  intros n. destruct (clock_string n) as (h & m & sec & ns & T & B). destruct (clock_text_len _ _ _ _ _ T) as [L N].
  destruct (write_zero (time_to_string (dt_time (of_timestamp_nanos n))) ltac:(lia) N) as (d & W & R).
  exists d, (time_to_string (dt_time (of_timestamp_nanos n))), h, m, sec, ns. exact (conj W (conj R (conj T B))).
Qed.
Lemma dt_of : forall n, in_ity i64 n -> exists d ds cs y m dd h mi sec ns, DT_TO_STRING n = Ok d /\ reads d (ds ++ str "-" ++ cs) /\
  date_text ds y m dd /\ day_number (y, m, dd) (n / DAY) /\ clock_text cs h mi sec ns /\
  0 <= h < 24 /\ 0 <= mi < 60 /\ 0 <= sec < 60 /\ 0 <= ns < SECOND /\ h * HOUR + mi * MINUTE + sec * SECOND + ns = n mod DAY.
Proof.
  intros n I. destruct (date_string n I) as (y & m & dd & T & D). destruct (date_text_len _ _ _ _ T) as [L N].
  destruct (clock_string n) as (h & mi & sec & ns & T' & B). destruct (clock_text_len _ _ _ _ _ T') as [L' N'].
  set (ds := date_to_string (dt_date (of_timestamp_nanos n))) in *. set (cs := time_to_string (dt_time (of_timestamp_nanos n))) in *.
  destruct (write_zero (ds ++ str "-" ++ cs)) as (d & W & R).
  - rewrite !app_length, L. cbn [str]. change (length (str "-")) with 1%nat. lia.
  - apply Forall_app. split; [exact N|]. apply Forall_app. split; [now apply lit_nz|exact N'].
  - exists d, ds, cs, y, m, dd, h, mi, sec, ns. exact (conj W (conj R (conj T (conj D (conj T' B))))).
Qed.
Lemma day_fun : forall y m d a b, day_number (y, m, d) a -> day_number (y, m, d) b -> a = b.
Proof. intros y m d a b A B. apply day_number_iff in A as [_ A]. apply day_number_iff in B as [_ B]. congruence. Qed.
Lemma date_distinct : forall n n' d d' s, in_ity i64 n -> in_ity i64 n' -> DATE_TO_STRING n = Ok d -> DATE_TO_STRING n' = Ok d' ->
  reads d s -> reads d' s -> n / DAY = n' / DAY.
Proof.
  intros n n' d d' s I I' E E' R R'.
  destruct (date_of n I) as (d1 & s1 & y & m & dd & E1 & R1 & T1 & D1). destruct (date_of n' I') as (d2 & s2 & y2 & m2 & dd2 & E2 & R2 & T2 & D2).
  rewrite E1 in E. injection E as ->. rewrite E2 in E'. injection E' as ->.
  rewrite (reads_fun _ _ _ R1 R) in T1. rewrite (reads_fun _ _ _ R2 R') in T2.
  destruct (date_fun _ _ _ _ _ _ _ T1 T2) as (<- & <- & <-). eapply day_fun; eassumption.
Qed.
Lemma tod_distinct : forall n n' d d' s, TOD_TO_STRING n = Ok d -> TOD_TO_STRING n' = Ok d' ->
  reads d s -> reads d' s -> n mod DAY = n' mod DAY.
Proof.
  intros n n' d d' s E E' R R'.
  destruct (tod_of n) as (d1 & s1 & h & m & sec & ns & E1 & R1 & T1 & _ & _ & _ & _ & S1).
  destruct (tod_of n') as (d2 & s2 & h2 & m2 & sec2 & ns2 & E2 & R2 & T2 & _ & _ & _ & _ & S2).
  rewrite E1 in E. injection E as ->. rewrite E2 in E'. injection E' as ->.
  rewrite (reads_fun _ _ _ R1 R) in T1. rewrite (reads_fun _ _ _ R2 R') in T2.
  destruct (clock_fun _ _ _ _ _ _ _ _ _ T1 T2) as (<- & <- & <- & <-). congruence.
Qed.
Lemma dt_distinct : forall n n' d d' s, in_ity i64 n -> in_ity i64 n' -> DT_TO_STRING n = Ok d -> DT_TO_STRING n' = Ok d' ->
  reads d s -> reads d' s -> n = n'.
Proof.
  intros n n' d d' s I I' E E' R R'.
  destruct (dt_of n I) as (d1 & ds & cs & y & m & dd & h & mi & sec & ns & E1 & R1 & T1 & D1 & C1 & _ & _ & _ & _ & S1).
  destruct (dt_of n' I') as (d2 & ds2 & cs2 & y2 & m2 & dd2 & h2 & mi2 & sec2 & ns2 & E2 & R2 & T2 & D2 & C2 & _ & _ & _ & _ & S2).
  rewrite E1 in E. injection E as ->. rewrite E2 in E'. injection E' as ->.
  pose proof (reads_fun _ _ _ R1 R) as Q1. pose proof (reads_fun _ _ _ R2 R') as Q2. rewrite <- Q2 in Q1.
  apply app_len_inj in Q1 as [-> Q].
  - apply app_inv_head in Q as ->. destruct (date_fun _ _ _ _ _ _ _ T1 T2) as (<- & <- & <-).
    destruct (clock_fun _ _ _ _ _ _ _ _ _ C1 C2) as (<- & <- & <- & <-). pose proof (day_fun _ _ _ _ _ D1 D2) as DD.
    rewrite (Z.div_mod n DAY), (Z.div_mod n' DAY) by discriminate. rewrite DD, <- S1, <- S2. reflexivity.
  - destruct (date_text_len _ _ _ _ T1), (date_text_len _ _ _ _ T2). congruence.
Qed.

(** * Reals *)
Lemma lreal_panics : forall x, fl_valid F64 x -> fl_finite x = true ->
  (LREAL_TO_STRING x = Panic <-> (fl_value x <= IZR (- 10 ^ 73))%R).
Proof.
  intros x V F. split.
  - intros H. destruct (Rle_lt_dec (fl_value x) (IZR (- 10 ^ 73))) as [L|L]; [exact L|].
    destruct (lreal_text x V F L) as (d & s & E & _). congruence.
  - intros L. apply lreal_abort; auto. rewrite st_string_length. lia.
Qed.
Lemma lreal_back : forall x, fl_valid F64 x -> fl_finite x = true -> (IZR (- 10 ^ 73) < fl_value x)%R ->
  exists d y, LREAL_TO_STRING x = Ok d /\ STRING_TO_LREAL d = Ok y /\ fl_negative y = fl_negative x /\ fl_finite y = true /\
   ((fl_value x < IZR (10 ^ 14))%R -> (Rabs (fl_value y - fl_value x) <= / 1000000)%R /\
       ((exists n, fl_value x * 1000000 = IZR n)%R -> fl_value y = fl_value x)) /\
   ((IZR (10 ^ 14) <= fl_value x)%R -> (Rabs (fl_value y - fl_value x) <= Rabs (fl_value x) / 999999)%R).
Proof.
  intros x V F L. destruct (lreal_text x V F L) as (d & s & E & R & T1 & T2).
  destruct (Rlt_le_dec (fl_value x) (IZR (10 ^ 14))) as [B|B].
  - destruct (fixed6_back F64 s x x d (or_intror eq_refl) V F eq_refl eq_refl (T1 B) R) as (y & Y & S & FY & A & X).
    exists d, y. split; [exact E|]. split; [exact Y|]. split; [exact S|]. split; [exact FY|]. split; [now split|]. intros; lra.
  - destruct (exp6_back F64 s x x d (or_intror eq_refl) V F eq_refl eq_refl (T2 B) R) as (y & Y & S & FY & A).
    exists d, y. split; [exact E|]. split; [exact Y|]. split; [exact S|]. split; [exact FY|]. split; [intros; lra|now intros].
Qed.
Lemma widen_sign : forall x, fl_valid F32 x -> fl_finite x = true -> fl_negative (fl_convert F64 x) = fl_negative x.
Proof.
  intros x V F. destruct (widen_exact x V F) as (A & B & C).
  destruct x as [[s|s| |s m e]|s p]; try discriminate; [reflexivity|].
  pose proof (signed_value _ B) as S1. pose proof (signed_value _ F) as S2. rewrite C in S1.
  set (a := fl_negative (fl_convert F64 _)) in *. set (b := fl_negative (FNum _)) in *.
  assert (P : (0 < Rabs (fl_value (FNum (S754_finite s m e))))%R).
  { apply Rabs_pos_lt. intros Z. rewrite value_frac in Z. pose proof (fl_den_pos e). pose proof (fl_num_pos m e).
    apply Rmult_integral in Z as [Z|Z].
    - apply eq_IZR in Z. destruct s; lia.
    - apply Rinv_neq_0_compat in Z; [exact Z|]. apply IZR_neq. lia. }
  destruct a, b; try reflexivity; lra.
Qed.
Lemma real_back : forall x, fl_valid F32 x -> fl_finite x = true ->
  exists d y, REAL_TO_STRING x = Ok d /\ STRING_TO_REAL d = Ok y /\ fl_negative y = fl_negative x /\ fl_finite y = true /\
   ((fl_value x < IZR (10 ^ 14))%R -> (Rabs (fl_value y - fl_value x) <= / 1000000)%R /\
       ((exists n, fl_value x * 1000000 = IZR n)%R -> fl_value y = fl_value x)) /\
   ((IZR (10 ^ 14) <= fl_value x)%R -> (Rabs (fl_value y - fl_value x) <= Rabs (fl_value x) / 999999)%R).
Proof.
  intros x V F. destruct (real_text x V F) as (d & s & E & R & C & T1 & T2). pose proof (widen_sign x V F) as W.
  destruct (Rlt_le_dec (fl_value x) (IZR (10 ^ 14))) as [B|B].
  - destruct (fixed6_back F32 s _ x d (or_introl eq_refl) V F C W (T1 B) R) as (y & Y & S & FY & A & X).
    exists d, y. split; [exact E|]. split; [exact Y|]. split; [exact S|]. split; [exact FY|]. split; [now split|]. intros; lra.
  - destruct (exp6_back F32 s _ x d (or_introl eq_refl) V F C W (T2 B) R) as (y & Y & S & FY & A).
    exists d, y. split; [exact E|]. split; [exact Y|]. split; [exact S|]. split; [exact FY|]. split; [intros; lra|now intros].
Qed.

(** * The same text as STRING and WSTRING *)
Lemma integer_pair_text : forall t f g x, integer_pair t f g -> in_ity t x ->
  exists d w s, f x = Ok d /\ g x = Ok w /\ reads d s /\ reads w s.
Proof.
  intros t f g x P I.
  assert (F : integer_to_string t f) by (unfold integer_to_string; unfold integer_pair in P; tauto).
  assert (G : g x = to_wstring (f x)) by (destruct P as [(_ & -> & ->)|[(_ & -> & ->)|[(_ & -> & ->)|[(_ & -> & ->)|(_ & -> & ->)]]]]; reflexivity).
  destruct (int_string t f x F I) as (d & s & E & R & C).
  assert (B : Z.abs x < 10 ^ 20).
  { apply (small20 t); [|exact I]. destruct F as [[-> _]|[[-> _]|[[-> _]|[[-> _]|[-> _]]]]]; cbn; tauto. }
  destruct (wide_int x _ d s B E R C) as (w & W & RW). exists d, w, s. rewrite G, E in *. exact (conj eq_refl (conj W (conj R RW))).
Qed.
Lemma reads_length : forall d s, reads d s -> (length s < length d)%nat.
Proof. intros d s [_ [rest ->]]. rewrite app_length. cbn [length]. lia. Qed.
Lemma write_buf_length : forall t dest d, write_buf t dest = Ok d -> length d = length dest.
Proof.
  intros t dest d. unfold write_buf. change DEFAULT_STRING_LEN with 81%nat. destruct (Nat.ltb_spec (length dest) 81); [discriminate|].
  destruct (Nat.ltb_spec 81 (length t)); [discriminate|]. intros H1. injection H1 as <-. rewrite app_length, skipn_length. lia.
Qed.
Lemma time_loop_length : forall items before dest d, time_loop items before dest = Ok d -> length d = (length before + length dest)%nat.
Proof.
  induction items as [|[n u] r IH]; intros before dest d; cbn [time_loop].
  - intros H. injection H as <-. apply app_length.
  - destruct (n =? 0); [apply IH|]. destruct (write_buf _ dest) as [d1| |] eqn:W; try discriminate. cbn [obind].
    destruct (position0 _) as [i|]; try discriminate. cbn [unwrap obind]. intros H. apply IH in H. apply write_buf_length in W.
    rewrite app_length, firstn_length, skipn_length in H. lia.
Qed.
Lemma st_string_text : forall d s, length d = length st_string -> reads d s -> (length s <= 2048)%nat.
Proof. intros d s L R. rewrite st_string_length in L. apply reads_length in R. lia. Qed.
Lemma time_pair_text : forall f g x, time_pair f g -> in_ity i64 x ->
  exists d w s, f x = Ok d /\ g x = Ok w /\ reads d s /\ reads w s.
Proof.
  intros f g x P I.
  assert (G : g x = to_wstring (f x)) by (destruct P as [(-> & ->)|[(-> & ->)|[(-> & ->)|(-> & ->)]]]; reflexivity).
  assert (K : exists d s, f x = Ok d /\ reads d s /\ ascii s /\ length d = length st_string).
  { destruct P as [(-> & _)|[(-> & _)|[(-> & _)|(-> & _)]]].
    - destruct (time_items_text x) as (d & s & E & R & T). exists d, s. split; [exact E|]. split; [exact R|]. split; [now apply ascii_time in T|].
      apply time_loop_length in E. exact E.
    - destruct (date_of x I) as (d & s & y & m & dd & E & R & T & _). exists d, s. split; [exact E|]. split; [exact R|].
      split; [now apply ascii_date in T|]. now apply write_buf_length in E.
    - destruct (tod_of x) as (d & s & h & m & sec & ns & E & R & T & _). exists d, s. split; [exact E|]. split; [exact R|].
      split; [now apply ascii_clock in T|]. now apply write_buf_length in E.
    - destruct (dt_of x I) as (d & ds & cs & y & m & dd & h & mi & sec & ns & E & R & T & _ & T' & _). exists d, (ds ++ str "-" ++ cs).
      split; [exact E|]. split; [exact R|]. split; [|now apply write_buf_length in E].
      apply ascii_app; [now apply ascii_date in T|]. apply ascii_app; [now apply ascii_lit|now apply ascii_clock in T']. }
  destruct K as (d & s & E & R & A & L). destruct (wide_text _ d s E R A (st_string_text d s L R)) as (w & W & RW).
  exists d, w, s. rewrite G, E in *. exact (conj eq_refl (conj W (conj R RW))).
Qed.
Lemma lreal_ascii : forall x d, fl_valid F64 x -> LREAL_TO_STRING x = Ok d -> exists s, reads d s /\ ascii s /\ (length s <= 2048)%nat.
Proof.
  intros x d V E. assert (L : length d = length st_string) by now apply write_buf_length in E.
  assert (K : exists s, reads d s /\ ascii s).
  { destruct (fl_finite x) eqn:F.
    - destruct (Rle_lt_dec (fl_value x) (IZR (- 10 ^ 73))) as [B|B]; [apply (lreal_panics x V F) in B; congruence|].
      destruct (lreal_text x V F B) as (d' & s & E' & R & T1 & T2). rewrite E in E'. injection E' as <-. exists s. split; [exact R|].
      destruct (Rlt_le_dec (fl_value x) (IZR (10 ^ 14))) as [H|H].
      + destruct (fixed6_number _ _ (T1 H)) as (m & N & _). now apply ascii_number in N.
      + destruct (exp6_number _ _ (T2 H)) as (m & k & N & _). now apply ascii_number in N.
    - destruct (lreal_nonfinite x F V) as (d' & E' & R). rewrite E in E'. injection E' as <-. eexists. split; [exact R|].
      destruct x as [[s|[]| |s m e]|s p]; try discriminate F; now apply ascii_lit. }
  destruct K as (s & R & A). exists s. split; [exact R|]. split; [exact A|]. now apply (st_string_text d).
Qed.
Lemma lreal_pair_text : forall x, fl_valid F64 x ->
  (forall d, LREAL_TO_STRING x = Ok d -> exists w s, LREAL_TO_WSTRING x = Ok w /\ reads d s /\ reads w s) /\
  (LREAL_TO_STRING x = Panic -> LREAL_TO_WSTRING x = Panic).
Proof.
  intros x V. split.
  - intros d E. destruct (lreal_ascii x d V E) as (s & R & A & L). destruct (wide_text _ d s E R A L) as (w & W & RW). now exists w, s.
  - intros E. unfold LREAL_TO_WSTRING. rewrite E. reflexivity.
Qed.
Lemma lreal_special_back : forall x, fl_valid F64 x -> fl_finite x = false ->
  exists d y, LREAL_TO_STRING x = Ok d /\ STRING_TO_LREAL d = Ok y /\ is_nan y = is_nan x /\ (is_nan x = false -> y = x).
Proof.
  intros x V F. destruct (lreal_nonfinite x F V) as (d & E & R). exists d.
  revert E. generalize (LREAL_TO_STRING x). intros o E.
  assert (K : forall neg nan s, special_text s neg nan -> reads d s -> STRING_TO_LREAL d = Ok (special_value F64 neg nan)).
  { intros neg nan s T RD. apply (string_to_float_spec F64 d s _ RD). right. now exists neg, nan. }
  destruct x as [[s|[]| |s m e]|s p]; try discriminate F; try contradiction V.
  - eexists. split; [exact E|]. split.
    + apply (K true false (str "-inf")); [|exact R]. exists (str "-"), (str "inf"), (str "inf"). split; [reflexivity|].
      split; [now right|]. split; [apply same_word_lower; [now apply word_lower|reflexivity]|]. left. split; [reflexivity|now left].
    + now split.
  - eexists. split; [exact E|]. split.
    + apply (K false false (str "inf")); [|exact R]. exists [], (str "inf"), (str "inf"). split; [reflexivity|].
      split; [left; split; [left; reflexivity|reflexivity]|]. split; [apply same_word_lower; [now apply word_lower|reflexivity]|]. left. split; [reflexivity|now left].
    + now split.
  - eexists. split; [exact E|]. split.
    + apply (K false true (str "NaN")); [|exact R]. exists [], (str "NaN"), (str "nan"). split; [reflexivity|].
      split; [left; split; [left; reflexivity|reflexivity]|]. split; [|right; split; reflexivity].
      apply same_word_lower; [exact (word_lower "nan" eq_refl)|reflexivity].
    + cbn [special_value]. unfold quiet_nan. split; [reflexivity|]. intros H. cbn [is_nan] in H. congruence.
Qed.
Lemma real_pair_text : forall x, fl_valid F32 x ->
  exists d w s, REAL_TO_STRING x = Ok d /\ REAL_TO_WSTRING x = Ok w /\ reads d s /\ reads w s.
Proof.
  intros x V.
  assert (K : exists d s, REAL_TO_STRING x = Ok d /\ reads d s /\ ascii s).
  { destruct (fl_finite x) eqn:F; [|].
    - destruct (real_text x V F) as (d & s & E & R & C & T1 & T2). exists d, s. split; [exact E|]. split; [exact R|].
      destruct (Rlt_le_dec (fl_value x) (IZR (10 ^ 14))) as [H|H].
      + destruct (fixed6_number _ _ (T1 H)) as (m & N & _). now apply ascii_number in N.
      + destruct (exp6_number _ _ (T2 H)) as (m & k & N & _). now apply ascii_number in N.
    - assert (G : forall t, forallb (fun c => negb (c =? 0)) (str t) = true -> forallb (fun c => (0 <=? c) && (c <? 128))%Z (str t) = true ->
        (length (str t) <= 81)%nat -> REAL_TO_STRING x = write_buf (str t) st_string -> exists d s, REAL_TO_STRING x = Ok d /\ reads d s /\ ascii s).
      { intros t T1 T2 T3 ->. destruct (write_zero (str t) T3 (lit_nz _ T1)) as (d & W & R). exists d, (str t).
        split; [exact W|]. split; [exact R|now apply ascii_lit]. }
      destruct x as [[s|[]| |s m e]|s p]; try discriminate F; try contradiction V.
      + apply (G "-inf"%string); [reflexivity|reflexivity|cbn; lia|]. unfold REAL_TO_STRING, LREAL_TO_STRING_EXT, float_to_string. f_equal.
      + apply (G "inf"%string); [reflexivity|reflexivity|cbn; lia|]. unfold REAL_TO_STRING, LREAL_TO_STRING_EXT, float_to_string. f_equal.
      + apply (G "NaN"%string); [reflexivity|reflexivity|cbn; lia|]. unfold REAL_TO_STRING, LREAL_TO_STRING_EXT, float_to_string. f_equal. }
  destruct K as (d & s & E & R & A). assert (L : length d = length st_string) by now apply write_buf_length in E.
  destruct (wide_text _ d s E R A (st_string_text d s L R)) as (w & W & RW). exists d, w, s. exact (conj E (conj W (conj R RW))).
Qed.
Lemma wlreal : forall w s t, holds WSTRING w t -> holds STRING s t -> (length (units STRING t) <= 80)%nat ->
  WSTRING_TO_LREAL w = STRING_TO_LREAL s /\ WSTRING_TO_REAL w = STRING_TO_REAL s.
Proof.
  intros w s t W S L. destruct (w2s_temp w t W L) as (d & E & R). unfold WSTRING_TO_LREAL, WSTRING_TO_REAL. rewrite E. cbn [obind].
  assert (G : forall f, string_to_float f d = string_to_float f s).
  { intros f. unfold string_to_float. rewrite (reads_slice_ _ _ R), (reads_slice_ _ _ (holds_reads8 _ _ S)). reflexivity. }
  split; apply G.
Qed.
Lemma float_texts : forall f src s, binary_format f -> reads src s ->
  (forall neg m e, number_text s neg m e -> exists x, string_to_float f src = Ok x /\ rounded f x neg (number_value neg m e)) /\
  (forall neg nan, special_text s neg nan -> exists x, string_to_float f src = Ok x /\ fl_negative x = neg /\
     (if nan then is_nan x = true else x = FNum (S754_infinity neg))) /\
  ((forall neg m e, ~ number_text s neg m e) -> (forall neg nan, ~ special_text s neg nan) -> string_to_float f src = Panic).
Proof.
  intros f src s Hf R. split; [|split].
  - intros neg m e T. exists (FNum (scaled f neg m e)). split.
    + apply (string_to_float_spec f src s _ R). left. now exists neg, m, e.
    + apply scaled_rounded; [exact Hf|]. now apply number_nonneg in T.
  - intros neg nan T. exists (special_value f neg nan). split.
    + apply (string_to_float_spec f src s _ R). right. now exists neg, nan.
    + destruct nan; now split.
  - intros N1 N2. destruct (string_to_float_total f src s R) as [H|[x H]]; [exact H|]. exfalso.
    apply (string_to_float_spec f src s x R) in H as [(neg & m & e & T & _)|(neg & nan & T & _)]; [exact (N1 _ _ _ T)|exact (N2 _ _ T)].
Qed.
