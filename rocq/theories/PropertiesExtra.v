(** C55-C63, C78-C80: numbers, times and dates as text.  See SpecText.v for [reads] and [holds],
    SpecExtra.v for the texts. *)
From Coq Require Import String ZArith List Bool Lia Reals Lra SpecFloat.
From Verif Require Import Base ModelText ModelString ModelDate ModelFloat ModelST ModelExtra SpecScalar SpecDate SpecTimeNum SpecReal SpecText SpecExtra
  ProofExtra ProofExtra2 ProofExtra3 ProofExtra4 ProofExtra5 ProofExtra6.
Import ListNotations.
Open Scope list_scope.
Open Scope Z_scope.

(** Memory holding a text, for the examples. *)
Definition mem (s : list Z) : list Z := s ++ [0; 0x7F].
Lemma mem_reads : forall s, forallb (fun c => negb (c =? 0)) s = true -> reads (mem s) s.
Proof.
  intros s H. split; [|now exists [0x7F]]. apply Forall_forall. intros c I. rewrite forallb_forall in H. apply H in I. lia.
Qed.
(** The text in a result, for the examples. *)
Definition shown (o : outcome (list Z)) : option (list Z) :=
  match o with Ok d => option_map (fun n => firstn n d) (position0 d) | _ => None end.

(** * C55 Integer to string and back *)
Theorem C55_lint_round_trip : forall x, in_ity i64 x ->
  exists d, LINT_TO_STRING x = Ok d /\ STRING_TO_LINT d = Ok x.
Proof. exact lint_round. Qed.
Theorem C55_dint_round_trip : forall x, in_ity i32 x ->
  exists d, DINT_TO_STRING x = Ok d /\ STRING_TO_DINT d = Ok x.
Proof. exact dint_round. Qed.
Theorem C55_wide_lint_round_trip : forall x, in_ity i64 x ->
  exists w, LINT_TO_WSTRING x = Ok w /\ WSTRING_TO_LINT w = Ok x.
Proof. exact lint_wround. Qed.
Theorem C55_wide_dint_round_trip : forall x, in_ity i32 x ->
  exists w, DINT_TO_WSTRING x = Ok w /\ WSTRING_TO_DINT w = Ok x.
Proof. exact dint_wround. Qed.
Theorem C55_canonical_numeral : forall t f x, integer_to_string t f -> in_ity t x ->
  exists d s, f x = Ok d /\ reads d s /\ canonical_int s x.
Proof. exact int_string. Qed.
Theorem C55_canonical_numerals_are_distinct : forall s x y, canonical_int s x -> canonical_int s y -> x = y.
Proof. exact canonical_int_fun. Qed.
Example C55_example :
  in_ity i64 (-9223372036854775808) /\ in_ity u64 18446744073709551615 /\
  shown (LINT_TO_STRING (-9223372036854775808)) = Some (str "-9223372036854775808") /\
  shown (LWORD_TO_STRING 18446744073709551615) = Some (str "18446744073709551615") /\
  shown (BYTE_TO_STRING 0) = Some (str "0") /\
  integer_to_string u64 LWORD_TO_STRING /\ integer_to_string u8 BYTE_TO_STRING.
Proof.
  split; [unfold in_ity; split; discriminate|]. split; [unfold in_ity; split; discriminate|].
  split; [vm_compute; reflexivity|]. split; [vm_compute; reflexivity|]. split; [vm_compute; reflexivity|].
  unfold integer_to_string. tauto.
Qed.

(** * C56 STRING_TO_LINT/DINT accept exactly the numerals *)
Theorem C56_string_to_lint : forall src s, reads src s ->
  (forall z, STRING_TO_LINT src = Ok z <-> int_text s z /\ in_ity i64 z) /\
  ((forall z, int_text s z -> ~ in_ity i64 z) -> STRING_TO_LINT src = Panic).
Proof.
  intros src s R. assert (I : imin i64 <= 0 <= imax i64) by (split; discriminate).
  pose proof (string_to_int_spec i64 src s I R) as H. split; [exact H|]. intros N.
  destruct (string_to_int_total i64 src s R) as [P|[z P]]; [exact P|]. apply H in P as [T B]. destruct (N z T B).
Qed.
Theorem C56_string_to_dint : forall src s, reads src s ->
  (forall z, STRING_TO_DINT src = Ok z <-> int_text s z /\ in_ity i32 z) /\
  ((forall z, int_text s z -> ~ in_ity i32 z) -> STRING_TO_DINT src = Panic).
Proof.
  intros src s R. assert (I : imin i32 <= 0 <= imax i32) by (split; discriminate).
  pose proof (string_to_int_spec i32 src s I R) as H. split; [exact H|]. intros N.
  destruct (string_to_int_total i32 src s R) as [P|[z P]]; [exact P|]. apply H in P as [T B]. destruct (N z T B).
Qed.
(** The sign stands after the radix prefix, and a prefix alone is no number. *)
Example C56_example :
  reads (mem (str "16#-fF")) (str "16#-fF") /\ reads (mem (str "-16#FF")) (str "-16#FF") /\
  STRING_TO_LINT (mem (str "16#-fF")) = Ok (-255) /\ STRING_TO_LINT (mem (str "-16#FF")) = Panic /\
  STRING_TO_DINT (mem (str "0b+101")) = Ok 5 /\ STRING_TO_DINT (mem (str "2147483648")) = Panic /\
  STRING_TO_LINT (mem (str "2147483648")) = Ok 2147483648 /\ STRING_TO_LINT (mem (str "0x")) = Panic.
Proof.
  split; [now apply mem_reads|]. split; [now apply mem_reads|].
  repeat match goal with |- _ /\ _ => split end; vm_compute; reflexivity.
Qed.

(** * C57 Number-to-string results are terminated *)
(** False: no NUL is written, so that the destination keeps the digits of a longer number. *)
Theorem C57_stale_destination_refuted : exists x dest s, in_ity i64 x /\ length dest = 2049%nat /\
  (exists d, LINT_TO_STRING_EXT 123 st_string = Ok d /\ dest = d) /\
  (exists d, LINT_TO_STRING_EXT x dest = Ok d /\ reads d s) /\ ~ canonical_int s x.
Proof.
  exists 5, (str "123" ++ skipn 3 st_string), (str "523"). split; [unfold in_ity; split; discriminate|].
  split; [vm_compute; reflexivity|]. split; [eexists; split; [|reflexivity]; vm_compute; reflexivity|]. split.
  - eexists. split; [vm_compute; reflexivity|]. split; [now apply lit_nz|]. eexists. vm_compute. reflexivity.
  - intros H. assert (K : canonical_int (str "523") 523).
    { exact (dec_int_canonical 523). }
    pose proof (canonical_int_fun _ _ _ H K). discriminate.
Qed.
(** What holds: the result reads back as the number iff the destination had a NUL right behind
    the number.  Missing: other destinations. *)
Theorem C57_stale_destination_partial : forall t f x dest, integer_to_string_ext t f -> in_ity t x ->
  (81 <= length dest)%nat ->
  exists s, canonical_int s x /\ f x dest = Ok (s ++ skipn (length s) dest) /\
    (reads (s ++ skipn (length s) dest) s <-> nth (length s) dest 1 = 0).
Proof. exact int_ext. Qed.
Example C57_example : integer_to_string_ext u8 BYTE_TO_STRING_EXT /\ in_ity u8 200 /\
  shown (BYTE_TO_STRING_EXT 200 (repeat 48 3 ++ repeat 0 78)) = Some (str "200").
Proof. split; [unfold integer_to_string_ext; tauto|]. split; [unfold in_ity; split; discriminate|vm_compute; reflexivity]. Qed.

(** * C58 WSTRING_TO_DINT agrees with STRING_TO_DINT *)
(** False: numerals from 2^31 wrap round instead of aborting. *)
Theorem C58_wstring_to_dint_refuted : exists w s t, holds WSTRING w t /\ holds STRING s t /\
  STRING_TO_DINT s = Panic /\ WSTRING_TO_DINT w = Ok (-2147483648).
Proof.
  exists (mem (str "2147483648")), (mem (str "2147483648")), (str "2147483648").
  assert (A : ascii (str "2147483648")) by now apply ascii_lit.
  split; [apply ascii_holds; [now apply mem_reads|exact A]|]. split; [apply ascii_holds; [now apply mem_reads|exact A]|].
  split; vm_compute; reflexivity.
Qed.
(** What holds: texts of at most 80 bytes that STRING_TO_DINT accepts give the same number.
    Missing: numerals beyond 32 bits and longer texts, see the two theorems below. *)
Theorem C58_wstring_to_dint_partial : forall w s t z, holds WSTRING w t -> holds STRING s t ->
  (length (units STRING t) <= 80)%nat -> STRING_TO_DINT s = Ok z -> WSTRING_TO_DINT w = Ok z.
Proof. exact wdint_small. Qed.
Theorem C58_wstring_to_dint_wraps : forall w s t, holds WSTRING w t -> holds STRING s t ->
  (length (units STRING t) <= 80)%nat ->
  (forall z, WSTRING_TO_DINT w = Ok z <->
     exists n, int_text (units STRING t) n /\ in_ity i64 n /\ z = wrap i32 n) /\
  ((forall n, int_text (units STRING t) n -> ~ in_ity i64 n) -> WSTRING_TO_DINT w = Panic).
Proof. exact wdint_iff. Qed.
Theorem C58_wstring_to_lint_agrees : forall w s t, holds WSTRING w t -> holds STRING s t ->
  (length (units STRING t) <= 80)%nat -> WSTRING_TO_LINT w = STRING_TO_LINT s.
Proof. intros w s t W S L. exact (proj1 (wint w s t W S L)). Qed.
(** Longer texts overrun the 81-byte temporary. *)
Theorem C58_long_text_overruns : forall w t, holds WSTRING w t -> (80 < length (units STRING t))%nat ->
  WSTRING_TO_LINT w = Ub /\ WSTRING_TO_DINT w = Ub.
Proof. exact wint_ub. Qed.
Definition zeros81 : list Z := repeat 48 81.
Example C58_example : exists w s long, holds WSTRING w (str "8#-17") /\ holds STRING s (str "8#-17") /\
  (length (units STRING (str "8#-17")) <= 80)%nat /\ STRING_TO_DINT s = Ok (-15) /\
  holds WSTRING long zeros81 /\ (80 < length (units STRING zeros81))%nat /\
  STRING_TO_DINT long = Ok 0.
Proof.
  assert (A : ascii (str "8#-17")) by now apply ascii_lit.
  exists (mem (str "8#-17")), (mem (str "8#-17")), (mem zeros81).
  split; [apply ascii_holds; [now apply mem_reads|exact A]|]. split; [apply ascii_holds; [now apply mem_reads|exact A]|].
  split; [vm_compute; lia|]. split; [vm_compute; reflexivity|]. split.
  - apply ascii_holds; [apply mem_reads; vm_compute; reflexivity|]. apply Forall_forall. intros c I. apply repeat_spec in I. lia.
  - split; [vm_compute; lia|vm_compute; reflexivity].
Qed.

(** * C59 TIME_TO_STRING is unambiguous *)
Theorem C59_time_text : forall t, 0 <= t -> in_ity i64 t ->
  exists d s, TIME_TO_STRING t = Ok d /\ reads d s /\ time_text s t.
Proof. exact time_text_nonneg. Qed.
Theorem C59_distinct_times_have_distinct_texts : forall t t' d d' s, 0 <= t -> 0 <= t' -> in_ity i64 t -> in_ity i64 t' ->
  TIME_TO_STRING t = Ok d -> TIME_TO_STRING t' = Ok d' -> reads d s -> reads d' s -> t = t'.
Proof. exact time_distinct. Qed.
Theorem C59_a_text_denotes_one_time : forall s v v', time_text s v -> time_text s v' -> v = v'.
Proof. exact time_text_fun. Qed.
Example C59_example : in_ity i64 9223372036854775807 /\
  shown (TIME_TO_STRING 9223372036854775807) = Some (str "106751d23h47m16s854ms775us807ns") /\
  shown (TIME_TO_STRING 90000000000005) = Some (str "1d1h5ns").
Proof. split; [unfold in_ity; split; discriminate|]. split; vm_compute; reflexivity. Qed.

(** * C60 TIME_TO_STRING represents zero and negative times *)
(** False: zero is the empty text, and a nanosecond less than zero is a nanosecond less than a
    day. *)
Theorem C60_zero_is_empty_refuted : exists d, TIME_TO_STRING 0 = Ok d /\ reads d [].
Proof. eexists. split; [vm_compute; reflexivity|]. split; [constructor|]. eexists. reflexivity. Qed.
Theorem C60_negative_time_refuted : exists d, TIME_TO_STRING (-1) = Ok d /\
  reads d (str "23h59m59s999ms999us999ns") /\ TIME_TO_STRING (24 * 3600 * 1000000000 - 1) = Ok d.
Proof.
  eexists. split; [vm_compute; reflexivity|]. split; [|vm_compute; reflexivity].
  split; [now apply lit_nz|]. eexists. vm_compute. reflexivity.
Qed.
(** What is written for a negative time: the number of whole days as an unsigned 32-bit number,
    and the time of day.  Missing: a sign, and a text that denotes the time. *)
Theorem C60_negative_time_partial : forall t, in_ity i64 t -> t < 0 ->
  exists d s, TIME_TO_STRING t = Ok d /\ reads d s /\
    time_text s ((if - DAY <? t then 0 else 2 ^ 32 + Z.quot t DAY) * DAY + t mod DAY).
Proof.
  intros t I N. destruct (time_items_text t) as (d & s & H). rewrite (time_value_neg t I N) in H. now exists d, s.
Qed.
Example C60_example : in_ity i64 (-86400000000001) /\
  shown (TIME_TO_STRING (-86400000000001)) = Some (str "4294967295d23h59m59s999ms999us999ns").
Proof. split; [unfold in_ity; split; discriminate|]. vm_compute; reflexivity. Qed.

(** * C61 DATE/DT/TOD_TO_STRING are faithful *)
Theorem C61_date_text : forall n, in_ity i64 n -> exists d s y m dd, DATE_TO_STRING n = Ok d /\ reads d s /\
  date_text s y m dd /\ day_number (y, m, dd) (n / DAY).
Proof. exact date_of. Qed.
Theorem C61_tod_text : forall n, in_ity i64 n -> exists d s h m sec ns, TOD_TO_STRING n = Ok d /\ reads d s /\
  clock_text s h m sec ns /\ 0 <= h < 24 /\ 0 <= m < 60 /\ 0 <= sec < 60 /\ 0 <= ns < SECOND /\
  h * HOUR + m * MINUTE + sec * SECOND + ns = n mod DAY.
Proof. intros n _. exact (tod_of n). Qed.
Theorem C61_dt_text : forall n, in_ity i64 n -> exists d ds cs y m dd h mi sec ns,
  DT_TO_STRING n = Ok d /\ reads d (ds ++ str "-" ++ cs) /\
  date_text ds y m dd /\ day_number (y, m, dd) (n / DAY) /\ clock_text cs h mi sec ns /\
  0 <= h < 24 /\ 0 <= mi < 60 /\ 0 <= sec < 60 /\ 0 <= ns < SECOND /\
  h * HOUR + mi * MINUTE + sec * SECOND + ns = n mod DAY.
Proof. exact dt_of. Qed.
Theorem C61_date_text_determines_day : forall n n' d d' s, in_ity i64 n -> in_ity i64 n' ->
  DATE_TO_STRING n = Ok d -> DATE_TO_STRING n' = Ok d' -> reads d s -> reads d' s -> n / DAY = n' / DAY.
Proof. exact date_distinct. Qed.
Theorem C61_tod_text_determines_time : forall n n' d d' s,
  TOD_TO_STRING n = Ok d -> TOD_TO_STRING n' = Ok d' -> reads d s -> reads d' s -> n mod DAY = n' mod DAY.
Proof. exact tod_distinct. Qed.
Theorem C61_dt_text_determines_timestamp : forall n n' d d' s, in_ity i64 n -> in_ity i64 n' ->
  DT_TO_STRING n = Ok d -> DT_TO_STRING n' = Ok d' -> reads d s -> reads d' s -> n = n'.
Proof. exact dt_distinct. Qed.
Example C61_example : in_ity i64 (-1000000) /\
  shown (DT_TO_STRING (-1000000)) = Some (str "1969-12-31-23:59:59.999") /\
  shown (DATE_TO_STRING 951782400000000000) = Some (str "2000-02-29") /\
  shown (TOD_TO_STRING 7000000001) = Some (str "00:00:07.000000001") /\
  shown (DT_TO_STRING 9223372036854775807) = Some (str "2262-04-11-23:47:16.854775807").
Proof. split; [unfold in_ity; split; discriminate|]. repeat split; vm_compute; reflexivity. Qed.

(** * C62 LREAL_TO_STRING never aborts *)
(** False: negative numbers have no scientific notation and overflow the 81 bytes. *)
Theorem C62_lreal_to_string_refuted : exists x, fl_valid F64 x /\ fl_finite x = true /\ LREAL_TO_STRING x = Panic.
Proof.
  exists (FNum (S754_finite true (2 ^ 52) 198)). split; [vm_compute; reflexivity|]. split; [reflexivity|].
  vm_compute. reflexivity.
Qed.
(** What holds: exactly the numbers up to -10^73 abort; the others are written as claimed. *)
Theorem C62_lreal_to_string_partial : forall x, fl_valid F64 x -> fl_finite x = true -> (IZR (- 10 ^ 73) < fl_value x)%R ->
  exists d s, LREAL_TO_STRING x = Ok d /\ reads d s /\
    ((fl_value x < IZR (10 ^ 14))%R -> fixed6_text s x) /\ ((IZR (10 ^ 14) <= fl_value x)%R -> exp6_text s x).
Proof. exact lreal_text. Qed.
Theorem C62_lreal_to_string_aborts : forall x, fl_valid F64 x -> fl_finite x = true ->
  (LREAL_TO_STRING x = Panic <-> (fl_value x <= IZR (- 10 ^ 73))%R).
Proof. exact lreal_panics. Qed.
Theorem C62_special_values : forall x, fl_finite x = false -> fl_valid F64 x ->
  exists d, LREAL_TO_STRING x = Ok d /\
    reads d (match x with FNum (S754_infinity false) => str "inf" | FNum (S754_infinity true) => str "-inf" | _ => str "NaN" end).
Proof. exact lreal_nonfinite. Qed.
Theorem C62_real_to_string : forall x, fl_valid F32 x -> fl_finite x = true ->
  exists d s y, REAL_TO_STRING x = Ok d /\ reads d s /\ fl_value y = fl_value x /\ fl_negative y = fl_negative x /\
    ((fl_value x < IZR (10 ^ 14))%R -> fixed6_text s y) /\ ((IZR (10 ^ 14) <= fl_value x)%R -> exp6_text s y).
Proof.
  intros x V F. destruct (real_text x V F) as (d & s & E & R & C & T). exists d, s, (fl_convert F64 x).
  exact (conj E (conj R (conj C (conj (widen_sign x V F) T)))).
Qed.
(** 1.5, -0.0, 2^60, -1/2^20 *)
Example C62_example : fl_valid F64 (FNum (S754_finite false (3 * 2 ^ 51) (-52))) /\
  (IZR (- 10 ^ 73) < fl_value (FNum (S754_finite false (3 * 2 ^ 51) (-52))) < IZR (10 ^ 14))%R /\
  shown (LREAL_TO_STRING (FNum (S754_finite false (3 * 2 ^ 51) (-52)))) = Some (str "1.500000") /\
  shown (LREAL_TO_STRING (FNum (S754_zero true))) = Some (str "-0.000000") /\
  shown (LREAL_TO_STRING (FNum (S754_finite false (2 ^ 52) 8))) = Some (str "1.152922e18") /\
  shown (LREAL_TO_STRING (FNum (S754_finite true (2 ^ 52) 8))) = Some (str "-1152921504606846976.000000") /\
  shown (LREAL_TO_STRING (FNum (S754_finite true (2 ^ 52) (-72)))) = Some (str "-0.000001").
Proof.
  split; [vm_compute; reflexivity|]. split.
  { rewrite value_frac. change (fl_num (3 * 2 ^ 51) (-52)) with (3 * 2 ^ 51). change (fl_den (-52)) with (2 ^ 52).
    replace (IZR (3 * 2 ^ 51) / IZR (2 ^ 52))%R with (3 / 2)%R.
    - split; [apply Rlt_trans with 0%R; [apply IZR_lt; reflexivity|lra]|].
      apply Rlt_trans with 2%R; [lra|apply IZR_lt; reflexivity].
    - change (2 ^ 52) with (2 ^ 51 * 2). rewrite !mult_IZR. field. apply IZR_neq. discriminate. }
  repeat match goal with |- _ /\ _ => split end; vm_compute; reflexivity.
Qed.

(** * C63 TIME() is a time of day *)
Theorem C63_time_of_day : forall p secs nanos, 0 <= secs < 86400 -> 0 <= nanos < 2000000000 ->
  TIME p secs nanos = Ok (secs * 1000000000 + nanos) /\
  (nanos < 1000000000 -> 0 <= secs * 1000000000 + nanos < DAY).
Proof.
  intros p secs nanos S N. split; [|unfold DAY; lia]. unfold TIME, arith.
  assert (I1 : in_ityb i64 (secs * 1000000000) = true) by (unfold in_ityb; change (imin i64) with (-9223372036854775808); change (imax i64) with 9223372036854775807; lia).
  assert (I2 : in_ityb i64 (secs * 1000000000 + nanos) = true) by (unfold in_ityb; change (imin i64) with (-9223372036854775808); change (imax i64) with 9223372036854775807; lia).
  rewrite I1. cbn [obind]. rewrite I2. reflexivity.
Qed.
Example C63_example : TIME Debug 86399 999999999 = Ok 86399999999999 /\ TIME Debug 86399 1999999999 = Ok 86400999999999.
Proof. split; vm_compute; reflexivity. Qed.

(** * C78 STRING_TO_LREAL/REAL accept exactly the decimal literals, correctly rounded *)
Theorem C78_string_to_lreal : forall src s, reads src s ->
  (forall neg m e, number_text s neg m e -> exists x, STRING_TO_LREAL src = Ok x /\ rounded F64 x neg (number_value neg m e)) /\
  (forall neg nan, special_text s neg nan -> exists x, STRING_TO_LREAL src = Ok x /\ fl_negative x = neg /\
     (if nan then is_nan x = true else x = FNum (S754_infinity neg))) /\
  ((forall neg m e, ~ number_text s neg m e) -> (forall neg nan, ~ special_text s neg nan) -> STRING_TO_LREAL src = Panic).
Proof. intros src s R. exact (float_texts F64 src s (or_intror eq_refl) R). Qed.
Theorem C78_string_to_real : forall src s, reads src s ->
  (forall neg m e, number_text s neg m e -> exists x, STRING_TO_REAL src = Ok x /\ rounded F32 x neg (number_value neg m e)) /\
  (forall neg nan, special_text s neg nan -> exists x, STRING_TO_REAL src = Ok x /\ fl_negative x = neg /\
     (if nan then is_nan x = true else x = FNum (S754_infinity neg))) /\
  ((forall neg m e, ~ number_text s neg m e) -> (forall neg nan, ~ special_text s neg nan) -> STRING_TO_REAL src = Panic).
Proof. intros src s R. exact (float_texts F32 src s (or_introl eq_refl) R). Qed.
Theorem C78_wide_texts_agree : forall w s t, holds WSTRING w t -> holds STRING s t -> (length (units STRING t) <= 80)%nat ->
  WSTRING_TO_LREAL w = STRING_TO_LREAL s /\ WSTRING_TO_REAL w = STRING_TO_REAL s.
Proof. exact wlreal. Qed.
Example C78_example :
  number_text (str "-.5e1") true 5 0 /\ special_text (str "+InFinity") false false /\
  STRING_TO_LREAL (mem (str "-.5e1")) = Ok (FNum (S754_finite true (5 * 2 ^ 50) (-50))) /\
  STRING_TO_LREAL (mem (str "1e400")) = Ok (FNum (S754_infinity false)) /\
  STRING_TO_LREAL (mem (str "1e-400")) = Ok (FNum (S754_zero false)) /\
  STRING_TO_REAL (mem (str "16777217")) = Ok (FNum (S754_finite false (2 ^ 23) 1)) /\
  STRING_TO_LREAL (mem (str "+InFinity")) = Ok (FNum (S754_infinity false)) /\
  STRING_TO_LREAL (mem (str ".")) = Panic /\ STRING_TO_LREAL (mem (str "1 ")) = Panic /\ STRING_TO_LREAL (mem (str "1e")) = Panic.
Proof.
  split.
  { exists (str "-"), [], (str "."), (str "5"), (str "e1"), 1. split; [reflexivity|]. split; [now right|]. split; [now left|].
    split; [split; [discriminate|]; apply (digits_snoc 10 [] 0 53 5); [constructor|split; [lia|left; lia]]|].
    split; [|reflexivity]. right. exists (str "e"), [], (str "1"), 1. split; [now left|]. split; [reflexivity|].
    split; [split; [discriminate|]; apply (digits_snoc 10 [] 0 49 1); [constructor|split; [lia|left; lia]]|].
    left. split; [now left|reflexivity]. }
  split.
  { exists (str "+"), (str "InFinity"), (str "infinity"). split; [reflexivity|]. split; [left; split; [right; now left|reflexivity]|].
    split; [apply same_word_lower; [now apply word_lower|reflexivity]|]. left. split; [reflexivity|right; now left]. }
  repeat match goal with |- _ /\ _ => split end; vm_compute; reflexivity.
Qed.

(** * C79 Real to string and back *)
Theorem C79_lreal_round_trip : forall x, fl_valid F64 x -> fl_finite x = true -> (IZR (- 10 ^ 73) < fl_value x)%R ->
  exists d y, LREAL_TO_STRING x = Ok d /\ STRING_TO_LREAL d = Ok y /\ fl_negative y = fl_negative x /\ fl_finite y = true /\
   ((fl_value x < IZR (10 ^ 14))%R -> (Rabs (fl_value y - fl_value x) <= / 1000000)%R /\
       ((exists n, fl_value x * 1000000 = IZR n)%R -> fl_value y = fl_value x)) /\
   ((IZR (10 ^ 14) <= fl_value x)%R -> (Rabs (fl_value y - fl_value x) <= Rabs (fl_value x) / 999999)%R).
Proof. exact lreal_back. Qed.
Theorem C79_real_round_trip : forall x, fl_valid F32 x -> fl_finite x = true ->
  exists d y, REAL_TO_STRING x = Ok d /\ STRING_TO_REAL d = Ok y /\ fl_negative y = fl_negative x /\ fl_finite y = true /\
   ((fl_value x < IZR (10 ^ 14))%R -> (Rabs (fl_value y - fl_value x) <= / 1000000)%R /\
       ((exists n, fl_value x * 1000000 = IZR n)%R -> fl_value y = fl_value x)) /\
   ((IZR (10 ^ 14) <= fl_value x)%R -> (Rabs (fl_value y - fl_value x) <= Rabs (fl_value x) / 999999)%R).
Proof. exact real_back. Qed.
Theorem C79_special_values : forall x, fl_valid F64 x -> fl_finite x = false ->
  exists d y, LREAL_TO_STRING x = Ok d /\ STRING_TO_LREAL d = Ok y /\ is_nan y = is_nan x /\ (is_nan x = false -> y = x).
Proof. exact lreal_special_back. Qed.
(** -0.1, read back as itself; 2^-30, read back as zero. *)
Example C79_example :
  let x := FNum (S754_finite true 7205759403792794 (-56)) in
  let z := FNum (S754_finite false (2 ^ 52) (-82)) in
  fl_valid F64 x /\ fl_valid F64 z /\
  obind (LREAL_TO_STRING x) STRING_TO_LREAL = Ok x /\ obind (LREAL_TO_STRING z) STRING_TO_LREAL = Ok (FNum (S754_zero false)).
Proof. cbv zeta. repeat match goal with |- _ /\ _ => split end; vm_compute; reflexivity. Qed.

(** * C80 The WSTRING conversions write the same text as the STRING conversions *)
Theorem C80_integers : forall t f g x, integer_pair t f g -> in_ity t x ->
  exists d w s, f x = Ok d /\ g x = Ok w /\ reads d s /\ reads w s.
Proof. exact integer_pair_text. Qed.
Theorem C80_times : forall f g x, time_pair f g -> in_ity i64 x ->
  exists d w s, f x = Ok d /\ g x = Ok w /\ reads d s /\ reads w s.
Proof. exact time_pair_text. Qed.
Theorem C80_lreal : forall x, fl_valid F64 x ->
  (forall d, LREAL_TO_STRING x = Ok d -> exists w s, LREAL_TO_WSTRING x = Ok w /\ reads d s /\ reads w s) /\
  (LREAL_TO_STRING x = Panic -> LREAL_TO_WSTRING x = Panic).
Proof. exact lreal_pair_text. Qed.
Theorem C80_real : forall x, fl_valid F32 x ->
  exists d w s, REAL_TO_STRING x = Ok d /\ REAL_TO_WSTRING x = Ok w /\ reads d s /\ reads w s.
Proof. exact real_pair_text. Qed.
Example C80_example : integer_pair i32 DINT_TO_STRING DINT_TO_WSTRING /\ time_pair TOD_TO_STRING TOD_TO_WSTRING /\
  shown (DINT_TO_WSTRING (-7)) = Some (str "-7") /\ shown (TOD_TO_WSTRING 7000000001) = Some (str "00:00:07.000000001") /\
  shown (REAL_TO_WSTRING (FNum (S754_finite true (2 ^ 23) (-25)))) = Some (str "-0.250000").
Proof.
  split; [unfold integer_pair; tauto|]. split; [unfold time_pair; tauto|].
  repeat match goal with |- _ /\ _ => split end; vm_compute; reflexivity.
Qed.

Print Assumptions C55_lint_round_trip.
Print Assumptions C55_dint_round_trip.
Print Assumptions C55_wide_lint_round_trip.
Print Assumptions C55_wide_dint_round_trip.
Print Assumptions C55_canonical_numeral.
Print Assumptions C55_canonical_numerals_are_distinct.
Print Assumptions C56_string_to_lint.
Print Assumptions C56_string_to_dint.
Print Assumptions C57_stale_destination_refuted.
Print Assumptions C57_stale_destination_partial.
Print Assumptions C58_wstring_to_dint_refuted.
Print Assumptions C58_wstring_to_dint_partial.
Print Assumptions C58_wstring_to_dint_wraps.
Print Assumptions C58_wstring_to_lint_agrees.
Print Assumptions C58_long_text_overruns.
Print Assumptions C59_time_text.
Print Assumptions C59_distinct_times_have_distinct_texts.
Print Assumptions C59_a_text_denotes_one_time.
Print Assumptions C60_zero_is_empty_refuted.
Print Assumptions C60_negative_time_refuted.
Print Assumptions C60_negative_time_partial.
Print Assumptions C61_date_text.
Print Assumptions C61_tod_text.
Print Assumptions C61_dt_text.
Print Assumptions C61_date_text_determines_day.
Print Assumptions C61_tod_text_determines_time.
Print Assumptions C61_dt_text_determines_timestamp.
Print Assumptions C62_lreal_to_string_refuted.
Print Assumptions C62_lreal_to_string_partial.
Print Assumptions C62_lreal_to_string_aborts.
Print Assumptions C62_special_values.
Print Assumptions C62_real_to_string.
Print Assumptions C63_time_of_day.
Print Assumptions C78_string_to_lreal.
Print Assumptions C78_string_to_real.
Print Assumptions C78_wide_texts_agree.
Print Assumptions C79_lreal_round_trip.
Print Assumptions C79_real_round_trip.
Print Assumptions C79_special_values.
Print Assumptions C80_integers.
Print Assumptions C80_times.
Print Assumptions C80_lreal.
Print Assumptions C80_real.
