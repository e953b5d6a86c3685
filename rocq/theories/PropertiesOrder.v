(** Properties C93 and C94: dates and times are ordered as the calendar and the clock are, and so are
    their texts.  Fields are compared from left to right ([lex_lt], SpecText.v). *)
From Coq Require Import String ZArith List Bool Lia.
From Verif Require Import Base ModelFloat ModelChrono ModelDate ModelLink ModelLib ModelText ModelString ModelExtra
  SpecText SpecDate SpecReal SpecScalar SpecExtra SpecLib ProofBase ProofDate ProofDate2 ProofString2 ProofLib2
  ProofOrder ProofOrder2 ProofOrder3 PropertiesLib PropertiesExtra.
Import ListNotations.
Open Scope list_scope.
Open Scope string_scope.
Open Scope Z_scope.

(** * C93 *)
Theorem C93_dates : forall v t u y m d y' m' d' a b, narrow t -> narrow u ->
  in_ity t y -> in_ity t m -> in_ity t d -> in_ity u y' -> in_ity u m' -> in_ity u d' ->
  CONCAT_DATE v y m d = Ok a -> CONCAT_DATE v y' m' d' = Ok b ->
  (a < b <-> lex_lt [y; m; d] [y'; m'; d']) /\ (a = b <-> [y; m; d] = [y'; m'; d']) /\
  (a <= b <-> lex_le [y; m; d] [y'; m'; d']).
Proof. exact dates_ordered. Qed.
Print Assumptions C93_dates.
Theorem C93_times_of_day : forall v t u h m s ms h' m' s' ms' a b, narrow t -> narrow u ->
  in_ity t h -> in_ity t m -> in_ity t s -> in_ity t ms ->
  in_ity u h' -> in_ity u m' -> in_ity u s' -> in_ity u ms' ->
  valid_clock h m s ms -> valid_clock h' m' s' ms' ->
  CONCAT_TOD v h m s ms = Ok a -> CONCAT_TOD v h' m' s' ms' = Ok b ->
  (a < b <-> lex_lt [h; m; s; ms] [h'; m'; s'; ms']) /\ (a = b <-> [h; m; s; ms] = [h'; m'; s'; ms']).
Proof. exact times_ordered. Qed.
Print Assumptions C93_times_of_day.
Theorem C93_timestamps : forall v t u y mo d h mi s ms y' mo' d' h' mi' s' ms' a b, narrow t -> narrow u ->
  Forall (in_ity t) [y; mo; d; h; mi; s; ms] -> Forall (in_ity u) [y'; mo'; d'; h'; mi'; s'; ms'] ->
  valid_clock h mi s ms -> valid_clock h' mi' s' ms' ->
  CONCAT_DT v y mo d h mi s ms = Ok a -> CONCAT_DT v y' mo' d' h' mi' s' ms' = Ok b ->
  (a < b <-> lex_lt [y; mo; d; h; mi; s; ms] [y'; mo'; d'; h'; mi'; s'; ms']) /\
  (a = b <-> [y; mo; d; h; mi; s; ms] = [y'; mo'; d'; h'; mi'; s'; ms']).
Proof. exact timestamps_ordered. Qed.
Print Assumptions C93_timestamps.
(** Taking apart: the fields follow the values, at the resolution of a day and of a millisecond. *)
Theorem C93_split_dates : forall t u a b y m d y' m' d', List.In t date_types -> List.In u date_types ->
  in_ity i64 a -> in_ity i64 b -> SPLIT_DATE t a = Ok (y, m, d) -> SPLIT_DATE u b = Ok (y', m', d') ->
  (a / DAY < b / DAY <-> lex_lt [y; m; d] [y'; m'; d']) /\ (a <= b -> lex_le [y; m; d] [y'; m'; d']).
Proof. exact split_dates_ordered. Qed.
Print Assumptions C93_split_dates.
Theorem C93_split_timestamps : forall t u a b y mo d h mi s ms y' mo' d' h' mi' s' ms',
  List.In t date_types -> List.In u date_types -> in_ity i64 a -> in_ity i64 b ->
  SPLIT_DT t a = Ok (y, mo, d, h, mi, s, ms) -> SPLIT_DT u b = Ok (y', mo', d', h', mi', s', ms') ->
  (a / MILLI < b / MILLI <-> lex_lt [y; mo; d; h; mi; s; ms] [y'; mo'; d'; h'; mi'; s'; ms']) /\
  (a <= b -> lex_le [y; mo; d; h; mi; s; ms] [y'; mo'; d'; h'; mi'; s'; ms']).
Proof. exact split_dts_ordered. Qed.
Print Assumptions C93_split_timestamps.
(** The difference of two dates counts the days one has to turn the calendar. *)
Theorem C93_days_between : forall v t u y m d y' m' d' a b k, narrow t -> narrow u ->
  in_ity t y -> in_ity t m -> in_ity t d -> in_ity u y' -> in_ity u m' -> in_ity u d' ->
  CONCAT_DATE v y m d = Ok a -> CONCAT_DATE v y' m' d' = Ok b -> in_ity i64 (Z.of_nat k * DAY) ->
  (SUB_DATE_DATE b a = Ok (Z.of_nat k * DAY) <-> Nat.iter k next_day (y, m, d) = (y', m', d')).
Proof. exact days_between. Qed.
Print Assumptions C93_days_between.
(** MAX and MIN of dates: the latest and the earliest. *)
Theorem C93_latest_and_earliest : forall P t days dates, narrow t -> days <> [] ->
  Forall (fun x => let '(y, m, d) := x in in_ity t y /\ in_ity t m /\ in_ity t d) days ->
  Forall2 (fun x a => let '(y, m, d) := x in CONCAT_DATE (p_chrono P) y m d = Ok a) days dates ->
  (exists y m d a, List.In (y, m, d) days /\ CONCAT_DATE (p_chrono P) y m d = Ok a /\
     result (rust_call P "MAX__DATE" (map VZ dates)) = Int a /\
     forall y' m' d', List.In (y', m', d') days -> lex_le [y'; m'; d'] [y; m; d]) /\
  (exists y m d a, List.In (y, m, d) days /\ CONCAT_DATE (p_chrono P) y m d = Ok a /\
     result (rust_call P "MIN__DATE" (map VZ dates)) = Int a /\
     forall y' m' d', List.In (y', m', d') days -> lex_le [y; m; d] [y'; m'; d']).
Proof. exact latest_and_earliest. Qed.
Print Assumptions C93_latest_and_earliest.
Example C93_example : forall v, narrow i16 /\ narrow u16 /\ Forall (in_ity i16) [2000; 2; 29; 12; 0; 0; 0] /\
  CONCAT_DATE v 2000 2 29 = Ok 951782400000000000 /\ CONCAT_DATE v 2000 3 1 = Ok 951868800000000000 /\
  SUB_DATE_DATE 951868800000000000 951782400000000000 = Ok DAY /\ Nat.iter 1 next_day (2000, 2, 29) = (2000, 3, 1) /\
  CONCAT_DT v 2000 2 29 23 59 59 999 = Ok 951868799999000000 /\
  SPLIT_DATE i16 951868799999000000 = Ok (2000, 2, 29) /\
  result (rust_call here "MAX__DATE" (map VZ [951782400000000000; 951868800000000000; 0])) = Int 951868800000000000.
Proof.
  intros v. split; [vm_compute; tauto|]. split; [vm_compute; tauto|].
  split; [repeat constructor; vm_compute; discriminate|].
  destruct v as [[] []]; repeat split; vm_compute; reflexivity.
Qed.

(** * C94 *)
Theorem C94_date_texts : forall n n' d d', in_ity i64 n -> in_ity i64 n' ->
  (DATE_TO_STRING n = Ok d /\ DATE_TO_STRING n' = Ok d') \/ (DATE_TO_WSTRING n = Ok d /\ DATE_TO_WSTRING n' = Ok d') ->
  LT_STR 2 [d; d'] = Ok (n / DAY <? n' / DAY) /\ EQ_STR 2 [d; d'] = Ok (n / DAY =? n' / DAY) /\
  LE_STR 2 [d; d'] = Ok (n / DAY <=? n' / DAY).
Proof. exact date_texts. Qed.
Print Assumptions C94_date_texts.
Theorem C94_tod_texts : forall n n' d d', in_ity i64 n -> in_ity i64 n' ->
  (TOD_TO_STRING n = Ok d /\ TOD_TO_STRING n' = Ok d') \/ (TOD_TO_WSTRING n = Ok d /\ TOD_TO_WSTRING n' = Ok d') ->
  LT_STR 2 [d; d'] = Ok (n mod DAY <? n' mod DAY) /\ EQ_STR 2 [d; d'] = Ok (n mod DAY =? n' mod DAY) /\
  LE_STR 2 [d; d'] = Ok (n mod DAY <=? n' mod DAY).
Proof. exact tod_texts. Qed.
Print Assumptions C94_tod_texts.
Theorem C94_dt_texts : forall n n' d d', in_ity i64 n -> in_ity i64 n' ->
  (DT_TO_STRING n = Ok d /\ DT_TO_STRING n' = Ok d') \/ (DT_TO_WSTRING n = Ok d /\ DT_TO_WSTRING n' = Ok d') ->
  LT_STR 2 [d; d'] = Ok (n <? n') /\ EQ_STR 2 [d; d'] = Ok (n =? n') /\ LE_STR 2 [d; d'] = Ok (n <=? n').
Proof. exact dt_texts. Qed.
Print Assumptions C94_dt_texts.
Example C94_example : in_ity i64 (-1) /\
  shown (DT_TO_STRING (-1)) = Some (str "1969-12-31-23:59:59.999999999") /\
  shown (DT_TO_STRING 0) = Some (str "1970-01-01-00:00:00") /\
  shown (DT_TO_STRING 1000000) = Some (str "1970-01-01-00:00:00.001") /\
  (let! a := DT_TO_STRING (-1) in let! b := DT_TO_STRING 0 in LT_STR 2 [a; b]) = Ok true /\
  (let! a := TOD_TO_WSTRING 1000000 in let! b := TOD_TO_WSTRING 1000001 in LT_STR 2 [a; b]) = Ok true /\
  (let! a := DATE_TO_STRING 0 in let! b := DATE_TO_STRING 1 in EQ_STR 2 [a; b]) = Ok true.
Proof. split; [unfold in_ity; split; discriminate|]. repeat split; vm_compute; reflexivity. Qed.
