(** The reference of SpecTerm.v: the functions on integers, times and dates. *)
From Coq Require Import String Ascii ZArith Lia List Bool SpecFloat Reals Lra.
From Flocq Require Import Core BinarySingleNaN.
From Verif Require Import Base ModelFloat ModelScalar ModelArith ModelTimeNum ModelText ModelString ModelExtra ModelDate ModelChrono ModelST ModelWrap ModelLink ModelLib
  ModelApi SpecScalar SpecTimeNum SpecReal SpecPow SpecST SpecDate SpecText SpecExtra SpecLink SpecConv SpecLib SpecName SpecWrap SpecCall SpecExpr SpecNum SpecTerm
  ProofBase ProofScalar ProofDate ProofDate2 ProofExtra ProofExtra5 ProofLib ProofLib2 ProofConv ProofName3 ProofApi3 ProofCall ProofCall2 ProofCall3 ProofCall4 ProofProg ProofProg3 ProofProg4
  ProofExpr ProofExpr2 ProofExpr3 ProofExpr4 ProofNum ProofTerm.
Import ListNotations.
Open Scope string_scope.
Open Scope list_scope.
Open Scope Z_scope.
Local Opaque call value_in api.

(** * Byte order *)
Lemma le_bytes_nth : forall n x i, (i < n)%nat -> nth i (le_bytes n x) 0 = byte x (Z.of_nat i).
Proof.
  induction n as [|n IH]; intros x i L; [lia|]. destruct i as [|i].
  - unfold byte. cbn. now rewrite Z.div_1_r.
  - cbn [le_bytes nth]. rewrite IH by lia. unfold byte. rewrite Z.div_div by (try lia; apply Z.pow_pos_nonneg; lia).
    replace (256 * 256 ^ Z.of_nat i) with (256 ^ Z.of_nat (S i)); [reflexivity|]. rewrite Nat2Z.inj_succ, Z.pow_succ_r by lia. reflexivity.
Qed.
Lemma byte_mod : forall n x i, 0 <= i < n -> byte (x mod 256 ^ n) i = byte x i.
Proof.
  intros n x i I. unfold byte. assert (P : 0 < 256 ^ i) by (apply Z.pow_pos_nonneg; lia).
  assert (Q : 0 < 256 ^ (n - i)) by (apply Z.pow_pos_nonneg; lia).
  replace (256 ^ n) with (256 ^ i * 256 ^ (n - i)) by (rewrite <- Z.pow_add_r by lia; f_equal; lia).
  rewrite Z.rem_mul_r by lia. rewrite (Z.mul_comm (256 ^ i)), Z.div_add by lia.
  rewrite (Z.div_small (x mod 256 ^ i)) by (apply Z.mod_pos_bound; lia). rewrite Z.add_0_l.
  replace (256 ^ (n - i)) with (256 * 256 ^ (n - i - 1)) by (rewrite <- Z.pow_succ_r by lia; f_equal; lia).
  rewrite Z.rem_mul_r by (try lia; apply Z.pow_pos_nonneg; lia). rewrite (Z.mul_comm 256), Z.mod_add by lia. apply Z.mod_mod. lia.
Qed.
Lemma order_facts : forall t x, List.In t byte_ordered -> of_type t x -> Z.of_nat (Z.to_nat (it_bits (order_type t) / 8)) = bytes t /\
  2 ^ it_bits (order_type t) = 256 ^ bytes t /\ 0 < it_bits (order_type t) /\ 0 < bytes t.
Proof. intros t x T _. cbn in T. repeat (destruct T as [<-|T]; [split; [reflexivity|split; [reflexivity|split; reflexivity]]|]). destruct T. Qed.
Lemma wrap_typed : forall t z, List.In t byte_ordered -> of_type t (wrap (order_type t) z).
Proof.
  intros t z T. assert (in_ity (order_type t) (wrap (order_type t) z)) as H.
  { apply wrap_range. cbn in T. repeat (destruct T as [<-|T]; [reflexivity|]). destruct T. }
  cbn in T. repeat (destruct T as [<-|T]; [exact H|]). destruct T.
Qed.
Lemma swap_is : forall t v w, List.In t byte_ordered -> of_type t v -> of_type t w ->
  (forall i, 0 <= i < bytes t -> byte w i = byte v (bytes t - 1 - i)) -> swap_bytes (order_type t) v = w.
Proof.
  intros t v w T V W H. destruct (order_type_ok t v T V) as [O I]. destruct (order_type_ok t w T W) as [_ J].
  destruct (order_facts t v T V) as (N & B & P & Q). pose proof (swap_bytes_le _ v O) as S.
  set (n := Z.to_nat (it_bits (order_type t) / 8)) in *.
  assert (E : le_bytes n (swap_bytes (order_type t) v mod 2 ^ it_bits (order_type t)) = le_bytes n (w mod 2 ^ it_bits (order_type t))).
  { rewrite S. apply (nth_ext _ _ 0 0); [rewrite rev_length, !le_bytes_length; reflexivity|].
    intros i L. rewrite rev_length, le_bytes_length in L. rewrite rev_nth by (rewrite le_bytes_length; exact L). rewrite le_bytes_length.
    rewrite !le_bytes_nth by lia. rewrite B, !byte_mod by lia. rewrite (H (Z.of_nat i)) by lia. f_equal. lia. }
  apply (f_equal of_le_bytes) in E. rewrite !of_le_le in E.
  assert (256 ^ Z.of_nat n = 2 ^ it_bits (order_type t)) as X by (rewrite N; symmetry; exact B). rewrite X, !Z.mod_mod in E by (apply Z.pow_nonzero; lia).
  rewrite <- (wrap_id _ w P J), <- (wrap_of_mod _ w P), <- E, (wrap_of_mod _ _ P). symmetry. apply wrap_id; [exact P|].
  unfold swap_bytes. apply wrap_range. exact P.
Qed.
Lemma order_values : forall P t v, List.In t byte_ordered ->
  call P "TO_BIG_ENDIAN" [(t, VZ v)] = Ok (t, VZ (TO_BIG_ENDIAN (p_endian P) (order_type t) v)) /\
  call P "TO_LITTLE_ENDIAN" [(t, VZ v)] = Ok (t, VZ (TO_LITTLE_ENDIAN (p_endian P) (order_type t) v)) /\
  call P "FROM_BIG_ENDIAN" [(t, VZ v)] = Ok (t, VZ (FROM_BIG_ENDIAN (p_endian P) (order_type t) v)) /\
  call P "FROM_LITTLE_ENDIAN" [(t, VZ v)] = Ok (t, VZ (FROM_LITTLE_ENDIAN (p_endian P) (order_type t) v)).
Proof.
  intros P t v T. rewrite !order_calls by (try exact T; cbn; tauto). destruct (order_by_name P t v T) as (-> & -> & -> & ->). repeat split; reflexivity.
Qed.
Lemma order_reversed : forall P f t v w, List.In t byte_ordered -> List.In f (reversing (p_endian P)) -> of_type t v -> of_type t w ->
  (forall i, 0 <= i < bytes t -> byte w i = byte v (bytes t - 1 - i)) -> call P f [(t, VZ v)] = Ok (t, VZ w).
Proof.
  intros P f t v w T F V W H. destruct (order_values P t v T) as (A & B & C & D). pose proof (swap_is t v w T V W H) as S.
  unfold TO_BIG_ENDIAN, TO_LITTLE_ENDIAN, FROM_BIG_ENDIAN, FROM_LITTLE_ENDIAN in *.
  destruct (p_endian P); cbn [to_be to_le] in A, B, C, D; rewrite <- S; (destruct F as [<-|[<-|[]]]); [exact A|exact D|exact B|exact C].
Qed.
Lemma order_kept : forall P f t v, List.In t byte_ordered -> List.In f byte_order_names -> ~ List.In f (reversing (p_endian P)) ->
  call P f [(t, VZ v)] = Ok (t, VZ v).
Proof.
  intros P f t v T F N. destruct (order_values P t v T) as (A & B & C & D).
  unfold TO_BIG_ENDIAN, TO_LITTLE_ENDIAN, FROM_BIG_ENDIAN, FROM_LITTLE_ENDIAN in *.
  destruct (p_endian P); cbn [to_be to_le] in A, B, C, D; destruct F as [<-|[<-|[<-|[<-|[]]]]];
    [exfalso; apply N; left; reflexivity|exact B|exact C|exfalso; apply N; right; left; reflexivity
    |exact A|exfalso; apply N; left; reflexivity|exfalso; apply N; right; left; reflexivity|exact D].
Qed.

(** * Selection *)
Lemma max_is : forall P t zs m, List.In t ordered -> Forall (of_type t) zs -> is_max m zs -> call P "MAX" (map (pair t) (map VZ zs)) = Ok (t, VZ m).
Proof.
  intros P t zs m T F M. assert (N : zs <> []) by (intros ->; destruct M as [[] _]).
  destruct (max_value P t zs T F N) as (k & E & G). rewrite E. do 3 f_equal. exact (greatest_unique _ _ _ G M).
Qed.
Lemma min_is : forall P t zs m, List.In t ordered -> Forall (of_type t) zs -> is_min m zs -> call P "MIN" (map (pair t) (map VZ zs)) = Ok (t, VZ m).
Proof.
  intros P t zs m T F M. assert (N : zs <> []) by (intros ->; destruct M as [[] _]).
  destruct (min_value P t zs T F N) as (k & E & G). rewrite E. do 3 f_equal. exact (least_unique _ _ _ G M).
Qed.
Lemma limit_is : forall P t a x b, List.In t ordered -> of_type t a -> of_type t x -> of_type t b -> a <= b ->
  call P "LIMIT" [(t, VZ a); (t, VZ x); (t, VZ b)] = Ok (t, VZ (Z.max a (Z.min x b))).
Proof.
  intros P t a x b T A X B L. rewrite limit_calls by exact T. destruct (limit_by_name P t a x b T A X B L) as (k & -> & K & H1 & H2 & H3).
  cbn. do 3 f_equal. destruct (Z.lt_ge_cases x a), (Z.lt_ge_cases b x); lia.
Qed.
Lemma limit_crossed : forall P t a x b, List.In t ordered -> of_type t a -> of_type t x -> of_type t b -> b < a ->
  call P "LIMIT" [(t, VZ a); (t, VZ x); (t, VZ b)] = Ok (t, VZ (if x <? a then a else b)).
Proof.
  intros P t a x b T A X B L. rewrite limit_calls by exact T.
  rewrite (limit_code P t [VZ a; VZ x; VZ b] T (all_typed t [a; x; b] ltac:(repeat (apply Forall_cons; [assumption|]); apply Forall_nil))).
  cbn. unfold LIMIT_ord.
  destruct (Z.ltb_spec x a); [reflexivity|]. assert (b <? x = true) as -> by (apply Z.ltb_lt; lia). reflexivity.
Qed.
Lemma scale_huge : forall P t a z, List.In t integers -> of_type t z -> ~ of_type S_LINT z ->
  call P "MUL" [(S_TIME, VZ a); (t, VZ z)] = Panic /\ call P "DIV" [(S_TIME, VZ a); (t, VZ z)] = Panic.
Proof.
  intros P t a z T Z N. rewrite (scale_calls P "MUL" "MUL__TIME" t a z ltac:(cbn; tauto) T), (scale_calls P "DIV" "DIV__TIME" t a z ltac:(cbn; tauto) T).
  assert (t = S_ULINT) as ->.
  { unfold of_type in Z, N. cbn in T. repeat (destruct T as [<-|T]; [first [reflexivity|exfalso; cbn in Z, N; lia]|]). destruct T. }
  change (rust_call P (instance_name "MUL__TIME" [S_ULINT]) [VZ a; VZ z]) with (obind (MUL_TIME_UNSIGNED a z) (fun z' => Ok (VZ z', [VZ a; VZ z]))).
  change (rust_call P (instance_name "DIV__TIME" [S_ULINT]) [VZ a; VZ z]) with (obind (DIV_TIME_UNSIGNED a z) (fun z' => Ok (VZ z', [VZ a; VZ z]))).
  assert (checked i64 z = None) as E.
  { unfold checked. destruct (in_ityb i64 z) eqn:I; [|reflexivity]. apply in_ityb_iff in I. destruct (N I). }
  unfold MUL_TIME_UNSIGNED, DIV_TIME_UNSIGNED. rewrite E. split; reflexivity.
Qed.
Lemma bcd_checked : forall t, List.In t bit_strings -> exported "IS_VALID_BCD" [t] (instance_name "IS_VALID_BCD" [t]) S_BOOL = true.
Proof. intros t T. cbn in T. repeat (destruct T as [<-|T]; [vm_compute; reflexivity|]). destruct T. Qed.
Lemma bcd_is : forall P t z b, List.In t bit_strings -> of_type t z ->
  truth b (exists n, 0 <= n < 10 ^ (width t / 4) /\ z = bcd_encode (Z.to_nat (width t / 4)) n) -> call P "IS_VALID_BCD" [(t, VZ z)] = Ok (S_BOOL, VZ b).
Proof.
  intros P t z b T Z H. rewrite (generic_call P "IS_VALID_BCD" [(t, VZ z)] _ _ (bcd_checked t T)). cbn [map snd].
  destruct (bcd_by_name P t z T Z) as [[-> K]|[-> K]], H as [[-> H]|[-> H]]; try reflexivity.
  - contradiction.
  - destruct H as (n & N & E). destruct (K n N E).
Qed.

(** * Dates *)
Lemma date_is : forall P t y m d n, List.In t narrow_ints -> of_type t y -> of_type t m -> of_type t d -> day_number (y, m, d) n -> of_type S_DATE (n * DAY) ->
  call P "CONCAT_DATE" [(t, VZ y); (t, VZ m); (t, VZ d)] = Ok (S_DATE, VZ (n * DAY)).
Proof.
  intros P t y m d n T Y M D N B. change [(t, VZ y); (t, VZ m); (t, VZ d)] with (ints t [y; m; d]).
  rewrite concat_date_call by (try apply narrow_wide; assumption). destruct (narrow_ity t T) as (i & Ni & R). apply R in Y, M, D.
  pose proof (proj1 (proj1 (day_number_iff _ _) N)) as V.
  destruct (CONCAT_DATE_valid (p_chrono P) i y m d Ni Y M D V) as (k & K & ->).
  destruct (day_number_unique _ V) as (u & _ & U). rewrite (U k K), <- (U n N).
  assert (in_ityb i64 (n * DAY) = true) as -> by (apply in_ityb_iff; exact B). reflexivity.
Qed.
Lemma date_fails : forall P t y m d, List.In t narrow_ints -> of_type t y -> of_type t m -> of_type t d ->
  (forall n, day_number (y, m, d) n -> ~ of_type S_DATE (n * DAY)) -> call P "CONCAT_DATE" [(t, VZ y); (t, VZ m); (t, VZ d)] = Panic.
Proof.
  intros P t y m d T Y M D B. change [(t, VZ y); (t, VZ m); (t, VZ d)] with (ints t [y; m; d]).
  rewrite concat_date_call by (try apply narrow_wide; assumption). destruct (narrow_ity t T) as (i & Ni & R). apply R in Y, M, D.
  destruct (CONCAT_DATE (p_chrono P) y m d) as [a| |] eqn:E; [|reflexivity|].
  - destruct (CONCAT_DATE_ok_valid _ i y m d a Ni Y M D E) as [V _].
    destruct (CONCAT_DATE_valid (p_chrono P) i y m d Ni Y M D V) as (k & K & E'). rewrite E in E'.
    destruct (in_ityb i64 (k * DAY)) eqn:Q; [|discriminate]. apply in_ityb_iff in Q. destruct (B k K Q).
  - exfalso. assert (V : valid_date (y, m, d) \/ ~ valid_date (y, m, d)) by (unfold valid_date; lia). destruct V as [V|V'].
    + destruct (CONCAT_DATE_valid (p_chrono P) i y m d Ni Y M D V) as (k & K & E'). rewrite E in E'.
      destruct (in_ityb i64 (k * DAY)); discriminate.
    + rewrite (CONCAT_DATE_invalid (p_chrono P) i y m d Ni Y M D V') in E. discriminate.
Qed.
Lemma part_values : forall P n, of_type S_DT n ->
  call P "DT_TO_TOD" [(S_DT, VZ n)] = Ok (S_TOD, VZ (n mod DAY)) /\
  call P "DT_TO_DATE" [(S_DT, VZ n)] = (if of_typeb S_DATE (n - n mod DAY) then Ok (S_DATE, VZ (n - n mod DAY)) else Panic).
Proof.
  intros P n N. destruct (dt_parts_name P n N) as (E1 & E2 & _).
  assert (R1 : rust_call P "DATE_AND_TIME_TO_TIME_OF_DAY" [VZ n] = obind (Ok (n mod DAY)) (fun z => Ok (VZ z, [VZ n]))).
  { revert E1. change (rust_call P "DATE_AND_TIME_TO_TIME_OF_DAY" [VZ n]) with (obind (DATE_AND_TIME_TO_TIME_OF_DAY (p_chrono P) n) (fun z => Ok (VZ z, [VZ n]))).
    destruct (DATE_AND_TIME_TO_TIME_OF_DAY (p_chrono P) n); [|discriminate..]. cbn. intros E. now injection E as ->. }
  assert (R2 : rust_call P "DATE_AND_TIME_TO_DATE" [VZ n] =
    obind (if of_typeb S_DATE (n - n mod DAY) then Ok (n - n mod DAY) else Panic) (fun z => Ok (VZ z, [VZ n]))).
  { revert E2. change (rust_call P "DATE_AND_TIME_TO_DATE" [VZ n]) with (obind (DATE_AND_TIME_TO_DATE (p_chrono P) n) (fun z => Ok (VZ z, [VZ n]))).
    destruct (of_typeb S_DATE (n - n mod DAY)), (DATE_AND_TIME_TO_DATE (p_chrono P) n); try discriminate; cbn; intros E; [now injection E as ->|reflexivity]. }
  rewrite (part_calls P "DT_TO_TOD" _ _ _ n _ ltac:(cbn; tauto) R1), (part_calls P "DT_TO_DATE" _ _ _ n _ ltac:(cbn; tauto) R2).
  split; [reflexivity|]. destruct (of_typeb S_DATE (n - n mod DAY)); reflexivity.
Qed.
