(** Proofs about calls of numeric and date functions by name. *)
From Coq Require Import String Ascii ZArith Lia List Bool Reals Lra SpecFloat.
From Flocq Require Import Core.
From Verif Require Import Base ModelFloat ModelTimeNum ModelArith ModelScalar ModelChrono ModelDate
  ModelText ModelString ModelExtra ModelST ModelWrap ModelLink ModelLib SpecScalar SpecDate SpecTimeNum SpecReal SpecST SpecExtra SpecExpt SpecLink SpecLib
  ProofBase ProofScalar ProofDate ProofReal ProofReal2 ProofST ProofST2 ProofLib PropertiesScalar PropertiesDate PropertiesTimeNum PropertiesST.
Import ListNotations.
Open Scope list_scope.
Open Scope string_scope.
Open Scope Z_scope.

Ltac pairs I := apply pair_equal_spec in I; destruct I as [<- <-].
Ltac two_reals I := destruct I as [I|[I|[]]]; pairs I.

(** MAX, MIN and LIMIT of REAL and LREAL. *)
Lemma floats_map : forall l, floats (map VF l) = Some l.
Proof. induction l as [|m l IH]; [reflexivity|]. cbn. now rewrite IH. Qed.
Lemma firstn_size : forall A (l : list A), firstn (Z.to_nat (size l)) l = l.
Proof. intros. unfold size. rewrite Nat2Z.id. apply firstn_all. Qed.

Lemma max_min_float_name : forall P X f l, List.In (X, f) float_names -> l <> [] ->
  let best (m : string) (le : spec_float -> spec_float -> bool) := exists r,
    rust_call P (m ++ "__" ++ X) (map VF l) = Ok (VF (fl_of_sf f r), map VF l) /\ List.In r (map fl_sf l) /\
    sf_nan r = forallb sf_nan (map fl_sf l) /\
    forall y, List.In y (map fl_sf l) -> sf_nan y = false -> le y r = true in
  best "MAX" SFleb /\ best "MIN" (fun y r => SFleb r y).
Proof.
  intros P X f l I N best.
  assert (S : 0 < size (map fl_sf l) <= Z.of_nat (length (map fl_sf l))).
  { unfold size. destruct l; [congruence|]. cbn [map length]. lia. }
  destruct (C18_max_ignores_nan (p_tie P) _ _ S) as (r & E & A & B & C).
  destruct (C18_min_ignores_nan (p_tie P) _ _ S) as (q & E' & A' & B' & C').
  rewrite firstn_size in A, B, C, A', B', C'.
  assert (SZ : size (map fl_sf l) = size l) by (unfold size; now rewrite map_length). rewrite SZ in E, E'.
  split.
  - exists r. split; [|split; [exact A|split; [exact B|exact C]]].
    two_reals I; name_of; cbv [fs]; rewrite floats_map, E; reflexivity.
  - exists q. split; [|split; [exact A'|split; [exact B'|exact C']]].
    two_reals I; name_of; cbv [fs]; rewrite floats_map, E'; reflexivity.
Qed.

(** Splitting and joining. *)
Lemma split_date_name : forall P t n a b c, List.In t wide_ints -> of_type S_DATE n ->
  exists y m d, day_number (y, m, d) (n / DAY) /\
    rust_call P (instance_name "SPLIT_DATE" [t]) [VZ n; a; b; c] = Ok (VZ 0, [VZ n; VZ y; VZ m; VZ d]).
Proof.
  intros P t n a b c T I.
  each_type T;
  match goal with |- context [split_date ?u] =>
    destruct (C27_split_date_total u n) as (y & m & d & E & D); [cbn; tauto|exact I|];
    exists y, m, d; split; [exact D|cbv [split_date]; rewrite E; reflexivity] end.
Qed.
Lemma split_tod_name : forall P t n a b c e, List.In t wide_ints ->
  exists h mi s ms, valid_clock h mi s ms /\ clock_ns h mi s ms <= n mod DAY < clock_ns h mi s ms + MILLI /\
    rust_call P (instance_name "SPLIT_TOD" [t]) [VZ n; a; b; c; e] = Ok (VZ 0, [VZ n; VZ h; VZ mi; VZ s; VZ ms]).
Proof.
  intros P t n a b c e T.
  each_type T;
  match goal with |- context [split_tod ?u] =>
    destruct (C29_split_tod_total u n) as (h & mi & s & ms & E & V & D); [cbn; tauto|];
    exists h, mi, s, ms; split; [exact V|]; split; [exact D|cbv [split_tod]; rewrite E; reflexivity] end.
Qed.
Lemma split_dt_name : forall P t n a b c e f g i, List.In t wide_ints -> of_type S_DT n ->
  exists y mo d h mi s ms, day_number (y, mo, d) (n / DAY) /\ valid_clock h mi s ms /\
    clock_ns h mi s ms <= n mod DAY < clock_ns h mi s ms + MILLI /\
    rust_call P (instance_name "SPLIT_DT" [t]) [VZ n; a; b; c; e; f; g; i] =
    Ok (VZ 0, [VZ n; VZ y; VZ mo; VZ d; VZ h; VZ mi; VZ s; VZ ms]).
Proof.
  intros P t n a b c e f g i T I.
  each_type T;
  match goal with |- context [split_dt ?u] =>
    destruct (C33_split_dt_total u n) as (y & mo & d & h & mi & s & ms & E & D & V & C); [cbn; tauto|exact I|];
    exists y, mo, d, h, mi, s, ms; split; [exact D|]; split; [exact V|]; split; [exact C|];
    cbv [split_dt]; rewrite E; reflexivity end.
Qed.
Lemma concat_tod_name : forall P t h mi s ms, List.In t [S_SINT; S_USINT; S_INT; S_UINT; S_DINT; S_UDINT] ->
  of_type t h -> of_type t mi -> of_type t s -> of_type t ms ->
  let ok := 0 <= h < 24 /\ 0 <= mi < 60 /\ 0 <= s < 60 /\ 0 <= ms /\ accepts_millis (p_chrono P) s ms in
  (ok -> result (rust_call P (instance_name "CONCAT_TOD" [t]) [VZ h; VZ mi; VZ s; VZ ms]) = Int (clock_ns h mi s ms)) /\
  (~ ok -> result (rust_call P (instance_name "CONCAT_TOD" [t]) [VZ h; VZ mi; VZ s; VZ ms]) = Panic).
Proof.
  intros P t h mi s ms T Ih Im Is Ims ok.
  assert (N : exists u, narrow u /\ in_ity u h /\ in_ity u mi /\ in_ity u s /\ in_ity u ms).
  { repeat (destruct T as [<-|T];
      [match goal with |- exists _, _ => first
        [exists i8; split; [unfold narrow; cbn; tauto|exact (conj Ih (conj Im (conj Is Ims)))]
        |exists u8; split; [unfold narrow; cbn; tauto|exact (conj Ih (conj Im (conj Is Ims)))]
        |exists i16; split; [unfold narrow; cbn; tauto|exact (conj Ih (conj Im (conj Is Ims)))]
        |exists u16; split; [unfold narrow; cbn; tauto|exact (conj Ih (conj Im (conj Is Ims)))]
        |exists i32; split; [unfold narrow; cbn; tauto|exact (conj Ih (conj Im (conj Is Ims)))]
        |exists u32; split; [unfold narrow; cbn; tauto|exact (conj Ih (conj Im (conj Is Ims)))]] end|]).
    destruct T. }
  destruct N as (u & N & A & B & C & D).
  destruct (C30_concat_tod_exact_partial (p_chrono P) u h mi s ms N A B C D) as [X Y].
  split; intros O; [specialize (X O)|specialize (Y O)]; each_type T; cbv [z4]; first [rewrite X; reflexivity|rewrite Y; reflexivity].
Qed.
Lemma dt_parts_name : forall P n, of_type S_DT n ->
  result (rust_call P "DATE_AND_TIME_TO_TIME_OF_DAY" [VZ n]) = Int (n mod DAY) /\
  result (rust_call P "DATE_AND_TIME_TO_DATE" [VZ n]) =
    (if of_typeb S_DATE (n - n mod DAY) then Int (n - n mod DAY) else Panic) /\
  (of_type S_DATE (n - n mod DAY) ->
     result (rust_call P "CONCAT_DATE_TOD" [VZ (n - n mod DAY); VZ (n mod DAY)]) = Int n).
Proof.
  intros P n I. destruct (C28_dt_is_date_plus_tod (p_chrono P) n I) as (tod & E & B & A & C).
  assert (T : tod = n mod DAY).
  { rewrite dt_to_tod in E. now injection E as <-. }
  subst tod. split; [|split].
  - name_of. cbv [z1 result]. rewrite E. reflexivity.
  - name_of. cbv [z1 result]. unfold of_typeb. cbn [bounds fst snd].
    destruct (in_ityb i64 (n - n mod DAY)) eqn:H.
    + change ((- 2 ^ 63 <=? n - n mod DAY) && (n - n mod DAY <=? 2 ^ 63 - 1)) with (in_ityb i64 (n - n mod DAY)). rewrite H.
      apply in_ityb_iff in H. destruct (A H) as (d & D & _ & S & _). rewrite D. replace d with (n - n mod DAY) by lia. reflexivity.
    + change ((- 2 ^ 63 <=? n - n mod DAY) && (n - n mod DAY <=? 2 ^ 63 - 1)) with (in_ityb i64 (n - n mod DAY)). rewrite H.
      rewrite C; [reflexivity|]. intros K. apply in_ityb_iff in K. congruence.
  - intros K. destruct (A K) as (d & _ & _ & S & Q). name_of. cbv [z2 result].
    replace (n - n mod DAY) with d by lia. rewrite Q. reflexivity.
Qed.
Lemma weekday_name : forall P n, of_type S_DATE n ->
  exists w, rust_call P "DAY_OF_WEEK" [VZ n] = Ok (VZ w, [VZ n]) /\ 0 <= w <= 6 /\ w = (n / DAY + 4) mod 7.
Proof.
  intros P n _. exists (DAY_OF_WEEK n). split; [reflexivity|]. split; [apply C32_day_of_week_cycle|].
  assert (S : forall m k, DAY_OF_WEEK (m + Z.of_nat k * DAY) = (DAY_OF_WEEK m + Z.of_nat k) mod 7).
  { intros m k. induction k as [|k IH].
    - cbn [Z.of_nat]. rewrite Z.mul_0_l, !Z.add_0_r. symmetry. apply Z.mod_small. pose proof (proj1 (C32_day_of_week_cycle m)). lia.
    - replace (m + Z.of_nat (S k) * DAY) with (m + Z.of_nat k * DAY + DAY) by lia.
      rewrite (proj1 (proj2 (C32_day_of_week_cycle _))), IH, Zplus_mod_idemp_l. f_equal. lia. }
  rewrite (proj2 (proj2 (C32_day_of_week_cycle (n / DAY * DAY))) n) by (rewrite Z.div_mul by discriminate; reflexivity).
  destruct (Z.le_gt_cases 0 (n / DAY)) as [H|H].
  - specialize (S 0 (Z.to_nat (n / DAY))). rewrite Z2Nat.id, Z.add_0_l in S by exact H. rewrite S, C32_epoch_is_thursday. f_equal. lia.
  - specialize (S (n / DAY * DAY) (Z.to_nat (- (n / DAY)))). rewrite Z2Nat.id in S by lia.
    replace (n / DAY * DAY + - (n / DAY) * DAY) with 0 in S by lia. rewrite C32_epoch_is_thursday in S.
    pose proof (proj1 (C32_day_of_week_cycle (n / DAY * DAY))) as B. revert S B. generalize (DAY_OF_WEEK (n / DAY * DAY)).
    intros w S B. generalize dependent (n / DAY). intros q H S. pose proof (Z.mod_pos_bound (q + 4) 7 ltac:(lia)).
    Z.div_mod_to_equations. lia.
Qed.

(** Square root, rounding and powers. *)
Lemma sqrt_name : forall P X f x, List.In (X, f) float_names ->
  fl_valid f x -> fl_finite x = true -> (0 <= fl_value x)%R ->
  exists y, rust_call P ("SQRT__" ++ X) [VF x] = Ok (VF y, [VF x]) /\ nearest_even f y (sqrt (fl_value x)).
Proof.
  intros P X f x I V F N. exists (SQRT f x). split.
  - two_reals I; reflexivity.
  - apply sqrt_nearest; auto. now apply (float_names_fmt X).
Qed.
Lemma round_name : forall P X f x, List.In (X, f) float_names -> fl_valid f x -> fl_finite x = true ->
  exists y k, rust_call P ("ROUND__" ++ X) [VF x] = Ok (VF y, [VF x]) /\ fl_valid f y /\
    fl_finite y = true /\ fl_value y = IZR k /\ nearest_int k (fl_value x).
Proof.
  intros P X f x I V F. destruct (round_spec f (float_names_fmt _ _ I) x V F) as (k & A & B & C & D).
  exists (ROUND f x), k. split; [|exact (conj A (conj B (conj C D)))]. two_reals I; reflexivity.
Qed.
Lemma expt_name : forall P X f x n M J, List.In (X, f) float_names ->
  fl_valid f x -> fl_finite x = true -> fl_value x = (IZR M * bpow radix2 J)%R ->
  of_type S_DINT n -> 0 <= n -> Z.abs (M ^ n) <= 2 ^ f_prec f ->
  f_emin f <= J * n -> f_prec f + J * n < f_emax f ->
  exists y, rust_call P ("EXPT__" ++ X ++ "__DINT") [VF x; VZ n] = Ok (VF y, [VF x; VZ n]) /\
    fl_valid f y /\ fl_finite y = true /\ fl_value y = (fl_value x ^ Z.to_nat n)%R.
Proof.
  intros P X f x n M J I V F E R N B1 B2 B3. exists (EXPT_DINT f x n). split; [two_reals I; reflexivity|].
  apply (expt_exact f x n M J); auto. now apply (float_names_fmt X).
Qed.

(** Bit patterns. *)
Lemma bits_name : forall P b x,
  (of_type S_DWORD b -> exists y, rust_call P "DWORD_TO_REAL" [VZ b] = Ok (VF y, [VZ b]) /\
     rust_call P "REAL_TO_DWORD" [VF y] = Ok (VZ b, [VF y])) /\
  (of_type S_LWORD b -> exists y, rust_call P "LWORD_TO_LREAL" [VZ b] = Ok (VF y, [VZ b]) /\
     rust_call P "LREAL_TO_LWORD" [VF y] = Ok (VZ b, [VF y])) /\
  (fl_valid F32 x -> exists c, rust_call P "REAL_TO_DWORD" [VF x] = Ok (VZ c, [VF x]) /\ of_type S_DWORD c /\
     rust_call P "DWORD_TO_REAL" [VZ c] = Ok (VF x, [VZ c])) /\
  (fl_valid F64 x -> exists c, rust_call P "LREAL_TO_LWORD" [VF x] = Ok (VZ c, [VF x]) /\ of_type S_LWORD c /\
     rust_call P "LWORD_TO_LREAL" [VZ c] = Ok (VF x, [VZ c])).
Proof.
  intros P b x. destruct (C25_real_dword_inverse b x) as [A B]. destruct (C25_lreal_lword_inverse b x) as [C D].
  split; [|split; [|split]].
  - intros [I1 I2]. cbn [bounds fst snd] in I1, I2. eexists. split; [reflexivity|]. name_of. cbv [f_z]. rewrite A by lia. reflexivity.
  - intros [I1 I2]. cbn [bounds fst snd] in I1, I2. eexists. split; [reflexivity|]. name_of. cbv [f_z]. rewrite C by lia. reflexivity.
  - intros V. destruct (B V) as [E R]. eexists. split; [reflexivity|]. split; [unfold of_type; cbn [bounds fst snd]; lia|].
    name_of. cbv [z_f]. rewrite E. reflexivity.
  - intros V. destruct (D V) as [E R]. eexists. split; [reflexivity|]. split; [unfold of_type; cbn [bounds fst snd]; lia|].
    name_of. cbv [z_f]. rewrite E. reflexivity.
Qed.
Lemma is_valid_name : forall P X f x, List.In (X, f) float_names -> fl_valid f x ->
  rust_call P ("IS_VALID__" ++ X) [VF x] = Ok (VZ (if fl_finite x then 1 else 0), [VF x]).
Proof.
  intros P X f x I V. two_reals I; name_of; cbv [f_z]; destruct x as [[s|s| |s m e]|s p]; try contradiction; reflexivity.
Qed.
Lemma endian_float_name : forall P X f g x, List.In (X, f) float_names -> fl_valid f x ->
  List.In g ["TO_BIG_ENDIAN__"; "TO_LITTLE_ENDIAN__"; "FROM_BIG_ENDIAN__"; "FROM_LITTLE_ENDIAN__"] ->
  rust_call P (g ++ X) [VF x] = Ok (VF x, [VF x]).
Proof.
  intros P X f g x I V G.
  assert (E : from_bits f (to_bits f x) = x /\ 0 <= to_bits f x < 2 ^ f_width f).
  { two_reals I.
    - destruct (proj2 (C25_real_dword_inverse 0 x) V) as [A B]. now split.
    - destruct (proj2 (C25_lreal_lword_inverse 0 x) V) as [A B]. now split. }
  destruct E as [E R].
  assert (W : 2 ^ f_width f = 256 ^ Z.of_nat (Z.to_nat (f_width f / 8))) by (two_reals I; reflexivity).
  rewrite W in R. destruct (C23_float_endian_identity_partial _ _ R) as (A & B & C & D).
  two_reals I; repeat (destruct G as [<-|G]; [name_of; cbv [bits1 f1];
    first [rewrite A|rewrite B|rewrite C|rewrite D]; rewrite E; reflexivity|]); destruct G.
Qed.

(** Time by REAL and LREAL. *)
Lemma time_real_name : forall P F X f t x, List.In (X, f) float_names -> of_type S_TIME t ->
  fl_valid f x -> fl_finite x = true ->
  (List.In F products ->
     let y := (IZR t * fl_value x)%R in
     (forall r, result (rust_call P (F ++ "__" ++ X) [VZ t; VF x]) = Int r -> (Rabs (IZR r - y) <= time_error (p_durgen P) f y)%R) /\
     ((Rabs y + time_error (p_durgen P) f y <= 9223372036854775807)%R ->
        exists r, result (rust_call P (F ++ "__" ++ X) [VZ t; VF x]) = Int r)) /\
  (List.In F quotients -> fl_value x <> 0%R ->
     let y := (IZR t / fl_value x)%R in
     (forall r, result (rust_call P (F ++ "__" ++ X) [VZ t; VF x]) = Int r -> (Rabs (IZR r - y) <= time_error (p_durgen P) f y)%R) /\
     ((Rabs y + time_error (p_durgen P) f y <= 9223372036854775807)%R ->
        exists r, result (rust_call P (F ++ "__" ++ X) [VZ t; VF x]) = Int r)).
Proof.
  intros P F X f t x I T V FX.
  assert (BF : binary_format f) by now apply (float_names_fmt X).
  split.
  - intros G y. destruct (C73_mul_accuracy (p_durgen P) f t x BF T V FX) as [A B].
    assert (E : rust_call P (F ++ "__" ++ X) [VZ t; VF x] =
                obind (MUL_TIME_REAL (p_durgen P) f t x) (fun r => Ok (VZ r, [VZ t; VF x]))).
    { two_reals I; repeat (destruct G as [<-|G]; [reflexivity|]); destruct G. }
    rewrite E. split.
    + intros r H. apply A. destruct (MUL_TIME_REAL (p_durgen P) f t x); [|discriminate|discriminate]. cbn in H. injection H as ->. reflexivity.
    + intros H. destruct (B H) as [r ->]. now exists r.
  - intros G NZ y. destruct (C73_div_accuracy (p_durgen P) f t x BF T V FX NZ) as [A B].
    assert (E : rust_call P (F ++ "__" ++ X) [VZ t; VF x] =
                obind (DIV_TIME_REAL (p_durgen P) f t x) (fun r => Ok (VZ r, [VZ t; VF x]))).
    { two_reals I; repeat (destruct G as [<-|G]; [reflexivity|]); destruct G. }
    rewrite E. split.
    + intros r H. apply A. destruct (DIV_TIME_REAL (p_durgen P) f t x); [|discriminate|discriminate]. cbn in H. injection H as ->. reflexivity.
    + intros H. destruct (B H) as [r ->]. now exists r.
Qed.
Lemma time_unsigned_name : forall P F X t k, List.In X [S_USINT; S_UINT; S_UDINT; S_ULINT] -> of_type S_TIME t -> of_type X k ->
  (List.In F products -> result (rust_call P (instance_name F [X]) [VZ t; VZ k]) =
     if (k <? 2 ^ 63) && of_typeb S_TIME (t * k) then Int (t * k) else Panic) /\
  (List.In F quotients -> result (rust_call P (instance_name F [X]) [VZ t; VZ k]) =
     if (0 <? k) && (k <? 2 ^ 63) then Int (Z.quot t k) else Panic).
Proof.
  intros P F X t k I T K.
  assert (U : in_ity u64 k).
  { repeat (destruct I as [<-|I]; [unfold of_type in K; cbn [bounds fst snd] in K; unfold in_ity; change (imin u64) with 0; change (imax u64) with (2 ^ 64 - 1); lia|]). destruct I. }
  destruct (C37_unsigned_exact_partial t k T U) as [A B]. split; intros G.
  - assert (E : rust_call P (instance_name F [X]) [VZ t; VZ k] = obind (MUL_TIME_UNSIGNED t k) (fun r => Ok (VZ r, [VZ t; VZ k]))).
    { repeat (destruct I as [<-|I]; [repeat (destruct G as [<-|G]; [reflexivity|]); destruct G|]). destruct I. }
    rewrite E, A. change (of_typeb S_TIME (t * k)) with (in_ityb i64 (t * k)).
    destruct ((k <? 2 ^ 63) && in_ityb i64 (t * k)); reflexivity.
  - assert (E : rust_call P (instance_name F [X]) [VZ t; VZ k] = obind (DIV_TIME_UNSIGNED t k) (fun r => Ok (VZ r, [VZ t; VZ k]))).
    { repeat (destruct I as [<-|I]; [repeat (destruct G as [<-|G]; [reflexivity|]); destruct G|]). destruct I. }
    rewrite E, B. destruct ((0 <? k) && (k <? 2 ^ 63)); reflexivity.
Qed.
