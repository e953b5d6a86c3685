(** Proofs about calls of the library functions by name: exact results. *)
From Coq Require Import String Ascii ZArith Lia List Bool SpecFloat.
From Verif Require Import Base ModelFloat ModelTimeNum ModelArith ModelScalar ModelChrono ModelDate
  ModelText ModelString ModelExtra ModelST ModelWrap ModelLink ModelLib SpecScalar SpecDate SpecLink SpecLib
  ProofBase ProofScalar ProofDate ProofDate2 ProofTimeNum ProofLink ProofLib.
Import ListNotations.
Open Scope list_scope.
Open Scope string_scope.
Open Scope Z_scope.

Lemma time_range : forall z, of_typeb S_TIME z = in_ityb i64 z /\ of_typeb S_LINT z = in_ityb i64 z.
Proof. intros z. split; reflexivity. Qed.
Lemma time_ity : forall z, of_type S_TIME z -> in_ity i64 z.
Proof. intros z H. unfold of_type in H. cbn in H. unfold in_ity. cbn. lia. Qed.

(** Calls of functions that are not written in ST go to the library. *)
Lemma direct : forall V (ext : string -> list V -> outcome (V * list V)) init f args,
  List.In f ["ADD_TIME"; "ADD_TOD_TIME"; "ADD_DT_TIME"; "SUB_TIME"; "SUB_DATE_DATE"; "SUB_TOD_TIME"; "SUB_TOD_TOD";
             "SUB_DT_TIME"; "SUB_DT_DT"] ->
  calls ext init f args = ext f args.
Proof. intros V ext init f args I. repeat (destruct I as [<-|I]; [vm_compute; reflexivity|]). destruct I. Qed.
Lemma direct_overload : forall V (ext : string -> list V -> outcome (V * list V)) init f t args,
  List.In f (products ++ quotients) -> List.In t numbers ->
  calls ext init (instance_name f [t]) args = ext (instance_name f [t]) args.
Proof.
  intros V ext init f t args F T. cbn in F, T.
  repeat (destruct F as [<-|F]; [repeat (destruct T as [<-|T]; [vm_compute; reflexivity|]); destruct T|]). destruct F.
Qed.

Lemma product_exact : forall P f t a z, List.In f products -> List.In t integers -> of_type t z ->
  of_type S_LINT z ->
  result (rust_call P (instance_name f [t]) [VZ a; VZ z]) =
  if of_typeb S_TIME (a * z) then Int (a * z) else Panic.
Proof.
  intros P f t a z F T Z L.
  rewrite (time_code f MUL_TIME_SIGNED MUL_TIME_UNSIGNED) with (t := t); [| |exact T|].
  - unfold z2, MUL_TIME_UNSIGNED. rewrite checked_i64 by (unfold of_type in L; cbn in L; lia). cbn [unwrap obind].
    change (unwrap (checked i64 (a * z))) with (MUL_TIME_SIGNED a z). rewrite mul_signed_lemma.
    change (of_typeb S_TIME (a * z)) with (in_ityb i64 (a * z)). destruct (in_ityb i64 (a * z)); reflexivity.
  - cbn in F. repeat (destruct F as [<-|F]; [repeat (first [left; reflexivity | right])|]). destruct F.
  - constructor; [|constructor]. now exists z.
Qed.
Lemma quotient_exact : forall P f t a z, List.In f quotients -> List.In t integers -> of_type t z ->
  of_type S_TIME a -> of_type S_LINT z ->
  result (rust_call P (instance_name f [t]) [VZ a; VZ z]) =
  if negb (z =? 0) && of_typeb S_TIME (Z.quot a z) then Int (Z.quot a z) else Panic.
Proof.
  intros P f t a z F T Z A L.
  rewrite (time_code f DIV_TIME_SIGNED DIV_TIME_UNSIGNED) with (t := t); [| |exact T|].
  - unfold z2, DIV_TIME_UNSIGNED. rewrite checked_i64 by (unfold of_type in L; cbn in L; lia). cbn [unwrap obind].
    unfold checked_div_i64, checked. change (of_typeb S_TIME (Z.quot a z)) with (in_ityb i64 (Z.quot a z)).
    destruct (z =? 0); [reflexivity|]. cbn [negb andb]. destruct (in_ityb i64 (Z.quot a z)); reflexivity.
  - cbn in F. repeat (destruct F as [<-|F]; [repeat (first [left; reflexivity | right])|]). destruct F.
  - constructor; [|constructor]. now exists z.
Qed.

Lemma exact_i64 : forall P g a b c, g P a b = (if in_ityb i64 c then Ok c else Panic) ->
  result (z2 g P [VZ a; VZ b]) = if of_typeb S_TIME c then Int c else Panic.
Proof.
  intros P g a b c E. unfold z2. rewrite E. change (of_typeb S_TIME c) with (in_ityb i64 c).
  destruct (in_ityb i64 c); reflexivity.
Qed.
Lemma datetime_exact : forall v a b, nanos_floor v = false ->
  add_datetime_time v a b = (if in_ityb i64 (a + b) then Ok (a + b) else Panic) /\
  sub_datetime_duration v a b = (if in_ityb i64 (a - b) then Ok (a - b) else Panic).
Proof.
  intros v a b F.
  assert (R : forall x, representable v x <-> in_ity i64 x).
  { intros x. unfold representable. split; [tauto|]. intros H. split; [exact H|congruence]. }
  split.
  - destruct (add_datetime_lemma v a b) as [P Q]. rewrite R, <- in_ityb_iff in P, Q.
    destruct (in_ityb i64 (a + b)); [now apply P|apply Q; discriminate].
  - destruct (sub_datetime_lemma v a b) as [P Q]. rewrite R, <- in_ityb_iff in P, Q.
    destruct (in_ityb i64 (a - b)); [now apply P|apply Q; discriminate].
Qed.

Definition reachesb (gs : list string) (f : string) : bool :=
  existsb (fun g => String.eqb f g || existsb (fun p => String.eqb (fst p) f && String.eqb (snd p) g) aliases) gs.
Lemma reaches : forall fs gs, forallb (reachesb gs) fs = true -> forall f, List.In f fs ->
  exists g, List.In g gs /\ (f = g \/ List.In (f, g) aliases).
Proof.
  intros fs gs H f F. rewrite forallb_forall in H. specialize (H f F). unfold reachesb in H.
  apply existsb_exists in H as (g & G & E). exists g. split; [exact G|].
  apply orb_true_iff in E as [E|E]; [left; now apply String.eqb_eq|right].
  apply existsb_exists in E as ([x y] & I & E). apply andb_true_iff in E as [E1 E2].
  apply String.eqb_eq in E1, E2. cbn in E1, E2. now subst.
Qed.
Ltac listed := solve [repeat (first [left; reflexivity | right])].
Lemma sums_exact : forall P init f a b, nanos_floor (p_chrono P) = false -> of_type S_TIME a -> of_type S_TIME b ->
  (List.In f sums -> result (calls (rust_call P) init f [VZ a; VZ b]) =
     if of_typeb S_TIME (a + b) then Int (a + b) else Panic) /\
  (List.In f differences -> result (calls (rust_call P) init f [VZ a; VZ b]) =
     if of_typeb S_TIME (a - b) then Int (a - b) else Panic).
Proof.
  intros P init f a b N A B. apply time_ity in A. apply time_ity in B.
  destruct (datetime_exact (p_chrono P) a b N) as [D1 D2].
  assert (R : forall g, List.In g ["ADD_TIME"; "ADD_TOD_TIME"; "ADD_DT_TIME"] ->
    result (rust_call P g [VZ a; VZ b]) = if of_typeb S_TIME (a + b) then Int (a + b) else Panic).
  { intros g G. cbn in G. destruct G as [<-|[<-|[<-|[]]]]; name_of; apply exact_i64;
      [now apply add_time_lemma|exact D1|exact D1]. }
  assert (Q : forall g, List.In g ["SUB_TIME"; "SUB_DATE_DATE"; "SUB_TOD_TIME"; "SUB_TOD_TOD"; "SUB_DT_TIME"; "SUB_DT_DT"] ->
    result (rust_call P g [VZ a; VZ b]) = if of_typeb S_TIME (a - b) then Int (a - b) else Panic).
  { intros g G. cbn in G. destruct G as [<-|[<-|[<-|[<-|[<-|[<-|[]]]]]]]; name_of; apply exact_i64;
      first [exact D2 | now apply sub_time_lemma | now apply sub_datetimes_lemma]. }
  split; intros F.
  - assert (G : exists g, List.In g ["ADD_TIME"; "ADD_TOD_TIME"; "ADD_DT_TIME"] /\ (f = g \/ List.In (f, g) aliases)).
    { refine (reaches sums _ _ f F). vm_compute. reflexivity. }
    destruct G as (g & G & [->|L]).
    + rewrite direct; [exact (R g G)|]. cbn in G. destruct G as [<-|[<-|[<-|[]]]]; listed.
    + unfold result. rewrite (alias_calls _ _ _ f g _ L); [exact (R g G)|].
      unfold sums in F. repeat (destruct F as [<-|F]; [vm_compute; reflexivity|]). destruct F.
  - assert (G : exists g, List.In g ["SUB_TIME"; "SUB_DATE_DATE"; "SUB_TOD_TIME"; "SUB_TOD_TOD"; "SUB_DT_TIME"; "SUB_DT_DT"]
      /\ (f = g \/ List.In (f, g) aliases)).
    { refine (reaches differences _ _ f F). vm_compute. reflexivity. }
    destruct G as (g & G & [->|L]).
    + rewrite direct; [exact (Q g G)|]. cbn in G. destruct G as [<-|[<-|[<-|[<-|[<-|[<-|[]]]]]]]; listed.
    + unfold result. rewrite (alias_calls _ _ _ f g _ L); [exact (Q g G)|].
      unfold differences in F. repeat (destruct F as [<-|F]; [vm_compute; reflexivity|]). destruct F.
Qed.

(** * Bit functions *)

Lemma bits_by_name : forall P t x n, List.In t bit_strings ->
  rust_call P (instance_name "SHL" [t]) [VZ x; VZ n] =
    (let! r := SHL (p_profile P) (width t) x n in Ok (VZ r, [VZ x; VZ n])) /\
  rust_call P (instance_name "SHR" [t]) [VZ x; VZ n] =
    (let! r := SHR (p_profile P) (width t) x n in Ok (VZ r, [VZ x; VZ n])) /\
  rust_call P (instance_name "ROL" [t]) [VZ x; VZ n] = Ok (VZ (ROL (width t) x n), [VZ x; VZ n]) /\
  rust_call P (instance_name "ROR" [t]) [VZ x; VZ n] = Ok (VZ (ROR (width t) x n), [VZ x; VZ n]).
Proof.
  intros P t x n T. cbn in T.
  repeat (destruct T as [<-|T]; [split; [|split; [|split]]; name_of; reflexivity|]). destruct T.
Qed.
Lemma bit_type : forall t x, List.In t bit_strings -> of_type t x ->
  List.In (width t) bit_widths /\ in_width (width t) x /\ 0 < width t.
Proof.
  intros t x T X. cbn in T. unfold of_type, in_width in *.
  repeat (destruct T as [<-|T]; [cbn in X; split; [repeat (first [left; reflexivity | right])|split; cbn; lia]|]).
  destruct T.
Qed.
Lemma in_width_type : forall t x, List.In t bit_strings -> in_width (width t) x -> of_type t x.
Proof.
  intros t x T X. cbn in T. unfold of_type, in_width in *.
  repeat (destruct T as [<-|T]; [cbn in *; lia|]). destruct T.
Qed.
Lemma shifts_by_name : forall P t x n, List.In t bit_strings -> of_type t x -> 0 <= n < width t ->
  (exists r, result (rust_call P (instance_name "SHL" [t]) [VZ x; VZ n]) = Int r /\ of_type t r /\
     forall i, 0 <= i < width t -> Z.testbit r i = (n <=? i) && Z.testbit x (i - n)) /\
  (exists r, result (rust_call P (instance_name "SHR" [t]) [VZ x; VZ n]) = Int r /\ of_type t r /\
     forall i, 0 <= i < width t -> Z.testbit r i = (i + n <? width t) && Z.testbit x (i + n)).
Proof.
  intros P t x n T X N. destruct (bit_type t x T X) as (W & I & _).
  destruct (bits_by_name P t x n T) as (E1 & E2 & _).
  destruct (shl_lemma (p_profile P) (width t) x n N) as (r & R & _ & I1 & B1).
  destruct (shr_lemma (p_profile P) (width t) x n I N) as (q & Q & _ & I2 & B2).
  split; [exists r; rewrite E1, R|exists q; rewrite E2, Q]; (split; [reflexivity|]);
    (split; [now apply in_width_type|assumption]).
Qed.
Lemma rotates_by_name : forall P t x n, List.In t bit_strings -> of_type t x ->
  (exists r, result (rust_call P (instance_name "ROL" [t]) [VZ x; VZ n]) = Int r /\ of_type t r /\
     forall i, 0 <= i < width t -> Z.testbit r i = Z.testbit x ((i - n) mod width t)) /\
  (exists r, result (rust_call P (instance_name "ROR" [t]) [VZ x; VZ n]) = Int r /\ of_type t r /\
     forall i, 0 <= i < width t -> Z.testbit r i = Z.testbit x ((i + n) mod width t)).
Proof.
  intros P t x n T X. destruct (bit_type t x T X) as (W & I & L).
  destruct (bits_by_name P t x n T) as (_ & _ & E1 & E2).
  split; [exists (ROL (width t) x n); rewrite E1|exists (ROR (width t) x n); rewrite E2]; (split; [reflexivity|]).
  - split; [apply in_width_type; [exact T|now apply rol_range]|]. intros i Hi. now apply rol_bits.
  - split; [apply in_width_type; [exact T|rewrite ror_rol by assumption; now apply rol_range]|].
    intros i Hi. now apply ror_bits.
Qed.

(** * MAX, MIN, LIMIT *)

Lemma ints_map : forall l, ints (map VZ l) = Some l.
Proof. induction l as [|x l IH]; [reflexivity|]. cbn. now rewrite IH. Qed.
Lemma all_typed : forall t l, Forall (of_type t) l -> all_of t (map VZ l).
Proof. intros t l H. induction H; constructor; eauto. Qed.
Lemma all_firstn : forall (l : list Z), firstn (Z.to_nat (size l)) l = l.
Proof. intros l. unfold size. rewrite Nat2Z.id. apply firstn_all. Qed.
Lemma extremes_by_name : forall P t l, List.In t ordered -> Forall (of_type t) l -> l <> [] ->
  (exists r, result (rust_call P (instance_name "MAX" [t]) (map VZ l)) = Int r /\ List.In r l /\
     forall y, List.In y l -> y <= r) /\
  (exists r, result (rust_call P (instance_name "MIN" [t]) (map VZ l)) = Int r /\ List.In r l /\
     forall y, List.In y l -> r <= y).
Proof.
  intros P t l T A N.
  assert (S : 0 < size l <= Z.of_nat (length l)).
  { unfold size. destruct l; [congruence|cbn [length]; lia]. }
  rewrite (max_code P t _ T (all_typed t l A)), (min_code P t _ T (all_typed t l A)).
  destruct (max_lemma l (size l) S) as (r & R & M). destruct (min_lemma l (size l) S) as (q & Q & M').
  rewrite all_firstn in M, M'.
  split; [exists r|exists q]; (split; [|assumption]); unfold zs; rewrite ints_map;
    [rewrite R|rewrite Q]; reflexivity.
Qed.
Lemma limit_by_name : forall P t a x b, List.In t ordered -> of_type t a -> of_type t x -> of_type t b -> a <= b ->
  exists r, result (rust_call P (instance_name "LIMIT" [t]) [VZ a; VZ x; VZ b]) = Int r /\ a <= r <= b /\
    (a <= x <= b -> r = x) /\ (x < a -> r = a) /\ (b < x -> r = b).
Proof.
  intros P t a x b T A X B L.
  rewrite (limit_code P t [VZ a; VZ x; VZ b] T (all_typed t [a; x; b] ltac:(repeat (apply Forall_cons; [assumption|]); apply Forall_nil))).
  exists (LIMIT_ord a x b). split; [reflexivity|]. unfold LIMIT_ord.
  destruct (Z.ltb_spec x a); destruct (Z.ltb_spec b x); lia.
Qed.

(** * Byte order *)

Definition order_type (t : sty) : ity :=
  match t with
  | S_INT => i16 | S_DINT => i32 | S_UINT | S_WORD | S_WCHAR => u16 | S_UDINT | S_DWORD => u32
  | S_ULINT | S_LWORD => u64 | _ => i64
  end.
Lemma order_by_name : forall P t x, List.In t byte_ordered ->
  rust_call P (instance_name "TO_BIG_ENDIAN" [t]) [VZ x] = Ok (VZ (TO_BIG_ENDIAN (p_endian P) (order_type t) x), [VZ x]) /\
  rust_call P (instance_name "TO_LITTLE_ENDIAN" [t]) [VZ x] = Ok (VZ (TO_LITTLE_ENDIAN (p_endian P) (order_type t) x), [VZ x]) /\
  rust_call P (instance_name "FROM_BIG_ENDIAN" [t]) [VZ x] = Ok (VZ (FROM_BIG_ENDIAN (p_endian P) (order_type t) x), [VZ x]) /\
  rust_call P (instance_name "FROM_LITTLE_ENDIAN" [t]) [VZ x] = Ok (VZ (FROM_LITTLE_ENDIAN (p_endian P) (order_type t) x), [VZ x]).
Proof.
  intros P t x T. cbn in T.
  repeat (destruct T as [<-|T]; [split; [|split; [|split]]; name_of; reflexivity|]). destruct T.
Qed.
Lemma order_type_ok : forall t x, List.In t byte_ordered -> of_type t x ->
  List.In (order_type t) endian_types /\ in_ity (order_type t) x.
Proof.
  intros t x T X. cbn in T. unfold of_type in X.
  repeat (destruct T as [<-|T]; [split; [repeat (first [left; reflexivity | right])|exact X]|]). destruct T.
Qed.
Lemma byte_order_by_name : forall P t x, List.In t byte_ordered -> of_type t x ->
  (exists y, result (rust_call P (instance_name "TO_BIG_ENDIAN" [t]) [VZ x]) = Int y /\
     result (rust_call P (instance_name "FROM_LITTLE_ENDIAN" [t]) [VZ y]) = Int x) /\
  (exists y, result (rust_call P (instance_name "TO_LITTLE_ENDIAN" [t]) [VZ x]) = Int y /\
     result (rust_call P (instance_name "FROM_BIG_ENDIAN" [t]) [VZ y]) = Int x).
Proof.
  intros P t x T X. destruct (order_type_ok t x T X) as [O I].
  destruct (cross_inverse (p_endian P) _ x O I) as [C1 C2].
  destruct (order_by_name P t x T) as (E1 & E2 & _ & _).
  split; eexists; (split; [first [rewrite E1 | rewrite E2]; reflexivity|]).
  - destruct (order_by_name P t (TO_BIG_ENDIAN (p_endian P) (order_type t) x) T) as (_ & _ & _ & E).
    rewrite E, C1. reflexivity.
  - destruct (order_by_name P t (TO_LITTLE_ENDIAN (p_endian P) (order_type t) x) T) as (_ & _ & E & _).
    rewrite E, C2. reflexivity.
Qed.

(** * BCD and dates *)

Lemma bcd_by_name : forall P t x, List.In t bit_strings -> of_type t x ->
  (result (rust_call P (instance_name "IS_VALID_BCD" [t]) [VZ x]) = Int 1 /\
     exists n, 0 <= n < 10 ^ (width t / 4) /\ x = bcd_encode (Z.to_nat (width t / 4)) n) \/
  (result (rust_call P (instance_name "IS_VALID_BCD" [t]) [VZ x]) = Int 0 /\
     forall n, 0 <= n < 10 ^ (width t / 4) -> x <> bcd_encode (Z.to_nat (width t / 4)) n).
Proof.
  intros P t x T X. destruct (bit_type t x T X) as (W & I & _).
  rewrite (bcd_code P t [VZ x] T); [|repeat constructor; now exists x].
  unfold z1, pure1. rewrite <- (bcd_width (width t) x W I). cbn [obind omap result fst].
  destruct (bcd_lemma (width t) x W I) as [_ B]. destruct (IS_VALID_BCD (width t) x).
  - left. split; [reflexivity|]. now apply B.
  - right. split; [reflexivity|]. intros n N E. enough (false = true) by discriminate. apply B. now exists n.
Qed.
Definition field_type (t : sty) : ity :=
  match t with S_SINT => i8 | S_USINT => u8 | _ => year_type t end.
Lemma dates_by_name : forall P t y m d, List.In t [S_INT; S_UINT; S_DINT; S_UDINT] ->
  of_type t y -> of_type t m -> of_type t d ->
  (valid_date (y, m, d) -> exists n, day_number (y, m, d) n /\
     result (rust_call P (instance_name "CONCAT_DATE" [t]) [VZ y; VZ m; VZ d]) =
     if of_typeb S_DATE (n * DAY) then Int (n * DAY) else Panic) /\
  (~ valid_date (y, m, d) ->
     result (rust_call P (instance_name "CONCAT_DATE" [t]) [VZ y; VZ m; VZ d]) = Panic).
Proof.
  intros P t y m d T Y M D.
  assert (W : List.In t wide_ints).
  { cbn in T. repeat (destruct T as [<-|T]; [repeat (first [left; reflexivity | right])|]). destruct T. }
  assert (R : narrow (field_type t) /\ in_ity (field_type t) y /\ in_ity (field_type t) m /\ in_ity (field_type t) d).
  { cbn in T. unfold of_type in *. repeat (destruct T as [<-|T]; [split; [|split; [exact Y|split; [exact M|exact D]]]|]);
      [..|destruct T]; unfold narrow; cbn; tauto. }
  destruct R as (N & Y' & M' & D').
  rewrite (concat_date_code P t [VZ y; VZ m; VZ d] W (all_typed t [y; m; d] ltac:(repeat (apply Forall_cons; [assumption|]); apply Forall_nil))).
  unfold z3. split; intros V.
  - destruct (CONCAT_DATE_valid (p_chrono P) _ y m d N Y' M' D' V) as (n & E & C). exists n. split; [exact E|].
    rewrite C. change (of_typeb S_DATE (n * DAY)) with (in_ityb i64 (n * DAY)).
    destruct (in_ityb i64 (n * DAY)); reflexivity.
  - rewrite (CONCAT_DATE_invalid (p_chrono P) _ y m d N Y' M' D' V). reflexivity.
Qed.
