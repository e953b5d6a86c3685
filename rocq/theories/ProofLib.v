(** Proofs about calls of the library functions by name. *)
From Coq Require Import String Ascii ZArith Lia List Bool SpecFloat.
From Verif Require Import Base ModelFloat ModelTimeNum ModelArith ModelScalar ModelChrono ModelDate
  ModelText ModelString ModelExtra ModelST ModelWrap ModelLink ModelLib SpecScalar SpecDate SpecLink SpecLib
  ProofBase ProofScalar ProofDate ProofDate2 ProofTimeNum ProofLink.
Import ListNotations.
Open Scope list_scope.
Open Scope string_scope.
Open Scope Z_scope.

(** Evaluates the look-up of a concrete name. *)
Ltac name_of := cbv [rust_call find_code find library String.eqb Ascii.eqb Bool.eqb fst snd option_map
  instance_name fold_left ty_name append].

Definition all_of (t : sty) (l : list value) : Prop := Forall (fun v => exists z, v = VZ z /\ of_type t z) l.

Lemma checked_i64 : forall z, -9223372036854775808 <= z <= 9223372036854775807 -> checked i64 z = Some z.
Proof.
  intros z H. destruct (checked_spec i64 z) as [[_ E]|[N _]]; [exact E|].
  exfalso. apply N. unfold in_ity. cbn. lia.
Qed.

(** The same code for every type. *)
Definition same_code (f : string) (n : nat) (types : list sty) (c : code) : Prop :=
  forall P t args, List.In t types -> all_of t (skipn n args) ->
    rust_call P (instance_name f [t]) args = c P args.

Ltac each_type H := repeat (destruct H as [<-|H]; [name_of|]); [..|destruct H].

Lemma time_code : forall f g h, List.In (f, g, h)
    [("MUL__TIME", MUL_TIME_SIGNED, MUL_TIME_UNSIGNED); ("MUL_TIME", MUL_TIME_SIGNED, MUL_TIME_UNSIGNED);
     ("MUL_LTIME", MUL_TIME_SIGNED, MUL_TIME_UNSIGNED); ("DIV__TIME", DIV_TIME_SIGNED, DIV_TIME_UNSIGNED);
     ("DIV_TIME", DIV_TIME_SIGNED, DIV_TIME_UNSIGNED); ("DIV_LTIME", DIV_TIME_SIGNED, DIV_TIME_UNSIGNED)] ->
  same_code f 1 integers (z2 (fun _ => h)).
Proof.
  intros f g h I P t args T A.
  assert (S : forall a z, -9223372036854775808 <= z <= 9223372036854775807 ->
    MUL_TIME_SIGNED a z = MUL_TIME_UNSIGNED a z /\ DIV_TIME_SIGNED a z = DIV_TIME_UNSIGNED a z).
  { intros a z B. unfold MUL_TIME_UNSIGNED, DIV_TIME_UNSIGNED. rewrite checked_i64 by exact B. split; reflexivity. }
  destruct args as [|[a|x1|m1] [|[b|x2|m2] [|y r]]];
    repeat (destruct I as [I|I]; [injection I as <- <- <-; unfold integers in T; each_type T; try reflexivity|]);
    try (destruct I);
    inversion A as [|? ? (z & E & B) _]; injection E as ->; unfold of_type in B; cbn in B;
    unfold z2; destruct (S a z) as [S1 S2]; (lia || rewrite ?S1, ?S2; reflexivity).
Qed.

Lemma bcd_width : forall w x, List.In w bit_widths -> in_width w x -> IS_VALID_BCD w x = IS_VALID_BCD 64 x.
Proof.
  intros w x W X.
  assert (B : 0 < w <= 64 /\ (w / 4) * 4 = w).
  { cbn in W. repeat (destruct W as [<-|W]; [split; [lia|reflexivity]|]). destruct W. }
  assert (X64 : in_width 64 x).
  { unfold in_width in *. split; [lia|]. apply Z.lt_le_trans with (2 ^ w); [lia|]. apply Z.pow_le_mono_r; lia. }
  destruct (bcd_lemma w x W X) as [E _].
  assert (W64 : List.In 64 bit_widths) by (repeat (first [left; reflexivity | right])).
  destruct (bcd_lemma 64 x W64 X64) as [F _].
  apply eq_iff_eq_true. rewrite E, F. change (64 / 4) with 16. split; intros H j J; [|apply H; dlia].
  destruct (Z_lt_ge_dec j (w / 4)) as [L|L]; [apply H; lia|].
  unfold nibble. rewrite Z.div_small; [discriminate|]. split; [unfold in_width in X; lia|].
  destruct X as [_ X]. apply Z.lt_le_trans with (2 ^ w); [exact X|].
  replace 16 with (2 ^ 4) by reflexivity. rewrite <- Z.pow_mul_r by lia. apply Z.pow_le_mono_r; lia.
Qed.

Lemma bcd_code : same_code "IS_VALID_BCD" 0 bit_strings (z1 (pure1 (fun x => Z.b2z (IS_VALID_BCD 64 x)))).
Proof.
  intros P t args T A. unfold bit_strings in T.
  destruct args as [|[a|x1|m1] [|y r]]; each_type T; try reflexivity;
    inversion A as [|? ? (z & E & B) _]; injection E as ->; unfold of_type in B; cbn in B;
    unfold z1, pure1; (rewrite bcd_width; [reflexivity| |unfold in_width; cbn; lia]);
    repeat (first [left; reflexivity | right]).
Qed.

Ltac by_name := intros P t args T _; each_type T; reflexivity.
Lemma max_code : same_code "MAX" 0 ordered (zs MAX_ord). Proof. by_name. Qed.
Lemma min_code : same_code "MIN" 0 ordered (zs MIN_ord). Proof. by_name. Qed.
Lemma limit_code : same_code "LIMIT" 0 ordered (z3 (fun _ a b c => Ok (LIMIT_ord a b c))). Proof. by_name. Qed.
Lemma concat_date_code : same_code "CONCAT_DATE" 0 wide_ints (z3 (fun P => CONCAT_DATE (p_chrono P))).
Proof. by_name. Qed.
Lemma concat_tod_code : same_code "CONCAT_TOD" 0 integers (z4 (fun P => CONCAT_TOD (p_chrono P))).
Proof. by_name. Qed.

Lemma overloads : forall f n types, List.In (f, n, types) overloaded -> exists c, same_code f n types c.
Proof.
  intros f n types I. unfold overloaded, products, quotients in I. cbn [map app] in I.
  do 6 (destruct I as [I|I]; [injection I as <- <- <-; eexists; 
    eapply time_code; repeat (first [left; reflexivity | right])|]).
  destruct I as [I|I]; [injection I as <- <- <-; eexists; exact max_code|].
  destruct I as [I|I]; [injection I as <- <- <-; eexists; exact min_code|].
  destruct I as [I|I]; [injection I as <- <- <-; eexists; exact limit_code|].
  destruct I as [I|I]; [injection I as <- <- <-; eexists; exact concat_date_code|].
  destruct I as [I|I]; [injection I as <- <- <-; eexists; exact concat_tod_code|].
  destruct I as [I|I]; [injection I as <- <- <-; eexists; exact bcd_code|].
  destruct I.
Qed.

Lemma overloads_agree : forall P f n types t u args, List.In (f, n, types) overloaded ->
  List.In t types -> List.In u types ->
  Forall (fun v => exists z, v = VZ z /\ of_type t z /\ of_type u z) (skipn n args) ->
  rust_call P (instance_name f [t]) args = rust_call P (instance_name f [u]) args.
Proof.
  intros P f n types t u args I T U A. destruct (overloads f n types I) as [c C].
  rewrite (C P t args T), (C P u args U); [reflexivity| |];
    (eapply Forall_impl; [|exact A]); intros v (z & E & B1 & B2); exists z; split; assumption.
Qed.

Lemma all_names_agree : forall P t args, List.In t numbers ->
  (forall f g, List.In f products -> List.In g products ->
     rust_call P (instance_name f [t]) args = rust_call P (instance_name g [t]) args) /\
  (forall f g, List.In f quotients -> List.In g quotients ->
     rust_call P (instance_name f [t]) args = rust_call P (instance_name g [t]) args).
Proof.
  intros P t args T. unfold numbers, integers in T. cbn [app] in T.
  repeat (destruct T as [<-|T];
    [split; intros f g F G; cbn in F, G;
     repeat (destruct F as [<-|F]; [repeat (destruct G as [<-|G]; [name_of; reflexivity|]); destruct G|]);
     destruct F|]).
  destruct T.
Qed.

(** * SPLIT *)

Ltac some_length H := cbn in H;
  match type of H with
  | S _ = S _ => injection H as H; some_length H
  | O = S _ => discriminate H
  | S _ = O => discriminate H
  | O = O => clear H
  | length ?l = _ => destruct l; some_length H
  end.

Definition year_type (t : sty) : ity :=
  match t with S_INT => i16 | S_UINT => u16 | S_DINT => i32 | S_UDINT => u32 | S_LINT => i64 | _ => u64 end.
Lemma year_type_ok : forall t, List.In t wide_ints -> List.In (year_type t) date_types.
Proof.
  intros t T. cbn in T. repeat (destruct T as [<-|T]; [repeat (first [left; reflexivity | right])|]). destruct T.
Qed.
Lemma split_name : forall P t args, List.In t wide_ints ->
  rust_call P (instance_name "SPLIT_DATE" [t]) args = split_date (year_type t) P args /\
  rust_call P (instance_name "SPLIT_TOD" [t]) args = split_tod (year_type t) P args /\
  rust_call P (instance_name "SPLIT_DT" [t]) args = split_dt (year_type t) P args.
Proof.
  intros P t args T. cbn in T.
  repeat (destruct T as [<-|T]; [split; [|split]; name_of; reflexivity|]). destruct T.
Qed.

Lemma split_same : forall a t u, in_ity i64 a -> List.In t date_types -> List.In u date_types ->
  SPLIT_DATE t a = SPLIT_DATE u a /\ SPLIT_TOD t a = SPLIT_TOD u a /\ SPLIT_DT t a = SPLIT_DT u a.
Proof.
  assert (S : forall a t, in_ity i64 a -> List.In t date_types ->
    SPLIT_DATE t a = SPLIT_DATE i64 a /\ SPLIT_TOD t a = SPLIT_TOD i64 a /\ SPLIT_DT t a = SPLIT_DT i64 a).
  { intros a t A T. destruct (date_type_fields t T) as [C W].
    assert (T64 : List.In i64 date_types) by (repeat (first [left; reflexivity | right])).
    destruct (date_type_fields i64 T64) as [C' W'].
    destruct (of_ts_spec a) as (V & D & S & F).
    destruct (nd_of_ymd _ V) as [N Vy].
    pose proof (year_range _ V) as Y. rewrite D in Y. specialize (Y (day_of_i64 a A)).
    assert (B : SPLIT_TOD t a = SPLIT_TOD i64 a).
    { unfold SPLIT_TOD, hour, minute, second, subsec_millis. rewrite S, F.
      assert (B : 0 <= a / SECOND mod 86400 < 86400) by dlia.
      assert (B2 : 0 <= a mod SECOND < SECOND) by (unfold SECOND; dlia).
      set (s := a / SECOND mod 86400) in *. set (f := a mod SECOND) in *. clearbody s f. unfold SECOND in B2.
      rewrite !W by dlia. rewrite !W' by dlia. reflexivity. }
    unfold SPLIT_DATE, SPLIT_DT.
    destruct (ymd (dt_date (of_timestamp_nanos a))) as [[y m] d] eqn:E.
    assert (y = nd_year (dt_date (of_timestamp_nanos a))) by (rewrite <- N; reflexivity). subst y.
    destruct (month_day_small _ _ _ Vy) as [M Dd].
    rewrite C, C' by exact Y. cbn [unwrap obind]. rewrite !(W m), !(W d), !(W' m), !(W' d) by assumption.
    split; [reflexivity|]. split; [exact B|]. unfold SPLIT_TOD in B. injection B as -> -> -> ->. reflexivity. }
  intros a t u A T U. destruct (S a t A T) as (-> & -> & ->). destruct (S a u A U) as (-> & -> & ->).
  repeat split.
Qed.

Lemma splits_agree : forall P f n a, List.In (f, n) splits -> of_type S_DT a ->
  exists parts, length parts = n /\
    forall t outs, List.In t wide_ints -> length outs = n ->
      rust_call P (instance_name f [t]) (VZ a :: outs) = Ok (VZ 0, VZ a :: map VZ parts).
Proof.
  intros P f n a I A.
  assert (Ai : in_ity i64 a) by (unfold of_type in A; cbn in A; unfold in_ity; cbn; lia).
  assert (T64 : List.In i64 date_types) by (repeat (first [left; reflexivity | right])).
  destruct (split_date_lemma i64 a T64 Ai) as (y & m & d & E1 & _).
  destruct (split_tod_lemma i64 a T64) as (h & mi & s & ms & E2 & _).
  destruct (split_dt_lemma i64 a T64 Ai) as (y' & m' & d' & h' & mi' & s' & ms' & E3 & _).
  destruct I as [I|[I|[I|[]]]]; injection I as <- <-.
  - exists [y; m; d]. split; [reflexivity|]. intros t outs T L.
    destruct (split_name P t (VZ a :: outs) T) as (-> & _ & _). some_length L.
    unfold split_date. destruct (split_same a _ _ Ai (year_type_ok t T) T64) as (-> & _ & _). rewrite E1. reflexivity.
  - exists [h; mi; s; ms]. split; [reflexivity|]. intros t outs T L.
    destruct (split_name P t (VZ a :: outs) T) as (_ & -> & _). some_length L.
    unfold split_tod. destruct (split_same a _ _ Ai (year_type_ok t T) T64) as (_ & -> & _). rewrite E2. reflexivity.
  - exists [y'; m'; d'; h'; mi'; s'; ms']. split; [reflexivity|]. intros t outs T L.
    destruct (split_name P t (VZ a :: outs) T) as (_ & _ & ->). some_length L.
    unfold split_dt. destruct (split_same a _ _ Ai (year_type_ok t T) T64) as (_ & _ & ->). rewrite E3. reflexivity.
Qed.
