(** Proofs about calls of text conversions by name. *)
From Coq Require Import String Ascii ZArith Lia List Bool Reals Lra SpecFloat.
From Verif Require Import Base ModelFloat ModelTimeNum ModelArith ModelScalar ModelChrono ModelDate
  ModelText ModelString ModelExtra ModelST ModelWrap ModelLink ModelLib SpecScalar SpecDate SpecReal SpecText SpecExtra SpecLink SpecLib SpecName
  ProofBase ProofText ProofString ProofReal ProofReal2 ProofExtra ProofExtra2 ProofExtra3 ProofExtra4 ProofExtra6 ProofLib ProofName PropertiesExtra.
Import ListNotations.
Open Scope list_scope.
Open Scope string_scope.
Open Scope Z_scope.

Lemma written_buf : forall t dest, (81 <= length dest)%nat -> (length t <= 81)%nat ->
  write_buf t dest = Ok (overwritten t dest).
Proof. exact write_buf_ok. Qed.

Lemma int_text_name : forall P X t x dest, List.In (X, t) [("BYTE", S_BYTE); ("LWORD", S_LWORD); ("LINT", S_LINT)] ->
  of_type t x -> (81 <= length dest)%nat ->
  exists s, canonical_int s x /\
    rust_call P (X ++ "_TO_STRING_EXT") [VZ x; VS dest] = Ok (VZ 0, [VZ x; VS (overwritten s dest)]).
Proof.
  intros P X t x dest I T L.
  destruct I as [I|[I|[I|[]]]]; injection I as <- <-; name_of.
  - destruct (int_ext u8 BYTE_TO_STRING_EXT x dest) as (s & C & E & _); [unfold integer_to_string_ext; tauto|exact T|exact L|].
    exists s. split; [exact C|]. cbv [zS]. rewrite E. reflexivity.
  - destruct (int_ext u64 LWORD_TO_STRING_EXT x dest) as (s & C & E & _); [unfold integer_to_string_ext; tauto|exact T|exact L|].
    exists s. split; [exact C|]. cbv [zS]. rewrite E. reflexivity.
  - destruct (int_ext i64 LINT_TO_STRING_EXT x dest) as (s & C & E & _); [unfold integer_to_string_ext; tauto|exact T|exact L|].
    exists s. split; [exact C|]. cbv [zS]. rewrite E. reflexivity.
Qed.

Lemma dates_name : forall P n dest, of_type S_DT n -> (81 <= length dest)%nat ->
  exists ds cs y m dd h mi sec ns,
    date_text ds y m dd /\ day_number (y, m, dd) (n / DAY) /\ clock_text cs h mi sec ns /\
    0 <= h < 24 /\ 0 <= mi < 60 /\ 0 <= sec < 60 /\ 0 <= ns < SECOND /\
    h * HOUR + mi * MINUTE + sec * SECOND + ns = n mod DAY /\
    rust_call P "DATE_TO_STRING_EXT" [VZ n; VS dest] = Ok (VZ 0, [VZ n; VS (overwritten ds dest)]) /\
    rust_call P "TOD_TO_STRING_EXT" [VZ n; VS dest] = Ok (VZ 0, [VZ n; VS (overwritten cs dest)]) /\
    rust_call P "DT_TO_STRING_EXT" [VZ n; VS dest] = Ok (VZ 0, [VZ n; VS (overwritten (ds ++ str "-" ++ cs)%list dest)]).
Proof.
  intros P n dest I DL. destruct (date_string n I) as (y & m & dd & T & D). destruct (date_text_len _ _ _ _ T) as [L N].
  destruct (clock_string n) as (h & mi & sec & ns & T' & B1 & B2 & B3 & B4 & B5). destruct (clock_text_len _ _ _ _ _ T') as [L' N'].
  do 9 eexists. split; [exact T|]. split; [exact D|]. split; [exact T'|].
  split; [exact B1|]. split; [exact B2|]. split; [exact B3|]. split; [exact B4|]. split; [exact B5|].
  split; [|split]; name_of; cbv [zS].
  - unfold DATE_TO_STRING_EXT. rewrite written_buf by (rewrite ?L; lia). reflexivity.
  - unfold TOD_TO_STRING_EXT. rewrite written_buf by lia. reflexivity.
  - unfold DT_TO_STRING_EXT. rewrite written_buf; [reflexivity|exact DL|].
    rewrite !app_length, L. change (length (str "-")) with 1%nat. lia.
Qed.

Lemma time_name : forall P t, 0 <= t -> of_type S_TIME t -> exists s rest,
  rust_call P "TIME_TO_STRING_EXT" [VZ t; VS (repeat 0 2049)] = Ok (VZ 0, [VZ t; VS (s ++ 0 :: rest)%list]) /\ time_text s t.
Proof.
  intros P t T I. destruct (time_text_nonneg t T I) as (d & s & E & R & X). destruct R as [N [rest ->]].
  exists s, rest. split; [|exact X]. name_of. cbv [zS]. unfold TIME_TO_STRING, st_string, zeros in E. rewrite E. reflexivity.
Qed.

Lemma string_to_int_name : forall P X t src s, List.In (X, t) [("LINT", S_LINT); ("DINT", S_DINT)] -> reads src s ->
  (forall z, int_text s z -> of_type t z -> rust_call P ("STRING_TO_" ++ X) [VS src] = Ok (VZ z, [VS src])) /\
  ((forall z, int_text s z -> ~ of_type t z) -> rust_call P ("STRING_TO_" ++ X) [VS src] = Panic).
Proof.
  intros P X t src s I R.
  destruct I as [I|[I|[]]]; injection I as <- <-; name_of; cbv [s_z].
  - destruct (C56_string_to_lint src s R) as [A B]. split.
    + intros z T Z. now rewrite (proj2 (A z) (conj T Z)).
    + intros Z. now rewrite (B Z).
  - destruct (C56_string_to_dint src s R) as [A B]. split.
    + intros z T Z. now rewrite (proj2 (A z) (conj T Z)).
    + intros Z. now rewrite (B Z).
Qed.

Lemma clock_name : forall P secs nanos, p_clock P = (secs, nanos) -> 0 <= secs < 86400 -> 0 <= nanos < 2000000000 ->
  rust_call P "TIME" [] = Ok (VZ (secs * 1000000000 + nanos), []).
Proof.
  intros P secs nanos C S N. name_of. cbv [clock]. rewrite C. cbn [fst snd].
  rewrite (proj1 (C63_time_of_day (p_profile P) secs nanos S N)). reflexivity.
Qed.

Lemma float_text_name : forall c x dest, c = 10 ^ 6 \/ c = 10 ^ 14 -> fl_valid F64 x -> fl_finite x = true ->
  (IZR (- 10 ^ 73) < fl_value x)%R -> (81 <= length dest)%nat ->
  exists s, float_to_string c x dest = Ok (overwritten s dest) /\
    ((fl_value x < IZR c)%R -> fixed6_text s x) /\ ((IZR c <= fl_value x)%R -> exp6_text s x).
Proof.
  intros c x dest C V F L DL. unfold float_to_string.
  assert (C1 : 1 <= c <= 10 ^ 73) by (destruct C as [-> | ->]; lia).
  destruct (floor_lt x c) eqn:B.
  - apply floor_lt_spec in B; [|exact F].
    assert (A : (Rabs (fl_value x) < IZR (10 ^ 73))%R).
    { rewrite opp_IZR in L. assert (IZR c <= IZR (10 ^ 73))%R by (apply IZR_le; lia). apply Rabs_def1; lra. }
    apply (micro_int x _ V F) in A; [|reflexivity].
    assert (LEN : (length (fmt_fixed6 x) <= 81)%nat).
    { rewrite fixed6_length by exact F. destruct (number_shape _ (micro_nonneg x)) as (i & f & CA & _ & I & _). rewrite <- I in A.
      apply canonical_length with (w := 73%Z) in CA; [|lia|exact A|lia]. destruct (fl_negative x); lia. }
    exists (fmt_fixed6 x). split; [now apply written_buf|]. split; [intros _; now apply fixed6_ok|]. intros. lra.
  - assert (G : (IZR c <= fl_value x)%R).
    { apply Rnot_lt_le. intros K. apply floor_lt_spec in K; [congruence|exact F]. }
    destruct x as [[s|s| |s m e]|s p]; try discriminate; try (destruct C as [-> | ->]; discriminate B).
    destruct (big_frac s m e c (proj1 C1) G) as [-> K]. destruct (exp6_ok m e V K) as (T & LEN & NZ).
    exists (fmt_exp6 (FNum (S754_finite false m e))). split; [apply written_buf; [exact DL|eapply Nat.le_trans; [exact LEN|lia]]|].
    split; [intros; lra|]. intros _. exact T.
Qed.
Lemma float_abort_name : forall c x dest, c = 10 ^ 6 \/ c = 10 ^ 14 -> fl_valid F64 x -> fl_finite x = true ->
  (fl_value x <= IZR (- 10 ^ 73))%R -> (81 <= length dest)%nat -> float_to_string c x dest = Panic.
Proof.
  intros c x dest C V F L DL. rewrite <- (lreal_abort x V F L dest DL). unfold LREAL_TO_STRING_EXT, float_to_string.
  assert (N0 : (IZR (- 10 ^ 73) < 0)%R) by (apply IZR_lt; reflexivity).
  assert (B : forall d, 0 < d -> floor_lt x d = true).
  { intros d D. apply floor_lt_spec; [exact F|]. assert (0 < IZR d)%R by (apply IZR_lt; exact D). lra. }
  rewrite !B; [reflexivity|lia|]. destruct C as [-> | ->]; lia.
Qed.
Lemma reals_name : forall P X c x dest, List.In (X, c) [("REAL", 10 ^ 6); ("LREAL", 10 ^ 14)] ->
  fl_valid F64 x -> fl_finite x = true -> (81 <= length dest)%nat ->
  ((IZR (- 10 ^ 73) < fl_value x)%R -> exists s,
     rust_call P (X ++ "_TO_STRING_EXT") [VF x; VS dest] = Ok (VZ 0, [VF x; VS (overwritten s dest)]) /\
     ((fl_value x < IZR c)%R -> fixed6_text s x) /\ ((IZR c <= fl_value x)%R -> exp6_text s x)) /\
  ((fl_value x <= IZR (- 10 ^ 73))%R -> rust_call P (X ++ "_TO_STRING_EXT") [VF x; VS dest] = Panic).
Proof.
  intros P X c x dest I V F DL.
  assert (C : c = 10 ^ 6 \/ c = 10 ^ 14).
  { destruct I as [I|[I|[]]]; injection I as _ <-; [now left|now right]. }
  split; intros L.
  - destruct (float_text_name c x dest C V F L DL) as (s & E & T). exists s. split; [|exact T].
    destruct I as [I|[I|[]]]; apply pair_equal_spec in I; destruct I as [<- <-]; name_of; cbv [fS]; unfold REAL_TO_STRING_EXT, LREAL_TO_STRING_EXT;
      rewrite E; reflexivity.
  - pose proof (float_abort_name c x dest C V F L DL) as E.
    destruct I as [I|[I|[]]]; apply pair_equal_spec in I; destruct I as [<- <-]; name_of; cbv [fS]; unfold REAL_TO_STRING_EXT, LREAL_TO_STRING_EXT;
      rewrite E; reflexivity.
Qed.
Lemma special_name : forall P X x dest, List.In X ["REAL"; "LREAL"] -> fl_valid F64 x -> fl_finite x = false ->
  (81 <= length dest)%nat ->
  rust_call P (X ++ "_TO_STRING_EXT") [VF x; VS dest] = Ok (VZ 0, [VF x; VS (overwritten
    (match x with FNum (S754_infinity false) => str "inf" | FNum (S754_infinity true) => str "-inf" | _ => str "NaN" end) dest)]).
Proof.
  intros P X x dest I V F DL.
  assert (E : forall c, float_to_string c x dest = Ok (overwritten
    (match x with FNum (S754_infinity false) => str "inf" | FNum (S754_infinity true) => str "-inf" | _ => str "NaN" end) dest)).
  { intros c. unfold float_to_string. destruct x as [[s|[]| |s m e]|s p]; try discriminate; try contradiction;
      apply written_buf; try exact DL; cbn; lia. }
  destruct I as [<-|[<-|[]]]; name_of; cbv [fS]; unfold REAL_TO_STRING_EXT, LREAL_TO_STRING_EXT; rewrite E; reflexivity.
Qed.

Lemma string_to_float_name : forall P X f src s, List.In (X, f) [("LREAL", F64); ("REAL", F32)] -> reads src s ->
  (forall neg m e, number_text s neg m e -> exists x,
     rust_call P ("STRING_TO_" ++ X) [VS src] = Ok (VF x, [VS src]) /\ rounded f x neg (number_value neg m e)) /\
  (forall neg nan, special_text s neg nan -> exists x,
     rust_call P ("STRING_TO_" ++ X) [VS src] = Ok (VF x, [VS src]) /\ fl_negative x = neg /\
     (if nan then is_nan x = true else x = FNum (S754_infinity neg))) /\
  ((forall neg m e, ~ number_text s neg m e) -> (forall neg nan, ~ special_text s neg nan) ->
     rust_call P ("STRING_TO_" ++ X) [VS src] = Panic).
Proof.
  intros P X f src s I R.
  destruct I as [I|[I|[]]]; injection I as <- <-; name_of; cbv [s_f].
  - destruct (C78_string_to_lreal src s R) as (A & B & C). split; [|split].
    + intros neg m e T. destruct (A neg m e T) as (x & E & H). exists x. rewrite E. now split.
    + intros neg nan T. destruct (B neg nan T) as (x & E & H). exists x. rewrite E. now split.
    + intros T T'. now rewrite (C T T').
  - destruct (C78_string_to_real src s R) as (A & B & C). split; [|split].
    + intros neg m e T. destruct (A neg m e T) as (x & E & H). exists x. rewrite E. now split.
    + intros neg nan T. destruct (B neg nan T) as (x & E & H). exists x. rewrite E. now split.
    + intros T T'. now rewrite (C T T').
Qed.
