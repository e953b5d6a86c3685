(** Proofs about programs that mix numbers, dates, texts and function blocks: the functions between texts and values. *)
From Coq Require Import String Ascii ZArith Lia List Bool SpecFloat Reals.
From Verif Require Import Base ModelFloat ModelText ModelString ModelExtra ModelST ModelWrap ModelLink ModelLib ModelApi SpecScalar SpecReal SpecText SpecExtra SpecDate SpecLib SpecWrap SpecCall SpecExpr SpecConv SpecTerm SpecType
  SpecSafe SpecApi SpecSize SpecWhole SpecTimeNum
  ProofBase ProofText ProofString ProofString2 ProofExtra ProofExtra2 ProofExtra4 ProofExtra5 ProofExtra6 ProofWrap ProofCall ProofCall3 ProofCall4 ProofCall5 ProofTerm ProofTerm2 ProofTerm3 ProofSafe ProofType ProofSize.
Import ListNotations.
Open Scope string_scope.
Open Scope list_scope.
Open Scope Z_scope.
Local Notation size := SpecWrap.size.
Local Opaque ModelApi.call value_in api.

(** * Lengths of the texts of values *)
Lemma buffer_text : forall t d s, write_buf t st_string = Ok d -> reads d s -> (length s <= 81)%nat.
Proof.
  intros t d s W [N (rest & ->)]. unfold write_buf in W. change DEFAULT_STRING_LEN with 81%nat in W.
  destruct (Nat.ltb_spec (length st_string) 81); [discriminate|]. destruct (Nat.ltb_spec 81 (length t)) as [|L]; [discriminate|]. injection W as W.
  destruct (Nat.le_gt_cases (length s) 81) as [|G]; [assumption|]. exfalso.
  assert (Z : nth (length t) (s ++ 0 :: rest) 1 = 0).
  { rewrite <- W, app_nth2, Nat.sub_diag by lia. unfold st_string. rewrite skipn_zeros. destruct (2049 - length t)%nat eqn:Q; [lia|reflexivity]. }
  rewrite app_nth1 in Z by lia. rewrite Forall_forall in N. refine (N 0 _ eq_refl). rewrite <- Z. apply nth_In. lia.
Qed.

Lemma buffer_defined : forall t, write_buf t st_string <> Ub.
Proof.
  intros t. unfold write_buf. rewrite st_string_length. change DEFAULT_STRING_LEN with 81%nat. change (2049 <? 81)%nat with false. cbv iota. destruct (Nat.ltb 81 (length t)); discriminate.
Qed.
Lemma items_nonneg : forall us s v, time_items us s v -> Forall (fun u => 0 < snd (fst u)) us -> 0 <= v.
Proof.
  intros us s v H. induction H as [|u r s v H IH|u w lim r s v n ds N B C H IH]; intros F; [lia| |]; inversion F; subst; cbn [fst snd] in *; specialize (IH ltac:(assumption)); [lia|nia].
Qed.
Lemma skip_or : forall u w lim r s v, time_items ((u, w, lim) :: r) s v ->
  time_items r s v \/ exists n ds s' v', 0 < n /\ below n lim /\ canonical ds n /\ time_items r s' v' /\ s = ds ++ u ++ s' /\ v = n * w + v'.
Proof. intros u w lim r s v H. inversion H as [|? ? ? ? T|? ? ? ? s' v' n ds N B C T]; subst; [now left|]. right. exists n, ds, s', v'. split; [exact N|]. split; [exact B|]. split; [exact C|]. split; [exact T|]. now split. Qed.
Lemma time_length : forall s v, time_text s v -> v < 2 ^ 32 * DAY -> (length s <= 35)%nat.
Proof.
  intros s v T B. unfold time_text, time_units in T.
  assert (K : forall u w lim k r s v, time_items ((u, w, Some lim) :: r) s v -> (length u <= k)%nat -> 0 < lim <= 1000 -> (0 < k)%nat ->
    exists s' v', time_items r s' v' /\ (length s <= 3 + k + length s')%nat /\ (lim <= 100 -> (length s <= 2 + k + length s')%nat)).
  { clear. intros u w lim k r s v T U L K0. apply skip_or in T. destruct T as [T|(n & ds & s' & v' & N & B & C & T & -> & ->)]; [exists s, v; split; [exact T|lia]|].
    exists s', v'. split; [exact T|]. cbn [below] in B. rewrite !app_length. pose proof (canonical_length ds n 3 C ltac:(lia) ltac:(lia) ltac:(lia)). split; [lia|].
    intros L2. pose proof (canonical_length ds n 2 C ltac:(lia) ltac:(lia) ltac:(lia)). lia. }
  assert (R : forall s v, time_items (tl time_units) s v -> (length s <= 24)%nat).
  { clear s v T B. intros s v T. unfold time_units in T. cbn [tl] in T.
    destruct (K _ _ _ 1%nat _ _ _ T ltac:(cbn; lia) ltac:(lia) ltac:(lia)) as (s1 & v1 & T1 & _ & L1). specialize (L1 ltac:(lia)).
    destruct (K _ _ _ 1%nat _ _ _ T1 ltac:(cbn; lia) ltac:(lia) ltac:(lia)) as (s2 & v2 & T2 & _ & L2). specialize (L2 ltac:(lia)).
    destruct (K _ _ _ 1%nat _ _ _ T2 ltac:(cbn; lia) ltac:(lia) ltac:(lia)) as (s3 & v3 & T3 & _ & L3). specialize (L3 ltac:(lia)).
    destruct (K _ _ _ 2%nat _ _ _ T3 ltac:(cbn; lia) ltac:(lia) ltac:(lia)) as (s4 & v4 & T4 & L4 & _).
    destruct (K _ _ _ 2%nat _ _ _ T4 ltac:(cbn; lia) ltac:(lia) ltac:(lia)) as (s5 & v5 & T5 & L5 & _).
    destruct (K _ _ _ 2%nat _ _ _ T5 ltac:(cbn; lia) ltac:(lia) ltac:(lia)) as (s6 & v6 & T6 & L6 & _).
    inversion T6; subst. cbn [length] in *. lia. }
  apply skip_or in T. destruct T as [T|(n & ds & s' & v' & N & _ & C & T & -> & ->)]; [pose proof (R s v T); lia|].
  pose proof (R s' v' T). pose proof (items_nonneg _ _ _ T ltac:(repeat constructor)) as V.
  assert (n < 10 ^ 10) by (assert (n < 2 ^ 32) by (apply (Z.mul_lt_mono_pos_r DAY); [reflexivity|lia]); lia). pose proof (canonical_length ds n 10 C ltac:(lia) ltac:(lia) ltac:(lia)). rewrite !app_length. cbn [length str] in *.
  change (length (str "d")) with 1%nat. lia.
Qed.
Lemma date_length : forall s y m d, date_text s y m d -> length s = 10%nat.
Proof.
  intros s y m d (ys & ms & ds & -> & [A _] & [B _] & [C _]). rewrite !app_length, A, B, C. reflexivity.
Qed.
Lemma clock_length : forall s h m c n, clock_text s h m c n -> (length s <= 18)%nat.
Proof.
  intros s h m c n (hs & ms & ss & fs & -> & [A _] & [B _] & [C _] & F). rewrite !app_length, A, B, C. change (length (str ":")) with 1%nat.
  destruct F as [[-> _]|(w & ds & k & W & -> & [D _] & _)]; [cbn; lia|]. rewrite app_length, D. change (length (str ".")) with 1%nat. destruct W as [<-|[<-|[<-|[]]]]; lia.
Qed.

(** * Writing values *)
(** A value written as a text of at most [n] units. *)
Lemma written_most : forall P t n v k, List.In (t, n) written_types -> SpecApi.holds t v ->
  at_most k n (call P (to_text t k) [(t, v)]) /\ (call P (to_text t k) [(t, v)] = Panic -> List.In (to_text t k) text_aborts).
Proof.
  intros P t n v k I H.
  assert (G : forall s, ascii s -> (length s <= n)%nat -> prints k s (call P (to_text t k) [(t, v)]) ->
    at_most k n (call P (to_text t k) [(t, v)]) /\ (call P (to_text t k) [(t, v)] = Panic -> List.In (to_text t k) text_aborts)).
  { intros s A L Q. apply (prints_gives k s _ A) in Q. split.
    - left. exists s. split; [exact Q|]. rewrite (ascii_size k s A). exact L.
    - destruct Q as (d & -> & _). discriminate. }
  assert (INT : forall i w, List.In (t, i, w) [(S_BYTE, u8, 3%nat); (S_DWORD, u32, 10%nat); (S_LWORD, u64, 20%nat); (S_DINT, i32, 11%nat); (S_LINT, i64, 20%nat)] -> n = w ->
    at_most k n (call P (to_text t k) [(t, v)]) /\ (call P (to_text t k) [(t, v)] = Panic -> List.In (to_text t k) text_aborts)).
  { intros i w J ->.
    assert (exists z, v = VZ z /\ in_ity i z) as (z & -> & Z).
    { cbn [List.In] in J. repeat (destruct J as [J|J]; [injection J as <- <- <-; destruct v as [z|x|m]; try contradiction H; exists z; split; [reflexivity|exact H]|]). destruct J. }
    destruct (integers_print P (type_name t) t i z) as (s & C & A1 & A2).
    { cbn [List.In] in J. repeat (destruct J as [J|J]; [injection J as <- <- <-; cbn; tauto|]). destruct J. }
    { exact Z. }
    apply (G s (ascii_canonical_int s z C)); [|destruct k; [exact A1|exact A2]].
    unfold in_ity in Z. cbn [List.In] in J.
    destruct J as [J|[J|[J|[J|[J|[]]]]]]; injection J as <- <- <-; vm_compute imin in Z; vm_compute imax in Z.
    1-3: destruct C as [[_ C]|[? _]]; [|lia].
    - pose proof (canonical_length s z 3 C ltac:(lia) ltac:(lia) ltac:(lia)). lia.
    - pose proof (canonical_length s z 10 C ltac:(lia) ltac:(lia) ltac:(lia)). lia.
    - pose proof (canonical_length s z 20 C ltac:(lia) ltac:(lia) ltac:(lia)). lia.
    - pose proof (canonical_int_length s z 10 C ltac:(lia) ltac:(lia)). lia.
    - pose proof (canonical_int_length s z 19 C ltac:(lia) ltac:(lia)). lia. }
  assert (I64 : List.In t [S_TIME; S_LTIME; S_DATE; S_LDATE; S_TOD; S_LTOD; S_DT; S_LDT] -> exists z, v = VZ z /\ in_ity i64 z).
  { intros J. cbn [List.In] in J. repeat (destruct J as [<-|J]; [destruct v as [z|x|m]; try contradiction H; exists z; split; [reflexivity|exact H]|]). destruct J. }
  assert (DATE : List.In t [S_DATE; S_LDATE] -> n = 10%nat -> at_most k n (call P (to_text t k) [(t, v)]) /\ (call P (to_text t k) [(t, v)] = Panic -> List.In (to_text t k) text_aborts)).
  { intros J ->. destruct (I64 ltac:(cbn [List.In] in *; tauto)) as (z & -> & Z).
    destruct (dates_print P (type_name t) t z) as (s & y & m & d & C & _ & A1 & A2); [destruct J as [<-|[<-|[]]]; cbn; tauto|exact Z|].
    apply (G s (ascii_date s y m d C)); [rewrite (date_length s y m d C); lia|destruct k; [exact A1|exact A2]]. }
  assert (TOD : List.In t [S_TOD; S_LTOD] -> n = 18%nat -> at_most k n (call P (to_text t k) [(t, v)]) /\ (call P (to_text t k) [(t, v)] = Panic -> List.In (to_text t k) text_aborts)).
  { intros J ->. destruct (I64 ltac:(cbn [List.In] in *; tauto)) as (z & -> & Z).
    destruct (tods_print P (type_name t) t z) as (s & h & m & c & ns & C & _ & _ & _ & _ & _ & A1 & A2); [destruct J as [<-|[<-|[]]]; cbn; tauto|exact Z|].
    apply (G s (ascii_clock s h m c ns C)); [exact (clock_length s h m c ns C)|destruct k; [exact A1|exact A2]]. }
  assert (DT : List.In t [S_DT; S_LDT] -> n = 29%nat -> at_most k n (call P (to_text t k) [(t, v)]) /\ (call P (to_text t k) [(t, v)] = Panic -> List.In (to_text t k) text_aborts)).
  { intros J ->. destruct (I64 ltac:(cbn [List.In] in *; tauto)) as (z & -> & Z).
    destruct (dts_print P (type_name t) t z) as (ds & cs & y & m & d & h & mi & c & ns & C & _ & C' & _ & _ & _ & _ & _ & A1 & A2); [destruct J as [<-|[<-|[]]]; cbn; tauto|exact Z|].
    apply (G (ds ++ str "-" ++ cs)); [|rewrite !app_length, (date_length ds y m d C); pose proof (clock_length cs h mi c ns C'); change (length (str "-")) with 1%nat; lia|destruct k; [exact A1|exact A2]].
    apply ascii_app; [exact (ascii_date ds y m d C)|]. apply ascii_app; [now apply ascii_lit|exact (ascii_clock cs h mi c ns C')]. }
  assert (TIME : List.In t [S_TIME; S_LTIME] -> n = 35%nat -> at_most k n (call P (to_text t k) [(t, v)]) /\ (call P (to_text t k) [(t, v)] = Panic -> List.In (to_text t k) text_aborts)).
  { intros J ->. destruct (I64 ltac:(cbn [List.In] in *; tauto)) as (z & -> & Z).
    destruct (time_items_text z) as (d & s & E & R & C). destruct (time_pair_text TIME_TO_STRING TIME_TO_WSTRING z ltac:(left; split; reflexivity) Z) as (d' & w & s' & E' & W & R' & RW).
    assert (B : (length s <= 35)%nat).
    { refine (time_length s _ C _). pose proof (wrap_range u32 (Z.quot z DAY) eq_refl) as [_ U]. change (imax u32) with (2 ^ 32 - 1) in U.
      pose proof (Z.mod_pos_bound z DAY eq_refl). pose proof (Z.mul_le_mono_nonneg_r _ _ DAY ltac:(discriminate) U). lia. }
    apply (G s (ascii_time s _ C) B).
    assert (T : List.In (type_name t, t, TIME_TO_STRING) texts) by (destruct J as [<-|[<-|[]]]; cbn [type_name texts List.In]; tauto).
    destruct (print_both P (type_name t) t TIME_TO_STRING z s T ltac:(apply time_type; [cbn [List.In] in *; tauto|exact Z]) (ex_intro _ d (conj E R))
      (ex_intro _ d' (ex_intro _ w (ex_intro _ s' (conj E' (conj W (conj R' RW))))))) as [A1 A2].
    destruct k; [exact A1|exact A2]. }
  unfold written_types in I. cbn [List.In] in I.
  destruct I as [I|[I|[I|[I|[I|[I|[I|[I|[I|[I|[I|[I|[I|[I|[I|[]]]]]]]]]]]]]]]]; injection I as <- <-.
  1: exact (INT u8 3%nat ltac:(cbn; tauto) eq_refl).
  1: exact (INT u32 10%nat ltac:(cbn; tauto) eq_refl).
  1: exact (INT u64 20%nat ltac:(cbn; tauto) eq_refl).
  1: exact (INT i32 11%nat ltac:(cbn; tauto) eq_refl).
  1: exact (INT i64 20%nat ltac:(cbn; tauto) eq_refl).
  1-2: exact (DATE ltac:(cbn; tauto) eq_refl).
  1-2: exact (TOD ltac:(cbn; tauto) eq_refl).
  1-2: exact (DT ltac:(cbn; tauto) eq_refl).
  1-2: exact (TIME ltac:(cbn; tauto) eq_refl).
  - destruct v as [z|x|m]; try contradiction H. destruct (real_pair_text x H) as (d & w & s & E & W & R & RW).
    destruct (real_call P x) as [C1 C2]. rewrite E in C1. rewrite W in C2.
    assert (A : exists s, reads d s /\ ascii s).
    { destruct (lreal_ascii (fl_convert F64 x) d (convert_valid F64 (or_intror eq_refl) F32 x H) E) as (s' & R' & A' & _). exists s'. exact (conj R' A'). }
    destruct A as (s' & R' & A). rewrite <- (reads_fun _ _ _ R R') in A. pose proof (buffer_text _ d s E R) as L.
    destruct k; apply (G s A L); [change (to_text S_REAL STRING) with "REAL_TO_STRING"; rewrite C1; exists d; exact (conj eq_refl R)|change (to_text S_REAL WSTRING) with "REAL_TO_WSTRING"; rewrite C2; exists w; exact (conj eq_refl RW)].
  - destruct v as [z|x|m]; try contradiction H. destruct (lreal_call P x) as [C1 C2].
    destruct (LREAL_TO_STRING x) as [d| |] eqn:E.
    + destruct (proj1 (lreal_pair_text x H) d E) as (w & s & W & R & RW). destruct (lreal_ascii x d H E) as (s' & R' & A & _). rewrite <- (reads_fun _ _ _ R R') in A.
      pose proof (buffer_text _ d s E R) as L. rewrite W in C2.
      destruct k; apply (G s A L); [change (to_text S_LREAL STRING) with "LREAL_TO_STRING"; rewrite C1; exists d; exact (conj eq_refl R)|change (to_text S_LREAL WSTRING) with "LREAL_TO_WSTRING"; rewrite C2; exists w; exact (conj eq_refl RW)].
    + assert (W : LREAL_TO_WSTRING x = Panic) by (unfold LREAL_TO_WSTRING, to_wstring; now rewrite E). rewrite W in C2.
      destruct k; [change (to_text S_LREAL STRING) with "LREAL_TO_STRING"; rewrite C1|change (to_text S_LREAL WSTRING) with "LREAL_TO_WSTRING"; rewrite C2]; (split; [right; reflexivity|]); intros _; cbn; tauto.
    + exfalso. exact (buffer_defined _ E).
Qed.

(** * Reading values *)
Lemma scaled_valid : forall f neg m e, binary_format f -> (0 <= m)%Z -> fl_valid f (FNum (scaled f neg m e)).
Proof.
  intros f neg m e Hf M. destruct (scaled_rounded f Hf neg m e M) as (_ & A & B).
  destruct (Rlt_le_dec (Rabs (number_value neg m e)) (max_plus_half f)) as [H|H]; [exact (proj1 (A H))|rewrite (B H); reflexivity].
Qed.
Lemma float_read : forall f src s x, binary_format f -> reads src s -> string_to_float f src = Ok x -> fl_valid f x.
Proof.
  intros f src s x Hf R E. apply (string_to_float_spec f src s x R) in E. destruct E as [(neg & m & e & T & ->)|(neg & nan & _ & ->)].
  - apply scaled_valid; [exact Hf|exact (number_nonneg _ _ _ _ T)].
  - destruct nan; [|reflexivity]. destruct Hf as [-> | ->]; reflexivity.
Qed.
(** The result of a call is a value of type [t], or the call aborts. *)
Definition a_value (t : sty) (o : outcome (sty * value)) : Prop := (exists v, o = Ok (t, v) /\ SpecApi.holds t v) \/ o = Panic.
Lemma int_in : forall i src s z, imin i <= 0 <= imax i -> reads src s -> string_to_int i src = Ok z -> in_ity i z.
Proof. intros i src s z I R E. exact (proj2 (proj1 (string_to_int_spec i src s I R z) E)). Qed.
Lemma read_most : forall P t src s, List.In t read_types -> SpecText.holds STRING src s -> a_value t (call P (of_text STRING t) [(S_STRING, VS src)]).
Proof.
  intros P t src s T H. apply ProofString2.holds_reads in H. destruct (parse_int_call P src) as (A & B & _). destruct (parse_float_call P src) as (C & D & _).
  destruct T as [<-|[<-|[<-|[<-|[]]]]].
  - change (of_text STRING S_LINT) with "STRING_TO_LINT". rewrite A. unfold STRING_TO_LINT. destruct (string_to_int_total i64 src _ H) as [E|[z E]]; rewrite E; [right; reflexivity|].
    left. exists (VZ z). split; [reflexivity|]. exact (int_in i64 src _ z ltac:(split; discriminate) H E).
  - change (of_text STRING S_DINT) with "STRING_TO_DINT". rewrite B. unfold STRING_TO_DINT. destruct (string_to_int_total i32 src _ H) as [E|[z E]]; rewrite E; [right; reflexivity|].
    left. exists (VZ z). split; [reflexivity|]. exact (int_in i32 src _ z ltac:(split; discriminate) H E).
  - change (of_text STRING S_REAL) with "STRING_TO_REAL". rewrite D. unfold STRING_TO_REAL. destruct (string_to_float_total F32 src _ H) as [E|[z E]]; rewrite E; [right; reflexivity|].
    left. exists (VF z). split; [reflexivity|]. exact (float_read F32 src _ z (or_introl eq_refl) H E).
  - change (of_text STRING S_LREAL) with "STRING_TO_LREAL". rewrite C. unfold STRING_TO_LREAL. destruct (string_to_float_total F64 src _ H) as [E|[z E]]; rewrite E; [right; reflexivity|].
    left. exists (VF z). split; [reflexivity|]. exact (float_read F64 src _ z (or_intror eq_refl) H E).
Qed.
Lemma read_wide_most : forall P t src s n, List.In t read_types -> SpecText.holds WSTRING src s -> (size WSTRING s <= n)%nat -> (3 * n <= 80)%nat ->
  a_value t (call P (of_text WSTRING t) [(S_WSTRING, VS src)]).
Proof.
  intros P t src s n T H S L. assert (B : (length (units STRING s) <= 80)%nat) by (pose proof (size_narrow s) as X; unfold SpecWrap.size in *; lia).
  pose proof (stored_holds STRING s (proj1 H)) as K. pose proof (ProofString2.holds_reads STRING _ _ K) as R.
  destruct (wide_ints_parse P src (stored STRING s) s H K B) as [W1 _]. destruct (wide_reals_parse P src (stored STRING s) s H K B) as [W2 W3].
  pose proof (read_most P t _ s T K) as Q. destruct T as [<-|[<-|[<-|[<-|[]]]]].
  - change (of_text WSTRING S_LINT) with "WSTRING_TO_LINT". rewrite W1. exact Q.
  - change (of_text WSTRING S_DINT) with "WSTRING_TO_DINT". destruct (parse_int_call P src) as (_ & _ & _ & ->). rewrite (proj2 (wint src _ s H K B)).
    unfold STRING_TO_LINT. destruct (string_to_int_total i64 _ _ R) as [E|[z E]]; rewrite E; [right; reflexivity|]. left. exists (VZ (wrap i32 z)). split; [reflexivity|].
    exact (wrap_range i32 z eq_refl).
  - change (of_text WSTRING S_REAL) with "WSTRING_TO_REAL". rewrite W3. exact Q.
  - change (of_text WSTRING S_LREAL) with "WSTRING_TO_LREAL". rewrite W2. exact Q.
Qed.
Lemma compared_texts : forall P f k a b s t, List.In f ["EQ"; "NE"; "LT"; "GT"; "LE"; "GE"] -> SpecText.holds k a s -> SpecText.holds k b t ->
  exists z, call P f [(string_type k, VS a); (string_type k, VS b)] = Ok (S_BOOL, VZ z) /\ (z = 0 \/ z = 1).
Proof.
  intros P f k d d0 t t0 F H H0.
  assert (K : forall p o, tells p o -> exists z, o = Ok (S_BOOL, VZ z) /\ (z = 0 \/ z = 1)).
  { intros p o [[_ ->]|[_ ->]]; [exists 1|exists 0]; (split; [reflexivity|lia]). }
  pose proof (compare_call P k [d; d0] [units k t; units k t0] ltac:(constructor; [exact (ProofString2.holds_reads k d t H)|constructor; [exact (ProofString2.holds_reads k d0 t0 H0)|constructor]]) ltac:(cbn; lia)) as X.
  cbv zeta in X. cbn [map] in X. destruct X as (X1 & X2 & X3 & X4 & X5). pose proof (proj2 (eq_texts P k d d0 t t0 H H0)) as X6.
  destruct F as [<-|[<-|[<-|[<-|[<-|[<-|[]]]]]]]; [exact (K _ _ X3)|exact (K _ _ X6)|exact (K _ _ X5)|exact (K _ _ X1)|exact (K _ _ X4)|exact (K _ _ X2)].
Qed.
