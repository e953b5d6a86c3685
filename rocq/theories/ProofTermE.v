(** The reference of SpecTerm.v: characters, and more of real numbers. *)
From Coq Require Import String Ascii ZArith Lia List Bool SpecFloat Reals Lra.
From Flocq Require Import Core.
From Verif Require Import Base ModelFloat ModelScalar ModelArith ModelTimeNum ModelText ModelString ModelExtra ModelDate ModelChrono ModelST ModelWrap ModelLink ModelLib
  ModelApi SpecScalar SpecTimeNum SpecReal SpecST SpecDate SpecText SpecExtra SpecLink SpecConv SpecLib SpecName SpecWrap SpecCall SpecExpr SpecNum SpecTerm
  ProofBase ProofExtra ProofExtra3 ProofExtra4 ProofExtra5 ProofExtra6 ProofST ProofLib ProofCall ProofCall2 ProofCall3 ProofCall5 ProofCall6 ProofExpr2 ProofProg4 ProofNum ProofTerm ProofTermR ProofTermD.
Import ListNotations.
Open Scope string_scope.
Open Scope list_scope.
Open Scope Z_scope.
Local Opaque call value_in api.

(** * Characters *)
Lemma char_checked : forallb (fun x => bodied (conversion_name (fst x) (snd x)) [fst x] (conversion_name (fst x) (snd x)) (snd x))
  [(S_BYTE, S_CHAR); (S_CHAR, S_BYTE); (S_CHAR, S_WORD); (S_CHAR, S_DWORD); (S_CHAR, S_LWORD); (S_WCHAR, S_WORD); (S_WCHAR, S_DWORD); (S_WCHAR, S_LWORD)] = true.
Proof. vm_compute. reflexivity. Qed.
Lemma char_st : forall v a b z, List.In (a, b) [(S_BYTE, S_CHAR); (S_CHAR, S_BYTE); (S_CHAR, S_WORD); (S_CHAR, S_DWORD); (S_CHAR, S_LWORD); (S_WCHAR, S_WORD); (S_WCHAR, S_DWORD); (S_WCHAR, S_LWORD)] ->
  of_type a z -> st_call v (conversion_name a b) [VInt z] = Ok (VInt z).
Proof.
  intros v a b z H Z.
  assert (W : wrap u8 z = z \/ (a = S_WCHAR)) by (destruct H as [H|[H|[H|[H|[H|[H|[H|[H|[]]]]]]]]]; injection H as <- <-; first [now right|left; apply wrap_id; [reflexivity|exact Z]]).
  assert (W2 : wrap u16 z = z /\ wrap u32 z = z /\ wrap u64 z = z).
  { assert (B : 0 <= z <= 65535) by (destruct H as [H|[H|[H|[H|[H|[H|[H|[H|[]]]]]]]]]; injection H as <- <-; unfold of_type in Z; cbn in Z; lia).
    split; [|split]; apply wrap_id; try reflexivity; unfold in_ity; cbn; lia. }
  destruct W2 as (W2 & W3 & W4). clear Z.
  destruct H as [H|[H|[H|[H|[H|[H|[H|[H|[]]]]]]]]]; injection H as <- <-;
    (destruct W as [W|W]; [|try discriminate W]); stc;
    change (ITy false 8) with u8 in *; change (ITy false 16) with u16 in *; change (ITy false 32) with u32 in *; change (ITy false 64) with u64 in *;
    rewrite ?W, ?W2, ?W3, ?W4, ?W, ?W2; reflexivity.
Qed.
Lemma char_is : forall P a b z, List.In (a, b) char_casts -> of_type a z -> call P (conversion_name a b) [(a, VZ z)] = Ok (b, VZ z).
Proof.
  intros P a b z H Z.
  assert (K : List.In (a, b) [(S_BYTE, S_CHAR); (S_CHAR, S_BYTE); (S_CHAR, S_WORD); (S_CHAR, S_DWORD); (S_CHAR, S_LWORD); (S_WCHAR, S_WORD); (S_WCHAR, S_DWORD); (S_WCHAR, S_LWORD)] \/
    (a = S_CHAR /\ b = S_WCHAR)).
  { clear Z. cbn [List.In char_casts] in H. repeat (destruct H as [H|H]; [injection H as <- <-; first [right; exact (conj eq_refl eq_refl)|left; cbn; tauto]|]). destruct H. }
  destruct K as [K|[-> ->]].
  - pose proof (proj1 (forallb_forall _ _) char_checked _ K) as G. cbn [fst snd] in G. rewrite (bodied_one P _ a b z G). rewrite (char_st (p_chrono P) a b z K Z). reflexivity.
  - change (conversion_name S_CHAR S_WCHAR) with "CHAR_TO_WCHAR". by_unary.
    assert (R : rust_call P "CHAR_TO_WCHAR" [VZ z] = Ok (VZ (CHAR_TO_WCHAR z), [VZ z])) by (name_of; reflexivity).
    change (api P "CHAR_TO_WCHAR" [VZ z]) with (rust_call P "CHAR_TO_WCHAR" [VZ z]). rewrite R, char_wide; [reflexivity|]. unfold of_type in Z. cbn in Z. lia.
Qed.
Lemma char_typed : forall a b z, List.In (a, b) char_casts -> of_type a z -> of_type b z.
Proof. intros a b z H Z. cbn in H. repeat (destruct H as [H|H]; [injection H as <- <-; unfold of_type in *; cbn in *; lia|]). destruct H. Qed.
Lemma narrow_char_is : forall P w, of_type S_WCHAR w ->
  call P "WCHAR_TO_CHAR" [(S_WCHAR, VZ w)] = Ok (S_CHAR, VZ (hd 0 (units STRING [if (0xD800 <=? w) && (w <=? 0xDFFF) then 0xFFFD else w]))).
Proof.
  intros P w W. by_unary. assert (R : rust_call P "WCHAR_TO_CHAR" [VZ w] = Ok (VZ (WCHAR_TO_CHAR w), [VZ w])) by (name_of; reflexivity).
  change (api P "WCHAR_TO_CHAR" [VZ w]) with (rust_call P "WCHAR_TO_CHAR" [VZ w]). rewrite R, wchar by (unfold of_type in W; cbn in W; lia).
  cbn [units flat_map]. rewrite app_nil_r. reflexivity.
Qed.
Lemma narrow_char_typed : forall w, of_type S_WCHAR w -> of_type S_CHAR (hd 0 (units STRING [if (0xD800 <=? w) && (w <=? 0xDFFF) then 0xFFFD else w])).
Proof.
  intros w W. cbn [units flat_map]. rewrite app_nil_r. rewrite <- wchar by (unfold of_type in W; cbn in W; lia).
  unfold of_type in *. pose proof (ProofSafe.narrow_char w ltac:(cbn in W; lia)) as N. exact N.
Qed.
Lemma units_small : forall k t, text t -> Forall (fun u => 0 <= u < match k with STRING => 256 | WSTRING => 65536 end) (units k t).
Proof.
  intros k t T. induction T as [|c t [S N] _ IH]; [constructor|]. unfold units. cbn [flat_map]. apply Forall_app. split; [|exact IH].
  unfold is_scalar in S. destruct k; [unfold utf8_char|unfold utf16_char];
    repeat match goal with |- context [?a <? ?b] => destruct (Z.ltb_spec a b) end; repeat constructor; Z.div_mod_to_equations; lia.
Qed.
Lemma first_is : forall P k d s, holds k d s ->
  call P (match k with STRING => "STRING_TO_CHAR" | WSTRING => "WSTRING_TO_WCHAR" end) [(string_type k, VS d)] =
  Ok (match k with STRING => S_CHAR | WSTRING => S_WCHAR end, VZ (hd 0 (units k s))) /\
  of_type (match k with STRING => S_CHAR | WSTRING => S_WCHAR end) (hd 0 (units k s)).
Proof.
  intros P k d s H. pose proof (ProofString2.holds_reads k d s H) as R. pose proof (units_small k s (proj1 H)) as U.
  destruct (units k s) as [|u l]; cbn [hd].
  - destruct R as [_ (r & ->)]. split; [|destruct k; unfold of_type; cbn; lia]. destruct k; lazy; reflexivity.
  - split; [exact (to_char_call P k u d l R)|]. inversion U as [|? ? B _]; subst. destruct k; unfold of_type; cbn; lia.
Qed.
Lemma valid_is : forall P t v, List.In t reals -> fl_finite v = true -> call P "IS_VALID" [(t, VF v)] = Ok (S_BOOL, VZ 1).
Proof.
  intros P t v T F.
  assert (I : IS_VALID v = true) by (destruct v as [[s|s| |s m e]|s p]; try discriminate; reflexivity).
  assert (G : forall n, exported "IS_VALID" [t] n S_BOOL = true -> rust_call P n [VF v] = Ok (VZ (Z.b2z (IS_VALID v)), [VF v]) -> call P "IS_VALID" [(t, VF v)] = Ok (S_BOOL, VZ 1)).
  { intros n X R. rewrite (generic_call P "IS_VALID" [(t, VF v)] n S_BOOL X). cbn [map snd]. rewrite R, I. reflexivity. }
  destruct T as [<-|[<-|[]]]; [apply (G "IS_VALID__REAL")|apply (G "IS_VALID__LREAL")]; try (vm_compute; reflexivity); name_of; reflexivity.
Qed.

(** * Real numbers as texts *)
Lemma nearest_even_unique : forall a b q, nearest_int_even a q -> nearest_int_even b q -> a = b.
Proof.
  assert (W : forall a b q, nearest_int_even a q -> nearest_int_even b q -> ~ a < b).
  { intros a b q (A & A') (B & B') L. assert (L' : (IZR a + 1 <= IZR b)%R) by (rewrite <- plus_IZR; apply IZR_le; lia).
    assert (A1 : (Rabs (IZR a - q) = / 2)%R).
    { apply Rle_antisym; [exact A|]. apply Rabs_le_inv in A, B. rewrite Rabs_left1 by lra. lra. }
    assert (B1 : (Rabs (IZR b - q) = / 2)%R).
    { apply Rle_antisym; [exact B|]. apply Rabs_le_inv in A, B. rewrite Rabs_right by lra. lra. }
    specialize (A' A1). specialize (B' B1). assert (N : (IZR b < IZR (a + 2))%R) by (rewrite plus_IZR; apply Rabs_le_inv in A, B; lra).
    apply lt_IZR in N. assert (b = Z.succ a) by lia. subst b. rewrite Z.even_succ in B'. rewrite <- Z.negb_even, A' in B'. discriminate. }
  intros a b q A B. pose proof (W a b q A B). pose proof (W b a q B A). lia.
Qed.
Lemma fixed_small : forall w l n, fixed w l n -> 0 <= n < 10 ^ Z.of_nat w.
Proof. intros w l n [<- D]. split; [exact (digits_nonneg 10 l n eq_refl D)|exact (digits_bound 10 l n eq_refl D)]. Qed.
Lemma canonical_pos : forall l n, canonical l n -> 0 <= n.
Proof. intros l n [[_ D] _]. exact (digits_nonneg 10 l n eq_refl D). Qed.
Lemma fixed6_unique : forall s s' x y, fl_value x = fl_value y -> fl_negative x = fl_negative y -> fixed6_text s x -> fixed6_text s' y -> s = s'.
Proof.
  intros s s' x y V N (is & fs & i & f & -> & C & F & A) (is' & fs' & i' & f' & -> & C' & F' & A').
  rewrite <- V in A'. pose proof (nearest_even_unique _ _ _ A A') as E.
  pose proof (fixed_small 6 fs f F) as B. pose proof (fixed_small 6 fs' f' F') as B'. change (10 ^ Z.of_nat 6) with 1000000 in *.
  assert (i' = i) by lia. assert (f' = f) by lia. subst i' f'.
  rewrite (canonical_unique _ _ _ C C'), (fixed_unique 6 f _ _ F F'), N. reflexivity.
Qed.
Lemma exp6_order : forall q n k n' k', (0 <= q)%R -> 0 <= k < k' -> 0 <= n < 10000000 -> nearest_int_even n (q * 1000000 / IZR (10 ^ k)) ->
  (10000000 - / 2 <= q * 10000000 / IZR (10 ^ k'))%R -> nearest_int_even n' (q * 1000000 / IZR (10 ^ k')) -> False.
Proof.
  intros q n k n' k' Q K N (A & A') L _.
  assert (P0 : (0 < IZR (10 ^ k))%R) by (apply IZR_lt, Z.pow_pos_nonneg; lia).
  assert (P1 : (10 * IZR (10 ^ k) <= IZR (10 ^ k'))%R).
  { rewrite <- mult_IZR. apply IZR_le. rewrite <- Z.pow_succ_r by lia. apply Z.pow_le_mono_r; lia. }
  assert (I : (q * 10000000 / IZR (10 ^ k') <= q * 1000000 / IZR (10 ^ k))%R).
  { apply (Rmult_le_reg_r (IZR (10 ^ k'))); [lra|]. unfold Rdiv. rewrite (Rmult_assoc (q * 10000000)), Rinv_l, Rmult_1_r by lra.
    replace (q * 10000000)%R with (q * 1000000 * / IZR (10 ^ k) * (10 * IZR (10 ^ k)))%R by (field; lra).
    apply Rmult_le_compat_l; [|exact P1]. apply Rmult_le_pos; [lra|]. left. now apply Rinv_0_lt_compat. }
  assert (N' : (IZR n <= 9999999)%R) by (apply IZR_le; lia).
  pose proof (Rabs_le_inv _ _ A) as B. assert (E : IZR n = 9999999%R) by lra.
  apply eq_IZR in E. subst n. discriminate A'. apply Rle_antisym; [exact A|]. rewrite Rabs_left1 by lra. lra.
Qed.
Lemma exp6_unique : forall s s' x y, fl_value x = fl_value y -> fl_negative x = fl_negative y -> exp6_text s x -> exp6_text s' y -> s = s'.
Proof.
  intros s s' x y V N (ds & fs & ks & d & f & k & -> & D & D1 & F & C & A & L) (ds' & fs' & ks' & d' & f' & k' & -> & D' & D1' & F' & C' & A' & L').
  rewrite <- V in A', L'. pose proof (Rabs_pos (fl_value x)) as Q.
  pose proof (fixed_small 6 fs f F) as B. pose proof (fixed_small 6 fs' f' F') as B'. change (10 ^ Z.of_nat 6) with 1000000 in *.
  pose proof (fixed_small 1 ds d D) as E. pose proof (fixed_small 1 ds' d' D') as E'. change (10 ^ Z.of_nat 1) with 10 in *.
  pose proof (canonical_pos _ _ C) as K. pose proof (canonical_pos _ _ C') as K'.
  assert (k' = k).
  { destruct (Z.lt_trichotomy k k') as [O|[O|O]]; [exfalso| lia | exfalso].
    - exact (exp6_order _ (d * 1000000 + f) k _ k' Q ltac:(lia) ltac:(lia) A L' A').
    - exact (exp6_order _ (d' * 1000000 + f') k' _ k Q ltac:(lia) ltac:(lia) A' L A). }
  subst k'. pose proof (nearest_even_unique _ _ _ A A') as G.
  assert (d' = d) by lia. assert (f' = f) by lia. subst d' f'.
  rewrite (canonical_unique _ _ _ C C'), (fixed_unique 6 f _ _ F F'), (fixed_unique 1 d _ _ D D'), N. reflexivity.
Qed.
Lemma negative_number : forall v, fl_finite v = true -> fl_value v <> 0%R -> (fl_negative v = true <-> (fl_value v < 0)%R).
Proof.
  intros v F Z. pose proof (signed_value v F) as S. pose proof (Rabs_pos_lt _ Z) as A. destruct (fl_negative v); split; intros H; try reflexivity; try discriminate; lra.
Qed.
(** The text that a function writes is the one of the number. *)
Lemma shown_is : forall s s' v y q, number_shown s q -> fl_finite v = true -> fl_value v = q -> fl_value y = fl_value v -> fl_negative y = fl_negative v ->
  ((fl_value v < IZR (10 ^ 14))%R -> fixed6_text s' y) -> ((IZR (10 ^ 14) <= fl_value v)%R -> exp6_text s' y) -> s = s'.
Proof.
  intros s s' v y q (Q & u & U & N & T1 & T2) F <- Y YN S1 S2.
  assert (E : fl_negative u = fl_negative y).
  { pose proof (negative_number v F Q) as M. rewrite YN. destruct (fl_negative u), (fl_negative v); try reflexivity; exfalso.
    - assert (X : false = true) by (apply M, N; reflexivity). discriminate X.
    - assert (X : false = true) by (apply N, M; reflexivity). discriminate X. }
  destruct (Rlt_le_dec (fl_value v) (IZR (10 ^ 14))) as [B|B].
  - exact (fixed6_unique s s' u y (eq_trans U (eq_sym Y)) E (T1 B) (S1 B)).
  - exact (exp6_unique s s' u y (eq_trans U (eq_sym Y)) E (T2 B) (S2 B)).
Qed.
Lemma fixed6_ascii : forall s x, fixed6_text s x -> ascii s.
Proof. intros s x T. destruct (fixed6_number _ _ T) as (m & N & _). exact (ascii_number _ _ _ _ N). Qed.
Lemma exp6_ascii : forall s x, exp6_text s x -> ascii s.
Proof. intros s x T. destruct (exp6_number _ _ T) as (m & k & N & _). exact (ascii_number _ _ _ _ N). Qed.
Lemma print_real_is : forall P t v q s k, List.In t reals -> fl_valid (fmt_of t) v -> fl_finite v = true -> fl_value v = q -> (t = S_LREAL -> (IZR (- 10 ^ 73) < q)%R) ->
  number_shown s q -> ascii s /\ prints k s (call P (to_text t k) [(t, VF v)]).
Proof.
  intros P t v q s k T V F E L N.
  assert (A : ascii s).
  { destruct N as (_ & u & _ & _ & T1 & T2). destruct (Rlt_le_dec q (IZR (10 ^ 14))) as [B|B]; [exact (fixed6_ascii s u (T1 B))|exact (exp6_ascii s u (T2 B))]. }
  split; [exact A|]. destruct T as [<-|[<-|[]]].
  - destruct (reals_print P v V F) as (s' & y & Y & YN & S1 & S2 & P1 & P2).
    rewrite (shown_is s s' v y q N F E Y YN S1 S2). destruct k; [exact P1|exact P2].
  - specialize (L eq_refl). rewrite <- E in L. destruct (lreal_text v V F L) as (d & s' & D & R & S1 & S2).
    rewrite (shown_is s s' v v q N F E eq_refl eq_refl S1 S2).
    destruct (proj1 (lreal_pair_text v V) d D) as (w & s2 & W & R2 & RW). rewrite <- (reads_fun d _ _ R R2) in RW.
    destruct (lreal_call P v) as [C1 C2]. destruct k.
    + change (to_text S_LREAL STRING) with "LREAL_TO_STRING". rewrite C1, D. exists d. exact (conj eq_refl R).
    + change (to_text S_LREAL WSTRING) with "LREAL_TO_WSTRING". rewrite C2, W. exists w. exact (conj eq_refl RW).
Qed.
Lemma print_lreal_fails : forall P v k, fl_valid F64 v -> fl_finite v = true -> (fl_value v <= IZR (- 10 ^ 73))%R -> call P (to_text S_LREAL k) [(S_LREAL, VF v)] = Panic.
Proof.
  intros P v k V F L. destruct (lreal_call P v) as [C1 C2]. apply (lreal_panics v V F) in L. destruct k.
  - change (to_text S_LREAL STRING) with "LREAL_TO_STRING". rewrite C1, L. reflexivity.
  - change (to_text S_LREAL WSTRING) with "LREAL_TO_WSTRING". rewrite C2, (proj2 (lreal_pair_text v V) L). reflexivity.
Qed.

(** * Texts as real numbers *)
Lemma parse_real_is : forall P t src s neg m e, List.In t reals -> reads src s -> number_text s neg m e -> (Rabs (number_value neg m e) < max_plus_half (fmt_of t))%R ->
  exists v, call P (of_text STRING t) [(S_STRING, VS src)] = Ok (t, VF v) /\ nearest_even (fmt_of t) v (number_value neg m e).
Proof.
  intros P t src s neg m e T R N B. destruct (proj1 (reals_parse P src s R) neg m e N) as (x & y & E & X & E' & Y).
  destruct T as [<-|[<-|[]]].
  - exists y. exact (conj E' (proj1 (proj2 Y) B)).
  - exists x. exact (conj E (proj1 (proj2 X) B)).
Qed.
Lemma parse_real_fails : forall P t src s, List.In t reals -> reads src s -> (forall neg m e, ~ number_text s neg m e) -> (forall neg nan, ~ special_text s neg nan) ->
  call P (of_text STRING t) [(S_STRING, VS src)] = Panic.
Proof.
  intros P t src s T R N S. destruct (proj2 (reals_parse P src s R) N S) as [A B]. destruct T as [<-|[<-|[]]]; [exact B|exact A].
Qed.
Lemma parse_wide_real : forall P t w s, List.In t reals -> holds WSTRING w s -> (length (units STRING s) <= 80)%nat ->
  exists d, holds STRING d s /\ call P (of_text WSTRING t) [(S_WSTRING, VS w)] = call P (of_text STRING t) [(S_STRING, VS d)].
Proof.
  intros P t w s T H L. assert (D : holds STRING (units STRING s ++ [0]) s) by (split; [exact (proj1 H)|now exists []]).
  exists (units STRING s ++ [0]). split; [exact D|]. destruct (wide_reals_parse P w _ s H D L) as [A B]. destruct T as [<-|[<-|[]]]; [exact B|exact A].
Qed.
