(** Composite calls of the string functions. *)
From Coq Require Import ZArith List Bool Lia.
From Verif Require Import Base ModelText ModelString SpecText ProofBase ProofText ProofString ProofString2.
Import ListNotations.
Open Scope Z_scope.

Lemma len_small : forall k src t, holds k src t -> slen t < 2 ^ 31 -> LEN k src = Ok (slen t).
Proof. intros k src t H L. rewrite (len_text k src t H). unfold slen in *. now rewrite wrap_len. Qed.
Lemma len_bytes : forall src s, reads src s ->
  (forall t, Forall is_scalar t -> s = units STRING t -> LEN STRING src = Ok (wrap i32 (slen t))) /\
  ((forall t, Forall is_scalar t -> s <> units STRING t) -> LEN STRING src = Panic).
Proof.
  intros src s R. unfold LEN, decode. rewrite (reads_slice _ _ R). cbn [obind]. split.
  - intros t S ->. unfold units. rewrite decode8_text by exact S. cbn [obind unwrap].
    now rewrite count_map.
  - intros H. destruct (utf8_decode s) as [t|] eqn:D; [|reflexivity].
    apply utf8_decode_inv in D. destruct D as [S E]. now apply H in E.
Qed.
Lemma len_words : forall src s items, reads src s -> utf16_parse s items ->
  LEN WSTRING src = Ok (wrap i32 (Z.of_nat (length items))).
Proof.
  intros src s items R P. unfold LEN, decode. rewrite (reads_slice _ _ R). cbn [obind].
  now rewrite (parse_decode _ _ P).
Qed.
Lemma unterminated : forall k src, Forall (fun u => u <> 0) src -> LEN k src = Ub.
Proof.
  intros k src F. unfold LEN, decode.
  destruct (slice_cases src) as [(s & rest & -> & _ & _)|[_ E]].
  - apply Forall_app in F. destruct F as [_ F]. inversion F. congruence.
  - now rewrite E.
Qed.

Lemma left_spec : forall k src t L dest, holds k src t ->
  (0 <= L <= slen t -> delivers k (firstn (Z.to_nat L) t) dest (LEFT_EXT k src L dest)) /\
  (~ 0 <= L <= slen t -> LEFT_EXT k src L dest = Panic).
Proof.
  intros k src t L dest H. rewrite (left_text k src t L dest H). unfold slen.
  split; intros HL.
  - rewrite (proj2 (Z.leb_le 0 L)), (proj2 (Z.leb_le L _)) by lia. apply write_delivers.
  - destruct (Z.leb_spec 0 L), (Z.leb_spec L (Z.of_nat (length t))); try lia; reflexivity.
Qed.
Lemma right_spec : forall k src t L dest, holds k src t ->
  (0 <= L <= slen t -> delivers k (skipn (length t - Z.to_nat L) t) dest (RIGHT_EXT k src L dest)) /\
  (~ 0 <= L <= slen t -> RIGHT_EXT k src L dest = Panic).
Proof.
  intros k src t L dest H. rewrite (right_text k src t L dest H). unfold slen.
  split; intros HL.
  - rewrite (proj2 (Z.leb_le 0 L)), (proj2 (Z.leb_le L _)) by lia. apply write_delivers.
  - destruct (Z.leb_spec 0 L), (Z.leb_spec L (Z.of_nat (length t))); try lia; reflexivity.
Qed.
Lemma mid_spec : forall p k src t L P dest, holds k src t -> in_ity i32 L -> in_ity i32 P ->
  slen t < 2 ^ 63 ->
  (0 <= L -> 1 <= P <= slen t -> P - 1 + L <= slen t ->
     delivers k (firstn (Z.to_nat L) (skipn (Z.to_nat (P - 1)) t)) dest (MID_EXT p k src L P dest)) /\
  (~ (0 <= L /\ 1 <= P <= slen t /\ P - 1 + L <= slen t) -> MID_EXT p k src L P dest = Panic).
Proof.
  intros p k src t L P dest H HL HP HN. rewrite (mid_text p k src t L P dest H HL HP HN). unfold slen.
  split; intros HL'.
  - intros HP' HLP. rewrite (proj2 (Z.leb_le 0 L)), (proj2 (Z.leb_le 1 P)),
      (proj2 (Z.leb_le (P - 1 + L) _)), (proj2 (Z.leb_le P _)) by lia. apply write_delivers.
  - destruct (Z.leb_spec 0 L), (Z.leb_spec 1 P), (Z.leb_spec (P - 1 + L) (Z.of_nat (length t))),
      (Z.leb_spec P (Z.of_nat (length t))); try lia; reflexivity.
Qed.

Lemma mid_is_left : forall p k src t L dest, holds k src t -> slen t < 2 ^ 31 -> t <> [] ->
  0 <= L <= slen t -> MID_EXT p k src L 1 dest = LEFT_EXT k src L dest.
Proof.
  intros p k src t L dest H HT N HL. change (2 ^ 31) with 2147483648 in HT. unfold slen in *.
  assert (0 < length t)%nat by (destruct t; [congruence|cbn; lia]).
  rewrite (left_text k src t L dest H), (mid_text p k src t L 1 dest H);
    [|change (-2147483648 <= L <= 2147483647); lia|change (-2147483648 <= 1 <= 2147483647); lia|
      change (2 ^ 63) with 9223372036854775808; lia].
  rewrite (proj2 (Z.leb_le 0 L)), (proj2 (Z.leb_le 1 1)),
      (proj2 (Z.leb_le (1 - 1 + L) _)), (proj2 (Z.leb_le 1 (Z.of_nat (length t)))),
      (proj2 (Z.leb_le L _)) by lia.
  reflexivity.
Qed.
Lemma mid_is_right : forall p k src t L dest, holds k src t -> slen t < 2 ^ 31 ->
  1 <= L <= slen t -> MID_EXT p k src L (slen t - L + 1) dest = RIGHT_EXT k src L dest.
Proof.
  intros p k src t L dest H HT HL. change (2 ^ 31) with 2147483648 in HT. unfold slen in *.
  rewrite (right_text k src t L dest H), (mid_text p k src t L _ dest H);
    [|change (-2147483648 <= L <= 2147483647); lia|
      change (-2147483648 <= Z.of_nat (length t) - L + 1 <= 2147483647); lia|
      change (2 ^ 63) with 9223372036854775808; lia].
  rewrite (proj2 (Z.leb_le 0 L)), (proj2 (Z.leb_le 1 (_ - L + 1))),
      (proj2 (Z.leb_le (_ - L + 1 - 1 + L) _)), (proj2 (Z.leb_le (_ - L + 1) _)),
      (proj2 (Z.leb_le L _)) by lia.
  cbn [andb]. f_equal. replace (Z.to_nat (Z.of_nat (length t) - L + 1 - 1)) with (length t - Z.to_nat L)%nat by lia.
  apply firstn_all2. rewrite skipn_length. lia.
Qed.

Lemma left_ok : forall k src t n dest, holds k src t -> 0 <= n <= slen t -> fits k t dest ->
  LEFT_EXT k src n dest = Ok (written k (firstn (Z.to_nat n) t) dest).
Proof.
  intros k src t n dest H L F. destruct (left_spec k src t n dest H) as [A _].
  apply (A L). now apply fits_firstn.
Qed.
Lemma right_ok : forall k src t n dest, holds k src t -> 0 <= n <= slen t -> fits k t dest ->
  RIGHT_EXT k src n dest = Ok (written k (skipn (length t - Z.to_nat n) t) dest).
Proof.
  intros k src t n dest H L F. destruct (right_spec k src t n dest H) as [A _].
  apply (A L). now apply fits_skipn.
Qed.
Lemma concat_ok : forall k argv ts dest, Forall2 (holds k) argv ts -> ts <> [] ->
  delivers k (concat ts) dest (CONCAT k (Some dest) (Z.of_nat (length ts)) (Some argv)).
Proof.
  intros k argv ts dest H N. rewrite <- (app_nil_r argv).
  rewrite (concat_text k ts argv [] dest H N). apply write_delivers.
Qed.
Lemma concat_2 : forall k a b s t dest, holds k a s -> holds k b t ->
  delivers k (s ++ t) dest (CONCAT k (Some dest) 2 (Some [a; b])).
Proof.
  intros k a b s t dest Ha Hb.
  assert (C := concat_ok k [a; b] [s; t] dest). cbn [concat length] in C. rewrite app_nil_r in C.
  apply C; [repeat (apply Forall2_cons; [assumption|]); apply Forall2_nil|discriminate].
Qed.

Lemma decompose : forall k src t n d1 d2 dest, holds k src t -> 0 <= n <= slen t ->
  fits k t d1 -> fits k t d2 -> fits k t dest ->
  exists l r, LEFT_EXT k src n d1 = Ok l /\ RIGHT_EXT k src (slen t - n) d2 = Ok r /\
    CONCAT k (Some dest) 2 (Some [l; r]) = Ok (written k t dest).
Proof.
  intros k src t n d1 d2 dest H L F1 F2 F.
  rewrite (left_ok k src t n d1 H L F1).
  rewrite (right_ok k src t (slen t - n) d2 H); [|lia|exact F2].
  eexists _, _. split; [reflexivity|]. split; [reflexivity|].
  set (a := firstn (Z.to_nat n) t). set (b := skipn (length t - Z.to_nat (slen t - n)) t).
  assert (E : a ++ b = t).
  { unfold a, b, slen. replace (length t - Z.to_nat (Z.of_nat (length t) - n))%nat with (Z.to_nat n)
      by (unfold slen in L; lia). apply firstn_skipn. }
  assert (C : delivers k (a ++ b) dest (CONCAT k (Some dest) 2 (Some [written k a d1; written k b d2]))).
  { apply concat_2; apply written_holds; [apply text_firstn, H|apply text_skipn, H]. }
  rewrite E in C. now apply C.
Qed.
Lemma len_left : forall k src t n dest, holds k src t -> 0 <= n <= slen t -> slen t < 2 ^ 31 ->
  fits k t dest -> exists l, LEFT_EXT k src n dest = Ok l /\ LEN k l = Ok n.
Proof.
  intros k src t n dest H L HT F. rewrite (left_ok k src t n dest H L F).
  eexists. split; [reflexivity|]. unfold slen in *.
  assert (E : Z.of_nat (length (firstn (Z.to_nat n) t)) = n) by (rewrite firstn_length; lia).
  assert (C : LEN k (written k (firstn (Z.to_nat n) t) dest) = Ok (slen (firstn (Z.to_nat n) t))).
  2:{ unfold slen in C. now rewrite E in C. }
  apply len_small; [apply written_holds, text_firstn, H|]. unfold slen. lia.
Qed.

Lemma insert_spec : forall k base ins s t P dest, holds k base s -> holds k ins t -> slen s < 2 ^ 31 ->
  (0 <= P <= slen s ->
     delivers k (firstn (Z.to_nat P) s ++ t ++ skipn (Z.to_nat P) s) dest (INSERT_EXT k base ins P dest)) /\
  (~ 0 <= P <= slen s -> INSERT_EXT k base ins P dest = Panic).
Proof.
  intros k base ins s t P dest Hs Ht L. rewrite (insert_text k base ins s t P dest Hs Ht).
  unfold slen in *. rewrite wrap_len by exact L. split; intros HP.
  - rewrite (proj2 (Z.leb_le 0 P)), (proj2 (Z.leb_le P _)) by lia. apply write_delivers.
  - destruct (Z.leb_spec 0 P), (Z.leb_spec P (Z.of_nat (length s))); try lia; reflexivity.
Qed.

Lemma i32_pow : forall x, in_ity i32 x <-> -2147483648 <= x <= 2147483647.
Proof. reflexivity. Qed.
Lemma small63 : forall n, n < 2 ^ 31 -> n < 2 ^ 63.
Proof. intros n H. change (2 ^ 31) with 2147483648 in H. change (2 ^ 63) with 9223372036854775808. lia. Qed.

Lemma delete_spec : forall p k src t L P dest, holds k src t -> in_ity i32 L -> in_ity i32 P ->
  slen t < 2 ^ 31 -> 0 <= L ->
  (1 <= P <= slen t -> P - 1 + L <= slen t ->
     delivers k (firstn (Z.to_nat (P - 1)) t ++ skipn (Z.to_nat (P - 1 + L)) t) dest
              (DELETE_EXT p k src L P dest)) /\
  (~ (1 <= P <= slen t /\ P - 1 + L <= slen t) -> DELETE_EXT p k src L P dest = Panic).
Proof.
  intros p k src t L P dest H HL HP HT L0.
  rewrite (delete_text p k src t L P dest H HL HP (small63 _ HT)). unfold slen in *.
  rewrite wrap_len by exact HT. unfold del_stop. rewrite (proj2 (Z.leb_le 0 L) L0). cbn [obind].
  replace (L + (P - 1)) with (P - 1 + L) by lia. split.
  - intros HP' HLP. rewrite (proj2 (Z.leb_le 1 P)), (proj2 (Z.leb_le P _)),
      (proj2 (Z.leb_le (P - 1 + L) _)) by lia. apply write_delivers.
  - intros N. destruct (Z.leb_spec 1 P), (Z.leb_spec P (Z.of_nat (length t))),
      (Z.leb_spec (P - 1 + L) (Z.of_nat (length t))); try lia; reflexivity.
Qed.
Lemma replace_spec : forall p k base rep s t L P dest, holds k base s -> holds k rep t ->
  in_ity i32 L -> in_ity i32 P -> slen s < 2 ^ 31 -> 0 <= L ->
  (1 <= P <= slen s -> P - 1 + L <= slen s ->
     delivers k (firstn (Z.to_nat (P - 1)) s ++ t ++ skipn (Z.to_nat (P - 1 + L)) s) dest
              (REPLACE_EXT p k base rep L P dest)) /\
  (~ (1 <= P <= slen s /\ P - 1 + L <= slen s) -> REPLACE_EXT p k base rep L P dest = Panic).
Proof.
  intros p k base rep s t L P dest H Ht HL HP HT L0.
  rewrite (replace_text p k base rep s t L P dest H Ht HL HP (small63 _ HT)). unfold slen in *.
  rewrite wrap_len by exact HT. unfold del_stop. rewrite (proj2 (Z.leb_le 0 L) L0). cbn [obind].
  replace (L + (P - 1)) with (P - 1 + L) by lia. split.
  - intros HP' HLP. rewrite (proj2 (Z.leb_le 1 P)), (proj2 (Z.leb_le P _)),
      (proj2 (Z.leb_le (P - 1 + L) _)) by lia. apply write_delivers.
  - intros N. destruct (Z.leb_spec 1 P), (Z.leb_spec P (Z.of_nat (length s))),
      (Z.leb_spec (P - 1 + L) (Z.of_nat (length s))); try lia; reflexivity.
Qed.

(** Two calls delivering the same text have the same outcome. *)
Lemma delivers_unique : forall k r dest o1 o2, delivers k r dest o1 -> delivers k r dest o2 -> o1 = o2.
Proof.
  intros k r dest o1 o2 [A1 A2] [B1 B2].
  destruct (Nat.lt_decidable (length (units k r)) (length dest)) as [F|F].
  - rewrite A1, B1 by exact F. reflexivity.
  - rewrite A2, B2 by exact F. reflexivity.
Qed.
Lemma delivers_ok : forall k r dest o x, delivers k r dest o -> o = Ok x -> fits k r dest /\ x = written k r dest.
Proof.
  intros k r dest o x [A1 A2] E.
  destruct (Nat.lt_decidable (length (units k r)) (length dest)) as [F|F].
  - split; [exact F|]. rewrite (A1 F) in E. congruence.
  - rewrite (A2 F) in E. discriminate.
Qed.

Lemma replace_is_delete_insert : forall p k base rep s t L P mid m dest,
  holds k base s -> holds k rep t -> in_ity i32 L -> in_ity i32 P -> slen s < 2 ^ 31 -> 0 <= L ->
  DELETE_EXT p k base L P mid = Ok m ->
  REPLACE_EXT p k base rep L P dest = INSERT_EXT k m rep (P - 1) dest.
Proof.
  intros p k base rep s t L P mid m dest Hs Ht HL HP HT L0 E.
  destruct (delete_spec p k base s L P mid Hs HL HP HT L0) as [A B].
  destruct (replace_spec p k base rep s t L P dest Hs Ht HL HP HT L0) as [C _].
  assert (V : 1 <= P <= slen s /\ P - 1 + L <= slen s).
  { destruct (Z.le_decidable 1 P), (Z.le_decidable P (slen s)), (Z.le_decidable (P - 1 + L) (slen s));
      try lia; rewrite B in E by lia; discriminate. }
  destruct V as [V1 V2]. destruct (delivers_ok _ _ _ _ _ (A V1 V2) E) as [_ ->].
  apply (delivers_unique k _ dest _ _ (C V1 V2)).
  set (r := firstn (Z.to_nat (P - 1)) s ++ skipn (Z.to_nat (P - 1 + L)) s).
  assert (Hr : text r).
  { apply text_app. split; [apply text_firstn, Hs|apply text_skipn, Hs]. }
  assert (L1 : length (firstn (Z.to_nat (P - 1)) s) = Z.to_nat (P - 1)).
  { rewrite firstn_length. unfold slen in *. lia. }
  assert (Lr : slen r = slen s - L).
  { unfold slen, r in *. rewrite app_length, L1, skipn_length. lia. }
  destruct (insert_spec k (written k r mid) rep r t (P - 1) dest) as [D _];
    [now apply written_holds|exact Ht|lia|].
  assert (E1 : firstn (Z.to_nat (P - 1)) r = firstn (Z.to_nat (P - 1)) s).
  { unfold r. rewrite firstn_app, L1, Nat.sub_diag, firstn_firstn, Nat.min_id. apply app_nil_r. }
  assert (E2 : skipn (Z.to_nat (P - 1)) r = skipn (Z.to_nat (P - 1 + L)) s).
  { unfold r. rewrite skipn_app, L1, Nat.sub_diag. rewrite skipn_all2 by lia. reflexivity. }
  rewrite E1, E2 in D. apply D. rewrite Lr. lia.
Qed.

Lemma delete_undoes_insert : forall p k base ins s t P mid m dest,
  holds k base s -> holds k ins t -> slen s + slen t < 2 ^ 31 -> t <> [] ->
  INSERT_EXT k base ins P mid = Ok m ->
  delivers k s dest (DELETE_EXT p k m (slen t) (P + 1) dest).
Proof.
  intros p k base ins s t P mid m dest Hs Ht HT N E.
  assert (T0 : 0 < slen t) by (unfold slen; destruct t; [congruence|cbn [length]; lia]).
  assert (S0 : 0 <= slen s) by (unfold slen; lia).
  destruct (insert_spec k base ins s t P mid Hs Ht ltac:(lia)) as [A B].
  assert (V : 0 <= P <= slen s).
  { destruct (Z.le_decidable 0 P), (Z.le_decidable P (slen s)); try lia; rewrite B in E by lia; discriminate. }
  destruct (delivers_ok _ _ _ _ _ (A V) E) as [_ ->].
  set (r := firstn (Z.to_nat P) s ++ t ++ skipn (Z.to_nat P) s).
  assert (Hr : text r).
  { apply text_app. split; [apply text_firstn, Hs|]. apply text_app. split; [apply Ht|apply text_skipn, Hs]. }
  assert (L1 : length (firstn (Z.to_nat P) s) = Z.to_nat P).
  { rewrite firstn_length. unfold slen in *. lia. }
  assert (Lr : slen r = slen s + slen t).
  { unfold slen, r in *. rewrite !app_length, L1, skipn_length. lia. }
  change (2 ^ 31) with 2147483648 in HT.
  destruct (delete_spec p k (written k r mid) r (slen t) (P + 1) dest) as [D _];
    [now apply written_holds|apply i32_pow; lia|apply i32_pow; lia|
     change (2 ^ 31) with 2147483648; lia|lia|].
  replace (P + 1 - 1) with P in D by lia.
  assert (E1 : firstn (Z.to_nat P) r = firstn (Z.to_nat P) s).
  { unfold r. rewrite firstn_app, L1, Nat.sub_diag, firstn_firstn, Nat.min_id. apply app_nil_r. }
  assert (E2 : skipn (Z.to_nat (P + slen t)) r = skipn (Z.to_nat P) s).
  { unfold r. rewrite skipn_app, L1, (skipn_all2 (n := Z.to_nat (P + slen t))) by lia. cbn [app].
    replace (Z.to_nat (P + slen t) - Z.to_nat P)%nat with (length t) by (unfold slen; lia).
    rewrite skipn_app, skipn_all, Nat.sub_diag. reflexivity. }
  rewrite E1, E2, firstn_skipn in D. apply D; lia.
Qed.

Lemma lengths_add_up : forall p k base rep s t L P dest dest' ,
  holds k base s -> holds k rep t -> in_ity i32 L -> in_ity i32 P -> slen s + slen t < 2 ^ 31 -> 0 <= L ->
  (INSERT_EXT k base rep P dest = Ok dest' -> LEN k dest' = Ok (slen s + slen t)) /\
  (DELETE_EXT p k base L P dest = Ok dest' -> LEN k dest' = Ok (slen s - L)) /\
  (REPLACE_EXT p k base rep L P dest = Ok dest' -> LEN k dest' = Ok (slen s - L + slen t)).
Proof.
  intros p k base rep s t L P dest dest' Hs Ht HL HP HT L0.
  assert (T0 : 0 <= slen t) by (unfold slen; lia). assert (S0 : 0 <= slen s) by (unfold slen; lia).
  split; [|split]; intros E.
  - destruct (insert_spec k base rep s t P dest Hs Ht ltac:(lia)) as [A B].
    destruct (Z.le_decidable 0 P) as [P0|P0]; [|rewrite B in E by lia; discriminate].
    destruct (Z.le_decidable P (slen s)) as [P1|P1]; [|rewrite B in E by lia; discriminate].
    destruct (delivers_ok _ _ _ _ _ (A (conj P0 P1)) E) as [_ ->].
    set (r := firstn _ _ ++ t ++ _).
    assert (Lr : slen r = slen s + slen t).
    { unfold slen, r in *. rewrite !app_length, firstn_length, skipn_length. lia. }
    rewrite <- Lr. apply len_small; [|lia]. apply written_holds. apply text_app.
    split; [apply text_firstn, Hs|]. apply text_app. split; [apply Ht|apply text_skipn, Hs].
  - destruct (delete_spec p k base s L P dest Hs HL HP ltac:(lia) L0) as [A B].
    destruct (Z.le_decidable 1 P) as [P0|P0]; [|rewrite B in E by lia; discriminate].
    destruct (Z.le_decidable P (slen s)) as [P1|P1]; [|rewrite B in E by lia; discriminate].
    destruct (Z.le_decidable (P - 1 + L) (slen s)) as [P2|P2]; [|rewrite B in E by lia; discriminate].
    destruct (delivers_ok _ _ _ _ _ (A (conj P0 P1) P2) E) as [_ ->].
    set (r := firstn _ _ ++ _).
    assert (Lr : slen r = slen s - L).
    { unfold slen, r in *. rewrite !app_length, firstn_length, skipn_length. lia. }
    rewrite <- Lr. apply len_small; [|lia]. apply written_holds. apply text_app.
    split; [apply text_firstn, Hs|apply text_skipn, Hs].
  - destruct (replace_spec p k base rep s t L P dest Hs Ht HL HP ltac:(lia) L0) as [A B].
    destruct (Z.le_decidable 1 P) as [P0|P0]; [|rewrite B in E by lia; discriminate].
    destruct (Z.le_decidable P (slen s)) as [P1|P1]; [|rewrite B in E by lia; discriminate].
    destruct (Z.le_decidable (P - 1 + L) (slen s)) as [P2|P2]; [|rewrite B in E by lia; discriminate].
    destruct (delivers_ok _ _ _ _ _ (A (conj P0 P1) P2) E) as [_ ->].
    set (r := firstn _ _ ++ t ++ _).
    assert (Lr : slen r = slen s - L + slen t).
    { unfold slen, r in *. rewrite !app_length, firstn_length, skipn_length. lia. }
    rewrite <- Lr. apply len_small; [|lia]. apply written_holds. apply text_app.
    split; [apply text_firstn, Hs|]. apply text_app. split; [apply Ht|apply text_skipn, Hs].
Qed.

(** Negative lengths. *)
Lemma negative_debug : forall k base rep s t L P dest,
  holds k base s -> holds k rep t -> in_ity i32 L -> in_ity i32 P -> slen s < 2 ^ 63 -> L < 0 ->
  DELETE_EXT Debug k base L P dest = Panic /\ REPLACE_EXT Debug k base rep L P dest = Panic.
Proof.
  intros k base rep s t L P dest Hs Ht HL HP HT L0. unfold slen in HT.
  rewrite (delete_text Debug k base s L P dest Hs HL HP HT),
    (replace_text Debug k base rep s t L P dest Hs Ht HL HP HT).
  unfold del_stop. destruct (Z.leb_spec 0 L); [lia|]. apply (proj1 (i32_pow _)) in HL. apply (proj1 (i32_pow _)) in HP.
  change (2 ^ 63) with 9223372036854775808 in HT.
  destruct (Z.leb_spec 1 P); cbn [andb]; [|auto].
  destruct (P <=? _); [|auto]. destruct (Z.ltb_spec (P - 1 + L) 0); cbn [obind]; [|auto].
  destruct (Z.leb_spec (18446744073709551616 + L + (P - 1)) (Z.of_nat (length s))); [lia|auto].
Qed.
Lemma negative_release : forall k base rep s t L P dest,
  holds k base s -> holds k rep t -> in_ity i32 L -> in_ity i32 P -> slen s < 2 ^ 31 -> L < 0 ->
  (P - 1 + L < 0 \/ slen s < P ->
     DELETE_EXT Release k base L P dest = Panic /\ REPLACE_EXT Release k base rep L P dest = Panic) /\
  (0 <= P - 1 + L -> P <= slen s ->
     delivers k (firstn (Z.to_nat (P - 1)) s ++ skipn (Z.to_nat (P - 1 + L)) s) dest
              (DELETE_EXT Release k base L P dest) /\
     delivers k (firstn (Z.to_nat (P - 1)) s ++ t ++ skipn (Z.to_nat (P - 1 + L)) s) dest
              (REPLACE_EXT Release k base rep L P dest)).
Proof.
  intros k base rep s t L P dest Hs Ht HL HP HT L0.
  rewrite (delete_text Release k base s L P dest Hs HL HP (small63 _ HT)),
    (replace_text Release k base rep s t L P dest Hs Ht HL HP (small63 _ HT)).
  unfold slen in *. rewrite wrap_len by exact HT.
  unfold del_stop. destruct (Z.leb_spec 0 L); [lia|]. apply (proj1 (i32_pow _)) in HL. apply (proj1 (i32_pow _)) in HP.
  change (2 ^ 31) with 2147483648 in HT. split.
  - intros C. destruct (Z.leb_spec 1 P); cbn [andb]; [|auto].
    destruct (Z.leb_spec P (Z.of_nat (length s))); [|auto].
    destruct (Z.ltb_spec (P - 1 + L) 0); cbn [obind]; [|lia].
    destruct (Z.leb_spec (18446744073709551616 + L + (P - 1)) (Z.of_nat (length s))); [lia|auto].
  - intros C D. rewrite (proj2 (Z.leb_le 1 P)), (proj2 (Z.leb_le P _)) by lia. cbn [andb].
    destruct (Z.ltb_spec (P - 1 + L) 0); [lia|]. cbn [obind].
    rewrite (proj2 (Z.leb_le (P - 1 + L) _)) by lia. split; apply write_delivers.
Qed.

(** CONCAT. *)
Lemma concat_assoc : forall k a b c s t u d1 d2 x y dest, holds k a s -> holds k b t -> holds k c u ->
  CONCAT k (Some d1) 2 (Some [a; b]) = Ok x -> CONCAT k (Some d2) 2 (Some [b; c]) = Ok y ->
  CONCAT k (Some dest) 2 (Some [x; c]) = CONCAT k (Some dest) 2 (Some [a; y]) /\
  CONCAT k (Some dest) 2 (Some [x; c]) = CONCAT k (Some dest) 3 (Some [a; b; c]).
Proof.
  intros k a b c s t u d1 d2 x y dest Ha Hb Hc Ex Ey.
  destruct (delivers_ok _ _ _ _ _ (concat_2 k a b s t d1 Ha Hb) Ex) as [_ ->].
  destruct (delivers_ok _ _ _ _ _ (concat_2 k b c t u d2 Hb Hc) Ey) as [_ ->].
  assert (A := concat_2 k (written k (s ++ t) d1) c (s ++ t) u dest
    (written_holds _ _ _ (proj2 (text_app s t) (conj (proj1 Ha) (proj1 Hb)))) Hc).
  assert (B := concat_2 k a (written k (t ++ u) d2) s (t ++ u) dest Ha
    (written_holds _ _ _ (proj2 (text_app t u) (conj (proj1 Hb) (proj1 Hc))))).
  assert (C := concat_ok k [a; b; c] [s; t; u] dest). cbn [concat length] in C. rewrite app_nil_r in C.
  rewrite <- app_assoc in A. split; apply (delivers_unique k _ dest _ _ A); [exact B|].
  apply C; [repeat (apply Forall2_cons; [assumption|]); apply Forall2_nil|discriminate].
Qed.
Lemma concat_len : forall k argv ts dest dest', Forall2 (holds k) argv ts -> ts <> [] ->
  fold_right Z.add 0 (map slen ts) < 2 ^ 31 ->
  CONCAT k (Some dest) (Z.of_nat (length ts)) (Some argv) = Ok dest' ->
  LEN k dest' = Ok (fold_right Z.add 0 (map slen ts)).
Proof.
  intros k argv ts dest dest' H N L E.
  destruct (delivers_ok _ _ _ _ _ (concat_ok k argv ts dest H N) E) as [_ ->].
  assert (Lc : slen (concat ts) = fold_right Z.add 0 (map slen ts)).
  { clear. induction ts as [|t ts IH]; [reflexivity|]. cbn [concat map fold_right]. rewrite <- IH.
    unfold slen. rewrite app_length. lia. }
  rewrite <- Lc in *. apply len_small; [|exact L]. apply written_holds.
  clear -H. induction H as [|a t argv ts Ht H IH]; [constructor|]. cbn [concat]. apply text_app.
  split; [apply Ht|exact IH].
Qed.
Lemma concat_none : forall k dest argc argv, argc <= 0 -> CONCAT k (Some dest) argc (Some argv) = Ok dest.
Proof.
  intros k dest argc argv H. unfold CONCAT. replace (Z.to_nat argc) with 0%nat by lia. reflexivity.
Qed.

(** Order. *)
Lemma string_order : forall argv ts, Forall2 (holds STRING) argv ts -> (2 <= length ts)%nat ->
  let n := Z.of_nat (length ts) in
  (exists r, GT_STR n argv = Ok r /\ (r = true <-> all_pairs (fun a b => lex_lt b a) ts)) /\
  (exists r, GE_STR n argv = Ok r /\ (r = true <-> all_pairs (fun a b => lex_le b a) ts)) /\
  (exists r, EQ_STR n argv = Ok r /\ (r = true <-> all_pairs eq ts)) /\
  (exists r, LE_STR n argv = Ok r /\ (r = true <-> all_pairs lex_le ts)) /\
  (exists r, LT_STR n argv = Ok r /\ (r = true <-> all_pairs lex_lt ts)).
Proof.
  intros argv ts H L n. destruct (holds_forall2 _ _ _ H) as [R T].
  assert (N := nary (map (units STRING) ts) argv [] R). rewrite map_length, app_nil_r in N.
  specialize (N L). cbn zeta in N. rewrite Forall_forall in T.
  destruct N as ((r1 & A1 & B1) & (r2 & A2 & B2) & (r3 & A3 & B3) & (r4 & A4 & B4) & (r5 & A5 & B5)).
  assert (LE : forall x y, In x ts -> In y ts ->
    (lex_le (units STRING x) (units STRING y) <-> lex_le x y)).
  { intros x y Ix Iy. unfold lex_le. rewrite units8_lex, units_eq_iff by auto. reflexivity. }
  split; [|split; [|split; [|split]]].
  - exists r1. split; [exact A1|]. rewrite B1. apply all_pairs_map. intros. apply units8_lex; auto.
  - exists r2. split; [exact A2|]. rewrite B2. apply all_pairs_map. intros. apply LE; auto.
  - exists r3. split; [exact A3|]. rewrite B3. apply all_pairs_map. intros. apply units_eq_iff; auto.
  - exists r4. split; [exact A4|]. rewrite B4. apply all_pairs_map. intros. apply LE; auto.
  - exists r5. split; [exact A5|]. rewrite B5. apply all_pairs_map. intros. apply units8_lex; auto.
Qed.
Lemma wstring_order : forall a b s t, holds WSTRING a s -> holds WSTRING b t ->
  exists lt eq gt, LT_STR 2 [a; b] = Ok lt /\ EQ_STR 2 [a; b] = Ok eq /\ GT_STR 2 [a; b] = Ok gt /\
    (lt = true <-> lex_lt (units WSTRING s) (units WSTRING t)) /\ (eq = true <-> s = t) /\
    (gt = true <-> lex_lt (units WSTRING t) (units WSTRING s)).
Proof.
  intros a b s t Ha Hb.
  destruct (two_strings a b _ _ (holds_reads _ _ _ Ha) (holds_reads _ _ _ Hb))
    as (lt & eq & gt & A1 & A2 & A3 & _ & _ & _ & _ & B1 & B2 & B3).
  exists lt, eq, gt. repeat (split; [assumption|]). split; [|exact B3].
  rewrite B2. apply units_eq_iff; [apply Ha|apply Hb].
Qed.

(** Conversions. *)
Lemma fresh_wide : forall src t n, holds STRING src t -> (length (units WSTRING t) < n)%nat ->
  exists w, STRING_TO_WSTRING_EXT src (repeat 0 n) = Ok w /\ holds WSTRING w t.
Proof.
  intros src t n H L. rewrite (s2w_text _ _ _ H), repeat_length.
  rewrite (proj2 (Nat.leb_le _ _)) by lia. eexists. split; [reflexivity|]. split; [apply H|].
  exists (repeat 0 (n - length (units WSTRING t) - 1)). f_equal.
  revert L. generalize (length (units WSTRING t)). intros m L. revert n L.
  induction m as [|m IH]; intros [|n] L; try lia; cbn [skipn repeat].
  - now rewrite Nat.sub_0_r, Nat.sub_1_r.
  - apply IH. lia.
Qed.
Lemma string_round_trip : forall src t n dest, holds STRING src t ->
  (length (units WSTRING t) < n)%nat -> fits STRING t dest ->
  exists w, STRING_TO_WSTRING_EXT src (repeat 0 n) = Ok w /\
    WSTRING_TO_STRING_EXT w dest = Ok (written STRING t dest).
Proof.
  intros src t n dest H L F. destruct (fresh_wide src t n H L) as (w & E & Hw).
  exists w. split; [exact E|]. rewrite (w2s_text w t dest Hw). now apply write_fits.
Qed.
Lemma wstring_round_trip : forall src t n mid, holds WSTRING src t ->
  (length (units WSTRING t) < n)%nat -> fits STRING t mid ->
  exists m w, WSTRING_TO_STRING_EXT src mid = Ok m /\ STRING_TO_WSTRING_EXT m (repeat 0 n) = Ok w /\
    holds WSTRING w t.
Proof.
  intros src t n mid H L F. exists (written STRING t mid). rewrite (w2s_text src t mid H).
  rewrite write_fits by exact F.
  destruct (fresh_wide (written STRING t mid) t n) as (w & E & Hw);
    [apply written_holds, H|exact L|]. now exists w.
Qed.
Lemma stale_wide : forall src t dest, holds STRING src t -> (length (units WSTRING t) < length dest)%nat ->
  exists w, STRING_TO_WSTRING_EXT src dest = Ok w /\
    (nth (length (units WSTRING t)) dest 1 = 0 -> holds WSTRING w t) /\
    (nth (length (units WSTRING t)) dest 0 <> 0 -> ~ holds WSTRING w t).
Proof.
  intros src t dest H L. rewrite (s2w_text _ _ _ H). rewrite (proj2 (Nat.leb_le _ _)) by lia.
  eexists. split; [reflexivity|]. set (n := length (units WSTRING t)) in *.
  assert (S : skipn n dest = nth n dest 0 :: skipn (S n) dest).
  { clear -L. revert dest L. generalize n. induction n0 as [|m IH]; intros [|x d] L; cbn in *; try lia;
      [reflexivity|]. apply IH. lia. }
  split; intros E.
  - split; [apply H|]. rewrite S. rewrite (nth_indep dest 0 1) by exact L. rewrite E. eexists. reflexivity.
  - intros [_ (rest & W)]. rewrite S in W. apply app_inv_head in W. injection W as W _. contradiction.
Qed.

Definition char_back (c : Z) : Z := WCHAR_TO_CHAR (CHAR_TO_WCHAR c).
Lemma char_check : forallb (fun c => char_back c =?
    (if c <? 128 then c else if c <? 192 then 0xC2 else 0xC3)) (map Z.of_nat (seq 0 256)) = true.
Proof. vm_compute. reflexivity. Qed.
Lemma char_exact : forall c, 0 <= c < 256 ->
  WCHAR_TO_CHAR (CHAR_TO_WCHAR c) = if c <? 128 then c else if c <? 192 then 0xC2 else 0xC3.
Proof.
  intros c H. assert (A := proj1 (forallb_forall _ _) char_check c). cbn beta in A.
  apply Z.eqb_eq in A; [exact A|]. apply in_map_iff. exists (Z.to_nat c). split; [lia|].
  apply in_seq. lia.
Qed.

Lemma written_rest : forall k t dest i, (length (units k t) < i)%nat ->
  nth_error (written k t dest) i = nth_error dest i.
Proof.
  intros k t dest i. unfold written. generalize (units k t) as u. clear k t.
  intros u. revert dest i. induction u as [|x u IH]; intros dest [|i] L; cbn [length] in *; try lia.
  - cbn. destruct dest; [now destruct i|reflexivity].
  - cbn [app nth_error plus skipn]. destruct dest as [|y dest].
    + specialize (IH [] i ltac:(lia)). rewrite skipn_nil in IH. rewrite IH. now destruct i.
    + apply IH. lia.
Qed.
