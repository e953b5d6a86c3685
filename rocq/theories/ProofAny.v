(** String functions on arbitrary terminated memory. *)
From Coq Require Import ZArith List Bool Lia.
From Verif Require Import Base ModelText ModelString SpecText SpecAny ProofBase ProofText ProofString
  ProofString2 ProofString3.
Import ListNotations.
Open Scope Z_scope.

Definition proper (i : option Z) : Prop := match i with Some c => is_scalar c | None => True end.

Lemma items_decode : forall k src items, has_items k src items ->
  decode k src = Ok items /\ Forall proper items.
Proof.
  intros [] src items H.
  - destruct H as (t & H & ->). split; [exact (decode_holds STRING src t H)|].
    assert (S := text_scalar _ (proj1 H)). clear -S. induction S; cbn [map]; constructor; auto.
  - destruct H as (s & R & P). split; [|exact (parse_scalars _ _ P)].
    unfold decode. rewrite (reads_slice _ _ R). cbn [obind]. now rewrite (parse_decode _ _ P).
Qed.
Lemma not_utf8_decode : forall src, not_utf8 src -> decode STRING src = Panic.
Proof.
  intros src (s & R & N). unfold decode. rewrite (reads_slice _ _ R). cbn [obind].
  destruct (utf8_decode s) as [t|] eqn:D; [|reflexivity].
  apply utf8_decode_inv in D. destruct D as [S E]. now apply N in E.
Qed.
Lemma unterminated_decode : forall k src, Forall (fun u => u <> 0) src -> decode k src = Ub.
Proof.
  intros k src F. unfold decode.
  destruct (slice_cases src) as [(s & rest & -> & _ & _)|[_ E]].
  - apply Forall_app in F. destruct F as [_ F]. inversion F. congruence.
  - now rewrite E.
Qed.

Lemma proper_scalars : forall t rest, Forall proper (map Some t ++ rest) -> Forall is_scalar t.
Proof.
  induction t as [|c t IH]; intros rest F; [constructor|]. cbn [map app] in F.
  inversion F; subst. constructor; [assumption|]. now apply (IH rest).
Qed.
Lemma encode_loop_app : forall k a b d,
  encode_loop k (a ++ b) d = let! d' := encode_loop k a d in encode_loop k b d'.
Proof.
  intros k a b. induction a as [|i a IH]; intros d; [reflexivity|]. cbn [app encode_loop].
  destruct i as [c|]; [|reflexivity]. cbn [unwrap obind].
  destruct (put_all (encode_char k c) d) as [d1| |]; [|reflexivity..]. cbn [obind]. apply IH.
Qed.
Lemma encode_bad : forall k t rest b a, Forall is_scalar t ->
  encode k (map Some t ++ None :: rest) (b, a) =
  if (length (units k t) <=? length a)%nat then Panic else Ub.
Proof.
  intros k t rest b a S. unfold encode. rewrite encode_loop_app, encode_loop_spec by exact S.
  destruct (length (units k t) <=? length a)%nat; reflexivity.
Qed.
Lemma encode_to_items : forall k items dest, Forall proper items ->
  delivers_items k items dest (encode_to k items dest).
Proof.
  intros k items dest F. split.
  - intros t ->. rewrite encode_to_spec; [apply write_delivers|].
    apply (proper_scalars t []). now rewrite app_nil_r.
  - intros t rest ->. unfold encode_to. rewrite encode_bad by (now apply proper_scalars in F).
    split; intros L.
    + now rewrite (proj2 (Nat.leb_le _ _) L).
    + now rewrite (proj2 (Nat.leb_gt _ _) L).
Qed.

Lemma items_split : forall items : list (option Z),
  (exists t, items = map Some t) \/ (exists t rest, items = map Some t ++ None :: rest).
Proof.
  induction items as [|[c|] items IH].
  - left. now exists [].
  - destruct IH as [(t & ->)|(t & rest & ->)].
    + left. now exists (c :: t).
    + right. now exists (c :: t), rest.
  - right. now exists [], items.
Qed.

Lemma any_left : forall k src items L dest, has_items k src items ->
  (0 <= L <= ilen items -> delivers_items k (firstn (Z.to_nat L) items) dest (LEFT_EXT k src L dest)) /\
  (~ 0 <= L <= ilen items -> LEFT_EXT k src L dest = Panic).
Proof.
  intros k src items L dest H. apply items_decode in H. destruct H as [D F].
  unfold LEFT_EXT, ilen. rewrite D. cbn [obind]. unfold count.
  destruct (Z.ltb_spec L 0); [split; [lia|reflexivity]|].
  destruct (Z.ltb_spec (Z.of_nat (length items)) L); [split; [lia|reflexivity]|].
  split; [intros _|lia]. apply encode_to_items. now apply Forall_firstn.
Qed.
Lemma any_right : forall k src items L dest, has_items k src items ->
  (0 <= L <= ilen items ->
     delivers_items k (skipn (length items - Z.to_nat L) items) dest (RIGHT_EXT k src L dest)) /\
  (~ 0 <= L <= ilen items -> RIGHT_EXT k src L dest = Panic).
Proof.
  intros k src items L dest H. apply items_decode in H. destruct H as [D F].
  unfold RIGHT_EXT, ilen. rewrite D. cbn [obind]. unfold count.
  destruct (Z.ltb_spec L 0); [split; [lia|reflexivity]|].
  destruct (Z.ltb_spec (Z.of_nat (length items)) L); [split; [lia|reflexivity]|].
  split; [intros _|lia].
  replace (Z.to_nat (Z.of_nat (length items) - L)) with (length items - Z.to_nat L)%nat by lia.
  apply encode_to_items. now apply Forall_skipn.
Qed.
Lemma any_mid : forall p k src items L P dest, has_items k src items -> in_ity i32 L -> in_ity i32 P ->
  ilen items < 2 ^ 63 ->
  (0 <= L -> 1 <= P <= ilen items -> P - 1 + L <= ilen items ->
     delivers_items k (firstn (Z.to_nat L) (skipn (Z.to_nat (P - 1)) items)) dest (MID_EXT p k src L P dest)) /\
  (~ (0 <= L /\ 1 <= P <= ilen items /\ P - 1 + L <= ilen items) -> MID_EXT p k src L P dest = Panic).
Proof.
  intros p k src items L P dest H HL HP HN. apply items_decode in H. destruct H as [D F].
  unfold MID_EXT, ilen in *. rewrite D. cbn [obind]. unfold count.
  change (2 ^ 63) with 9223372036854775808 in HN.
  assert (RL : -2147483648 <= L <= 2147483647) by exact HL.
  assert (RP : -2147483648 <= P <= 2147483647) by exact HP.
  destruct (Z.ltb_spec L 0); [split; [lia|reflexivity]|].
  destruct (Z.leb_spec 1 P).
  - assert (W : wrap usize P = P) by (apply wrap_id; [reflexivity|]; apply in_usize; lia).
    rewrite W. destruct (Z.ltb_spec P 1); [lia|]. cbn [orb].
    destruct (Z.ltb_spec (Z.of_nat (length items)) P); [split; [lia|reflexivity]|].
    assert (A : arith p usize (L + (P - 1)) = Ok (L + (P - 1))).
    { apply arith_ok. apply in_usize; lia. }
    rewrite A. cbn [obind].
    destruct (Z.ltb_spec (Z.of_nat (length items)) (L + (P - 1))); [split; [lia|reflexivity]|].
    split; [intros _ _ _|lia]. apply encode_to_items. now apply Forall_firstn, Forall_skipn.
  - split; [lia|intros _]. destruct (Z.eq_dec P 0) as [->|N]; [reflexivity|].
    assert (W : wrap usize P = P + 18446744073709551616).
    { unfold wrap, usize, u64. cbn [it_signed it_bits]. change (2 ^ 64) with 18446744073709551616.
      rewrite <- (Z.mod_add P 1) by lia. apply Z.mod_small. lia. }
    rewrite W. destruct (Z.ltb_spec (P + 18446744073709551616) 1); [lia|]. cbn [orb].
    destruct (Z.ltb_spec (Z.of_nat (length items)) (P + 18446744073709551616)); [reflexivity|lia].
Qed.
Lemma any_insert : forall k base ins s t P dest, has_items k base s -> has_items k ins t ->
  ilen s < 2 ^ 31 ->
  (0 <= P <= ilen s ->
     delivers_items k (firstn (Z.to_nat P) s ++ t ++ skipn (Z.to_nat P) s) dest (INSERT_EXT k base ins P dest)) /\
  (~ 0 <= P <= ilen s -> INSERT_EXT k base ins P dest = Panic).
Proof.
  intros k base ins s t P dest Hs Ht HN. apply items_decode in Hs, Ht. destruct Hs as [D F], Ht as [D' F'].
  unfold INSERT_EXT, ilen in *. rewrite D, D'. cbn [obind]. unfold count. rewrite wrap_len by exact HN.
  destruct (Z.ltb_spec P 0); cbn [orb]; [split; [lia|reflexivity]|].
  destruct (Z.ltb_spec (Z.of_nat (length s)) P); [split; [lia|reflexivity]|].
  split; [intros _|lia]. apply encode_to_items. apply Forall_app. split; [now apply Forall_firstn|].
  apply Forall_app. split; [assumption|now apply Forall_skipn].
Qed.
Lemma any_delete : forall p k src s L P dest, has_items k src s -> in_ity i32 L -> in_ity i32 P ->
  ilen s < 2 ^ 31 -> 0 <= L ->
  (1 <= P <= ilen s -> P - 1 + L <= ilen s ->
     delivers_items k (firstn (Z.to_nat (P - 1)) s ++ skipn (Z.to_nat (P - 1 + L)) s) dest
       (DELETE_EXT p k src L P dest)) /\
  (~ (1 <= P <= ilen s /\ P - 1 + L <= ilen s) -> DELETE_EXT p k src L P dest = Panic).
Proof.
  intros p k src s L P dest H HL HP HN L0. apply items_decode in H. destruct H as [D F].
  unfold DELETE_EXT, ilen in *. rewrite D. cbn [obind]. unfold count. rewrite wrap_len by exact HN.
  destruct (Z.ltb_spec P 1); cbn [orb]; [split; [lia|reflexivity]|].
  destruct (Z.ltb_spec (Z.of_nat (length s)) P); [split; [lia|reflexivity]|].
  rewrite stop_spec by assumption. unfold del_stop. rewrite (proj2 (Z.leb_le 0 L) L0). cbn [obind].
  replace (L + (P - 1)) with (P - 1 + L) by lia.
  destruct (Z.ltb_spec (Z.of_nat (length s)) (P - 1 + L)); [split; [lia|reflexivity]|].
  split; [intros _ _|lia]. apply encode_to_items. apply Forall_app.
  split; [now apply Forall_firstn|now apply Forall_skipn].
Qed.
Lemma any_replace : forall p k base rep s t L P dest, has_items k base s -> has_items k rep t ->
  in_ity i32 L -> in_ity i32 P -> ilen s < 2 ^ 31 -> 0 <= L ->
  (1 <= P <= ilen s -> P - 1 + L <= ilen s ->
     delivers_items k (firstn (Z.to_nat (P - 1)) s ++ t ++ skipn (Z.to_nat (P - 1 + L)) s) dest
       (REPLACE_EXT p k base rep L P dest)) /\
  (~ (1 <= P <= ilen s /\ P - 1 + L <= ilen s) -> REPLACE_EXT p k base rep L P dest = Panic).
Proof.
  intros p k base rep s t L P dest H H' HL HP HN L0. apply items_decode in H, H'.
  destruct H as [D F], H' as [D' F'].
  unfold REPLACE_EXT, ilen in *. rewrite D, D'. cbn [obind]. unfold count. rewrite wrap_len by exact HN.
  destruct (Z.ltb_spec P 1); cbn [orb]; [split; [lia|reflexivity]|].
  destruct (Z.ltb_spec (Z.of_nat (length s)) P); [split; [lia|reflexivity]|].
  rewrite stop_spec by assumption. unfold del_stop. rewrite (proj2 (Z.leb_le 0 L) L0). cbn [obind].
  replace (L + (P - 1)) with (P - 1 + L) by lia.
  destruct (Z.ltb_spec (Z.of_nat (length s)) (P - 1 + L)); [split; [lia|reflexivity]|].
  split; [intros _ _|lia]. apply encode_to_items. apply Forall_app.
  split; [now apply Forall_firstn|]. apply Forall_app. split; [assumption|now apply Forall_skipn].
Qed.

(** ** CONCAT *)
Lemma concat_loop_app : forall k pre r n d,
  concat_loop k (length pre + n) (pre ++ r) d =
  let! d' := concat_loop k (length pre) pre d in concat_loop k n r d'.
Proof.
  intros k pre r n. induction pre as [|x pre IH]; intros d; [reflexivity|].
  cbn [length app Nat.add concat_loop]. destruct (decode k x) as [cs| |]; [|reflexivity..]. cbn [obind].
  destruct (encode k cs d) as [d'| |]; [|reflexivity..]. cbn [obind]. apply IH.
Qed.


Lemma length_forall2 : forall A B (R : A -> B -> Prop) l m, Forall2 R l m -> length l = length m.
Proof. intros A B R l m H. induction H; cbn; congruence. Qed.

(** After the texts [ts] the cursor stands behind them, on their NUL if there is one. *)
Lemma concat_prefix : forall k ts pre dest, Forall2 (holds k) pre ts ->
  (ts = [] /\ concat_loop k (length pre) pre ([], dest) = Ok ([], dest)) \/
  (ts <> [] /\ (length (units k (concat ts)) < length dest)%nat /\
   exists r, length r = (length dest - length (units k (concat ts)))%nat /\
   concat_loop k (length pre) pre ([], dest) = Ok (units k (concat ts), r)) \/
  (ts <> [] /\ (length dest <= length (units k (concat ts)))%nat /\
   concat_loop k (length pre) pre ([], dest) = Ub).
Proof.
  intros k ts pre dest H. destruct ts as [|t ts].
  - left. inversion H; subst. split; reflexivity.
  - right. rewrite (length_forall2 _ _ _ _ _ H). rewrite concat_loop_spec by (assumption || discriminate).
    destruct (Nat.ltb_spec (length (units k (concat (t :: ts)))) (length dest)).
    + left. split; [discriminate|]. split; [assumption|]. eexists. split; [|reflexivity].
      cbn [length]. rewrite skipn_length. lia.
    + right. split; [discriminate|]. split; [assumption|reflexivity].
Qed.

Lemma argc_split : forall (pre : list (list Z)) argc, Z.of_nat (length pre) < argc ->
  exists n, Z.to_nat argc = (length pre + S n)%nat.
Proof. intros pre argc L. exists (Z.to_nat argc - length pre - 1)%nat. lia. Qed.

Lemma concat_not_utf8 : forall ts pre src extra argc dest, Forall2 (holds STRING) pre ts -> not_utf8 src ->
  Z.of_nat (length pre) < argc ->
  (ts = [] \/ fits STRING (concat ts) dest ->
     CONCAT STRING (Some dest) argc (Some (pre ++ src :: extra)) = Panic) /\
  (ts <> [] -> ~ fits STRING (concat ts) dest ->
     CONCAT STRING (Some dest) argc (Some (pre ++ src :: extra)) = Ub).
Proof.
  intros ts pre src extra argc dest H N L. unfold CONCAT.
  destruct (argc_split pre argc L) as [n ->]. rewrite concat_loop_app.
  unfold fits. destruct (concat_prefix STRING ts pre dest H) as [[E C]|[(E & F & r & Lr & C)|(E & F & C)]];
    rewrite C; cbn [obind concat_loop]; rewrite ?(not_utf8_decode src N); (split; [|try reflexivity; try lia; congruence]).
  - reflexivity.
  - reflexivity.
  - intros [A|A]; [congruence|lia].
Qed.

Lemma concat_items : forall k ts pre src t rest extra argc dest, Forall2 (holds k) pre ts ->
  has_items k src (map Some t ++ None :: rest) -> Z.of_nat (length pre) < argc ->
  let o := CONCAT k (Some dest) argc (Some (pre ++ src :: extra)) in
  (fits k (concat ts ++ t) dest -> o = Panic) /\
  ((length dest < length (units k (concat ts ++ t)))%nat -> o = Ub) /\
  (o = Panic \/ o = Ub).
Proof.
  intros k ts pre src t rest extra argc dest H I L. cbv zeta. unfold CONCAT.
  destruct (argc_split pre argc L) as [n ->]. rewrite concat_loop_app.
  apply items_decode in I. destruct I as [D F]. apply proper_scalars in F.
  unfold fits. rewrite units_app, app_length.
  destruct (concat_prefix k ts pre dest H) as [[-> C]|[(E & G & r & Lr & C)|(E & G & C)]];
    rewrite C; cbn [obind concat_loop]; rewrite ?D; cbn [obind]; rewrite ?(encode_bad k t rest _ _ F).
  - cbn [concat]. rewrite units_nil'. cbn [length Nat.add].
    destruct (Nat.leb_spec (length (units k t)) (length dest)); cbn [obind omap];
      (split; [|split]); auto; lia.
  - rewrite Lr. destruct (Nat.leb_spec (length (units k t)) (length dest - length (units k (concat ts))));
      cbn [obind omap]; (split; [|split]); auto; lia.
  - split; [lia|]. split; [reflexivity|now right].
Qed.

(** ** FIND *)
Lemma any_find : forall p k src1 src2 h n, reads src1 h -> reads src2 n ->
  (n = [] \/ (forall i, ~ occurs_at n h i) -> FIND p k src1 src2 = Ok 0) /\
  (forall i, n <> [] -> first_at n h i -> FIND p k src1 src2 =
     let! c := match k with
               | STRING => let! cs := unwrap (utf8_decode (firstn i h)) in Ok (Z.of_nat (length cs))
               | WSTRING => Ok (count (decode_utf16 (firstn i h)))
               end in arith p i32 (wrap i32 c + 1)).
Proof.
  intros p k src1 src2 h n R1 R2. unfold FIND.
  rewrite (reads_slice _ _ R1), (reads_slice _ _ R2). cbn [obind].
  destruct n as [|u n].
  { cbn [length]. rewrite !orb_true_r. split; [reflexivity|congruence]. }
  set (m := u :: n) in *. assert (N : m <> []) by discriminate.
  assert (PS := position_spec m h N).
  assert (Lm : (0 < length m)%nat) by (cbn; lia).
  destruct (Nat.ltb_spec (length h) (length m)).
  { cbn [orb]. split; [reflexivity|]. intros i _ [O _]. apply occurs_len in O. lia. }
  destruct (Nat.eqb_spec (length h) 0); [lia|]. destruct (Nat.eqb_spec (length m) 0); [lia|]. cbn [orb].
  destruct (position m h) as [j|].
  - split.
    + intros [A|A]; [congruence|]. destruct PS as [O _]. now apply A in O.
    + intros i _ Fi. now rewrite (first_at_unique _ _ _ _ Fi PS).
  - split; [reflexivity|]. intros i _ [O _]. now apply PS in O.
Qed.

Lemma find_bytes : forall p src1 src2 h n i, reads src1 h -> reads src2 n -> n <> [] -> first_at n h i ->
  (forall t, Forall is_scalar t -> firstn i h = units STRING t -> slen t < 2 ^ 31 - 1 ->
     FIND p STRING src1 src2 = Ok (slen t + 1)) /\
  ((forall t, Forall is_scalar t -> firstn i h <> units STRING t) -> FIND p STRING src1 src2 = Panic).
Proof.
  intros p src1 src2 h n i R1 R2 N Fi. rewrite (proj2 (any_find p STRING _ _ _ _ R1 R2) i N Fi). split.
  - intros t S E L. rewrite E. unfold units. rewrite decode8_text by exact S. cbn [unwrap obind].
    unfold slen in *. change (2 ^ 31 - 1) with 2147483647 in L.
    rewrite wrap_len by (change (2 ^ 31) with 2147483648; lia).
    apply arith_ok. change (-2147483648 <= Z.of_nat (length t) + 1 <= 2147483647). lia.
  - intros A. destruct (utf8_decode (firstn i h)) as [t|] eqn:D; [|reflexivity].
    apply utf8_decode_inv in D. destruct D as [S E]. now apply A in E.
Qed.
Lemma find_words : forall p src1 src2 h n i items, reads src1 h -> reads src2 n -> n <> [] -> first_at n h i ->
  utf16_parse (firstn i h) items -> ilen items < 2 ^ 31 - 1 ->
  FIND p WSTRING src1 src2 = Ok (ilen items + 1).
Proof.
  intros p src1 src2 h n i items R1 R2 N Fi P L. rewrite (proj2 (any_find p WSTRING _ _ _ _ R1 R2) i N Fi).
  rewrite (parse_decode _ _ P). cbn [obind]. unfold count, ilen in *. change (2 ^ 31 - 1) with 2147483647 in L.
  rewrite wrap_len by (change (2 ^ 31) with 2147483648; lia).
  apply arith_ok. change (-2147483648 <= Z.of_nat (length items) + 1 <= 2147483647). lia.
Qed.

(** ** Strings that are not UTF-8 and strings without NUL *)
Lemma first_not_utf8 : forall p src other L P dest, not_utf8 src ->
  LEN STRING src = Panic /\ LEFT_EXT STRING src L dest = Panic /\ RIGHT_EXT STRING src L dest = Panic /\
  MID_EXT p STRING src L P dest = Panic /\ INSERT_EXT STRING src other P dest = Panic /\
  DELETE_EXT p STRING src L P dest = Panic /\ REPLACE_EXT p STRING src other L P dest = Panic /\
  STRING_TO_WSTRING_EXT src dest = Panic.
Proof.
  intros p src other L P dest N. apply not_utf8_decode in N.
  unfold LEN, LEFT_EXT, RIGHT_EXT, MID_EXT, INSERT_EXT, DELETE_EXT, REPLACE_EXT, STRING_TO_WSTRING_EXT.
  rewrite N. cbn [obind]. repeat split; destruct (L <? 0); reflexivity.
Qed.
Lemma second_not_utf8 : forall p base s other L P dest, holds STRING base s -> not_utf8 other ->
  INSERT_EXT STRING base other P dest = Panic /\ REPLACE_EXT p STRING base other L P dest = Panic.
Proof.
  intros p base s other L P dest H N. apply not_utf8_decode in N. apply decode_holds in H.
  unfold INSERT_EXT, REPLACE_EXT. rewrite H, N. cbn [obind]. split.
  - destruct (_ || _); reflexivity.
  - destruct (_ || _); [reflexivity|].
    destruct (arith p usize _) as [stop| |] eqn:A; cbn [obind].
    + destruct (_ <? stop); reflexivity.
    + reflexivity.
    + unfold arith in A. destruct (in_ityb _ _); [discriminate|]. destruct p; discriminate.
Qed.
Lemma first_unterminated : forall p k src other L P dest, Forall (fun u => u <> 0) src ->
  LEN k src = Ub /\
  (0 <= L -> LEFT_EXT k src L dest = Ub /\ RIGHT_EXT k src L dest = Ub /\ MID_EXT p k src L P dest = Ub) /\
  INSERT_EXT k src other P dest = Ub /\ DELETE_EXT p k src L P dest = Ub /\
  REPLACE_EXT p k src other L P dest = Ub /\
  STRING_TO_WSTRING_EXT src dest = Ub /\ WSTRING_TO_STRING_EXT src dest = Ub /\
  FIND p k src other = Ub.
Proof.
  intros p k src other L P dest F.
  assert (N := unterminated_decode k src F). assert (N8 := unterminated_decode STRING src F).
  assert (N16 := unterminated_decode WSTRING src F).
  unfold LEN, LEFT_EXT, RIGHT_EXT, MID_EXT, INSERT_EXT, DELETE_EXT, REPLACE_EXT, STRING_TO_WSTRING_EXT,
    WSTRING_TO_STRING_EXT, FIND.
  rewrite N, N8, N16. cbn [obind].
  assert (E : ptr_to_slice src = Ub).
  { destruct (slice_cases src) as [(s & rest & -> & _ & _)|[_ E]]; [|exact E].
    apply Forall_app in F. destruct F as [_ F]. inversion F. congruence. }
  rewrite E. split; [reflexivity|]. split.
  - intros HL. destruct (Z.ltb_spec L 0); [lia|]. auto.
  - repeat split; reflexivity.
Qed.
Lemma every_string : forall k src, Forall (unit_ok k) src ->
  (exists items, has_items k src items) \/ (k = STRING /\ not_utf8 src) \/ Forall (fun u => u <> 0) src.
Proof.
  intros k src U. destruct (slice_cases src) as [(s & rest & -> & N & _)|[F _]]; [|now right; right].
  assert (R : reads (s ++ 0 :: rest) s) by (split; [exact N|now exists rest]).
  destruct k.
  - destruct (utf8_decode s) as [t|] eqn:D.
    + left. exists (map Some t). exists t. apply utf8_decode_inv in D. destruct D as [S E]. split; [|reflexivity].
      split; [|exists rest; now rewrite E].
      rewrite E in N. clear -S N. induction S as [|c t Sc S IH]; [constructor|]. cbn [flat_map] in N.
      apply Forall_app in N. destruct N as [N1 N2]. constructor; [|now apply IH].
      split; [exact Sc|]. intros ->. inversion N1. congruence.
    + right; left. split; [reflexivity|]. exists s. split; [exact R|]. intros t S E.
      assert (D' := decode8_text t S). unfold units in E. rewrite <- E in D'. congruence.
  - left. apply Forall_app in U. destruct U as [U _]. exists (decode_utf16 s). exists s.
    split; [exact R|now apply utf16_decode_parse].
Qed.
Lemma find_none : forall p k src1 src2 h n, reads src1 h -> reads src2 n ->
  (n = [] \/ (forall i, ~ occurs_at n h i) -> FIND p k src1 src2 = Ok 0).
Proof. intros p k src1 src2 h n R1 R2. exact (proj1 (any_find p k src1 src2 h n R1 R2)). Qed.
