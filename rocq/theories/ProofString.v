(** Lemmas about the string functions. *)
From Coq Require Import ZArith List Bool Lia.
From Verif Require Import Base ModelText ModelString SpecText ProofBase ProofText.
Import ListNotations.
Open Scope Z_scope.

Lemma skipn_skipn : forall (x y : nat) (l : list Z), skipn x (skipn y l) = skipn (x + y) l.
Proof.
  intros x y. revert x. induction y as [|y IH]; intros x l.
  - now rewrite Nat.add_0_r.
  - destruct l as [|a l]; [now rewrite !skipn_nil|]. rewrite Nat.add_succ_r. cbn [skipn]. apply IH.
Qed.

Lemma in_usize : forall x, in_ity usize x <-> 0 <= x <= 18446744073709551615.
Proof. intros x. reflexivity. Qed.

Definition enc (k : kind) : Z -> list Z := match k with STRING => utf8_char | WSTRING => utf16_char end.
Lemma units_enc : forall k t, units k t = flat_map (enc k) t.
Proof. intros [] t; reflexivity. Qed.
Lemma units_app : forall k a b, units k (a ++ b) = units k a ++ units k b.
Proof. intros k a b. rewrite !units_enc. apply flat_map_app. Qed.
Lemma units_cons : forall k c t, units k (c :: t) = enc k c ++ units k t.
Proof. intros k c t. now rewrite !units_enc. Qed.

(** Lead units and continuation units. *)
Definition cont (k : kind) (u : Z) : bool :=
  match k with STRING => between 0x80 u 0xBF | WSTRING => between 0xDC00 u 0xDFFF end.
Lemma enc_shape : forall k c, is_scalar c -> exists u r, enc k c = u :: r /\ cont k u = false /\
  Forall (fun v => cont k v = true /\ v <> 0) r /\ (c <> 0 -> u <> 0) /\ Forall (unit_ok k) (u :: r).
Proof.
  intros k c S. assert (R : 0 <= c < 0x110000) by (unfold is_scalar in S; lia).
  destruct k; unfold enc, cont, unit_ok.
  - unfold utf8_char. destruct (Z.ltb_spec c 0x80).
    { exists c, []. split; [reflexivity|]. split; [apply between_not; lia|].
      split; [constructor|]. split; [auto|]. repeat constructor; lia. }
    destruct (Z.ltb_spec c 0x800).
    { eexists _, _. split; [reflexivity|]. split; [apply between_not; divs|].
      split; [repeat constructor; try (apply between_iff; divs); divs|].
      split; [intros _; divs|]. repeat constructor; divs. }
    destruct (Z.ltb_spec c 0x10000).
    { eexists _, _. split; [reflexivity|]. split; [apply between_not; divs|].
      split; [repeat constructor; try (apply between_iff; divs); divs|].
      split; [intros _; divs|]. repeat constructor; divs. }
    eexists _, _. split; [reflexivity|]. split; [apply between_not; divs|].
    split; [repeat constructor; try (apply between_iff; divs); divs|].
    split; [intros _; divs|]. repeat constructor; divs.
  - unfold utf16_char. destruct (Z.ltb_spec c 0x10000).
    { exists c, []. split; [reflexivity|]. split; [apply between_not; unfold is_scalar in S; lia|].
      split; [constructor|]. split; [auto|]. repeat constructor; lia. }
    eexists _, _. split; [reflexivity|]. split; [apply between_not; divs|].
    split; [repeat constructor; try (apply between_iff; divs); divs|].
    split; [intros _; divs|]. repeat constructor; divs.
Qed.

Lemma enc_nonempty : forall k c, is_scalar c -> enc k c <> [].
Proof. intros k c S. destruct (enc_shape k c S) as (u & r & -> & _). discriminate. Qed.

Lemma enc_nonzero : forall k c, is_scalar c -> c <> 0 -> Forall (fun u => u <> 0) (enc k c).
Proof.
  intros k c S N. destruct (enc_shape k c S) as (u & r & -> & _ & H & U & _).
  constructor; [auto|]. eapply Forall_impl; [|exact H]. now intros a [_ ?].
Qed.
Lemma units_nonzero : forall k t, text t -> Forall (fun u => u <> 0) (units k t).
Proof.
  intros k t T. induction T as [|c t [S N] T IH]; [rewrite units_enc; constructor|].
  rewrite units_cons. apply Forall_app. split; [now apply enc_nonzero|exact IH].
Qed.

Lemma text_scalar : forall t, text t -> Forall is_scalar t.
Proof. intros t T. eapply Forall_impl; [|exact T]. now intros a [? _]. Qed.
Lemma text_app : forall a b, text (a ++ b) <-> text a /\ text b.
Proof. intros. unfold text. apply Forall_app. Qed.
Lemma text_firstn : forall n t, text t -> text (firstn n t).
Proof. intros n t T. rewrite <- (firstn_skipn n t) in T. now apply text_app in T. Qed.
Lemma text_skipn : forall n t, text t -> text (skipn n t).
Proof. intros n t T. rewrite <- (firstn_skipn n t) in T. now apply text_app in T. Qed.

(** ** Reading *)
Lemma slice_of : forall s rest, Forall (fun u => u <> 0) s -> ptr_to_slice (s ++ 0 :: rest) = Ok s.
Proof.
  intros s rest H. unfold ptr_to_slice.
  assert (L : get_null_terminated_len (s ++ 0 :: rest) = Ok (length s)).
  { induction H as [|u s N H IH]; [reflexivity|]. cbn [app get_null_terminated_len].
    destruct (Z.eqb_spec u 0); [contradiction|]. now rewrite IH. }
  rewrite L. cbn [obind]. f_equal. rewrite firstn_app, Nat.sub_diag, firstn_all. apply app_nil_r.
Qed.
(** Every terminated memory is of that form, all others are read past their end. *)
Lemma slice_cases : forall src,
  (exists s rest, src = s ++ 0 :: rest /\ Forall (fun u => u <> 0) s /\ ptr_to_slice src = Ok s) \/
  (Forall (fun u => u <> 0) src /\ ptr_to_slice src = Ub).
Proof.
  induction src as [|u src IH].
  - right. split; [constructor|reflexivity].
  - destruct (Z.eq_dec u 0) as [->|N].
    + left. exists [], src. repeat split. constructor.
    + destruct IH as [(s & rest & -> & F & E)|[F E]].
      * left. exists (u :: s), rest. split; [reflexivity|]. split; [now constructor|].
        change (u :: s ++ 0 :: rest) with ((u :: s) ++ 0 :: rest). apply slice_of. now constructor.
      * right. split; [now constructor|]. unfold ptr_to_slice in *. cbn [get_null_terminated_len].
        destruct (Z.eqb_spec u 0); [contradiction|].
        destruct (get_null_terminated_len src); cbn in *; congruence.
Qed.

Lemma decode8_text : forall t, Forall is_scalar t -> utf8_decode (flat_map utf8_char t) = Some t.
Proof.
  induction 1 as [|c t S T IH]; [reflexivity|]. cbn [flat_map].
  rewrite utf8_decode_char by exact S. now rewrite IH.
Qed.
Lemma decode16_text : forall t, Forall is_scalar t -> decode_utf16 (flat_map utf16_char t) = map Some t.
Proof.
  induction 1 as [|c t S T IH]; [reflexivity|]. cbn [flat_map map].
  rewrite utf16_decode_char by exact S. now rewrite IH.
Qed.

Lemma decode_holds : forall k src t, holds k src t -> decode k src = Ok (map Some t).
Proof.
  intros k src t [T (rest & ->)]. unfold decode. rewrite slice_of by (now apply units_nonzero).
  cbn [obind]. pose proof (text_scalar t T) as S. destruct k.
  - unfold units. now rewrite decode8_text.
  - unfold units. now rewrite decode16_text.
Qed.

Lemma count_map : forall t, count (map Some t) = Z.of_nat (length t).
Proof. intros t. unfold count. now rewrite map_length. Qed.
Lemma wrap_len : forall n, Z.of_nat n < 2 ^ 31 -> wrap i32 (Z.of_nat n) = Z.of_nat n.
Proof.
  intros n H. apply wrap_id; [reflexivity|]. change (2 ^ 31) with 2147483648 in H.
  split; cbn; lia.
Qed.

(** ** Writing *)
Lemma encode_char_spec : forall k c, is_scalar c -> encode_char k c = enc k c.
Proof. intros [] c S; [now apply encode_utf8_spec|now apply encode_utf16_spec]. Qed.

Lemma put_all_spec : forall us b a, put_all us (b, a) =
  if (length us <=? length a)%nat then Ok (b ++ us, skipn (length us) a) else Ub.
Proof.
  induction us as [|u us IH]; intros b a; cbn [put_all length].
  - simpl. now rewrite app_nil_r.
  - destruct a as [|x a]; [reflexivity|]. unfold put. cbn [snd fst obind]. rewrite IH.
    cbn [length Nat.leb skipn]. destruct (length us <=? length a)%nat; [|reflexivity].
    now rewrite <- app_assoc.
Qed.

Lemma encode_loop_spec : forall k t b a, Forall is_scalar t ->
  encode_loop k (map Some t) (b, a) =
  if (length (units k t) <=? length a)%nat
  then Ok (b ++ units k t, skipn (length (units k t)) a) else Ub.
Proof.
  intros k t b a S. revert b a. induction S as [|c t Sc S IH]; intros b a.
  - cbn [map encode_loop]. rewrite units_enc. simpl. now rewrite app_nil_r.
  - cbn [map encode_loop unwrap obind]. rewrite encode_char_spec by exact Sc.
    rewrite put_all_spec, units_cons, app_length.
    destruct (Nat.leb_spec (length (enc k c)) (length a)); cbn [obind].
    + rewrite IH, skipn_length, <- app_assoc.
      destruct (Nat.leb_spec (length (units k t)) (length a - length (enc k c)));
        destruct (Nat.leb_spec (length (enc k c) + length (units k t)) (length a)); try lia.
      * do 2 f_equal. rewrite skipn_skipn. f_equal. lia.
      * reflexivity.
    + destruct (Nat.leb_spec (length (enc k c) + length (units k t)) (length a)); [lia|reflexivity].
Qed.

Lemma encode_spec : forall k t b a, Forall is_scalar t ->
  encode k (map Some t) (b, a) =
  if (length (units k t) <? length a)%nat
  then Ok (b ++ units k t, 0 :: skipn (length (units k t) + 1) a) else Ub.
Proof.
  intros k t b a S. unfold encode. rewrite encode_loop_spec by exact S.
  set (n := length (units k t)).
  destruct (Nat.leb_spec n (length a)); cbn [obind].
  - unfold put_nul. cbn [snd fst].
    destruct (skipn n a) as [|x r] eqn:E.
    + apply (f_equal (@length Z)) in E. rewrite skipn_length in E. cbn in E.
      destruct (Nat.ltb_spec n (length a)); [lia|reflexivity].
    + assert (L := f_equal (@length Z) E). rewrite skipn_length in L. cbn in L.
      destruct (Nat.ltb_spec n (length a)); [|lia]. do 3 f_equal.
      replace (n + 1)%nat with (1 + n)%nat by lia. rewrite <- skipn_skipn, E. reflexivity.
  - destruct (Nat.ltb_spec n (length a)); [lia|reflexivity].
Qed.

Lemma encode_to_spec : forall k t dest, Forall is_scalar t ->
  encode_to k (map Some t) dest =
  if (length (units k t) <? length dest)%nat then Ok (written k t dest) else Ub.
Proof.
  intros k t dest S. unfold encode_to. rewrite encode_spec by exact S.
  destruct (length (units k t) <? length dest)%nat; reflexivity.
Qed.

Lemma fits_b : forall k t dest, fits k t dest <-> (length (units k t) <? length dest)%nat = true.
Proof. intros. unfold fits. now rewrite Nat.ltb_lt. Qed.

Lemma map_Some_inj : forall a b : list Z, map Some a = map Some b -> a = b.
Proof.
  induction a as [|x a IH]; intros [|y b] E; try discriminate; [reflexivity|].
  injection E as -> E. f_equal. now apply IH.
Qed.

Lemma written_length : forall k t dest, fits k t dest -> length (written k t dest) = length dest.
Proof.
  intros k t dest F. unfold fits in F. unfold written.
  rewrite app_length. cbn [length]. rewrite skipn_length. lia.
Qed.
Lemma written_holds : forall k t dest, text t -> holds k (written k t dest) t.
Proof. intros k t dest T. split; [exact T|]. eexists. reflexivity. Qed.

(** Outcome of writing: [Ok (written ...)] or, without room, [Ub]. *)
Definition write (k : kind) (t dest : list Z) : outcome (list Z) :=
  if (length (units k t) <? length dest)%nat then Ok (written k t dest) else Ub.
Lemma write_fits : forall k t dest, fits k t dest -> write k t dest = Ok (written k t dest).
Proof. intros k t dest F. unfold write. now rewrite (proj1 (fits_b _ _ _) F). Qed.

(** ** The functions on texts *)
Lemma len_text : forall k src t, holds k src t ->
  LEN k src = Ok (wrap i32 (Z.of_nat (length t))).
Proof.
  intros k src t H. unfold LEN. rewrite (decode_holds k src t H). cbn [obind].
  now rewrite count_map.
Qed.

Lemma left_text : forall k src t L dest, holds k src t ->
  LEFT_EXT k src L dest =
  if (0 <=? L) && (L <=? Z.of_nat (length t)) then write k (firstn (Z.to_nat L) t) dest else Panic.
Proof.
  intros k src t L dest H. unfold LEFT_EXT. rewrite (decode_holds k src t H). cbn [obind].
  rewrite count_map, firstn_map.
  destruct (Z.ltb_spec L 0), (Z.leb_spec 0 L); try lia; cbn [andb]; [reflexivity|].
  destruct (Z.ltb_spec (Z.of_nat (length t)) L), (Z.leb_spec L (Z.of_nat (length t))); try lia;
    [reflexivity|].
  apply encode_to_spec. apply text_scalar, text_firstn. apply H.
Qed.

Lemma right_text : forall k src t L dest, holds k src t ->
  RIGHT_EXT k src L dest =
  if (0 <=? L) && (L <=? Z.of_nat (length t))
  then write k (skipn (length t - Z.to_nat L) t) dest else Panic.
Proof.
  intros k src t L dest H. unfold RIGHT_EXT. rewrite (decode_holds k src t H). cbn [obind].
  rewrite count_map.
  destruct (Z.ltb_spec L 0), (Z.leb_spec 0 L); try lia; cbn [andb]; [reflexivity|].
  destruct (Z.ltb_spec (Z.of_nat (length t)) L), (Z.leb_spec L (Z.of_nat (length t))); try lia;
    [reflexivity|].
  rewrite skipn_map. replace (Z.to_nat (Z.of_nat (length t) - L)) with (length t - Z.to_nat L)%nat by lia.
  apply encode_to_spec. apply text_scalar, text_skipn. apply H.
Qed.

Lemma mid_text : forall p k src t L P dest, holds k src t -> in_ity i32 L -> in_ity i32 P ->
  Z.of_nat (length t) < 2 ^ 63 ->
  MID_EXT p k src L P dest =
  if (0 <=? L) && (1 <=? P) && (P - 1 + L <=? Z.of_nat (length t)) && (P <=? Z.of_nat (length t))
  then write k (firstn (Z.to_nat L) (skipn (Z.to_nat (P - 1)) t)) dest else Panic.
Proof.
  intros p k src t L P dest H HL HP HN. unfold MID_EXT. rewrite (decode_holds k src t H). cbn [obind].
  rewrite count_map. change (2 ^ 63) with 9223372036854775808 in HN.
  assert (RL : -2147483648 <= L <= 2147483647) by exact HL.
  assert (RP : -2147483648 <= P <= 2147483647) by exact HP.
  destruct (Z.ltb_spec L 0), (Z.leb_spec 0 L); try lia; cbn [andb]; [reflexivity|].
  destruct (Z.leb_spec 1 P); cbn [andb].
  - assert (W : wrap usize P = P) by (apply wrap_id; [reflexivity|]; apply in_usize; lia).
    rewrite W. destruct (Z.ltb_spec P 1); [lia|]. cbn [orb].
    destruct (Z.ltb_spec (Z.of_nat (length t)) P), (Z.leb_spec P (Z.of_nat (length t))); try lia.
    + now rewrite andb_false_r.
    + rewrite andb_true_r.
      assert (A : arith p usize (L + (P - 1)) = Ok (L + (P - 1))).
      { apply arith_ok. apply in_usize; lia. }
      rewrite A. cbn [obind].
      destruct (Z.ltb_spec (Z.of_nat (length t)) (L + (P - 1))),
        (Z.leb_spec (P - 1 + L) (Z.of_nat (length t))); try lia; [reflexivity|].
      rewrite skipn_map, firstn_map. apply encode_to_spec. apply text_scalar, text_firstn, text_skipn.
      apply H.
  - destruct (Z.eq_dec P 0) as [->|N]; [reflexivity|].
    assert (W : wrap usize P = P + 18446744073709551616).
    { unfold wrap, usize, u64. cbn [it_signed it_bits]. change (2 ^ 64) with 18446744073709551616.
      rewrite <- (Z.mod_add P 1) by lia. apply Z.mod_small. lia. }
    rewrite W. destruct (Z.ltb_spec (P + 18446744073709551616) 1); [lia|]. cbn [orb].
    destruct (Z.ltb_spec (Z.of_nat (length t)) (P + 18446744073709551616)); [reflexivity|lia].
Qed.

Lemma insert_text : forall k base ins s t P dest, holds k base s -> holds k ins t ->
  INSERT_EXT k base ins P dest =
  if (0 <=? P) && (P <=? wrap i32 (Z.of_nat (length s)))
  then write k (firstn (Z.to_nat P) s ++ t ++ skipn (Z.to_nat P) s) dest else Panic.
Proof.
  intros k base ins s t P dest Hs Ht. unfold INSERT_EXT.
  rewrite (decode_holds k base s Hs), (decode_holds k ins t Ht). cbn [obind]. rewrite count_map.
  set (n := wrap i32 _). clearbody n.
  destruct (Z.ltb_spec P 0), (Z.leb_spec 0 P); try lia; cbn [orb andb]; [reflexivity|].
  destruct (Z.ltb_spec n P), (Z.leb_spec P n); try lia; [reflexivity|].
  rewrite firstn_map, skipn_map, <- !map_app. apply encode_to_spec. apply text_scalar.
  destruct Hs as [Hs _], Ht as [Ht _].
  apply text_app. split; [now apply text_firstn|]. apply text_app. split; [exact Ht|now apply text_skipn].
Qed.

(** The stop index DELETE and REPLACE compute. *)
Definition del_stop (p : profile) (L P : Z) : outcome Z :=
  if 0 <=? L then Ok (L + (P - 1))
  else if P - 1 + L <? 0 then Ok (18446744073709551616 + L + (P - 1))
  else match p with Debug => Panic | Release => Ok (P - 1 + L) end.
Lemma stop_spec : forall p L P, in_ity i32 L -> in_ity i32 P -> 1 <= P ->
  arith p usize (wrap usize L + (P - 1)) = del_stop p L P.
Proof.
  intros p L P HL HP H1.
  assert (RL : -2147483648 <= L <= 2147483647) by exact HL.
  assert (RP : -2147483648 <= P <= 2147483647) by exact HP.
  unfold del_stop. destruct (Z.leb_spec 0 L).
  - rewrite wrap_id; [|reflexivity|apply in_usize; lia]. apply arith_ok. apply in_usize; lia.
  - assert (W : wrap usize L = 18446744073709551616 + L).
    { unfold wrap, usize, u64. cbn [it_signed it_bits]. change (2 ^ 64) with 18446744073709551616.
      rewrite <- (Z.mod_add L 1) by lia. rewrite Z.mod_small; lia. }
    rewrite W. destruct (Z.ltb_spec (P - 1 + L) 0).
    + apply arith_ok. apply in_usize; lia.
    + unfold arith. replace (in_ityb usize _) with false.
      * destruct p; [reflexivity|]. f_equal. unfold wrap, usize, u64. cbn [it_signed it_bits].
        change (2 ^ 64) with 18446744073709551616.
        replace (18446744073709551616 + L + (P - 1)) with (P - 1 + L + 1 * 18446744073709551616) by lia.
        rewrite Z.mod_add by lia. apply Z.mod_small. lia.
      * symmetry. apply not_true_iff_false. rewrite in_ityb_iff, in_usize. lia.
Qed.

Lemma delete_text : forall p k src t L P dest, holds k src t -> in_ity i32 L -> in_ity i32 P ->
  Z.of_nat (length t) < 2 ^ 63 ->
  DELETE_EXT p k src L P dest =
  if (1 <=? P) && (P <=? wrap i32 (Z.of_nat (length t)))
  then let! stop := del_stop p L P in
       if stop <=? Z.of_nat (length t)
       then write k (firstn (Z.to_nat (P - 1)) t ++ skipn (Z.to_nat stop) t) dest else Panic
  else Panic.
Proof.
  intros p k src t L P dest H HL HP HN. unfold DELETE_EXT.
  rewrite (decode_holds k src t H). cbn [obind]. rewrite count_map.
  set (n := wrap i32 _). clearbody n.
  destruct (Z.ltb_spec P 1), (Z.leb_spec 1 P); try lia; cbn [orb andb]; [reflexivity|].
  destruct (Z.ltb_spec n P), (Z.leb_spec P n); try lia; [reflexivity|].
  rewrite stop_spec by assumption. destruct (del_stop p L P) as [stop| |]; [|reflexivity..].
  cbn [obind].
  destruct (Z.ltb_spec (Z.of_nat (length t)) stop), (Z.leb_spec stop (Z.of_nat (length t))); try lia;
    [reflexivity|].
  rewrite firstn_map, skipn_map, <- !map_app. apply encode_to_spec. apply text_scalar.
  destruct H as [H _]. apply text_app. split; [now apply text_firstn|now apply text_skipn].
Qed.

Lemma replace_text : forall p k base rep s t L P dest, holds k base s -> holds k rep t ->
  in_ity i32 L -> in_ity i32 P -> Z.of_nat (length s) < 2 ^ 63 ->
  REPLACE_EXT p k base rep L P dest =
  if (1 <=? P) && (P <=? wrap i32 (Z.of_nat (length s)))
  then let! stop := del_stop p L P in
       if stop <=? Z.of_nat (length s)
       then write k (firstn (Z.to_nat (P - 1)) s ++ t ++ skipn (Z.to_nat stop) s) dest else Panic
  else Panic.
Proof.
  intros p k base rep s t L P dest H Ht HL HP HN. unfold REPLACE_EXT.
  rewrite (decode_holds k base s H), (decode_holds k rep t Ht). cbn [obind]. rewrite count_map.
  set (n := wrap i32 _). clearbody n.
  destruct (Z.ltb_spec P 1), (Z.leb_spec 1 P); try lia; cbn [orb andb]; [reflexivity|].
  destruct (Z.ltb_spec n P), (Z.leb_spec P n); try lia; [reflexivity|].
  rewrite stop_spec by assumption. destruct (del_stop p L P) as [stop| |]; [|reflexivity..].
  cbn [obind].
  destruct (Z.ltb_spec (Z.of_nat (length s)) stop), (Z.leb_spec stop (Z.of_nat (length s))); try lia;
    [reflexivity|].
  rewrite firstn_map, skipn_map, <- !map_app. apply encode_to_spec. apply text_scalar.
  destruct H as [H _], Ht as [Ht _].
  apply text_app. split; [now apply text_firstn|]. apply text_app. split; [exact Ht|now apply text_skipn].
Qed.

(** ** CONCAT *)
Lemma concat_loop_spec : forall k ts argv b a, Forall2 (holds k) argv ts -> ts <> [] ->
  concat_loop k (length ts) argv (b, a) =
  if (length (units k (concat ts)) <? length a)%nat
  then Ok (b ++ units k (concat ts), 0 :: skipn (length (units k (concat ts)) + 1) a) else Ub.
Proof.
  intros k ts argv b a H. revert b a. induction H as [|src t argv ts Ht H IH]; intros b a N;
    [congruence|]. clear N.
  cbn [length concat_loop]. rewrite (decode_holds k src t Ht). cbn [obind].
  rewrite encode_spec by (apply text_scalar, Ht).
  destruct ts as [|t' ts'].
  - cbn [concat length concat_loop]. rewrite app_nil_r.
    inversion H; subst.
    destruct (length (units k t) <? length a)%nat; reflexivity.
  - set (us := t' :: ts') in *. cbn [concat]. rewrite units_app, app_length.
    destruct (Nat.ltb_spec (length (units k t)) (length a)); cbn [obind].
    + rewrite IH by discriminate. cbn [length]. rewrite skipn_length.
      destruct (Nat.ltb_spec (length (units k (concat us))) (S (length a - (length (units k t) + 1))));
        destruct (Nat.ltb_spec (length (units k t) + length (units k (concat us))) (length a)); try lia;
        [|reflexivity].
      rewrite <- app_assoc. do 3 f_equal. rewrite Nat.add_1_r at 1. cbn [skipn].
      rewrite skipn_skipn. f_equal. lia.
    + destruct (Nat.ltb_spec (length (units k t) + length (units k (concat us))) (length a));
        [lia|reflexivity].
Qed.

Lemma concat_text : forall k ts argv extra dest, Forall2 (holds k) argv ts -> ts <> [] ->
  CONCAT k (Some dest) (Z.of_nat (length ts)) (Some (argv ++ extra)) = write k (concat ts) dest.
Proof.
  intros k ts argv extra dest H N. unfold CONCAT. rewrite Nat2Z.id.
  assert (E : forall n l d, (n <= length l)%nat -> concat_loop k n (l ++ extra) d = concat_loop k n l d).
  { induction n; intros l d L; [reflexivity|]. destruct l as [|x l]; [cbn in L; lia|].
    cbn [app concat_loop]. destruct (decode k x); [|reflexivity..]. cbn [obind].
    destruct (encode k a d); [|reflexivity..]. cbn [obind]. apply IHn. cbn in L. lia. }
  assert (HL : (length ts <= length argv)%nat) by (clear -H; induction H; cbn; lia).
  rewrite E by exact HL. rewrite concat_loop_spec by assumption. unfold write.
  destruct (length (units k (concat ts)) <? length dest)%nat; reflexivity.
Qed.
