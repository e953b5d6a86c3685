(** Proofs for PropertiesTail.v. *)
From Coq Require Import String ZArith List Bool Lia.
From Verif Require Import Base ModelFloat ModelScalar ModelText ModelString ModelExtra ModelWrap ModelLink ModelLib
  SpecText SpecLib SpecSafe SpecTail ProofText ProofString2.
Import ListNotations.
Open Scope list_scope.
Open Scope Z_scope.

(** * Reading *)

Lemma same_slice : forall m m' s, reads m s -> reads m' s -> ptr_to_slice m = ptr_to_slice m'.
Proof. intros m m' s R R'. now rewrite (reads_slice m s R), (reads_slice m' s R'). Qed.
Lemma same_decode : forall k m m' s, reads m s -> reads m' s -> decode k m = decode k m'.
Proof. intros k m m' s R R'. unfold decode. now rewrite (same_slice m m' s R R'). Qed.
Lemma decode_no_ub : forall k m s, reads m s -> decode k m <> Ub.
Proof.
  intros k m s R. unfold decode. rewrite (reads_slice m s R). cbn [obind].
  destruct k; [|discriminate]. destruct (utf8_decode s); discriminate.
Qed.

Lemma compare_loop_tail : forall f n prev a a', Forall2 (fun m m' => exists s, reads m s /\ reads m' s) a a' ->
  compare_loop f n prev a = compare_loop f n prev a'.
Proof.
  induction n as [|n IH]; intros prev a a' F; [reflexivity|]. destruct F as [|m m' a a' (s & R & R') F]; [reflexivity|].
  cbn [compare_loop]. rewrite (same_slice m m' s R R'). destruct (ptr_to_slice m'); [|reflexivity..].
  cbn [obind]. destruct (negb _); [reflexivity|]. now apply IH.
Qed.
Lemma compare_tail : forall f n a a', Forall2 (fun m m' => exists s, reads m s /\ reads m' s) a a' ->
  compare f n a = compare f n a'.
Proof.
  intros f n a a' F. unfold compare. destruct (n <? 2); [reflexivity|].
  destruct F as [|m m' a a' (s & R & R') F]; [reflexivity|]. rewrite (same_slice m m' s R R').
  destruct (ptr_to_slice m'); [|reflexivity..]. cbn [obind]. now apply compare_loop_tail.
Qed.
Lemma concat_loop_tail : forall k n a a' d, Forall2 (fun m m' => exists s, reads m s /\ reads m' s) a a' ->
  concat_loop k n a d = concat_loop k n a' d.
Proof.
  induction n as [|n IH]; intros a a' d F; [reflexivity|]. destruct F as [|m m' a a' (s & R & R') F]; [reflexivity|].
  cbn [concat_loop]. rewrite (same_decode k m m' s R R'). destruct (decode k m'); [|reflexivity..].
  cbn [obind]. destruct (encode k _ d); [|reflexivity..]. now apply IH.
Qed.

(** * Writing *)

Lemma skip_skip : forall (l : list Z) a b, skipn a (skipn b l) = skipn (b + a) l.
Proof.
  induction l as [|x l IH]; intros a b; [now rewrite !skipn_nil|]. destruct b; [reflexivity|]. exact (IH a b).
Qed.

Definition has_effect (g : list Z -> outcome (list Z)) : Prop := exists n r, effect g n r.

Lemma effect_ext : forall g h n r, (forall d, g d = h d) -> effect h n r -> effect g n r.
Proof. intros g h n r E H dest. rewrite E. apply H. Qed.
Lemma effect_panic : has_effect (fun _ => Panic).
Proof. exists O, None. intros dest. split; [lia|reflexivity]. Qed.
Lemma effect_bind : forall A (o : outcome A) (g : A -> list Z -> outcome (list Z)), o <> Ub ->
  (forall x, has_effect (g x)) -> has_effect (fun dest => let! x := o in g x dest).
Proof.
  intros A o g N H. destruct o as [x| |]; [exact (H x)|exact effect_panic|congruence].
Qed.
Lemma effect_if : forall (b : bool) g h, has_effect g -> has_effect h -> has_effect (fun dest => if b then g dest else h dest).
Proof. intros [] g h G H; assumption. Qed.

Lemma put_all_spec : forall us a d,
  put_all us (a, d) = if (length d <? length us)%nat then Ub else Ok (a ++ us, skipn (length us) d).
Proof.
  induction us as [|u us IH]; intros a d.
  - cbn. now rewrite app_nil_r.
  - cbn [put_all]. destruct d as [|x d]; [reflexivity|]. change (ModelString.put u (a, x :: d)) with (Ok (a ++ [u], d)). cbn [obind].
    rewrite IH. cbn [length skipn]. change (S (length d) <? S (length us))%nat with (length d <? length us)%nat.
    destruct (length d <? length us)%nat; [reflexivity|]. now rewrite <- app_assoc.
Qed.

Lemma loop_spec : forall k items, exists n r, forall a d,
  ((length d < n)%nat -> encode_loop k items (a, d) = Ub) /\
  ((n <= length d)%nat -> encode_loop k items (a, d) =
     match r with Some w => Ok (a ++ w, skipn (length w) d) | None => Panic end) /\
  match r with Some w => length w = n | None => True end.
Proof.
  intros k items. induction items as [|c items IH].
  - exists O, (Some []). intros a d. split; [lia|]. split; [|reflexivity]. intros _. cbn. now rewrite app_nil_r.
  - destruct c as [c|].
    + destruct IH as (n & r & IH). set (us := encode_char k c).
      exists (length us + n)%nat, (option_map (app us) r). intros a d. cbn [encode_loop unwrap obind]. fold us.
      rewrite put_all_spec. destruct (Nat.ltb_spec (length d) (length us)) as [L|L].
      * cbn [obind]. split; [reflexivity|]. split; [lia|]. destruct (IH a d) as (_ & _ & W).
        destruct r as [w|]; cbn; [rewrite app_length; lia|exact I].
      * cbn [obind]. destruct (IH (a ++ us) (skipn (length us) d)) as (I1 & I2 & W). rewrite skipn_length in I1, I2. split; [|split].
        -- intros H. apply I1. lia.
        -- intros H. rewrite I2 by lia. destruct r as [w|]; [|reflexivity]. cbn [option_map].
           rewrite <- app_assoc, app_length, skip_skip. reflexivity.
        -- destruct r as [w|]; cbn; [rewrite app_length; lia|exact I].
    + exists O, None. intros a d. split; [lia|]. split; [reflexivity|exact I].
Qed.

Lemma encode_spec : forall k items, exists n r, forall a d,
  ((length d < n)%nat -> encode k items (a, d) = Ub) /\
  ((n <= length d)%nat -> encode k items (a, d) =
     match r with Some w => Ok (a ++ w, 0 :: skipn (length w + 1) d) | None => Panic end) /\
  match r with Some w => (length w + 1 = n)%nat | None => True end.
Proof.
  intros k items. destruct (loop_spec k items) as (n & [w|] & H).
  - exists (n + 1)%nat, (Some w). intros a d. destruct (H a d) as (H1 & H2 & H3). unfold encode. split; [|split].
    + intros L. destruct (Nat.lt_ge_cases (length d) n) as [K|K].
      * now rewrite H1.
      * rewrite H2 by exact K. cbn [obind]. unfold put_nul. cbn [fst snd].
        replace (skipn (length w) d) with (@nil Z); [reflexivity|]. symmetry. apply skipn_all2. lia.
    + intros L. rewrite H2 by lia. cbn [obind]. unfold put_nul. cbn [fst snd].
      destruct (skipn (length w) d) as [|x rest] eqn:E.
      * apply (f_equal (@length Z)) in E. rewrite skipn_length in E. cbn in E. lia.
      * do 3 f_equal. rewrite <- skip_skip. now rewrite E.
    + lia.
  - exists n, None. intros a d. destruct (H a d) as (H1 & H2 & _). unfold encode. split; [|split; [|exact I]].
    + intros L. now rewrite H1.
    + intros L. now rewrite H2.
Qed.

Lemma effect_encode_to : forall k items, has_effect (encode_to k items).
Proof.
  intros k items. destruct (encode_spec k items) as (n & r & H).
  exists n, (option_map (fun w => w ++ [0]) r). intros dest. destruct (H [] dest) as (H1 & H2 & _). unfold encode_to. split.
  - intros L. now rewrite H1.
  - intros L. rewrite H2 by exact L. destruct r as [w|]; [|reflexivity].
    cbn [omap obind contents fst snd option_map app]. unfold contents. cbn [fst snd app].
    rewrite app_length, <- app_assoc. reflexivity.
Qed.
Lemma effect_widen : forall items, has_effect (fun dest => omap contents (encode_loop WSTRING items ([], dest))).
Proof.
  intros items. destruct (loop_spec WSTRING items) as (n & r & H). exists n, r. intros dest.
  destruct (H [] dest) as (H1 & H2 & _). split.
  - intros L. now rewrite H1.
  - intros L. rewrite H2 by exact L. destruct r; reflexivity.
Qed.
Lemma effect_buf : forall t, has_effect (write_buf t).
Proof.
  intros t. exists DEFAULT_STRING_LEN, (if (DEFAULT_STRING_LEN <? length t)%nat then None else Some t).
  intros dest. unfold write_buf. destruct (Nat.ltb_spec (length dest) DEFAULT_STRING_LEN); [split; [reflexivity|lia]|].
  split; [lia|]. intros _. now destruct (DEFAULT_STRING_LEN <? length t)%nat.
Qed.

(** CONCAT: the terminator of one piece is overwritten by the next. *)
Lemma concat_spec : forall k args, Forall (fun m => exists s, reads m s) args -> exists n r, forall a d,
  ((length d < n)%nat -> concat_loop k (length args) args (a, d) = Ub) /\
  ((n <= length d)%nat -> omap contents (concat_loop k (length args) args (a, d)) =
     match r with Some w => Ok (a ++ w ++ skipn (length w) d) | None => Panic end).
Proof.
  intros k args F. induction F as [|m args (s & R) F IH].
  - exists O, (Some []). intros a d. split; [lia|]. reflexivity.
  - destruct IH as (n & r & IH). pose proof (decode_no_ub k m s R) as NU.
    destruct (decode k m) as [cs| |] eqn:E; [| |congruence].
    + destruct (encode_spec k cs) as (n0 & [w0|] & H).
      * exists (Nat.max n0 (length w0 + n)), (option_map (fun w => match w with [] => w0 ++ [0] | _ => w0 ++ w end) r).
        intros a d. cbn [length concat_loop]. rewrite E. cbn [obind]. destruct (H a d) as (H1 & H2 & H3).
        destruct (Nat.lt_ge_cases (length d) n0) as [L|L].
        -- rewrite H1 by exact L. split; [reflexivity|lia].
        -- rewrite H2 by exact L. cbn [obind]. destruct (IH (a ++ w0) (0 :: skipn (length w0 + 1) d)) as [I1 I2].
           cbn [length] in I1, I2. rewrite skipn_length in I1, I2. split.
           ++ intros K. apply I1. lia.
           ++ intros K. rewrite I2 by lia. destruct r as [w|]; [|reflexivity]. cbn [option_map]. f_equal.
              rewrite <- app_assoc. f_equal. destruct w as [|u w].
              ** cbn [app length skipn]. rewrite <- app_assoc, app_length. reflexivity.
              ** rewrite <- app_assoc. f_equal. f_equal. rewrite app_length. cbn [length skipn].
                 rewrite skip_skip. f_equal. lia.
      * exists n0, None. intros a d. cbn [length concat_loop]. rewrite E. cbn [obind].
        destruct (H a d) as (H1 & H2 & _). split; intros L; [now rewrite H1|now rewrite H2].
    + exists O, None. intros a d. cbn [length concat_loop]. rewrite E. split; [lia|reflexivity].
Qed.
Lemma effect_concat : forall k args, Forall (fun m => exists s, reads m s) args ->
  has_effect (fun dest => CONCAT k (Some dest) (size args) (Some args)).
Proof.
  intros k args F. destruct (concat_spec k args F) as (n & r & H). exists n, r. intros dest.
  destruct (H [] dest) as [H1 H2]. unfold CONCAT, size. rewrite Nat2Z.id. split.
  - intros L. now rewrite H1.
  - intros L. rewrite H2 by exact L. destruct r; reflexivity.
Qed.

Lemma arith_no_ub : forall p t x, arith p t x <> Ub.
Proof. intros p t x. unfold arith. destruct (in_ityb t x); [discriminate|]. destruct p; discriminate. Qed.
