(** Proofs for PropertiesOrder.v, part 2: the texts of dates and times. *)
From Coq Require Import String ZArith List Bool Lia.
From Verif Require Import Base ModelFloat ModelExtra SpecScalar SpecText SpecDate SpecReal SpecExtra
  ModelText ModelString ProofString2 ProofExtra ProofExtra2 ProofExtra6 ProofOrder.
Import ListNotations.
Open Scope list_scope.
Open Scope Z_scope.

Lemma digit10 : forall c d, digit_of 10 c d -> c = 48 + d /\ 0 <= d < 10.
Proof. intros c d [R D]. lia. Qed.

Lemma digits_lt : forall l l' v v', length l = length l' -> digits 10 l v -> digits 10 l' v' ->
  v < v' -> lex_lt l l'.
Proof.
  induction l as [|c l IH]; intros [|c' l'] v v' L D D' H; try discriminate.
  - pose proof (digits_fun _ _ _ D _ D'). lia.
  - injection L as L. apply digits_inv_cons in D, D'.
    destruct D as (d & w & Dd & Dw & E), D' as (d' & w' & Dd' & Dw' & E').
    rewrite <- L in E'. apply lex_cons.
    pose proof (digits_bound 10 _ _ eq_refl Dw) as B. pose proof (digits_bound 10 _ _ eq_refl Dw') as B'.
    rewrite <- L in B'. pose proof (digits_nonneg 10 _ _ eq_refl Dw). pose proof (digits_nonneg 10 _ _ eq_refl Dw').
    apply digit10 in Dd, Dd'. set (P := 10 ^ Z.of_nat (length l)) in *.
    assert (0 < P) by lia.
    destruct (Z.lt_trichotomy d d') as [K|[K|K]].
    + left. lia.
    + right. split; [lia|]. apply (IH l' w w'); try assumption. subst d'. lia.
    + exfalso. assert (d' + 1 <= d) by lia. assert ((d' + 1) * P <= d * P) by (apply Z.mul_le_mono_nonneg_r; lia). lia.
Qed.

Lemma fixed_lt : forall w l l' v v', fixed w l v -> fixed w l' v' -> v < v' -> lex_lt l l'.
Proof. intros w l l' v v' [L D] [L' D']. apply digits_lt; congruence. Qed.
Lemma fixed_same : forall w l l' v, fixed w l v -> fixed w l' v -> l = l'.
Proof. intros w l l' v [L D] [L' D']. apply (canonical_unique_aux _ _ v); congruence. Qed.

(** One field after another. *)
Lemma step_lt : forall w l l' v v' s s', fixed w l v -> fixed w l' v' ->
  v < v' \/ v = v' /\ lex_lt s s' -> lex_lt (l ++ s) (l' ++ s').
Proof.
  intros w l l' v v' s s' F F' H. apply lex_app.
  - destruct F, F'. congruence.
  - destruct H as [H|[<- H]]; [left; eapply fixed_lt; eauto|right].
    split; [eapply fixed_same; eauto|exact H].
Qed.
Lemma sep_lt : forall c s s', lex_lt s s' -> lex_lt (c ++ s) (c ++ s').
Proof. intros c s s' H. apply lex_app; auto. Qed.

Lemma date_lt : forall s s' y m d y' m' d' r r', date_text s y m d -> date_text s' y' m' d' ->
  lex_lt [y; m; d] [y'; m'; d'] \/ [y; m; d] = [y'; m'; d'] /\ lex_lt r r' -> lex_lt (s ++ r) (s' ++ r').
Proof.
  intros s s' y m d y' m' d' r r' (ys & ms & ds & -> & Y & M & D) (ys' & ms' & ds' & -> & Y' & M' & D') H.
  rewrite !lex_cons, lex_nil in H. rewrite <- !app_assoc.
  apply (step_lt 4 _ _ y y' _ _ Y Y').
  destruct H as [[H|[-> H]]|[E H]]; [left; exact H| |].
  - right. split; [reflexivity|]. apply sep_lt. apply (step_lt 2 _ _ m m' _ _ M M').
    destruct H as [H|[-> H]]; [left; exact H|]. right. split; [reflexivity|]. apply sep_lt.
    apply (step_lt 2 _ _ d d' _ _ D D'). destruct H as [H|[_ H]]; [left; exact H|congruence].
  - injection E as -> -> ->. right. split; [reflexivity|]. apply sep_lt.
    apply (step_lt 2 _ _ m' m' _ _ M M'). right. split; [reflexivity|]. apply sep_lt.
    apply (step_lt 2 _ _ d' d' _ _ D D'). right. split; [reflexivity|exact H].
Qed.
Lemma date_same : forall s s' y m d, date_text s y m d -> date_text s' y m d -> s = s'.
Proof.
  intros s s' y m d (ys & ms & ds & -> & Y & M & D) (ys' & ms' & ds' & -> & Y' & M' & D').
  now rewrite (fixed_same 4 _ _ _ Y Y'), (fixed_same 2 _ _ _ M M'), (fixed_same 2 _ _ _ D D').
Qed.

(** Fractions of different precision. *)
Lemma split_at : forall (l : list Z) w, (w <= length l)%nat -> exists p q, l = p ++ q /\ length p = w.
Proof.
  intros l w H. exists (firstn w l), (skipn w l). split; [symmetry; apply firstn_skipn|].
  now apply firstn_length_le.
Qed.
Lemma lex_prefix : forall a b r, lex_lt a b -> lex_lt a (b ++ r).
Proof.
  intros a b r [(c & t & ->)|(p & x & y & t & s & -> & -> & L)].
  - left. exists c, (t ++ r). now rewrite <- app_assoc.
  - right. exists p, x, y, t, (s ++ r). rewrite <- app_assoc. auto.
Qed.

Lemma fixed_frac_lt : forall w w' ds ds' k k', In w [3; 6; 9]%nat -> In w' [3; 6; 9]%nat ->
  fixed w ds k -> fixed w' ds' k' ->
  k * 10 ^ (9 - Z.of_nat w) < k' * 10 ^ (9 - Z.of_nat w') -> lex_lt ds ds'.
Proof.
  assert (X : forall j w ds k ds' k' , fixed w ds k -> fixed (w + S j) ds' k' ->
    k * 10 ^ Z.of_nat (S j) < k' -> lex_lt ds ds').
  { intros j w ds k ds' k' [L D] [L' D'] H.
    destruct (split_at ds' w) as (p & q & -> & Lp); [lia|].
    apply digits_inv_app in D'. destruct D' as (u & v & Dp & Dq & E).
    rewrite app_length in L'. assert (Lq : length q = S j) by lia. rewrite Lq in E.
    pose proof (digits_bound 10 _ _ eq_refl Dq) as B. rewrite Lq in B.
    set (P := 10 ^ Z.of_nat (S j)) in *. assert (0 < P) by (apply Z.pow_pos_nonneg; lia).
    assert (k <= u).
    { destruct (Z.le_gt_cases k u) as [?|G]; [assumption|]. exfalso.
      assert ((u + 1) * P <= k * P) by (apply Z.mul_le_mono_nonneg_r; lia). lia. }
    destruct (Z.eq_dec k u) as [<-|NE].
    - assert (ds = p) as -> by (apply (canonical_unique_aux _ _ k); congruence).
      left. destruct q as [|c q]; [discriminate|]. now exists c, q.
    - apply lex_prefix. apply (digits_lt _ _ k u); try assumption; [congruence|lia]. }
  assert (Y : forall j w ds k ds' k' , fixed (w + S j) ds k -> fixed w ds' k' ->
    k < k' * 10 ^ Z.of_nat (S j) -> lex_lt ds ds').
  { intros j w ds k ds' k' [L D] [L' D'] H.
    destruct (split_at ds w) as (p & q & -> & Lp); [lia|].
    apply digits_inv_app in D. destruct D as (u & v & Dp & Dq & E).
    rewrite app_length in L. assert (Lq : length q = S j) by lia. rewrite Lq in E.
    pose proof (digits_nonneg 10 _ _ eq_refl Dq) as B.
    set (P := 10 ^ Z.of_nat (S j)) in *. assert (0 < P) by (apply Z.pow_pos_nonneg; lia).
    assert (u < k').
    { destruct (Z.le_gt_cases k' u) as [G|?]; [|lia]. exfalso.
      assert (k' * P <= u * P) by (apply Z.mul_le_mono_nonneg_r; lia). lia. }
    rewrite <- (app_nil_r ds'). apply lex_app; [congruence|]. left.
    apply (digits_lt _ _ u k'); try assumption; congruence. }
  intros w w' ds ds' k k' W W' F F' H.
  destruct W as [<-|[<-|[<-|[]]]], W' as [<-|[<-|[<-|[]]]];
    match type of H with ?a * 10 ^ ?e < ?b * 10 ^ ?f =>
      let x := eval vm_compute in (10 ^ e) in change (10 ^ e) with x in H;
      let y := eval vm_compute in (10 ^ f) in change (10 ^ f) with y in H end.
  - apply (fixed_lt 3 _ _ k k' F F'). lia.
  - apply (X 2%nat 3%nat ds k ds' k' F F'). change (10 ^ Z.of_nat 3) with 1000. lia.
  - apply (X 5%nat 3%nat ds k ds' k' F F'). change (10 ^ Z.of_nat 6) with 1000000. lia.
  - apply (Y 2%nat 3%nat ds k ds' k' F F'). change (10 ^ Z.of_nat 3) with 1000. lia.
  - apply (fixed_lt 6 _ _ k k' F F'). lia.
  - apply (X 2%nat 6%nat ds k ds' k' F F'). change (10 ^ Z.of_nat 3) with 1000. lia.
  - apply (Y 5%nat 3%nat ds k ds' k' F F'). change (10 ^ Z.of_nat 6) with 1000000. lia.
  - apply (Y 2%nat 6%nat ds k ds' k' F F'). change (10 ^ Z.of_nat 3) with 1000. lia.
  - apply (fixed_lt 9 _ _ k k' F F'). lia.
Qed.

Lemma fraction_pos : forall s n, fraction s n -> (s = [] /\ n = 0) \/ 0 < n.
Proof.
  intros s n [H|(w & ds & k & W & _ & _ & -> & K & _)]; [now left|right].
  destruct W as [<-|[<-|[<-|[]]]];
    match goal with |- 0 < _ * 10 ^ ?e => let x := eval vm_compute in (10 ^ e) in change (10 ^ e) with x end; lia.
Qed.

Lemma fraction_lt : forall s s' n n', fraction s n -> fraction s' n' -> n < n' -> lex_lt s s'.
Proof.
  intros s s' n n' F F' H.
  assert (P := fraction_pos _ _ F). assert (P' := fraction_pos _ _ F').
  destruct F' as [[-> ->]|(w' & ds' & k' & W' & -> & D' & -> & _)]; [lia|].
  destruct F as [[-> ->]|(w & ds & k & W & -> & D & -> & _)].
  - apply lex_nil. discriminate.
  - apply sep_lt. now apply (fixed_frac_lt w w' ds ds' k k').
Qed.

Lemma fraction_same : forall s s' n, fraction s n -> fraction s' n -> s = s'.
Proof.
  intros s s' n F F'. assert (P := fraction_pos _ _ F). assert (P' := fraction_pos _ _ F').
  destruct F as [[-> ->]|(w & ds & k & W & -> & D & E & K & M)].
  - now destruct P' as [[-> _]|P']; [|lia].
  - destruct F' as [[-> ->]|(w' & ds' & k' & W' & -> & D' & E' & K' & M')].
    { destruct P as [[P _]|P]; [discriminate|lia]. }
    f_equal. rewrite E in E'.
    destruct W as [<-|[<-|[<-|[]]]], W' as [<-|[<-|[<-|[]]]];
    match type of E' with ?a * 10 ^ ?e = ?b * 10 ^ ?f =>
      let x := eval vm_compute in (10 ^ e) in change (10 ^ e) with x in E';
      let y := eval vm_compute in (10 ^ f) in change (10 ^ f) with y in E' end;
    try (assert (k = k') by lia; subst k'; exact (fixed_same _ _ _ _ D D'));
    exfalso.
    + destruct M' as [M'|M']; [discriminate|]. apply M'. replace k' with (k * 1000) by lia. apply Z.mod_mul. discriminate.
    + destruct M' as [M'|M']; [discriminate|]. apply M'. replace k' with (k * 1000 * 1000) by lia. apply Z.mod_mul. discriminate.
    + destruct M as [M|M]; [discriminate|]. apply M. replace k with (k' * 1000) by lia. apply Z.mod_mul. discriminate.
    + destruct M' as [M'|M']; [discriminate|]. apply M'. replace k' with (k * 1000) by lia. apply Z.mod_mul. discriminate.
    + destruct M as [M|M]; [discriminate|]. apply M. replace k with (k' * 1000 * 1000) by lia. apply Z.mod_mul. discriminate.
    + destruct M as [M|M]; [discriminate|]. apply M. replace k with (k' * 1000) by lia. apply Z.mod_mul. discriminate.
Qed.

Lemma clock_lt : forall s s' h m c n h' m' c' n' x x', clock_text s h m c n -> clock_text s' h' m' c' n' ->
  0 <= h < 24 -> 0 <= m < 60 -> 0 <= c < 60 -> 0 <= n < SECOND ->
  0 <= h' < 24 -> 0 <= m' < 60 -> 0 <= c' < 60 -> 0 <= n' < SECOND ->
  h * HOUR + m * MINUTE + c * SECOND + n = x -> h' * HOUR + m' * MINUTE + c' * SECOND + n' = x' ->
  (x < x' -> lex_lt s s') /\ (x = x' -> s = s').
Proof.
  intros s s' h m c n h' m' c' n' x x' (hs & ms & ss & fs & -> & H & M & C & F) (hs' & ms' & ss' & fs' & -> & H' & M' & C' & F')
    R1 R2 R3 R4 R1' R2' R3' R4' <- <-. unfold HOUR, MINUTE, SECOND in *. split.
  - intros L. apply (step_lt 2 _ _ h h' _ _ H H').
    destruct (Z.lt_trichotomy h h') as [?|[<-|?]]; [tauto| |lia]. right. split; [reflexivity|]. apply sep_lt.
    apply (step_lt 2 _ _ m m' _ _ M M').
    destruct (Z.lt_trichotomy m m') as [?|[<-|?]]; [tauto| |lia]. right. split; [reflexivity|]. apply sep_lt.
    apply (step_lt 2 _ _ c c' _ _ C C').
    destruct (Z.lt_trichotomy c c') as [?|[<-|?]]; [tauto| |lia]. right. split; [reflexivity|].
    apply (fraction_lt _ _ n n' F F'). lia.
  - intros E. assert (K : h = h' /\ m = m' /\ c = c' /\ n = n') by lia. destruct K as (<- & <- & <- & <-).
    now rewrite (fixed_same 2 _ _ _ H H'), (fixed_same 2 _ _ _ M M'), (fixed_same 2 _ _ _ C C'), (fraction_same _ _ _ F F').
Qed.

(** * The results *)

Lemma compared : forall a b s t (x y : Z), reads a s -> reads b t ->
  (x < y <-> lex_lt s t) /\ (x = y <-> s = t) /\ (x <= y <-> lex_le s t) ->
  LT_STR 2 [a; b] = Ok (x <? y) /\ EQ_STR 2 [a; b] = Ok (x =? y) /\ LE_STR 2 [a; b] = Ok (x <=? y).
Proof.
  intros a b s t x y A B (P & Q & _). destruct (two_strings a b s t A B) as (lt & eq & gt & E1 & E2 & _ & _ & E5 & _ & I & L & E & G).
  rewrite E1, E2, E5. destruct I as [I|[I|[I|[]]]]; injection I as <- <- <-.
  - assert (x < y) by (apply P, L; reflexivity).
    destruct (Z.ltb_spec x y), (Z.eqb_spec x y), (Z.leb_spec x y); try lia. repeat split.
  - assert (x = y) by (apply Q, E; reflexivity).
    destruct (Z.ltb_spec x y), (Z.eqb_spec x y), (Z.leb_spec x y); try lia. repeat split.
  - assert (~ x < y) by (intros K; apply P, L in K; discriminate).
    assert (x <> y) by (intros K; apply Q, E in K; discriminate).
    destruct (Z.ltb_spec x y), (Z.eqb_spec x y), (Z.leb_spec x y); try lia. repeat split.
Qed.

Lemma reads_fun : forall d s t, reads d s -> reads d t -> s = t.
Proof.
  intros d s t A B. apply reads_slice in A, B. congruence.
Qed.

(** The text written for [n], compared by the key [key n]. *)
Definition written_by_key (key : Z -> Z) (f : Z -> outcome (list Z)) : Prop :=
  forall n n', in_ity i64 n -> in_ity i64 n' ->
  exists d d' s s', f n = Ok d /\ f n' = Ok d' /\ reads d s /\ reads d' s' /\
    (key n < key n' -> lex_lt s s') /\ (key n = key n' -> s = s').

Lemma dates_by_key : written_by_key (fun n => n / DAY) DATE_TO_STRING.
Proof.
  intros n n' I I'. destruct (date_of n I) as (d & s & y & m & dd & E & R & T & N).
  destruct (date_of n' I') as (d' & s' & y' & m' & dd' & E' & R' & T' & N').
  exists d, d', s, s'. do 4 (split; [assumption|]). destruct (days_order _ _ _ _ _ _ _ _ N N') as (P1 & P2 & _). split.
  - intros H. rewrite <- (app_nil_r s), <- (app_nil_r s'). apply (date_lt s s' y m dd y' m' dd'); tauto.
  - intros H. apply P2 in H. injection H as -> -> ->. eapply date_same; eassumption.
Qed.
Lemma tods_by_key : written_by_key (fun n => n mod DAY) TOD_TO_STRING.
Proof.
  intros n n' _ _. destruct (tod_of n) as (d & s & h & m & c & f & E & R & T & R1 & R2 & R3 & R4 & X).
  destruct (tod_of n') as (d' & s' & h' & m' & c' & f' & E' & R' & T' & R1' & R2' & R3' & R4' & X').
  exists d, d', s, s'. do 4 (split; [assumption|]).
  exact (clock_lt s s' h m c f h' m' c' f' _ _ T T' R1 R2 R3 R4 R1' R2' R3' R4' X X').
Qed.
Lemma dts_by_key : written_by_key (fun n => n) DT_TO_STRING.
Proof.
  intros n n' I I'. destruct (dt_of n I) as (d & s & c & y & m & dd & h & mi & sec & ns & E & R & T & N & C & R1 & R2 & R3 & R4 & X).
  destruct (dt_of n' I') as (d' & s' & c' & y' & m' & dd' & h' & mi' & sec' & ns' & E' & R' & T' & N' & C' & R1' & R2' & R3' & R4' & X').
  exists d, d', (s ++ str "-" ++ c), (s' ++ str "-" ++ c'). do 4 (split; [assumption|]).
  destruct (clock_lt c c' h mi sec ns h' mi' sec' ns' _ _ C C' R1 R2 R3 R4 R1' R2' R3' R4' X X') as [L Q].
  destruct (days_order _ _ _ _ _ _ _ _ N N') as (P1 & P2 & _).
  assert (D : n = n / DAY * DAY + n mod DAY) by (rewrite Z.mul_comm; apply Z.div_mod; discriminate).
  assert (D' : n' = n' / DAY * DAY + n' mod DAY) by (rewrite Z.mul_comm; apply Z.div_mod; discriminate).
  destruct (dt_order (n / DAY) (n' / DAY) n n' (n mod DAY) (n' mod DAY)) as [O1 O2];
    try (apply Z.mod_pos_bound; reflexivity); try assumption. split.
  - intros H. apply O1 in H. apply (date_lt s s' y m dd y' m' dd'); try assumption.
    destruct H as [H|[H1 H2]]; [left; tauto|right]. split; [tauto|]. apply sep_lt. auto.
  - intros H. apply O2 in H. destruct H as [H1 H2]. apply P2 in H1. injection H1 as -> -> ->.
    rewrite (date_same _ _ _ _ _ T T'), (Q H2). reflexivity.
Qed.

Lemma ordered_texts : forall key f g n n' d d', written_by_key key f -> time_pair f g -> in_ity i64 n -> in_ity i64 n' ->
  (f n = Ok d /\ f n' = Ok d') \/ (g n = Ok d /\ g n' = Ok d') ->
  LT_STR 2 [d; d'] = Ok (key n <? key n') /\ EQ_STR 2 [d; d'] = Ok (key n =? key n') /\
  LE_STR 2 [d; d'] = Ok (key n <=? key n').
Proof.
  intros key f g n n' d d' W P I I' H.
  destruct (W n n' I I') as (e & e' & s & s' & E & E' & R & R' & L & Q).
  destruct (W n' n I' I) as (e2' & e2 & s2' & s2 & E2' & E2 & R2' & R2 & L2 & _).
  assert (e2 = e) by congruence. assert (e2' = e') by congruence. subst e2 e2'.
  assert (s2 = s) by exact (reads_fun _ _ _ R2 R). assert (s2' = s') by exact (reads_fun _ _ _ R2' R'). subst s2 s2'.
  destruct (time_pair_text f g n P I) as (x & w & t & X1 & X2 & X3 & X4).
  destruct (time_pair_text f g n' P I') as (x' & w' & t' & X1' & X2' & X3' & X4').
  assert (x = e) by congruence. assert (x' = e') by congruence. subst x x'.
  assert (t = s) by exact (reads_fun _ _ _ X3 R). assert (t' = s') by exact (reads_fun _ _ _ X3' R'). subst t t'.
  assert (K : reads d s /\ reads d' s').
  { destruct H as [[A B]|[A B]].
    - assert (d = e) by congruence. assert (d' = e') by congruence. subst. split; assumption.
    - assert (d = w) by congruence. assert (d' = w') by congruence. subst. split; assumption. }
  destruct K as [K K']. apply (compared d d' s s'); try assumption. now apply embed.
Qed.

Lemma date_texts : forall n n' d d', in_ity i64 n -> in_ity i64 n' ->
  (DATE_TO_STRING n = Ok d /\ DATE_TO_STRING n' = Ok d') \/ (DATE_TO_WSTRING n = Ok d /\ DATE_TO_WSTRING n' = Ok d') ->
  LT_STR 2 [d; d'] = Ok (n / DAY <? n' / DAY) /\ EQ_STR 2 [d; d'] = Ok (n / DAY =? n' / DAY) /\
  LE_STR 2 [d; d'] = Ok (n / DAY <=? n' / DAY).
Proof.
  intros n n' d d' I I'. apply (ordered_texts (fun n => n / DAY) DATE_TO_STRING DATE_TO_WSTRING n n' d d' dates_by_key); try assumption.
  unfold time_pair. tauto.
Qed.
Lemma tod_texts : forall n n' d d', in_ity i64 n -> in_ity i64 n' ->
  (TOD_TO_STRING n = Ok d /\ TOD_TO_STRING n' = Ok d') \/ (TOD_TO_WSTRING n = Ok d /\ TOD_TO_WSTRING n' = Ok d') ->
  LT_STR 2 [d; d'] = Ok (n mod DAY <? n' mod DAY) /\ EQ_STR 2 [d; d'] = Ok (n mod DAY =? n' mod DAY) /\
  LE_STR 2 [d; d'] = Ok (n mod DAY <=? n' mod DAY).
Proof.
  intros n n' d d' I I'. apply (ordered_texts (fun n => n mod DAY) TOD_TO_STRING TOD_TO_WSTRING n n' d d' tods_by_key); try assumption.
  unfold time_pair. tauto.
Qed.
Lemma dt_texts : forall n n' d d', in_ity i64 n -> in_ity i64 n' ->
  (DT_TO_STRING n = Ok d /\ DT_TO_STRING n' = Ok d') \/ (DT_TO_WSTRING n = Ok d /\ DT_TO_WSTRING n' = Ok d') ->
  LT_STR 2 [d; d'] = Ok (n <? n') /\ EQ_STR 2 [d; d'] = Ok (n =? n') /\ LE_STR 2 [d; d'] = Ok (n <=? n').
Proof.
  intros n n' d d' I I'. apply (ordered_texts (fun n => n) DT_TO_STRING DT_TO_WSTRING n n' d d' dts_by_key); try assumption.
  unfold time_pair. tauto.
Qed.
