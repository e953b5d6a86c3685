(** Proofs for PropertiesOrder.v: dates, times and their texts are ordered as the calendar is. *)
From Coq Require Import String ZArith List Bool Lia.
From Verif Require Import Base ModelChrono ModelDate SpecDate ProofBase ProofDate ProofDate2
  ModelText ModelString SpecText ProofText ProofString2.
Import ListNotations.
Open Scope list_scope.
Open Scope Z_scope.

(** * Comparing lists *)

Lemma lex_cons : forall x l y l', lex_lt (x :: l) (y :: l') <-> x < y \/ x = y /\ lex_lt l l'.
Proof.
  intros x l y l'. rewrite <- !cmp_lt_iff. cbn [slice_cmp].
  destruct (Z.compare_spec x y) as [E|E|E]; split.
  - intros H. auto.
  - intros [H|[_ H]]; [lia|exact H].
  - auto.
  - reflexivity.
  - discriminate.
  - intros [H|[H _]]; lia.
Qed.
Lemma lex_nil : forall l, lex_lt [] l <-> l <> [].
Proof.
  intros l. rewrite <- cmp_lt_iff. destruct l; cbn; split; congruence.
Qed.
Lemma lex_app : forall a a' s s', length a = length a' ->
  (lex_lt (a ++ s) (a' ++ s') <-> lex_lt a a' \/ a = a' /\ lex_lt s s').
Proof.
  induction a as [|x a IH]; intros [|y a'] s s' L; try discriminate.
  - cbn [app]. rewrite lex_nil. intuition congruence.
  - cbn [app]. injection L as L. rewrite !lex_cons, (IH a' s s' L).
    split; [intros [H|[-> [H|[-> H]]]]|intros [[H|[-> H]]|[H1 H]]]; auto.
    injection H1 as -> ->. auto.
Qed.
Lemma lex_total : forall a b, lex_lt a b \/ a = b \/ lex_lt b a.
Proof. intros a b. destruct (cmp_spec a b); auto. Qed.
Lemma lex_asym : forall a b, lex_lt a b -> ~ lex_lt b a.
Proof. intros a b H K. exact (lex_irrefl a (lex_trans _ _ _ H K)). Qed.

(** An order embedding is an order isomorphism. *)
Lemma embed : forall (x y : Z) a b, (x < y -> lex_lt a b) -> (y < x -> lex_lt b a) -> (x = y -> a = b) ->
  (x < y <-> lex_lt a b) /\ (x = y <-> a = b) /\ (x <= y <-> lex_le a b).
Proof.
  intros x y a b L G E. destruct (Z.lt_trichotomy x y) as [H|[H|H]].
  - specialize (L H). split; [tauto|]. split.
    + split; [lia|]. intros ->. now destruct (lex_irrefl b).
    + split; [|lia]. intros _. now right.
  - specialize (E H). subst a. split.
    + split; [lia|]. intros K. now destruct (lex_irrefl b).
    + split; [tauto|]. split; [|lia]. intros _. now left.
  - specialize (G H). split.
    + split; [lia|]. intros K. now destruct (lex_asym _ _ K).
    + split; [split; [lia|]; intros ->; now destruct (lex_irrefl b)|].
      split; [lia|]. intros [->|K]; [now destruct (lex_irrefl b)|now destruct (lex_asym _ _ K)].
Qed.

(** * Calendar *)

Definition ymd_list (x : Z * Z * Z) : list Z := let '(y, m, d) := x in [y; m; d].

Lemma days_mono : forall y m d y' m' d', valid_date (y, m, d) -> valid_date (y', m', d') ->
  lex_lt [y; m; d] [y'; m'; d'] -> nd_days (nd_of (y, m, d)) < nd_days (nd_of (y', m', d')).
Proof.
  intros y m d y' m' d' V V' L. rewrite !lex_cons, lex_nil in L.
  pose proof (nd_of_valid _ V) as N. pose proof (nd_of_valid _ V') as N'.
  unfold nd_of, valid_nd, nd_days in *. cbn [nd_year nd_ord] in *. destruct V as [M D], V' as [M' D'].
  destruct L as [L|[<- [L|[<- [L|[<- L]]]]]].
  - pose proof (year_start_mono _ _ L). lia.
  - rewrite <- nth_month in D by exact M.
    pose proof (cum_mono (ch_leap y) m m'). lia.
  - lia.
  - congruence.
Qed.

Lemma days_order : forall y m d y' m' d' n n', day_number (y, m, d) n -> day_number (y', m', d') n' ->
  (n < n' <-> lex_lt [y; m; d] [y'; m'; d']) /\ (n = n' <-> [y; m; d] = [y'; m'; d']) /\
  (n <= n' <-> lex_le [y; m; d] [y'; m'; d']).
Proof.
  intros y m d y' m' d' n n' N N'. assert (I := day_number_inj).
  assert (Q : n = n' -> [y; m; d] = [y'; m'; d']).
  { intros <-. specialize (I _ _ _ N N'). injection I as -> -> ->. reflexivity. }
  apply day_number_iff in N, N'. destruct N as [V <-], N' as [V' <-].
  apply embed; [| |exact Q].
  - intros H. destruct (lex_total [y; m; d] [y'; m'; d']) as [K|[K|K]]; [exact K| |].
    + injection K as -> -> ->. lia.
    + pose proof (days_mono _ _ _ _ _ _ V' V K). lia.
  - intros H. destruct (lex_total [y; m; d] [y'; m'; d']) as [K|[K|K]]; [| |exact K].
    + pose proof (days_mono _ _ _ _ _ _ V V' K). lia.
    + injection K as -> -> ->. lia.
Qed.

Lemma concat_date_number : forall v t y m d a, narrow t -> in_ity t y -> in_ity t m -> in_ity t d ->
  CONCAT_DATE v y m d = Ok a -> exists n, day_number (y, m, d) n /\ a = n * DAY /\ in_ity i64 a.
Proof.
  intros v t y m d a T Y M D E. destruct (CONCAT_DATE_ok_valid v t y m d a) as [V _]; try assumption.
  destruct (CONCAT_DATE_valid v t y m d) as (n & N & E'); try assumption. exists n. split; [exact N|].
  rewrite E' in E. destruct (in_ityb i64 (n * DAY)) eqn:B; [|discriminate]. injection E as <-.
  split; [reflexivity|]. now apply in_ityb_iff.
Qed.

Lemma dates_ordered : forall v t u y m d y' m' d' a b, narrow t -> narrow u ->
  in_ity t y -> in_ity t m -> in_ity t d -> in_ity u y' -> in_ity u m' -> in_ity u d' ->
  CONCAT_DATE v y m d = Ok a -> CONCAT_DATE v y' m' d' = Ok b ->
  (a < b <-> lex_lt [y; m; d] [y'; m'; d']) /\ (a = b <-> [y; m; d] = [y'; m'; d']) /\
  (a <= b <-> lex_le [y; m; d] [y'; m'; d']).
Proof.
  intros v t u y m d y' m' d' a b T U Y M D Y' M' D' A B.
  destruct (concat_date_number v t y m d a) as (n & N & -> & _); try assumption.
  destruct (concat_date_number v u y' m' d' b) as (n' & N' & -> & _); try assumption.
  destruct (days_order _ _ _ _ _ _ _ _ N N') as (P1 & P2 & P3). rewrite <- P1, <- P2, <- P3.
  unfold DAY. repeat split; lia.
Qed.

Lemma clock_order : forall h m s ms h' m' s' ms', valid_clock h m s ms -> valid_clock h' m' s' ms' ->
  (clock_ns h m s ms < clock_ns h' m' s' ms' <-> lex_lt [h; m; s; ms] [h'; m'; s'; ms']) /\
  (clock_ns h m s ms = clock_ns h' m' s' ms' <-> [h; m; s; ms] = [h'; m'; s'; ms']).
Proof.
  intros h m s ms h' m' s' ms' C C'.
  unfold valid_clock, clock_ns, HOUR, MINUTE, SECOND, MILLI in *. split.
  - rewrite !lex_cons, lex_nil. assert (N : ~ ([] : list Z) <> []) by congruence. split.
    + intros H. destruct (Z.lt_trichotomy h h') as [?|[<-|?]]; [tauto| |lia]. right. split; [reflexivity|].
      destruct (Z.lt_trichotomy m m') as [?|[<-|?]]; [tauto| |lia]. right. split; [reflexivity|].
      destruct (Z.lt_trichotomy s s') as [?|[<-|?]]; [tauto| |lia]. right. split; [reflexivity|]. left. lia.
    + intros [H|[<- [H|[<- [H|[<- [H|[_ H]]]]]]]]; [lia..|tauto].
  - split; [|intros E; injection E as -> -> -> ->; reflexivity].
    intros H. assert (E : h = h' /\ m = m' /\ s = s' /\ ms = ms') by lia. destruct E as (-> & -> & -> & ->). reflexivity.
Qed.

Lemma times_ordered : forall v t u h m s ms h' m' s' ms' a b, narrow t -> narrow u ->
  in_ity t h -> in_ity t m -> in_ity t s -> in_ity t ms ->
  in_ity u h' -> in_ity u m' -> in_ity u s' -> in_ity u ms' ->
  valid_clock h m s ms -> valid_clock h' m' s' ms' ->
  CONCAT_TOD v h m s ms = Ok a -> CONCAT_TOD v h' m' s' ms' = Ok b ->
  (a < b <-> lex_lt [h; m; s; ms] [h'; m'; s'; ms']) /\ (a = b <-> [h; m; s; ms] = [h'; m'; s'; ms']).
Proof.
  intros v t u h m s ms h' m' s' ms' a b T U H1 H2 H3 H4 K1 K2 K3 K4 C C' A B.
  destruct (CONCAT_TOD_lemma v t h m s ms) as [E _]; try assumption.
  rewrite E in A by (unfold valid_clock, accepts_millis in *; lia). injection A as <-.
  destruct (CONCAT_TOD_lemma v u h' m' s' ms') as [E' _]; try assumption.
  rewrite E' in B by (unfold valid_clock, accepts_millis in *; lia). injection B as <-.
  now apply clock_order.
Qed.

Lemma dt_order : forall n n' x x' c c' : Z, 0 <= c < DAY -> 0 <= c' < DAY ->
  x = n * DAY + c -> x' = n' * DAY + c' -> (x < x' <-> n < n' \/ n = n' /\ c < c') /\ (x = x' <-> n = n' /\ c = c').
Proof. intros. unfold DAY in *. lia. Qed.

Lemma seven : forall y mo d h mi s ms : Z, [y; mo; d; h; mi; s; ms] = [y; mo; d] ++ [h; mi; s; ms].
Proof. reflexivity. Qed.

Lemma clock_small : forall h mi s ms, valid_clock h mi s ms -> 0 <= clock_ns h mi s ms < DAY.
Proof. intros h mi s ms C. unfold valid_clock, clock_ns, HOUR, MINUTE, SECOND, MILLI, DAY in *. lia. Qed.

Lemma fields_order : forall y mo d h mi s ms y' mo' d' h' mi' s' ms' n n',
  day_number (y, mo, d) n -> day_number (y', mo', d') n' ->
  valid_clock h mi s ms -> valid_clock h' mi' s' ms' ->
  let a := n * DAY + clock_ns h mi s ms in let b := n' * DAY + clock_ns h' mi' s' ms' in
  (a < b <-> lex_lt [y; mo; d; h; mi; s; ms] [y'; mo'; d'; h'; mi'; s'; ms']) /\
  (a = b <-> [y; mo; d; h; mi; s; ms] = [y'; mo'; d'; h'; mi'; s'; ms']).
Proof.
  intros y mo d h mi s ms y' mo' d' h' mi' s' ms' n n' N N' C C' a b.
  destruct (dt_order n n' a b _ _ (clock_small _ _ _ _ C) (clock_small _ _ _ _ C') eq_refl eq_refl) as [P Q].
  destruct (days_order _ _ _ _ _ _ _ _ N N') as (P1 & P2 & _).
  destruct (clock_order _ _ _ _ _ _ _ _ C C') as (P3 & P4).
  split.
  - rewrite !seven, lex_app by reflexivity. rewrite P, P1, P2, P3. reflexivity.
  - rewrite Q, P2, P4. split.
    + intros [E F]. injection E as -> -> ->. injection F as -> -> -> ->. reflexivity.
    + intros E. injection E as -> -> -> -> -> -> ->. split; reflexivity.
Qed.

Lemma timestamps_ordered : forall v t u y mo d h mi s ms y' mo' d' h' mi' s' ms' a b, narrow t -> narrow u ->
  Forall (in_ity t) [y; mo; d; h; mi; s; ms] -> Forall (in_ity u) [y'; mo'; d'; h'; mi'; s'; ms'] ->
  valid_clock h mi s ms -> valid_clock h' mi' s' ms' ->
  CONCAT_DT v y mo d h mi s ms = Ok a -> CONCAT_DT v y' mo' d' h' mi' s' ms' = Ok b ->
  (a < b <-> lex_lt [y; mo; d; h; mi; s; ms] [y'; mo'; d'; h'; mi'; s'; ms']) /\
  (a = b <-> [y; mo; d; h; mi; s; ms] = [y'; mo'; d'; h'; mi'; s'; ms']).
Proof.
  assert (X : forall v t y mo d h mi s ms a, narrow t -> Forall (in_ity t) [y; mo; d; h; mi; s; ms] ->
    valid_clock h mi s ms -> CONCAT_DT v y mo d h mi s ms = Ok a ->
    exists n, day_number (y, mo, d) n /\ a = n * DAY + clock_ns h mi s ms).
  { intros v t y mo d h mi s ms a T F C A.
    repeat match goal with H : Forall _ (_ :: _) |- _ => apply Forall_cons_iff in H; destruct H end.
    assert (V : valid_date (y, mo, d)).
    { unfold CONCAT_DT in A. destruct (CONCAT_DATE v y mo d) as [r| |] eqn:E1; try discriminate.
      destruct (CONCAT_DATE_ok_valid v t y mo d r); assumption. }
    destruct (day_number_unique _ V) as (n & N & _). exists n. split; [exact N|].
    rewrite (CONCAT_DT_lemma v t y mo d h mi s ms n) in A by assumption.
    destruct (_ && _); [|discriminate]. now injection A. }
  intros v t u y mo d h mi s ms y' mo' d' h' mi' s' ms' a b T U F F' C C' A B.
  destruct (X v t y mo d h mi s ms a) as (n & N & ->); try assumption.
  destruct (X v u y' mo' d' h' mi' s' ms' b) as (n' & N' & ->); try assumption.
  now apply fields_order.
Qed.

Lemma split_dates_ordered : forall t u a b y m d y' m' d', In t date_types -> In u date_types ->
  in_ity i64 a -> in_ity i64 b -> SPLIT_DATE t a = Ok (y, m, d) -> SPLIT_DATE u b = Ok (y', m', d') ->
  (a / DAY < b / DAY <-> lex_lt [y; m; d] [y'; m'; d']) /\ (a <= b -> lex_le [y; m; d] [y'; m'; d']).
Proof.
  intros t u a b y m d y' m' d' T U IA IB A B.
  destruct (split_date_lemma t a T IA) as (? & ? & ? & E & N). rewrite E in A. injection A as -> -> ->.
  destruct (split_date_lemma u b U IB) as (? & ? & ? & E' & N'). rewrite E' in B. injection B as -> -> ->.
  destruct (days_order _ _ _ _ _ _ _ _ N N') as (P1 & _ & P3). split; [exact P1|].
  intros L. apply P3. apply Z.div_le_mono; [reflexivity|exact L].
Qed.

Lemma split_dts_ordered : forall t u a b y mo d h mi s ms y' mo' d' h' mi' s' ms', In t date_types -> In u date_types ->
  in_ity i64 a -> in_ity i64 b ->
  SPLIT_DT t a = Ok (y, mo, d, h, mi, s, ms) -> SPLIT_DT u b = Ok (y', mo', d', h', mi', s', ms') ->
  (a / MILLI < b / MILLI <-> lex_lt [y; mo; d; h; mi; s; ms] [y'; mo'; d'; h'; mi'; s'; ms']) /\
  (a <= b -> lex_le [y; mo; d; h; mi; s; ms] [y'; mo'; d'; h'; mi'; s'; ms']).
Proof.
  intros t u a b y mo d h mi s ms y' mo' d' h' mi' s' ms' T U IA IB A B.
  destruct (split_dt_lemma t a T IA) as (? & ? & ? & ? & ? & ? & ? & E & N & C & K). rewrite E in A.
  injection A as -> -> -> -> -> -> ->.
  destruct (split_dt_lemma u b U IB) as (? & ? & ? & ? & ? & ? & ? & E' & N' & C' & K'). rewrite E' in B.
  injection B as -> -> -> -> -> -> ->.
  destruct (fields_order _ _ _ _ _ _ _ _ _ _ _ _ _ _ _ _ N N' C C') as [P Q].
  assert (X : forall n h mi s ms, clock_ns h mi s ms <= n mod DAY < clock_ns h mi s ms + MILLI ->
     n / DAY * DAY + clock_ns h mi s ms = n / MILLI * MILLI).
  { intros n h0 mi0 s0 ms0 L. assert (exists k, clock_ns h0 mi0 s0 ms0 = k * MILLI) as [k KE].
    { exists (h0 * 3600000 + mi0 * 60000 + s0 * 1000 + ms0). unfold clock_ns, HOUR, MINUTE, SECOND, MILLI. lia. }
    rewrite KE in *. unfold DAY, MILLI in *. dlia. }
  rewrite (X _ _ _ _ _ K), (X _ _ _ _ _ K') in P, Q. split.
  - rewrite <- P. unfold MILLI. lia.
  - intros L. assert (M : a / MILLI <= b / MILLI) by (apply Z.div_le_mono; [reflexivity|exact L]).
    destruct (Z.eq_dec (a / MILLI) (b / MILLI)) as [EM|NE].
    + left. apply Q. lia.
    + right. apply P. unfold MILLI in *. lia.
Qed.

(** * Counting days *)

Lemma iter_days : forall k x n, day_number x n -> day_number (Nat.iter k next_day x) (n + Z.of_nat k).
Proof.
  induction k as [|k IH]; intros x n N.
  - now rewrite Z.add_0_r.
  - cbn [Nat.iter]. replace (n + Z.of_nat (S k)) with (n + Z.of_nat k + 1) by lia. constructor. now apply IH.
Qed.

Lemma days_between : forall v t u y m d y' m' d' a b k, narrow t -> narrow u ->
  in_ity t y -> in_ity t m -> in_ity t d -> in_ity u y' -> in_ity u m' -> in_ity u d' ->
  CONCAT_DATE v y m d = Ok a -> CONCAT_DATE v y' m' d' = Ok b -> in_ity i64 (Z.of_nat k * DAY) ->
  (SUB_DATE_DATE b a = Ok (Z.of_nat k * DAY) <-> Nat.iter k next_day (y, m, d) = (y', m', d')).
Proof.
  intros v t u y m d y' m' d' a b k T U Y M D Y' M' D' A B R.
  destruct (concat_date_number v t y m d a) as (n & N & -> & IA); try assumption.
  destruct (concat_date_number v u y' m' d' b) as (n' & N' & -> & IB); try assumption.
  unfold SUB_DATE_DATE. rewrite sub_datetimes_lemma by assumption.
  pose proof (iter_days k _ _ N) as NK. split.
  - intros E. destruct (in_ityb _ _) in E; [|discriminate]. injection E as E.
    assert (n' = n + Z.of_nat k) by (unfold DAY in E; lia). subst n'.
    exact (day_number_inj _ _ _ NK N').
  - intros E. rewrite E in NK. apply day_number_iff in NK, N'. destruct NK as [_ NK], N' as [_ N'].
    assert (Q : n' = n + Z.of_nat k) by congruence.
    replace (n' * DAY - n * DAY) with (Z.of_nat k * DAY) by (rewrite Q; ring).
    apply in_ityb_iff in R. now rewrite R.
Qed.
