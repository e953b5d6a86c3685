(** Proofs about the text of durations, dates and times, and about WSTRING numerals. *)
From Coq Require Import String ZArith List Bool Lia.
From Verif Require Import Base ModelText ModelString ModelChrono ModelExtra SpecDate SpecText SpecExtra ProofBase ProofDate
  ProofDate2 ProofText ProofString ProofString2 ProofString3 ProofExtra.
Import ListNotations.
Open Scope list_scope.
Open Scope Z_scope.

(** * Integers through the ST functions *)
Lemma int_to_string : forall z, Z.abs z < 10 ^ 20 -> forall s, s = dec_int z ->
  exists d, write_buf s st_string = Ok d /\ reads d s /\ canonical_int s z.
Proof.
  intros z B s ->. pose proof (dec_int_canonical z) as C.
  pose proof (canonical_int_length _ _ 20 C ltac:(lia) B) as L. pose proof (canonical_int_nz _ _ C) as N.
  destruct (write_zero (dec_int z)) as [d [W R]]; [lia|exact N|]. exists d. now split.
Qed.
Lemma canonical_int_text : forall s z, canonical_int s z -> int_text s z.
Proof.
  intros s z [[_ [N _]]|[_ [r [-> [N _]]]]].
  - exists [], 10, [], s, z. split; [reflexivity|]. split; [now left|]. split; [exact N|]. left. split; [now left|reflexivity].
  - exists [], 10, (str "-"), r, (- z). split; [reflexivity|]. split; [now left|]. split; [exact N|]. right.
    split; [reflexivity|lia].
Qed.

(** * WSTRING numerals *)
Lemma str_temp_length : length str_temp = 81%nat. Proof. apply length_zeros. Qed.
Lemma w2s_temp : forall src t, holds WSTRING src t -> (length (units STRING t) <= 80)%nat ->
  exists d, WSTRING_TO_STRING_EXT src str_temp = Ok d /\ reads d (units STRING t).
Proof.
  intros src t H L. rewrite (w2s_text _ _ _ H).
  assert (F : fits STRING t str_temp) by (unfold fits; rewrite str_temp_length; lia).
  rewrite write_fits by exact F. eexists. split; [reflexivity|].
  split; [apply units_nonzero; apply H|]. now eexists.
Qed.
Lemma w2s_temp_ub : forall src t, holds WSTRING src t -> (80 < length (units STRING t))%nat ->
  WSTRING_TO_STRING_EXT src str_temp = Ub.
Proof.
  intros src t H L. rewrite (w2s_text _ _ _ H). unfold write. rewrite str_temp_length.
  destruct (Nat.ltb_spec (length (units STRING t)) 81); [lia|reflexivity].
Qed.
Lemma string_to_int_reads : forall t a b s, reads a s -> reads b s -> string_to_int t a = string_to_int t b.
Proof. intros t a b s A B. unfold string_to_int. now rewrite (reads_slice_ _ _ A), (reads_slice_ _ _ B). Qed.
Lemma holds_reads8 : forall src t, holds STRING src t -> reads src (units STRING t).
Proof. intros src t [T [rest ->]]. split; [now apply units_nonzero|]. now exists rest. Qed.

(** * Durations *)
Definition item_text (i : Z * list Z) : list Z := if fst i =? 0 then [] else dec_int (fst i) ++ snd i.
Lemma position0_app : forall t k, Forall (fun c => c <> 0) t -> (length t < 81)%nat -> (0 < k)%nat ->
  position0 (firstn 81 (t ++ zeros k)) = Some (length t).
Proof.
  intros t k N L K. rewrite zeros_pos by lia.
  assert (G : forall m, (length t < m)%nat -> position0 (firstn m (t ++ 0 :: zeros (k - 1))) = Some (length t)).
  { clear L. induction N as [|c t C _ IH]; intros m L; destruct m; cbn [length] in *; try lia; cbn [firstn app position0].
    - reflexivity.
    - destruct (Z.eqb_spec c 0); [congruence|]. rewrite IH by lia. reflexivity. }
  now apply G.
Qed.
Lemma time_loop_spec : forall items before m,
  Forall (fun i => Forall (fun c => c <> 0) (item_text i) /\ (length (item_text i) <= 20)%nat) items ->
  (20 * length items + 81 <= m)%nat ->
  time_loop items before (zeros m) =
  Ok (before ++ flat_map item_text items ++ zeros (m - length (flat_map item_text items))).
Proof.
  intros items. induction items as [|[n u] items IH]; intros before m F M; cbn [time_loop flat_map].
  - cbn [app length]. now rewrite Nat.sub_0_r.
  - apply Forall_cons_iff in F as [[N L] F]. unfold item_text in N, L |- *. cbn [fst snd] in *. cbn [length] in M.
    destruct (n =? 0).
    + cbn [app]. apply IH; [exact F|lia].
    + fold (item_text) in *. set (p := dec_int n ++ u) in *.
      rewrite write_buf_ok by (rewrite ?length_zeros; lia). cbn [obind]. rewrite skipn_zeros.
      change DEFAULT_STRING_LEN with 81%nat. rewrite position0_app by (try exact N; lia). cbn [unwrap obind].
      rewrite firstn_app, Nat.sub_diag, firstn_O, app_nil_r, firstn_all.
      rewrite skipn_app, Nat.sub_diag, skipn_all. cbn [skipn app].
      rewrite IH by (try exact F; lia). rewrite app_length, Nat.sub_add_distr, <- !app_assoc. reflexivity.
Qed.

Lemma i64_range_ : forall n, in_ity i64 n <-> -9223372036854775808 <= n <= 9223372036854775807.
Proof. intros. reflexivity. Qed.
Lemma items_fields : forall t, exists h mi s ms us ns,
  parse_timestamp t = [(wrap u32 (Z.quot t DAY), str "d"); (h, str "h"); (mi, str "m"); (s, str "s");
                       (ms, str "ms"); (us, str "us"); (ns, str "ns")] /\
  0 <= h < 24 /\ 0 <= mi < 60 /\ 0 <= s < 60 /\ 0 <= ms < 1000 /\ 0 <= us < 1000 /\ 0 <= ns < 1000 /\
  h * HOUR + mi * MINUTE + s * SECOND + ms * MILLI + us * 1000 + ns = t mod DAY.
Proof.
  intros t. destruct (of_ts_spec t) as (_ & _ & S & F).
  unfold parse_timestamp, hour, minute, second, subsec_nanos. rewrite S, F. do 6 eexists. split; [reflexivity|].
  unfold HOUR, MINUTE, SECOND, MILLI, DAY in *.
  assert (B : 0 <= t mod 1000000000 < 1000000000) by (apply Z.mod_pos_bound; lia).
  assert (B2 : 0 <= t / 1000000000 mod 86400 < 86400) by (apply Z.mod_pos_bound; lia).
  assert (E : t mod 86400000000000 = t / 1000000000 mod 86400 * 1000000000 + t mod 1000000000).
  { change 86400000000000 with (1000000000 * 86400). rewrite Z.rem_mul_r by lia. lia. }
  rewrite E. clear E S F. set (a := t / 1000000000 mod 86400) in *. set (b := t mod 1000000000) in *. clearbody a b.
  repeat split; dlia.
Qed.
Lemma item_ok : forall n u, 0 <= n < 10 ^ 10 -> Forall (fun c => c <> 0) u -> (length u <= 2)%nat ->
  Forall (fun c => c <> 0) (item_text (n, u)) /\ (length (item_text (n, u)) <= 20)%nat.
Proof.
  intros n u B N L. unfold item_text. cbn [fst snd]. destruct (n =? 0); [split; [constructor|cbn; lia]|].
  pose proof (dec_int_canonical n) as C. split.
  - apply Forall_app. split; [|exact N]. now apply canonical_int_nz in C.
  - rewrite app_length. pose proof (canonical_int_length _ _ 10 C ltac:(lia) ltac:(lia)). lia.
Qed.
Definition item_rel (i : Z * list Z) (u : list Z * Z * option Z) : Prop :=
  let '(n, name) := i in let '(name', _, lim) := u in name = name' /\ 0 <= n /\ below n lim.
Definition weight (i : Z * list Z) (u : list Z * Z * option Z) : Z := fst i * snd (fst u).
Fixpoint total (is : list (Z * list Z)) (us : list (list Z * Z * option Z)) : Z :=
  match is, us with i :: is, u :: us => weight i u + total is us | _, _ => 0 end.
Lemma items_text : forall is us, Forall2 item_rel is us ->
  time_items us (flat_map item_text is) (total is us).
Proof.
  induction 1 as [|[n name] [[name' w] lim] is us [<- [P B]] _ IH]; [constructor|].
  cbn [flat_map total]. unfold item_text, weight. cbn [fst snd]. destruct (Z.eqb_spec n 0) as [->|N].
  - cbn [app]. replace (0 * w + total is us) with (total is us) by lia. now constructor.
  - rewrite <- app_assoc. constructor; [lia|exact B| |exact IH].
    destruct (dec_int_canonical n) as [[_ C]|[? _]]; [exact C|lia].
Qed.
Lemma u32_quot : forall t, 0 <= wrap u32 t < 10 ^ 10.
Proof. intros t. unfold wrap. cbn [u32 it_signed it_bits]. pose proof (Z.mod_pos_bound t (2 ^ 32)). cbn in *. lia. Qed.
Lemma lit_nz : forall s, forallb (fun c => negb (c =? 0)) (str s) = true -> Forall (fun c => c <> 0) (str s).
Proof. intros s H. apply Forall_forall. intros c I. rewrite forallb_forall in H. apply H in I. lia. Qed.
Lemma time_items_text : forall t, exists d s, TIME_TO_STRING t = Ok d /\ reads d s /\
  time_text s (wrap u32 (Z.quot t DAY) * DAY + t mod DAY).
Proof.
  intros t. destruct (items_fields t) as (h & mi & s & ms & us & ns & E & H & MI & S & MS & US & NS & T).
  unfold TIME_TO_STRING, TIME_TO_STRING_EXT. set (items := parse_timestamp t) in *.
  pose proof (u32_quot (Z.quot t DAY)) as Q.
  assert (F : Forall (fun i => Forall (fun c => c <> 0) (item_text i) /\ (length (item_text i) <= 20)%nat) items).
  { rewrite E. repeat (apply Forall_cons; [apply item_ok; [lia|now apply lit_nz|cbn; lia]|]). apply Forall_nil. }
  exists (flat_map item_text items ++ zeros (2049 - length (flat_map item_text items))), (flat_map item_text items).
  split; [|split].
  - unfold st_string. rewrite time_loop_spec; [reflexivity|exact F|]. rewrite E. cbn [length]. lia.
  - assert (L : (length (flat_map item_text items) <= 140)%nat).
    { rewrite E in F |- *. clear - F.
      repeat (apply Forall_cons_iff in F as [[_ ?] F]). cbn [flat_map]. rewrite !app_length. cbn [length]. lia. }
    split.
    + clear - F. induction F as [|i l [N _] _ IH]; [constructor|]. cbn [flat_map]. apply Forall_app. now split.
    + exists (zeros (2048 - length (flat_map item_text items))). f_equal. rewrite zeros_pos by lia. f_equal. f_equal. lia.
  - unfold time_text. replace (wrap u32 (Z.quot t DAY) * DAY + t mod DAY) with (total items time_units).
    + apply items_text. rewrite E. unfold time_units.
      repeat (apply Forall2_cons; [split; [reflexivity|split; [lia|cbn; lia]]|]). apply Forall2_nil.
    + rewrite E, <- T. clear. unfold total, time_units, weight. cbn [fst snd]. ring.
Qed.
Lemma time_positive : forall t, 0 <= t -> in_ity i64 t -> wrap u32 (Z.quot t DAY) * DAY + t mod DAY = t.
Proof.
  intros t P I. rewrite i64_range_ in I. rewrite Z.quot_div_nonneg by (unfold DAY; lia).
  assert (0 <= t / DAY < 106752) by (unfold DAY; dlia).
  unfold wrap. cbn [u32 it_signed it_bits]. rewrite Z.mod_small by lia.
  pose proof (Z.div_mod t DAY ltac:(discriminate)). lia.
Qed.

(** A text of a duration determines its value. *)
Definition digitp (c : Z) : Prop := 48 <= c <= 57.
Definition nodigit_head (s : list Z) : Prop := match s with [] => True | c :: _ => ~ digitp c end.
Definition digit_head (s : list Z) : Prop := match s with [] => True | c :: _ => digitp c end.
Lemma split_digits : forall a b s s', Forall digitp a -> Forall digitp b -> nodigit_head s -> nodigit_head s' ->
  a ++ s = b ++ s' -> a = b /\ s = s'.
Proof.
  induction a as [|c a IH]; intros [|c' b] s s' A B S S' E; cbn in E.
  - now split.
  - subst s. apply Forall_cons_iff in B as [B _]. cbn in S. contradiction.
  - subst s'. apply Forall_cons_iff in A as [A _]. cbn in S'. contradiction.
  - injection E as -> E. apply Forall_cons_iff in A as [_ A]. apply Forall_cons_iff in B as [_ B].
    destruct (IH b s s' A B S S' E) as [-> ->]. now split.
Qed.
Lemma split_nodigits : forall a b s s', Forall (fun c => ~ digitp c) a -> Forall (fun c => ~ digitp c) b ->
  digit_head s -> digit_head s' -> a ++ s = b ++ s' -> a = b /\ s = s'.
Proof.
  induction a as [|c a IH]; intros [|c' b] s s' A B S S' E; cbn in E.
  - now split.
  - subst s. apply Forall_cons_iff in B as [B _]. cbn in S. contradiction.
  - subst s'. apply Forall_cons_iff in A as [A _]. cbn in S'. contradiction.
  - injection E as -> E. apply Forall_cons_iff in A as [_ A]. apply Forall_cons_iff in B as [_ B].
    destruct (IH b s s' A B S S' E) as [-> ->]. now split.
Qed.
Lemma items_head : forall us s v, time_items us s v -> digit_head s.
Proof.
  induction 1; [exact I|assumption|]. destruct H1 as [[N D] _]. destruct ds as [|c ds]; [congruence|].
  apply digits10_range in D. apply Forall_cons_iff in D as [D _]. exact D.
Qed.
Definition uname (u : list Z * Z * option Z) : list Z := fst (fst u).
Definition good_units (us : list (list Z * Z * option Z)) : Prop :=
  NoDup (map uname us) /\ Forall (fun u => uname u <> [] /\ Forall (fun c => ~ digitp c) (uname u)) us.
Lemma items_first : forall us s v, good_units us -> time_items us s v -> s = [] \/
  exists ds u r, s = ds ++ u ++ r /\ Forall digitp ds /\ ds <> [] /\ In u (map uname us) /\ digit_head r.
Proof.
  intros us s v [ND G] H. induction H.
  - now left.
  - cbn in ND. inversion_clear ND. inversion_clear G. destruct IHtime_items as [->|[ds [w [q [-> [A [B [C D]]]]]]]]; try assumption.
    + now left.
    + right. exists ds, w, q. split; [reflexivity|]. repeat (split; [assumption|]). split; [now right|exact D].
  - right. exists ds, u, s. split; [reflexivity|]. destruct H1 as [[N D] _]. split; [now apply digits10_range in D|].
    split; [exact N|]. split; [now left|]. now apply items_head in H2.
Qed.
Lemma good_in : forall us u, good_units us -> In u (map uname us) -> u <> [] /\ Forall (fun c => ~ digitp c) u.
Proof.
  intros us u [_ G] I. apply in_map_iff in I as [x [<- X]]. rewrite Forall_forall in G. now apply G.
Qed.
Lemma nodigits_head : forall u r, u <> [] -> Forall (fun c => ~ digitp c) u -> nodigit_head (u ++ r).
Proof. intros [|c u] r N F; [congruence|]. apply Forall_cons_iff in F. exact (proj1 F). Qed.
Lemma items_fun : forall us, good_units us -> forall s v, time_items us s v -> forall v', time_items us s v' -> v = v'.
Proof.
  intros us G. induction us as [|[[u w] lim] us IH]; intros s v H v' H'.
  - inversion H; inversion H'; congruence.
  - assert (G' : good_units us).
    { destruct G as [N G]. inversion_clear N. inversion_clear G. now split. }
    destruct (good_in _ u G ltac:(now left)) as [U1 U2].
    assert (NI : ~ In u (map uname us)). { destruct G as [N _]. now inversion_clear N. }
    (* an item of this unit against none of it *)
    assert (X : forall ds s0 q q', canonical ds q -> time_items us (ds ++ u ++ s0) q' -> digit_head s0 -> False).
    { intros ds s0 q q' [[N D] _] T HD. apply digits10_range in D.
      destruct (items_first _ _ _ G' T) as [E|[ds' [u' [r [E [D' [N' [I' R']]]]]]]].
      - apply app_eq_nil in E as [E _]. contradiction.
      - destruct (good_in _ u' G' I') as [W1 W2]. apply split_digits in E as [_ E]; try assumption; try now apply nodigits_head.
        apply split_nodigits in E as [-> _]; [contradiction|assumption..]. }
    inversion H as [|u1 r1 s1 v1 T1|u1 w1 lim1 r1 s1 v1 n1 ds1 P1 B1 C1 T1]; subst;
    inversion H' as [|u2 r2 s2 v2 T2|u2 w2 lim2 r2 s2 v2 n2 ds2 P2 B2 C2 T2 Eu Es]; subst.
    + eapply IH; eassumption.
    + exfalso. assert (HD := items_head _ _ _ T2). eapply X; eassumption.
    + exfalso. assert (HD := items_head _ _ _ T1). eapply X; eassumption.
    + destruct C1 as [[? A] ?], C2 as [[? B] ?].
      apply split_digits in Es as [-> Es]; [|now apply digits10_range in B|now apply digits10_range in A|now apply nodigits_head..].
      apply app_inv_head in Es as ->. rewrite (digits_fun _ _ _ A _ B). f_equal. eapply IH; eassumption.
Qed.
Lemma units_good : good_units time_units.
Proof.
  split.
  - cbn [map time_units uname fst]. repeat (constructor; [cbn; intuition discriminate|]). constructor.
  - unfold time_units. repeat (apply Forall_cons; [split; [discriminate|cbn; repeat (apply Forall_cons; [unfold digitp; lia|]); apply Forall_nil]|]).
    apply Forall_nil.
Qed.
Lemma time_text_fun : forall s v v', time_text s v -> time_text s v' -> v = v'.
Proof. intros s v v' H H'. exact (items_fun _ units_good s v H v' H'). Qed.

(** * Dates and times *)
Lemma zeros48 : forall k, digits 10 (repeat 48 k) 0.
Proof.
  induction k; [constructor|]. cbn [repeat].
  replace 0 with (0 * 10 ^ Z.of_nat (length (repeat 48 k)) + 0) by lia. apply digits_cons; [|exact IHk].
  split; [lia|]. left. lia.
Qed.
Lemma pad_fixed : forall w n, (0 < w)%nat -> 0 <= n < 10 ^ Z.of_nat w -> fixed w (pad w n) n.
Proof.
  intros w n W B. unfold pad. destruct (dec_int_canonical n) as [[_ C]|[? _]]; [|lia].
  apply canonical_length with (w := Z.of_nat w) in C as L; [|lia..]. split.
  - rewrite app_length, repeat_length. lia.
  - destruct C as [[_ D] _]. pose proof (digits_app 10 _ _ (zeros48 (w - length (dec_int n))) _ _ D) as A.
    now rewrite Z.mul_0_l, Z.add_0_l in A.
Qed.
Lemma fixed_fun : forall w l n n', fixed w l n -> fixed w l n' -> n = n'.
Proof. intros w l n n' [_ A] [_ B]. eapply digits_fun; eassumption. Qed.
Lemma app_len_inj : forall (a b c d : list Z), length a = length b -> a ++ c = b ++ d -> a = b /\ c = d.
Proof.
  induction a as [|x a IH]; intros [|y b] c d L E; try discriminate; [now split|].
  cbn in E. injection E as -> E. injection L as L. destruct (IH b c d L E) as [-> ->]. now split.
Qed.

Lemma date_string : forall n, in_ity i64 n -> exists y m d,
  date_text (date_to_string (dt_date (of_timestamp_nanos n))) y m d /\ day_number (y, m, d) (n / DAY).
Proof.
  intros n I. destruct (of_ts_spec n) as (V & D & _). unfold date_to_string.
  destruct (nd_of_ymd _ V) as [N Vy]. pose proof (year_range _ V) as Y. rewrite D in Y. specialize (Y (day_of_i64 n I)).
  destruct (ymd (dt_date (of_timestamp_nanos n))) as [[y m] d] eqn:E.
  assert (y = nd_year (dt_date (of_timestamp_nanos n))) by (rewrite <- N; reflexivity).
  rewrite <- H in Y. clear H. exists y, m, d. split.
  - unfold between. destruct (Z.leb_spec 0 y); [|lia]. destruct (Z.leb_spec y 9999); [|lia]. cbn [andb].
    assert (M : 1 <= m <= 12 /\ 1 <= d <= 31).
    { destruct Vy as [? ?]. assert (days_in_month y m <= 31); [|lia]. unfold days_in_month.
      destruct (_ || _); [lia|]. destruct (_ =? 2); [|lia]. destruct (is_leapb _); lia. }
    do 3 eexists. split; [reflexivity|]. repeat split; apply pad_fixed; cbn; lia.
  - apply day_number_iff. split; [exact Vy|]. now rewrite N.
Qed.
Lemma frac_spec : forall n, 0 <= n < 1000000000 ->
  fraction (if n =? 0 then []
   else if n mod 1000000 =? 0 then str "." ++ pad 3 (n / 1000000)
   else if n mod 1000 =? 0 then str "." ++ pad 6 (n / 1000)
   else str "." ++ pad 9 n) n.
Proof.
  intros n B. destruct (Z.eqb_spec n 0) as [->|N]; [now left|]. right.
  destruct (Z.eqb_spec (n mod 1000000) 0) as [E|E].
  { exists 3%nat, (pad 3 (n / 1000000)), (n / 1000000). split; [now left|]. split; [reflexivity|].
    split; [apply pad_fixed; cbn; dlia|]. split; [cbn; dlia|]. split; [dlia|now left]. }
  destruct (Z.eqb_spec (n mod 1000) 0) as [E'|E'].
  { exists 6%nat, (pad 6 (n / 1000)), (n / 1000). split; [right; now left|]. split; [reflexivity|].
    split; [apply pad_fixed; cbn; dlia|]. split; [cbn; dlia|]. split; [dlia|right; dlia]. }
  exists 9%nat, (pad 9 n), n. split; [right; right; now left|]. split; [reflexivity|].
  split; [apply pad_fixed; cbn; dlia|]. split; [cbn; lia|]. split; [lia|now right].
Qed.
Lemma clock_string : forall n, exists h m s ns,
  clock_text (time_to_string (dt_time (of_timestamp_nanos n))) h m s ns /\
  0 <= h < 24 /\ 0 <= m < 60 /\ 0 <= s < 60 /\ 0 <= ns < SECOND /\
  h * HOUR + m * MINUTE + s * SECOND + ns = n mod DAY.
Proof.
  intros n. destruct (of_ts_spec n) as (_ & _ & S & F). unfold time_to_string. rewrite S, F.
  assert (B : 0 <= n mod SECOND < 1000000000) by (apply Z.mod_pos_bound; reflexivity).
  assert (B2 : 0 <= n / SECOND mod 86400 < 86400) by (apply Z.mod_pos_bound; lia).
  assert (E : n mod DAY = n / SECOND mod 86400 * 1000000000 + n mod SECOND).
  { unfold DAY, SECOND. change 86400000000000 with (1000000000 * 86400). rewrite Z.rem_mul_r by lia. lia. }
  rewrite E. clear E S F. set (a := n / SECOND mod 86400) in *. set (b := n mod SECOND) in *. clearbody a b.
  destruct (Z.leb_spec 1000000000 b); [lia|].
  exists (a / 3600), (a / 60 mod 60), (a mod 60), b. split.
  - do 4 eexists. split; [reflexivity|]. split; [|split; [|split]].
    1-3: apply pad_fixed; cbn; dlia.
    apply frac_spec. lia.
  - unfold HOUR, MINUTE, SECOND. repeat split; dlia.
Qed.
Lemma date_fun : forall s y m d y' m' d', date_text s y m d -> date_text s y' m' d' -> y = y' /\ m = m' /\ d = d'.
Proof.
  intros s y m d y' m' d' (ys & ms & ds & -> & Y & M & D) (ys' & ms' & ds' & E & Y' & M' & D').
  apply app_len_inj in E as [-> E]; [|destruct Y, Y'; congruence]. apply app_len_inj in E as [_ E]; [|reflexivity].
  apply app_len_inj in E as [-> E]; [|destruct M, M'; congruence]. apply app_len_inj in E as [_ ->]; [|reflexivity].
  split; [|split]; eapply fixed_fun; eassumption.
Qed.
Lemma fraction_fun : forall s n n', fraction s n -> fraction s n' -> n = n'.
Proof.
  intros s n n' [[-> ->]|(w & ds & k & _ & -> & F & -> & _)] [[E ->]|(w' & ds' & k' & _ & E & F' & -> & _)]; try discriminate; [reflexivity|].
  apply app_len_inj in E as [_ ->]; [|reflexivity]. assert (w = w') as <- by (destruct F, F'; congruence).
  now rewrite (fixed_fun _ _ _ _ F F').
Qed.
Lemma clock_fun : forall s h m sec ns h' m' sec' ns', clock_text s h m sec ns -> clock_text s h' m' sec' ns' ->
  h = h' /\ m = m' /\ sec = sec' /\ ns = ns'.
Proof.
  intros s h m sec ns h' m' sec' ns' (hs & ms & ss & fs & -> & H & M & S & F) (hs' & ms' & ss' & fs' & E & H' & M' & S' & F').
  apply app_len_inj in E as [-> E]; [|destruct H, H'; congruence]. apply app_len_inj in E as [_ E]; [|reflexivity].
  apply app_len_inj in E as [-> E]; [|destruct M, M'; congruence]. apply app_len_inj in E as [_ E]; [|reflexivity].
  apply app_len_inj in E as [-> ->]; [|destruct S, S'; congruence].
  split; [|split; [|split]]; try (eapply fixed_fun; eassumption). eapply fraction_fun; eassumption.
Qed.
Lemma date_text_len : forall s y m d, date_text s y m d -> length s = 10%nat /\ Forall (fun c => c <> 0) s.
Proof.
  intros s y m d (ys & ms & ds & -> & [Y Y'] & [M M'] & [D D']). split.
  - rewrite !app_length, Y, M, D. reflexivity.
  - apply digits10_nz in Y', M', D'. repeat (apply Forall_app; split); try assumption; now apply lit_nz.
Qed.
Lemma clock_text_len : forall s h m sec ns, clock_text s h m sec ns -> (length s <= 18)%nat /\ Forall (fun c => c <> 0) s.
Proof.
  intros s h m sec ns (hs & ms & ss & fs & -> & [H H'] & [M M'] & [S S'] & F).
  assert (G : (length fs <= 10)%nat /\ Forall (fun c => c <> 0) fs).
  { destruct F as [[-> _]|(w & ds & k & W & -> & [L D] & _)]; [split; [cbn; lia|constructor]|].
    apply digits10_nz in D. split; [|apply Forall_app; split; [now apply lit_nz|exact D]].
    rewrite app_length, L. cbn [length str list_ascii_of_string map]. cbn in W. lia. }
  destruct G as [G1 G2]. split.
  - rewrite !app_length, H, M, S. cbn [length str list_ascii_of_string map]. lia.
  - apply digits10_nz in H', M', S'. repeat (apply Forall_app; split); try assumption; now apply lit_nz.
Qed.
