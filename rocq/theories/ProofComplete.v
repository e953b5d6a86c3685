(** Proofs about the programs of SpecComplete.v: every function has an answer in the reference for all arguments of the described form. *)
From Coq Require Import String ZArith List Bool Lia Reals Lra.
From Verif Require Import Base ModelFB ModelLayout ModelMachine ModelFloat ModelString ModelExtra ModelWrap ModelLink ModelLib ModelApi
  SpecMachine SpecScalar SpecReal SpecText SpecExtra SpecDate SpecLink SpecLib SpecWrap SpecConv SpecApi SpecCall SpecExpr SpecNum SpecTerm SpecType SpecProgram SpecSize SpecWhole SpecRefine SpecComplete
  ProofBase ProofText ProofString2 ProofString3 ProofWrap ProofExtra ProofExtra2 ProofExtra4 ProofExtra5 ProofExtra6 ProofCall ProofCall4 ProofCall5 ProofExpr ProofTerm ProofTerm2 ProofTerm3 ProofTerm4 ProofTermE ProofCompleteR ProofType ProofSize ProofWhole ProofWhole2
  ProofRefine.
Import ListNotations.
Open Scope string_scope.
Open Scope list_scope.
Open Scope Z_scope.
Local Notation size := SpecWrap.size.
Local Opaque ModelApi.call value_in api.

(** * Functions *)
(** As described, apart from the range of the type. *)
Definition near (s : described) (m : meaning) : Prop :=
  match s with
  | Known (A_value t b) => exists z, m = Whole t z /\ (b = true -> 0 <= z)
  | Known (A_text k n) => exists t, m = Text k t /\ (size k t <= n)%nat
  | Between t lo hi => exists q, m = Real t q /\ (IZR lo <= q <= IZR hi)%R
  end.
Definition ruled (P : platform) (f : string) (ms : list meaning) (d : described) : Prop := (exists m, yields P f ms m /\ near d m) \/ fails P f ms.
Lemma weaker_meets : forall (s s' : known) m, weaker s s' -> meets s m -> meets s' m.
Proof.
  intros s s' m W H. destruct W as [t b|k n n' L].
  - destruct H as (z & -> & Z & _). exists z. split; [reflexivity|]. split; [exact Z|discriminate].
  - destruct H as (t & -> & T & S). exists t. split; [reflexivity|]. split; [exact T|lia].
Qed.
Lemma values_met : forall ts ms, Forall2 meets (any_values ts) ms -> of_types ts ms.
Proof.
  intros ts. induction ts as [|t ts IH]; intros ms H; inversion H as [|? m ? ms' K H']; subst; [constructor|].
  destruct K as (z & -> & Z & _). constructor; [now exists z|exact (IH ms' H')].
Qed.
Lemma texts_met : forall k ns ms, Forall2 meets (map (fun n => Known (A_text k n)) ns) ms -> exists ts, ms = map (Text k) ts /\ (size k (concat ts) <= list_sum ns)%nat /\ length ts = length ns.
Proof.
  intros k ns. induction ns as [|n ns IH]; intros ms H; inversion H as [|? m ? ms' K H']; subst.
  - exists []. split; [reflexivity|]. split; [apply Nat.le_refl|reflexivity].
  - destruct (IH ms' H') as (ts & -> & S & L). destruct K as (t & -> & _ & Z). exists (t :: ts). split; [reflexivity|].
    split; [cbn [concat list_sum fold_right]; rewrite size_app; unfold list_sum in S; lia|cbn [length]; lia].
Qed.
Lemma takes_ruled : forall P f ts t ms, takes f ts t -> Forall2 meets (any_values ts) ms -> ruled P f ms (any_value t).
Proof.
  intros P f ts t ms T H. destruct (total_rule P f ts ms t T (values_met ts ms H)) as [(z & Y)|Y]; [left|right; exact Y].
  exists (Whole t z). split; [exact Y|]. exists z. split; [reflexivity|discriminate].
Qed.
Lemma max_ruled : forall P a b (x y : bool), (x = true -> 0 <= a) -> (y = true -> 0 <= b) -> ruled P "MAX" [Whole S_DINT a; Whole S_DINT b] (A_value S_DINT (x || y)).
Proof.
  intros P a b x y X Y. left. exists (Whole S_DINT (Z.max a b)). split.
  - refine (y_max P S_DINT [a; b] (Z.max a b) _ _); [cbn; tauto|]. split; [cbn; lia|]. intros z [<-|[<-|[]]]; lia.
  - exists (Z.max a b). split; [reflexivity|]. intros B. apply orb_true_iff in B as [B|B]; [specialize (X B)|specialize (Y B)]; lia.
Qed.
Lemma min_ruled : forall P a b (x y : bool), (x = true -> 0 <= a) -> (y = true -> 0 <= b) -> ruled P "MIN" [Whole S_DINT a; Whole S_DINT b] (A_value S_DINT (x && y)).
Proof.
  intros P a b x y X Y. left. exists (Whole S_DINT (Z.min a b)). split.
  - refine (y_min P S_DINT [a; b] (Z.min a b) _ _); [cbn; tauto|]. split; [cbn; lia|]. intros z [<-|[<-|[]]]; lia.
  - exists (Z.min a b). split; [reflexivity|]. intros B. apply andb_true_iff in B as [B1 B2]. specialize (X B1). specialize (Y B2). lia.
Qed.
Lemma end_ruled : forall P f k s i n, List.In f ["LEFT"; "RIGHT"] -> (size k s <= n)%nat -> (n <= capacity)%nat -> ruled P f [Text k s; Whole S_DINT i] (A_text k n).
Proof.
  intros P f k s i n F S C. unfold capacity in C. assert (SH : short k s) by (unfold short; unfold size in S; lia).
  destruct (range_dec 0 i (slen s)) as [R|R].
  - left. destruct F as [<-|[<-|[]]].
    + eexists. split; [exact (y_left P k s i SH R)|]. eexists. split; [reflexivity|]. pose proof (size_firstn k (Z.to_nat i) s). lia.
    + eexists. split; [exact (y_right P k s i SH R)|]. eexists. split; [reflexivity|]. pose proof (size_skipn k (length s - Z.to_nat i) s). lia.
  - right. destruct F as [<-|[<-|[]]]; [exact (f_left P k s i SH R)|exact (f_right P k s i SH R)].
Qed.
Lemma mid_ruled : forall P k s l p n, (size k s <= n)%nat -> (n <= capacity)%nat -> ruled P "MID" [Text k s; Whole S_DINT l; Whole S_DINT p] (A_text k n).
Proof.
  intros P k s l p n S C. unfold capacity in C. assert (SH : short k s) by (unfold short; unfold size in S; lia).
  assert (D : (0 <= l /\ 1 <= p <= slen s /\ p - 1 + l <= slen s) \/ ~ (0 <= l /\ 1 <= p <= slen s /\ p - 1 + l <= slen s)) by lia.
  destruct D as [(D1 & D2 & D3)|D]; [left|right; exact (f_mid P k s l p SH D)].
  eexists. split; [exact (y_mid P k s l p SH D1 D2 D3)|]. eexists. split; [reflexivity|].
  pose proof (size_firstn k (Z.to_nat l) (skipn (Z.to_nat (p - 1)) s)). pose proof (size_skipn k (Z.to_nat (p - 1)) s). lia.
Qed.
Lemma delete_ruled : forall P k s l p n b, (size k s <= n)%nat -> (remains (p_profile P) b n <= capacity)%nat -> (b = true -> 0 <= l) ->
  ruled P "DELETE" [Text k s; Whole S_DINT l; Whole S_DINT p] (A_text k (remains (p_profile P) b n)).
Proof.
  intros P k s l p n b S C B. unfold capacity in C. pose proof (remains_ge (p_profile P) b n) as G. assert (SH : short k s) by (unfold short; unfold size in S; lia).
  pose proof (small_slen k s ltac:(lia)) as SL. destruct (Z_lt_le_dec l 0) as [L|L].
  - assert (D : (p_profile P = Release /\ 0 <= p - 1 + l /\ p <= slen s) \/ (p_profile P = Debug \/ ~ (0 <= p - 1 + l /\ p <= slen s))).
    { destruct (p_profile P); [right; now left|]. assert (X : (0 <= p - 1 + l /\ p <= slen s) \/ ~ (0 <= p - 1 + l /\ p <= slen s)) by lia. destruct X as [X|X]; [left; now split|right; now right]. }
    destruct D as [(E & D1 & D2)|D]; [left|right; exact (f_delete_back P k s l p SL L D)].
    destruct b; [specialize (B eq_refl); lia|]. rewrite E in *. cbn [remains] in *.
    assert (Z : (size k (firstn (Z.to_nat (p - 1)) s ++ skipn (Z.to_nat (p - 1 + l)) s) <= n + (n - 1))%nat).
    { rewrite size_app. pose proof (repeated_size k s (Z.to_nat (p - 1)) (Z.to_nat (p - 1 + l)) ltac:(unfold slen in D2; lia)). lia. }
    eexists. split; [refine (y_delete_back P k s l p E SL L D1 D2 _); unfold short; unfold size in Z; lia|]. eexists. split; [reflexivity|exact Z].
  - assert (D : (1 <= p <= slen s /\ p - 1 + l <= slen s) \/ ~ (1 <= p <= slen s /\ p - 1 + l <= slen s)) by lia.
    destruct D as [[D1 D2]|D]; [left|right; exact (f_delete P k s l p SH L D)].
    eexists. split; [exact (y_delete P k s l p SH L D1 D2)|]. eexists. split; [reflexivity|]. rewrite size_app. pose proof (cut_size k s l p L). lia.
Qed.
Lemma insert_ruled : forall P k s t p n m, (size k s <= n)%nat -> (size k t <= m)%nat -> (n + m <= capacity)%nat ->
  ruled P "INSERT" [Text k s; Text k t; Whole S_DINT p] (A_text k (n + m)).
Proof.
  intros P k s t p n m S T C. unfold capacity in C. pose proof (small_slen k s ltac:(lia)) as SL. destruct (range_dec 0 p (slen s)) as [R|R]; [left|right; exact (f_insert P k s t p SL R)].
  assert (Z : (size k (firstn (Z.to_nat p) s ++ t ++ skipn (Z.to_nat p) s) <= n + m)%nat) by (rewrite !size_app; pose proof (size_split k (Z.to_nat p) s); lia).
  eexists. split; [refine (y_insert P k s t p SL R _); unfold short; unfold size in Z; lia|]. eexists. split; [reflexivity|exact Z].
Qed.
Lemma replace_ruled : forall P k s t l p n m b, (size k s <= n)%nat -> (size k t <= m)%nat -> (remains (p_profile P) b n + m <= capacity)%nat -> (b = true -> 0 <= l) ->
  ruled P "REPLACE" [Text k s; Text k t; Whole S_DINT l; Whole S_DINT p] (A_text k (remains (p_profile P) b n + m)).
Proof.
  intros P k s t l p n m b S T C B. unfold capacity in C. pose proof (remains_ge (p_profile P) b n) as G.
  pose proof (small_slen k s ltac:(lia)) as SL. destruct (Z_lt_le_dec l 0) as [L|L].
  - assert (D : (p_profile P = Release /\ 0 <= p - 1 + l /\ p <= slen s) \/ (p_profile P = Debug \/ ~ (0 <= p - 1 + l /\ p <= slen s))).
    { destruct (p_profile P); [right; now left|]. assert (X : (0 <= p - 1 + l /\ p <= slen s) \/ ~ (0 <= p - 1 + l /\ p <= slen s)) by lia. destruct X as [X|X]; [left; now split|right; now right]. }
    destruct D as [(E & D1 & D2)|D]; [left|right; exact (f_replace_back P k s t l p SL L D)].
    destruct b; [specialize (B eq_refl); lia|]. rewrite E in *. cbn [remains] in *.
    assert (Z : (size k (firstn (Z.to_nat (p - 1)) s ++ t ++ skipn (Z.to_nat (p - 1 + l)) s) <= n + (n - 1) + m)%nat).
    { rewrite !size_app. pose proof (repeated_size k s (Z.to_nat (p - 1)) (Z.to_nat (p - 1 + l)) ltac:(unfold slen in D2; lia)). lia. }
    eexists. split; [refine (y_replace_back P k s t l p E SL L D1 D2 _); unfold short; unfold size in Z; lia|]. eexists. split; [reflexivity|exact Z].
  - assert (D : (1 <= p <= slen s /\ p - 1 + l <= slen s) \/ ~ (1 <= p <= slen s /\ p - 1 + l <= slen s)) by lia.
    destruct D as [[D1 D2]|D]; [left|right; exact (f_replace P k s t l p SL L D)].
    assert (Z : (size k (firstn (Z.to_nat (p - 1)) s ++ t ++ skipn (Z.to_nat (p - 1 + l)) s) <= n + m)%nat) by (rewrite !size_app; pose proof (cut_size k s l p L); lia).
    eexists. split; [refine (y_replace P k s t l p SL L D1 D2 _); unfold short; unfold size in Z; lia|]. eexists. split; [reflexivity|lia].
Qed.
Lemma concat_ruled : forall P k ts n, ts <> [] -> (size k (concat ts) <= n)%nat -> (n <= capacity)%nat -> ruled P "CONCAT" (map (Text k) ts) (A_text k n).
Proof.
  intros P k ts n N S C. unfold capacity in C. left. eexists. split; [refine (y_concat P k ts N _); unfold short; unfold size in S; lia|]. eexists. split; [reflexivity|exact S].
Qed.
Lemma narrow_ruled : forall P s n, (size WSTRING s <= n)%nat -> (3 * n <= capacity)%nat -> ruled P "WSTRING_TO_STRING" [Text WSTRING s] (A_text STRING (3 * n)).
Proof.
  intros P s n S C. unfold capacity in C. pose proof (size_narrow s) as W. left. eexists. split; [refine (y_narrow_text P s _); unfold short; unfold size in *; lia|]. eexists. split; [reflexivity|lia].
Qed.
Lemma wide_ruled : forall P s n, (size STRING s <= n)%nat -> (n <= capacity)%nat -> ruled P "STRING_TO_WSTRING" [Text STRING s] (A_text WSTRING n).
Proof.
  intros P s n S C. unfold capacity in C. pose proof (size_wide s) as W. left. eexists. split; [refine (y_wide_text P s _); unfold short; unfold size in *; lia|]. eexists. split; [reflexivity|lia].
Qed.
Lemma len_ruled : forall P k s n, (size k s <= n)%nat -> (n <= capacity)%nat -> ruled P "LEN" [Text k s] (A_value S_DINT true).
Proof.
  intros P k s n S C. unfold capacity in C. left. eexists. split; [exact (y_len P k s (small_slen k s ltac:(lia)))|]. eexists. split; [reflexivity|]. intros _. apply slen_pos.
Qed.
Lemma find_ruled : forall P k s t n, (size k s <= n)%nat -> (n <= capacity)%nat -> ruled P "FIND" [Text k s; Text k t] (A_value S_DINT true).
Proof.
  intros P k s t n S C. unfold capacity in C. pose proof (small_slen k s ltac:(lia)) as SL. left.
  assert (D : (t = [] \/ (forall i, ~ occurs_at t s i)) \/ (t <> [] /\ exists i, first_at t s i)).
  { destruct t as [|x t]; [left; now left|]. destruct (occurs_some (x :: t) s) as [(i & O)|O]; [|left; now right]. right. split; [discriminate|exact (first_exists _ _ i O)]. }
  destruct D as [D|(D & i & F)].
  - eexists. split; [exact (y_not_found P k s t SL D)|]. eexists. split; [reflexivity|lia].
  - eexists. split; [exact (y_found P k s t i SL D F)|]. eexists. split; [reflexivity|lia].
Qed.
Lemma truth_some : forall p o, tells p o -> exists b, truth b p.
Proof. intros p o [[H _]|[H _]]; [exists 1; now left|exists 0; now right]. Qed.
Lemma compare_ruled : forall P f k s t, List.In f ["EQ"; "NE"; "LT"; "GT"; "LE"; "GE"] -> text s -> text t -> ruled P f [Text k s; Text k t] (any_value S_BOOL).
Proof.
  intros P f k s t F S T. left. destruct (holds_any k s S) as [a A]. destruct (holds_any k t T) as [b B].
  destruct (eq_texts P k a b s t A B) as [X1 X2]. destruct (order_is P k a b s t A B) as (X3 & X4 & X5 & X6).
  apply truth_some in X1, X2, X3, X4, X5, X6. destruct X1 as [b1 X1], X2 as [b2 X2], X3 as [b3 X3], X4 as [b4 X4], X5 as [b5 X5], X6 as [b6 X6].
  assert (N : forall b', near (any_value S_BOOL) (Whole S_BOOL b')) by (intros b'; exists b'; split; [reflexivity|discriminate]).
  destruct F as [<-|[<-|[<-|[<-|[<-|[<-|[]]]]]]]; (eexists; split; [|apply N]).
  - exact (y_eq P k s t b1 X1).
  - exact (y_ne P k s t b2 X2).
  - exact (y_lt P k s t b3 X3).
  - exact (y_gt P k s t b4 X4).
  - exact (y_le P k s t b5 X5).
  - exact (y_ge P k s t b6 X6).
Qed.
Lemma int_text_dec : forall t s, List.In t [S_LINT; S_DINT] -> text s ->
  (exists z, int_text (units STRING s) z /\ of_type t z) \/ (forall z, int_text (units STRING s) z -> ~ of_type t z).
Proof.
  intros t s T S. destruct (holds_any STRING s S) as [d D]. apply ProofString2.holds_reads in D.
  assert (K : forall i, imin i <= 0 <= imax i -> (exists z, int_text (units STRING s) z /\ in_ity i z) \/ (forall z, int_text (units STRING s) z -> ~ in_ity i z)).
  { intros i I. pose proof (string_to_int_spec i d _ I D) as SP. destruct (string_to_int_total i d _ D) as [Q|[n Q]].
    - right. intros z Z J. pose proof (proj2 (SP z) (conj Z J)) as E. rewrite Q in E. discriminate E.
    - left. exists n. exact (proj1 (SP n) Q). }
  destruct T as [<-|[<-|[]]]; [exact (K i64 ltac:(split; discriminate))|exact (K i32 ltac:(split; discriminate))].
Qed.
Lemma read_ruled : forall P t s, List.In t [S_LINT; S_DINT] -> text s -> ruled P (of_text STRING t) [Text STRING s] (any_value t).
Proof.
  intros P t s T S. destruct (int_text_dec t s T S) as [(z & Z & J)|N]; [left|right; exact (f_parse P t s T N)].
  eexists. split; [exact (y_parse P t s z T Z J)|]. exists z. split; [reflexivity|discriminate].
Qed.
Lemma read_wide_ruled : forall P t s n, List.In t [S_LINT; S_DINT] -> text s -> (size WSTRING s <= n)%nat -> (3 * n <= 80)%nat ->
  ruled P (of_text WSTRING t) [Text WSTRING s] (any_value t).
Proof.
  intros P t s n T S Z C. assert (L : (length (units STRING s) <= 80)%nat) by (pose proof (size_narrow s) as W; unfold size in *; lia).
  destruct (int_text_dec S_LINT s ltac:(now left) S) as [(z & I & J)|N]; [left|right; exact (f_parse_wide P t s T L N)].
  destruct (convert_typed t z ltac:(destruct T as [<-|[<-|[]]]; cbn; tauto)) as (A & B & _).
  eexists. split; [exact (y_parse_wide P t s z (wrap (ity_of t) z) T L I J A B)|]. eexists. split; [reflexivity|discriminate].
Qed.
Lemma gives_size : forall k s o n, gives k s o -> at_most k n o -> (size k s <= n)%nat.
Proof.
  intros k s o n (d & -> & H) [(t & (d' & E & H') & S)|E]; [|discriminate E]. injection E as E.
  assert (X : Text k s = Text k t) by (apply (stands_unique (string_type k, VS d)); [exists d; exact (conj eq_refl H)|exists d'; rewrite E; exact (conj eq_refl H')]).
  injection X as ->. exact S.
Qed.
Lemma print_ruled : forall P t n z k, List.In (t, n) shown_types -> of_type t z -> ruled P (to_text t k) [Whole t z] (A_text k n).
Proof.
  intros P t n z k I Z. left.
  assert (W : at_most k n (ModelApi.call P (to_text t k) [(t, VZ z)])).
  { refine (proj1 (written_most P t n (VZ z) k _ _)); unfold shown_types in I; cbn [List.In] in I;
      repeat (destruct I as [I|I]; [injection I as <- <-; first [exact Z|unfold written_types; cbn [List.In]; tauto]|]); destruct I. }
  assert (K : forall s, yields P (to_text t k) [Whole t z] (Text k s) -> gives k s (ModelApi.call P (to_text t k) [(t, VZ z)]) ->
    exists m, yields P (to_text t k) [Whole t z] m /\ near (A_text k n) m).
  { intros s Y G. exists (Text k s). split; [exact Y|]. exists s. split; [reflexivity|]. exact (gives_size k s _ n G W). }
  assert (INT : List.In t printed_types -> exists m, yields P (to_text t k) [Whole t z] m /\ near (A_text k n) m).
  { intros T. pose proof (dec_int_canonical z) as C. exact (K _ (y_print P t z _ k T C) (print_is P t z _ k T Z C)). }
  clear W.
  assert (DATES : List.In t [S_DATE; S_LDATE] -> exists m, yields P (to_text t k) [Whole t z] m /\ near (A_text k n) m).
  { intros T. destruct (dates_print P (type_name t) t z) as (s & y & m & d & C & D & _); [destruct T as [<-|[<-|[]]]; cbn; tauto|destruct T as [<-|[<-|[]]]; exact Z|].
    exact (K s (y_print_date P t z s y m d k T C D) (print_date_any P t z s y m d k T Z C D)). }
  assert (TODS : List.In t [S_TOD; S_LTOD] -> exists m, yields P (to_text t k) [Whole t z] m /\ near (A_text k n) m).
  { intros T. destruct (tods_print P (type_name t) t z) as (s & h & m & c & ns & C & R1 & R2 & R3 & R4 & E & _); [destruct T as [<-|[<-|[]]]; cbn; tauto|destruct T as [<-|[<-|[]]]; exact Z|].
    assert (D : daytime_text s (z mod DAY)) by (exists h, m, c, ns; exact (conj C (conj R1 (conj R2 (conj R3 (conj R4 E)))))).
    exact (K s (y_print_tod P t z s k T D) (print_tod_any P t z s k T Z D)). }
  assert (DTS : List.In t [S_DT; S_LDT] -> exists m, yields P (to_text t k) [Whole t z] m /\ near (A_text k n) m).
  { intros T. destruct (dts_print P (type_name t) t z) as (s & s' & y & m & d & h & mi & c & ns & C & D & CC & R1 & R2 & R3 & R4 & E & _);
      [destruct T as [<-|[<-|[]]]; cbn; tauto|destruct T as [<-|[<-|[]]]; exact Z|].
    assert (DD : daytime_text s' (z mod DAY)) by (exists h, mi, c, ns; exact (conj CC (conj R1 (conj R2 (conj R3 (conj R4 E)))))).
    exact (K _ (y_print_dt P t z s s' y m d k T C D DD) (print_dt_any P t z s s' y m d k T Z C D DD)). }
  assert (TIMES : List.In t [S_TIME; S_LTIME] -> exists m, yields P (to_text t k) [Whole t z] m /\ near (A_text k n) m).
  { intros T. assert (Z' : of_type S_TIME z) by (destruct T as [<-|[<-|[]]]; exact Z). destruct (Z_lt_le_dec z 0) as [L|L].
    - destruct (time_items_text z) as (d & s & _ & _ & C). rewrite (time_value_neg z Z' L) in C. exact (K s (y_print_negative P t z s k T L C) (print_negative_any P t z s k T L Z C)).
    - destruct (times_print P "TIME" S_TIME z ltac:(left; reflexivity) L Z') as (s & C & _). exact (K s (y_print_time P t z s k T L C) (print_time_any P t z s k T L Z C)). }
  unfold shown_types in I. cbn [List.In] in I. destruct I as [I|[I|[I|[I|[I|[I|[I|[I|[I|[I|[I|[I|[I|[]]]]]]]]]]]]]]; injection I as <- <-.
  1-5: apply INT; cbn; tauto.
  1-2: apply DATES; cbn; tauto.
  1-2: apply TODS; cbn; tauto.
  1-2: apply DTS; cbn; tauto.
  all: apply TIMES; cbn; tauto.
Qed.

(** * Real numbers *)
Lemma abs_ruled : forall P t q lo hi, (IZR lo <= q <= IZR hi)%R -> ruled P "ABS" [Real t q] (Between t 0 (Z.max (- lo) hi)).
Proof.
  intros P t q lo hi B. left. eexists. split; [apply y_abs|]. eexists. split; [reflexivity|]. split; [apply Rabs_pos|].
  assert (M1 : (IZR (- lo) <= IZR (Z.max (- lo) hi))%R) by (apply IZR_le; lia). assert (M2 : (IZR hi <= IZR (Z.max (- lo) hi))%R) by (apply IZR_le; lia).
  rewrite opp_IZR in M1. apply Rabs_le. lra.
Qed.
Lemma round_ruled : forall P t q lo hi, (IZR lo <= q <= IZR hi)%R -> ruled P "ROUND" [Real t q] (Between t lo hi).
Proof.
  intros P t q lo hi B. destruct (nearest_exists q lo hi B) as (n & N & L1 & L2). left. eexists. split; [exact (y_round P t q n N)|]. eexists. split; [reflexivity|].
  split; now apply IZR_le.
Qed.
Lemma of_type_between : forall t lo hi n, of_type t lo -> of_type t hi -> lo <= n <= hi -> of_type t n.
Proof. intros t lo hi n L H B. unfold of_type, in_ity in *. lia. Qed.
Lemma trunc_ruled : forall P t q lo hi, of_type S_LINT lo -> of_type S_LINT hi -> (IZR lo <= q <= IZR hi)%R -> ruled P "TRUNC" [Real t q] (any_value S_LINT).
Proof.
  intros P t q lo hi L H B. destruct (part_exists q lo hi B) as (n & N & R). left. eexists. split; [exact (y_trunc P t q n N (of_type_between _ lo hi n L H R))|]. eexists. split; [reflexivity|discriminate].
Qed.
Lemma to_integer_ruled : forall P t a q lo hi, List.In a integers -> of_type a lo -> of_type a hi -> (IZR lo <= q <= IZR hi)%R ->
  ruled P (conversion_name t a) [Real t q] (A_value a (0 <=? lo)).
Proof.
  intros P t a q lo hi A L H B. destruct (nearest_exists q lo hi B) as (n & N & R). left. eexists. split; [exact (y_to_integer P t a q n A N (of_type_between _ lo hi n L H R))|].
  eexists. split; [reflexivity|]. intros Z. apply Z.leb_le in Z. lia.
Qed.
Lemma of_integer_ruled : forall P t a z lo hi, List.In t reals -> List.In a integers -> exact t lo -> exact t hi -> lo <= z <= hi -> ruled P (conversion_name a t) [Whole a z] (Between t lo hi).
Proof.
  intros P t a z lo hi T A X1 X2 B. destruct (rounding_exists t (IZR z) (IZR lo) (IZR hi) T X1 X2) as (p & N & R); [split; apply IZR_le; lia|].
  left. eexists. split; [exact (y_of_integer P t a z p T A N)|]. now exists p.
Qed.
Lemma narrow_real_ruled : forall P q lo hi, exact S_REAL lo -> exact S_REAL hi -> (IZR lo <= q <= IZR hi)%R -> ruled P "LREAL_TO_REAL" [Real S_LREAL q] (Between S_REAL lo hi).
Proof.
  intros P q lo hi X1 X2 B. destruct (rounding_exists S_REAL q (IZR lo) (IZR hi) ltac:(now left) X1 X2 B) as (p & N & R).
  left. eexists. split; [exact (y_narrow P q p (narrow_fits q _ _ X1 X2 B) N)|now exists p].
Qed.
Lemma sqrt_ruled : forall P t q lo hi, List.In t reals -> representable_real t q -> 0 <= lo -> 1 <= hi -> (IZR lo <= q <= IZR hi)%R -> ruled P "SQRT" [Real t q] (Between t 0 hi).
Proof.
  intros P t q lo hi T V L H B. apply IZR_le in L, H. assert (Q : (0 <= q)%R) by lra.
  destruct (sqrt_exists t q (IZR hi) T V ltac:(lra) H) as (p & N & R). left. eexists. split; [exact (y_sqrt P t q p Q N)|now exists p].
Qed.
Lemma ranges_met : forall t lo hi n ms, Forall2 meets (repeat (Between t lo hi) n) ms ->
  exists qs, ms = map (Real t) qs /\ Forall (fun q => (IZR lo <= q <= IZR hi)%R) qs /\ length qs = n.
Proof.
  intros t lo hi n. induction n as [|n IH]; intros ms H; inversion H as [|? m ? ms' K H']; subst.
  - exists []. split; [reflexivity|]. split; [constructor|reflexivity].
  - destruct K as (q & -> & _ & _ & B). destruct (IH ms' H') as (qs & -> & F & L). exists (q :: qs). split; [reflexivity|]. split; [now constructor|cbn; now rewrite L].
Qed.
Lemma extreme_exists : forall qs, qs <> [] -> (exists m, is_max_real m qs) /\ (exists m, is_min_real m qs).
Proof.
  intros qs. induction qs as [|q qs IH]; intros N; [now destruct N|]. destruct qs as [|q' qs].
  - split; exists q; (split; [now left|]); intros x [<-|[]]; apply Rle_refl.
  - destruct IH as [(m & M1 & M2) (n & N1 & N2)]; [discriminate|]. split.
    + destruct (Rle_lt_dec m q) as [L|L]; [exists q|exists m].
      * split; [now left|]. intros x [<-|X]; [apply Rle_refl|]. specialize (M2 x X). lra.
      * split; [now right|]. intros x [<-|X]; [lra|exact (M2 x X)].
    + destruct (Rle_lt_dec q n) as [L|L]; [exists q|exists n].
      * split; [now left|]. intros x [<-|X]; [apply Rle_refl|]. specialize (N2 x X). lra.
      * split; [now right|]. intros x [<-|X]; [lra|exact (N2 x X)].
Qed.
Lemma extreme_ruled : forall P f t lo hi n ms, List.In f ["MAX"; "MIN"] -> n <> O -> Forall2 meets (repeat (Between t lo hi) n) ms -> ruled P f ms (Between t lo hi).
Proof.
  intros P f t lo hi n ms F N H. destruct (ranges_met t lo hi n ms H) as (qs & -> & B & L). rewrite Forall_forall in B.
  destruct (extreme_exists qs) as [(m & M) (m' & M')]; [intros ->; now destruct N|]. left. destruct F as [<-|[<-|[]]]; (eexists; split; [|eexists; split; [reflexivity|]]).
  - exact (y_max_real P t qs m M).
  - exact (B m (proj1 M)).
  - exact (y_min_real P t qs m' M').
  - exact (B m' (proj1 M')).
Qed.
Lemma limit_ruled : forall P t a q b l1 h1 l3 h3, h1 <= l3 -> (IZR l1 <= a <= IZR h1)%R -> (IZR l3 <= b <= IZR h3)%R -> ruled P "LIMIT" [Real t a; Real t q; Real t b] (Between t l1 h3).
Proof.
  intros P t a q b l1 h1 l3 h3 L A B. apply IZR_le in L. left. eexists. split; [apply y_limit_real; lra|]. eexists. split; [reflexivity|].
  unfold Rmax, Rmin. destruct (Rle_dec q b), (Rle_dec a _); lra.
Qed.
Lemma time_lreal_ruled : forall P t z lo hi, List.In t [S_TIME; S_LTIME] -> exact S_LREAL lo -> exact S_LREAL hi -> lo <= z <= hi ->
  ruled P (conversion_name t S_LREAL) [Whole t z] (Between S_LREAL lo hi).
Proof.
  intros P t z lo hi T X1 X2 B. destruct (rounding_exists S_LREAL (IZR z) (IZR lo) (IZR hi) ltac:(right; now left) X1 X2) as (p & N & R); [split; apply IZR_le; lia|].
  left. eexists. split; [exact (y_time_lreal P t z p T N)|]. now exists p.
Qed.
Lemma lreal_time_ruled : forall P t q lo hi, List.In t [S_TIME; S_LTIME] -> of_type S_TIME lo -> of_type S_TIME hi -> (IZR lo <= q <= IZR hi)%R ->
  ruled P (conversion_name S_LREAL t) [Real S_LREAL q] (any_value S_TIME).
Proof.
  intros P t q lo hi T L H B. destruct (nearest_exists q lo hi B) as (n & N & R). left. eexists. split; [exact (y_lreal_time P t q n T N (of_type_between _ lo hi n L H R))|].
  eexists. split; [reflexivity|discriminate].
Qed.
Lemma print_real_ruled : forall P t q k, List.In t reals -> representable_real t q -> q <> 0%R -> ruled P (to_text t k) [Real t q] (A_text k 81).
Proof.
  intros P t q k T (v & V & F & W) Z.
  destruct (Rle_lt_dec q (IZR (- 10 ^ 73))) as [B|B].
  { destruct T as [<-|[<-|[]]]; [|right; exact (f_print_lreal P q k B)]. exfalso.
    pose proof (max_fl_le F32 v (or_introl eq_refl) V F) as M. rewrite W in M. apply abs_le in M. assert (X : (IZR (- 10 ^ 73) < IZR (- max_fl F32))%R) by (apply IZR_lt; vm_compute; reflexivity).
    rewrite (opp_IZR (max_fl F32)) in X. lra. }
  assert (E : exists s, number_shown s q).
  { pose proof (negative_number v F ltac:(now rewrite W)) as M. destruct T as [<-|[<-|[]]].
    - destruct (reals_print P v V F) as (s & y & Y & YN & S1 & S2 & _). rewrite W in *. exists s. split; [exact Z|]. exists y. rewrite YN. split; [exact Y|]. split; [exact M|]. split; assumption.
    - rewrite <- W in B. destruct (lreal_text v V F B) as (d & s & D & R & S1 & S2). rewrite W in *. exists s. split; [exact Z|]. exists v. split; [exact W|]. split; [exact M|]. split; assumption. }
  destruct E as [s E]. left. exists (Text k s). split; [apply y_print_real; [intros _; exact B|exact E]|]. exists s. split; [reflexivity|].
  destruct (print_real_is P t v q s k T V F W (fun _ => B) E) as [A Q]. apply (prints_gives k s _ A) in Q. apply (gives_size k s _ 81 Q).
  apply (written_most P t 81 (VF v) k); destruct T as [<-|[<-|[]]]; try exact V; unfold written_types; cbn [List.In]; tauto.
Qed.

(** * Expressions *)
Definition resolved (P : platform) (st : store) (e : expr) (d : described) : Prop := (exists m, denotes P st e m /\ meets d m) \/ breaks P st e.
Definition all_resolved (P : platform) (st : store) (es : list expr) (ds : list described) : Prop :=
  (exists ms, Forall2 (denotes P st) es ms /\ Forall2 meets ds ms) \/ (exists es1 ds1 ms e es2, es = es1 ++ e :: es2 /\ Forall2 (denotes P st) es1 ms /\ Forall2 meets ds1 ms /\ breaks P st e /\ exists ds2, ds = ds1 ++ ds2).
Lemma near_meets : forall P r st e d m, represents r st -> denotes P st e m -> near d m -> meets d m.
Proof.
  intros P r st e d m R D N. pose proof (meaning_value P r e m (denotes_means P r st e m R D)) as V. destruct d as [[t b|k n]|t lo hi]; destruct N as (x & -> & B).
  - apply iv_whole in V. exists x. split; [reflexivity|]. split; [exact (proj2 V)|exact B].
  - apply iv_text in V. destruct V as (c & _ & H). exists x. split; [reflexivity|]. split; [exact (proj1 H)|exact B].
  - apply iv_real in V. destruct V as (T & v & _ & W). exists x. split; [reflexivity|]. split; [exact T|]. split; [exists v; exact W|exact B].
Qed.
Lemma node : forall P r st f es ds d, represents r st -> all_resolved P st es ds -> (forall ms, Forall2 meets ds ms -> ruled P f ms d) -> resolved P st (ModelLink.Call f es) d.
Proof.
  intros P r st f es ds d R [(ms & D & M)|(es1 & ds1 & ms & e & es2 & -> & D & _ & B & _)] K.
  - destruct (K ms M) as [(m & Y & N)|Y]; [left|right; exact (br_here P st f es ms D Y)].
    assert (X : denotes P st (ModelLink.Call f es) m) by exact (den_call P st f es ms m D Y). exists m. split; [exact X|exact (near_meets P r st _ d m R X N)].
  - right. exact (br_inside P st f es1 ms e es2 D B).
Qed.
Lemma resolved_nil : forall P st, all_resolved P st [] [].
Proof. intros P st. left. exists []. split; constructor. Qed.
Lemma resolved_cons : forall P st e es d ds, resolved P st e d -> all_resolved P st es ds -> all_resolved P st (e :: es) (d :: ds).
Proof.
  intros P st e es d ds [(m & D & M)|B] H.
  - destruct H as [(ms & DS & MS)|(es1 & ds1 & ms & e' & es2 & -> & DS & MS & B & ds2 & ->)].
    + left. exists (m :: ms). split; constructor; assumption.
    + right. exists (e :: es1), (d :: ds1), (m :: ms), e', es2. split; [reflexivity|]. split; [now constructor|]. split; [now constructor|]. split; [exact B|now exists ds2].
  - right. exists [], [], [], e, es. split; [reflexivity|]. split; [constructor|]. split; [constructor|]. split; [exact B|now exists (d :: ds)].
Qed.
Scheme formed_ind2 := Minimality for formed Sort Prop with formed_all_ind2 := Minimality for formed_all Sort Prop.
Combined Scheme formed_both from formed_ind2, formed_all_ind2.
Section Expressions.
  Variables (P : platform) (G : string -> option described) (r : env value) (st : store).
  Hypotheses (R : represents r st) (M : meets_all G st).
  Ltac one_arg := match goal with H : Forall2 meets (Known (A_value _ _) :: _) _ |- _ => let z := fresh "z" in let Z := fresh "Z" in let B := fresh "B" in let K := fresh "K" in
      let Q := fresh "Q" in inversion H as [|? ? ? ? Q K]; clear H; subst; destruct Q as (z & -> & Z & B)
    | H : Forall2 meets (Known (any_value _) :: _) _ |- _ => let z := fresh "z" in let Z := fresh "Z" in let B := fresh "B" in let K := fresh "K" in
      let Q := fresh "Q" in inversion H as [|? ? ? ? Q K]; clear H; subst; destruct Q as (z & -> & Z & B)
    | H : Forall2 meets (Known (A_text _ _) :: _) _ |- _ => let t := fresh "t" in let T := fresh "T" in let S := fresh "S" in let K := fresh "K" in
      let Q := fresh "Q" in inversion H as [|? ? ? ? Q K]; clear H; subst; destruct Q as (t & -> & T & S)
    | H : Forall2 meets (Between _ _ _ :: _) _ |- _ => let q := fresh "q" in let T := fresh "T" in let V := fresh "V" in let K := fresh "K" in let B := fresh "B" in
      let Q := fresh "Q" in inversion H as [|? ? ? ? Q K]; clear H; subst; destruct Q as (q & -> & T & V & B)
    | H : Forall2 meets [] _ |- _ => inversion H; clear H; subst end.
  Ltac by_node := eapply node; [exact R|repeat (apply resolved_cons; [eassumption|]); apply resolved_nil|]; let ms := fresh "ms" in let H := fresh "H" in intros ms H; repeat one_arg.
  Lemma formed_resolved :
    (forall e d, formed (p_profile P) G e d -> resolved P st e d) /\ (forall es ds, formed_all (p_profile P) G es ds -> all_resolved P st es ds /\ length es = length ds).
  Proof.
    apply formed_both.
    - intros x d X. destruct (M x d X) as (m & E & H). left. exists m. split; [now apply den_variable|exact H].
    - intros e s s' _ IH W. destruct IH as [(m & D & H)|B]; [left|right; exact B]. exists m. split; [exact D|exact (weaker_meets s s' m W H)].
    - intros f es ts t T _ [IH _]. eapply node; [exact R|exact IH|]. intros ms. exact (takes_ruled P f ts t ms T).
    - intros e e' b c _ IH1 _ IH2. by_node. now apply max_ruled.
    - intros e e' b c _ IH1 _ IH2. by_node. now apply min_ruled.
    - intros f e i k n F _ IH1 C _ IH2. by_node. now apply end_ruled.
    - intros e l i k n _ IH1 C _ IH2 _ IH3. by_node. now apply mid_ruled.
    - intros e l i k n b _ IH1 C _ IH2 _ IH3. by_node. now apply delete_ruled.
    - intros e e' i k n m _ IH1 _ IH2 C _ IH3. by_node. now apply insert_ruled.
    - intros e e' l i k n m b _ IH1 _ IH2 C _ IH3 _ IH4. by_node. now apply replace_ruled.
    - intros e es k ns _ [IH LN] C. eapply node; [exact R|exact IH|]. intros ms H. destruct (texts_met k ns ms H) as (ts & -> & S & L).
      apply concat_ruled; [|exact S|exact C]. intros ->. rewrite map_length, <- L in LN. discriminate LN.
    - intros e n _ IH C. by_node. now apply narrow_ruled.
    - intros e n _ IH C. by_node. now apply wide_ruled.
    - intros e t k n I _ IH. by_node. now apply print_ruled.
    - intros e t n I _ IH. by_node. now apply read_ruled.
    - intros e t n I _ IH C. by_node. now apply (read_wide_ruled P t t0 n).
    - intros e k n _ IH C. by_node. now apply (len_ruled P k t n).
    - intros e e' k n m _ IH1 _ IH2 C. by_node. now apply (find_ruled P k t t0 n).
    - intros f e e' k n m F _ IH1 _ IH2. by_node. now apply compare_ruled.
    - intros e n _ IH. by_node. left. eexists. split; [exact (y_first P t)|]. eexists. split; [reflexivity|discriminate].
    - intros e n _ IH. by_node. left. eexists. split; [exact (y_first_wide P t)|]. eexists. split; [reflexivity|discriminate].
    - intros e t lo hi lo' hi' _ IH L1 L2. destruct IH as [(m & D & q & -> & T & V & B1 & B2)|B]; [left|right; exact B]. exists (Real t q). split; [exact D|].
      exists q. split; [reflexivity|]. split; [exact T|]. split; [exact V|]. apply IZR_le in L1, L2. lra.
    - intros e t lo hi _ IH. by_node. now apply abs_ruled.
    - intros e t lo hi _ IH. by_node. now apply round_ruled.
    - intros e t lo hi _ IH L1 L2. by_node. now apply (trunc_ruled P t q lo hi).
    - intros e t a lo hi _ IH A L1 L2. by_node. now apply (to_integer_ruled P t a q lo hi).
    - intros e t a b lo hi T A _ IH L X1 X2. by_node. apply of_integer_ruled; trivial. now apply L.
    - intros e lo hi _ IH. by_node. left. eexists. split; [apply y_widen|]. eexists. split; [reflexivity|assumption].
    - intros e lo hi _ IH X1 X2. by_node. now apply narrow_real_ruled.
    - intros e t lo hi _ IH L1 L2. by_node. now apply (sqrt_ruled P t q lo hi).
    - intros f e es t lo hi F _ [IH _]. eapply node; [exact R|exact IH|]. intros ms H. now apply (extreme_ruled P f t lo hi (length (e :: es))).
    - intros a e b t l1 h1 l2 h2 l3 h3 _ IH1 _ IH2 _ IH3 L. by_node. now apply (limit_ruled P t q q0 q1 l1 h1 l3 h3).
    - intros e t lo hi _ IH. by_node. left. eexists. split; [apply y_valid|]. eexists. split; [reflexivity|discriminate].
    - intros e t b lo hi T _ IH L X1 X2. by_node. apply time_lreal_ruled; trivial. now apply L.
    - intros e t lo hi T _ IH L1 L2. by_node. now apply (lreal_time_ruled P t q lo hi).
    - intros e t k lo hi _ IH L. by_node. apply print_real_ruled; trivial. destruct L as [L|L]; apply IZR_lt in L; lra.
    - split; [apply resolved_nil|reflexivity].
    - intros e es s ss _ IH1 _ [IH2 L]. split; [now apply resolved_cons|cbn; now rewrite L].
  Qed.
End Expressions.
