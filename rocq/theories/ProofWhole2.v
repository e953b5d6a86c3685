(** Proofs about programs that mix numbers, dates, texts and function blocks: expressions and statements. *)
From Coq Require Import String ZArith Lia List Bool.
From Verif Require Import Base ModelFB ModelLayout ModelMachine ModelFloat ModelString ModelWrap ModelLink ModelLib ModelApi
  SpecFB SpecLayout SpecMachine SpecScalar SpecText SpecLink SpecLib SpecWrap SpecConv SpecSafe SpecApi SpecCall SpecExpr SpecTerm SpecType SpecProgram SpecSize SpecWhole
  ProofBase ProofText ProofString2 ProofWrap ProofLayout ProofMachine ProofMachine2 ProofCall ProofCall4 ProofTerm2 ProofType ProofProgram ProofProgram2 ProofProgram3 ProofSize ProofApi3 ProofCall4 ProofTerm3  ProofWhole.
Import ListNotations.
Open Scope string_scope.
Open Scope list_scope.
Open Scope Z_scope.
Local Notation size := SpecWrap.size.
Local Opaque ModelApi.call value_in api.

Definition halted {A} (P : platform) (fs : list string) (o : outcome A) (Q : A -> Prop) : Prop :=
  match o with
  | Ok x => Q x
  | Panic => exists n, List.In n fs /\ List.In n (stoppers (p_profile P))
  | Ub => exists n, List.In n fs /\ List.In n undefined
  end.
Lemma halted_bind : forall A B P fs gs (o : outcome A) (f : A -> outcome B) Q R, halted P fs o Q -> incl fs gs ->
  (forall x, Q x -> halted P gs (f x) R) -> halted P gs (obind o f) R.
Proof.
  intros A B P fs gs [x| |] f Q R H I K; cbn [halted obind] in *; [exact (K x H)| |]; destruct H as (n & N & L); exists n; (split; [exact (I n N)|exact L]).
Qed.
Lemma halted_more : forall A P fs gs (o : outcome A) (Q R : A -> Prop), halted P fs o Q -> incl fs gs -> (forall x, Q x -> R x) -> halted P gs o R.
Proof.
  intros A P fs gs [x| |] Q R H I K; cbn [halted] in *; [exact (K x H)| |]; destruct H as (n & N & L); exists n; (split; [exact (I n N)|exact L]).
Qed.
Lemma call1 : forall P r f a, value_in P r (Call f [a]) = let! x := value_in P r a in ModelApi.call P f [x].
Proof. intros. rewrite value_of_call. cbn [arguments_in]. destruct (value_in P r a); reflexivity. Qed.
Lemma call2 : forall P r f a b, value_in P r (Call f [a; b]) = let! x := value_in P r a in let! y := value_in P r b in ModelApi.call P f [x; y].
Proof. intros. rewrite value_of_call. cbn [arguments_in]. destruct (value_in P r a); [|reflexivity|reflexivity]. cbn [obind]. destruct (value_in P r b); reflexivity. Qed.
Lemma call3 : forall P r f a b c, value_in P r (Call f [a; b; c]) =
  let! x := value_in P r a in let! y := value_in P r b in let! z := value_in P r c in ModelApi.call P f [x; y; z].
Proof.
  intros. rewrite value_of_call. cbn [arguments_in]. destruct (value_in P r a); [|reflexivity|reflexivity]. cbn [obind]. destruct (value_in P r b); [|reflexivity|reflexivity].
  cbn [obind]. destruct (value_in P r c); reflexivity.
Qed.
Lemma call4 : forall P r f a b c d, value_in P r (Call f [a; b; c; d]) =
  let! x := value_in P r a in let! y := value_in P r b in let! z := value_in P r c in let! w := value_in P r d in ModelApi.call P f [x; y; z; w].
Proof.
  intros. rewrite value_of_call. cbn [arguments_in]. destruct (value_in P r a); [|reflexivity|reflexivity]. cbn [obind]. destruct (value_in P r b); [|reflexivity|reflexivity].
  cbn [obind]. destruct (value_in P r c); [|reflexivity|reflexivity]. cbn [obind]. destruct (value_in P r d); reflexivity.
Qed.
Lemma text_stops : forall P f fs o k n, at_most k n o -> List.In f text_aborts -> halted P (f :: fs) o (is_known (A_text k n)).
Proof.
  intros P f fs o k n [(t & (d & -> & H) & S)| ->] F; cbn [halted].
  - exists d, t. now split.
  - exists f. split; [now left|]. apply in_or_app. now left.
Qed.
Lemma text_gives : forall P fs o k n t, gives k t o -> (size k t <= n)%nat -> halted P fs o (is_known (A_text k n)).
Proof. intros P fs o k n t (d & -> & H) S. exists d, t. now split. Qed.
Lemma value_stops : forall P f fs o t, a_value t o -> List.In f text_aborts -> halted P (f :: fs) o (is_known (any_value t)).
Proof.
  intros P f fs o t [(v & -> & H)| ->] F; cbn [halted].
  - split; [reflexivity|]. split; [exact H|discriminate].
  - exists f. split; [now left|]. apply in_or_app. now left.
Qed.
Lemma count_is : forall z b, in_ity i32 z -> (b = true -> 0 <= z) -> is_known (A_value S_DINT b) (S_DINT, VZ z).
Proof. intros z b I B. split; [reflexivity|]. split; [exact I|]. intros Y. exists z. split; [reflexivity|exact (B Y)]. Qed.
(** What a description of an argument means. *)
Lemma dint_known : forall b tv, is_known (A_value S_DINT b) tv -> exists z, tv = (S_DINT, VZ z) /\ in_ity i32 z /\ (b = true -> 0 <= z).
Proof.
  intros b [t v] (T & H & B). cbn [fst snd] in *. subst t. destruct v as [z|x|m]; try contradiction H. exists z. split; [reflexivity|]. split; [exact H|].
  intros Y. destruct (B Y) as (w & E & W). injection E as <-. exact W.
Qed.
Lemma weaker_known : forall s s' tv, weaker s s' -> is_known s tv -> is_known s' tv.
Proof.
  intros s s' tv W H. destruct W as [t b|k n m L].
  - destruct H as (A & B & _). split; [exact A|]. split; [exact B|discriminate].
  - destruct H as (d & t & A & B & C). exists d, t. split; [exact A|]. split; [exact B|lia].
Qed.
Lemma values_known : forall ss l, Forall2 is_known (map any_value ss) l -> map fst l = ss /\ Forall (fun b => SpecApi.holds (fst b) (snd b)) l.
Proof.
  intros ss. induction ss as [|s ss IH]; intros l H; inversion H as [|? tv ? l' K H']; subst; [split; [reflexivity|constructor]|].
  destruct (IH l' H') as [A B]. destruct K as (K1 & K2 & _). cbn [map]. split; [now f_equal|]. constructor; [now rewrite K1|exact B].
Qed.
Lemma texts_known : forall k ns l, Forall2 is_known (map (A_text k) ns) l ->
  exists argv ts, l = map (fun m => (string_type k, VS m)) argv /\ Forall2 (SpecText.holds k) argv ts /\ (size k (concat ts) <= list_sum ns)%nat /\ length ts = length ns.
Proof.
  intros k ns. induction ns as [|n ns IH]; intros l H; inversion H as [|? tv ? l' K H']; subst.
  - exists [], []. split; [reflexivity|]. split; [constructor|]. split; [apply Nat.le_refl|reflexivity].
  - destruct (IH l' H') as (argv & ts & -> & F & S & L). destruct K as (d & t & -> & K & Z). exists (d :: argv), (t :: ts). split; [reflexivity|].
    split; [now constructor|]. split; [cbn [concat list_sum fold_right]; rewrite size_app; unfold list_sum in S; lia|cbn [length]; lia].
Qed.

Lemma find_total : forall P k a c hs ns n, SpecText.holds k a hs -> SpecText.holds k c ns -> (size k hs <= n)%nat -> (n <= capacity)%nat ->
  ModelApi.call P "FIND" [(string_type k, VS a); (string_type k, VS c)] <> Panic.
Proof.
  intros P k a c hs ns n H H' S C. unfold capacity in C. pose proof (small_slen k hs ltac:(lia)) as SL. destruct (find_call P k a c hs ns H H' SL) as [A B].
  assert (D : (ns = [] \/ (forall i, ~ occurs_at ns hs i)) \/ (ns <> [] /\ exists i, first_at ns hs i)).
  { destruct ns as [|x ns]; [left; now left|]. destruct (occurs_some (x :: ns) hs) as [(i & O)|O]; [|left; now right]. right. split; [discriminate|exact (first_exists _ _ i O)]. }
  destruct D as [D|(D & i & F)]; [rewrite (A D)|rewrite (B i D F)]; discriminate.
Qed.
Scheme makes_ind2 := Minimality for makes Sort Prop with make_all_ind2 := Minimality for make_all Sort Prop.
Combined Scheme makes_both from makes_ind2, make_all_ind2.
Ltac sub_find := first [assumption | right; sub_find | apply in_or_app; first [left; sub_find | right; sub_find]].
Ltac sub_list := clear; intros ? ?; sub_find.
Section Values.
  Variables (P : platform) (G : string -> option known) (r : env value).
  Hypotheses (SP : sane P) (D : as_known G r).
  Ltac text_step IH := eapply halted_bind; [exact IH|sub_list|]; let d := fresh "d" in let t := fresh "t" in let H := fresh "H" in let S := fresh "S" in intros ? (d & t & -> & H & S).
  Ltac dint_step IH := eapply halted_bind; [exact IH|sub_list|]; let z := fresh "z" in let I := fresh "I" in let B := fresh "B" in let K := fresh in
    intros ? K; apply dint_known in K; destruct K as (z & -> & I & B).
  Lemma values_makes :
    (forall e s fs, makes (p_profile P) G e s fs -> halted P fs (value_in P r e) (is_known s)) /\
    (forall es ss fs, make_all (p_profile P) G es ss fs -> halted P fs (arguments_in P r es) (fun l => Forall2 is_known ss l)).
  Proof.
    apply makes_both.
    - intros x s X. destruct (D x s X) as (tv & E & K). rewrite (value_arg P r x tv E). exact K.
    - intros e s s' fs _ IH W. refine (halted_more _ P fs fs _ _ _ IH (fun x H => H) _). intros tv. exact (weaker_known s s' tv W).
    - intros d ts es ss t fs I M C _ IH S R. rewrite value_of_call. eapply halted_bind; [exact IH|sub_list|]. intros l L.
      destruct (values_known ss l L) as [L1 H]. pose proof (proj2 (proj2 (typed_call d ts ss t I M C S R)) P l SP L1 H) as Z.
      destruct (ModelApi.call P (d_name d) l) as [[t' v]| |]; cbn [halted].
      + destruct Z as [-> Z]. split; [reflexivity|]. split; [exact Z|discriminate].
      + exists (instance_name (d_name d) ts). split; [now left|]. unfold stoppers. apply in_or_app. right. apply in_or_app. right. exact Z.
      + exists (instance_name (d_name d) ts). split; [now left|exact Z].
    - intros f e es t n fs F T N _ IH. rewrite value_of_call.
      assert (NE : forall l, arguments_in P r (e :: es) = Ok l -> l <> []).
      { intros l A ->. cbn [arguments_in] in A. destruct (value_in P r e); [|discriminate A|discriminate A]. cbn [obind] in A. destruct (arguments_in P r es); discriminate A. }
      destruct (arguments_in P r (e :: es)) as [l| |] eqn:A; cbn [obind halted] in *.
      + assert (Q : repeat (any_value t) n = map any_value (repeat t n)) by (clear; induction n; cbn; congruence). rewrite Q in IH.
        destruct (values_known _ l IH) as [L H]. destruct (pairs t n l L H) as [X Y]. rewrite X.
        destruct (any_number f t P (map snd l) F T N SP Y) as (v & E & V).
        { intros Z. apply (NE l eq_refl). destruct l; [reflexivity|discriminate Z]. }
        rewrite E. cbn [halted]. split; [reflexivity|]. split; [exact V|discriminate].
      + destruct IH as (m & J & K). exists m. split; [now right|exact K].
      + destruct IH as (m & J & K). exists m. split; [now right|exact K].
    - intros e e' b c fs gs _ IHe _ IHe'. rewrite call2. dint_step IHe. dint_step IHe'. rewrite (max_two P z z0 I I0). cbn [halted]. apply count_is; [unfold in_ity in *; lia|].
      intros Y. apply orb_true_iff in Y as [Y|Y]; [specialize (B Y)|specialize (B0 Y)]; lia.
    - intros e e' b c fs gs _ IHe _ IHe'. rewrite call2. dint_step IHe. dint_step IHe'. rewrite (min_two P z z0 I I0). cbn [halted]. apply count_is; [unfold in_ity in *; lia|].
      intros Y. apply andb_true_iff in Y as [Y1 Y2]. specialize (B Y1). specialize (B0 Y2). lia.
    - intros f e i k n fs gs F _ IHe C _ IHi. rewrite call2. text_step IHe. dint_step IHi. destruct (left_most P k d t z n H S C) as [A A'].
      destruct F as [<-|[<-|[]]]; [apply (text_stops P "LEFT" _ _ k n A)|apply (text_stops P "RIGHT" _ _ k n A')]; cbn; tauto.
    - intros e l i k n fs gs hs _ IHe C _ IHl _ IHi. rewrite call3. text_step IHe. dint_step IHl. dint_step IHi.
      apply (text_stops P "MID" _ _ k n (mid_most P k d t z z0 n H S C I I0)). cbn; tauto.
    - intros e l i k n b fs gs hs _ IHe C _ IHl _ IHi. rewrite call3. text_step IHe. dint_step IHl. dint_step IHi.
      apply (text_stops P "DELETE" _ _ k _ (delete_most P k d t z z0 n b H S C I I0 B)). cbn; tauto.
    - intros e e' i k n m fs gs hs _ IHe _ IHe' C _ IHi. rewrite call3. text_step IHe. text_step IHe'. dint_step IHi.
      apply (text_stops P "INSERT" _ _ k _ (insert_most P k d d0 t t0 z n m H H0 S S0 C)). cbn; tauto.
    - intros e e' l i k n m b fs gs hs js _ IHe _ IHe' C _ IHl _ IHi. rewrite call4. text_step IHe. text_step IHe'. dint_step IHl. dint_step IHi.
      apply (text_stops P "REPLACE" _ _ k _ (replace_most P k d d0 t t0 z z0 n m b H H0 S S0 C I I0 B)). cbn; tauto.
    - intros e es k ns fs _ IH C. rewrite value_of_call.
      assert (NE : forall l, arguments_in P r (e :: es) = Ok l -> l <> []).
      { intros l A ->. cbn [arguments_in] in A. destruct (value_in P r e); [|discriminate A|discriminate A]. cbn [obind] in A. destruct (arguments_in P r es); discriminate A. }
      destruct (arguments_in P r (e :: es)) as [l| |] eqn:A; cbn [obind halted] in *.
      + destruct (texts_known k ns l IH) as (argv & ts & -> & F & S & L).
        apply (text_gives P _ _ k _ (concat ts)); [|exact S]. apply (proj1 (concat_gives P k argv ts F ltac:(intros ->; inversion F; subst; exact (NE [] eq_refl eq_refl)))). unfold capacity in C. lia.
      + destruct IH as (m & J & K). exists m. split; [now right|exact K].
      + destruct IH as (m & J & K). exists m. split; [now right|exact K].
    - intros e n fs _ IHe C. rewrite call1. text_step IHe. pose proof (size_narrow t) as W. unfold capacity in C.
      apply (text_gives P _ _ STRING _ t); [apply (proj1 (to_string_gives P d t H)); lia|lia].
    - intros e n fs _ IHe C. rewrite call1. text_step IHe. pose proof (size_wide t) as W. unfold capacity in C.
      apply (text_gives P _ _ WSTRING _ t); [apply (to_wstring_gives P d t H); lia|lia].
    - intros e t k n fs T _ IHe. rewrite call1. eapply halted_bind; [exact IHe|sub_list|]. intros [t' v] (E & H & _). cbn [fst snd] in E, H. subst t'.
      destruct (written_most P t n v k T H) as [A B]. destruct A as [(s & Q & S)|Q]; [exact (text_gives P _ _ k n s Q S)|]. specialize (B Q). rewrite Q. cbn [halted].
      exists (to_text t k). split; [now left|]. apply in_or_app. now left.
    - intros e t n fs T _ IHe. rewrite call1. text_step IHe. apply value_stops; [exact (read_most P t d t0 T H)|].
      unfold text_aborts. apply in_or_app. right. apply in_or_app. left. now apply in_map.
    - intros e t n fs T _ IHe C. rewrite call1. text_step IHe. apply value_stops; [exact (read_wide_most P t d t0 n T H S C)|].
      unfold text_aborts. apply in_or_app. right. apply in_or_app. right. now apply in_map.
    - intros e k n fs _ IHe C. rewrite call1. text_step IHe. pose proof (small_slen k t ltac:(unfold capacity in C; lia)) as SL.
      rewrite (len_call P k d t H SL). apply count_is; [exact (slen_dint t SL)|intros _; apply slen_pos].
    - intros e e' k n m fs gs _ IHe _ IHe' C. rewrite call2. text_step IHe. text_step IHe'. destruct (find_most P k d d0 t t0 n H H0 S C) as [(z & -> & I & Z)|E]; [exact (count_is z true I Z)|].
      exfalso. exact (find_total P k d d0 t t0 n H H0 S C E).
    - intros f e e' k n m fs gs F _ IHe _ IHe'. rewrite call2. text_step IHe. text_step IHe'. destruct (compared_texts P f k d d0 t t0 F H H0) as (z & -> & Z).
      split; [reflexivity|]. split; [destruct Z as [-> | ->]; [now left|now right]|discriminate].
    - constructor.
    - intros e es s ss fs gs _ IHe _ IHs. cbn [arguments_in]. eapply halted_bind; [exact IHe|sub_list|]. intros tv K. eapply halted_bind; [exact IHs|sub_list|]. intros l L. cbn [halted]. now constructor.
  Qed.
End Values.
