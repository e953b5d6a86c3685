(** Proofs about counters and triggers wired together. *)
From Coq Require Import ZArith List Bool Lia.
From Verif Require Import Base ModelFB ModelCounters SpecFB SpecCascade ProofFB.
Import ListNotations.
Open Scope Z_scope.

Lemma last_of : forall (l : list bool) x, match l ++ [x] with [] => false | _ => last (l ++ [x]) false end = x.
Proof. intros l x. destruct (l ++ [x]) eqn:E; [now destruct l|]. rewrite <- E. apply last_last. Qed.
Lemma edges_snoc : forall l x, rising_edges false (l ++ [x]) = rising_edges false l + bit (x && negb (last l false)).
Proof. intros l x. rewrite rising_edges_snoc. now destruct l. Qed.
Lemma rises_snoc : forall l x, rises (l ++ [x]) = x && negb (last l false).
Proof.
  intros l x. unfold rises. rewrite rev_app_distr. cbn. f_equal. f_equal.
  induction l as [|y l _] using rev_ind; [reflexivity|]. rewrite rev_app_distr, last_last. reflexivity.
Qed.
Lemma no_gap_app : forall a b, no_short_gap (a ++ b) -> no_short_gap a.
Proof. intros a b H c d E. apply (H c (d ++ b)). rewrite E, <- app_assoc. reflexivity. Qed.

Lemma cascade_snoc : forall p tl th n limit xs low high x,
  cascade p tl th n limit low high (xs ++ [x]) =
  let! lh := cascade p tl th n limit low high xs in cascade p tl th n limit (fst lh) (snd lh) [x].
Proof.
  induction xs as [|y xs IH]; intros low high x; [reflexivity|]. cbn -[ctu_call].
  destruct (ctu_call p tl low _) as [l| |]; cbn -[ctu_call]; [|reflexivity..].
  destruct (ctu_call p th high _) as [h| |]; cbn -[ctu_call]; [|reflexivity..].
  now rewrite IH.
Qed.

Section Cascade.
  Variables (p : profile) (tl th : ity) (n limit : Z).
  Hypotheses (TL : In tl counter_types) (TH : In th counter_types) (N : 1 <= n <= imax tl).

  Definition counted (low : ctu_params) (k : Z) : Z := n * k + (if ctu_q low then 0 else ctu_cv low).

  Lemma cascade_inv : forall xs, exists low high k,
    cascade p tl th n limit ctu_default ctu_default xs = Ok (low, high) /\
    in_ity tl (ctu_cv low) /\ in_ity th (ctu_cv high) /\ 0 <= k /\
    0 <= ctu_cv low <= n /\ ctu_q low = (n <=? ctu_cv low) /\
    (ctu_q low = true -> current_value (ctu_internal low) = true /\ rises xs = true) /\
    (ctu_q low = false -> current_value (ctu_internal low) = last xs false \/
       current_value (ctu_internal low) = true /\ exists a, xs = a ++ [true; false]) /\
    current_value (ctu_internal high) = ctu_q low /\ ctu_cv high = Z.min (imax th) k /\
    counted low k <= rising_edges false xs /\
    (no_short_gap xs -> counted low k = rising_edges false xs) /\
    (no_short_gap xs -> rises xs = true -> 1 <= ctu_cv low).
  Proof.
    induction xs as [|x xs (low & high & k & E & IL & IH & K0 & CL & Q & QT & QF & MH & CH & LE & EQ & RS)] using rev_ind.
    - exists ctu_default, ctu_default, 0. pose proof (counter_type_facts _ TL). pose proof (counter_type_facts _ TH).
      unfold in_ity, counted. cbn. repeat split; try lia; try discriminate; auto.
    - rewrite cascade_snoc, E. cbn -[ctu_call].
      destruct (ctu_step p tl low (CtuIn x (ctu_q low) n) TL IL) as (low' & -> & V & Q' & M & I). cbn [cui_r cui_cu cui_pv] in *.
      cbn -[ctu_call].
      destruct (ctu_step p th high (CtuIn (ctu_q low') false limit) TH IH) as (high' & -> & VH & _ & MH' & IH'). cbn [cui_r cui_cu cui_pv] in *.
      cbn -[ctu_call]. rewrite MH in VH.
      set (k' := k + bit (ctu_q low' && negb (ctu_q low))).
      pose proof (counter_type_facts _ TH).
      exists low', high', k'. split; [reflexivity|]. split; [exact I|]. split; [exact IH'|].
      assert (K0' : 0 <= k') by (unfold k', bit; destruct (ctu_q low' && negb (ctu_q low)); lia).
      assert (VH' : ctu_cv high' = Z.min (imax th) k') by (rewrite VH, CH; unfold k', bit; destruct (ctu_q low' && negb (ctu_q low)); lia).
      rewrite edges_snoc, rises_snoc.
      destruct (ctu_q low) eqn:QL.
      + destruct (QT eq_refl) as [MT RT].
        assert (LX : last xs false = true).
        { clear - RT. induction xs as [|y l _] using rev_ind; [discriminate|]. rewrite rises_snoc in RT. rewrite last_last. now destruct y. }
        assert (LS : exists a, xs = a ++ [true]).
        { clear - LX. induction xs as [|y l _] using rev_ind; [discriminate|]. rewrite last_last in LX. subst. eauto. }
        destruct LS as [a LS].
        assert (QN : ctu_q low' = false) by (rewrite Q', V; apply Z.leb_gt; lia).
        rewrite V. rewrite QN in *. unfold k' in *. cbn [andb bit] in *.
        split; [lia|]. split; [lia|]. split; [symmetry; apply Z.leb_gt; lia|]. split; [discriminate|].
        split.
        { intros _. rewrite M, MT, last_last. destruct x; [now left|]. right. split; [reflexivity|]. exists a. rewrite LS, <- app_assoc. reflexivity. }
        split; [exact MH'|]. split; [exact VH'|]. rewrite LX. unfold counted in *. rewrite QL in *. rewrite QN, V.
        change (negb true) with false. rewrite !andb_false_r. cbn [bit]. split; [lia|]. split; [intros G; pose proof (EQ (no_gap_app _ _ G)); lia|]. intros _ B. discriminate B.
      + assert (CN : ctu_cv low < n) by (symmetry in Q; apply Z.leb_gt in Q; lia).
        destruct (QF eq_refl) as [ML|[MT [a LS]]].
        * rewrite ML in V. set (b := x && negb (last xs false)) in *.
          assert (V' : ctu_cv low' = ctu_cv low + bit b) by (rewrite V; unfold bit; destruct b; lia).
          assert (B : bit b = if b then 1 else 0) by reflexivity.
          split; [lia|]. split; [rewrite V', B; destruct b; lia|]. split; [exact Q'|].
          split.
          { intros QT'. rewrite M. destruct b eqn:EB; [|rewrite QT' in Q'; symmetry in Q'; apply Z.leb_le in Q'; rewrite V', B in Q'; lia].
            destruct x; [auto|discriminate]. }
          split; [intros _; left; rewrite M, last_last; reflexivity|].
          split; [exact MH'|]. split; [exact VH'|]. unfold counted in *. rewrite QL in *. unfold k'.
          rewrite V'. rewrite V' in Q'. rewrite andb_true_r. rewrite Q'.
          destruct (Z.leb_spec n (ctu_cv low + bit b)); cbn [bit]; rewrite B in *.
          -- split; [|split]; [destruct b; lia|intros G; pose proof (EQ (no_gap_app _ _ G)); destruct b; lia|intros _ ->; lia].
          -- split; [|split]; [destruct b; lia|intros G; pose proof (EQ (no_gap_app _ _ G)); destruct b; lia|intros _ ->; lia].
        * rewrite MT in V. rewrite andb_false_r in V. cbn [bit] in V.
          assert (V' : ctu_cv low' = ctu_cv low) by lia.
          assert (QN : ctu_q low' = false) by (rewrite Q', V'; now symmetry).
          rewrite V'. rewrite QN in *. unfold k' in *. cbn [andb bit] in *.
          split; [lia|]. split; [lia|]. split; [exact Q|]. split; [discriminate|].
          split; [intros _; left; rewrite M, last_last; reflexivity|].
          split; [exact MH'|]. split; [exact VH'|]. unfold counted in *. rewrite QL in *. rewrite QN, V'.
          assert (LX : last xs false = false) by (rewrite LS; change [true; false] with ([true] ++ [false]); rewrite app_assoc; apply last_last).
          rewrite LX. change (negb false) with true. rewrite !andb_true_r. cbn [andb bit] in *.
          split; [unfold bit; destruct x; lia|].
          assert (XF : no_short_gap (xs ++ [x]) -> x = false).
          { intros G. destruct x; [|reflexivity]. exfalso. apply (G a []). rewrite LS, <- app_assoc. reflexivity. }
          split; intros G; rewrite (XF G) in *; [|discriminate]. pose proof (EQ (no_gap_app _ _ G)). cbn [bit]. lia.
  Qed.

  Lemma cascade_total : forall xs, no_short_gap xs -> exists low high,
    cascade p tl th n limit ctu_default ctu_default xs = Ok (low, high) /\
    let e := rising_edges false xs in
    ctu_cv high = Z.min (imax th) (e / n) /\
    ctu_q low = rises xs && (e mod n =? 0) /\
    ctu_cv low = (if ctu_q low then n else e mod n).
  Proof.
    intros xs G. destruct (cascade_inv xs) as (low & high & k & E & _ & _ & K0 & CL & Q & QT & QF & _ & CH & _ & EQ & RS).
    specialize (EQ G). specialize (RS G). exists low, high. split; [exact E|]. cbv zeta. rewrite <- EQ in *. unfold counted in *.
    destruct (ctu_q low) eqn:QL.
    - symmetry in Q. apply Z.leb_le in Q. rewrite Z.add_0_r, (Z.mul_comm n k), Z.div_mul, Z_mod_mult by lia.
      destruct (QT eq_refl) as [_ ->]. split; [exact CH|]. split; [reflexivity|lia].
    - symmetry in Q. apply Z.leb_gt in Q.
      assert (D : (n * k + ctu_cv low) / n = k) by (symmetry; apply (Z.div_unique _ _ _ (ctu_cv low)); lia).
      assert (D' : (n * k + ctu_cv low) mod n = ctu_cv low) by (symmetry; apply (Z.mod_unique _ _ k); lia).
      rewrite D, D'. split; [exact CH|]. split; [|reflexivity].
      destruct (rises xs); [|reflexivity]. specialize (RS eq_refl). symmetry. apply Z.eqb_neq. lia.
  Qed.
  Lemma cascade_at_most : forall xs, exists low high k,
    cascade p tl th n limit ctu_default ctu_default xs = Ok (low, high) /\
    ctu_cv high = Z.min (imax th) k /\ n * k + (if ctu_q low then 0 else ctu_cv low) <= rising_edges false xs.
  Proof.
    intros xs. destruct (cascade_inv xs) as (low & high & k & E & _ & _ & _ & _ & _ & _ & _ & _ & CH & LE & _).
    exists low, high, k. auto.
  Qed.

  Lemma fast_snoc : forall m, fast_pulses (S m) = (fast_pulses m ++ [true]) ++ [false].
  Proof.
    intros m. unfold fast_pulses. replace (S m) with (m + 1)%nat by lia. rewrite repeat_app, List.concat_app. cbn.
    now rewrite <- app_assoc.
  Qed.
  Lemma cascade_fast : forall m, let r := Z.of_nat m mod (n + 1) in exists low high,
    cascade p tl th n limit ctu_default ctu_default (fast_pulses m) = Ok (low, high) /\
    in_ity tl (ctu_cv low) /\ in_ity th (ctu_cv high) /\ ctu_q low = false /\
    ctu_cv low = (if r =? n then 0 else r) /\ current_value (ctu_internal low) = (r =? n) /\
    current_value (ctu_internal high) = false /\
    ctu_cv high = Z.min (imax th) ((Z.of_nat m + 1) / (n + 1)).
  Proof.
    pose proof (counter_type_facts _ TL) as FL. pose proof (counter_type_facts _ TH) as FH.
    induction m as [|m (low & high & E & IL & IH & Q & CL & ML & MH & CH)]; cbv zeta.
    - exists ctu_default, ctu_default. rewrite Z.mod_0_l by lia. unfold in_ity. cbn -[Z.div Z.eqb].
      rewrite (Z.div_small 1) by lia. assert (0 =? n = false) as -> by (apply Z.eqb_neq; lia). repeat split; lia.
    - rewrite Nat2Z.inj_succ. rewrite fast_snoc, !cascade_snoc, E. cbv zeta in CL, ML. cbn -[ctu_call Z.of_nat Z.modulo Z.div Z.eqb Z.succ].
      destruct (ctu_step p tl low (CtuIn true (ctu_q low) n) TL IL) as (l1 & -> & V1 & Q1 & M1 & I1). cbn [cui_r cui_cu cui_pv] in *.
      cbn -[ctu_call Z.of_nat Z.modulo Z.div Z.eqb Z.succ].
      destruct (ctu_step p th high (CtuIn (ctu_q l1) false limit) TH IH) as (h1 & -> & W1 & _ & N1 & J1). cbn [cui_r cui_cu cui_pv] in *.
      cbn -[ctu_call Z.of_nat Z.modulo Z.div Z.eqb Z.succ].
      destruct (ctu_step p tl l1 (CtuIn false (ctu_q l1) n) TL I1) as (l2 & -> & V2 & Q2 & M2 & I2). cbn [cui_r cui_cu cui_pv] in *.
      cbn -[ctu_call Z.of_nat Z.modulo Z.div Z.eqb Z.succ].
      destruct (ctu_step p th h1 (CtuIn (ctu_q l2) false limit) TH J1) as (h2 & -> & W2 & _ & N2 & J2). cbn [cui_r cui_cu cui_pv] in *.
      cbn -[ctu_call Z.of_nat Z.modulo Z.div Z.eqb Z.succ].
      exists l2, h2. split; [reflexivity|]. split; [exact I2|]. split; [exact J2|].
      set (z := Z.of_nat m) in *. assert (Z0 : 0 <= z) by lia.
      pose proof (Z.mod_pos_bound z (n + 1) ltac:(lia)) as B. pose proof (Z.div_mod z (n + 1) ltac:(lia)) as D.
      set (r := z mod (n + 1)) in *. set (d := z / (n + 1)) in *.
      assert (D1 : 0 <= d) by (apply Z.div_pos; lia).
      rewrite Q in *. rewrite ML, MH in *. cbn [negb andb] in *.
      destruct (Z.eqb_spec r n) as [R|R].
      + cbn [negb andb bit] in *. rewrite CL in V1. assert (V1' : ctu_cv l1 = 0) by lia.
        assert (Q1' : ctu_q l1 = false) by (rewrite Q1, V1'; apply Z.leb_gt; lia).
        rewrite Q1' in *. cbn [bit andb] in *.
        assert (V2' : ctu_cv l2 = 0) by lia.
        assert (Q2' : ctu_q l2 = false) by (rewrite Q2, V2'; apply Z.leb_gt; lia).
        rewrite Q2' in *. cbn [bit andb] in *.
        assert (R' : Z.succ z mod (n + 1) = 0) by (symmetry; apply (Z.mod_unique _ _ (d + 1)); lia).
        assert (E' : (Z.succ z + 1) / (n + 1) = d + 1) by (symmetry; apply (Z.div_unique _ _ _ 1); lia).
        assert (E0 : (z + 1) / (n + 1) = d + 1) by (symmetry; apply (Z.div_unique _ _ _ 0); lia).
        rewrite R', E', E0 in *. assert (0 =? n = false) as -> by (apply Z.eqb_neq; lia). repeat split; try assumption; lia.
      + cbn [negb andb bit] in *. rewrite CL in V1. assert (V1' : ctu_cv l1 = r + 1) by lia.
        assert (E0 : (z + 1) / (n + 1) = d) by (symmetry; apply (Z.div_unique _ _ _ (r + 1)); lia).
        assert (R' : Z.succ z mod (n + 1) = r + 1) by (symmetry; apply (Z.mod_unique _ _ d); lia).
        rewrite R', E0 in *.
        destruct (Z.eqb_spec (r + 1) n) as [S|S].
        * assert (Q1' : ctu_q l1 = true) by (rewrite Q1, V1'; apply Z.leb_le; lia).
          rewrite Q1' in *. cbn [bit andb] in *.
          assert (Q2' : ctu_q l2 = false) by (rewrite Q2, V2; apply Z.leb_gt; lia).
          rewrite Q2' in *. cbn [bit andb] in *.
          assert (E' : (Z.succ z + 1) / (n + 1) = d + 1) by (symmetry; apply (Z.div_unique _ _ _ 0); lia).
          rewrite E'. rewrite M1 in M2. repeat split; try assumption; lia.
        * assert (Q1' : ctu_q l1 = false) by (rewrite Q1, V1'; apply Z.leb_gt; lia).
          rewrite Q1' in *. cbn [bit andb] in *.
          assert (V2' : ctu_cv l2 = r + 1) by lia.
          assert (Q2' : ctu_q l2 = false) by (rewrite Q2, V2'; apply Z.leb_gt; lia).
          rewrite Q2' in *. cbn [bit andb] in *.
          assert (E' : (Z.succ z + 1) / (n + 1) = d) by (symmetry; apply (Z.div_unique _ _ _ (r + 2)); lia).
          rewrite E'. repeat split; try assumption; lia.
  Qed.
  Lemma fast_edges : forall m, rising_edges false (fast_pulses m) = Z.of_nat m.
  Proof. induction m as [|m IH]; [reflexivity|]. cbn [fast_pulses repeat List.concat app rising_edges andb negb]. unfold fast_pulses in IH. rewrite IH. lia. Qed.
  Lemma cascade_fast_high : forall m, exists low high,
    cascade p tl th n limit ctu_default ctu_default (fast_pulses m) = Ok (low, high) /\
    rising_edges false (fast_pulses m) = Z.of_nat m /\
    ctu_cv high = Z.min (imax th) ((Z.of_nat m + 1) / (n + 1)).
  Proof.
    intros m. destruct (cascade_fast m) as (low & high & E & _ & _ & _ & _ & _ & _ & H).
    exists low, high. split; [exact E|]. split; [apply fast_edges|exact H].
  Qed.
End Cascade.

Lemma reloading_snoc : forall p t n xs s x,
  reloading p t n s (xs ++ [x]) = let! s' := reloading p t n s xs in reloading p t n s' [x].
Proof.
  induction xs as [|y xs IH]; intros s x; [reflexivity|]. cbn -[ctd_call].
  destruct (ctd_call p t s _); cbn -[ctd_call]; [apply IH|reflexivity..].
Qed.

Section Reloading.
  Variables (p : profile) (t : ity) (n : Z) (x0 : bool).
  Hypotheses (T : In t counter_types) (N : 1 <= n <= imax t).

  Lemma edges_from_snoc : forall xs x, rising_edges x0 (xs ++ [x]) = rising_edges x0 xs + bit (x && negb (last (x0 :: x0 :: xs) false)).
  Proof. intros xs x. rewrite rising_edges_snoc. destruct xs; reflexivity. Qed.
  Lemma last_true : forall l, rises l = true -> exists a, l = a ++ [true].
  Proof. intros l. induction l as [|y l _] using rev_ind; [discriminate|]. rewrite rises_snoc. destruct y; [eauto|discriminate]. Qed.

  Lemma reloading_inv : forall xs, no_short_gap (x0 :: x0 :: xs) -> exists s k,
    reloading p t n ctd_default (x0 :: x0 :: xs) = Ok s /\ in_ity t (ctd_cv s) /\ 0 <= k /\
    0 <= ctd_cv s <= n /\ ctd_q s = (ctd_cv s <=? 0) /\
    (ctd_q s = true -> current_value (ctd_internal s) = true /\ rises (x0 :: x0 :: xs) = true) /\
    (ctd_q s = false -> current_value (ctd_internal s) = last (x0 :: x0 :: xs) false \/
       current_value (ctd_internal s) = true /\ exists a, x0 :: x0 :: xs = a ++ [true; false]) /\
    n * k + (if ctd_q s then 0 else n - ctd_cv s) = rising_edges x0 xs /\
    (rises (x0 :: x0 :: xs) = true -> ctd_cv s < n).
  Proof.
    pose proof (counter_type_facts _ T) as F. assert (PN : in_ity t n) by (unfold in_ity; lia).
    induction xs as [|x xs IH] using rev_ind; intros G.
    - clear G. cbn -[ctd_call].
      destruct (ctd_step p t ctd_default (CtdIn x0 false n) T) as (s1 & -> & V1 & Q1 & M1 & I1); [unfold in_ity; cbn; lia|exact PN|].
      cbn [cdi_ld cdi_cd cdi_pv] in *. cbn -[ctd_call].
      destruct (ctd_step p t s1 (CtdIn x0 (ctd_q s1) n) T I1 PN) as (s2 & -> & V2 & Q2 & M2 & I2).
      cbn [cdi_ld cdi_cd cdi_pv] in *. cbn -[Z.mul Z.add Z.leb].
      assert (Q1' : ctd_q s1 = true).
      { rewrite Q1, V1. apply Z.leb_le. change (ctd_cv ctd_default) with 0. unfold bit. destruct (_ && _); lia. }
      rewrite Q1' in *. assert (Q2' : ctd_q s2 = false) by (rewrite Q2, V2; apply Z.leb_gt; lia).
      exists s2, 0. rewrite Q2', V2, M2, M1. split; [reflexivity|]. split; [rewrite <- V2; exact I2|]. split; [lia|]. split; [lia|].
      split; [symmetry; apply Z.leb_gt; lia|]. split; [discriminate|]. split; [now left|]. split; [lia|].
      unfold rises. cbn. destruct x0; discriminate.
    - change (x0 :: x0 :: xs ++ [x]) with ((x0 :: x0 :: xs) ++ [x]) in *.
      destruct (IH (no_gap_app _ _ G)) as (s & k & E & I & K0 & CL & Q & QT & QF & EQ & RS). clear IH.
      rewrite reloading_snoc, E. cbn -[ctd_call rises last app no_short_gap rising_edges].
      destruct (ctd_step p t s (CtdIn x (ctd_q s) n) T I PN) as (s' & -> & V & Q' & M & I'). cbn [cdi_ld cdi_cd cdi_pv] in *.
      set (l := x0 :: x0 :: xs) in *.
      exists s', (k + bit (ctd_q s' && negb (ctd_q s))). split; [reflexivity|]. split; [exact I'|].
      split; [unfold bit; destruct (ctd_q s' && negb (ctd_q s)); lia|].
      rewrite edges_from_snoc, rises_snoc. fold l.
      destruct (ctd_q s) eqn:QL.
      + destruct (QT eq_refl) as [MT RT]. destruct (last_true _ RT) as [a LS].
        assert (LX : last l false = true) by (rewrite LS; apply last_last).
        assert (QN : ctd_q s' = false) by (rewrite Q', V; apply Z.leb_gt; lia).
        rewrite QN, V, LX. change (negb true) with false. rewrite !andb_false_r. cbn [bit].
        split; [lia|]. split; [symmetry; apply Z.leb_gt; lia|]. split; [discriminate|]. split.
        { intros _. rewrite M, MT, last_last. destruct x; [now left|]. right. split; [reflexivity|]. exists a. rewrite LS, <- app_assoc. reflexivity. }
        split; [lia|discriminate].
      + assert (CN : 0 < ctd_cv s) by (symmetry in Q; apply Z.leb_gt in Q; lia).
        assert (S : current_value (ctd_internal s) = last l false \/ x = false /\ current_value (ctd_internal s) = true /\ last l false = false).
        { destruct (QF eq_refl) as [ML|[MT [a LS]]]; [now left|]. right. split; [|split; [exact MT|]].
          - destruct x; [|reflexivity]. exfalso. apply (G a []). rewrite LS, <- app_assoc. reflexivity.
          - rewrite LS. change [true; false] with ([true] ++ [false]). rewrite app_assoc. apply last_last. }
        set (b := x && negb (last l false)) in *.
        assert (V' : ctd_cv s' = ctd_cv s - bit b).
        { rewrite V. subst b. destruct S as [->|(-> & -> & ->)]; [destruct x, (last l false)|]; cbn [andb negb bit]; lia. }
        assert (B : bit b = if b then 1 else 0) by reflexivity.
        split; [rewrite V', B; destruct b; lia|]. split; [exact Q'|]. split.
        { intros QT'. rewrite M. rewrite QT' in Q'. symmetry in Q'. apply Z.leb_le in Q'.
          destruct b eqn:EB; [|rewrite V', B in Q'; lia]. unfold b in EB. destruct x; [auto|discriminate]. }
        split; [intros _; left; rewrite M, last_last; reflexivity|].
        split; [|intros R; rewrite V', B, R; lia].
        rewrite V' in *. change (negb false) with true. rewrite andb_true_r. rewrite Q'.
        destruct (Z.leb_spec (ctd_cv s - bit b) 0) as [C|C]; rewrite B in *; cbn [bit]; destruct b; lia.
  Qed.

  Lemma reloading_total : forall xs, no_short_gap (x0 :: x0 :: xs) -> exists s,
    reloading p t n ctd_default (x0 :: x0 :: xs) = Ok s /\
    let e := rising_edges x0 xs in
    ctd_q s = rises (x0 :: x0 :: xs) && (e mod n =? 0) /\
    ctd_cv s = (if ctd_q s then 0 else n - e mod n).
  Proof.
    intros xs G. destruct (reloading_inv xs G) as (s & k & E & _ & K0 & CL & Q & QT & QF & EQ & RS).
    exists s. split; [exact E|]. cbv zeta. rewrite <- EQ. destruct (ctd_q s) eqn:QL.
    - destruct (QT eq_refl) as [_ ->]. rewrite Z.add_0_r, (Z.mul_comm n k), Z_mod_mult.
      split; [reflexivity|]. symmetry in Q. apply Z.leb_le in Q. lia.
    - symmetry in Q. apply Z.leb_gt in Q.
      assert (D' : (n * k + (n - ctd_cv s)) mod n = n - ctd_cv s) by (symmetry; apply (Z.mod_unique _ _ k); lia).
      rewrite D'. split; [|lia]. destruct (rises _); [|reflexivity]. specialize (RS eq_refl). symmetry. apply Z.eqb_neq. lia.
  Qed.
End Reloading.

Lemma trig_sig : forall l t, trig_outputs R_TRIG t l = trig_outputs R_TRIG (Trigger false false (tr_internal t)) l.
Proof. intros [|x l] t; reflexivity. Qed.
Lemma ftrig_sig : forall l t, trig_outputs F_TRIG t l = trig_outputs F_TRIG (Trigger false false (tr_internal t)) l.
Proof. intros [|x l] t; reflexivity. Qed.

Lemma rr_gen : forall l t t2, (current_value (tr_internal t2) = true -> current_value (tr_internal t) = true) ->
  trig_outputs R_TRIG t2 (trig_outputs R_TRIG t l) = trig_outputs R_TRIG t l.
Proof.
  induction l as [|x l IH]; intros t t2 H; [reflexivity|]. cbn.
  destruct t as [c q [m]], t2 as [c2 q2 [m2]]. cbn in *. f_equal; [|apply IH; cbn].
  - destruct x, m, m2; cbn; try reflexivity. discriminate (H eq_refl).
  - destruct x, m; cbn; congruence.
Qed.
Lemma rr_spec : forall l, triggers_in_series R_TRIG R_TRIG l = trig_outputs R_TRIG trigger_default l.
Proof. intros l. apply rr_gen. discriminate. Qed.

Lemma fr_delay : forall l t t2, (current_value (tr_internal t2) = true -> current_value (tr_internal t) = true) ->
  forall b, b = current_value (tr_internal t2) ->
  trig_outputs F_TRIG t2 (trig_outputs R_TRIG t l) = firstn (length l) (b :: trig_outputs R_TRIG t l).
Proof.
  induction l as [|x l IH]; intros t t2 H b B; [reflexivity|].
  destruct t as [c q [m]], t2 as [c2 q2 [m2]]. cbn in H, B. subst b. cbn.
  f_equal.
  - destruct x, m, m2; cbn; try reflexivity; discriminate (H eq_refl).
  - apply IH; [|reflexivity]. cbn. destruct x, m; cbn; congruence.
Qed.
Lemma fr_spec : forall l, triggers_in_series R_TRIG F_TRIG l = firstn (length l) (false :: trig_outputs R_TRIG trigger_default l).
Proof. intros l. apply fr_delay; [discriminate|reflexivity]. Qed.
Lemma rf_delay : forall l t t2, (current_value (tr_internal t2) = true -> current_value (tr_internal t) = false) ->
  trig_outputs R_TRIG t2 (trig_outputs F_TRIG t l) = trig_outputs F_TRIG t l.
Proof.
  induction l as [|x l IH]; intros t t2 H; [reflexivity|].
  destruct t as [c q [m]], t2 as [c2 q2 [m2]]. cbn in H. cbn. f_equal; [|apply IH; cbn].
  - destruct x, m, m2; cbn; try reflexivity; discriminate (H eq_refl).
  - destruct x, m; cbn; congruence.
Qed.
Lemma rf_spec : forall l, triggers_in_series F_TRIG R_TRIG l = trig_outputs F_TRIG trigger_default l.
Proof. intros l. apply rf_delay. discriminate. Qed.

Lemma rebuilt_gen : forall b, In b [SR; RS] -> forall l t1 t2 s, tr_internal t1 = tr_internal t2 ->
  sr_output s = current_value (tr_internal t1) ->
  sr_output (sr_run b s (combine (trig_outputs R_TRIG t1 l) (trig_outputs F_TRIG t2 l))) = last l (sr_output s).
Proof.
  intros b B. induction l as [|x l IH]; intros t1 t2 s T S; [reflexivity|].
  assert (LC : forall (d e : bool), last (x :: l) d = last l x).
  { clear. induction l as [|y l IH] using rev_ind; [reflexivity|]. intros d e. change (x :: l ++ [y]) with ((x :: l) ++ [y]). now rewrite !last_last. }
  rewrite (LC _ false). cbn [trig_outputs combine]. unfold sr_run in *. cbn [fold_left].
  destruct t1 as [c q [m]], t2 as [c2 q2 [m2]]. cbn in T. injection T as <-. cbn in S.
  assert (X : sr_output (sr_call b s (tr_output (trig_call R_TRIG (Trigger c q (Signal m)) x), tr_output (trig_call F_TRIG (Trigger c2 q2 (Signal m)) x))) = x).
  { destruct B as [<-|[<-|[]]]; cbn; rewrite S; destruct x, m; reflexivity. }
  rewrite IH; [now rewrite X|reflexivity|rewrite X; reflexivity].
Qed.
Lemma rebuilt_spec : forall b, In b [SR; RS] -> forall s xs, sr_output s = false -> rebuilt b s xs = last xs false.
Proof. intros b B s xs S. unfold rebuilt. rewrite rebuilt_gen; [now rewrite S|exact B|reflexivity|exact S]. Qed.

Lemma each_call_changes : forall l t, 
  map (fun c => fst c || snd c) (combine (trig_outputs R_TRIG t l) (trig_outputs F_TRIG t l)) =
  map (fun c => xorb (fst c) (snd c)) (combine (current_value (tr_internal t) :: l) l).
Proof.
  induction l as [|x l IH]; intros t; [reflexivity|]. cbn [trig_outputs combine map fst snd]. f_equal.
  - destruct t as [c q [m]]. cbn. destruct x, m; reflexivity.
  - rewrite ftrig_sig, trig_sig. destruct t as [c q [m]]. cbn [trig_call F_TRIG R_TRIG falling_edge rising_edge tr_internal tr_clk tr_output].
    rewrite IH. reflexivity.
Qed.
