(** Proofs about programs that calculate with dates and times. *)
From Coq Require Import String Ascii ZArith Lia List Bool SpecFloat.
From Verif Require Import Base ModelFloat ModelTimeNum ModelText ModelString ModelExtra ModelDate ModelChrono ModelST ModelWrap ModelLink ModelLib
  ModelApi SpecScalar SpecDate SpecText SpecLink SpecLib SpecName SpecWrap SpecCall ProofBase ProofDate ProofDate2 ProofLib ProofName ProofName3 ProofCall2 ProofProg
  ProofProg2.
Import ListNotations.
Open Scope string_scope.
Open Scope list_scope.
Open Scope Z_scope.

(** * Putting together and taking apart *)
Lemma narrow_ity : forall u, List.In u narrow_ints -> exists i, narrow i /\ forall z, of_type u z <-> in_ity i z.
Proof.
  intros u U. unfold narrow_ints in U.
  destruct U as [<-|[<-|[<-|[<-|[]]]]]; [exists i16|exists u16|exists i32|exists u32];
    (split; [unfold narrow; cbn; tauto|]); intros z; unfold of_type, in_ity; cbn; lia.
Qed.
Lemma narrow_wide : forall u, List.In u narrow_ints -> List.In u wide_ints.
Proof. intros u U. unfold narrow_ints in U. destruct U as [<-|[<-|[<-|[<-|[]]]]]; cbn; tauto. Qed.
Lemma stamp_ok : forall t o n, stamp t o = Ok (t, VZ n) -> o = Ok n.
Proof. intros t [m| |] n H; cbn in H; try discriminate H. injection H as ->. reflexivity. Qed.
Lemma date_back : forall P r u t y m d n x ys, List.In u narrow_ints -> of_type u y -> of_type u m -> of_type u d ->
  call P "CONCAT_DATE" (ints u [y; m; d]) = Ok (S_DATE, VZ n) ->
  List.In t wide_ints -> get x r = Ok (S_DATE, VZ n) -> variables t ys r -> length ys = 3%nat ->
  exists r', splits_into P r "SPLIT_DATE" x ys t [y; m; d] r'.
Proof.
  intros P r u t y m d n x ys U Y M D E T G V L. rewrite concat_date_call in E by (try apply narrow_wide; assumption).
  apply stamp_ok in E. destruct (narrow_ity u U) as (i & Ni & R). apply R in Y, M, D.
  destruct (CONCAT_DATE_ok_valid _ i y m d n Ni Y M D E) as [Va _].
  destruct (CONCAT_DATE_valid (p_chrono P) i y m d Ni Y M D Va) as (k & K & E'). rewrite E in E'.
  destruct (in_ityb i64 (k * DAY)) eqn:B; [|discriminate E']. injection E' as ->. apply in_ityb_iff in B.
  destruct (split_date_prog P r t x ys (k * DAY) T G B V L) as (y' & m' & d' & r' & S & N & _).
  rewrite Z.div_mul in N by discriminate. pose proof (day_number_inj _ _ _ K N) as Q. injection Q as <- <- <-. now exists r'.
Qed.
Lemma clock_unique : forall h mi s ms h' mi' s' ms', valid_clock h mi s ms -> valid_clock h' mi' s' ms' ->
  clock_ns h mi s ms = clock_ns h' mi' s' ms' -> h = h' /\ mi = mi' /\ s = s' /\ ms = ms'.
Proof. unfold valid_clock, clock_ns, HOUR, MINUTE, SECOND, MILLI. intros. lia. Qed.
Lemma clock_day : forall h mi s ms, valid_clock h mi s ms -> 0 <= clock_ns h mi s ms < DAY /\ clock_ns h mi s ms mod MILLI = 0.
Proof.
  unfold valid_clock. intros h mi s ms H. split; [unfold clock_ns, HOUR, MINUTE, SECOND, MILLI, DAY; lia|].
  unfold clock_ns, HOUR, MINUTE, SECOND, MILLI. dlia.
Qed.
Lemma tod_back : forall P r f g tx u t h mi s ms n x ys,
  List.In (f, g, tx) [("SPLIT_TOD", "CONCAT_TOD", S_TOD); ("SPLIT_LTOD", "CONCAT_LTOD", S_LTOD)] ->
  List.In u integers -> Forall (of_type u) [h; mi; s; ms] -> valid_clock h mi s ms ->
  call P g (ints u [h; mi; s; ms]) = Ok (tx, VZ n) ->
  List.In t wide_ints -> get x r = Ok (tx, VZ n) -> variables t ys r -> length ys = 4%nat ->
  exists r', splits_into P r f x ys t [h; mi; s; ms] r'.
Proof.
  intros P r f g tx u t h mi s ms n x ys Fm U F C E T G V L.
  inversion F as [|? ? F1 F']; subst. inversion F' as [|? ? F2 F'']; subst. inversion F'' as [|? ? F3 F3']; subst.
  inversion F3' as [|? ? F4 F4']; subst. destruct (concat_tod_call P u h mi s ms U F1 F2 F3 F4) as [E1 E2].
  assert (X : CONCAT_TOD (p_chrono P) h mi s ms = Ok (clock_ns h mi s ms)).
  { assert (Ni : narrow i32) by (unfold narrow; cbn; tauto). unfold valid_clock in C.
    apply (CONCAT_TOD_lemma (p_chrono P) i32); try exact Ni; try (unfold in_ity; cbn; lia). unfold accepts_millis. lia. }
  rewrite X in E1, E2.
  assert (n = clock_ns h mi s ms) as ->.
  { destruct Fm as [Q|[Q|[]]]; injection Q as <- <- <-; [rewrite E1 in E|rewrite E2 in E]; cbn in E; injection E as <-; reflexivity. }
  destruct (clock_day h mi s ms C) as [B1 B2].
  assert (I : of_type tx (clock_ns h mi s ms)).
  { clear - Fm B1. unfold DAY in B1. destruct Fm as [Q|[Q|[]]]; injection Q as <- <- <-; unfold of_type; cbn [bounds fst snd]; lia. }
  destruct (split_tod_prog P r f g tx t x ys _ Fm T G I V L) as (h' & mi' & s' & ms' & r' & S & C' & B & _).
  rewrite Z.mod_small, B2, Z.sub_0_r in B by exact B1.
  destruct (clock_unique _ _ _ _ _ _ _ _ C C' (eq_sym B)) as (-> & -> & -> & ->). now exists r'.
Qed.
Lemma dt_back : forall P r u t y m d h mi s ms n x ys, List.In u narrow_ints -> Forall (of_type u) [y; m; d; h; mi; s; ms] ->
  valid_clock h mi s ms -> call P "CONCAT_DT" (ints u [y; m; d; h; mi; s; ms]) = Ok (S_DT, VZ n) ->
  List.In t wide_ints -> get x r = Ok (S_DT, VZ n) -> variables t ys r -> length ys = 7%nat ->
  exists r', splits_into P r "SPLIT_DT" x ys t [y; m; d; h; mi; s; ms] r'.
Proof.
  intros P r u t y m d h mi s ms n x ys U F C E T G V L. destruct (concat_dt_call P u y m d h mi s ms (narrow_wide u U) F) as [E1 _].
  rewrite E1 in E. apply stamp_ok in E. destruct (narrow_ity u U) as (i & Ni & R).
  inversion F as [|? ? F1 G1]; subst. inversion G1 as [|? ? F2 G2]; subst. inversion G2 as [|? ? F3 G3]; subst.
  inversion G3 as [|? ? F4 G4]; subst. inversion G4 as [|? ? F5 G5]; subst. inversion G5 as [|? ? F6 G6]; subst.
  inversion G6 as [|? ? F7 G7]; subst. clear F G1 G2 G3 G4 G5 G6 G7. apply R in F1, F2, F3, F4, F5, F6, F7.
  assert (Va : valid_date (y, m, d)).
  { destruct (CONCAT_DATE (p_chrono P) y m d) as [a| |] eqn:Ea; [|unfold CONCAT_DT in E; rewrite Ea in E; discriminate E..].
    exact (proj1 (CONCAT_DATE_ok_valid _ i y m d a Ni F1 F2 F3 Ea)). }
  destruct (day_number_unique _ Va) as (k & K & _).
  rewrite (CONCAT_DT_lemma _ i y m d h mi s ms k) in E by assumption.
  destruct (in_ityb i64 (k * DAY) && in_ityb i64 (k * DAY + clock_ns h mi s ms)) eqn:B; [|discriminate E]. injection E as <-.
  apply andb_true_iff in B. destruct B as [_ B]. apply in_ityb_iff in B. destruct (clock_day h mi s ms C) as [B1 B2].
  destruct (split_dt_prog P r t x ys _ T G B V L) as (y' & m' & d' & h' & mi' & s' & ms' & r' & S & N & C' & Bc & _).
  replace ((k * DAY + clock_ns h mi s ms) / DAY) with k in N by (clear - B1; revert B1; generalize (clock_ns h mi s ms); unfold DAY; intros; dlia).
  replace ((k * DAY + clock_ns h mi s ms) mod DAY - (k * DAY + clock_ns h mi s ms) mod MILLI) with (clock_ns h mi s ms) in Bc
    by (clear - B1 B2; revert B1 B2; generalize (clock_ns h mi s ms); unfold DAY, MILLI; intros; dlia).
  pose proof (day_number_inj _ _ _ K N) as Q. injection Q as <- <- <-.
  destruct (clock_unique _ _ _ _ _ _ _ _ C C' (eq_sym Bc)) as (-> & -> & -> & ->). now exists r'.
Qed.
