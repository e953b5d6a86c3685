(** Proofs about statements that take dates and times apart. *)
From Coq Require Import String ZArith Lia List Bool.
From Verif Require Import Base ModelFB ModelLayout ModelMachine ModelFloat ModelLink ModelLib ModelApi
  SpecScalar SpecDate SpecLink SpecLib SpecSafe SpecApi SpecCall SpecExpr SpecType SpecProgram ProofBase ProofDate ProofDate2 ProofProg ProofProg2 ProofProg3.
Import ListNotations.
Open Scope string_scope.
Open Scope list_scope.
Open Scope Z_scope.
Local Opaque ModelApi.call value_in api.

Lemma clock_parts : forall h mi s ms h' mi' s' ms' n, valid_clock h mi s ms -> clock_ns h mi s ms = n -> valid_clock h' mi' s' ms' -> clock_ns h' mi' s' ms' = n ->
  [h; mi; s; ms] = [h'; mi'; s'; ms'].
Proof. intros h mi s ms h' mi' s' ms' n V E V' E'. subst n. unfold valid_clock, clock_ns, HOUR, MINUTE, SECOND, MILLI in *. repeat f_equal; lia. Qed.
Lemma split_runs : forall P r f tx t x ys n, List.In (f, tx, length ys) splittable -> List.In t wide_ints -> get x r = Ok (tx, VZ n) -> of_type tx n -> variables t ys r ->
  exists parts r', splits_into P r f x ys t parts r' /\ taken_apart f n parts /\ Forall (fun z => of_type t z /\ 0 <= z) parts /\ length parts = length ys /\
    forall other, taken_apart f n other -> other = parts.
Proof.
  intros P r f tx t x ys n S T G I V. destruct S as [S|[S|[S|[S|[]]]]]; injection S as <- <- L; symmetry in L.
  - destruct (split_date_prog P r t x ys n T G I V L) as (y & m & d & r' & A & N & _). exists [y; m; d], r'. split; [exact A|]. split; [now apply ta_date|].
    destruct (date_parts P n I) as (y' & m' & d' & N' & VD & Y & _). pose proof (day_number_inj _ _ _ N N') as Q. injection Q as -> -> ->.
    pose proof (month_day_small _ _ _ VD) as [M D]. split; [|split; [now rewrite L|]].
    + repeat (constructor; [split; [apply small_type; [exact T|lia]|lia]|]). constructor.
    + intros o O. inversion O as [? y2 m2 d2 N2|? ? ? ? ? ? B ? ?|]; subst; [|cbn in B; destruct B as [B|[B|[]]]; discriminate B].
      pose proof (day_number_inj _ _ _ N2 N') as Q. injection Q as -> -> ->. reflexivity.
  - destruct (split_tod_prog P r "SPLIT_TOD" "CONCAT_TOD" S_TOD t x ys n (or_introl eq_refl) T G I V L) as (h & mi & s & ms & r' & A & C & B & _).
    exists [h; mi; s; ms], r'. split; [exact A|]. split; [apply ta_tod; [now left|exact C|exact B]|]. split; [|split; [now rewrite L|]].
    + unfold valid_clock in C. repeat (constructor; [split; [apply small_type; [exact T|lia]|lia]|]). constructor.
    + intros o O. inversion O as [|? ? h2 mi2 s2 ms2 B2 C2 E2|]; subst. exact (clock_parts _ _ _ _ _ _ _ _ _ C2 E2 C B).
  - destruct (split_tod_prog P r "SPLIT_LTOD" "CONCAT_LTOD" S_LTOD t x ys n (or_intror (or_introl eq_refl)) T G I V L) as (h & mi & s & ms & r' & A & C & B & _).
    exists [h; mi; s; ms], r'. split; [exact A|]. split; [apply ta_tod; [now right; left|exact C|exact B]|]. split; [|split; [now rewrite L|]].
    + unfold valid_clock in C. repeat (constructor; [split; [apply small_type; [exact T|lia]|lia]|]). constructor.
    + intros o O. inversion O as [|? ? h2 mi2 s2 ms2 B2 C2 E2|]; subst. exact (clock_parts _ _ _ _ _ _ _ _ _ C2 E2 C B).
  - destruct (split_dt_prog P r t x ys n T G I V L) as (y & m & d & h & mi & s & ms & r' & A & N & C & B & _). exists [y; m; d; h; mi; s; ms], r'. split; [exact A|].
    split; [now apply ta_dt|].
    destruct (dt_parts P n I) as (y' & m' & d' & _ & _ & _ & _ & N' & VD & Y & _). pose proof (day_number_inj _ _ _ N N') as Q. injection Q as -> -> ->.
    pose proof (month_day_small _ _ _ VD) as [M D]. split; [|split; [now rewrite L|]].
    + unfold valid_clock in C. repeat (constructor; [split; [apply small_type; [exact T|lia]|lia]|]). constructor.
    + intros o O. inversion O as [|? ? ? ? ? ? B2 ? ?|? y2 m2 d2 h2 mi2 s2 ms2 N2 C2 E2]; subst; [cbn in B2; destruct B2 as [B2|[B2|[]]]; discriminate B2|].
      pose proof (day_number_inj _ _ _ N2 N') as Q. injection Q as -> -> ->. pose proof (clock_parts _ _ _ _ _ _ _ _ _ C2 E2 C B) as Q. injection Q as -> -> -> ->. reflexivity.
Qed.
Lemma split_holds : forall f tx k v, List.In (f, tx, k) splittable -> holds tx v -> exists n, v = VZ n /\ of_type tx n.
Proof.
  intros f tx k v S H. destruct S as [S|[S|[S|[S|[]]]]]; injection S as _ <- _; destruct v as [n| |]; try contradiction H; exists n; split; try reflexivity; exact H.
Qed.
Lemma wide_holds : forall t z, List.In t wide_ints -> of_type t z -> holds t (VZ z).
Proof. intros t z T H. destruct T as [<-|[<-|[<-|[<-|[<-|[<-|[]]]]]]]; exact H. Qed.
(** What is assigned: the parts, in this order, and nothing else. *)
Lemma split_reads : forall P r f x ys t parts r', splits_into P r f x ys t parts r' -> Forall (fun z => of_type t z /\ 0 <= z) parts -> forall y, List.In y ys -> exists z, get y r' = Ok (t, VZ z) /\ of_type t z /\ 0 <= z.
Proof.
  intros P r f x ys t parts r' (_ & F & _) O y Y. revert O Y. induction F as [|w z ys parts E F IH]; intros O Y; [destruct Y|]. inversion O as [|? ? O1 O2]; subst.
  destruct Y as [<-|Y]; [exists z; now split|exact (IH O2 Y)].
Qed.
Lemma split_step : forall P r f x ys t parts r', splits_into P r f x ys t parts r' -> omap snd (value_of (api P) r (ModelLink.Call f (map Arg (x :: ys)))) = Ok r'.
Proof. intros P r f x ys t parts r' (E & _). now rewrite E. Qed.
