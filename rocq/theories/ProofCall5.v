(** Proofs about numbers and times as text in a program. *)
From Coq Require Import String Ascii ZArith Lia List Bool Reals SpecFloat.
From Verif Require Import Base ModelFloat ModelTimeNum ModelText ModelString ModelExtra ModelDate ModelST ModelWrap ModelLink ModelLib
  ModelApi SpecScalar SpecDate SpecTimeNum SpecReal SpecText SpecExtra SpecLink SpecLib SpecName SpecWrap SpecCall ProofBase
  ProofExtra ProofExtra2 ProofExtra3 ProofExtra4 ProofExtra5 ProofExtra6 ProofCall ProofCall2 ProofCall3.
Import ListNotations.
Open Scope string_scope.
Open Scope list_scope.
Open Scope Z_scope.

Lemma print_both : forall P X t g x s, List.In (X, t, g) texts -> of_type t x ->
  (exists d, g x = Ok d /\ reads d s) ->
  (exists d w s, g x = Ok d /\ to_wstring (g x) = Ok w /\ reads d s /\ reads w s) ->
  prints STRING s (call P (X ++ "_TO_STRING") [(t, VZ x)]) /\ prints WSTRING s (call P (X ++ "_TO_WSTRING") [(t, VZ x)]).
Proof.
  intros P X t g x s I T (d & E & R) (d' & w & s' & E' & W & R' & RW). rewrite E in E'. injection E' as <-.
  rewrite <- (reads_fun _ _ _ R R') in RW. destruct (text_call P X t g x I T) as [-> ->]. rewrite W, E.
  split; eexists; (split; [reflexivity|assumption]).
Qed.
Lemma int_type : forall i t x, List.In (t, i) [(S_BYTE, u8); (S_DWORD, u32); (S_LWORD, u64); (S_DINT, i32); (S_LINT, i64)] ->
  in_ity i x -> of_type t x.
Proof.
  intros i t x I H. repeat (destruct I as [I|I]; [injection I as <- <-; exact H|]). destruct I.
Qed.
Lemma integers_print : forall P X t i x,
  List.In (X, t, i) [("BYTE", S_BYTE, u8); ("DWORD", S_DWORD, u32); ("LWORD", S_LWORD, u64); ("DINT", S_DINT, i32); ("LINT", S_LINT, i64)] ->
  in_ity i x -> exists s, canonical_int s x /\ prints STRING s (call P (X ++ "_TO_STRING") [(t, VZ x)]) /\
    prints WSTRING s (call P (X ++ "_TO_WSTRING") [(t, VZ x)]).
Proof.
  intros P X t i x I H.
  assert (exists g h, integer_to_string i g /\ integer_pair i g h /\ List.In (X, t, g) texts /\ h x = to_wstring (g x)) as (g & h & G1 & G2 & G3 & G4).
  { unfold integer_to_string, integer_pair.
    repeat (destruct I as [I|I]; [injection I as <- <- <-; do 2 eexists; (split; [intuition reflexivity|]); (split; [intuition reflexivity|]); (split; [cbn; tauto|reflexivity])|]).
    destruct I. }
  assert (T : of_type t x).
  { apply (int_type i); [|exact H]. repeat (destruct I as [I|I]; [injection I as <- <- <-; cbn; tauto|]). destruct I. }
  destruct (int_string i g x G1 H) as (d & s & E & R & C). exists s. split; [exact C|].
  apply (print_both P X t g x s G3 T); [now exists d|]. rewrite <- G4. exact (integer_pair_text i g h x G2 H).
Qed.
Lemma time_type : forall t x, List.In t [S_TIME; S_LTIME; S_DATE; S_LDATE; S_TOD; S_LTOD; S_DT; S_LDT] -> in_ity i64 x -> of_type t x.
Proof. intros t x I H. repeat (destruct I as [<-|I]; [exact H|]). destruct I. Qed.
Lemma times_print : forall P X t x, List.In (X, t) [("TIME", S_TIME); ("LTIME", S_LTIME)] -> 0 <= x -> in_ity i64 x ->
  exists s, time_text s x /\ prints STRING s (call P (X ++ "_TO_STRING") [(t, VZ x)]) /\
    prints WSTRING s (call P (X ++ "_TO_WSTRING") [(t, VZ x)]).
Proof.
  intros P X t x I X0 H. destruct (time_text_nonneg x X0 H) as (d & s & E & R & C). exists s. split; [exact C|].
  apply (print_both P X t TIME_TO_STRING x s).
  - repeat (destruct I as [I|I]; [injection I as <- <-; cbn; tauto|]). destruct I.
  - apply time_type; [|exact H]. repeat (destruct I as [I|I]; [injection I as <- <-; cbn; tauto|]). destruct I.
  - now exists d.
  - apply (time_pair_text TIME_TO_STRING TIME_TO_WSTRING x); [unfold time_pair; tauto|exact H].
Qed.
Lemma dates_print : forall P X t x, List.In (X, t) [("DATE", S_DATE); ("LDATE", S_LDATE)] -> in_ity i64 x ->
  exists s y m dd, date_text s y m dd /\ day_number (y, m, dd) (x / DAY) /\
    prints STRING s (call P (X ++ "_TO_STRING") [(t, VZ x)]) /\ prints WSTRING s (call P (X ++ "_TO_WSTRING") [(t, VZ x)]).
Proof.
  intros P X t x I H. destruct (date_of x H) as (d & s & y & m & dd & E & R & C & D). exists s, y, m, dd. split; [exact C|]. split; [exact D|].
  apply (print_both P X t DATE_TO_STRING x s).
  - repeat (destruct I as [I|I]; [injection I as <- <-; cbn; tauto|]). destruct I.
  - apply time_type; [|exact H]. repeat (destruct I as [I|I]; [injection I as <- <-; cbn; tauto|]). destruct I.
  - now exists d.
  - apply (time_pair_text DATE_TO_STRING DATE_TO_WSTRING x); [unfold time_pair; tauto|exact H].
Qed.
Lemma tods_print : forall P X t x, List.In (X, t) [("TOD", S_TOD); ("LTOD", S_LTOD)] -> in_ity i64 x ->
  exists s h m sec ns, clock_text s h m sec ns /\ 0 <= h < 24 /\ 0 <= m < 60 /\ 0 <= sec < 60 /\ 0 <= ns < SECOND /\
    h * HOUR + m * MINUTE + sec * SECOND + ns = x mod DAY /\
    prints STRING s (call P (X ++ "_TO_STRING") [(t, VZ x)]) /\ prints WSTRING s (call P (X ++ "_TO_WSTRING") [(t, VZ x)]).
Proof.
  intros P X t x I H. destruct (tod_of x) as (d & s & h & m & sec & ns & E & R & C & H1 & H2 & H3 & H4 & H5).
  exists s, h, m, sec, ns. do 6 (split; [assumption|]).
  apply (print_both P X t TOD_TO_STRING x s).
  - repeat (destruct I as [I|I]; [injection I as <- <-; cbn; tauto|]). destruct I.
  - apply time_type; [|exact H]. repeat (destruct I as [I|I]; [injection I as <- <-; cbn; tauto|]). destruct I.
  - now exists d.
  - apply (time_pair_text TOD_TO_STRING TOD_TO_WSTRING x); [unfold time_pair; tauto|exact H].
Qed.
Lemma dts_print : forall P X t x, List.In (X, t) [("DT", S_DT); ("LDT", S_LDT)] -> in_ity i64 x ->
  exists ds cs y m dd h mi sec ns, date_text ds y m dd /\ day_number (y, m, dd) (x / DAY) /\ clock_text cs h mi sec ns /\
    0 <= h < 24 /\ 0 <= mi < 60 /\ 0 <= sec < 60 /\ 0 <= ns < SECOND /\
    h * HOUR + mi * MINUTE + sec * SECOND + ns = x mod DAY /\
    prints STRING (ds ++ str "-" ++ cs) (call P (X ++ "_TO_STRING") [(t, VZ x)]) /\
    prints WSTRING (ds ++ str "-" ++ cs) (call P (X ++ "_TO_WSTRING") [(t, VZ x)]).
Proof.
  intros P X t x I H. destruct (dt_of x H) as (d & ds & cs & y & m & dd & h & mi & sec & ns & E & R & C & D & CC & H1 & H2 & H3 & H4 & H5).
  exists ds, cs, y, m, dd, h, mi, sec, ns. do 8 (split; [assumption|]).
  apply (print_both P X t DT_TO_STRING x).
  - repeat (destruct I as [I|I]; [injection I as <- <-; cbn; tauto|]). destruct I.
  - apply time_type; [|exact H]. repeat (destruct I as [I|I]; [injection I as <- <-; cbn; tauto|]). destruct I.
  - now exists d.
  - apply (time_pair_text DT_TO_STRING DT_TO_WSTRING x); [unfold time_pair; tauto|exact H].
Qed.

(** ** Numbers from texts *)
Lemma omap_ok : forall (A B : Type) (f : A -> B) o z, (forall x y, f x = f y -> x = y) -> (omap f o = Ok (f z) <-> o = Ok z).
Proof.
  intros A B f o z I. destruct o as [a| |]; cbn; split; intros H; try discriminate; injection H as H; f_equal; [now apply I|now rewrite H].
Qed.
Lemma ints_parse : forall P src s, reads src s ->
  (forall z, call P "STRING_TO_LINT" [(S_STRING, VS src)] = Ok (S_LINT, VZ z) <-> int_text s z /\ in_ity i64 z) /\
  ((forall z, int_text s z -> ~ in_ity i64 z) -> call P "STRING_TO_LINT" [(S_STRING, VS src)] = Panic) /\
  (forall z, call P "STRING_TO_DINT" [(S_STRING, VS src)] = Ok (S_DINT, VZ z) <-> int_text s z /\ in_ity i32 z) /\
  ((forall z, int_text s z -> ~ in_ity i32 z) -> call P "STRING_TO_DINT" [(S_STRING, VS src)] = Panic).
Proof.
  intros P src s R. destruct (parse_int_call P src) as (-> & -> & _).
  assert (J : forall t, imin t <= 0 <= imax t -> forall u,
    (forall z, omap (fun z => (u : sty, VZ z)) (string_to_int t src) = Ok (u, VZ z) <-> int_text s z /\ in_ity t z) /\
    ((forall z, int_text s z -> ~ in_ity t z) -> omap (fun z => (u, VZ z)) (string_to_int t src) = Panic)).
  { intros t B u. pose proof (string_to_int_spec t src s B R) as H. split.
    - intros z. rewrite <- H. apply (omap_ok _ _ (fun z => (u, VZ z))). intros x y E. now injection E.
    - intros N. destruct (string_to_int_total t src s R) as [E|[z E]]; [now rewrite E|]. apply H in E as [T E]. destruct (N z T E). }
  pose proof (J i64 ltac:(split; discriminate) S_LINT) as [A B]. pose proof (J i32 ltac:(split; discriminate) S_DINT) as [C D].
  exact (conj A (conj B (conj C D))).
Qed.
Lemma wide_ints_parse : forall P w s t, holds WSTRING w t -> holds STRING s t -> (length (units STRING t) <= 80)%nat ->
  call P "WSTRING_TO_LINT" [(S_WSTRING, VS w)] = call P "STRING_TO_LINT" [(S_STRING, VS s)] /\
  (forall z, call P "STRING_TO_DINT" [(S_STRING, VS s)] = Ok z -> call P "WSTRING_TO_DINT" [(S_WSTRING, VS w)] = Ok z).
Proof.
  intros P w s t W S L. destruct (parse_int_call P w) as (_ & _ & -> & ->). destruct (parse_int_call P s) as (-> & -> & _).
  split; [now rewrite (proj1 (wint w s t W S L))|].
  intros z E. destruct (STRING_TO_DINT s) as [n| |] eqn:D; try discriminate. now rewrite (wdint_small w s t n W S L D).
Qed.
Lemma ints_back : forall P x,
  (in_ity i64 x -> obind (call P "LINT_TO_STRING" [(S_LINT, VZ x)]) (fun tv => call P "STRING_TO_LINT" [tv]) = Ok (S_LINT, VZ x) /\
     obind (call P "LINT_TO_WSTRING" [(S_LINT, VZ x)]) (fun tv => call P "WSTRING_TO_LINT" [tv]) = Ok (S_LINT, VZ x)) /\
  (in_ity i32 x -> obind (call P "DINT_TO_STRING" [(S_DINT, VZ x)]) (fun tv => call P "STRING_TO_DINT" [tv]) = Ok (S_DINT, VZ x) /\
     obind (call P "DINT_TO_WSTRING" [(S_DINT, VZ x)]) (fun tv => call P "WSTRING_TO_DINT" [tv]) = Ok (S_DINT, VZ x)).
Proof.
  intros P x. split; intros H.
  - destruct (text_call P "LINT" S_LINT LINT_TO_STRING x) as [A B]; [cbn; tauto|exact H|].
    change ("LINT" ++ "_TO_STRING")%string with "LINT_TO_STRING" in A. change ("LINT" ++ "_TO_WSTRING")%string with "LINT_TO_WSTRING" in B.
    destruct (lint_round x H) as (d & E & F). destruct (lint_wround x H) as (w & E' & F').
    unfold LINT_TO_WSTRING in E'. rewrite A, B, E, <- E, E', E. cbn [string_value omap obind string_type].
    destruct (parse_int_call P d) as (G & _). destruct (parse_int_call P w) as (_ & _ & G' & _). rewrite G, G', F, F'. exact (conj eq_refl eq_refl).
  - destruct (text_call P "DINT" S_DINT DINT_TO_STRING x) as [A B]; [cbn; tauto|exact H|].
    change ("DINT" ++ "_TO_STRING")%string with "DINT_TO_STRING" in A. change ("DINT" ++ "_TO_WSTRING")%string with "DINT_TO_WSTRING" in B.
    destruct (dint_round x H) as (d & E & F). destruct (dint_wround x H) as (w & E' & F').
    change (DINT_TO_WSTRING x) with (to_wstring (DINT_TO_STRING x)) in E'. rewrite A, B, E, <- E, E', E. cbn [string_value omap obind string_type].
    destruct (parse_int_call P d) as (_ & G & _). destruct (parse_int_call P w) as (_ & _ & _ & G'). rewrite G, G', F, F'. exact (conj eq_refl eq_refl).
Qed.
Lemma reals_parse : forall P src s, reads src s ->
  (forall neg m e, number_text s neg m e -> exists x y,
     call P "STRING_TO_LREAL" [(S_STRING, VS src)] = Ok (S_LREAL, VF x) /\ rounded F64 x neg (number_value neg m e) /\
     call P "STRING_TO_REAL" [(S_STRING, VS src)] = Ok (S_REAL, VF y) /\ rounded F32 y neg (number_value neg m e)) /\
  ((forall neg m e, ~ number_text s neg m e) -> (forall neg nan, ~ special_text s neg nan) ->
     call P "STRING_TO_LREAL" [(S_STRING, VS src)] = Panic /\ call P "STRING_TO_REAL" [(S_STRING, VS src)] = Panic).
Proof.
  intros P src s R. destruct (parse_float_call P src) as (-> & -> & _).
  destruct (float_texts F64 src s (or_intror eq_refl) R) as (A & _ & C).
  destruct (float_texts F32 src s (or_introl eq_refl) R) as (A' & _ & C'). split.
  - intros neg m e N. destruct (A neg m e N) as (x & E & X). destruct (A' neg m e N) as (y & F & Y).
    exists x, y. unfold STRING_TO_LREAL, STRING_TO_REAL. rewrite E, F. exact (conj eq_refl (conj X (conj eq_refl Y))).
  - intros N S. unfold STRING_TO_LREAL, STRING_TO_REAL. rewrite (C N S), (C' N S). exact (conj eq_refl eq_refl).
Qed.
Lemma wide_reals_parse : forall P w s t, holds WSTRING w t -> holds STRING s t -> (length (units STRING t) <= 80)%nat ->
  call P "WSTRING_TO_LREAL" [(S_WSTRING, VS w)] = call P "STRING_TO_LREAL" [(S_STRING, VS s)] /\
  call P "WSTRING_TO_REAL" [(S_WSTRING, VS w)] = call P "STRING_TO_REAL" [(S_STRING, VS s)].
Proof.
  intros P w s t W S L. destruct (parse_float_call P w) as (_ & _ & -> & ->). destruct (parse_float_call P s) as (-> & -> & _).
  destruct (wlreal w s t W S L) as [-> ->]. exact (conj eq_refl eq_refl).
Qed.
Lemma reals_print : forall P x, fl_valid F32 x -> fl_finite x = true ->
  exists s y, fl_value y = fl_value x /\ fl_negative y = fl_negative x /\
    ((fl_value x < IZR (10 ^ 14))%R -> fixed6_text s y) /\ ((IZR (10 ^ 14) <= fl_value x)%R -> exp6_text s y) /\
    prints STRING s (call P "REAL_TO_STRING" [(S_REAL, VF x)]) /\ prints WSTRING s (call P "REAL_TO_WSTRING" [(S_REAL, VF x)]).
Proof.
  intros P x V F. destruct (real_text x V F) as (d & s & E & R & C & T1 & T2). exists s, (fl_convert F64 x).
  split; [exact C|]. split; [exact (widen_sign x V F)|]. split; [exact T1|]. split; [exact T2|].
  destruct (real_call P x) as [-> ->]. destruct (real_pair_text x V) as (d' & w & s' & E' & W & R' & RW).
  rewrite E in E'. injection E' as <-. rewrite <- (reads_fun _ _ _ R R') in RW. rewrite E, W.
  split; eexists; (split; [reflexivity|assumption]).
Qed.
Lemma reals_back : forall P x, fl_valid F32 x -> fl_finite x = true ->
  exists y, obind (call P "REAL_TO_STRING" [(S_REAL, VF x)]) (fun tv => call P "STRING_TO_REAL" [tv]) = Ok (S_REAL, VF y) /\
   fl_negative y = fl_negative x /\ fl_finite y = true /\
   ((fl_value x < IZR (10 ^ 14))%R -> (Rabs (fl_value y - fl_value x) <= / 1000000)%R /\
       ((exists n, fl_value x * 1000000 = IZR n)%R -> fl_value y = fl_value x)) /\
   ((IZR (10 ^ 14) <= fl_value x)%R -> (Rabs (fl_value y - fl_value x) <= Rabs (fl_value x) / 999999)%R).
Proof.
  intros P x V F. destruct (real_back x V F) as (d & y & E & B & T). exists y. split; [|exact T].
  destruct (real_call P x) as [-> _]. rewrite E. cbn [string_value omap obind string_type].
  destruct (parse_float_call P d) as (_ & -> & _). now rewrite B.
Qed.
Lemma lreals_back : forall P x, fl_valid F64 x -> fl_finite x = true -> (IZR (- 10 ^ 73) < fl_value x)%R ->
  exists y, obind (call P "LREAL_TO_STRING" [(S_LREAL, VF x)]) (fun tv => call P "STRING_TO_LREAL" [tv]) = Ok (S_LREAL, VF y) /\
   fl_negative y = fl_negative x /\ fl_finite y = true /\
   ((fl_value x < IZR (10 ^ 14))%R -> (Rabs (fl_value y - fl_value x) <= / 1000000)%R /\
       ((exists n, fl_value x * 1000000 = IZR n)%R -> fl_value y = fl_value x)) /\
   ((IZR (10 ^ 14) <= fl_value x)%R -> (Rabs (fl_value y - fl_value x) <= Rabs (fl_value x) / 999999)%R).
Proof.
  intros P x V F N. destruct (lreal_back x V F N) as (d & y & E & B & T). exists y. split; [|exact T].
  destruct (lreal_call P x) as [-> _]. rewrite E. cbn [string_value omap obind string_type].
  destruct (parse_float_call P d) as (-> & _). now rewrite B.
Qed.
