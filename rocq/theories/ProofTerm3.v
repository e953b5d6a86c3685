(** The reference of SpecTerm.v: texts, real numbers, and expressions of any depth. *)
From Coq Require Import String Ascii ZArith Lia List Bool SpecFloat Reals Lra.
From Flocq Require Import Core BinarySingleNaN.
From Verif Require Import Base ModelFloat ModelScalar ModelArith ModelTimeNum ModelText ModelString ModelExtra ModelDate ModelChrono ModelST ModelWrap ModelLink ModelLib
  ModelApi SpecScalar SpecTimeNum SpecReal SpecPow SpecST SpecDate SpecText SpecExtra SpecLink SpecConv SpecLib SpecName SpecWrap SpecCall SpecExpr SpecNum SpecTerm
  ProofBase ProofScalar ProofST ProofReal2 ProofDate ProofExtra ProofExtra5 ProofExtra6 ProofWrap ProofLib ProofLib2 ProofConv ProofName3 ProofApi3 ProofString2 ProofCall ProofCall2 ProofCall3 ProofCall4
  ProofCall5 ProofProg ProofProg4 ProofExpr ProofExpr2 ProofExpr3 ProofExpr4 ProofNum ProofNum2 ProofNum3 ProofNum4 ProofOrder2 ProofString3 ProofTerm ProofTerm2 ProofTermR ProofTermD ProofTermE ProofTermT.
Import ListNotations.
Open Scope string_scope.
Open Scope list_scope.
Open Scope Z_scope.
Local Opaque call value_in api.

(** * Texts *)
Lemma prints_gives : forall k s o, ascii s -> prints k s o -> gives k s o.
Proof. intros k s o A (d & -> & R). exists d. split; [reflexivity|now apply ascii_holds]. Qed.
Lemma print_is : forall P t z s k, List.In t printed_types -> of_type t z -> canonical_int s z -> gives k s (call P (to_text t k) [(t, VZ z)]).
Proof.
  intros P t z s k T Z C. apply prints_gives; [exact (ascii_canonical_int s z C)|].
  assert (exists i, List.In (type_name t, t, i) [("BYTE", S_BYTE, u8); ("DWORD", S_DWORD, u32); ("LWORD", S_LWORD, u64); ("DINT", S_DINT, i32); ("LINT", S_LINT, i64)] /\ in_ity i z) as (i & I & B).
  { exists (match t with S_BYTE => u8 | S_DWORD => u32 | S_LWORD => u64 | S_DINT => i32 | _ => i64 end).
    cbn in T. repeat (destruct T as [<-|T]; [split; [repeat (first [left; reflexivity|right])|exact Z]|]). destruct T. }
  destruct (integers_print P _ t i z I B) as (s' & C' & A1 & A2). rewrite (canonical_int_unique z s s' C C'). destruct k; [exact A1|exact A2].
Qed.
Lemma print_time_is : forall P z s k, 0 <= z -> of_type S_TIME z -> time_text s z -> gives k s (call P (to_text S_TIME k) [(S_TIME, VZ z)]).
Proof.
  intros P z s k Z T C. apply prints_gives; [exact (ascii_time s z C)|].
  destruct (times_print P "TIME" S_TIME z ltac:(left; reflexivity) Z T) as (s' & C' & A1 & A2). rewrite (time_text_unique z s s' C C').
  destruct k; [exact A1|exact A2].
Qed.
Lemma print_date_is : forall P z s y m d k, of_type S_DATE z -> date_text s y m d -> day_number (y, m, d) (z / DAY) ->
  gives k s (call P (to_text S_DATE k) [(S_DATE, VZ z)]).
Proof.
  intros P z s y m d k T C D. apply prints_gives; [exact (ascii_date s y m d C)|].
  destruct (dates_print P "DATE" S_DATE z ltac:(left; reflexivity) T) as (s' & y' & m' & d' & C' & D' & A1 & A2).
  pose proof (day_number_inj _ _ _ D D') as E. injection E as <- <- <-. rewrite (date_text_unique y m d s s' C C').
  destruct k; [exact A1|exact A2].
Qed.
Lemma parse_is : forall P t src s z, List.In t [S_LINT; S_DINT] -> holds STRING src s -> int_text (units STRING s) z -> of_type t z ->
  call P (of_text STRING t) [(S_STRING, VS src)] = Ok (t, VZ z).
Proof.
  intros P t src s z T H I Z. apply ProofString2.holds_reads in H. destruct (ints_parse P src _ H) as (A & _ & B & _).
  destruct T as [<-|[<-|[]]]; [exact (proj2 (A z) (conj I Z))|exact (proj2 (B z) (conj I Z))].
Qed.
Lemma parse_fails : forall P t src s, List.In t [S_LINT; S_DINT] -> holds STRING src s -> (forall z, int_text (units STRING s) z -> ~ of_type t z) ->
  call P (of_text STRING t) [(S_STRING, VS src)] = Panic.
Proof.
  intros P t src s T H I. apply ProofString2.holds_reads in H. destruct (ints_parse P src _ H) as (_ & A & _ & B).
  destruct T as [<-|[<-|[]]]; [exact (A I)|exact (B I)].
Qed.
Lemma print_negative_is : forall P z s k, z < 0 -> of_type S_TIME z -> time_text s ((if - DAY <? z then 0 else 2 ^ 32 + Z.quot z DAY) * DAY + z mod DAY) ->
  gives k s (call P (to_text S_TIME k) [(S_TIME, VZ z)]).
Proof.
  intros P z s k Z T C. apply prints_gives; [exact (ascii_time s _ C)|].
  destruct (ProofExtra2.time_items_text z) as (d & s' & E & R & C'). rewrite (ProofExtra6.time_value_neg z T Z) in C'. rewrite (time_text_unique _ s s' C C').
  destruct (print_both P "TIME" S_TIME TIME_TO_STRING z s' ltac:(cbn; tauto) T (ex_intro _ d (conj E R))
    ltac:(apply (time_pair_text TIME_TO_STRING TIME_TO_WSTRING z); [unfold time_pair; tauto|exact T])) as [A1 A2].
  destruct k; [exact A1|exact A2].
Qed.
Lemma daytime_unique : forall s s' x, daytime_text s x -> daytime_text s' x -> s = s'.
Proof.
  intros s s' x (h & m & c & n & C & R1 & R2 & R3 & R4 & E) (h' & m' & c' & n' & C' & R1' & R2' & R3' & R4' & E').
  exact (proj2 (clock_lt s s' h m c n h' m' c' n' x x C C' R1 R2 R3 R4 R1' R2' R3' R4' E E') eq_refl).
Qed.
Lemma ascii_daytime : forall s x, daytime_text s x -> ascii s.
Proof. intros s x (h & m & c & n & C & _). exact (ascii_clock s h m c n C). Qed.
Lemma print_tod_is : forall P z s k, of_type S_TOD z -> daytime_text s (z mod DAY) -> gives k s (call P (to_text S_TOD k) [(S_TOD, VZ z)]).
Proof.
  intros P z s k T C. apply prints_gives; [exact (ascii_daytime s _ C)|].
  destruct (tods_print P "TOD" S_TOD z ltac:(left; reflexivity) T) as (s' & h & m & sec & ns & C' & R1 & R2 & R3 & R4 & E & A1 & A2).
  rewrite (daytime_unique s s' _ C ltac:(exists h, m, sec, ns; exact (conj C' (conj R1 (conj R2 (conj R3 (conj R4 E))))))).
  destruct k; [exact A1|exact A2].
Qed.
Lemma print_dt_is : forall P z s s' y m d k, of_type S_DT z -> date_text s y m d -> day_number (y, m, d) (z / DAY) -> daytime_text s' (z mod DAY) ->
  gives k (s ++ str "-" ++ s') (call P (to_text S_DT k) [(S_DT, VZ z)]).
Proof.
  intros P z s s' y m d k T C D H. apply prints_gives; [apply ascii_app; [exact (ascii_date s y m d C)|apply ascii_app; [now apply ascii_lit|exact (ascii_daytime s' _ H)]]|].
  destruct (dts_print P "DT" S_DT z ltac:(left; reflexivity) T) as (ds & cs & y' & m' & d' & h & mi & sec & ns & C' & D' & CC & R1 & R2 & R3 & R4 & E & A1 & A2).
  pose proof (day_number_inj _ _ _ D D') as I. injection I as <- <- <-. rewrite (date_text_unique y m d s ds C C').
  rewrite (daytime_unique s' cs _ H ltac:(exists h, mi, sec, ns; exact (conj CC (conj R1 (conj R2 (conj R3 (conj R4 E))))))).
  destruct k; [exact A1|exact A2].
Qed.
Lemma holds_any : forall k t, text t -> exists d, holds k d t.
Proof. intros k t T. exists (units k t ++ [0]). split; [exact T|]. now exists []. Qed.
Lemma parse_wide_is : forall P t src s z w, List.In t [S_LINT; S_DINT] -> holds WSTRING src s -> (length (units STRING s) <= 80)%nat -> int_text (units STRING s) z ->
  of_type S_LINT z -> of_type t w -> w mod values t = z mod values t -> call P (of_text WSTRING t) [(S_WSTRING, VS src)] = Ok (t, VZ w).
Proof.
  intros P t src s z w T H L I Z W E. destruct (holds_any STRING s (proj1 H)) as [d D]. destruct (wint src d s H D L) as [A B].
  assert (Q : STRING_TO_LINT d = Ok z).
  { apply (string_to_int_spec i64 d _ ltac:(split; discriminate) (ProofString2.holds_reads STRING d s D)). split; [exact I|exact Z]. }
  rewrite Q in A, B. destruct (parse_int_call P src) as (_ & _ & C1 & C2).
  destruct T as [<-|[<-|[]]].
  - change (of_text WSTRING S_LINT) with "WSTRING_TO_LINT". rewrite C1, A. cbn [omap]. rewrite (typed_unique S_LINT w z); [reflexivity|cbn; tauto|assumption..].
  - change (of_text WSTRING S_DINT) with "WSTRING_TO_DINT". rewrite C2, B. cbn [omap]. destruct (convert_typed S_DINT z ltac:(cbn; tauto)) as (X & Y & _).
    rewrite (typed_unique S_DINT w (wrap i32 z)); [reflexivity|cbn; tauto|exact W|exact X|]. rewrite E. symmetry. exact Y.
Qed.
Lemma parse_wide_fails : forall P t src s, List.In t [S_LINT; S_DINT] -> holds WSTRING src s -> (length (units STRING s) <= 80)%nat ->
  (forall z, int_text (units STRING s) z -> ~ of_type S_LINT z) -> call P (of_text WSTRING t) [(S_WSTRING, VS src)] = Panic.
Proof.
  intros P t src s T H L I. destruct (holds_any STRING s (proj1 H)) as [d D]. destruct (wint src d s H D L) as [A B].
  pose proof (ProofString2.holds_reads STRING d s D) as R.
  assert (Q : STRING_TO_LINT d = Panic).
  { destruct (string_to_int_total i64 d _ R) as [Q|[n Q]]; [exact Q|]. exfalso.
    apply (string_to_int_spec i64 d _ ltac:(split; discriminate) R) in Q as [X Y]. exact (I n X Y). }
  rewrite Q in A, B. destruct (parse_int_call P src) as (_ & _ & C1 & C2).
  destruct T as [<-|[<-|[]]].
  - change (of_text WSTRING S_LINT) with "WSTRING_TO_LINT". now rewrite C1, A.
  - change (of_text WSTRING S_DINT) with "WSTRING_TO_DINT". now rewrite C2, B.
Qed.
(** Negative lengths. *)
Lemma delete_back : forall P k src s l p, holds k src s -> in_ity i32 l -> in_ity i32 p -> slen s < 2 ^ 31 -> l < 0 ->
  let r := firstn (Z.to_nat (p - 1)) s ++ skipn (Z.to_nat (p - 1 + l)) s in
  let o := call P "DELETE" [(string_type k, VS src); (S_DINT, VZ l); (S_DINT, VZ p)] in
  (p_profile P = Release -> 0 <= p - 1 + l -> p <= slen s -> short k r -> gives k r o) /\ (p_profile P = Debug \/ ~ (0 <= p - 1 + l /\ p <= slen s) -> o = Panic).
Proof.
  intros P k src s l p H IL IP S L0 r o. unfold o. rewrite delete_call. split.
  - intros EP D1 D2 F. rewrite EP. destruct (ProofString3.negative_release k src src s s l p ModelWrap.result H H IL IP S L0) as [_ B].
    apply gives_returns. apply delivers_small; [exact (proj1 (B D1 D2))|apply ProofWrap.text_app; [apply ProofWrap.text_firstn, H|apply text_skipn, H]|exact F].
  - intros D. destruct (p_profile P) eqn:EP.
    + unfold DELETE. rewrite (proj1 (ProofString3.negative_debug k src src s s l p ModelWrap.result H H IL IP ltac:(lia) L0)). reflexivity.
    + destruct (ProofString3.negative_release k src src s s l p ModelWrap.result H H IL IP S L0) as [A _].
      unfold DELETE. rewrite (proj1 (A ltac:(destruct D as [D|D]; [discriminate D|lia]))). reflexivity.
Qed.
Lemma replace_back : forall P k src rep s t l p, holds k src s -> holds k rep t -> in_ity i32 l -> in_ity i32 p -> slen s < 2 ^ 31 -> l < 0 ->
  let r := firstn (Z.to_nat (p - 1)) s ++ t ++ skipn (Z.to_nat (p - 1 + l)) s in
  let o := call P "REPLACE" [(string_type k, VS src); (string_type k, VS rep); (S_DINT, VZ l); (S_DINT, VZ p)] in
  (p_profile P = Release -> 0 <= p - 1 + l -> p <= slen s -> short k r -> gives k r o) /\ (p_profile P = Debug \/ ~ (0 <= p - 1 + l /\ p <= slen s) -> o = Panic).
Proof.
  intros P k src rep s t l p H H' IL IP S L0 r o. unfold o. rewrite replace_call. split.
  - intros EP D1 D2 F. rewrite EP. destruct (ProofString3.negative_release k src rep s t l p ModelWrap.result H H' IL IP S L0) as [_ B].
    apply gives_returns. apply delivers_small; [exact (proj2 (B D1 D2))|apply ProofWrap.text_app; [apply ProofWrap.text_firstn, H|apply ProofWrap.text_app; [apply H'|apply text_skipn, H]]|exact F].
  - intros D. destruct (p_profile P) eqn:EP.
    + unfold REPLACE. rewrite (proj2 (ProofString3.negative_debug k src rep s t l p ModelWrap.result H H' IL IP ltac:(lia) L0)). reflexivity.
    + destruct (ProofString3.negative_release k src rep s t l p ModelWrap.result H H' IL IP S L0) as [A _].
      unfold REPLACE. rewrite (proj2 (A ltac:(destruct D as [D|D]; [discriminate D|lia]))). reflexivity.
Qed.
Lemma insert_fails : forall P k src ins s t p, holds k src s -> holds k ins t -> slen s < 2 ^ 31 -> ~ 0 <= p <= slen s ->
  call P "INSERT" [(string_type k, VS src); (string_type k, VS ins); (S_DINT, VZ p)] = Panic.
Proof. intros P k src ins s t p H H' S R. rewrite insert_call. unfold INSERT. now rewrite (proj2 (ProofString3.insert_spec k src ins s t p ModelWrap.result H H' S) R). Qed.
Lemma replace_fails : forall P k src rep s t l p, holds k src s -> holds k rep t -> in_ity i32 l -> in_ity i32 p -> slen s < 2 ^ 31 -> 0 <= l ->
  ~ (1 <= p <= slen s /\ p - 1 + l <= slen s) -> call P "REPLACE" [(string_type k, VS src); (string_type k, VS rep); (S_DINT, VZ l); (S_DINT, VZ p)] = Panic.
Proof.
  intros P k src rep s t l p H H' IL IP S L0 D. rewrite replace_call. unfold REPLACE.
  now rewrite (proj2 (ProofString3.replace_spec (p_profile P) k src rep s t l p ModelWrap.result H H' IL IP S L0) D).
Qed.
Lemma all_pairs_two : forall R a b, all_pairs R [a; b] <-> R a b.
Proof.
  intros R a b. split; [intros H; exact (H [] a [] b [] eq_refl)|].
  intros H l1 x l2 y l3 L. destruct l1 as [|? [|? [|]]]; try discriminate.
  - destruct l2 as [|? [|]]; [now injection L as <- <- _|injection L; intros; discriminate|injection L; intros; discriminate].
  - injection L as _ _ L. destruct l2; discriminate.
Qed.
Lemma order_is : forall P k a b s t, holds k a s -> holds k b t ->
  let args := [(string_type k, VS a); (string_type k, VS b)] in
  tells (lex_lt (units k s) (units k t)) (call P "LT" args) /\ tells (lex_lt (units k t) (units k s)) (call P "GT" args) /\
  tells (lex_le (units k s) (units k t)) (call P "LE" args) /\ tells (lex_le (units k t) (units k s)) (call P "GE" args).
Proof.
  intros P k a b s t A B args. apply ProofString2.holds_reads in A, B.
  destruct (compare_call P k [a; b] [units k s; units k t]) as (G & GE & _ & LE & L);
    [constructor; [exact A|constructor; [exact B|constructor]]|cbn; lia|]. cbn [map] in G, L, GE, LE. fold args in G, L, GE, LE.
  split; [|split; [|split]]; [destruct L as [[H E]|[H E]]|destruct G as [[H E]|[H E]]|destruct LE as [[H E]|[H E]]|destruct GE as [[H E]|[H E]]]; rewrite all_pairs_two in H;
    [left|right|left|right|left|right|left|right]; (split; [exact H|exact E]).
Qed.
Lemma tells_truth : forall p b o, tells p o -> truth b p -> o = Ok (S_BOOL, VZ b).
Proof. intros p b o [[H ->]|[H ->]] [[-> T]|[-> T]]; [reflexivity|contradiction|contradiction|reflexivity]. Qed.
Lemma truth_bool : forall b p, truth b p -> of_type S_BOOL b.
Proof. intros b p [[-> _]|[-> _]]; unfold of_type; cbn; lia. Qed.
Lemma short_insert : forall k s t p, short k (firstn p s ++ t ++ skipn p s) -> (size k s + size k t <= 2048)%nat.
Proof.
  intros k s t p H. unfold short in H. change (size k (firstn p s ++ t ++ skipn p s) <= 2048)%nat in H. rewrite !size_app in H.
  rewrite <- (firstn_skipn p s) at 1. rewrite size_app. lia.
Qed.

(** * Real numbers *)
Lemma nearest_rounds : forall P r t e q p, List.In t reals -> nearest P r t e q -> rounds_to t q p -> number P r t e p.
Proof.
  intros P r t e q p T (v & E & N) (w & M & <-). exists v. split; [exact E|]. pose proof N as (V & F & _). split; [exact V|]. split; [exact F|].
  exact (nearest_unique (fmt_of t) (real_fmt t T) v w q N M).
Qed.
Lemma integer_part_unique : forall a b q, integer_part a q -> integer_part b q -> a = b.
Proof.
  assert (W : forall a q, integer_part a q -> (0 <= q -> IZR a <= q < IZR a + 1)%R /\ (q <= 0 -> IZR a - 1 < q <= IZR a)%R).
  { intros a q (A1 & A2 & A3). apply Rabs_def2 in A2.
    split; intros Q; revert A1; unfold Rabs; destruct (Rcase_abs (IZR a)), (Rcase_abs q); intros; nra. }
  intros a b q A B. destruct (W a q A) as [A1 A2]. destruct (W b q B) as [B1 B2]. apply Z.le_antisymm; apply Z.lt_succ_r; apply lt_IZR; rewrite succ_IZR;
    destruct (Rle_or_lt 0 q) as [Q|Q]; [specialize (A1 Q); specialize (B1 Q); lra|apply Rlt_le in Q; specialize (A2 Q); specialize (B2 Q); lra|
      specialize (A1 Q); specialize (B1 Q); lra|apply Rlt_le in Q; specialize (A2 Q); specialize (B2 Q); lra].
Qed.
Lemma all_reals : forall P r t es qs, Forall2 (is_value P r) es (map (Real t) qs) -> qs <> [] ->
  List.In t reals /\ Forall2 (number P r t) es qs /\ es <> [].
Proof.
  intros P r t es qs F N. destruct qs as [|q qs]; [contradiction|]. cbn [map] in F.
  assert (T : List.In t reals) by (inversion F; subst; match goal with H : is_value P r _ (Real t q) |- _ => apply iv_real in H; exact (proj1 H) end).
  split; [exact T|]. split; [|inversion F; discriminate]. clear N T.
  change (Forall2 (is_value P r) es (map (Real t) (q :: qs))) in F. revert es F. generalize (q :: qs) as l. clear q qs. intros l. induction l as [|q l IH]; intros es F; inversion F; subst; constructor.
  - match goal with H : is_value P r _ (Real t q) |- _ => apply iv_real in H; exact (proj2 H) end.
  - now apply IH.
Qed.
Lemma all_whole : forall P r t es zs, Forall2 (is_value P r) es (map (Whole t) zs) ->
  Forall2 (fun e tv => value_in P r e = Ok tv) es (map (pair t) (map VZ zs)) /\ Forall (of_type t) zs.
Proof.
  intros P r t es zs. revert es. induction zs as [|z zs IH]; intros es F; inversion F as [|e m es' ms H1 H3]; subst; [split; constructor|].
  destruct (IH _ H3) as [A B]. apply iv_whole in H1. destruct H1 as [E T]. split; constructor; assumption.
Qed.
Lemma all_texts : forall P r k es ss, Forall2 (is_value P r) es (map (Text k) ss) ->
  exists ds, Forall2 (fun e tv => value_in P r e = Ok tv) es (map (fun m => (string_type k, VS m)) ds) /\ Forall2 (holds k) ds ss.
Proof.
  intros P r k es ss. revert es. induction ss as [|s ss IH]; intros es F; inversion F as [|e m es' ms H1 H3]; subst; [exists []; split; constructor|].
  destruct (IH _ H3) as (ds & A & B). apply iv_text in H1. destruct H1 as (d & E & H). exists (d :: ds). split; constructor; assumption.
Qed.
Lemma gives_value : forall P r f es l k s, Forall2 (fun e tv => value_in P r e = Ok tv) es l -> gives k s (call P f l) -> is_value P r (Call f es) (Text k s).
Proof. intros P r f es l k s F G. apply iv_text. unfold is_text. now rewrite (value_call P r f es l F). Qed.

Ltac args := repeat match goal with
  | H : Forall2 (is_value _ _) _ (_ :: _) |- _ => inversion H; clear H; subst
  | H : Forall2 (is_value _ _) _ [] |- _ => inversion H; clear H; subst
  end;
  repeat match goal with
  | H : is_value _ _ _ (Whole _ _) |- _ => apply iv_whole in H
  | H : is_value _ _ _ (Text _ _) |- _ => apply iv_text in H; let d := fresh "d" in let E := fresh "E" in let D := fresh "D" in destruct H as (d & E & D)
  | H : is_value _ _ _ (Real _ _) |- _ => apply iv_real in H; let T := fresh "T" in let N := fresh "N" in destruct H as [T N]
  end;
  repeat match goal with
  | H : whole _ _ _ _ _ |- _ => let V := fresh "V" in let T := fresh "T" in destruct H as [V T]
  end.
Ltac vals := repeat (apply Forall2_cons; [eassumption|]); apply Forall2_nil.
Ltac wh := eapply whole_call; [vals|..].
Ltac tx := eapply gives_value; [vals|].
Lemma shifted : forall t v k, List.In t bit_strings -> of_type t v -> 0 <= k -> of_type t (v / 2 ^ k).
Proof.
  intros t v k T V K. apply words_typed; [exact T|]. apply words_typed in V; [|exact T]. assert (0 < 2 ^ k) by (apply Z.pow_pos_nonneg; lia).
  split; [apply Z.div_pos; lia|]. apply Z.le_lt_trans with v; [|lia]. apply Z.div_le_upper_bound; nia.
Qed.
Lemma cut : forall t v, List.In t bit_strings -> of_type t (v mod values t).
Proof.
  intros t v T. apply words_typed; [exact T|]. destruct (values_width t T) as [-> W]. apply Z.mod_pos_bound. apply Z.pow_pos_nonneg; lia.
Qed.
Lemma max_typed : forall t zs m, Forall (of_type t) zs -> is_max m zs -> of_type t m.
Proof. intros t zs m F [I _]. rewrite Forall_forall in F. exact (F m I). Qed.
Lemma min_typed : forall t zs m, Forall (of_type t) zs -> is_min m zs -> of_type t m.
Proof. intros t zs m F [I _]. rewrite Forall_forall in F. exact (F m I). Qed.
Lemma limit_typed : forall t a z b, of_type t a -> of_type t z -> of_type t b -> of_type t (Z.max a (Z.min z b)).
Proof. intros t a z b A Z B. unfold of_type in *. lia. Qed.
Lemma slen_dint : forall s, slen s < 2 ^ 31 -> of_type S_DINT (slen s).
Proof. intros s H. unfold of_type, slen in *. cbn. lia. Qed.
Lemma found_dint : forall s t n, slen s < 2 ^ 31 -> t <> [] -> first_at t s n -> of_type S_DINT (Z.of_nat n + 1).
Proof.
  intros s t n L T [(a & b & E & N) _]. unfold slen in L. subst s. rewrite !app_length in L. destruct t; [contradiction|]. cbn [length] in L.
  unfold of_type. cbn. lia.
Qed.
Lemma represented : forall c t z, List.In t [S_TOD; S_DT] -> representable c z -> of_type t z.
Proof. intros c t z T [R _]. destruct T as [<-|[<-|[]]]; exact R. Qed.
Lemma time_of : forall t z, List.In t [S_DATE; S_TOD; S_DT] -> of_type t z -> of_type S_TIME z.
Proof. intros t z T Z. destruct T as [<-|[<-|[<-|[]]]]; exact Z. Qed.

(** The long types are written like the others. *)
Lemma print_long : forall P t u k z, List.In (t, u) [(S_LTIME, S_TIME); (S_LDATE, S_DATE); (S_LTOD, S_TOD); (S_LDT, S_DT)] -> of_type t z ->
  call P (to_text t k) [(t, VZ z)] = call P (to_text u k) [(u, VZ z)].
Proof.
  intros P t u k z H Z.
  assert (exists g, List.In (type_name t, t, g) texts /\ List.In (type_name u, u, g) texts /\ of_type u z) as (g & A & B & Z').
  { exists (match u with S_TIME => TIME_TO_STRING | S_DATE => DATE_TO_STRING | S_TOD => TOD_TO_STRING | _ => DT_TO_STRING end).
    cbn [List.In] in H. repeat (destruct H as [H|H]; [injection H as <- <-; split; [|split; [|exact Z]]; unfold texts; repeat (first [left; reflexivity|right])|]). destruct H. }
  destruct (text_call P _ t g z A Z) as [A1 A2]. destruct (text_call P _ u g z B Z') as [B1 B2].
  destruct k; [exact (eq_trans A1 (eq_sym B1))|exact (eq_trans A2 (eq_sym B2))].
Qed.
Lemma print_time_any : forall P t z s k, List.In t [S_TIME; S_LTIME] -> 0 <= z -> of_type t z -> time_text s z -> gives k s (call P (to_text t k) [(t, VZ z)]).
Proof. intros P t z s k [<-|[<-|[]]] Z T C; [|rewrite (print_long P S_LTIME S_TIME k z ltac:(left; reflexivity) T)]; exact (print_time_is P z s k Z T C). Qed.
Lemma print_negative_any : forall P t z s k, List.In t [S_TIME; S_LTIME] -> z < 0 -> of_type t z ->
  time_text s ((if - DAY <? z then 0 else 2 ^ 32 + Z.quot z DAY) * DAY + z mod DAY) -> gives k s (call P (to_text t k) [(t, VZ z)]).
Proof. intros P t z s k [<-|[<-|[]]] Z T C; [|rewrite (print_long P S_LTIME S_TIME k z ltac:(left; reflexivity) T)]; exact (print_negative_is P z s k Z T C). Qed.
Lemma print_date_any : forall P t z s y m d k, List.In t [S_DATE; S_LDATE] -> of_type t z -> date_text s y m d -> day_number (y, m, d) (z / DAY) ->
  gives k s (call P (to_text t k) [(t, VZ z)]).
Proof.
  intros P t z s y m d k [<-|[<-|[]]] T C D; [|rewrite (print_long P S_LDATE S_DATE k z ltac:(right; left; reflexivity) T)]; exact (print_date_is P z s y m d k T C D).
Qed.
Lemma print_tod_any : forall P t z s k, List.In t [S_TOD; S_LTOD] -> of_type t z -> daytime_text s (z mod DAY) -> gives k s (call P (to_text t k) [(t, VZ z)]).
Proof.
  intros P t z s k [<-|[<-|[]]] T C; [|rewrite (print_long P S_LTOD S_TOD k z ltac:(right; right; left; reflexivity) T)]; exact (print_tod_is P z s k T C).
Qed.
Lemma print_dt_any : forall P t z s s' y m d k, List.In t [S_DT; S_LDT] -> of_type t z -> date_text s y m d -> day_number (y, m, d) (z / DAY) -> daytime_text s' (z mod DAY) ->
  gives k (s ++ str "-" ++ s') (call P (to_text t k) [(t, VZ z)]).
Proof.
  intros P t z s s' y m d k [<-|[<-|[]]] T C D E; [|rewrite (print_long P S_LDT S_DT k z ltac:(right; right; right; left; reflexivity) T)]; exact (print_dt_is P z s s' y m d k T C D E).
Qed.
Lemma typeb_no : forall t z, ~ of_type t z -> of_typeb t z = false.
Proof. intros t z N. destruct (of_typeb t z) eqn:E; [|reflexivity]. apply typeb in E. contradiction. Qed.
Lemma bool_typed : forall t z, List.In t convertible -> of_type S_BOOL z -> of_type t z.
Proof. intros t z T Z. unfold of_type in Z. cbn in T, Z. repeat (destruct T as [<-|T]; [unfold of_type; cbn; lia|]). destruct T. Qed.
Lemma adders_typed : forall P f t u z, List.In (f, t, u) adders -> representable (p_chrono P) z -> of_type t z.
Proof. intros P f t u z H [R _]. unfold adders in H. repeat (destruct H as [H|H]; [injection H as <- <- <-; exact R|]). destruct H. Qed.
Lemma subtracters_typed : forall P f t u z, List.In (f, t, u) subtracters -> representable (p_chrono P) z -> of_type t z.
Proof. intros P f t u z H [R _]. unfold subtracters in H. repeat (destruct H as [H|H]; [injection H as <- <- <-; exact R|]). destruct H. Qed.
Lemma tod_part_typed : forall f t u n, List.In (f, t, u) tod_parts -> of_type u (n mod DAY).
Proof.
  intros f t u n H. assert (0 <= n mod DAY < DAY) as B by (apply Z.mod_pos_bound; reflexivity). change DAY with 86400000000000 in B at 3.
  unfold tod_parts in H. repeat (destruct H as [H|H]; [injection H as <- <- <-; unfold of_type; generalize dependent (n mod DAY); cbn; intros; lia|]). destruct H.
Qed.
Lemma clock_typed : forall P f u h mi s ms, List.In (f, u) [("CONCAT_TOD", S_TOD); ("CONCAT_LTOD", S_LTOD)] -> accepted_clock P h mi s ms -> of_type u (clock_ns h mi s ms).
Proof.
  intros P f u h mi s ms H (A & B & C & D & E). assert (ms < 2000) as M by (destruct E as [E|[E _]]; lia).
  assert (0 <= clock_ns h mi s ms <= 90000000000000) as K by (unfold clock_ns, HOUR, MINUTE, SECOND, MILLI; lia). generalize dependent (clock_ns h mi s ms). intros n K.
  destruct H as [H|[H|[]]]; injection H as <- <-; unfold of_type; cbn; lia.
Qed.
Lemma stamp_typed : forall P f u z, List.In (f, u) [("CONCAT_DT", S_DT); ("CONCAT_LDT", S_LDT)] -> representable (p_chrono P) z -> of_type u z.
Proof. intros P f u z H [R _]. destruct H as [H|[H|[]]]; injection H as <- <-; exact R. Qed.

Lemma rule : forall P r f ms m es, yields P f ms m -> Forall2 (is_value P r) es ms -> is_value P r (Call f es) m.
Proof.
  intros P r f ms m es Y F. destruct Y.
  - args. wh; [rewrite convert_call by assumption; do 3 f_equal|assumption].
    destruct (convert_typed b z H0) as (A & B & _). apply (typed_unique b); [assumption|exact A|assumption|congruence].
  - args. wh; [rewrite (proj1 (values_width t H)); apply (proj1 (shift_calls P t v k H ltac:(assumption) (conj (udint_pos k ltac:(assumption)) H0)))|now apply cut].
  - args. wh; [apply (proj2 (shift_calls P t v k H ltac:(assumption) (conj (udint_pos k ltac:(assumption)) H0)))|apply shifted; [assumption|assumption|eapply udint_pos; eassumption]].
  - args. wh; [rewrite (proj1 (values_width t H)); apply (proj1 (proj1 (long_shift_calls P t v k H ltac:(assumption) H0) H1))|now apply cut].
  - args. wh; [apply (proj2 (proj1 (long_shift_calls P t v k H ltac:(assumption) H0) H1))|apply shifted; [assumption|assumption|]].
    apply Z.mod_pos_bound. apply (proj2 (values_width t H)).
  - args. wh; [apply rol_value; assumption|assumption].
  - args. wh; [apply ror_value; assumption|assumption].
  - args. wh; [apply order_reversed; assumption|assumption].
  - args. wh; [apply order_kept; assumption|assumption].
  - apply all_whole in F. destruct F as [F T]. eapply whole_call; [exact F|apply max_is; assumption|eapply max_typed; eassumption].
  - apply all_whole in F. destruct F as [F T]. eapply whole_call; [exact F|apply min_is; assumption|eapply min_typed; eassumption].
  - args. wh; [apply limit_is; assumption|now apply limit_typed].
  - args. wh; [rewrite limit_crossed by assumption; apply Z.ltb_lt in H1; rewrite H1; reflexivity|assumption].
  - args. wh; [rewrite limit_crossed by assumption; apply Z.ltb_ge in H1; rewrite H1; reflexivity|assumption].
  - args. wh; [apply bcd_is; assumption|eapply truth_bool; eassumption].
  - args. wh; [|eassumption]. match goal with A : of_type S_TIME ?a, B : of_type S_TIME ?b, _ : of_type S_TIME (?a + ?b) |- _ => exact (proj1 (proj1 (ProofProg4.sums_exact P a b A B)) H) end.
  - args. wh; [|eassumption]. match goal with A : of_type S_TIME ?a, B : of_type S_TIME ?b, _ : of_type S_TIME (?a - ?b) |- _ => exact (proj1 (proj1 (proj2 (ProofProg4.sums_exact P a b A B))) H) end.
  - args. wh; [|eassumption].
    exact (proj1 (proj1 (proj2 (proj2 (ProofProg4.sums_exact P a b (time_of t a H ltac:(assumption)) (time_of t b H ltac:(assumption))))) t H) H0).
  - args. wh; [|eapply represented; eassumption].
    exact (proj1 (proj1 (proj2 (proj2 (proj2 (ProofProg4.sums_exact P a b (time_of t a ltac:(cbn in *; tauto) ltac:(assumption)) ltac:(assumption)))) t H)) H0).
  - args. wh; [|eapply represented; eassumption].
    exact (proj1 (proj2 (proj2 (proj2 (proj2 (ProofProg4.sums_exact P a b (time_of t a ltac:(cbn in *; tauto) ltac:(assumption)) ltac:(assumption)))) t H)) H0).
  - args. wh; [rewrite (proj1 (scale_values P t a z ltac:(assumption) ltac:(assumption) ltac:(assumption) ltac:(assumption))), (proj2 (typeb _ _) H1); reflexivity|assumption].
  - args. wh; [rewrite (proj2 (scale_values P t a z ltac:(assumption) ltac:(assumption) ltac:(assumption) ltac:(assumption))), (proj2 (typeb _ _) H2)|assumption].
    apply Z.eqb_neq in H1. rewrite H1. reflexivity.
  - args. wh; [apply date_is; assumption|assumption].
  - args. wh; [now apply weekday_call|]. assert (0 <= (n / DAY + 4) mod 7 < 7) by (apply Z.mod_pos_bound; lia). unfold of_type; cbn; lia.
  - args. wh; [rewrite (proj2 (part_values P n ltac:(assumption))), (proj2 (typeb _ _) H); reflexivity|assumption].
  - args. wh; [apply (proj1 (part_values P n ltac:(assumption)))|]. assert (0 <= n mod DAY < DAY) by (apply Z.mod_pos_bound; reflexivity). unfold of_type, DAY in *; cbn; lia.
  - args. wh; [apply len_call; assumption|now apply slen_dint].
  - args. tx. exact (proj1 (left_gives P k d s n ltac:(assumption) H) H0).
  - args. tx. exact (proj1 (right_gives P k d s n ltac:(assumption) H) H0).
  - args. tx. exact (proj1 (mid_gives P k d s l p ltac:(assumption) H ltac:(assumption) ltac:(assumption)) H0 H1 H2).
  - args. tx. exact (proj1 (delete_gives P k d s l p ltac:(assumption) H ltac:(assumption) ltac:(assumption) H0) H1 H2).
  - args. tx. exact (proj1 (insert_gives P k _ _ s t p ltac:(eassumption) ltac:(eassumption) H H0) (short_insert k s t _ H1)).
  - args. tx. exact (proj1 (replace_gives P k _ _ s t l p ltac:(eassumption) ltac:(eassumption) ltac:(assumption) ltac:(assumption) H H0 H1 H2) H3).
  - args. tx. exact (proj1 (delete_back P k d s l p ltac:(assumption) ltac:(assumption) ltac:(assumption) H0 H1) H H2 H3 H4).
  - args. tx. exact (proj1 (replace_back P k _ _ s t l p ltac:(eassumption) ltac:(eassumption) ltac:(assumption) ltac:(assumption) H0 H1) H H2 H3 H4).
  - apply all_texts in F. destruct F as (ds & F & D). eapply gives_value; [exact F|]. exact (proj1 (concat_gives P k ds ss D H) H0).
  - args. wh; [exact (proj2 (find_call P k _ _ s t ltac:(eassumption) ltac:(eassumption) H) n H0 H1)|eapply found_dint; eassumption].
  - args. wh; [exact (proj1 (find_call P k _ _ s t ltac:(eassumption) ltac:(eassumption) H) H0)|unfold of_type; cbn; lia].
  - args. wh; [exact (tells_truth _ _ _ (proj1 (eq_texts P k _ _ s t ltac:(eassumption) ltac:(eassumption))) H)|eapply truth_bool; eassumption].
  - args. wh; [exact (tells_truth _ _ _ (proj2 (eq_texts P k _ _ s t ltac:(eassumption) ltac:(eassumption))) H)|eapply truth_bool; eassumption].
  - args. wh; [exact (tells_truth _ _ _ (proj1 (order_is P k _ _ s t ltac:(eassumption) ltac:(eassumption))) H)|eapply truth_bool; eassumption].
  - args. wh; [exact (tells_truth _ _ _ (proj1 (proj2 (order_is P k _ _ s t ltac:(eassumption) ltac:(eassumption)))) H)|eapply truth_bool; eassumption].
  - args. wh; [exact (tells_truth _ _ _ (proj1 (proj2 (proj2 (order_is P k _ _ s t ltac:(eassumption) ltac:(eassumption))))) H)|eapply truth_bool; eassumption].
  - args. wh; [exact (tells_truth _ _ _ (proj2 (proj2 (proj2 (order_is P k _ _ s t ltac:(eassumption) ltac:(eassumption))))) H)|eapply truth_bool; eassumption].
  - args. tx. exact (proj1 (to_string_gives P d s ltac:(assumption)) H).
  - args. tx. exact (to_wstring_gives P d s ltac:(assumption) H).
  - args. tx. apply print_is; assumption.
  - args. tx. apply (print_time_any P t); assumption.
  - args. tx. apply (print_negative_any P t); assumption.
  - args. tx. eapply (print_date_any P t); eassumption.
  - args. wh; [eapply parse_is; eassumption|assumption].
  - args. tx. apply (print_tod_any P t); assumption.
  - args. tx. eapply (print_dt_any P t); eassumption.
  - args. wh; [eapply parse_wide_is; eassumption|assumption].
  - args. apply iv_real. split; [assumption|]. now apply abs_number.
  - args. apply iv_real. split; [assumption|]. destruct (round_number P r t _ q ltac:(assumption) ltac:(eassumption)) as (k & K & R).
    rewrite (nearest_int_unique _ _ _ H K). exact R.
  - args. apply iv_whole. destruct (trunc_whole P r t _ q ltac:(assumption) ltac:(eassumption)) as (k & K & R & _).
    rewrite (integer_part_unique _ _ _ H K) in *. exact (R H0).
  - args. apply iv_whole. destruct (to_whole P r t a _ q ltac:(assumption) ltac:(assumption) ltac:(eassumption)) as (k & K & R & _).
    rewrite (nearest_int_unique _ _ _ H0 K) in *. exact (R H1).
  - args. apply iv_real. split; [assumption|]. eapply nearest_rounds; [assumption| |eassumption].
    match goal with V : value_in P r ?e = Ok (a, VZ z), T : of_type a z |- _ => exact (proj1 (of_whole P r t a e z H H0 (conj V T))) end.
  - args. apply iv_real. split; [cbn; tauto|]. now apply widen_number.
  - args. apply iv_real. split; [cbn; tauto|]. eapply nearest_rounds; [cbn; tauto| |eassumption]. now apply narrow_literal.
  - args. apply iv_real. split; [assumption|]. eapply nearest_rounds; [assumption| |eassumption]. now apply sqrt_number.
  - assert (N : qs <> []) by (intros ->; destruct H as [[] _]). destruct (all_reals P r t es qs F N) as (T & G & E). apply iv_real. split; [exact T|].
    destruct (proj1 (select_number P r t es qs T G E)) as (k & K & I & B). destruct H as [I' B']. replace m with k; [exact K|].
    apply Rle_antisym; [now apply B'|now apply B].
  - assert (N : qs <> []) by (intros ->; destruct H as [[] _]). destruct (all_reals P r t es qs F N) as (T & G & E). apply iv_real. split; [exact T|].
    destruct (proj2 (select_number P r t es qs T G E)) as (k & K & I & B). destruct H as [I' B']. replace m with k; [exact K|].
    apply Rle_antisym; [now apply B|now apply B'].
  - args. apply iv_real. split; [assumption|]. now apply limit_number.
  - args. wh; [eapply recast_is; eassumption|assumption].
  - args. wh; [apply number_bool_is; assumption|eapply truth_bool; eassumption].
  - args. wh; [apply bits_bool_is; assumption|]. assert (0 <= z mod 2 < 2) by (apply Z.mod_pos_bound; lia). unfold of_type; cbn; lia.
  - args. wh; [apply of_bool_is; assumption|]. match goal with B : of_type S_BOOL z |- _ => exact (bool_typed t z H B) end.
  - args. wh; [rewrite abs_is, (proj2 (typeb _ _) H0) by assumption; reflexivity|assumption].
  - args. wh; [rewrite abs_is by assumption|assumption]. rewrite (typeb_no _ _ H0). reflexivity.
  - args. wh; [|eassumption]. exact (proj1 (times_added P f t a b H ltac:(assumption) ltac:(assumption)) H0).
  - args. wh; [|eassumption]. exact (proj1 (times_subtracted P f t a b H ltac:(assumption) ltac:(assumption)) H0).
  - args. wh; [|eapply adders_typed; eassumption]. exact (proj1 (later_named P f t u a b H) H0).
  - args. wh; [|eapply subtracters_typed; eassumption]. exact (proj1 (earlier_named P f t u a b H) H0).
  - args. wh; [|eassumption]. exact (proj1 (difference_named P f t u a b H ltac:(assumption) ltac:(assumption)) H0).
  - args. wh; [|eassumption]. exact (proj1 (multiplied P f u t a z H H0 ltac:(assumption)) (conj H1 H2)).
  - args. wh; [|eassumption]. exact (proj1 (divided P f u t a z H H0 ltac:(assumption) ltac:(assumption)) (conj H1 (conj H2 H3))).
  - args. wh; [|eassumption]. exact (proj1 (date_part_is P f t n H ltac:(assumption)) H0).
  - args. wh; [apply tod_part_is; assumption|eapply tod_part_typed; eassumption].
  - args. wh; [|eapply clock_typed; eassumption]. exact (proj1 (clock_is P f u t h mi s ms H H0 ltac:(assumption) ltac:(assumption) ltac:(assumption) ltac:(assumption)) H1).
  - args. wh; [|exact (proj1 H0)]. exact (proj1 (join_is P f u a b H) H0).
  - apply all_whole in F. destruct F as [F T]. eapply whole_call; [exact F| |eapply stamp_typed; eassumption].
    exact (proj1 (stamp_is P f u t y m d h mi s ms H H0 T) n H1 H2 H3 H4).
  - args. wh; [apply char_is; assumption|eapply char_typed; eassumption].
  - args. wh; [apply narrow_char_is; assumption|apply narrow_char_typed; assumption].
  - args. wh; [exact (proj1 (first_is P STRING d s ltac:(assumption)))|exact (proj2 (first_is P STRING d s ltac:(assumption)))].
  - args. wh; [exact (proj1 (first_is P WSTRING d s ltac:(assumption)))|exact (proj2 (first_is P WSTRING d s ltac:(assumption)))].
  - args. apply iv_real. split; [assumption|]. eapply power_number; try eassumption.
    match goal with V : value_in P r ?e = Ok (u, VZ n), T : of_type u n |- _ => exact (conj V T) end.
  - args. apply iv_real. split; [cbn; tauto|]. eapply nearest_rounds; [cbn; tauto| |eassumption].
    match goal with V : value_in P r ?e = Ok (t, VZ z), T : of_type t z |- _ => exact (proj1 (time_lreal P r t e z H (conj V T))) end.
  - args. apply iv_whole. destruct (lreal_time P r t _ q H ltac:(eassumption)) as (k & K & R & _).
    rewrite (nearest_int_unique _ _ _ H0 K) in *. exact (R H1).
  - args. match goal with N : number P r t ?e q |- _ => destruct N as (v & E & V & W & Q) end. wh; [apply valid_is; assumption|unfold of_type; cbn; lia].
  - args. match goal with N : number P r t ?e q |- _ => destruct N as (v & E & V & W & Q) end. tx.
    destruct (print_real_is P t v q s k ltac:(assumption) V W Q H H0) as [A B]. now apply prints_gives.
  - args. apply iv_real. split; [assumption|]. eapply nearest_rounds; [assumption| |eassumption].
    match goal with D : holds STRING ?d s, E : value_in P r ?x = _ |- _ =>
      destruct (parse_real_is P t d _ neg m e H (ProofString2.holds_reads STRING d s D) H0 H1) as (v & C & N); exists v; split; [|exact N]; rewrite (value_1 P r _ _ _ E); exact C end.
  - args. apply iv_real. split; [assumption|]. eapply nearest_rounds; [assumption| |eassumption].
    match goal with D : holds WSTRING ?w s, E : value_in P r ?x = _ |- _ =>
      destruct (parse_wide_real P t w s H D H0) as (d' & D' & C');
      destruct (parse_real_is P t d' _ neg m e H (ProofString2.holds_reads STRING d' s D') H1 H2) as (v & C & N); exists v; split; [|exact N];
      rewrite (value_1 P r _ _ _ E); rewrite <- C; exact C' end.
  - args. match goal with N : number P r t ?e q |- _ => destruct N as (v & E & VV & W & Q) end. wh; [|assumption]. subst q.
    exact (proj1 (scaled_exactly P f u t a b v ltac:(assumption) ltac:(assumption) ltac:(assumption) VV W H0) H H1).
  - args. match goal with N : number P r t ?e q |- _ => destruct N as (v & E & VV & W & Q) end. wh; [|assumption]. subst q.
    exact (proj2 (scaled_exactly P f u t a b v ltac:(assumption) ltac:(assumption) ltac:(assumption) VV W H0) H H1 H2).
Qed.

(** * Aborts *)
Lemma panics : forall P r f es l, Forall2 (fun e tv => value_in P r e = Ok tv) es l -> call P f l = Panic -> value_in P r (Call f es) = Panic.
Proof. intros P r f es l F C. now rewrite (value_call P r f es l F). Qed.
Ltac pa := eapply panics; [vals|].
Lemma typeb_false : forall t z, ~ of_type t z -> of_typeb t z = false.
Proof. intros t z N. destruct (of_typeb t z) eqn:E; [|reflexivity]. apply typeb in E. contradiction. Qed.
Lemma failure : forall P r f ms es, fails P f ms -> Forall2 (is_value P r) es ms -> value_in P r (Call f es) = Panic.
Proof.
  intros P r f ms es Y F. destruct Y.
  - args. pa. apply (proj1 (proj2 (long_shift_calls P t v k H ltac:(assumption) H0) H1)).
  - args. pa. apply (proj2 (proj2 (long_shift_calls P t v k H ltac:(assumption) H0) H1)).
  - args. pa. exact (proj2 (proj1 (ProofProg4.sums_exact P a b ltac:(assumption) ltac:(assumption))) H).
  - args. pa. exact (proj2 (proj1 (proj2 (ProofProg4.sums_exact P a b ltac:(assumption) ltac:(assumption)))) H).
  - args. pa. exact (proj2 (proj1 (proj2 (proj2 (ProofProg4.sums_exact P a b (time_of t a H ltac:(assumption)) (time_of t b H ltac:(assumption))))) t H) H0).
  - args. pa. exact (proj2 (proj1 (proj2 (proj2 (proj2 (ProofProg4.sums_exact P a b (time_of t a ltac:(cbn in *; tauto) ltac:(assumption)) ltac:(assumption)))) t H)) H0).
  - args. pa. exact (proj2 (proj2 (proj2 (proj2 (proj2 (ProofProg4.sums_exact P a b (time_of t a ltac:(cbn in *; tauto) ltac:(assumption)) ltac:(assumption)))) t H)) H0).
  - args. pa. destruct (of_typeb S_LINT z) eqn:L.
    + apply typeb in L. rewrite (proj1 (scale_values P t a z ltac:(assumption) ltac:(assumption) ltac:(assumption) L)), typeb_false by tauto. reflexivity.
    + exact (proj1 (scale_huge P t a z ltac:(assumption) ltac:(assumption) ltac:(intros I; apply typeb in I; rewrite I in L; discriminate L))).
  - args. pa. destruct (of_typeb S_LINT z) eqn:L.
    + apply typeb in L. rewrite (proj2 (scale_values P t a z ltac:(assumption) ltac:(assumption) ltac:(assumption) L)).
      destruct (Z.eqb_spec z 0); [reflexivity|]. rewrite typeb_false by tauto. reflexivity.
    + exact (proj2 (scale_huge P t a z ltac:(assumption) ltac:(assumption) ltac:(intros I; apply typeb in I; rewrite I in L; discriminate L))).
  - args. pa. apply date_fails; assumption.
  - args. pa. rewrite (proj2 (part_values P n ltac:(assumption))), (typeb_false _ _ H). reflexivity.
  - args. pa. exact (proj2 (left_gives P k d s n ltac:(assumption) H) H0).
  - args. pa. exact (proj2 (right_gives P k d s n ltac:(assumption) H) H0).
  - args. pa. exact (proj2 (mid_gives P k d s l p ltac:(assumption) H ltac:(assumption) ltac:(assumption)) H0).
  - args. pa. exact (proj2 (delete_gives P k d s l p ltac:(assumption) H ltac:(assumption) ltac:(assumption) H0) H1).
  - args. pa. eapply parse_fails; eassumption.
  - args. pa. eapply insert_fails; eassumption.
  - args. pa. eapply replace_fails; eassumption.
  - args. pa. exact (proj2 (delete_back P k d s l p ltac:(assumption) ltac:(assumption) ltac:(assumption) H H0) H1).
  - args. pa. exact (proj2 (replace_back P k _ _ s t l p ltac:(eassumption) ltac:(eassumption) ltac:(assumption) ltac:(assumption) H H0) H1).
  - args. pa. eapply parse_wide_fails; eassumption.
  - args. pa. exact (proj2 (times_added P f t a b H ltac:(assumption) ltac:(assumption)) H0).
  - args. pa. exact (proj2 (times_subtracted P f t a b H ltac:(assumption) ltac:(assumption)) H0).
  - args. pa. exact (proj2 (later_named P f t u a b H) H0).
  - args. pa. exact (proj2 (earlier_named P f t u a b H) H0).
  - args. pa. exact (proj2 (difference_named P f t u a b H ltac:(assumption) ltac:(assumption)) H0).
  - args. pa. exact (proj2 (multiplied P f u t a z H H0 ltac:(assumption)) H1).
  - args. pa. exact (proj2 (divided P f u t a z H H0 ltac:(assumption) ltac:(assumption)) H1).
  - args. pa. exact (proj2 (date_part_is P f t n H ltac:(assumption)) H0).
  - args. pa. exact (proj2 (clock_is P f u t h mi s ms H H0 ltac:(assumption) ltac:(assumption) ltac:(assumption) ltac:(assumption)) H1).
  - args. pa. exact (proj2 (join_is P f u a b H) H0).
  - apply all_whole in F. destruct F as [F T]. eapply panics; [exact F|]. exact (proj2 (stamp_is P f u t y m d h mi s ms H H0 T) H1).
  - args. match goal with N : number P r S_LREAL ?e q |- _ => destruct N as (v & E & V & W & Q) end. pa. apply print_lreal_fails; [exact V|exact W|]. rewrite Q. exact H.
  - args. pa. eapply parse_real_fails; [exact H| |exact H0|exact H1]. apply (ProofString2.holds_reads STRING). assumption.
  - args. pa. match goal with D : holds WSTRING ?w s |- _ => destruct (parse_wide_real P t w s H D H0) as (d' & D' & C') end.
    refine (eq_trans C' _). eapply parse_real_fails; [exact H| |exact H1|exact H2]. exact (ProofString2.holds_reads STRING _ s D').
  - args. match goal with N : number P r t ?e q |- _ => destruct N as (v & E & VV & W & Q) end. pa. subst q. exact (proj1 (scaled_away P f u t a v ltac:(assumption) ltac:(assumption) VV W) H H0).
  - args. match goal with N : number P r t ?e q |- _ => destruct N as (v & E & VV & W & Q) end. pa. subst q. exact (proj1 (proj2 (scaled_away P f u t a v ltac:(assumption) ltac:(assumption) VV W)) H H0 H1).
  - args. match goal with N : number P r t ?e _ |- _ => destruct N as (v & E & VV & W & Q) end. pa. exact (proj2 (proj2 (scaled_away P f u t a v ltac:(assumption) ltac:(assumption) VV W)) H Q).
Qed.

(** * Expressions of any depth *)
Section Induction.
Variables (P : platform) (r : env value) (Q : expr -> meaning -> Prop).
Hypothesis Var : forall x tv m, get x r = Ok tv -> stands_for tv m -> Q (Arg x) m.
Hypothesis Node : forall f es ms m, Forall2 Q es ms -> yields P f ms m -> Q (Call f es) m.
Fixpoint means_all (e : expr) (m : meaning) (H : means P r e m) {struct H} : Q e m :=
  match H with
  | means_variable _ _ x tv m G H => Var x tv m G H
  | means_call _ _ f es ms m F Y => Node f es ms m ((fix go es ms (F : Forall2 (means P r) es ms) {struct F} : Forall2 Q es ms :=
      match F with Forall2_nil _ => Forall2_nil Q | Forall2_cons _ _ A B => Forall2_cons _ _ (means_all _ _ A) (go _ _ B) end) es ms F) Y
  end.
End Induction.
Lemma meaning_value : forall P r e m, means P r e m -> is_value P r e m.
Proof.
  intros P r e m H. apply (means_all P r (is_value P r)) with (3 := H).
  - intros x tv m' G S. exists tv. split; [now apply value_arg|exact S].
  - intros f es ms m' F Y. exact (rule P r f ms m' es Y F).
Qed.
Lemma meanings_values : forall P r es ms, Forall2 (means P r) es ms -> Forall2 (is_value P r) es ms.
Proof. intros P r es ms F. induction F; constructor; [now apply meaning_value|assumption]. Qed.
Lemma panic_inside : forall P r f es l e es', Forall2 (fun e tv => value_in P r e = Ok tv) es l -> value_in P r e = Panic -> value_in P r (Call f (es ++ e :: es')) = Panic.
Proof.
  Local Transparent value_in.
  intros P r f es l e es' F H. unfold value_in. cbn [value_of].
  match goal with |- omap fst (obind (?go (es ++ e :: es')) ?c) = _ => assert (E : go (es ++ e :: es') = Panic) end.
  { induction F as [|a tv es l A F IH].
    - cbn [app]. unfold value_in in H. destruct (value_of (api P) r e) as [[tv r']| |]; [discriminate|reflexivity|discriminate].
    - cbn [app]. rewrite IH. unfold value_in in A. destruct (value_of (api P) r a) as [[tv' r']| |]; [reflexivity|discriminate..]. }
  rewrite E. reflexivity.
Qed.
Local Opaque value_in.
Lemma aborts_panic : forall P r e, aborts P r e -> value_in P r e = Panic.
Proof.
  intros P r e H. induction H as [f es ms F Y|f es ms e es' F A IH].
  - exact (failure P r f ms es Y (meanings_values P r es ms F)).
  - apply meanings_values in F. assert (exists l, Forall2 (fun e tv => value_in P r e = Ok tv) es l) as [l G].
    { clear -F. induction F as [|? ? ? ? (tv & E & _) F (l & IH)]; [exists []; constructor|exists (tv :: l); constructor; assumption]. }
    exact (panic_inside P r f es l e es' G IH).
Qed.
Lemma string_type_inj : forall k k', string_type k = string_type k' -> k = k'.
Proof. intros [] []; [reflexivity|discriminate|discriminate|reflexivity]. Qed.
Lemma stands_unique : forall tv m m', stands_for tv m -> stands_for tv m' -> m = m'.
Proof.
  intros tv [t z|k s|t q] [t' z'|k' s'|t' q']; cbn [stands_for].
  - intros [-> _] [E _]. now injection E as -> ->.
  - intros [-> _] (d & E & _). discriminate.
  - intros [-> _] (v & E & _). discriminate.
  - intros (d & -> & _) [E _]. discriminate.
  - intros (d & -> & H) (d' & E & H'). injection E as E <-. apply string_type_inj in E. subst k'. f_equal.
    apply (units_eq_iff k); [exact (proj1 H)|exact (proj1 H')|]. apply ProofString2.holds_reads in H, H'. exact (reads_fun d _ _ H H').
  - intros (d & -> & _) (v & E & _). discriminate.
  - intros (v & -> & _) [E _]. discriminate.
  - intros (v & -> & _) (d & E & _). discriminate.
  - intros (v & -> & _ & _ & _ & <-) (v' & E & _ & _ & _ & <-). injection E as -> ->. reflexivity.
Qed.
Lemma meaning_unique : forall P r e m m', means P r e m -> means P r e m' -> m = m'.
Proof.
  intros P r e m m' A B. apply meaning_value in A, B. destruct A as (tv & E & S), B as (tv' & E' & S'). rewrite E in E'. injection E' as <-.
  exact (stands_unique tv m m' S S').
Qed.
Lemma means_or_aborts : forall P r e m, means P r e m -> aborts P r e -> False.
Proof. intros P r e m A B. apply meaning_value in A. apply aborts_panic in B. destruct A as (tv & E & _). rewrite E in B. discriminate. Qed.
