(** C119: nested expressions mean what their parts mean. *)
From Coq Require Import String ZArith List Reals Lra Lia SpecFloat.
From Flocq Require Import Core BinarySingleNaN.
From Verif Require Import Base ModelFloat ModelScalar ModelText ModelString ModelExtra ModelChrono ModelLink ModelLib ModelApi SpecScalar SpecReal SpecText SpecExtra SpecDate
  SpecLib SpecConv SpecCall SpecExpr SpecNum SpecTerm ProofTermR ProofNum ProofTerm3 ProofTerm4.
Import ListNotations.
Open Scope string_scope.
Open Scope list_scope.
Open Scope Z_scope.
Local Opaque call value_in api.

(** An expression that means something, by the reference of the functions in SpecTerm.v, has that value:
    on every platform, for every content of the variables, whatever the depth of nesting. *)
Theorem C119_value : forall P r e m, means P r e m -> exists tv, value_in P r e = Ok tv /\ stands_for tv m.
Proof. exact meaning_value. Qed.
Print Assumptions C119_value.
(** An expression with a call that the reference says to abort, aborts. *)
Theorem C119_aborts : forall P r e, aborts P r e -> value_in P r e = Panic.
Proof. exact aborts_panic. Qed.
Print Assumptions C119_aborts.
(** Expressions are not ambiguous. *)
Theorem C119_unique : forall P r e m, means P r e m -> (forall m', means P r e m' -> m = m') /\ ~ aborts P r e.
Proof. intros P r e m M. split; [intros m'; exact (meaning_unique P r e m m' M)|intros A; exact (means_or_aborts P r e m M A)]. Qed.
Print Assumptions C119_unique.
(** The number nearest to a real is one number. *)
Theorem C119_rounding_unique : forall t q p p', List.In t reals -> rounds_to t q p -> rounds_to t q p' -> p = p'.
Proof. intros t q p p' T (v & N & <-) (w & M & <-). exact (nearest_unique (fmt_of t) (real_fmt t T) v w q N M). Qed.
Print Assumptions C119_rounding_unique.
(** With integers, bit strings, times and dates the reference is complete: the value of a correctly typed
    expression is its meaning, it aborts exactly if the reference says so, and nothing else happens. *)
Theorem C119_complete : forall P r e t, typed r e t ->
  (forall z, value_in P r e = Ok (t, VZ z) <-> means P r e (Whole t z)) /\ (value_in P r e = Panic <-> aborts P r e) /\
  ((exists z, value_in P r e = Ok (t, VZ z) /\ of_type t z) \/ value_in P r e = Panic).
Proof. intros P r e t T. destruct (typed_iff P r e t T) as [A B]. exact (conj A (conj B (typed_value P r e t T))). Qed.
Print Assumptions C119_complete.

(** Cases. *)
Definition env1 : env value := [("a", (S_STRING, VS (str "total: " ++ [0])%list)); ("b", (S_STRING, VS (str "eight..." ++ [0])%list)); ("n", (S_DINT, VZ (-45)));
  ("w", (S_WORD, VZ 0x8001)); ("k", (S_UDINT, VZ 20)); ("x", (S_LREAL, VF (FNum (S754_finite true 7881299347898368 (-50)))))].
(* LEFT(CONCAT(a, DINT_TO_STRING(n)), LEN(b)) *)
Definition e1 : expr := Call "LEFT" [Call "CONCAT" [Arg "a"; Call "DINT_TO_STRING" [Arg "n"]]; Call "LEN" [Arg "b"]].
(* ROL(w, LREAL_TO_UDINT(ABS(x))) *)
Definition e2 : expr := Call "ROL" [Arg "w"; Call "LREAL_TO_UDINT" [Call "ABS" [Arg "x"]]].
(* WORD_TO_BYTE(SHL(w, k)) *)
Definition e3 : expr := Call "WORD_TO_BYTE" [Call "SHL" [Arg "w"; Arg "k"]].

Lemma text_ok : forall s d, forallb (fun c => (1 <=? c) && (c <? 128))%bool s = true -> d = s ++ [0] -> stands_for (S_STRING, VS d) (Text STRING s).
Proof.
  intros s d H ->. exists (s ++ [0]). split; [reflexivity|]. assert (F : Forall (fun c => 1 <= c < 128) s).
  { apply Forall_forall. intros c C. rewrite forallb_forall in H. specialize (H c C). lia. }
  split; [revert F; apply Forall_impl; intros c C; unfold is_scalar; lia|]. exists []. f_equal.
  clear H. induction F as [|c s C F IH]; [reflexivity|]. cbn [units flat_map] in *. unfold units in IH. rewrite <- IH at 1.
  unfold utf8_char at 1. assert (c <? 0x80 = true) as -> by lia. reflexivity.
Qed.
Ltac variable := eapply means_variable; [reflexivity|].
Example C119_value_case : forall P, means P env1 e1 (Text STRING (str "total: -")).
Proof.
  intros P. apply (means_call P env1 "LEFT" _ [Text STRING (str "total: -45"); Whole S_DINT 8]).
  2: { change (str "total: -") with (firstn (Z.to_nat 8) (str "total: -45")). apply y_left; [unfold short; cbn; lia|cbn; lia]. }
  constructor; [|constructor; [|constructor]].
  - apply (means_call P env1 "CONCAT" _ (map (Text STRING) [str "total: "; str "-45"])).
    2: { change (str "total: -45") with (List.concat [str "total: "; str "-45"]). apply y_concat; [discriminate|unfold short; cbn; lia]. }
    constructor; [|constructor; [|constructor]]; [variable; apply text_ok; reflexivity|].
    apply (means_call P env1 "DINT_TO_STRING" _ [Whole S_DINT (-45)]).
    + constructor; [|constructor]. variable. split; [reflexivity|unfold of_type; cbn; lia].
    + apply (y_print P S_DINT (-45) (str "-45") STRING); [cbn; tauto|]. right. split; [lia|]. exists (str "45"). split; [reflexivity|].
      split; [split; [discriminate|]|intros r E; discriminate E].
      change (str "45") with (([] ++ [52]) ++ [53]). change (- -45) with ((0 * 10 + 4) * 10 + 5).
      repeat (apply digits_snoc; [|unfold digit_of; lia]). apply digits_nil.
  - apply (means_call P env1 "LEN" _ [Text STRING (str "eight...")]).
    + constructor; [|constructor]. variable. apply text_ok; reflexivity.
    + exact (y_len P STRING (str "eight...") ltac:(reflexivity)).
Qed.

(** Its value, computed: the text is "total: -". *)
Example C119_value_computed : forall P, exists d, value_in P env1 e1 = Ok (S_STRING, VS d) /\ holds STRING d (str "total: -").
Proof.
  intros P. destruct (C119_value P env1 e1 _ (C119_value_case P)) as (tv & E & d & -> & H). exists d. exact (conj E H).
Qed.
Example C119_real_case : forall P, means P env1 e2 (Whole S_WORD 0x00C0).
Proof.
  intros P. apply (means_call P env1 "ROL" _ [Whole S_WORD 0x8001; Whole S_UDINT 7]).
  2: { apply y_rol; [cbn; tauto|unfold of_type; cbn; lia|]. intros i I.
       assert (C : forallb (fun i => Bool.eqb (Z.testbit 0x00C0 ((i + 7) mod 16)) (Z.testbit 0x8001 i)) (map Z.of_nat (seq 0 16)) = true) by reflexivity.
       rewrite forallb_forall in C. apply Bool.eqb_prop. apply (C i). apply in_map_iff. exists (Z.to_nat i). cbn in I. split; [lia|apply in_seq; lia]. }
  constructor; [variable; split; [reflexivity|unfold of_type; cbn; lia]|]. constructor; [|constructor].
  apply (means_call P env1 "LREAL_TO_UDINT" _ [Real S_LREAL (Rabs (-7))]).
  2: { apply (y_to_integer P S_LREAL S_UDINT (Rabs (-7)) 7); [cbn; tauto| |unfold of_type; cbn; lia].
       rewrite Rabs_left by lra. replace (- -7)%R with (IZR 7) by lra. apply ProofReal.nearest_int_self. }
  constructor; [|constructor]. apply (means_call P env1 "ABS" _ [Real S_LREAL (-7)]).
  2: exact (y_abs P S_LREAL (-7)).
  constructor; [|constructor]. variable. eexists. split; [reflexivity|]. split; [cbn; tauto|]. split; [vm_compute; reflexivity|]. split; [reflexivity|].
  cbn. unfold F2R. cbn. lra.
Qed.
(** The variables of this case hold a word and a shift that is too long: debug builds abort, release builds
    shift by 4. *)
Example C119_typed_case : typed env1 e3 S_BYTE.
Proof.
  apply (typed_call env1 _ _ [S_WORD]); [|apply (takes_convert S_WORD S_BYTE); [cbn; tauto|cbn; tauto|discriminate]]. constructor; [|constructor].
  apply (typed_call env1 _ _ [S_WORD; S_UDINT]); [|apply takes_bits; cbn; tauto].
  constructor; [apply (typed_variable env1 "w" S_WORD 0x8001); split; [reflexivity|unfold of_type; cbn; lia]|].
  constructor; [apply (typed_variable env1 "k" S_UDINT 20); split; [reflexivity|unfold of_type; cbn; lia]|constructor].
Qed.
Example C119_abort_case : forall P, p_profile P = Debug -> aborts P env1 e3.
Proof.
  intros P D. apply (aborts_inside P env1 "WORD_TO_BYTE" [] [] _ []); [constructor|].
  apply (aborts_here P env1 "SHL" _ [Whole S_WORD 0x8001; Whole S_UDINT 20]); [|apply f_shl; [cbn; tauto|cbn; lia|exact D]].
  constructor; [variable; split; [reflexivity|unfold of_type; cbn; lia]|]. constructor; [variable; split; [reflexivity|unfold of_type; cbn; lia]|constructor].
Qed.
Example C119_release_case : forall P, p_profile P = Release -> means P env1 e3 (Whole S_BYTE 0x10).
Proof.
  intros P R. apply (means_call P env1 "WORD_TO_BYTE" _ [Whole S_WORD (0x8001 * 2 ^ (20 mod 16) mod values S_WORD)]).
  2: { apply (y_convert P S_WORD S_BYTE); [cbn; tauto|cbn; tauto|discriminate|unfold of_type; cbn; lia|reflexivity]. }
  constructor; [|constructor]. apply (means_call P env1 "SHL" _ [Whole S_WORD 0x8001; Whole S_UDINT 20]); [|apply y_shl_long; [cbn; tauto|cbn; lia|exact R]].
  constructor; [variable; split; [reflexivity|unfold of_type; cbn; lia]|]. constructor; [variable; split; [reflexivity|unfold of_type; cbn; lia]|constructor].
Qed.
(** LINT_TO_BOOL(ABS(TIME_TO_LINT(SUB_DT_DT(q, ADD_DT_TIME(CONCAT_DT(y, m, d, h, n, s, ms), LINT_TO_TIME(l)))))): the last
    millisecond of 29 February 2024 and another millisecond, and a moment 5 ns before that. *)
Definition env2 : env value := [("y", (S_DINT, VZ 2024)); ("m", (S_DINT, VZ 2)); ("d", (S_DINT, VZ 29)); ("h", (S_DINT, VZ 23)); ("n", (S_DINT, VZ 59)); ("s", (S_DINT, VZ 59));
  ("ms", (S_DINT, VZ 999)); ("l", (S_LINT, VZ 1000000)); ("q", (S_DT, VZ (19783 * DAY - 5)))].
Definition e4 : expr := Call "ADD_DT_TIME" [Call "CONCAT_DT" (map Arg ["y"; "m"; "d"; "h"; "n"; "s"; "ms"]); Call "LINT_TO_TIME" [Arg "l"]].
Definition e5 : expr := Call "LINT_TO_BOOL" [Call "ABS" [Call "TIME_TO_LINT" [Call "SUB_DT_DT" [Arg "q"; e4]]]].
Ltac holds_whole := variable; split; [reflexivity|unfold of_type; cbn; lia].
Lemma leap_day : day_number (2024, 2, 29) 19782.
Proof. apply ProofDate.day_number_iff. split; [unfold valid_date; cbn; lia|vm_compute; reflexivity]. Qed.
Example C119_time_case : forall P, means P env2 e4 (Whole S_DT (19783 * DAY)).
Proof.
  intros P. change (19783 * DAY) with (joined (19782 * DAY) (clock_ns 23 59 59 999) + 1000000).
  apply (means_call P env2 _ _ [Whole S_DT (joined (19782 * DAY) (clock_ns 23 59 59 999)); Whole S_TIME 1000000]).
  - constructor; [|constructor; [|constructor]].
    + apply (means_call P env2 "CONCAT_DT" _ (map (Whole S_DINT) [2024; 2; 29; 23; 59; 59; 999])).
      * repeat (constructor; [holds_whole|]). constructor.
      * apply y_stamp; [cbn; tauto|cbn; tauto|exact leap_day|unfold of_type; cbn; lia|unfold accepted_clock, accepts_millis; lia|].
        unfold representable. split; [unfold in_ity; cbn; lia|intros _; vm_compute; discriminate].
    + apply (means_call P env2 "LINT_TO_TIME" _ [Whole S_LINT 1000000]); [constructor; [holds_whole|constructor]|].
      apply (y_recast P S_LINT S_TIME S_TIME 1000000 1000000); [cbn; tauto|unfold of_type; cbn; lia|reflexivity].
  - apply y_add_named with (u := S_TIME); [cbn; tauto|]. unfold representable. split; [unfold in_ity; cbn; lia|intros _; vm_compute; discriminate].
Qed.
Example C119_difference_case : forall P, means P env2 e5 (Whole S_BOOL 1).
Proof.
  intros P. apply (means_call P env2 _ _ [Whole S_LINT 5]); [|apply (y_number_bool P S_LINT); [cbn; tauto|left; split; [reflexivity|lia]]].
  constructor; [|constructor]. apply (means_call P env2 _ _ [Whole S_LINT (-5)]); [|apply (y_abs_whole P S_LINT (-5)); [cbn; tauto|unfold of_type; cbn; lia]].
  constructor; [|constructor]. apply (means_call P env2 _ _ [Whole S_TIME (-5)]); [|apply (y_recast P S_TIME S_LINT S_LINT); [cbn; tauto|unfold of_type; cbn; lia|reflexivity]].
  constructor; [|constructor]. apply (means_call P env2 _ _ [Whole S_DT (19783 * DAY - 5); Whole S_DT (19783 * DAY)]).
  - constructor; [holds_whole|]. constructor; [apply C119_time_case|constructor].
  - change (-5) with (19783 * DAY - 5 - 19783 * DAY). apply (y_difference P "SUB_DT_DT" S_DT S_TIME); [cbn; tauto|unfold of_type; cbn; lia].
Qed.
Example C119_difference_typed : typed env2 e5 S_BOOL.
Proof.
  apply (typed_call env2 _ _ [S_LINT]); [|apply (takes_number_bool S_LINT); cbn; tauto]. constructor; [|constructor].
  apply (typed_call env2 _ _ [S_LINT]); [|apply takes_abs; cbn; tauto]. constructor; [|constructor].
  apply (typed_call env2 _ _ [S_TIME]); [|apply (takes_recast S_TIME S_LINT); cbn; tauto]. constructor; [|constructor].
  apply (typed_call env2 _ _ [S_DT; S_DT]); [|apply takes_difference; cbn; tauto].
  assert (V : forall x t z, get x env2 = Ok (t, VZ z) -> of_type t z -> typed env2 (Arg x) t) by (intros x t z G Z; apply (typed_variable env2 x t z); exact (conj G Z)).
  constructor; [apply (V "q" S_DT (19783 * DAY - 5)); [reflexivity|unfold of_type; cbn; lia]|]. constructor; [|constructor].
  apply (typed_call env2 _ _ [S_DT; S_TIME]); [|apply takes_named; cbn; tauto]. constructor; [|constructor; [|constructor]].
  - apply (typed_call env2 _ _ (repeat S_DINT 7)); [|apply takes_stamp; cbn; tauto]. cbn [map repeat].
    repeat (constructor; [eapply V; [reflexivity|unfold of_type; cbn; lia]|]). constructor.
  - apply (typed_call env2 _ _ [S_LINT]); [|apply (takes_recast S_LINT S_TIME); cbn; tauto]. constructor; [|constructor].
    eapply V; [reflexivity|unfold of_type; cbn; lia].
Qed.
(** LREAL_TO_WSTRING(SQRT(STRING_TO_LREAL(t))) with the text 6.25, and WCHAR_TO_CHAR(WSTRING_TO_WCHAR(w)) with a text that
    begins with a letter outside ASCII. *)
Definition env3 : env value := [("t", (S_STRING, VS (str "6.25" ++ [0])%list)); ("w", (S_WSTRING, VS [233; 116; 233; 0]))].
Definition e6 : expr := Call "LREAL_TO_WSTRING" [Call "SQRT" [Call "STRING_TO_LREAL" [Arg "t"]]].
Definition e7 : expr := Call "WCHAR_TO_CHAR" [Call "WSTRING_TO_WCHAR" [Arg "w"]].
Lemma exactly : forall v q, fl_valid F64 v -> fl_finite v = true -> fl_value v = q -> rounds_to S_LREAL q q.
Proof.
  intros v q V F <-. exists v. split; [|reflexivity]. split; [exact V|]. split; [exact F|]. intros y _ _. rewrite Rminus_diag_eq, Rabs_R0 by reflexivity.
  split; [apply Rabs_pos|]. intros N E. exfalso. apply N. symmetry in E. destruct (Req_dec (fl_value y - fl_value v) 0) as [Z|Z]; [lra|].
  apply Rabs_pos_lt in Z. lra.
Qed.
Lemma five_halves : fl_valid F64 (FNum (S754_finite false 5629499534213120 (-51))) /\ fl_value (FNum (S754_finite false 5629499534213120 (-51))) = (5 / 2)%R.
Proof. split; [vm_compute; reflexivity|]. unfold fl_value, sf_value, fl_sf, SF2R, F2R. cbn. lra. Qed.
Lemma quarters : fl_valid F64 (FNum (S754_finite false 7036874417766400 (-50))) /\ fl_value (FNum (S754_finite false 7036874417766400 (-50))) = (25 / 4)%R.
Proof. split; [vm_compute; reflexivity|]. unfold fl_value, sf_value, fl_sf, SF2R, F2R. cbn. lra. Qed.
Example C119_real_text_case : forall P, means P env3 e6 (Text WSTRING (str "2.500000")).
Proof.
  intros P. apply (means_call P env3 _ _ [Real S_LREAL (5 / 2)]).
  2: { apply (y_print_real P S_LREAL (5 / 2) _ WSTRING); [intros _; apply Rlt_trans with 0%R; [apply IZR_lt; reflexivity|lra]|]. split; [lra|].
    exists (FNum (S754_finite false 5629499534213120 (-51))). split; [exact (proj2 five_halves)|]. split; [split; [discriminate|lra]|]. split.
    - intros _. exists (str "2"), (str "500000"), 2, 500000. split; [reflexivity|]. split; [|split].
      + split; [split; [discriminate|]|intros r E; now injection E]. change (str "2") with ([] ++ [50]). change 2 with (0 * 10 + 2).
        apply digits_snoc; [apply digits_nil|unfold digit_of; lia].
      + split; [reflexivity|]. change (str "500000") with (((((([] ++ [53]) ++ [48]) ++ [48]) ++ [48]) ++ [48]) ++ [48]).
        change 500000 with ((((((0 * 10 + 5) * 10 + 0) * 10 + 0) * 10 + 0) * 10 + 0) * 10 + 0).
        repeat (apply digits_snoc; [|unfold digit_of; lia]). apply digits_nil.
      + unfold nearest_int_even. rewrite (proj2 five_halves). rewrite (Rabs_pos_eq (5 / 2)) by lra. change (2 * 1000000 + 500000) with 2500000.
        replace (IZR 2500000 - 5 / 2 * 1000000)%R with 0%R by lra. rewrite Rabs_R0. split; [lra|intros E; lra].
    - intros B. exfalso. assert (IZR 3 <= IZR (10 ^ 14))%R by (apply IZR_le; discriminate). lra. }
  constructor; [|constructor]. apply (means_call P env3 _ _ [Real S_LREAL (25 / 4)]).
  2: { apply (y_sqrt P S_LREAL); [lra|]. replace (sqrt (25 / 4)) with (5 / 2)%R; [exact (exactly _ _ (proj1 five_halves) eq_refl (proj2 five_halves))|].
    replace (25 / 4)%R with (5 / 2 * (5 / 2))%R by lra. symmetry. apply sqrt_square. lra. }
  constructor; [|constructor]. apply (means_call P env3 _ _ [Text STRING (str "6.25")]).
  - constructor; [|constructor]. variable. apply text_ok; reflexivity.
  - assert (V : number_value false 625 (-2) = (25 / 4)%R) by (unfold number_value, powerRZ; change (Pos.to_nat 2) with 2%nat; cbn [pow]; field).
    apply (y_parse_real P S_LREAL (str "6.25") false 625 (-2)); [cbn; tauto| | |rewrite V; exact (exactly _ _ (proj1 quarters) eq_refl (proj2 quarters))].
    + exists [], (str "6"), (str "."), (str "25"), [], 0. split; [reflexivity|]. split; [left; cbn; tauto|]. split; [left; reflexivity|].
      split; [|split; [left; split; reflexivity|reflexivity]]. split; [discriminate|]. change (str "6" ++ str "25") with ((([] ++ [54]) ++ [50]) ++ [53]).
      change 625 with (((0 * 10 + 6) * 10 + 2) * 10 + 5). repeat (apply digits_snoc; [|unfold digit_of; lia]). apply digits_nil.
    + rewrite V, Rabs_pos_eq by lra. unfold max_plus_half. apply Rlt_le_trans with (IZR (2 ^ 50)); [assert (7 <= IZR (2 ^ 50))%R by (apply IZR_le; discriminate); lra|].
      assert (1 <= bpow radix2 (f_emax (fmt_of S_LREAL) - f_prec (fmt_of S_LREAL)))%R by (apply (bpow_le radix2 0); discriminate).
      assert (IZR (2 ^ 50) <= IZR (2 ^ f_prec (fmt_of S_LREAL)) - / 2)%R by (change (f_prec (fmt_of S_LREAL)) with 53; assert (IZR (2 ^ 50) + 1 <= IZR (2 ^ 53))%R by (rewrite <- plus_IZR; apply IZR_le; discriminate); lra).
      assert (0 < IZR (2 ^ 50))%R by (apply IZR_lt; reflexivity). nra.
Qed.
Example C119_character_case : forall P, means P env3 e7 (Whole S_CHAR 0xC3).
Proof.
  intros P. apply (means_call P env3 _ _ [Whole S_WCHAR 233]); [|exact (y_narrow_char P 233)]. constructor; [|constructor].
  apply (means_call P env3 _ _ [Text WSTRING [233; 116; 233]]); [|exact (y_first_wide P [233; 116; 233])]. constructor; [|constructor].
  variable. exists [233; 116; 233; 0]. split; [reflexivity|]. split; [repeat constructor; unfold is_scalar; lia|]. now exists [].
Qed.
(** DIV(MUL(d, k), k) with d = 1.5 s and k = 2.5: 3.75 s in between; DIV(d, z) with z = -0.0. *)
Definition env4 : env value := [("d", (S_TIME, VZ 1500000000)); ("k", (S_LREAL, VF (FNum (S754_finite false 5629499534213120 (-51))))); ("z", (S_REAL, VF (FNum (S754_zero true))))].
Example C119_scaled_case : forall P, means P env4 (Call "DIV" [Call "MUL" [Arg "d"; Arg "k"]; Arg "k"]) (Whole S_TIME 1500000000) /\
  aborts P env4 (Call "DIV" [Arg "d"; Arg "z"]).
Proof.
  intros P.
  assert (D : means P env4 (Arg "d") (Whole S_TIME 1500000000)) by (variable; split; [reflexivity|unfold of_type; cbn; lia]).
  assert (K : means P env4 (Arg "k") (Real S_LREAL (5 / 2))).
  { variable. eexists. split; [reflexivity|]. split; [cbn; tauto|]. split; [exact (proj1 five_halves)|]. split; [reflexivity|exact (proj2 five_halves)]. }
  split.
  - apply (means_call P env4 _ _ [Whole S_TIME 3750000000; Real S_LREAL (5 / 2)]).
    + constructor; [|constructor; [exact K|constructor]]. apply (means_call P env4 _ _ [Whole S_TIME 1500000000; Real S_LREAL (5 / 2)]); [constructor; [exact D|constructor; [exact K|constructor]]|].
      apply y_mul_real; [left; reflexivity| |lra|unfold of_type; cbn; lia].
      split; [exists 768; split; [reflexivity|discriminate]|]. split; [discriminate|]. split; [exists 1920; split; [reflexivity|discriminate]|discriminate].
    + apply y_div_real; [left; reflexivity| |lra|lra|unfold of_type; cbn; lia].
      split; [exists 1920; split; [reflexivity|discriminate]|]. split; [discriminate|]. split; [exists 768; split; [reflexivity|discriminate]|discriminate].
  - apply (aborts_here P env4 _ _ [Whole S_TIME 1500000000; Real S_REAL 0]); [|apply f_div_zero with (u := S_TIME); left; reflexivity].
    constructor; [exact D|]. constructor; [|constructor]. variable. eexists. split; [reflexivity|]. split; [cbn; tauto|]. repeat split.
Qed.
