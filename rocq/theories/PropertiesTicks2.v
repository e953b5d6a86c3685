(** C73 for the expressions of a program: MUL, MUL_TIME, MUL_LTIME, DIV, DIV_TIME, DIV_LTIME of a TIME and a real number,
    rounded once to whole nanoseconds. *)
From Coq Require Import String ZArith List Reals Lra Lia SpecFloat.
From Verif Require Import Base ModelFloat ModelTimeNum ModelST ModelLink ModelLib ModelApi SpecScalar SpecTimeNum SpecReal SpecTicks SpecExtra SpecOnce SpecLink SpecConv SpecLib SpecCall SpecExpr SpecNum SpecTerm
  ProofTicks2.
Import ListNotations.
Open Scope string_scope.
Open Scope list_scope.
Open Scope Z_scope.

Theorem C73_in_expressions : forall P r f u t d e a q b, List.In t reals -> value_in P r d = Ok (u, VZ a) -> of_type u a -> number P r t e q ->
  ticks (fmt_of t) a -> (t = S_REAL -> a mod 125000000 = 0) -> Z.abs b < 2 ^ 63 ->
  (List.In (f, u) real_multipliers -> seconds (fmt_of t) (IZR a * q) ->
     (p_durgen P = DurRound -> nearest_int_even b (IZR a * q) -> value_in P r (Call f [d; e]) = Ok (u, VZ b)) /\
     (p_durgen P = DurTrunc -> integer_part b (IZR a * q) -> value_in P r (Call f [d; e]) = Ok (u, VZ b))) /\
  (List.In (f, u) real_dividers -> q <> 0%R -> seconds (fmt_of t) (IZR a / q) ->
     (p_durgen P = DurRound -> nearest_int_even b (IZR a / q) -> value_in P r (Call f [d; e]) = Ok (u, VZ b)) /\
     (p_durgen P = DurTrunc -> integer_part b (IZR a / q) -> value_in P r (Call f [d; e]) = Ok (u, VZ b))).
Proof. exact scaled_once. Qed.

(** 5/512 s divided by 2.0: 4882812.5 ns. *)
Definition fifths : env value := [("d", (S_LTIME, VZ 9765625)); ("k", (S_LREAL, VF (FNum (S754_finite false 4503599627370496 (-51)))))].
Example C73_in_expressions_case : forall P, p_durgen P = DurRound ->
  value_in P fifths (Call "DIV_LTIME" [Arg "d"; Arg "k"]) = Ok (S_LTIME, VZ 4882812).
Proof.
  intros P R. assert (Q : fl_value (FNum (S754_finite false 4503599627370496 (-51))) = 2%R) by (unfold fl_value, sf_value; cbn; unfold Defs.F2R; cbn; lra).
  refine (proj1 (proj2 (C73_in_expressions P fifths "DIV_LTIME" S_LTIME S_LREAL (Arg "d") (Arg "k") 9765625 2 4882812 _ _ _ _ _ _ _) _ _ _) R _).
  - right. left. reflexivity.
  - reflexivity.
  - unfold of_type. cbn. lia.
  - eexists. split; [reflexivity|]. split; [reflexivity|]. split; [reflexivity|exact Q].
  - exists 5. split; [reflexivity|discriminate].
  - discriminate.
  - reflexivity.
  - cbn. tauto.
  - lra.
  - exists (FNum (S754_finite false 5629499534213120 (-60))). split; [reflexivity|]. split; [reflexivity|]. unfold fl_value, sf_value. cbn. unfold Defs.F2R. cbn. lra.
  - split; [|reflexivity]. rewrite Rabs_left; lra.
Qed.
Print Assumptions C73_in_expressions.
