(** Products and quotients of a TIME and a real number, rounded once, in expressions. *)
From Coq Require Import String Ascii ZArith Lia List Bool SpecFloat Reals Lra.
From Verif Require Import Base ModelFloat ModelTimeNum ModelST ModelLink ModelLib ModelApi SpecScalar SpecTimeNum SpecReal SpecTicks SpecExtra SpecOnce SpecLink SpecConv SpecLib SpecCall SpecExpr SpecNum SpecTerm
  ProofBase ProofTimeNum ProofTicks ProofLib ProofConv ProofName3 ProofApi3 ProofCall ProofCall4 ProofExpr ProofExpr2 ProofNum ProofTermT.
Import ListNotations.
Open Scope string_scope.
Open Scope list_scope.
Open Scope Z_scope.
Local Opaque ModelApi.call api value_in.

Lemma scaled_once : forall P r f u t d e a q b, List.In t reals -> value_in P r d = Ok (u, VZ a) -> of_type u a -> number P r t e q ->
  ticks (fmt_of t) a -> (t = S_REAL -> a mod 125000000 = 0) -> Z.abs b < 2 ^ 63 ->
  (List.In (f, u) real_multipliers -> seconds (fmt_of t) (IZR a * q) ->
     (p_durgen P = DurRound -> nearest_int_even b (IZR a * q) -> value_in P r (Call f [d; e]) = Ok (u, VZ b)) /\
     (p_durgen P = DurTrunc -> integer_part b (IZR a * q) -> value_in P r (Call f [d; e]) = Ok (u, VZ b))) /\
  (List.In (f, u) real_dividers -> q <> 0%R -> seconds (fmt_of t) (IZR a / q) ->
     (p_durgen P = DurRound -> nearest_int_even b (IZR a / q) -> value_in P r (Call f [d; e]) = Ok (u, VZ b)) /\
     (p_durgen P = DurTrunc -> integer_part b (IZR a / q) -> value_in P r (Call f [d; e]) = Ok (u, VZ b))).
Proof.
  intros P r f u t d e a q b T D A (v & E & V & W & <-) K G B.
  assert (C : value_in P r (Call f [d; e]) = call P f [(u, VZ a); (t, VF v)]).
  { apply value_call. constructor; [exact D|]. constructor; [exact E|constructor]. }
  rewrite C. clear C. destruct (scaling_call P f u t a v T) as [M N].
  assert (G' : fmt_of t = F32 -> a mod 125000000 = 0).
  { intros H. apply G. destruct T as [<-|[<-|[]]]; [reflexivity|discriminate H]. }
  pose proof (fun Ia => time_once (fmt_of t) a b v (real_fmt t T) Ia B V W K G') as X. split.
  - intros I S. destruct (X (scaling_typed f u a (or_introl I) A)) as [Y _]. destruct (Y S) as [Y1 Y2]. rewrite (M I).
    split; intros ->; intros R; [rewrite (Y1 R)|rewrite (Y2 R)]; reflexivity.
  - intros I Z S. destruct (X (scaling_typed f u a (or_intror I) A)) as [_ Y]. destruct (Y Z S) as [Y1 Y2]. rewrite (N I).
    split; intros ->; intros R; [rewrite (Y1 R)|rewrite (Y2 R)]; reflexivity.
Qed.
