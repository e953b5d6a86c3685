(** TIME and REAL/LREAL whose product or quotient is rounded once, to whole nanoseconds (continues C73). *)
From Coq Require Import ZArith Reals Lra SpecFloat.
From Verif Require Import Base ModelFloat ModelTimeNum SpecScalar SpecTimeNum SpecReal SpecTicks SpecExtra SpecOnce ProofTicks.
Open Scope R_scope.

(** The result of a multiple of 1/512 s (1/8 s for REAL) that has a place in the format, in seconds, is the nearest
    whole number of nanoseconds, halves going to the even one; the generation [DurTrunc] cuts it off instead. *)
Theorem C73_rounded_once : forall f a b x, binary_format f -> in_ity i64 a -> (Z.abs b < 2 ^ 63)%Z -> fl_valid f x -> fl_finite x = true ->
  ticks f a -> (f = F32 -> a mod 125000000 = 0)%Z ->
  (seconds f (IZR a * fl_value x) ->
     (nearest_int_even b (IZR a * fl_value x) -> MUL_TIME_REAL DurRound f a x = Ok b) /\
     (integer_part b (IZR a * fl_value x) -> MUL_TIME_REAL DurTrunc f a x = Ok b)) /\
  (fl_value x <> 0 -> seconds f (IZR a / fl_value x) ->
     (nearest_int_even b (IZR a / fl_value x) -> DIV_TIME_REAL DurRound f a x = Ok b) /\
     (integer_part b (IZR a / fl_value x) -> DIV_TIME_REAL DurTrunc f a x = Ok b)).
Proof. exact time_once. Qed.
(** 3/512 s times 0.5 is 2929687.5 ns. *)
Example C73_rounded_once_example : let x := FNum (S754_finite false 4503599627370496 (-53)) in
  fl_valid F64 x /\ fl_value x = 1 / 2 /\ ticks F64 (3 * 1953125) /\ seconds F64 (IZR (3 * 1953125) * fl_value x) /\
  nearest_int_even 2929688 (IZR (3 * 1953125) * fl_value x) /\ integer_part 2929687 (IZR (3 * 1953125) * fl_value x).
Proof.
  intros x. assert (E : fl_value x = 1 / 2) by (unfold fl_value, sf_value; cbn; unfold Defs.F2R; cbn; lra).
  split; [reflexivity|]. split; [exact E|]. split; [exists 3%Z; split; [reflexivity|discriminate]|]. rewrite E. split; [|split].
  - exists (FNum (S754_finite false 6755399441055744 (-61))). split; [reflexivity|]. split; [reflexivity|]. unfold fl_value, sf_value. cbn. unfold Defs.F2R. cbn. lra.
  - change (IZR (3 * 1953125)) with 5859375. unfold nearest_int_even. split; [|reflexivity]. rewrite Rabs_pos_eq; lra.
  - change (IZR (3 * 1953125)) with 5859375. unfold integer_part. split; [rewrite !Rabs_pos_eq; lra|]. split; [apply Rabs_def1; lra|lra].
Qed.
Example C73_rounded_once_run : let x := FNum (S754_finite false 4503599627370496 (-53)) in
  MUL_TIME_REAL DurRound F64 (3 * 1953125) x = Ok 2929688%Z /\ MUL_TIME_REAL DurRound F64 1953125 x = Ok 976562%Z /\ MUL_TIME_REAL DurTrunc F64 (3 * 1953125) x = Ok 2929687%Z.
Proof. vm_compute. repeat split. Qed.
Print Assumptions C73_rounded_once.
