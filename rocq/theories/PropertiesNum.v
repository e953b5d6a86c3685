(** Property C116: expressions with REAL and LREAL, nested to any depth.  See SpecNum.v for [number],
    [nearest] and [whole], SpecReal.v for [nearest_int], [integer_part], [roundoff] and [time_error]. *)
From Coq Require Import String Ascii ZArith Lia List Bool SpecFloat Reals Lra.
From Flocq Require Import Core.
From Verif Require Import Base ModelFloat ModelScalar ModelArith ModelTimeNum ModelText ModelString ModelExtra ModelDate ModelChrono ModelST ModelWrap ModelLink ModelLib
  ModelApi SpecScalar SpecReal SpecPow SpecST SpecConv SpecLib SpecName SpecCall SpecExpr SpecNum ProofNum ProofNum2 ProofNum3 ProofNum4.
Import ListNotations.
Open Scope string_scope.
Open Scope list_scope.
Open Scope Z_scope.

(** A variable with a finite value. *)
Theorem C116_variable : forall P r t x v, get x r = Ok (t, VF v) -> fl_valid (fmt_of t) v -> fl_finite v = true ->
  number P r t (Arg x) (fl_value v).
Proof. exact number_var. Qed.
Print Assumptions C116_variable.
(** ABS is the absolute value. *)
Theorem C116_abs : forall P r t e q, List.In t reals -> number P r t e q -> number P r t (Call "ABS" [e]) (Rabs q).
Proof. exact abs_number. Qed.
Print Assumptions C116_abs.
(** ROUND gives the nearest integer (half-way cases away from zero), is idempotent, and is what the
    conversion to LINT does. *)
Theorem C116_round : forall P r t e q, List.In t reals -> number P r t e q ->
  exists k, nearest_int k q /\ number P r t (Call "ROUND" [e]) (IZR k) /\ number P r t (Call "ROUND" [Call "ROUND" [e]]) (IZR k) /\
    (of_type S_LINT k -> whole P r S_LINT (Call "TRUNC" [Call "ROUND" [e]]) k /\ whole P r S_LINT (Call (conversion_name t S_LINT) [e]) k).
Proof. exact round_round. Qed.
Print Assumptions C116_round.
(** TRUNC gives the integer part, if LINT has it. *)
Theorem C116_trunc : forall P r t e q, List.In t reals -> number P r t e q ->
  exists k, integer_part k q /\ (of_type S_LINT k -> whole P r S_LINT (Call "TRUNC" [e]) k) /\ (~ of_type S_LINT k -> value_in P r (Call "TRUNC" [e]) = Ub).
Proof. exact trunc_whole. Qed.
Print Assumptions C116_trunc.

(** * Conversions *)
(** Conversions to integers round. *)
Theorem C116_to_integer : forall P r t a e q, List.In t reals -> List.In a integers -> number P r t e q ->
  exists k, nearest_int k q /\ (of_type a k -> whole P r a (Call (conversion_name t a) [e]) k) /\
    (~ of_type a k -> value_in P r (Call (conversion_name t a) [e]) = Ub).
Proof. exact to_whole. Qed.
Print Assumptions C116_to_integer.
(** Conversions of integers give the nearest number, and the integer itself if it has at most 24 (53) bits. *)
Theorem C116_of_integer : forall P r t a e z, List.In t reals -> List.In a integers -> whole P r a e z ->
  nearest P r t (Call (conversion_name a t) [e]) (IZR z) /\
  (Z.abs z <= 2 ^ f_prec (fmt_of t) -> number P r t (Call (conversion_name a t) [e]) (IZR z)).
Proof. exact of_whole. Qed.
Print Assumptions C116_of_integer.
(** Such integers survive the way there and back, TRUNC, ROUND and ABS. *)
Theorem C116_through_real : forall P r t a e z, List.In t reals -> List.In a integers -> whole P r a e z -> Z.abs z <= 2 ^ f_prec (fmt_of t) ->
  whole P r a (Call (conversion_name t a) [Call (conversion_name a t) [e]]) z /\
  whole P r S_LINT (Call "TRUNC" [Call (conversion_name a t) [e]]) z /\
  number P r t (Call "ROUND" [Call (conversion_name a t) [e]]) (IZR z) /\
  number P r t (Call "ABS" [Call (conversion_name a t) [e]]) (IZR (Z.abs z)).
Proof. exact through_real. Qed.
Print Assumptions C116_through_real.
(** REAL_TO_LREAL is exact,  *)
Theorem C116_widen : forall P r e q, number P r S_REAL e q -> number P r S_LREAL (Call "REAL_TO_LREAL" [e]) q.
Proof. exact widen_number. Qed.
Print Assumptions C116_widen.
(** LREAL_TO_REAL gives the nearest REAL,  *)
Theorem C116_narrow : forall P r e q, number P r S_LREAL e q -> (Rabs q < IZR (2 ^ 128 - 2 ^ 103))%R -> nearest P r S_REAL (Call "LREAL_TO_REAL" [e]) q.
Proof. exact narrow_literal. Qed.
Print Assumptions C116_narrow.
(** and the value itself if it is a REAL. *)
Theorem C116_widen_narrow : forall P r e q, number P r S_REAL e q -> number P r S_REAL (Call "LREAL_TO_REAL" [Call "REAL_TO_LREAL" [e]]) q.
Proof. exact widen_narrow_number. Qed.
Print Assumptions C116_widen_narrow.

(** * Roots and powers *)
(** SQRT is correctly rounded,  *)
Theorem C116_sqrt : forall P r t e q, List.In t reals -> number P r t e q -> (0 <= q)%R -> nearest P r t (Call "SQRT" [e]) (sqrt q).
Proof. exact sqrt_number. Qed.
Print Assumptions C116_sqrt.
(** and monotone. *)
Theorem C116_sqrt_ordered : forall P r t e e' q q', List.In t reals -> number P r t e q -> number P r t e' q' -> (0 <= q <= q')%R ->
  exists p p', number P r t (Call "SQRT" [e]) p /\ number P r t (Call "SQRT" [e']) p' /\ (0 <= p <= p')%R.
Proof. exact sqrt_ordered. Qed.
Print Assumptions C116_sqrt_ordered.
(** EXPT with an integer exponent of any type is exact if the result is representable. *)
Theorem C116_power : forall P r t u e i n M J, List.In t reals -> List.In u integers -> number P r t e (IZR M * bpow radix2 J)%R -> whole P r u i n ->
  of_type S_DINT n -> 0 <= n -> Z.abs (M ^ n) <= 2 ^ f_prec (fmt_of t) -> f_emin (fmt_of t) <= J * n -> f_prec (fmt_of t) + J * n < f_emax (fmt_of t) ->
  number P r t (Call "EXPT" [e; i]) ((IZR M * bpow radix2 J) ^ Z.to_nat n)%R.
Proof. exact power_number. Qed.
Print Assumptions C116_power.
(** The square is correctly rounded, and its root is exactly the absolute value, also if the square is not
    representable.  It may not be too small ([min_normal]) or too large (at most some finite number). *)
Theorem C116_square_root : forall P r t u e i q w, List.In t reals -> List.In u integers -> number P r t e q -> whole P r u i 2 ->
  (min_normal (fmt_of t) <= q * q)%R -> fl_valid (fmt_of t) w -> fl_finite w = true -> (q * q <= fl_value w)%R ->
  nearest P r t (Call "EXPT" [e; i]) (q * q) /\ number P r t (Call "SQRT" [Call "EXPT" [e; i]]) (Rabs q).
Proof. exact square_root. Qed.
Print Assumptions C116_square_root.
(** The square of the root is off by at most 4 roundings. *)
Theorem C116_root_square : forall P r t u e i q w, List.In t reals -> List.In u integers -> number P r t e q -> whole P r u i 2 ->
  (2 * min_normal (fmt_of t) <= q)%R -> fl_valid (fmt_of t) w -> fl_finite w = true -> (2 * q <= fl_value w)%R ->
  exists p, number P r t (Call "EXPT" [Call "SQRT" [e]; i]) p /\ (Rabs (p - q) <= 4 * roundoff (fmt_of t) * q)%R.
Proof. exact root_square. Qed.
Print Assumptions C116_root_square.

(** * MAX, MIN and LIMIT *)
(** MAX (MIN) is the greatest (least) of the arguments. *)
Theorem C116_select : forall P r t es qs, List.In t reals -> Forall2 (number P r t) es qs -> es <> [] ->
  (exists m, number P r t (Call "MAX" es) m /\ List.In m qs /\ forall q, List.In q qs -> (q <= m)%R) /\
  (exists m, number P r t (Call "MIN" es) m /\ List.In m qs /\ forall q, List.In q qs -> (m <= q)%R).
Proof. exact select_number. Qed.
Print Assumptions C116_select.
(** Nested calls are the same as one call. *)
Theorem C116_max_nested : forall P r t es es' qs qs', List.In t reals -> Forall2 (number P r t) es qs -> Forall2 (number P r t) es' qs' -> es <> [] -> es' <> [] ->
  (exists m, number P r t (Call "MAX" (es ++ es')) m /\ number P r t (Call "MAX" [Call "MAX" es; Call "MAX" es']) m) /\
  (exists m, number P r t (Call "MIN" (es ++ es')) m /\ number P r t (Call "MIN" [Call "MIN" es; Call "MIN" es']) m).
Proof. exact max_nested. Qed.
Print Assumptions C116_max_nested.
(** LIMIT is MAX and MIN, in either order. *)
Theorem C116_limit : forall P r t e1 e e2 a q b, List.In t reals -> number P r t e1 a -> number P r t e q -> number P r t e2 b -> (a <= b)%R ->
  exists m, number P r t (Call "LIMIT" [e1; e; e2]) m /\ number P r t (Call "MAX" [e1; Call "MIN" [e; e2]]) m /\
    number P r t (Call "MIN" [Call "MAX" [e1; e]; e2]) m /\ (a <= m <= b)%R /\ ((a <= q <= b)%R -> m = q).
Proof. exact limit_max_min. Qed.
Print Assumptions C116_limit.

(** * Times *)
(** A time is converted to the nearest LREAL,  *)
Theorem C116_time_to_lreal : forall P r t e z, List.In t [S_TIME; S_LTIME] -> whole P r t e z ->
  nearest P r S_LREAL (Call (conversion_name t S_LREAL) [e]) (IZR z) /\
  (Z.abs z <= 2 ^ 53 -> number P r S_LREAL (Call (conversion_name t S_LREAL) [e]) (IZR z)).
Proof. exact time_lreal. Qed.
Print Assumptions C116_time_to_lreal.
(** an LREAL to the nearest nanosecond (both functions return a TIME). *)
Theorem C116_lreal_to_time : forall P r t e q, List.In t [S_TIME; S_LTIME] -> number P r S_LREAL e q ->
  exists k, nearest_int k q /\ (of_type S_TIME k -> whole P r S_TIME (Call (conversion_name S_LREAL t) [e]) k) /\
    (~ of_type S_TIME k -> value_in P r (Call (conversion_name S_LREAL t) [e]) = Ub).
Proof. exact lreal_time. Qed.
Print Assumptions C116_lreal_to_time.
(** Times of at most 2^53 nanoseconds (104 days) survive. *)
Theorem C116_time_through_lreal : forall P r t u e z, List.In t [S_TIME; S_LTIME] -> List.In u [S_TIME; S_LTIME] -> whole P r t e z -> Z.abs z <= 2 ^ 53 ->
  whole P r S_TIME (Call (conversion_name S_LREAL u) [Call (conversion_name t S_LREAL) [e]]) z.
Proof. exact time_through_lreal. Qed.
Print Assumptions C116_time_through_lreal.
(** Products and quotients are as accurate as [time_error] says, and abort only if they are out of range. *)
Theorem C116_times : forall P r t e x a q, List.In t reals -> whole P r S_TIME e a -> number P r t x q ->
  let close o y := (forall z, o = Ok (S_TIME, VZ z) -> (Rabs (IZR z - y) <= time_error (p_durgen P) (fmt_of t) y)%R) /\
    ((Rabs y + time_error (p_durgen P) (fmt_of t) y <= 9223372036854775807)%R -> exists z, o = Ok (S_TIME, VZ z)) in
  (forall f, List.In f ["MUL"; "MUL_TIME"] -> close (value_in P r (Call f [e; x])) (IZR a * q)%R) /\
  (forall f, List.In f ["DIV"; "DIV_TIME"] -> q <> 0%R -> close (value_in P r (Call f [e; x])) (IZR a / q)%R).
Proof. exact scale_names. Qed.
Print Assumptions C116_times.
(** A product divided by its factor. *)
Theorem C116_mul_div : forall P r t e x a q z z', List.In t reals -> whole P r S_TIME e a -> number P r t x q -> q <> 0%R ->
  whole P r S_TIME (Call "MUL" [e; x]) z -> value_in P r (Call "DIV" [Call "MUL" [e; x]; x]) = Ok (S_TIME, VZ z') ->
  (Rabs (IZR z' - IZR a) <= time_error (p_durgen P) (fmt_of t) (IZR a * q) / Rabs q + time_error (p_durgen P) (fmt_of t) (IZR z / q))%R.
Proof. exact mul_then_div. Qed.
Print Assumptions C116_mul_div.

(** * Concrete cases *)
Definition there : platform :=
  Platform Debug (ModelChrono.Chrono true true) DurRound LittleEndian (fun _ _ => true) (0, 0) (fun _ _ _ => FNan false 1).
Definition x : fl := from_bits F32 3223322624.  (* -2.5 *)
Definition y : fl := from_bits F32 1036831949.  (* 0.1 *)
Definition w : fl := from_bits F64 4611686018427387904.  (* 2.0 *)
Definition vars : env value :=
  [("x", (S_REAL, VF x)); ("y", (S_REAL, VF y)); ("w", (S_LREAL, VF w)); ("i", (S_SINT, VZ 2)); ("n", (S_DINT, VZ 3)); ("big", (S_LINT, VZ 16777217));
   ("t", (S_TIME, VZ 1000000007))].
Example C116_ex_numbers : number there vars S_REAL (Arg "x") (- (5 / 2)) /\ number there vars S_LREAL (Arg "w") 2 /\
  (exists q, number there vars S_REAL (Arg "y") q /\ min_normal F32 <= q * q <= 2)%R /\
  whole there vars S_SINT (Arg "i") 2 /\ whole there vars S_TIME (Arg "t") 1000000007 /\ whole there vars S_LINT (Arg "big") 16777217.
Proof.
  split; [|split; [|split]].
  - exists x. do 3 (split; [reflexivity|]). vm_compute. lra.
  - exists w. do 3 (split; [reflexivity|]). vm_compute. lra.
  - exists (IZR 13421773 * / IZR (2 ^ 27))%R. split.
    + exists y. do 3 (split; [reflexivity|]). vm_compute. reflexivity.
    + split; [|vm_compute; lra]. apply Rle_trans with (bpow radix2 (-10)); [apply bpow_le; vm_compute; discriminate|vm_compute; lra].
  - repeat split; discriminate.
Qed.
Example C116_ex_values :
  value_in there vars (Call "ABS" [Arg "x"]) = Ok (S_REAL, VF (from_bits F32 1075838976)) /\
  value_in there vars (Call "ROUND" [Arg "x"]) = Ok (S_REAL, VF (from_bits F32 3225419776)) /\
  value_in there vars (Call "TRUNC" [Call "ROUND" [Arg "x"]]) = Ok (S_LINT, VZ (-3)) /\
  value_in there vars (Call "TRUNC" [Arg "x"]) = Ok (S_LINT, VZ (-2)) /\
  value_in there vars (Call "REAL_TO_SINT" [Arg "x"]) = Ok (S_SINT, VZ (-3)) /\ value_in there vars (Call "REAL_TO_USINT" [Arg "x"]) = Ub /\
  value_in there vars (Call "TRUNC" [Call "LINT_TO_REAL" [Arg "big"]]) = Ok (S_LINT, VZ 16777216) /\
  value_in there vars (Call "TRUNC" [Call "LINT_TO_LREAL" [Arg "big"]]) = Ok (S_LINT, VZ 16777217).
Proof. repeat split; vm_compute; reflexivity. Qed.
(** The square of 0.1 is rounded, its root is 0.1 again; the root of 2 is rounded, its square is not 2. *)
Example C116_ex_roots :
  value_in there vars (Call "SQRT" [Call "EXPT" [Arg "y"; Arg "i"]]) = Ok (S_REAL, VF y) /\
  value_in there vars (Call "EXPT" [Call "SQRT" [Arg "w"]; Arg "i"]) = Ok (S_LREAL, VF (from_bits F64 4611686018427387905)) /\
  value_in there vars (Call "EXPT" [Arg "x"; Arg "n"]) = Ok (S_REAL, VF (from_bits F32 3245998080)).
Proof. repeat split; vm_compute; reflexivity. Qed.
Example C116_ex_select :
  value_in there vars (Call "MAX" [Arg "x"; Arg "y"; Call "ABS" [Arg "x"]]) = Ok (S_REAL, VF (from_bits F32 1075838976)) /\
  value_in there vars (Call "LIMIT" [Arg "x"; Call "ABS" [Arg "x"]; Arg "y"]) = Ok (S_REAL, VF y) /\
  value_in there vars (Call "MAX" [Arg "x"; Call "MIN" [Call "ABS" [Arg "x"]; Arg "y"]]) = Ok (S_REAL, VF y).
Proof. repeat split; vm_compute; reflexivity. Qed.
Example C116_ex_times :
  value_in there vars (Call "LREAL_TO_TIME" [Call "TIME_TO_LREAL" [Arg "t"]]) = Ok (S_TIME, VZ 1000000007) /\
  value_in there vars (Call "MUL" [Arg "t"; Arg "x"]) = Ok (S_TIME, VZ (-2500000000)) /\
  value_in there vars (Call "DIV" [Call "MUL" [Arg "t"; Arg "w"]; Arg "w"]) = Ok (S_TIME, VZ 1000000007).
Proof. repeat split; vm_compute; reflexivity. Qed.
