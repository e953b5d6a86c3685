(** Property C115: expressions of a program obey the laws of arithmetic.  See SpecExpr.v for [var],
    [vars_of], [same] and [values], SpecCall.v for [value_in], SpecLib.v for the lists of types. *)
From Coq Require Import String Ascii ZArith Lia List Bool SpecFloat Reals Permutation.
From Verif Require Import Base ModelFloat ModelScalar ModelTimeNum ModelText ModelString ModelExtra ModelDate ModelChrono ModelST ModelWrap ModelLink ModelLib
  ModelApi SpecScalar SpecST SpecReal SpecDate SpecText SpecLink SpecConv SpecLib SpecName SpecWrap SpecCall SpecExpr ProofCall ProofExpr ProofExpr2 ProofExpr3 ProofExpr4.
Import ListNotations.
Open Scope string_scope.
Open Scope list_scope.
Open Scope Z_scope.

(** * Conversions of integers and bit strings *)
(** A conversion keeps the value if the target type has it, and otherwise its residue. *)
Theorem C115_convert : forall P r x a b z, List.In a (word_types ++ integer_types) -> List.In b (word_types ++ integer_types) ->
  a <> b -> var r x a z -> exists w, value_in P r (Call (conversion_name a b) [Arg x]) = Ok (b, VZ w) /\ of_type b w /\
    w mod values b = z mod values b /\ (of_type b z -> w = z).
Proof. exact convert_one. Qed.
Print Assumptions C115_convert.
(** A detour through a type that is wide enough, or that has the value, makes no difference. *)
Theorem C115_convert_chain : forall P r x a b c z, List.In a (word_types ++ integer_types) -> List.In b (word_types ++ integer_types) ->
  List.In c (word_types ++ integer_types) -> a <> b -> b <> c -> a <> c -> var r x a z -> values c <= values b \/ of_type b z ->
  same P r (Call (conversion_name b c) [Call (conversion_name a b) [Arg x]]) (Call (conversion_name a c) [Arg x]).
Proof. exact convert_chain. Qed.
Print Assumptions C115_convert_chain.
(** There and back again. *)
Theorem C115_convert_back : forall P r x a b z, List.In a (word_types ++ integer_types) -> List.In b (word_types ++ integer_types) ->
  a <> b -> var r x a z -> values a <= values b \/ of_type b z ->
  value_in P r (Call (conversion_name b a) [Call (conversion_name a b) [Arg x]]) = Ok (a, VZ z).
Proof. exact convert_back. Qed.
Print Assumptions C115_convert_back.
(** Integers of at most 24 (53) bits survive the way through REAL (LREAL). *)
Theorem C115_int_through_real : forall P r x a f z, List.In a integers -> List.In f [S_REAL; S_LREAL] -> var r x a z ->
  Z.abs z <= (match f with S_REAL => 2 ^ 24 | _ => 2 ^ 53 end) ->
  value_in P r (Call (conversion_name f a) [Call (conversion_name a f) [Arg x]]) = Ok (a, VZ z).
Proof. exact int_through_real. Qed.
Print Assumptions C115_int_through_real.
(** LREAL holds every REAL. *)
Theorem C115_real_through_lreal : forall P r x v, get x r = Ok (S_REAL, VF v) -> fl_valid F32 v -> is_nan v = false ->
  value_in P r (Call "LREAL_TO_REAL" [Call "REAL_TO_LREAL" [Arg x]]) = Ok (S_REAL, VF v).
Proof. exact real_through_lreal. Qed.
Print Assumptions C115_real_through_lreal.
(** DWORD and REAL (LWORD and LREAL) exchange bit patterns. *)
Theorem C115_bits_through_real : forall P r x f w, List.In (f, w) [(S_REAL, S_DWORD); (S_LREAL, S_LWORD)] ->
  (forall b, var r x w b -> value_in P r (Call (conversion_name f w) [Call (conversion_name w f) [Arg x]]) = Ok (w, VZ b)) /\
  (forall v, get x r = Ok (f, VF v) -> fl_valid (fmt_of f) v ->
     value_in P r (Call (conversion_name w f) [Call (conversion_name f w) [Arg x]]) = Ok (f, VF v)).
Proof. exact bits_through_real. Qed.
Print Assumptions C115_bits_through_real.

(** * Rotations, shifts and byte order *)
(** Opposite rotations cancel, equal ones add up modulo the width. *)
Theorem C115_rotations : forall P r t x n m k v a b c, List.In t bit_strings -> var r x t v -> var r n S_UDINT a -> var r m S_UDINT b ->
  var r k S_UDINT c -> (a + b - c) mod width t = 0 ->
  value_in P r (Call "ROR" [Call "ROL" [Arg x; Arg n]; Arg n]) = Ok (t, VZ v) /\
  value_in P r (Call "ROL" [Call "ROR" [Arg x; Arg n]; Arg n]) = Ok (t, VZ v) /\
  same P r (Call "ROL" [Call "ROL" [Arg x; Arg n]; Arg m]) (Call "ROL" [Arg x; Arg k]) /\
  same P r (Call "ROR" [Call "ROR" [Arg x; Arg n]; Arg m]) (Call "ROR" [Arg x; Arg k]).
Proof. exact rotations. Qed.
Print Assumptions C115_rotations.
(** Shifts add up; shifting back and forth clears the high or the low bits. *)
Theorem C115_shifts : forall P r t x n m k v a b, List.In t bit_strings -> var r x t v -> var r n S_UDINT a -> var r m S_UDINT b ->
  var r k S_UDINT (a + b) -> a + b < width t ->
  same P r (Call "SHL" [Call "SHL" [Arg x; Arg n]; Arg m]) (Call "SHL" [Arg x; Arg k]) /\
  same P r (Call "SHR" [Call "SHR" [Arg x; Arg n]; Arg m]) (Call "SHR" [Arg x; Arg k]) /\
  value_in P r (Call "SHR" [Call "SHL" [Arg x; Arg n]; Arg n]) = Ok (t, VZ (v mod 2 ^ (width t - a))) /\
  value_in P r (Call "SHL" [Call "SHR" [Arg x; Arg n]; Arg n]) = Ok (t, VZ (v - v mod 2 ^ a)).
Proof. exact shifts. Qed.
Print Assumptions C115_shifts.
(** A rotation is composed of two shifts, and ROR by the rest of the width is ROL. *)
Theorem C115_rotate_is_shifts : forall P r t x n m v a, List.In t bit_strings -> var r x t v -> var r n S_UDINT a -> 0 < a < width t ->
  var r m S_UDINT (width t - a) -> exists p q,
  value_in P r (Call "SHL" [Arg x; Arg n]) = Ok (t, VZ p) /\ value_in P r (Call "SHR" [Arg x; Arg m]) = Ok (t, VZ q) /\
  value_in P r (Call "ROL" [Arg x; Arg n]) = Ok (t, VZ (p + q)) /\ same P r (Call "ROR" [Arg x; Arg m]) (Call "ROL" [Arg x; Arg n]).
Proof. exact rotate_is_shifts. Qed.
Print Assumptions C115_rotate_is_shifts.
(** FROM_LITTLE_ENDIAN undoes TO_BIG_ENDIAN, FROM_BIG_ENDIAN undoes TO_LITTLE_ENDIAN (so they do in the
    source), and both TO functions are their own inverse. *)
Theorem C115_byte_order : forall P r t x v, List.In t byte_ordered -> var r x t v ->
  value_in P r (Call "FROM_LITTLE_ENDIAN" [Call "TO_BIG_ENDIAN" [Arg x]]) = Ok (t, VZ v) /\
  value_in P r (Call "FROM_BIG_ENDIAN" [Call "TO_LITTLE_ENDIAN" [Arg x]]) = Ok (t, VZ v) /\
  value_in P r (Call "TO_BIG_ENDIAN" [Call "TO_BIG_ENDIAN" [Arg x]]) = Ok (t, VZ v) /\
  value_in P r (Call "TO_LITTLE_ENDIAN" [Call "TO_LITTLE_ENDIAN" [Arg x]]) = Ok (t, VZ v).
Proof. exact byte_orders. Qed.
Print Assumptions C115_byte_order.

(** * MAX, MIN and LIMIT *)
(** Nested MAX (MIN) is MAX (MIN) of all the arguments. *)
Theorem C115_select_nested : forall P r t xs ys us vs, List.In t ordered -> vars_of r t xs us -> vars_of r t ys vs -> xs <> [] -> ys <> [] ->
  same P r (Call "MAX" [Call "MAX" (map Arg xs); Call "MAX" (map Arg ys)]) (Call "MAX" (map Arg (xs ++ ys))) /\
  same P r (Call "MIN" [Call "MIN" (map Arg xs); Call "MIN" (map Arg ys)]) (Call "MIN" (map Arg (xs ++ ys))).
Proof. exact select_nested. Qed.
Print Assumptions C115_select_nested.
(** The order of the arguments makes no difference. *)
Theorem C115_select_order : forall P r t xs ys us, List.In t ordered -> vars_of r t xs us -> Permutation xs ys -> xs <> [] ->
  same P r (Call "MAX" (map Arg xs)) (Call "MAX" (map Arg ys)) /\ same P r (Call "MIN" (map Arg xs)) (Call "MIN" (map Arg ys)).
Proof. exact select_order. Qed.
Print Assumptions C115_select_order.
(** Absorption and distributivity. *)
Theorem C115_select_lattice : forall P r t x y z a b c, List.In t ordered -> var r x t a -> var r y t b -> var r z t c ->
  value_in P r (Call "MAX" [Arg x; Call "MIN" [Arg x; Arg y]]) = Ok (t, VZ a) /\
  value_in P r (Call "MIN" [Arg x; Call "MAX" [Arg x; Arg y]]) = Ok (t, VZ a) /\
  same P r (Call "MIN" [Arg x; Call "MAX" [Arg y; Arg z]]) (Call "MAX" [Call "MIN" [Arg x; Arg y]; Call "MIN" [Arg x; Arg z]]) /\
  same P r (Call "MAX" [Arg x; Call "MIN" [Arg y; Arg z]]) (Call "MIN" [Call "MAX" [Arg x; Arg y]; Call "MAX" [Arg x; Arg z]]).
Proof. exact select_lattice. Qed.
Print Assumptions C115_select_lattice.
(** LIMIT is MAX and MIN, in either order. *)
Theorem C115_limit : forall P r t mn x mx a z b, List.In t ordered -> var r mn t a -> var r x t z -> var r mx t b -> a <= b ->
  same P r (Call "LIMIT" [Arg mn; Arg x; Arg mx]) (Call "MAX" [Arg mn; Call "MIN" [Arg x; Arg mx]]) /\
  same P r (Call "LIMIT" [Arg mn; Arg x; Arg mx]) (Call "MIN" [Arg mx; Call "MAX" [Arg x; Arg mn]]).
Proof. exact limit_is. Qed.
Print Assumptions C115_limit.

(** * Times *)
(** Multiplication and division of a TIME by an integer undo each other up to the remainder. *)
Theorem C115_time_scaling : forall P r t x k a z, List.In t integers -> var r x S_TIME a -> var r k t z -> of_type S_LINT z -> z <> 0 ->
  (of_type S_TIME (a * z) -> value_in P r (Call "DIV" [Call "MUL" [Arg x; Arg k]; Arg k]) = Ok (S_TIME, VZ a)) /\
  (of_type S_TIME (Z.quot a z) -> value_in P r (Call "MUL" [Call "DIV" [Arg x; Arg k]; Arg k]) = Ok (S_TIME, VZ (a - Z.rem a z))) /\
  (of_type S_TIME (Z.quot a z) -> value_in P r (Call "SUB" [Arg x; Call "MUL" [Call "DIV" [Arg x; Arg k]; Arg k]]) = Ok (S_TIME, VZ (Z.rem a z))).
Proof. exact time_scaling. Qed.
Print Assumptions C115_time_scaling.
(** ADD and SUB undo each other; ADD is commutative and associative. *)
Theorem C115_time_sums : forall P r x y w a b c, var r x S_TIME a -> var r y S_TIME b -> var r w S_TIME c ->
  (of_type S_TIME (a + b) -> value_in P r (Call "SUB" [Call "ADD" [Arg x; Arg y]; Arg y]) = Ok (S_TIME, VZ a) /\
     same P r (Call "ADD" [Arg x; Arg y]) (Call "ADD" [Arg y; Arg x])) /\
  (of_type S_TIME (a - b) -> value_in P r (Call "ADD" [Call "SUB" [Arg x; Arg y]; Arg y]) = Ok (S_TIME, VZ a)) /\
  (of_type S_TIME (a + b) -> of_type S_TIME (b + c) ->
     same P r (Call "ADD" [Call "ADD" [Arg x; Arg y]; Arg w]) (Call "ADD" [Arg x; Call "ADD" [Arg y; Arg w]])).
Proof. exact time_sums. Qed.
Print Assumptions C115_time_sums.
(** Multiplication distributes over the sum. *)
Theorem C115_time_distributes : forall P r t x y k a b z, List.In t integers -> var r x S_TIME a -> var r y S_TIME b -> var r k t z -> of_type S_LINT z ->
  of_type S_TIME (a + b) -> of_type S_TIME (a * z) -> of_type S_TIME (b * z) ->
  same P r (Call "MUL" [Call "ADD" [Arg x; Arg y]; Arg k]) (Call "ADD" [Call "MUL" [Arg x; Arg k]; Call "MUL" [Arg y; Arg k]]).
Proof. exact time_distributes. Qed.
Print Assumptions C115_time_distributes.
(** A date and time is put together from its date and its time of day. *)
Theorem C115_dt_recomposed : forall P r x n, var r x S_DT n -> of_type S_DATE (n - n mod DAY) ->
  value_in P r (Call "CONCAT_DATE_TOD" [Call "DT_TO_DATE" [Arg x]; Call "DT_TO_TOD" [Arg x]]) = Ok (S_DT, VZ n).
Proof. exact dt_recomposed. Qed.
Print Assumptions C115_dt_recomposed.

(** * C87 by name *)
Theorem C87_by_name : forall P src u s, reads src (u :: s) ->
  call P "STRING_TO_CHAR" [(S_STRING, VS src)] = Ok (S_CHAR, VZ u) /\ call P "WSTRING_TO_WCHAR" [(S_WSTRING, VS src)] = Ok (S_WCHAR, VZ u).
Proof. intros P src u s R. exact (conj (to_char_call P STRING u src s R) (to_char_call P WSTRING u src s R)). Qed.
Print Assumptions C87_by_name.

(** * Concrete cases *)
Definition there : platform :=
  Platform Debug (ModelChrono.Chrono true true) DurRound LittleEndian (fun _ _ => true) (0, 0) (fun _ _ _ => FNan false 1).
Definition vars : env value :=
  [("i", (S_INT, VZ (-2))); ("w", (S_WORD, VZ 0x8421)); ("d", (S_DWORD, VZ 0x40490fdb)); ("n", (S_UDINT, VZ 5)); ("m", (S_UDINT, VZ 11)); ("k", (S_UDINT, VZ 16));
   ("l", (S_UDINT, VZ 0)); ("a", (S_INT, VZ 7)); ("b", (S_INT, VZ (-30000))); ("t", (S_TIME, VZ 1000000007)); ("s", (S_TIME, VZ (-5)));
   ("dt", (S_DT, VZ 951827696789012345)); ("r", (S_REAL, VF (FNum (S754_finite false 13176795 (-22)))))].
Example C115_ex_vars : var vars "i" S_INT (-2) /\ var vars "w" S_WORD 0x8421 /\ var vars "d" S_DWORD 0x40490fdb /\ var vars "n" S_UDINT 5 /\
  var vars "m" S_UDINT 11 /\ var vars "k" S_UDINT 16 /\ var vars "l" S_UDINT 0 /\ var vars "a" S_INT 7 /\ var vars "b" S_INT (-30000) /\ var vars "t" S_TIME 1000000007 /\
  var vars "s" S_TIME (-5) /\ var vars "dt" S_DT 951827696789012345 /\ vars_of vars S_INT ["i"; "a"] [-2; 7] /\ vars_of vars S_INT ["b"] [-30000].
Proof. repeat match goal with |- _ /\ _ => split | |- var _ _ _ _ => split; [reflexivity|split; discriminate] | |- vars_of _ _ _ _ => constructor | |- Forall2 _ _ _ => constructor | _ => split; discriminate || reflexivity end. Qed.
(** INT to LWORD and back; INT to UINT loses the sign and finds it again; INT to SINT is exact for -2. *)
Example C115_ex_convert :
  value_in there vars (Call "INT_TO_LWORD" [Arg "i"]) = Ok (S_LWORD, VZ (2 ^ 64 - 2)) /\
  value_in there vars (Call "LWORD_TO_INT" [Call "INT_TO_LWORD" [Arg "i"]]) = Ok (S_INT, VZ (-2)) /\
  value_in there vars (Call "UINT_TO_DINT" [Call "INT_TO_UINT" [Arg "i"]]) = Ok (S_DINT, VZ 65534) /\
  value_in there vars (Call "INT_TO_DINT" [Arg "i"]) = Ok (S_DINT, VZ (-2)) /\
  ~ (values S_DINT <= values S_UINT \/ of_type S_UINT (-2)) /\ (values S_SINT <= values S_UINT \/ of_type S_UINT (-2)) /\
  values S_INT <= values S_LWORD /\ conversion_name S_INT S_LWORD = "INT_TO_LWORD" /\
  List.In S_INT (word_types ++ integer_types) /\ List.In S_LWORD (word_types ++ integer_types).
Proof.
  do 4 (split; [vm_compute; reflexivity|]). split; [|split; [left; discriminate|split; [discriminate|split; [reflexivity|split; cbn; tauto]]]].
  intros [H|[H _]]; apply H; reflexivity.
Qed.
Example C115_ex_real :
  value_in there vars (Call "REAL_TO_INT" [Call "INT_TO_REAL" [Arg "b"]]) = Ok (S_INT, VZ (-30000)) /\
  value_in there vars (Call "DWORD_TO_REAL" [Arg "d"]) = Ok (S_REAL, VF (FNum (S754_finite false 13176795 (-22)))) /\
  value_in there vars (Call "REAL_TO_DWORD" [Arg "r"]) = Ok (S_DWORD, VZ 0x40490fdb) /\
  value_in there vars (Call "LREAL_TO_REAL" [Call "REAL_TO_LREAL" [Arg "r"]]) = Ok (S_REAL, VF (FNum (S754_finite false 13176795 (-22)))) /\
  fl_valid F32 (FNum (S754_finite false 13176795 (-22))).
Proof. repeat split; vm_compute; reflexivity. Qed.
Example C115_ex_bits :
  value_in there vars (Call "ROL" [Arg "w"; Arg "n"]) = Ok (S_WORD, VZ 0x8430) /\
  value_in there vars (Call "ROR" [Arg "w"; Arg "m"]) = Ok (S_WORD, VZ 0x8430) /\
  value_in there vars (Call "ROR" [Call "ROL" [Arg "w"; Arg "n"]; Arg "n"]) = Ok (S_WORD, VZ 0x8421) /\
  value_in there vars (Call "ROL" [Call "ROL" [Arg "w"; Arg "n"]; Arg "m"]) = Ok (S_WORD, VZ 0x8421) /\
  (5 + 11 - 16) mod width S_WORD = 0 /\
  value_in there vars (Call "SHR" [Call "SHL" [Arg "w"; Arg "n"]; Arg "n"]) = Ok (S_WORD, VZ 0x421) /\
  value_in there vars (Call "SHL" [Call "SHR" [Arg "w"; Arg "n"]; Arg "n"]) = Ok (S_WORD, VZ 0x8420) /\
  value_in there vars (Call "SHL" [Arg "w"; Arg "n"]) = Ok (S_WORD, VZ 0x8420) /\
  value_in there vars (Call "SHR" [Arg "w"; Arg "m"]) = Ok (S_WORD, VZ 0x10) /\
  value_in there vars (Call "TO_BIG_ENDIAN" [Arg "d"]) = Ok (S_DWORD, VZ 0xdb0f4940) /\
  value_in there vars (Call "FROM_LITTLE_ENDIAN" [Call "TO_BIG_ENDIAN" [Arg "d"]]) = Ok (S_DWORD, VZ 0x40490fdb).
Proof. repeat split; vm_compute; reflexivity. Qed.
Example C115_ex_select :
  value_in there vars (Call "MAX" [Arg "i"; Arg "a"; Arg "b"]) = Ok (S_INT, VZ 7) /\
  value_in there vars (Call "MAX" [Call "MAX" [Arg "i"; Arg "a"]; Call "MAX" [Arg "b"]]) = Ok (S_INT, VZ 7) /\
  value_in there vars (Call "MIN" [Arg "a"; Arg "b"; Arg "i"]) = Ok (S_INT, VZ (-30000)) /\
  value_in there vars (Call "LIMIT" [Arg "i"; Arg "b"; Arg "a"]) = Ok (S_INT, VZ (-2)) /\ List.In S_INT ordered /\ -2 <= 7.
Proof. do 4 (split; [vm_compute; reflexivity|]). split; [cbn; tauto|discriminate]. Qed.
Example C115_ex_times :
  value_in there vars (Call "DIV" [Call "MUL" [Arg "t"; Arg "i"]; Arg "i"]) = Ok (S_TIME, VZ 1000000007) /\
  value_in there vars (Call "MUL" [Call "DIV" [Arg "t"; Arg "i"]; Arg "i"]) = Ok (S_TIME, VZ 1000000006) /\
  value_in there vars (Call "SUB" [Call "ADD" [Arg "t"; Arg "s"]; Arg "s"]) = Ok (S_TIME, VZ 1000000007) /\
  value_in there vars (Call "MUL" [Call "ADD" [Arg "t"; Arg "s"]; Arg "i"]) = Ok (S_TIME, VZ (-2000000004)) /\
  value_in there vars (Call "ADD" [Call "MUL" [Arg "t"; Arg "i"]; Call "MUL" [Arg "s"; Arg "i"]]) = Ok (S_TIME, VZ (-2000000004)) /\
  of_type S_TIME (1000000007 + -5) /\ of_type S_TIME (1000000007 * -2) /\ of_type S_TIME (-5 * -2) /\ of_type S_LINT (-2).
Proof. do 5 (split; [vm_compute; reflexivity|]). repeat split; discriminate. Qed.
Example C115_ex_dt :
  value_in there vars (Call "CONCAT_DATE_TOD" [Call "DT_TO_DATE" [Arg "dt"]; Call "DT_TO_TOD" [Arg "dt"]]) = Ok (S_DT, VZ 951827696789012345) /\
  of_type S_DATE (951827696789012345 - 951827696789012345 mod DAY).
Proof. split; [vm_compute; reflexivity|split; discriminate]. Qed.
Example C87_ex_by_name : reads [0x61; 0x62; 0; 9] [0x61; 0x62] /\ call there "STRING_TO_CHAR" [(S_STRING, VS [0x61; 0x62; 0; 9])] = Ok (S_CHAR, VZ 0x61).
Proof. split; [|vm_compute; reflexivity]. split; [repeat constructor; discriminate|]. now exists [9]. Qed.
