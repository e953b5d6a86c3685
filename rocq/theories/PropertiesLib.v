(** Properties C88 and C89, and earlier properties for every exported function of a family, called by
    name. *)
From Coq Require Import String ZArith List Bool Reals SpecFloat.
From Verif Require Import Base ModelFloat ModelArith ModelTimeNum ModelScalar ModelChrono ModelDate ModelLink ModelLib
  SpecScalar SpecDate SpecReal SpecExtra SpecExpt SpecLink SpecLib ProofLink ProofLib ProofLib2 ProofExpt.
Import ListNotations.
Open Scope list_scope.
Open Scope string_scope.
Open Scope Z_scope.

(** The exported functions are those of the model; the others are the function blocks. *)
Example library_is_complete :
  forallb (fun s => Bool.eqb (match find_code (sy_name s) with Some _ => true | None => false end)
                             (negb (existsb (String.eqb (sy_name s)) function_blocks))) rust_symbols = true /\
  forallb (fun c => existsb (fun s => String.eqb (sy_name s) (fst c)) rust_symbols) library = true /\
  length library = 336%nat.
Proof. vm_compute. repeat split. Qed.
(** A platform for the examples. *)
Definition here : platform :=
  {| p_profile := Debug; p_chrono := Chrono true false; p_durgen := DurRound; p_endian := LittleEndian;
     p_tie := fun _ _ => true; p_clock := (0, 0); p_math := fun _ _ _ => FNum (S754_zero false) |}.

(** * C88: a function gives the same result whichever type its arguments have *)
Theorem C88_overloads_agree : forall P f n types t u args, List.In (f, n, types) overloaded ->
  List.In t types -> List.In u types ->
  Forall (fun v => exists z, v = VZ z /\ of_type t z /\ of_type u z) (skipn n args) ->
  rust_call P (instance_name f [t]) args = rust_call P (instance_name f [u]) args.
Proof. exact overloads_agree. Qed.
Print Assumptions C88_overloads_agree.
Theorem C88_splits_agree : forall P f n a, List.In (f, n) splits -> of_type S_DT a ->
  exists parts, length parts = n /\
    forall t outs, List.In t wide_ints -> length outs = n ->
      rust_call P (instance_name f [t]) (VZ a :: outs) = Ok (VZ 0, VZ a :: map VZ parts).
Proof. exact splits_agree. Qed.
Print Assumptions C88_splits_agree.
Theorem C88_names_agree : forall P t args, List.In t numbers ->
  (forall f g, List.In f products -> List.In g products ->
     rust_call P (instance_name f [t]) args = rust_call P (instance_name g [t]) args) /\
  (forall f g, List.In f quotients -> List.In g quotients ->
     rust_call P (instance_name f [t]) args = rust_call P (instance_name g [t]) args).
Proof. exact all_names_agree. Qed.
Print Assumptions C88_names_agree.
Example C88_example :
  rust_call here "CONCAT_TOD__SINT" [VZ 23; VZ 59; VZ 59; VZ 7] = Ok (VZ 86399007000000, [VZ 23; VZ 59; VZ 59; VZ 7]) /\
  rust_call here "CONCAT_TOD__ULINT" [VZ 23; VZ 59; VZ 59; VZ 7] = Ok (VZ 86399007000000, [VZ 23; VZ 59; VZ 59; VZ 7]) /\
  rust_call here "MUL_LTIME__USINT" [VZ 1000; VZ 7] = Ok (VZ 7000, [VZ 1000; VZ 7]) /\
  rust_call here "MUL__TIME__LINT" [VZ 1000; VZ 7] = Ok (VZ 7000, [VZ 1000; VZ 7]) /\
  rust_call here "SPLIT_DATE__UINT" [VZ (86400 * 10 ^ 9); VZ 0; VZ 0; VZ 0] =
    Ok (VZ 0, [VZ (86400 * 10 ^ 9); VZ 1970; VZ 1; VZ 2]).
Proof. vm_compute. repeat split. Qed.

(** * C89: EXPT uses the exponent it is given *)
Theorem C89_lreal_real : forall P x e f, fl_valid F32 e -> fl_valid F64 f -> same_number e f ->
  result (rust_call P "EXPT__LREAL__REAL" [VF x; VF e]) = result (rust_call P "EXPT__LREAL__LREAL" [VF x; VF f]).
Proof. exact expt_lreal_real. Qed.
Print Assumptions C89_lreal_real.
(** Missing for a REAL base: LREAL exponents that are no REAL numbers. *)
Theorem C89_real_lreal_partial : forall P x e f, fl_valid F32 e -> fl_valid F64 f -> same_number e f ->
  result (rust_call P "EXPT__REAL__LREAL" [VF x; VF f]) = result (rust_call P "EXPT__REAL__REAL" [VF x; VF e]).
Proof. exact expt_real_lreal. Qed.
Print Assumptions C89_real_lreal_partial.
(** Those are rounded first: an odd and an even power of -1 give the same result, whatever the
    power function does. *)
Theorem C89_real_lreal_refuted : exists x e f,
  fl_valid F32 x /\ fl_valid F64 e /\ fl_valid F64 f /\
  fl_value x = (-1)%R /\ fl_value e = 16777217%R /\ fl_value f = 16777216%R /\
  powerRZ (-1) 16777217 = (-1)%R /\ powerRZ (-1) 16777216 = 1%R /\
  forall P, result (rust_call P "EXPT__REAL__LREAL" [VF x; VF e]) = result (rust_call P "EXPT__REAL__LREAL" [VF x; VF f]).
Proof.
  exists (fl_of F32 (-1)), (fl_of F64 16777217), (fl_of F64 16777216).
  split; [vm_compute; reflexivity|]. split; [vm_compute; reflexivity|]. split; [vm_compute; reflexivity|].
  split; [apply fl_of_value; [now left|cbn; Lia.lia]|]. split; [apply fl_of_value; [now right|cbn; Lia.lia]|].
  split; [apply fl_of_value; [now right|cbn; Lia.lia]|].
  split; [exact (proj1 minus_one_power)|]. split; [exact (proj2 minus_one_power)|].
  intros P. apply expt_narrowed.
Qed.
Print Assumptions C89_real_lreal_refuted.
Example C89_example : fl_valid F32 (fl_of F32 3) /\ fl_valid F64 (fl_of F64 3) /\ same_number (fl_of F32 3) (fl_of F64 3) /\
  fl_of F32 3 <> fl_of F64 3.
Proof.
  split; [vm_compute; reflexivity|]. split; [vm_compute; reflexivity|]. split; [|vm_compute; discriminate].
  split; [reflexivity|]. split; [reflexivity|]. split; [|reflexivity].
  rewrite (fl_of_value F32 3), (fl_of_value F64 3); [reflexivity|now right|cbn; Lia.lia|now left|cbn; Lia.lia].
Qed.

(** * C16 for every type *)
Theorem C16_every_type : forall P t l, List.In t ordered -> Forall (of_type t) l -> l <> [] ->
  (exists r, result (rust_call P (instance_name "MAX" [t]) (map VZ l)) = Int r /\ List.In r l /\
     forall y, List.In y l -> y <= r) /\
  (exists r, result (rust_call P (instance_name "MIN" [t]) (map VZ l)) = Int r /\ List.In r l /\
     forall y, List.In y l -> r <= y).
Proof. exact extremes_by_name. Qed.
Print Assumptions C16_every_type.
Example C16_every_type_example :
  result (rust_call here "MAX__SINT" [VZ (-3); VZ 5; VZ 4]) = Int 5 /\
  result (rust_call here "MIN__DATE_AND_TIME" [VZ 3; VZ (-5)]) = Int (-5).
Proof. vm_compute. repeat split. Qed.

(** * C17 for every type *)
Theorem C17_every_type : forall P t a x b, List.In t ordered -> of_type t a -> of_type t x -> of_type t b -> a <= b ->
  exists r, result (rust_call P (instance_name "LIMIT" [t]) [VZ a; VZ x; VZ b]) = Int r /\ a <= r <= b /\
    (a <= x <= b -> r = x) /\ (x < a -> r = a) /\ (b < x -> r = b).
Proof. exact limit_by_name. Qed.
Print Assumptions C17_every_type.
Example C17_every_type_example : result (rust_call here "LIMIT__UDINT" [VZ 10; VZ 4000000000; VZ 20]) = Int 20.
Proof. vm_compute. repeat split. Qed.

(** * C19 and C21 for every type *)
Theorem C19_every_type : forall P t x n, List.In t bit_strings -> of_type t x -> 0 <= n < width t ->
  (exists r, result (rust_call P (instance_name "SHL" [t]) [VZ x; VZ n]) = Int r /\ of_type t r /\
     forall i, 0 <= i < width t -> Z.testbit r i = (n <=? i) && Z.testbit x (i - n)) /\
  (exists r, result (rust_call P (instance_name "SHR" [t]) [VZ x; VZ n]) = Int r /\ of_type t r /\
     forall i, 0 <= i < width t -> Z.testbit r i = (i + n <? width t) && Z.testbit x (i + n)).
Proof. exact shifts_by_name. Qed.
Print Assumptions C19_every_type.
Theorem C21_every_type : forall P t x n, List.In t bit_strings -> of_type t x ->
  (exists r, result (rust_call P (instance_name "ROL" [t]) [VZ x; VZ n]) = Int r /\ of_type t r /\
     forall i, 0 <= i < width t -> Z.testbit r i = Z.testbit x ((i - n) mod width t)) /\
  (exists r, result (rust_call P (instance_name "ROR" [t]) [VZ x; VZ n]) = Int r /\ of_type t r /\
     forall i, 0 <= i < width t -> Z.testbit r i = Z.testbit x ((i + n) mod width t)).
Proof. exact rotates_by_name. Qed.
Print Assumptions C21_every_type.
Example C19_C21_example :
  result (rust_call here "SHL__BYTE" [VZ 0x93; VZ 4]) = Int 0x30 /\
  result (rust_call here "SHR__LWORD" [VZ (2 ^ 63); VZ 63]) = Int 1 /\
  result (rust_call here "ROL__WORD" [VZ 0x8001; VZ 4]) = Int 0x0018 /\
  result (rust_call here "ROR__DWORD" [VZ 0x11; VZ 36]) = Int 0x10000001.
Proof. vm_compute. repeat split. Qed.

(** * C22 for every type: FROM undoes TO of the opposite order only *)
Theorem C22_every_type_partial : forall P t x, List.In t byte_ordered -> of_type t x ->
  (exists y, result (rust_call P (instance_name "TO_BIG_ENDIAN" [t]) [VZ x]) = Int y /\
     result (rust_call P (instance_name "FROM_LITTLE_ENDIAN" [t]) [VZ y]) = Int x) /\
  (exists y, result (rust_call P (instance_name "TO_LITTLE_ENDIAN" [t]) [VZ x]) = Int y /\
     result (rust_call P (instance_name "FROM_BIG_ENDIAN" [t]) [VZ y]) = Int x).
Proof. exact byte_order_by_name. Qed.
Print Assumptions C22_every_type_partial.
Example C22_every_type_example : result (rust_call here "TO_BIG_ENDIAN__INT" [VZ 0x0102]) = Int 0x0201.
Proof. vm_compute. repeat split. Qed.

(** * C24 for every type *)
Theorem C24_every_type : forall P t x, List.In t bit_strings -> of_type t x ->
  (result (rust_call P (instance_name "IS_VALID_BCD" [t]) [VZ x]) = Int 1 /\
     exists n, 0 <= n < 10 ^ (width t / 4) /\ x = bcd_encode (Z.to_nat (width t / 4)) n) \/
  (result (rust_call P (instance_name "IS_VALID_BCD" [t]) [VZ x]) = Int 0 /\
     forall n, 0 <= n < 10 ^ (width t / 4) -> x <> bcd_encode (Z.to_nat (width t / 4)) n).
Proof. exact bcd_by_name. Qed.
Print Assumptions C24_every_type.
Example C24_every_type_example :
  result (rust_call here "IS_VALID_BCD__WORD" [VZ 0x1992]) = Int 1 /\
  result (rust_call here "IS_VALID_BCD__WORD" [VZ 0x19A2]) = Int 0.
Proof. vm_compute. repeat split. Qed.

(** * C26 for every type *)
Theorem C26_every_type : forall P t y m d, List.In t [S_INT; S_UINT; S_DINT; S_UDINT] ->
  of_type t y -> of_type t m -> of_type t d ->
  (valid_date (y, m, d) -> exists n, day_number (y, m, d) n /\
     result (rust_call P (instance_name "CONCAT_DATE" [t]) [VZ y; VZ m; VZ d]) =
     if of_typeb S_DATE (n * DAY) then Int (n * DAY) else Panic) /\
  (~ valid_date (y, m, d) ->
     result (rust_call P (instance_name "CONCAT_DATE" [t]) [VZ y; VZ m; VZ d]) = Panic).
Proof. exact dates_by_name. Qed.
Print Assumptions C26_every_type.
Example C26_every_type_example :
  result (rust_call here "CONCAT_DATE__UINT" [VZ 2024; VZ 2; VZ 29]) = Int (19782 * DAY) /\
  result (rust_call here "CONCAT_DATE__DINT" [VZ 2023; VZ 2; VZ 29]) = Panic.
Proof. vm_compute. repeat split. Qed.

(** * C34 for every function *)
Theorem C34_every_name : forall P init f a b, nanos_floor (p_chrono P) = false -> of_type S_TIME a -> of_type S_TIME b ->
  (List.In f sums -> result (calls (rust_call P) init f [VZ a; VZ b]) =
     if of_typeb S_TIME (a + b) then Int (a + b) else Panic) /\
  (List.In f differences -> result (calls (rust_call P) init f [VZ a; VZ b]) =
     if of_typeb S_TIME (a - b) then Int (a - b) else Panic).
Proof. exact sums_exact. Qed.
Print Assumptions C34_every_name.
Example C34_every_name_example :
  result (calls (rust_call here) (fun _ => VZ 0) "ADD_LDT_LTIME" [VZ 5; VZ 7]) = Int 12 /\
  result (calls (rust_call here) (fun _ => VZ 0) "SUB__TIME_OF_DAY__TIME_OF_DAY" [VZ 5; VZ 7]) = Int (-2) /\
  result (calls (rust_call here) (fun _ => VZ 0) "SUB_LDATE_LDATE" [VZ (- 2 ^ 63); VZ 1]) = Panic.
Proof. vm_compute. repeat split. Qed.

(** * C36 for every function and integer type *)
Theorem C36_every_name : forall P f t a z, List.In t integers -> of_type t z -> of_type S_TIME a -> of_type S_LINT z ->
  (List.In f products -> result (rust_call P (instance_name f [t]) [VZ a; VZ z]) =
     if of_typeb S_TIME (a * z) then Int (a * z) else Panic) /\
  (List.In f quotients -> result (rust_call P (instance_name f [t]) [VZ a; VZ z]) =
     if negb (z =? 0) && of_typeb S_TIME (Z.quot a z) then Int (Z.quot a z) else Panic).
Proof.
  intros P f t a z T Z A L. split; intros F; [now apply product_exact|now apply quotient_exact].
Qed.
Print Assumptions C36_every_name.
Example C36_every_name_example :
  result (rust_call here "MUL_TIME__SINT" [VZ 1000; VZ (-3)]) = Int (-3000) /\
  result (rust_call here "DIV_LTIME__UINT" [VZ (-1000); VZ 3]) = Int (-333) /\
  result (rust_call here "DIV__TIME__LINT" [VZ (- 2 ^ 63); VZ (-1)]) = Panic.
Proof. vm_compute. repeat split. Qed.
