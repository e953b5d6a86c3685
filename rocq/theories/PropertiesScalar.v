(** Properties C16-C25: selectors, shifts, endianness, BCD, bit patterns. *)
From Coq Require Import ZArith List Bool Lia SpecFloat.
From Verif Require Import Base ModelFloat ModelScalar SpecScalar ProofScalar.
Import ListNotations.
Open Scope Z_scope.

(** ** C16: [firstn size mem] is the array handed in. *)
Theorem C16_max_is_upper_bound_element : forall mem size, 0 < size <= Z.of_nat (length mem) ->
  exists r, MAX_ord size (Some mem) = Ok r /\
    In r (firstn (Z.to_nat size) mem) /\
    forall y, In y (firstn (Z.to_nat size) mem) -> y <= r.
Proof. exact max_lemma. Qed.
Theorem C16_min_is_lower_bound_element : forall mem size, 0 < size <= Z.of_nat (length mem) ->
  exists r, MIN_ord size (Some mem) = Ok r /\
    In r (firstn (Z.to_nat size) mem) /\
    forall y, In y (firstn (Z.to_nat size) mem) -> r <= y.
Proof. exact min_lemma. Qed.
Theorem C16_empty_or_null_aborts : forall mem size,
  MAX_ord 0 (Some mem) = Panic /\ MIN_ord 0 (Some mem) = Panic /\
  MAX_ord size None = Panic /\ MIN_ord size None = Panic.
Proof.
  intros. unfold MAX_ord, MIN_ord. rewrite raw_slice_ok by lia. repeat split.
Qed.
Example C16_example :
  MAX_ord 3 (Some [-7; 5; -2; 100]) = Ok 5 /\ MIN_ord 3 (Some [-7; 5; -2; -100]) = Ok (-7).
Proof. split; reflexivity. Qed.
Print Assumptions C16_max_is_upper_bound_element.
Print Assumptions C16_min_is_lower_bound_element.
Print Assumptions C16_empty_or_null_aborts.

(** ** C17 *)
Theorem C17_limit_is_nearest_point : forall mn v mx, mn <= mx ->
  let r := LIMIT_ord mn v mx in
  mn <= r <= mx /\ (r = v <-> mn <= v <= mx) /\
  (forall y, mn <= y <= mx -> Z.abs (r - v) <= Z.abs (y - v)) /\
  LIMIT_ord mn r mx = r.
Proof. exact limit_lemma. Qed.
Theorem C17_limit_monotone : forall mn v w mx, v <= w -> mn <= mx ->
  LIMIT_ord mn v mx <= LIMIT_ord mn w mx.
Proof. exact limit_monotone. Qed.
Theorem C17_limit_inverted_bounds : forall mn v mx, mx < mn ->
  LIMIT_ord mn v mx = (if v <? mn then mn else mx).
Proof. exact limit_inverted. Qed.
Example C17_example :
  LIMIT_ord (-5) 100 7 = 7 /\ LIMIT_ord (-5) (-100) 7 = -5 /\ LIMIT_ord (-5) 3 7 = 3 /\
  LIMIT_ord 7 3 (-5) = 7 /\ LIMIT_ord 7 9 (-5) = -5.
Proof. repeat split. Qed.
Print Assumptions C17_limit_is_nearest_point.
Print Assumptions C17_limit_monotone.
Print Assumptions C17_limit_inverted_bounds.

(** ** C18: for every choice [tie] among equal elements (+0, -0). *)
Theorem C18_max_ignores_nan : forall tie mem size, 0 < size <= Z.of_nat (length mem) ->
  exists r, MAX_float tie size (Some mem) = Ok r /\
    In r (firstn (Z.to_nat size) mem) /\
    sf_nan r = forallb sf_nan (firstn (Z.to_nat size) mem) /\
    forall y, In y (firstn (Z.to_nat size) mem) -> sf_nan y = false -> SFleb y r = true.
Proof. exact max_float_lemma. Qed.
Theorem C18_min_ignores_nan : forall tie mem size, 0 < size <= Z.of_nat (length mem) ->
  exists r, MIN_float tie size (Some mem) = Ok r /\
    In r (firstn (Z.to_nat size) mem) /\
    sf_nan r = forallb sf_nan (firstn (Z.to_nat size) mem) /\
    forall y, In y (firstn (Z.to_nat size) mem) -> sf_nan y = false -> SFleb r y = true.
Proof. exact min_float_lemma. Qed.
Theorem C18_empty_or_null_aborts : forall tie mem size,
  MAX_float tie 0 (Some mem) = Panic /\ MIN_float tie 0 (Some mem) = Panic /\
  MAX_float tie size None = Panic /\ MIN_float tie size None = Panic.
Proof.
  intros. unfold MAX_float, MIN_float. rewrite raw_slice_ok by lia. repeat split.
Qed.
Theorem C18_limit_nan : forall mn v mx, sf_nan (LIMIT_float mn v mx) = sf_nan v.
Proof. exact limit_float_nan. Qed.
Theorem C18_limit_range : forall mn v mx, sf_nan v = false -> SFleb mn mx = true ->
  SFleb mn (LIMIT_float mn v mx) = true /\ SFleb (LIMIT_float mn v mx) mx = true /\
  (SFleb mn v = true -> SFleb v mx = true -> LIMIT_float mn v mx = v).
Proof. exact limit_float_range. Qed.
Example C18_example :
  let one := S754_finite false 8388608 (-23) in
  let mtwo := S754_finite true 8388608 (-22) in
  MAX_float (fun _ _ => true) 4 (Some [S754_nan; mtwo; one; S754_nan]) = Ok one /\
  MIN_float (fun _ _ => true) 4 (Some [S754_nan; mtwo; one; S754_nan]) = Ok mtwo /\
  SFleb mtwo one = true /\ LIMIT_float mtwo (S754_infinity false) one = one.
Proof. repeat split. Qed.
Print Assumptions C18_max_ignores_nan.
Print Assumptions C18_min_ignores_nan.
Print Assumptions C18_empty_or_null_aborts.
Print Assumptions C18_limit_nan.
Print Assumptions C18_limit_range.

(** ** C19 *)
Theorem C19_shl_below_width : forall p w x n, 0 <= n < w ->
  exists r, SHL p w x n = Ok r /\ r = (x * 2 ^ n) mod 2 ^ w /\ in_width w r /\
    forall i, 0 <= i < w -> Z.testbit r i = (n <=? i) && Z.testbit x (i - n).
Proof. exact shl_lemma. Qed.
Theorem C19_shr_below_width : forall p w x n, in_width w x -> 0 <= n < w ->
  exists r, SHR p w x n = Ok r /\ r = x / 2 ^ n /\ in_width w r /\
    forall i, 0 <= i < w -> Z.testbit r i = (i + n <? w) && Z.testbit x (i + n).
Proof. exact shr_lemma. Qed.
Example C19_example : in_width 8 0xA5 /\ SHL Debug 8 0xA5 3 = Ok 0x28 /\
  SHR Release 8 0xA5 3 = Ok 0x14.
Proof. repeat split; discriminate. Qed.
Print Assumptions C19_shl_below_width.
Print Assumptions C19_shr_below_width.

(** ** C20: false in both profiles, for every width. *)
Theorem C20_shift_out_refuted : forall w, In w bit_widths ->
  exists x n, in_width w x /\ w <= n /\
    SHL Debug w x n <> Ok 0 /\ SHL Release w x n <> Ok 0 /\
    SHR Debug w x n <> Ok 0 /\ SHR Release w x n <> Ok 0.
Proof.
  intros w Hw. exists 1, w.
  cbn in Hw. repeat (destruct Hw as [<-|Hw]; [
    split; [split; [discriminate|reflexivity]|]; split; [discriminate|];
    repeat split; discriminate|]). contradiction.
Qed.
(** What happens instead: debug builds abort, release builds shift by [n mod w]. *)
Theorem C20_shift_beyond_width_partial : forall w x n, 0 < w <= n ->
  SHL Debug w x n = Panic /\ SHL Release w x n = SHL Release w x (n mod w) /\
  SHR Debug w x n = Panic /\ SHR Release w x n = SHR Release w x (n mod w).
Proof. exact shl_beyond. Qed.
Example C20_example : SHL Release 32 0xF0 36 = Ok 0xF00 /\ SHL Debug 32 0xF0 36 = Panic.
Proof. split; reflexivity. Qed.
Print Assumptions C20_shift_out_refuted.
Print Assumptions C20_shift_beyond_width_partial.

(** ** C21 *)
Theorem C21_rotate_bits : forall w x n i, 0 < w -> in_width w x -> 0 <= i < w ->
  Z.testbit (ROL w x n) i = Z.testbit x ((i - n) mod w) /\
  Z.testbit (ROR w x n) i = Z.testbit x ((i + n) mod w).
Proof. intros. split; [now apply rol_bits|now apply ror_bits]. Qed.
Theorem C21_rotate_range : forall w x n, 0 < w -> in_width w x ->
  in_width w (ROL w x n) /\ in_width w (ROR w x n).
Proof. intros. rewrite ror_rol by assumption. split; now apply rol_range. Qed.
Theorem C21_rotate_inverse : forall w x n, 0 < w -> in_width w x ->
  ROR w (ROL w x n) n = x /\ ROL w (ROR w x n) n = x.
Proof. exact ror_of_rol. Qed.
Theorem C21_rotate_mod_width : forall w x n, 0 < w ->
  ROL w x n = ROL w x (n mod w) /\ ROR w x n = ROR w x (n mod w).
Proof. exact rol_mod. Qed.
Theorem C21_rotate_additive : forall w x m n, 0 < w -> in_width w x ->
  ROL w (ROL w x m) n = ROL w x (m + n) /\ ROR w (ROR w x m) n = ROR w x (m + n).
Proof.
  intros. rewrite !(ror_rol w) by (rewrite ?ror_rol by assumption; auto using rol_range).
  rewrite !rol_rol by assumption. split; [reflexivity|]. f_equal. lia.
Qed.
Example C21_example : in_width 8 0xA5 /\ ROL 8 0xA5 11 = 0x2D /\ ROR 8 0x2D 11 = 0xA5.
Proof. repeat split; discriminate. Qed.
Print Assumptions C21_rotate_bits.
Print Assumptions C21_rotate_range.
Print Assumptions C21_rotate_inverse.
Print Assumptions C21_rotate_mod_width.
Print Assumptions C21_rotate_additive.

(** ** C22: false on every host, for every type. *)
Theorem C22_endian_round_trip_refuted : forall h t, In t endian_types ->
  exists x, in_ity t x /\ FROM_BIG_ENDIAN h t (TO_BIG_ENDIAN h t x) <> x /\
    FROM_LITTLE_ENDIAN h t (TO_LITTLE_ENDIAN h t x) <> x.
Proof.
  intros h t Ht. exists 1.
  cbn in Ht. repeat (destruct Ht as [<-|Ht]; [destruct h; (split; [split; discriminate|]);
    split; discriminate|]). contradiction.
Qed.
(** The TO functions do produce the named byte order in memory on both kinds of host; the
    FROM functions are the inverses of the TO functions of the opposite byte order. *)
Theorem C22_to_endian_memory_partial : forall h t x, In t endian_types ->
  memory_bytes h t (TO_BIG_ENDIAN h t x) = memory_bytes BigEndian t x /\
  memory_bytes h t (TO_LITTLE_ENDIAN h t x) = memory_bytes LittleEndian t x.
Proof. exact to_big_memory. Qed.
Theorem C22_from_inverts_opposite_partial : forall h t x, In t endian_types -> in_ity t x ->
  FROM_LITTLE_ENDIAN h t (TO_BIG_ENDIAN h t x) = x /\
  FROM_BIG_ENDIAN h t (TO_LITTLE_ENDIAN h t x) = x.
Proof. exact cross_inverse. Qed.
Example C22_example : In i32 endian_types /\ in_ity i32 0x01020380 /\
  TO_BIG_ENDIAN LittleEndian i32 0x01020380 = - 2147286527 /\
  FROM_BIG_ENDIAN LittleEndian i32 (TO_BIG_ENDIAN LittleEndian i32 0x01020380) = - 2147286527.
Proof. cbn. repeat split; auto; discriminate. Qed.
Print Assumptions C22_endian_round_trip_refuted.
Print Assumptions C22_to_endian_memory_partial.
Print Assumptions C22_from_inverts_opposite_partial.

(** ** C23: false on little-endian hosts; 0x3F800000 is 1.0, 0x3FF0000000000000 is 1.0. *)
Theorem C23_float_endian_refuted :
  memory_bytes LittleEndian u32 (TO_BIG_ENDIAN_float 4 0x3F800000)
    <> memory_bytes BigEndian u32 0x3F800000 /\
  memory_bytes LittleEndian u64 (TO_BIG_ENDIAN_float 8 0x3FF0000000000000)
    <> memory_bytes BigEndian u64 0x3FF0000000000000.
Proof. split; vm_compute; discriminate. Qed.
(** All four conversions are the identity (so the claim holds on big-endian hosts only). *)
Theorem C23_float_endian_identity_partial : forall n x, 0 <= x < 256 ^ Z.of_nat n ->
  TO_BIG_ENDIAN_float n x = x /\ TO_LITTLE_ENDIAN_float n x = x /\
  FROM_BIG_ENDIAN_float n x = x /\ FROM_LITTLE_ENDIAN_float n x = x.
Proof. exact float_endian_id. Qed.
Example C23_example : 0 <= 0x3F800000 < 256 ^ Z.of_nat 4.
Proof. split; [discriminate|reflexivity]. Qed.
Print Assumptions C23_float_endian_refuted.
Print Assumptions C23_float_endian_identity_partial.

(** ** C24 *)
Theorem C24_bcd_valid_iff : forall w x, In w bit_widths -> in_width w x ->
  (IS_VALID_BCD w x = true <-> forall j, 0 <= j < w / 4 -> nibble x j <= 9) /\
  (IS_VALID_BCD w x = true <->
   exists n, 0 <= n < 10 ^ (w / 4) /\ x = bcd_encode (Z.to_nat (w / 4)) n).
Proof. exact bcd_lemma. Qed.
Example C24_example : In 16 bit_widths /\ in_width 16 0x9405 /\
  IS_VALID_BCD 16 0x9405 = true /\ 0x9405 = bcd_encode 4 9405 /\
  IS_VALID_BCD 16 0xA405 = false.
Proof. cbn. repeat split; auto; discriminate. Qed.
Print Assumptions C24_bcd_valid_iff.

(** ** C25 *)
Theorem C25_is_valid_iff_finite : forall f b, f = F32 \/ f = F64 -> 0 <= b < 2 ^ f_width f ->
  IS_VALID (from_bits f b) = negb (exponent_field f b =? 2 ^ f_ew f - 1).
Proof. intros f b [-> | ->] H; apply valid_lemma; auto using F32_ok, F64_ok. Qed.
Theorem C25_real_dword_inverse : forall b x,
  (0 <= b < 2 ^ 32 -> REAL_TO_DWORD (DWORD_TO_REAL b) = b) /\
  (fl_valid F32 x -> DWORD_TO_REAL (REAL_TO_DWORD x) = x /\ 0 <= REAL_TO_DWORD x < 2 ^ 32).
Proof.
  intros b x. split; intros H.
  - apply (bits_roundtrip F32 b F32_ok H).
  - apply (value_roundtrip F32 x F32_ok H).
Qed.
Theorem C25_lreal_lword_inverse : forall b x,
  (0 <= b < 2 ^ 64 -> LREAL_TO_LWORD (LWORD_TO_LREAL b) = b) /\
  (fl_valid F64 x -> LWORD_TO_LREAL (LREAL_TO_LWORD x) = x /\ 0 <= LREAL_TO_LWORD x < 2 ^ 64).
Proof.
  intros b x. split; intros H.
  - apply (bits_roundtrip F64 b F64_ok H).
  - apply (value_roundtrip F64 x F64_ok H).
Qed.
Example C25_example :
  DWORD_TO_REAL 0x3F800000 = FNum (S754_finite false 8388608 (-23)) /\
  REAL_TO_DWORD (FNan true 5) = 0xFF800005 /\ fl_valid F32 (FNan true 5) /\
  fl_valid F32 (FNum (S754_finite false 8388608 (-23))) /\
  IS_VALID (from_bits F32 0x7F800000) = false /\ IS_VALID (from_bits F32 0x00000001) = true.
Proof. repeat split. Qed.
Print Assumptions C25_is_valid_iff_finite.
Print Assumptions C25_real_dword_inverse.
Print Assumptions C25_lreal_lword_inverse.
