(** Earlier properties for the exported functions, called by name: [rust_call P name args] is what
    the call of the exported function [name] with the parameters [args] returns and what the
    parameters hold afterwards. *)
From Coq Require Import String Ascii ZArith Lia List Bool Reals Lra SpecFloat.
From Flocq Require Import Core.
From Verif Require Import Base ModelFloat ModelTimeNum ModelArith ModelScalar ModelChrono ModelDate
  ModelText ModelString ModelExtra ModelST ModelWrap ModelLink ModelLib SpecScalar SpecDate SpecTimeNum SpecReal SpecST SpecExpt SpecText SpecExtra SpecLink SpecLib SpecName
  ProofLib ProofName ProofName2 ProofName3 PropertiesString PropertiesLib.
Import ListNotations.
Open Scope list_scope.
Open Scope string_scope.
Open Scope Z_scope.

(** * Strings *)
Theorem C40_len_by_name : forall P k src t, holds k src t -> slen t < 2 ^ 31 ->
  rust_call P (named "LEN" k) [VS src] = Ok (VZ (slen t), [VS src]).
Proof. exact len_name. Qed.
Print Assumptions C40_len_by_name.
Theorem C41_left_by_name : forall P k src t L dest, holds k src t ->
  (0 <= L <= slen t -> stores k (firstn (Z.to_nat L) t) dest [VS src; VZ L]
     (rust_call P (named "LEFT_EXT" k) [VS src; VZ L; VS dest])) /\
  (~ 0 <= L <= slen t -> rust_call P (named "LEFT_EXT" k) [VS src; VZ L; VS dest] = Panic).
Proof. exact left_name. Qed.
Print Assumptions C41_left_by_name.
Theorem C41_right_by_name : forall P k src t L dest, holds k src t ->
  (0 <= L <= slen t -> stores k (skipn (length t - Z.to_nat L) t) dest [VS src; VZ L]
     (rust_call P (named "RIGHT_EXT" k) [VS src; VZ L; VS dest])) /\
  (~ 0 <= L <= slen t -> rust_call P (named "RIGHT_EXT" k) [VS src; VZ L; VS dest] = Panic).
Proof. exact right_name. Qed.
Print Assumptions C41_right_by_name.
Theorem C41_mid_by_name_partial : forall P k src t L N dest, holds k src t -> of_type S_DINT L -> of_type S_DINT N ->
  slen t < 2 ^ 63 ->
  (0 <= L -> 1 <= N <= slen t -> N - 1 + L <= slen t ->
     stores k (firstn (Z.to_nat L) (skipn (Z.to_nat (N - 1)) t)) dest [VS src; VZ L; VZ N]
       (rust_call P (named "MID_EXT" k) [VS src; VZ L; VZ N; VS dest])) /\
  (~ (0 <= L /\ 1 <= N <= slen t /\ N - 1 + L <= slen t) ->
     rust_call P (named "MID_EXT" k) [VS src; VZ L; VZ N; VS dest] = Panic).
Proof. exact mid_name. Qed.
Print Assumptions C41_mid_by_name_partial.
Theorem C43_insert_by_name : forall P k base ins s t N dest, holds k base s -> holds k ins t -> slen s < 2 ^ 31 ->
  (0 <= N <= slen s ->
     stores k (firstn (Z.to_nat N) s ++ t ++ skipn (Z.to_nat N) s)%list dest [VS base; VS ins; VZ N]
       (rust_call P (named "INSERT_EXT" k) [VS base; VS ins; VZ N; VS dest])) /\
  (~ 0 <= N <= slen s -> rust_call P (named "INSERT_EXT" k) [VS base; VS ins; VZ N; VS dest] = Panic).
Proof. exact insert_name. Qed.
Print Assumptions C43_insert_by_name.
Theorem C43_delete_by_name : forall P k src t L N dest, holds k src t -> of_type S_DINT L -> of_type S_DINT N ->
  slen t < 2 ^ 31 -> 0 <= L ->
  (1 <= N <= slen t -> N - 1 + L <= slen t ->
     stores k (firstn (Z.to_nat (N - 1)) t ++ skipn (Z.to_nat (N - 1 + L)) t)%list dest [VS src; VZ L; VZ N]
       (rust_call P (named "DELETE_EXT" k) [VS src; VZ L; VZ N; VS dest])) /\
  (~ (1 <= N <= slen t /\ N - 1 + L <= slen t) ->
     rust_call P (named "DELETE_EXT" k) [VS src; VZ L; VZ N; VS dest] = Panic).
Proof. exact delete_name. Qed.
Print Assumptions C43_delete_by_name.
Theorem C43_replace_by_name : forall P k base rep s t L N dest, holds k base s -> holds k rep t ->
  of_type S_DINT L -> of_type S_DINT N -> slen s < 2 ^ 31 -> 0 <= L ->
  (1 <= N <= slen s -> N - 1 + L <= slen s ->
     stores k (firstn (Z.to_nat (N - 1)) s ++ t ++ skipn (Z.to_nat (N - 1 + L)) s)%list dest [VS base; VS rep; VZ L; VZ N]
       (rust_call P (named "REPLACE_EXT" k) [VS base; VS rep; VZ L; VZ N; VS dest])) /\
  (~ (1 <= N <= slen s /\ N - 1 + L <= slen s) ->
     rust_call P (named "REPLACE_EXT" k) [VS base; VS rep; VZ L; VZ N; VS dest] = Panic).
Proof. exact replace_name. Qed.
Print Assumptions C43_replace_by_name.
Theorem C45_find_by_name : forall P k a b hs ns, holds k a hs -> holds k b ns -> slen hs < 2 ^ 31 ->
  (ns = [] \/ (forall i, ~ occurs_at ns hs i) -> rust_call P (named "FIND" k) [VS a; VS b] = Ok (VZ 0, [VS a; VS b])) /\
  (forall i, ns <> [] -> first_at ns hs i ->
     rust_call P (named "FIND" k) [VS a; VS b] = Ok (VZ (Z.of_nat i + 1), [VS a; VS b])).
Proof. exact find_name. Qed.
Print Assumptions C45_find_by_name.
Theorem C47_concat_ext_by_name : forall P k argv ts dest, Forall2 (holds k) argv ts -> ts <> [] ->
  (fits k (concat ts) dest ->
     rust_call P (named "CONCAT_EXT" k) (VS dest :: map VS argv) =
     Ok (VZ 0, VS (written k (concat ts) dest) :: map VS argv)) /\
  (~ fits k (concat ts) dest -> rust_call P (named "CONCAT_EXT" k) (VS dest :: map VS argv) = Ub).
Proof. exact concat_ext_name. Qed.
Print Assumptions C47_concat_ext_by_name.
Theorem C47_concat_by_name : forall P k argv ts, Forall2 (holds k) argv ts -> ts <> [] ->
  ((length (units k (concat ts)) <= 2048)%nat -> exists d,
     rust_call P (named "CONCAT" k) (map VS argv) = Ok (VS d, map VS argv) /\ holds k d (concat ts)) /\
  ((2048 < length (units k (concat ts)))%nat -> rust_call P (named "CONCAT" k) (map VS argv) = Ub).
Proof. exact concat_name. Qed.
Print Assumptions C47_concat_by_name.
Theorem C49_compare_by_name : forall P k argv strs, Forall2 reads argv strs -> (2 <= length strs)%nat ->
  decides (rust_call P (named "GT" k) (map VS argv)) (map VS argv) (all_pairs (fun a b => lex_lt b a) strs) /\
  decides (rust_call P (named "GE" k) (map VS argv)) (map VS argv) (all_pairs (fun a b => lex_le b a) strs) /\
  decides (rust_call P (named "EQ" k) (map VS argv)) (map VS argv) (all_pairs eq strs) /\
  decides (rust_call P (named "LE" k) (map VS argv)) (map VS argv) (all_pairs lex_le strs) /\
  decides (rust_call P (named "LT" k) (map VS argv)) (map VS argv) (all_pairs lex_lt strs).
Proof. exact compare_name. Qed.
Print Assumptions C49_compare_by_name.
Theorem C49_too_few_by_name : forall P k f argv, List.In f ["GT"; "GE"; "EQ"; "LE"; "LT"] -> (length argv < 2)%nat ->
  rust_call P (named f k) (map VS argv) = Panic.
Proof. exact compare_few_name. Qed.
Print Assumptions C49_too_few_by_name.
Theorem C49_ne_by_name : forall P k a b s t, reads a s -> reads b t ->
  decides (rust_call P (named "NE" k) [VS a; VS b]) [VS a; VS b] (s <> t).
Proof. exact ne_name. Qed.
Print Assumptions C49_ne_by_name.
Theorem C52_wstring_to_string_by_name : forall P src s items dest, reads src s -> utf16_parse s items ->
  stores STRING (map (fun i => match i with Some c => c | None => 0xFFFD end) items) dest [VS src]
    (rust_call P "WSTRING_TO_STRING_EXT" [VS src; VS dest]).
Proof. exact w2s_name. Qed.
Print Assumptions C52_wstring_to_string_by_name.
Theorem C53_string_to_wstring_by_name : forall P src t dest, holds STRING src t ->
  ((length (units WSTRING t) <= length dest)%nat ->
     rust_call P "STRING_TO_WSTRING_EXT" [VS src; VS dest] = Ok (VZ 0, [VS src; VS (overwritten (units WSTRING t) dest)])) /\
  ((length dest < length (units WSTRING t))%nat -> rust_call P "STRING_TO_WSTRING_EXT" [VS src; VS dest] = Ub).
Proof. exact s2w_name. Qed.
Print Assumptions C53_string_to_wstring_by_name.

(** * Texts of numbers and times *)
Theorem C57_integers_by_name : forall P X t x dest, List.In (X, t) [("BYTE", S_BYTE); ("LWORD", S_LWORD); ("LINT", S_LINT)] ->
  of_type t x -> (81 <= length dest)%nat ->
  exists s, canonical_int s x /\
    rust_call P (X ++ "_TO_STRING_EXT") [VZ x; VS dest] = Ok (VZ 0, [VZ x; VS (overwritten s dest)]).
Proof. exact int_text_name. Qed.
Print Assumptions C57_integers_by_name.
Theorem C61_dates_by_name : forall P n dest, of_type S_DT n -> (81 <= length dest)%nat ->
  exists ds cs y m dd h mi sec ns,
    date_text ds y m dd /\ day_number (y, m, dd) (n / DAY) /\ clock_text cs h mi sec ns /\
    0 <= h < 24 /\ 0 <= mi < 60 /\ 0 <= sec < 60 /\ 0 <= ns < SECOND /\
    h * HOUR + mi * MINUTE + sec * SECOND + ns = n mod DAY /\
    rust_call P "DATE_TO_STRING_EXT" [VZ n; VS dest] = Ok (VZ 0, [VZ n; VS (overwritten ds dest)]) /\
    rust_call P "TOD_TO_STRING_EXT" [VZ n; VS dest] = Ok (VZ 0, [VZ n; VS (overwritten cs dest)]) /\
    rust_call P "DT_TO_STRING_EXT" [VZ n; VS dest] = Ok (VZ 0, [VZ n; VS (overwritten (ds ++ str "-" ++ cs)%list dest)]).
Proof. exact dates_name. Qed.
Print Assumptions C61_dates_by_name.
Theorem C59_time_by_name : forall P t, 0 <= t -> of_type S_TIME t -> exists s rest,
  rust_call P "TIME_TO_STRING_EXT" [VZ t; VS (repeat 0 2049)] = Ok (VZ 0, [VZ t; VS (s ++ 0 :: rest)%list]) /\ time_text s t.
Proof. exact time_name. Qed.
Print Assumptions C59_time_by_name.
Theorem C56_string_to_integer_by_name : forall P X t src s, List.In (X, t) [("LINT", S_LINT); ("DINT", S_DINT)] -> reads src s ->
  (forall z, int_text s z -> of_type t z -> rust_call P ("STRING_TO_" ++ X) [VS src] = Ok (VZ z, [VS src])) /\
  ((forall z, int_text s z -> ~ of_type t z) -> rust_call P ("STRING_TO_" ++ X) [VS src] = Panic).
Proof. exact string_to_int_name. Qed.
Print Assumptions C56_string_to_integer_by_name.
Theorem C63_clock_by_name : forall P secs nanos, p_clock P = (secs, nanos) -> 0 <= secs < 86400 -> 0 <= nanos < 2000000000 ->
  rust_call P "TIME" [] = Ok (VZ (secs * 1000000000 + nanos), []).
Proof. exact clock_name. Qed.
Print Assumptions C63_clock_by_name.
Theorem C62_reals_by_name : forall P X c x dest, List.In (X, c) [("REAL", 10 ^ 6); ("LREAL", 10 ^ 14)] ->
  fl_valid F64 x -> fl_finite x = true -> (81 <= length dest)%nat ->
  ((IZR (- 10 ^ 73) < fl_value x)%R -> exists s,
     rust_call P (X ++ "_TO_STRING_EXT") [VF x; VS dest] = Ok (VZ 0, [VF x; VS (overwritten s dest)]) /\
     ((fl_value x < IZR c)%R -> fixed6_text s x) /\ ((IZR c <= fl_value x)%R -> exp6_text s x)) /\
  ((fl_value x <= IZR (- 10 ^ 73))%R -> rust_call P (X ++ "_TO_STRING_EXT") [VF x; VS dest] = Panic).
Proof. exact reals_name. Qed.
Print Assumptions C62_reals_by_name.
Theorem C62_special_by_name : forall P X x dest, List.In X ["REAL"; "LREAL"] -> fl_valid F64 x -> fl_finite x = false ->
  (81 <= length dest)%nat ->
  rust_call P (X ++ "_TO_STRING_EXT") [VF x; VS dest] = Ok (VZ 0, [VF x; VS (overwritten
    (match x with FNum (S754_infinity false) => str "inf" | FNum (S754_infinity true) => str "-inf" | _ => str "NaN" end) dest)]).
Proof. exact special_name. Qed.
Print Assumptions C62_special_by_name.
Theorem C78_by_name : forall P X f src s, List.In (X, f) [("LREAL", F64); ("REAL", F32)] -> reads src s ->
  (forall neg m e, number_text s neg m e -> exists x,
     rust_call P ("STRING_TO_" ++ X) [VS src] = Ok (VF x, [VS src]) /\ rounded f x neg (number_value neg m e)) /\
  (forall neg nan, special_text s neg nan -> exists x,
     rust_call P ("STRING_TO_" ++ X) [VS src] = Ok (VF x, [VS src]) /\ fl_negative x = neg /\
     (if nan then is_nan x = true else x = FNum (S754_infinity neg))) /\
  ((forall neg m e, ~ number_text s neg m e) -> (forall neg nan, ~ special_text s neg nan) ->
     rust_call P ("STRING_TO_" ++ X) [VS src] = Panic).
Proof. exact string_to_float_name. Qed.
Print Assumptions C78_by_name.

(** * Numbers and dates *)
Theorem C18_by_name : forall P X f l, List.In (X, f) float_names -> l <> [] ->
  let best (m : string) (le : spec_float -> spec_float -> bool) := exists r,
    rust_call P (m ++ "__" ++ X) (map VF l) = Ok (VF (fl_of_sf f r), map VF l) /\ List.In r (map fl_sf l) /\
    sf_nan r = forallb sf_nan (map fl_sf l) /\
    forall y, List.In y (map fl_sf l) -> sf_nan y = false -> le y r = true in
  best "MAX" SFleb /\ best "MIN" (fun y r => SFleb r y).
Proof. exact max_min_float_name. Qed.
Print Assumptions C18_by_name.
Theorem C27_by_name : forall P t n a b c, List.In t wide_ints -> of_type S_DATE n ->
  exists y m d, day_number (y, m, d) (n / DAY) /\
    rust_call P (instance_name "SPLIT_DATE" [t]) [VZ n; a; b; c] = Ok (VZ 0, [VZ n; VZ y; VZ m; VZ d]).
Proof. exact split_date_name. Qed.
Print Assumptions C27_by_name.
Theorem C29_by_name : forall P t n a b c e, List.In t wide_ints ->
  exists h mi s ms, valid_clock h mi s ms /\ clock_ns h mi s ms <= n mod DAY < clock_ns h mi s ms + MILLI /\
    rust_call P (instance_name "SPLIT_TOD" [t]) [VZ n; a; b; c; e] = Ok (VZ 0, [VZ n; VZ h; VZ mi; VZ s; VZ ms]).
Proof. exact split_tod_name. Qed.
Print Assumptions C29_by_name.
Theorem C33_by_name : forall P t n a b c e f g i, List.In t wide_ints -> of_type S_DT n ->
  exists y mo d h mi s ms, day_number (y, mo, d) (n / DAY) /\ valid_clock h mi s ms /\
    clock_ns h mi s ms <= n mod DAY < clock_ns h mi s ms + MILLI /\
    rust_call P (instance_name "SPLIT_DT" [t]) [VZ n; a; b; c; e; f; g; i] =
    Ok (VZ 0, [VZ n; VZ y; VZ mo; VZ d; VZ h; VZ mi; VZ s; VZ ms]).
Proof. exact split_dt_name. Qed.
Print Assumptions C33_by_name.
Theorem C30_by_name_partial : forall P t h mi s ms, List.In t [S_SINT; S_USINT; S_INT; S_UINT; S_DINT; S_UDINT] ->
  of_type t h -> of_type t mi -> of_type t s -> of_type t ms ->
  let ok := 0 <= h < 24 /\ 0 <= mi < 60 /\ 0 <= s < 60 /\ 0 <= ms /\ accepts_millis (p_chrono P) s ms in
  (ok -> result (rust_call P (instance_name "CONCAT_TOD" [t]) [VZ h; VZ mi; VZ s; VZ ms]) = Int (clock_ns h mi s ms)) /\
  (~ ok -> result (rust_call P (instance_name "CONCAT_TOD" [t]) [VZ h; VZ mi; VZ s; VZ ms]) = Panic).
Proof. exact concat_tod_name. Qed.
Print Assumptions C30_by_name_partial.
Theorem C28_by_name : forall P n, of_type S_DT n ->
  result (rust_call P "DATE_AND_TIME_TO_TIME_OF_DAY" [VZ n]) = Int (n mod DAY) /\
  result (rust_call P "DATE_AND_TIME_TO_DATE" [VZ n]) =
    (if of_typeb S_DATE (n - n mod DAY) then Int (n - n mod DAY) else Panic) /\
  (of_type S_DATE (n - n mod DAY) ->
     result (rust_call P "CONCAT_DATE_TOD" [VZ (n - n mod DAY); VZ (n mod DAY)]) = Int n).
Proof. exact dt_parts_name. Qed.
Print Assumptions C28_by_name.
Theorem C32_by_name : forall P n, of_type S_DATE n ->
  exists w, rust_call P "DAY_OF_WEEK" [VZ n] = Ok (VZ w, [VZ n]) /\ 0 <= w <= 6 /\ w = (n / DAY + 4) mod 7.
Proof. exact weekday_name. Qed.
Print Assumptions C32_by_name.
Theorem C71_by_name : forall P X f x, List.In (X, f) float_names ->
  fl_valid f x -> fl_finite x = true -> (0 <= fl_value x)%R ->
  exists y, rust_call P ("SQRT__" ++ X) [VF x] = Ok (VF y, [VF x]) /\ nearest_even f y (sqrt (fl_value x)).
Proof. exact sqrt_name. Qed.
Print Assumptions C71_by_name.
Theorem C68_round_by_name : forall P X f x, List.In (X, f) float_names -> fl_valid f x -> fl_finite x = true ->
  exists y k, rust_call P ("ROUND__" ++ X) [VF x] = Ok (VF y, [VF x]) /\ fl_valid f y /\
    fl_finite y = true /\ fl_value y = IZR k /\ nearest_int k (fl_value x).
Proof. exact round_name. Qed.
Print Assumptions C68_round_by_name.
Theorem C74_by_name : forall P X f x n M J, List.In (X, f) float_names ->
  fl_valid f x -> fl_finite x = true -> fl_value x = (IZR M * bpow radix2 J)%R ->
  of_type S_DINT n -> 0 <= n -> Z.abs (M ^ n) <= 2 ^ f_prec f ->
  f_emin f <= J * n -> f_prec f + J * n < f_emax f ->
  exists y, rust_call P ("EXPT__" ++ X ++ "__DINT") [VF x; VZ n] = Ok (VF y, [VF x; VZ n]) /\
    fl_valid f y /\ fl_finite y = true /\ fl_value y = (fl_value x ^ Z.to_nat n)%R.
Proof. exact expt_name. Qed.
Print Assumptions C74_by_name.
Theorem C25_by_name : forall P b x,
  (of_type S_DWORD b -> exists y, rust_call P "DWORD_TO_REAL" [VZ b] = Ok (VF y, [VZ b]) /\
     rust_call P "REAL_TO_DWORD" [VF y] = Ok (VZ b, [VF y])) /\
  (of_type S_LWORD b -> exists y, rust_call P "LWORD_TO_LREAL" [VZ b] = Ok (VF y, [VZ b]) /\
     rust_call P "LREAL_TO_LWORD" [VF y] = Ok (VZ b, [VF y])) /\
  (fl_valid F32 x -> exists c, rust_call P "REAL_TO_DWORD" [VF x] = Ok (VZ c, [VF x]) /\ of_type S_DWORD c /\
     rust_call P "DWORD_TO_REAL" [VZ c] = Ok (VF x, [VZ c])) /\
  (fl_valid F64 x -> exists c, rust_call P "LREAL_TO_LWORD" [VF x] = Ok (VZ c, [VF x]) /\ of_type S_LWORD c /\
     rust_call P "LWORD_TO_LREAL" [VZ c] = Ok (VF x, [VZ c])).
Proof. exact bits_name. Qed.
Print Assumptions C25_by_name.
Theorem C25_is_valid_by_name : forall P X f x, List.In (X, f) float_names -> fl_valid f x ->
  rust_call P ("IS_VALID__" ++ X) [VF x] = Ok (VZ (if fl_finite x then 1 else 0), [VF x]).
Proof. exact is_valid_name. Qed.
Print Assumptions C25_is_valid_by_name.
Theorem C23_floats_by_name : forall P X f g x, List.In (X, f) float_names -> fl_valid f x ->
  List.In g ["TO_BIG_ENDIAN__"; "TO_LITTLE_ENDIAN__"; "FROM_BIG_ENDIAN__"; "FROM_LITTLE_ENDIAN__"] ->
  rust_call P (g ++ X) [VF x] = Ok (VF x, [VF x]).
Proof. exact endian_float_name. Qed.
Print Assumptions C23_floats_by_name.
Theorem C73_by_name : forall P F X f t x, List.In (X, f) float_names -> of_type S_TIME t ->
  fl_valid f x -> fl_finite x = true ->
  (List.In F products ->
     let y := (IZR t * fl_value x)%R in
     (forall r, result (rust_call P (F ++ "__" ++ X) [VZ t; VF x]) = Int r -> (Rabs (IZR r - y) <= time_error (p_durgen P) f y)%R) /\
     ((Rabs y + time_error (p_durgen P) f y <= 9223372036854775807)%R ->
        exists r, result (rust_call P (F ++ "__" ++ X) [VZ t; VF x]) = Int r)) /\
  (List.In F quotients -> fl_value x <> 0%R ->
     let y := (IZR t / fl_value x)%R in
     (forall r, result (rust_call P (F ++ "__" ++ X) [VZ t; VF x]) = Int r -> (Rabs (IZR r - y) <= time_error (p_durgen P) f y)%R) /\
     ((Rabs y + time_error (p_durgen P) f y <= 9223372036854775807)%R ->
        exists r, result (rust_call P (F ++ "__" ++ X) [VZ t; VF x]) = Int r)).
Proof. exact time_real_name. Qed.
Print Assumptions C73_by_name.
Theorem C37_unsigned_by_name : forall P F X t k, List.In X [S_USINT; S_UINT; S_UDINT; S_ULINT] -> of_type S_TIME t -> of_type X k ->
  (List.In F products -> result (rust_call P (instance_name F [X]) [VZ t; VZ k]) =
     if (k <? 2 ^ 63) && of_typeb S_TIME (t * k) then Int (t * k) else Panic) /\
  (List.In F quotients -> result (rust_call P (instance_name F [X]) [VZ t; VZ k]) =
     if (0 <? k) && (k <? 2 ^ 63) then Int (Z.quot t k) else Panic).
Proof. exact time_unsigned_name. Qed.
Print Assumptions C37_unsigned_by_name.

(** * Examples of the hypotheses and of the calls *)
Example strings_by_name_example :
  holds WSTRING (mem WSTRING ex_hello) ex_hello /\ holds STRING (mem STRING ex_smile) ex_smile /\
  fits STRING (firstn 2 ex_hello) buf /\ ~ fits STRING ex_hello [1; 2; 3] /\
  rust_call here "LEN__WSTRING" [VS (mem WSTRING ex_hello)] = Ok (VZ 5, [VS (mem WSTRING ex_hello)]) /\
  rust_call here "LEFT_EXT__STRING" [VS (mem STRING ex_hello); VZ 2; VS [9; 9; 9; 9; 9]] =
    Ok (VZ 0, [VS (mem STRING ex_hello); VZ 2; VS [0x68; 0xC3; 0xA9; 0; 9]]) /\
  rust_call here "FIND__STRING" [VS (mem STRING ex_hello); VS (mem STRING ex_ll)] =
    Ok (VZ 3, [VS (mem STRING ex_hello); VS (mem STRING ex_ll)]) /\
  rust_call here "CONCAT_EXT__STRING" [VS [9; 9; 9; 9]; VS [0x41; 0]; VS [0x42; 0]] =
    Ok (VZ 0, [VS [0x41; 0x42; 0; 9]; VS [0x41; 0]; VS [0x42; 0]]) /\
  rust_call here "GT__WSTRING" [VS [3; 0]; VS [2; 9; 0]; VS [1; 0]] = Ok (VZ 1, [VS [3; 0]; VS [2; 9; 0]; VS [1; 0]]) /\
  rust_call here "NE__STRING" [VS [3; 0]; VS [3; 0; 7]] = Ok (VZ 0, [VS [3; 0]; VS [3; 0; 7]]) /\
  rust_call here "LT__STRING" [VS [3; 0]] = Panic.
Proof.
  split; [apply ex_holds|]. split; [apply ex_holds|]. split; [room|]. split; [unfold fits; cbn; lia|].
  repeat match goal with |- _ /\ _ => split end; vm_compute; reflexivity.
Qed.
Example texts_by_name_example :
  reads (str "-0x1F" ++ [0; 9])%list (str "-0x1F") /\ of_type S_BYTE 200 /\ (81 <= length (repeat 9 90))%nat /\
  omap snd (rust_call here "BYTE_TO_STRING_EXT" [VZ 200; VS (repeat 9 90)]) =
    Ok [VZ 200; VS (overwritten (str "200") (repeat 9 90))] /\
  omap snd (rust_call here "DATE_TO_STRING_EXT" [VZ (-1); VS (repeat 9 90)]) =
    Ok [VZ (-1); VS (overwritten (str "1969-12-31") (repeat 9 90))] /\
  omap fst (rust_call here "STRING_TO_DINT" [VS (str "0x1F" ++ [0; 9])%list]) = Ok (VZ 31) /\
  rust_call here "STRING_TO_DINT" [VS (str "2147483648" ++ [0; 9])%list] = Panic /\
  omap fst (rust_call here "TIME" []) = Ok (VZ 0).
Proof.
  split; [split; [repeat constructor; discriminate|now exists [9]]|]. split; [split; discriminate|].
  split; [rewrite repeat_length; lia|].
  repeat match goal with |- _ /\ _ => split end; vm_compute; reflexivity.
Qed.
Example numbers_by_name_example :
  let x := from_bits F32 1073741824 (* 2.0 *) in
  List.In ("REAL", F32) float_names /\ fl_valid F32 x /\ fl_finite x = true /\ of_type S_DT (-1) /\ of_type S_UINT 3 /\
  omap fst (rust_call here "MAX__REAL" [VF (FNan false 1); VF x; VF (FNum (S754_zero true))]) = Ok (VF x) /\
  omap snd (rust_call here "SPLIT_DATE__INT" [VZ (-1); VZ 0; VZ 0; VZ 0]) = Ok [VZ (-1); VZ 1969; VZ 12; VZ 31] /\
  omap fst (rust_call here "CONCAT_TOD__SINT" [VZ 23; VZ 59; VZ 59; VZ 100]) = Ok (VZ 86399100000000) /\
  omap fst (rust_call here "DAY_OF_WEEK" [VZ (-1)]) = Ok (VZ 3) /\
  omap fst (rust_call here "SQRT__REAL" [VF x]) = Ok (VF (from_bits F32 1068827891)) /\
  omap fst (rust_call here "EXPT__REAL__DINT" [VF x; VZ (-1)]) = Ok (VF (from_bits F32 1056964608)) /\
  omap fst (rust_call here "DWORD_TO_REAL" [VZ 1073741824]) = Ok (VF x) /\
  omap fst (rust_call here "IS_VALID__REAL" [VF (FNum (S754_infinity true))]) = Ok (VZ 0) /\
  omap fst (rust_call here "MUL_TIME__REAL" [VZ 7; VF x]) = Ok (VZ 14) /\
  omap fst (rust_call here "DIV_LTIME__UINT" [VZ (-7); VZ 3]) = Ok (VZ (-2)).
Proof.
  intros x. split; [now left|]. split; [vm_compute; reflexivity|]. split; [vm_compute; reflexivity|].
  split; [split; discriminate|]. split; [split; discriminate|].
  repeat match goal with |- _ /\ _ => split end; vm_compute; reflexivity.
Qed.
