(** What the expressions of a program mean.  [yields] and [fails] are a reference of the functions, one line
    each: what a function makes of arguments of given meanings, and which of them it aborts on.  [means] and
    [aborts] extend them to expressions of any depth. *)
From Coq Require Import String ZArith List Reals.
From Flocq Require Import Core.
From Verif Require Import Base ModelFloat ModelString ModelExtra ModelLink ModelLib ModelApi SpecScalar SpecReal SpecText SpecExtra SpecDate SpecLib SpecConv SpecCall SpecTicks
  SpecExpr SpecNum.
Import ListNotations.
Open Scope string_scope.
Open Scope list_scope.
Open Scope Z_scope.

(** The meaning of a value: an integer (bit string, time in nanoseconds, ...), a text, a finite real number. *)
Inductive meaning :=
| Whole (t : sty) (z : Z)
| Text (k : kind) (s : list Z)
| Real (t : sty) (q : R).
Definition stands_for (tv : sty * value) (m : meaning) : Prop :=
  match m with
  | Whole t z => tv = (t, VZ z) /\ of_type t z
  | Text k s => exists d, tv = (string_type k, VS d) /\ holds k d s
  | Real t q => exists v, tv = (t, VF v) /\ List.In t reals /\ fl_valid (fmt_of t) v /\ fl_finite v = true /\ fl_value v = q
  end.

(** ** Words used in the reference *)
Definition convertible : list sty := (word_types ++ integer_types)%list.
Definition is_max (m : Z) (zs : list Z) : Prop := List.In m zs /\ forall z, List.In z zs -> z <= m.
Definition is_min (m : Z) (zs : list Z) : Prop := List.In m zs /\ forall z, List.In z zs -> m <= z.
Definition is_max_real (m : R) (qs : list R) : Prop := List.In m qs /\ forall q, List.In q qs -> (q <= m)%R.
Definition is_min_real (m : R) (qs : list R) : Prop := List.In m qs /\ forall q, List.In q qs -> (m <= q)%R.
(** The functions that reverse the bytes on this machine; the others of the four do nothing. *)
Definition byte_order_names : list string := ["TO_BIG_ENDIAN"; "TO_LITTLE_ENDIAN"; "FROM_BIG_ENDIAN"; "FROM_LITTLE_ENDIAN"].
Definition reversing (e : endian) : list string :=
  match e with LittleEndian => ["TO_BIG_ENDIAN"; "FROM_LITTLE_ENDIAN"] | BigEndian => ["TO_LITTLE_ENDIAN"; "FROM_BIG_ENDIAN"] end.
Definition bytes (t : sty) : Z := match t with S_INT | S_UINT | S_WORD | S_WCHAR => 2 | S_DINT | S_UDINT | S_DWORD => 4 | _ => 8 end.
Definition byte (z i : Z) : Z := z / 256 ^ i mod 256.
(** [b] is TRUE exactly if [p]. *)
Definition truth (b : Z) (p : Prop) : Prop := (b = 1 /\ p) \/ (b = 0 /\ ~ p).
(** [q] is a number of the type. *)
Definition representable_real (t : sty) (q : R) : Prop := exists v, fl_valid (fmt_of t) v /\ fl_finite v = true /\ fl_value v = q.
(** [p] is the number of the type nearest to [q], ties to even. *)
Definition rounds_to (t : sty) (q p : R) : Prop := exists v, nearest_even (fmt_of t) v q /\ fl_value v = p.
(** The text fits into a string. *)
Definition short (k : kind) (s : list Z) : Prop := (length (units k s) <= 2048)%nat.
(** Integer types with a text form. *)
Definition printed_types : list sty := [S_BYTE; S_DWORD; S_LWORD; S_DINT; S_LINT].
Definition of_text (k : kind) (t : sty) : string := (match k with STRING => "STRING_TO_" | WSTRING => "WSTRING_TO_" end ++ type_name t)%string.
Definition to_text (t : sty) (k : kind) : string := (type_name t ++ match k with STRING => "_TO_STRING" | WSTRING => "_TO_WSTRING" end)%string.

(** The time of day [x] as a text. *)
Definition daytime_text (s : list Z) (x : Z) : Prop := exists h m sec ns, clock_text s h m sec ns /\ 0 <= h < 24 /\ 0 <= m < 60 /\ 0 <= sec < 60 /\
  0 <= ns < SECOND /\ h * HOUR + m * MINUTE + sec * SECOND + ns = x.

(** The number [q], not zero, as a text: six decimals, from 10^14 on seven digits and a power of ten.  (The text of zero has
    the sign of the zero, which [meaning] does not tell.) *)
Definition number_shown (s : list Z) (q : R) : Prop := q <> 0%R /\ exists v, fl_value v = q /\ (fl_negative v = true <-> (q < 0)%R) /\
  ((q < IZR (10 ^ 14))%R -> fixed6_text s v) /\ ((IZR (10 ^ 14) <= q)%R -> exp6_text s v).
(** Characters and the other types of their size or more. *)
Definition char_casts : list (sty * sty) :=
  [(S_BYTE, S_CHAR); (S_CHAR, S_BYTE); (S_CHAR, S_WORD); (S_CHAR, S_DWORD); (S_CHAR, S_LWORD); (S_CHAR, S_WCHAR);
   (S_WCHAR, S_WORD); (S_WCHAR, S_DWORD); (S_WCHAR, S_LWORD)].

(** Times and dates, and their conversions to and from numbers of 64 bits: the types in the name, and the declared
    type of the result. *)
Definition moments : list sty := [S_TIME; S_LTIME; S_DATE; S_LDATE; S_TOD; S_LTOD; S_DT; S_LDT].
Definition recasts : list (sty * sty * sty) :=
  flat_map (fun t => [(t, S_LINT, S_LINT); (t, S_ULINT, S_ULINT); (t, S_LWORD, S_LWORD); (S_LWORD, t, unlong t)]) moments ++
  map (fun t => (S_ULINT, t, unlong t)) [S_TIME; S_DATE; S_LDATE; S_TOD; S_LTOD; S_DT; S_LDT] ++
  map (fun t => (S_LINT, t, unlong t)) [S_TIME; S_LTIME; S_DATE; S_LDATE; S_TOD; S_LTOD] ++
  [(S_ULINT, S_LTIME, S_LTIME); (S_TIME, S_LTIME, S_LTIME); (S_LTIME, S_TIME, S_TIME); (S_DT, S_LDT, S_LDT); (S_LDT, S_DT, S_DT);
   (S_TOD, S_LTOD, S_LTOD); (S_LTOD, S_TOD, S_TOD)].
(** The functions for times and dates that are not generic. *)
Definition time_adders : list (string * sty) := [("ADD_TIME", S_TIME); ("ADD__TIME__TIME", S_TIME); ("ADD_LTIME", S_LTIME)].
Definition time_subtracters : list (string * sty) := [("SUB_TIME", S_TIME); ("SUB__TIME__TIME", S_TIME); ("SUB_LTIME", S_LTIME)].
Definition adders : list (string * sty * sty) :=
  [("ADD_TOD_TIME", S_TOD, S_TIME); ("ADD__TIME_OF_DAY__TIME", S_TOD, S_TIME); ("ADD_LTOD_LTIME", S_LTOD, S_LTIME);
   ("ADD_DT_TIME", S_DT, S_TIME); ("ADD__DATE_AND_TIME__TIME", S_DT, S_TIME); ("ADD_LDT_LTIME", S_LDT, S_LTIME)].
Definition subtracters : list (string * sty * sty) :=
  [("SUB_TOD_TIME", S_TOD, S_TIME); ("SUB__TIME_OF_DAY__TIME", S_TOD, S_TIME); ("SUB_LTOD_LTIME", S_LTOD, S_LTIME);
   ("SUB_DT_TIME", S_DT, S_TIME); ("SUB__DATE_AND_TIME__TIME", S_DT, S_TIME); ("SUB_LDT_LTIME", S_LDT, S_LTIME)].
Definition differences : list (string * sty * sty) :=
  [("SUB_DATE_DATE", S_DATE, S_TIME); ("SUB__DATE__DATE", S_DATE, S_TIME); ("SUB_LDATE_LDATE", S_LDATE, S_LTIME);
   ("SUB_TOD_TOD", S_TOD, S_TIME); ("SUB__TIME_OF_DAY__TIME_OF_DAY", S_TOD, S_TIME); ("SUB_LTOD_LTOD", S_LTOD, S_LTIME);
   ("SUB_DT_DT", S_DT, S_TIME); ("SUB__DATE_AND_TIME__DATE_AND_TIME", S_DT, S_TIME); ("SUB_LDT_LDT", S_LDT, S_LTIME)].
Definition multipliers : list (string * sty) := [("MUL_TIME", S_TIME); ("MUL_LTIME", S_LTIME)].
Definition dividers : list (string * sty) := [("DIV_TIME", S_TIME); ("DIV_LTIME", S_LTIME)].
Definition real_multipliers : list (string * sty) := ("MUL", S_TIME) :: multipliers.
Definition real_dividers : list (string * sty) := ("DIV", S_TIME) :: dividers.
(** Variants of DT_TO_DATE and DT_TO_TOD. *)
Definition date_parts : list (string * sty) := [("LDT_TO_DATE", S_LDT); ("DATE_AND_TIME_TO_DATE", S_DT)].
Definition tod_parts : list (string * sty * sty) :=
  [("LDT_TO_TOD", S_LDT, S_TOD); ("DT_TO_LTOD", S_DT, S_LTOD); ("LDT_TO_LTOD", S_LDT, S_LTOD); ("DATE_AND_TIME_TO_TIME_OF_DAY", S_DT, S_TOD)].
(** The hour, minute, second and millisecond CONCAT_TOD accepts, given with types of up to 32 bits. *)
Definition clock_types : list sty := [S_SINT; S_USINT; S_INT; S_UINT; S_DINT; S_UDINT].
Definition accepted_clock (P : platform) (h mi s ms : Z) : Prop :=
  0 <= h < 24 /\ 0 <= mi < 60 /\ 0 <= s < 60 /\ 0 <= ms /\ accepts_millis (p_chrono P) s ms.
(** The nanoseconds of a date and a time of day. *)
Definition joined (a b : Z) : Z := a - a mod DAY + b mod DAY.

(** ** The reference *)
Inductive yields (P : platform) : string -> list meaning -> meaning -> Prop :=
(* Conversions keep the value if the type has it, otherwise the lowest bits. *)
| y_convert : forall a b z w, List.In a convertible -> List.In b convertible -> a <> b -> of_type b w -> w mod values b = z mod values b ->
    yields P (conversion_name a b) [Whole a z] (Whole b w)
(* Shifts and rotations; in release builds long shifts are shortened. *)
| y_shl : forall t v k, List.In t bit_strings -> k < width t -> yields P "SHL" [Whole t v; Whole S_UDINT k] (Whole t (v * 2 ^ k mod values t))
| y_shr : forall t v k, List.In t bit_strings -> k < width t -> yields P "SHR" [Whole t v; Whole S_UDINT k] (Whole t (v / 2 ^ k))
| y_shl_long : forall t v k, List.In t bit_strings -> width t <= k -> p_profile P = Release ->
    yields P "SHL" [Whole t v; Whole S_UDINT k] (Whole t (v * 2 ^ (k mod width t) mod values t))
| y_shr_long : forall t v k, List.In t bit_strings -> width t <= k -> p_profile P = Release ->
    yields P "SHR" [Whole t v; Whole S_UDINT k] (Whole t (v / 2 ^ (k mod width t)))
| y_rol : forall t v k w, List.In t bit_strings -> of_type t w -> (forall i, 0 <= i < width t -> Z.testbit w ((i + k) mod width t) = Z.testbit v i) ->
    yields P "ROL" [Whole t v; Whole S_UDINT k] (Whole t w)
| y_ror : forall t v k w, List.In t bit_strings -> of_type t w -> (forall i, 0 <= i < width t -> Z.testbit w i = Z.testbit v ((i + k) mod width t)) ->
    yields P "ROR" [Whole t v; Whole S_UDINT k] (Whole t w)
(* Byte order. *)
| y_reversed : forall f t v w, List.In t byte_ordered -> List.In f (reversing (p_endian P)) -> of_type t w ->
    (forall i, 0 <= i < bytes t -> byte w i = byte v (bytes t - 1 - i)) -> yields P f [Whole t v] (Whole t w)
| y_kept : forall f t v, List.In t byte_ordered -> List.In f byte_order_names -> ~ List.In f (reversing (p_endian P)) -> yields P f [Whole t v] (Whole t v)
(* Selection. *)
| y_max : forall t zs m, List.In t ordered -> is_max m zs -> yields P "MAX" (map (Whole t) zs) (Whole t m)
| y_min : forall t zs m, List.In t ordered -> is_min m zs -> yields P "MIN" (map (Whole t) zs) (Whole t m)
| y_limit : forall t a z b, List.In t ordered -> a <= b -> yields P "LIMIT" [Whole t a; Whole t z; Whole t b] (Whole t (Z.max a (Z.min z b)))
| y_limit_low : forall t a z b, List.In t ordered -> b < a -> z < a -> yields P "LIMIT" [Whole t a; Whole t z; Whole t b] (Whole t a)
| y_limit_high : forall t a z b, List.In t ordered -> b < a -> a <= z -> yields P "LIMIT" [Whole t a; Whole t z; Whole t b] (Whole t b)
| y_bcd : forall t z b, List.In t bit_strings -> truth b (exists n, 0 <= n < 10 ^ (width t / 4) /\ z = bcd_encode (Z.to_nat (width t / 4)) n) ->
    yields P "IS_VALID_BCD" [Whole t z] (Whole S_BOOL b)
(* Times and dates. *)
| y_add : forall a b, of_type S_TIME (a + b) -> yields P "ADD" [Whole S_TIME a; Whole S_TIME b] (Whole S_TIME (a + b))
| y_sub : forall a b, of_type S_TIME (a - b) -> yields P "SUB" [Whole S_TIME a; Whole S_TIME b] (Whole S_TIME (a - b))
| y_between : forall t a b, List.In t [S_DATE; S_TOD; S_DT] -> of_type S_TIME (a - b) -> yields P "SUB" [Whole t a; Whole t b] (Whole S_TIME (a - b))
| y_later : forall t a b, List.In t [S_TOD; S_DT] -> representable (p_chrono P) (a + b) -> yields P "ADD" [Whole t a; Whole S_TIME b] (Whole t (a + b))
| y_earlier : forall t a b, List.In t [S_TOD; S_DT] -> representable (p_chrono P) (a - b) -> yields P "SUB" [Whole t a; Whole S_TIME b] (Whole t (a - b))
| y_mul : forall t a z, List.In t integers -> of_type S_LINT z -> of_type S_TIME (a * z) -> yields P "MUL" [Whole S_TIME a; Whole t z] (Whole S_TIME (a * z))
| y_div : forall t a z, List.In t integers -> of_type S_LINT z -> z <> 0 -> of_type S_TIME (Z.quot a z) ->
    yields P "DIV" [Whole S_TIME a; Whole t z] (Whole S_TIME (Z.quot a z))
| y_date : forall t y m d n, List.In t narrow_ints -> day_number (y, m, d) n -> of_type S_DATE (n * DAY) ->
    yields P "CONCAT_DATE" [Whole t y; Whole t m; Whole t d] (Whole S_DATE (n * DAY))
| y_weekday : forall n, yields P "DAY_OF_WEEK" [Whole S_DATE n] (Whole S_SINT ((n / DAY + 4) mod 7))
| y_date_of : forall n, of_type S_DATE (n - n mod DAY) -> yields P "DT_TO_DATE" [Whole S_DT n] (Whole S_DATE (n - n mod DAY))
| y_tod_of : forall n, yields P "DT_TO_TOD" [Whole S_DT n] (Whole S_TOD (n mod DAY))
(* Texts. *)
| y_len : forall k s, slen s < 2 ^ 31 -> yields P "LEN" [Text k s] (Whole S_DINT (slen s))
| y_left : forall k s n, short k s -> 0 <= n <= slen s -> yields P "LEFT" [Text k s; Whole S_DINT n] (Text k (firstn (Z.to_nat n) s))
| y_right : forall k s n, short k s -> 0 <= n <= slen s -> yields P "RIGHT" [Text k s; Whole S_DINT n] (Text k (skipn (length s - Z.to_nat n) s))
| y_mid : forall k s l p, short k s -> 0 <= l -> 1 <= p <= slen s -> p - 1 + l <= slen s ->
    yields P "MID" [Text k s; Whole S_DINT l; Whole S_DINT p] (Text k (firstn (Z.to_nat l) (skipn (Z.to_nat (p - 1)) s)))
| y_delete : forall k s l p, short k s -> 0 <= l -> 1 <= p <= slen s -> p - 1 + l <= slen s ->
    yields P "DELETE" [Text k s; Whole S_DINT l; Whole S_DINT p] (Text k (firstn (Z.to_nat (p - 1)) s ++ skipn (Z.to_nat (p - 1 + l)) s))
| y_insert : forall k s t p, slen s < 2 ^ 31 -> 0 <= p <= slen s -> short k (firstn (Z.to_nat p) s ++ t ++ skipn (Z.to_nat p) s) ->
    yields P "INSERT" [Text k s; Text k t; Whole S_DINT p] (Text k (firstn (Z.to_nat p) s ++ t ++ skipn (Z.to_nat p) s))
| y_replace : forall k s t l p, slen s < 2 ^ 31 -> 0 <= l -> 1 <= p <= slen s -> p - 1 + l <= slen s ->
    short k (firstn (Z.to_nat (p - 1)) s ++ t ++ skipn (Z.to_nat (p - 1 + l)) s) ->
    yields P "REPLACE" [Text k s; Text k t; Whole S_DINT l; Whole S_DINT p] (Text k (firstn (Z.to_nat (p - 1)) s ++ t ++ skipn (Z.to_nat (p - 1 + l)) s))
(* Release builds accept negative lengths: a part of the text is repeated (C44). *)
| y_delete_back : forall k s l p, p_profile P = Release -> slen s < 2 ^ 31 -> l < 0 -> 0 <= p - 1 + l -> p <= slen s ->
    short k (firstn (Z.to_nat (p - 1)) s ++ skipn (Z.to_nat (p - 1 + l)) s) ->
    yields P "DELETE" [Text k s; Whole S_DINT l; Whole S_DINT p] (Text k (firstn (Z.to_nat (p - 1)) s ++ skipn (Z.to_nat (p - 1 + l)) s))
| y_replace_back : forall k s t l p, p_profile P = Release -> slen s < 2 ^ 31 -> l < 0 -> 0 <= p - 1 + l -> p <= slen s ->
    short k (firstn (Z.to_nat (p - 1)) s ++ t ++ skipn (Z.to_nat (p - 1 + l)) s) ->
    yields P "REPLACE" [Text k s; Text k t; Whole S_DINT l; Whole S_DINT p] (Text k (firstn (Z.to_nat (p - 1)) s ++ t ++ skipn (Z.to_nat (p - 1 + l)) s))
| y_concat : forall k ss, ss <> [] -> short k (List.concat ss) -> yields P "CONCAT" (map (Text k) ss) (Text k (List.concat ss))
| y_found : forall k s t n, slen s < 2 ^ 31 -> t <> [] -> first_at t s n -> yields P "FIND" [Text k s; Text k t] (Whole S_DINT (Z.of_nat n + 1))
| y_not_found : forall k s t, slen s < 2 ^ 31 -> t = [] \/ (forall n, ~ occurs_at t s n) -> yields P "FIND" [Text k s; Text k t] (Whole S_DINT 0)
| y_eq : forall k s t b, truth b (s = t) -> yields P "EQ" [Text k s; Text k t] (Whole S_BOOL b)
| y_ne : forall k s t b, truth b (s <> t) -> yields P "NE" [Text k s; Text k t] (Whole S_BOOL b)
| y_lt : forall k s t b, truth b (lex_lt (units k s) (units k t)) -> yields P "LT" [Text k s; Text k t] (Whole S_BOOL b)
| y_gt : forall k s t b, truth b (lex_lt (units k t) (units k s)) -> yields P "GT" [Text k s; Text k t] (Whole S_BOOL b)
| y_le : forall k s t b, truth b (lex_le (units k s) (units k t)) -> yields P "LE" [Text k s; Text k t] (Whole S_BOOL b)
| y_ge : forall k s t b, truth b (lex_le (units k t) (units k s)) -> yields P "GE" [Text k s; Text k t] (Whole S_BOOL b)
| y_narrow_text : forall s, short STRING s -> yields P "WSTRING_TO_STRING" [Text WSTRING s] (Text STRING s)
| y_wide_text : forall s, short STRING s -> yields P "STRING_TO_WSTRING" [Text STRING s] (Text WSTRING s)
| y_print : forall t z s k, List.In t printed_types -> canonical_int s z -> yields P (to_text t k) [Whole t z] (Text k s)
| y_print_time : forall t z s k, List.In t [S_TIME; S_LTIME] -> 0 <= z -> time_text s z -> yields P (to_text t k) [Whole t z] (Text k s)
(* Negative times lose their sign, and the number of whole days is an unsigned 32-bit number (C60). *)
| y_print_negative : forall t z s k, List.In t [S_TIME; S_LTIME] -> z < 0 -> time_text s ((if - DAY <? z then 0 else 2 ^ 32 + Z.quot z DAY) * DAY + z mod DAY) ->
    yields P (to_text t k) [Whole t z] (Text k s)
| y_print_date : forall t z s y m d k, List.In t [S_DATE; S_LDATE] -> date_text s y m d -> day_number (y, m, d) (z / DAY) -> yields P (to_text t k) [Whole t z] (Text k s)
| y_parse : forall t s z, List.In t [S_LINT; S_DINT] -> int_text (units STRING s) z -> of_type t z -> yields P (of_text STRING t) [Text STRING s] (Whole t z)
| y_print_tod : forall t z s k, List.In t [S_TOD; S_LTOD] -> daytime_text s (z mod DAY) -> yields P (to_text t k) [Whole t z] (Text k s)
| y_print_dt : forall t z s s' y m d k, List.In t [S_DT; S_LDT] -> date_text s y m d -> day_number (y, m, d) (z / DAY) -> daytime_text s' (z mod DAY) ->
    yields P (to_text t k) [Whole t z] (Text k (s ++ str "-" ++ s'))
(* A wide text is read as a LINT, of which WSTRING_TO_DINT keeps the lowest bits. *)
| y_parse_wide : forall t s z w, List.In t [S_LINT; S_DINT] -> (length (units STRING s) <= 80)%nat -> int_text (units STRING s) z -> of_type S_LINT z ->
    of_type t w -> w mod values t = z mod values t -> yields P (of_text WSTRING t) [Text WSTRING s] (Whole t w)
(* Real numbers. *)
| y_abs : forall t q, yields P "ABS" [Real t q] (Real t (Rabs q))
| y_round : forall t q n, nearest_int n q -> yields P "ROUND" [Real t q] (Real t (IZR n))
| y_trunc : forall t q n, integer_part n q -> of_type S_LINT n -> yields P "TRUNC" [Real t q] (Whole S_LINT n)
| y_to_integer : forall t a q n, List.In a integers -> nearest_int n q -> of_type a n -> yields P (conversion_name t a) [Real t q] (Whole a n)
| y_of_integer : forall t a z p, List.In t reals -> List.In a integers -> rounds_to t (IZR z) p -> yields P (conversion_name a t) [Whole a z] (Real t p)
| y_widen : forall q, yields P "REAL_TO_LREAL" [Real S_REAL q] (Real S_LREAL q)
| y_narrow : forall q p, (Rabs q < IZR (2 ^ 128 - 2 ^ 103))%R -> rounds_to S_REAL q p -> yields P "LREAL_TO_REAL" [Real S_LREAL q] (Real S_REAL p)
| y_sqrt : forall t q p, (0 <= q)%R -> rounds_to t (sqrt q) p -> yields P "SQRT" [Real t q] (Real t p)
| y_max_real : forall t qs m, is_max_real m qs -> yields P "MAX" (map (Real t) qs) (Real t m)
| y_min_real : forall t qs m, is_min_real m qs -> yields P "MIN" (map (Real t) qs) (Real t m)
| y_limit_real : forall t a q b, (a <= b)%R -> yields P "LIMIT" [Real t a; Real t q; Real t b] (Real t (Rmax a (Rmin q b)))
(* Times and dates as numbers keep their 64 bits. *)
| y_recast : forall a b u z w, List.In (a, b, u) recasts -> of_type u w -> w mod 2 ^ 64 = z mod 2 ^ 64 -> yields P (conversion_name a b) [Whole a z] (Whole u w)
(* BOOL: a number is TRUE unless it is zero, a bit string if its lowest bit is set (C66). *)
| y_number_bool : forall t z b, List.In t [S_DINT; S_LINT] -> truth b (z <> 0) -> yields P (conversion_name t S_BOOL) [Whole t z] (Whole S_BOOL b)
| y_bits_bool : forall t z, List.In t bit_strings -> yields P (conversion_name t S_BOOL) [Whole t z] (Whole S_BOOL (z mod 2))
| y_of_bool : forall t z, List.In t convertible -> yields P (conversion_name S_BOOL t) [Whole S_BOOL z] (Whole t z)
(* The absolute value, unless the type has none for the lowest number (C67). *)
| y_abs_whole : forall t z, List.In t [S_SINT; S_INT; S_DINT; S_LINT] -> of_type t (Z.abs z) -> yields P "ABS" [Whole t z] (Whole t (Z.abs z))
| y_abs_lowest : forall t z, List.In t [S_SINT; S_INT; S_DINT; S_LINT] -> ~ of_type t (Z.abs z) -> yields P "ABS" [Whole t z] (Whole t z)
(* Times and dates by other names. *)
| y_add_times : forall f t a b, List.In (f, t) time_adders -> of_type t (a + b) -> yields P f [Whole t a; Whole t b] (Whole t (a + b))
| y_sub_times : forall f t a b, List.In (f, t) time_subtracters -> of_type t (a - b) -> yields P f [Whole t a; Whole t b] (Whole t (a - b))
| y_add_named : forall f t u a b, List.In (f, t, u) adders -> representable (p_chrono P) (a + b) -> yields P f [Whole t a; Whole u b] (Whole t (a + b))
| y_sub_named : forall f t u a b, List.In (f, t, u) subtracters -> representable (p_chrono P) (a - b) -> yields P f [Whole t a; Whole u b] (Whole t (a - b))
| y_difference : forall f t u a b, List.In (f, t, u) differences -> of_type u (a - b) -> yields P f [Whole t a; Whole t b] (Whole u (a - b))
| y_mul_named : forall f u t a z, List.In (f, u) multipliers -> List.In t integers -> of_type S_LINT z -> of_type u (a * z) ->
    yields P f [Whole u a; Whole t z] (Whole u (a * z))
| y_div_named : forall f u t a z, List.In (f, u) dividers -> List.In t integers -> of_type S_LINT z -> z <> 0 -> of_type u (Z.quot a z) ->
    yields P f [Whole u a; Whole t z] (Whole u (Z.quot a z))
| y_date_part : forall f t n, List.In (f, t) date_parts -> of_type S_DATE (n - n mod DAY) -> yields P f [Whole t n] (Whole S_DATE (n - n mod DAY))
| y_tod_part : forall f t u n, List.In (f, t, u) tod_parts -> yields P f [Whole t n] (Whole u (n mod DAY))
(* Put together from parts. *)
| y_clock : forall f u t h mi s ms, List.In (f, u) [("CONCAT_TOD", S_TOD); ("CONCAT_LTOD", S_LTOD)] -> List.In t clock_types -> accepted_clock P h mi s ms ->
    yields P f [Whole t h; Whole t mi; Whole t s; Whole t ms] (Whole u (clock_ns h mi s ms))
| y_join : forall f u a b, List.In (f, u) [("CONCAT_DATE_TOD", S_TOD); ("CONCAT_DATE_LTOD", S_LTOD)] -> representable (p_chrono P) (joined a b) ->
    yields P f [Whole S_DATE a; Whole u b] (Whole S_DT (joined a b))
| y_stamp : forall f u t y m d h mi s ms n, List.In (f, u) [("CONCAT_DT", S_DT); ("CONCAT_LDT", S_LDT)] -> List.In t narrow_ints ->
    day_number (y, m, d) n -> of_type S_DATE (n * DAY) -> accepted_clock P h mi s ms -> representable (p_chrono P) (joined (n * DAY) (clock_ns h mi s ms)) ->
    yields P f (map (Whole t) [y; m; d; h; mi; s; ms]) (Whole u (joined (n * DAY) (clock_ns h mi s ms)))
(* Characters.  A character that is not in ASCII is cut down to the first byte of its UTF-8 code. *)
| y_char : forall a b z, List.In (a, b) char_casts -> yields P (conversion_name a b) [Whole a z] (Whole b z)
| y_narrow_char : forall w, yields P "WCHAR_TO_CHAR" [Whole S_WCHAR w] (Whole S_CHAR (hd 0 (units STRING [if andb (0xD800 <=? w) (w <=? 0xDFFF) then 0xFFFD else w])))
| y_first : forall s, yields P "STRING_TO_CHAR" [Text STRING s] (Whole S_CHAR (hd 0 (units STRING s)))
| y_first_wide : forall s, yields P "WSTRING_TO_WCHAR" [Text WSTRING s] (Whole S_WCHAR (hd 0 (units WSTRING s)))
(* More of real numbers. *)
| y_power : forall t u n m j, List.In u integers -> of_type S_DINT n -> 0 <= n -> Z.abs (m ^ n) <= 2 ^ f_prec (fmt_of t) -> f_emin (fmt_of t) <= j * n ->
    f_prec (fmt_of t) + j * n < f_emax (fmt_of t) ->
    yields P "EXPT" [Real t (IZR m * bpow radix2 j); Whole u n] (Real t ((IZR m * bpow radix2 j) ^ Z.to_nat n)%R)
| y_time_lreal : forall t z p, List.In t [S_TIME; S_LTIME] -> rounds_to S_LREAL (IZR z) p -> yields P (conversion_name t S_LREAL) [Whole t z] (Real S_LREAL p)
| y_lreal_time : forall t q n, List.In t [S_TIME; S_LTIME] -> nearest_int n q -> of_type S_TIME n -> yields P (conversion_name S_LREAL t) [Real S_LREAL q] (Whole S_TIME n)
| y_valid : forall t q, yields P "IS_VALID" [Real t q] (Whole S_BOOL 1)
| y_print_real : forall t q s k, (t = S_LREAL -> (IZR (- 10 ^ 73) < q)%R) -> number_shown s q -> yields P (to_text t k) [Real t q] (Text k s)
| y_parse_real : forall t s neg m e p, List.In t reals -> number_text (units STRING s) neg m e -> (Rabs (number_value neg m e) < max_plus_half (fmt_of t))%R ->
    rounds_to t (number_value neg m e) p -> yields P (of_text STRING t) [Text STRING s] (Real t p)
| y_parse_real_wide : forall t s neg m e p, List.In t reals -> (length (units STRING s) <= 80)%nat -> number_text (units STRING s) neg m e ->
    (Rabs (number_value neg m e) < max_plus_half (fmt_of t))%R -> rounds_to t (number_value neg m e) p -> yields P (of_text WSTRING t) [Text WSTRING s] (Real t p)
(* Times and real numbers: what needs no rounding. *)
| y_mul_real : forall f u t a q b, List.In (f, u) real_multipliers -> unrounded (p_durgen P) (fmt_of t) a b -> IZR b = (IZR a * q)%R -> of_type u b ->
    yields P f [Whole u a; Real t q] (Whole u b)
| y_div_real : forall f u t a q b, List.In (f, u) real_dividers -> unrounded (p_durgen P) (fmt_of t) a b -> q <> 0%R -> IZR b = (IZR a / q)%R -> of_type u b ->
    yields P f [Whole u a; Real t q] (Whole u b).

(** Aborts. *)
Inductive fails (P : platform) : string -> list meaning -> Prop :=
| f_shl : forall t v k, List.In t bit_strings -> width t <= k -> p_profile P = Debug -> fails P "SHL" [Whole t v; Whole S_UDINT k]
| f_shr : forall t v k, List.In t bit_strings -> width t <= k -> p_profile P = Debug -> fails P "SHR" [Whole t v; Whole S_UDINT k]
| f_add : forall a b, ~ of_type S_TIME (a + b) -> fails P "ADD" [Whole S_TIME a; Whole S_TIME b]
| f_sub : forall a b, ~ of_type S_TIME (a - b) -> fails P "SUB" [Whole S_TIME a; Whole S_TIME b]
| f_between : forall t a b, List.In t [S_DATE; S_TOD; S_DT] -> ~ of_type S_TIME (a - b) -> fails P "SUB" [Whole t a; Whole t b]
| f_later : forall t a b, List.In t [S_TOD; S_DT] -> ~ representable (p_chrono P) (a + b) -> fails P "ADD" [Whole t a; Whole S_TIME b]
| f_earlier : forall t a b, List.In t [S_TOD; S_DT] -> ~ representable (p_chrono P) (a - b) -> fails P "SUB" [Whole t a; Whole S_TIME b]
| f_mul : forall t a z, List.In t integers -> ~ (of_type S_LINT z /\ of_type S_TIME (a * z)) -> fails P "MUL" [Whole S_TIME a; Whole t z]
| f_div : forall t a z, List.In t integers -> ~ (of_type S_LINT z /\ z <> 0 /\ of_type S_TIME (Z.quot a z)) -> fails P "DIV" [Whole S_TIME a; Whole t z]
| f_date : forall t y m d, List.In t narrow_ints -> (forall n, day_number (y, m, d) n -> ~ of_type S_DATE (n * DAY)) ->
    fails P "CONCAT_DATE" [Whole t y; Whole t m; Whole t d]
| f_date_of : forall n, ~ of_type S_DATE (n - n mod DAY) -> fails P "DT_TO_DATE" [Whole S_DT n]
| f_left : forall k s n, short k s -> ~ 0 <= n <= slen s -> fails P "LEFT" [Text k s; Whole S_DINT n]
| f_right : forall k s n, short k s -> ~ 0 <= n <= slen s -> fails P "RIGHT" [Text k s; Whole S_DINT n]
| f_mid : forall k s l p, short k s -> ~ (0 <= l /\ 1 <= p <= slen s /\ p - 1 + l <= slen s) -> fails P "MID" [Text k s; Whole S_DINT l; Whole S_DINT p]
| f_delete : forall k s l p, short k s -> 0 <= l -> ~ (1 <= p <= slen s /\ p - 1 + l <= slen s) -> fails P "DELETE" [Text k s; Whole S_DINT l; Whole S_DINT p]
| f_parse : forall t s, List.In t [S_LINT; S_DINT] -> (forall z, int_text (units STRING s) z -> ~ of_type t z) -> fails P (of_text STRING t) [Text STRING s]
| f_insert : forall k s t p, slen s < 2 ^ 31 -> ~ 0 <= p <= slen s -> fails P "INSERT" [Text k s; Text k t; Whole S_DINT p]
| f_replace : forall k s t l p, slen s < 2 ^ 31 -> 0 <= l -> ~ (1 <= p <= slen s /\ p - 1 + l <= slen s) ->
    fails P "REPLACE" [Text k s; Text k t; Whole S_DINT l; Whole S_DINT p]
| f_delete_back : forall k s l p, slen s < 2 ^ 31 -> l < 0 -> p_profile P = Debug \/ ~ (0 <= p - 1 + l /\ p <= slen s) ->
    fails P "DELETE" [Text k s; Whole S_DINT l; Whole S_DINT p]
| f_replace_back : forall k s t l p, slen s < 2 ^ 31 -> l < 0 -> p_profile P = Debug \/ ~ (0 <= p - 1 + l /\ p <= slen s) ->
    fails P "REPLACE" [Text k s; Text k t; Whole S_DINT l; Whole S_DINT p]
| f_parse_wide : forall t s, List.In t [S_LINT; S_DINT] -> (length (units STRING s) <= 80)%nat -> (forall z, int_text (units STRING s) z -> ~ of_type S_LINT z) ->
    fails P (of_text WSTRING t) [Text WSTRING s]
| f_add_times : forall f t a b, List.In (f, t) time_adders -> ~ of_type t (a + b) -> fails P f [Whole t a; Whole t b]
| f_sub_times : forall f t a b, List.In (f, t) time_subtracters -> ~ of_type t (a - b) -> fails P f [Whole t a; Whole t b]
| f_add_named : forall f t u a b, List.In (f, t, u) adders -> ~ representable (p_chrono P) (a + b) -> fails P f [Whole t a; Whole u b]
| f_sub_named : forall f t u a b, List.In (f, t, u) subtracters -> ~ representable (p_chrono P) (a - b) -> fails P f [Whole t a; Whole u b]
| f_difference : forall f t u a b, List.In (f, t, u) differences -> ~ of_type u (a - b) -> fails P f [Whole t a; Whole t b]
| f_mul_named : forall f u t a z, List.In (f, u) multipliers -> List.In t integers -> ~ (of_type S_LINT z /\ of_type u (a * z)) -> fails P f [Whole u a; Whole t z]
| f_div_named : forall f u t a z, List.In (f, u) dividers -> List.In t integers -> ~ (of_type S_LINT z /\ z <> 0 /\ of_type u (Z.quot a z)) ->
    fails P f [Whole u a; Whole t z]
| f_date_part : forall f t n, List.In (f, t) date_parts -> ~ of_type S_DATE (n - n mod DAY) -> fails P f [Whole t n]
| f_clock : forall f u t h mi s ms, List.In (f, u) [("CONCAT_TOD", S_TOD); ("CONCAT_LTOD", S_LTOD)] -> List.In t clock_types -> ~ accepted_clock P h mi s ms ->
    fails P f [Whole t h; Whole t mi; Whole t s; Whole t ms]
| f_join : forall f u a b, List.In (f, u) [("CONCAT_DATE_TOD", S_TOD); ("CONCAT_DATE_LTOD", S_LTOD)] -> ~ representable (p_chrono P) (joined a b) ->
    fails P f [Whole S_DATE a; Whole u b]
| f_stamp : forall f u t y m d h mi s ms, List.In (f, u) [("CONCAT_DT", S_DT); ("CONCAT_LDT", S_LDT)] -> List.In t narrow_ints ->
    (forall n, day_number (y, m, d) n -> ~ (of_type S_DATE (n * DAY) /\ accepted_clock P h mi s ms /\ representable (p_chrono P) (joined (n * DAY) (clock_ns h mi s ms)))) ->
    fails P f (map (Whole t) [y; m; d; h; mi; s; ms])
| f_print_lreal : forall q k, (q <= IZR (- 10 ^ 73))%R -> fails P (to_text S_LREAL k) [Real S_LREAL q]
| f_parse_real : forall t s, List.In t reals -> (forall neg m e, ~ number_text (units STRING s) neg m e) -> (forall neg nan, ~ special_text (units STRING s) neg nan) ->
    fails P (of_text STRING t) [Text STRING s]
| f_parse_real_wide : forall t s, List.In t reals -> (length (units STRING s) <= 80)%nat -> (forall neg m e, ~ number_text (units STRING s) neg m e) ->
    (forall neg nan, ~ special_text (units STRING s) neg nan) -> fails P (of_text WSTRING t) [Text WSTRING s]
| f_mul_real : forall f u t a q, List.In (f, u) real_multipliers ->
    (IZR (2 ^ 63) + time_error (p_durgen P) (fmt_of t) (IZR a * q) < Rabs (IZR a * q))%R -> fails P f [Whole u a; Real t q]
| f_div_real : forall f u t a q, List.In (f, u) real_dividers -> q <> 0%R ->
    (IZR (2 ^ 63) + time_error (p_durgen P) (fmt_of t) (IZR a / q) < Rabs (IZR a / q))%R -> fails P f [Whole u a; Real t q]
| f_div_zero : forall f u t a, List.In (f, u) real_dividers -> fails P f [Whole u a; Real t 0].

(** ** Expressions *)
(** The expression means [m], with the variables [r]. *)
Inductive means (P : platform) (r : env value) : expr -> meaning -> Prop :=
| means_variable : forall x tv m, get x r = Ok tv -> stands_for tv m -> means P r (Arg x) m
| means_call : forall f es ms m, Forall2 (means P r) es ms -> yields P f ms m -> means P r (Call f es) m.
(** The expression aborts: one of its calls does.  Arguments are evaluated from the left. *)
Inductive aborts (P : platform) (r : env value) : expr -> Prop :=
| aborts_here : forall f es ms, Forall2 (means P r) es ms -> fails P f ms -> aborts P r (Call f es)
| aborts_inside : forall f es ms e es', Forall2 (means P r) es ms -> aborts P r e -> aborts P r (Call f (es ++ e :: es')).

(** ** Expressions with integers, bit strings, times and dates *)
(** The function takes arguments of the types [ts] and returns a [t]. *)
Inductive takes : string -> list sty -> sty -> Prop :=
| takes_convert : forall a b, List.In a convertible -> List.In b convertible -> a <> b -> takes (conversion_name a b) [a] b
| takes_bits : forall f t, List.In f ["SHL"; "SHR"; "ROL"; "ROR"] -> List.In t bit_strings -> takes f [t; S_UDINT] t
| takes_order : forall f t, List.In f byte_order_names -> List.In t byte_ordered -> takes f [t] t
| takes_select : forall f t n, List.In f ["MAX"; "MIN"] -> List.In t ordered -> takes f (repeat t (S n)) t
| takes_limit : forall t, List.In t ordered -> takes "LIMIT" [t; t; t] t
| takes_bcd : forall t, List.In t bit_strings -> takes "IS_VALID_BCD" [t] S_BOOL
| takes_time : forall f, List.In f ["ADD"; "SUB"] -> takes f [S_TIME; S_TIME] S_TIME
| takes_moment : forall f t, List.In f ["ADD"; "SUB"] -> List.In t [S_TOD; S_DT] -> takes f [t; S_TIME] t
| takes_between : forall t, List.In t [S_DATE; S_TOD; S_DT] -> takes "SUB" [t; t] S_TIME
| takes_scale : forall f t, List.In f ["MUL"; "DIV"] -> List.In t integers -> takes f [S_TIME; t] S_TIME
| takes_date : forall t, List.In t narrow_ints -> takes "CONCAT_DATE" [t; t; t] S_DATE
| takes_weekday : takes "DAY_OF_WEEK" [S_DATE] S_SINT
| takes_date_of : takes "DT_TO_DATE" [S_DT] S_DATE
| takes_tod_of : takes "DT_TO_TOD" [S_DT] S_TOD
| takes_recast : forall a b u, List.In (a, b, u) recasts -> takes (conversion_name a b) [a] u
| takes_number_bool : forall t, List.In t ([S_DINT; S_LINT] ++ bit_strings) -> takes (conversion_name t S_BOOL) [t] S_BOOL
| takes_of_bool : forall t, List.In t convertible -> takes (conversion_name S_BOOL t) [S_BOOL] t
| takes_abs : forall t, List.In t [S_SINT; S_INT; S_DINT; S_LINT] -> takes "ABS" [t] t
| takes_times : forall f t, List.In (f, t) (time_adders ++ time_subtracters) -> takes f [t; t] t
| takes_named : forall f t u, List.In (f, t, u) (adders ++ subtracters) -> takes f [t; u] t
| takes_difference : forall f t u, List.In (f, t, u) differences -> takes f [t; t] u
| takes_scaled : forall f u t, List.In (f, u) (multipliers ++ dividers) -> List.In t integers -> takes f [u; t] u
| takes_date_part : forall f t, List.In (f, t) date_parts -> takes f [t] S_DATE
| takes_tod_part : forall f t u, List.In (f, t, u) tod_parts -> takes f [t] u
| takes_clock : forall f u t, List.In (f, u) [("CONCAT_TOD", S_TOD); ("CONCAT_LTOD", S_LTOD)] -> List.In t clock_types -> takes f [t; t; t; t] u
| takes_join : forall f u, List.In (f, u) [("CONCAT_DATE_TOD", S_TOD); ("CONCAT_DATE_LTOD", S_LTOD)] -> takes f [S_DATE; u] S_DT
| takes_stamp : forall f u t, List.In (f, u) [("CONCAT_DT", S_DT); ("CONCAT_LDT", S_LDT)] -> List.In t narrow_ints -> takes f (repeat t 7) u
| takes_char : forall a b, List.In (a, b) char_casts -> takes (conversion_name a b) [a] b
| takes_narrow_char : takes "WCHAR_TO_CHAR" [S_WCHAR] S_CHAR.
(** The expression has the type [t], with the variables [r]. *)
Inductive typed (r : env value) : expr -> sty -> Prop :=
| typed_variable : forall x t z, var r x t z -> typed r (Arg x) t
| typed_call : forall f es ts t, Forall2 (typed r) es ts -> takes f ts t -> typed r (Call f es) t.
