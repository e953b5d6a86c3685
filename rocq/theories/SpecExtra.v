(** Specification vocabulary for the text of numbers, times and dates. *)
From Coq Require Import String ZArith List Reals.
From Verif Require Import Base ModelFloat ModelExtra SpecScalar SpecText SpecDate SpecReal.
Import ListNotations.
Open Scope list_scope.
Open Scope Z_scope.

(** [c] is the digit of value [d] in radix [r]: 0-9, then letters of either case. *)
Definition digit_of (r c d : Z) : Prop :=
  0 <= d < r /\ (d <= 9 /\ c = 48 + d \/ 10 <= d <= 35 /\ (c = 55 + d \/ c = 87 + d)).
(** Positional notation, possibly empty. *)
Inductive digits (r : Z) : list Z -> Z -> Prop :=
| digits_nil : digits r [] 0
| digits_snoc : forall l v c d, digits r l v -> digit_of r c d -> digits r (l ++ [c]) (v * r + d).
Definition numeral (r : Z) (l : list Z) (v : Z) : Prop := l <> [] /\ digits r l v.

(** Decimal numeral without superfluous zeros, and with a minus sign if negative. *)
Definition canonical (l : list Z) (n : Z) : Prop :=
  numeral 10 l n /\ (forall r, l = 48 :: r -> r = []).
Definition canonical_int (l : list Z) (z : Z) : Prop :=
  (0 <= z /\ canonical l z) \/ (z < 0 /\ exists r, l = str "-" ++ r /\ canonical r (- z)).
(** Exactly [w] decimal digits. *)
Definition fixed (w : nat) (l : list Z) (n : Z) : Prop := length l = w /\ digits 10 l n.

(** Integer literals accepted by the conversions: radix prefix, sign, digits. *)
Definition radix_prefix (p : list Z) (r : Z) : Prop :=
  (p = [] /\ r = 10) \/ (In p [str "16#"; str "0x"; str "0X"] /\ r = 16) \/
  (p = str "8#" /\ r = 8) \/ (In p [str "2#"; str "0b"; str "0B"] /\ r = 2).
Definition int_text (s : list Z) (z : Z) : Prop :=
  exists p r sign ds v, s = p ++ sign ++ ds /\ radix_prefix p r /\ numeral r ds v /\
    ((In sign [[]; str "+"] /\ z = v) \/ (sign = str "-" /\ z = - v)).

(** Durations: units with their length in nanoseconds and the bound on their count. *)
Definition time_units : list (list Z * Z * option Z) :=
  [ (str "d", DAY, None); (str "h", HOUR, Some 24); (str "m", MINUTE, Some 60);
    (str "s", SECOND, Some 60); (str "ms", MILLI, Some 1000); (str "us", 1000, Some 1000);
    (str "ns", 1, Some 1000) ].
Definition below (n : Z) (limit : option Z) : Prop :=
  match limit with Some b => n < b | None => True end.
(** A selection of the units, in order, each with a positive count. *)
Inductive time_items : list (list Z * Z * option Z) -> list Z -> Z -> Prop :=
| items_nil : time_items [] [] 0
| items_skip : forall u r s v, time_items r s v -> time_items (u :: r) s v
| items_one : forall u w lim r s v n ds, 0 < n -> below n lim -> canonical ds n ->
    time_items r s v -> time_items ((u, w, lim) :: r) (ds ++ u ++ s) (n * w + v).
Definition time_text := time_items time_units.

(** Dates and clock times. *)
Definition date_text (s : list Z) (y m d : Z) : Prop :=
  exists ys ms ds, s = ys ++ str "-" ++ ms ++ str "-" ++ ds /\
    fixed 4 ys y /\ fixed 2 ms m /\ fixed 2 ds d.
(** Fraction of a second: none, or the shortest of 3, 6 and 9 digits. *)
Definition fraction (s : list Z) (ns : Z) : Prop :=
  (s = [] /\ ns = 0) \/
  exists w ds k, In w [3; 6; 9]%nat /\ s = str "." ++ ds /\ fixed w ds k /\
    ns = k * 10 ^ (9 - Z.of_nat w) /\ 0 < k /\ (w = 3%nat \/ k mod 1000 <> 0).
Definition clock_text (s : list Z) (h m sec ns : Z) : Prop :=
  exists hs ms ss fs, s = hs ++ str ":" ++ ms ++ str ":" ++ ss ++ fs /\
    fixed 2 hs h /\ fixed 2 ms m /\ fixed 2 ss sec /\ fraction fs ns.

(** [n] is the integer nearest to [r], the even one in half-way cases. *)
Definition nearest_int_even (n : Z) (r : R) : Prop :=
  (Rabs (IZR n - r) <= / 2)%R /\ (Rabs (IZR n - r) = / 2 -> Z.even n = true)%R.
Definition sign_text (s : bool) : list Z := if s then str "-" else [].
Definition fl_negative (x : fl) : bool :=
  match x with
  | FNum (SpecFloat.S754_zero s) => s | FNum (SpecFloat.S754_infinity s) => s
  | FNum (SpecFloat.S754_finite s _ _) => s | FNum SpecFloat.S754_nan => false | FNan s _ => s
  end.
(** Six decimals, correctly rounded. *)
Definition fixed6_text (s : list Z) (x : fl) : Prop :=
  exists is fs i f, s = sign_text (fl_negative x) ++ is ++ str "." ++ fs /\
    canonical is i /\ fixed 6 fs f /\
    nearest_int_even (i * 1000000 + f) (Rabs (fl_value x) * 1000000).
(** Scientific notation with seven significant digits, correctly rounded; the power of ten is the least for which the
    rounded number has one digit before the point. *)
Definition exp6_text (s : list Z) (x : fl) : Prop :=
  exists ds fs ks d f k, s = sign_text (fl_negative x) ++ ds ++ str "." ++ fs ++ str "e" ++ ks /\
    fixed 1 ds d /\ 1 <= d /\ fixed 6 fs f /\ canonical ks k /\
    nearest_int_even (d * 1000000 + f) (Rabs (fl_value x) * 1000000 / IZR (10 ^ k)) /\
    (10000000 - / 2 <= Rabs (fl_value x) * 10000000 / IZR (10 ^ k))%R.

(** Decimal floating-point literals: sign, digits with at most one point among or next to
    them, optional exponent.  The value is [(-1)^neg * m * 10^e]. *)
Definition exponent_text (s : list Z) (e : Z) : Prop :=
  (s = [] /\ e = 0) \/
  exists c sign ds v, In c [str "e"; str "E"] /\ s = c ++ sign ++ ds /\ numeral 10 ds v /\
    ((In sign [[]; str "+"] /\ e = v) \/ (sign = str "-" /\ e = - v)).
Definition number_text (s : list Z) (neg : bool) (m e : Z) : Prop :=
  exists sign is dot fs es k, s = sign ++ is ++ dot ++ fs ++ es /\
    (In sign [[]; str "+"] /\ neg = false \/ sign = str "-" /\ neg = true) /\
    (dot = str "." \/ dot = [] /\ fs = []) /\ numeral 10 (is ++ fs) m /\
    exponent_text es k /\ e = k - Z.of_nat (length fs).
Definition number_value (neg : bool) (m e : Z) : R :=
  ((if neg then -1 else 1) * IZR m * powerRZ 10 e)%R.
(** The same letters, ignoring case ([w] in lower case). *)
Definition same_word (l w : list Z) : Prop :=
  Forall2 (fun c d => c = d \/ c = d - 32) l w.
Definition special_text (s : list Z) (neg nan : bool) : Prop :=
  exists sign w word, s = sign ++ w /\
    (In sign [[]; str "+"] /\ neg = false \/ sign = str "-" /\ neg = true) /\ same_word w word /\
    (nan = false /\ In word [str "inf"; str "infinity"] \/ nan = true /\ word = str "nan").

(** IEEE rounding of a real: nearest even, except that reals at least half a unit beyond the
    largest finite float become infinite.  Zero keeps the sign. *)
Definition max_plus_half (f : fmt) : R :=
  ((IZR (2 ^ f_prec f) - / 2) * Flocq.Core.Raux.bpow Flocq.Core.Zaux.radix2 (f_emax f - f_prec f))%R.
Definition rounded (f : fmt) (x : fl) (neg : bool) (r : R) : Prop :=
  fl_negative x = neg /\
  ((Rabs r < max_plus_half f)%R -> nearest_even f x r) /\
  ((max_plus_half f <= Rabs r)%R -> x = FNum (SpecFloat.S754_infinity neg)).

(** The functions that write an integer of a given type, also with their WSTRING counterparts. *)
Definition integer_to_string (t : ity) (f : Z -> outcome (list Z)) : Prop :=
  (t = u8 /\ f = BYTE_TO_STRING) \/ (t = u32 /\ f = DWORD_TO_STRING) \/ (t = u64 /\ f = LWORD_TO_STRING) \/
  (t = i32 /\ f = DINT_TO_STRING) \/ (t = i64 /\ f = LINT_TO_STRING).
Definition integer_to_string_ext (t : ity) (f : Z -> list Z -> outcome (list Z)) : Prop :=
  (t = u8 /\ f = BYTE_TO_STRING_EXT) \/ (t = u64 /\ f = LWORD_TO_STRING_EXT) \/ (t = i64 /\ f = LINT_TO_STRING_EXT).
Definition integer_pair (t : ity) (f g : Z -> outcome (list Z)) : Prop :=
  (t = u8 /\ f = BYTE_TO_STRING /\ g = BYTE_TO_WSTRING) \/ (t = u32 /\ f = DWORD_TO_STRING /\ g = DWORD_TO_WSTRING) \/
  (t = u64 /\ f = LWORD_TO_STRING /\ g = LWORD_TO_WSTRING) \/ (t = i32 /\ f = DINT_TO_STRING /\ g = DINT_TO_WSTRING) \/
  (t = i64 /\ f = LINT_TO_STRING /\ g = LINT_TO_WSTRING).
Definition time_pair (f g : Z -> outcome (list Z)) : Prop :=
  (f = TIME_TO_STRING /\ g = TIME_TO_WSTRING) \/ (f = DATE_TO_STRING /\ g = DATE_TO_WSTRING) \/
  (f = TOD_TO_STRING /\ g = TOD_TO_WSTRING) \/ (f = DT_TO_STRING /\ g = DT_TO_WSTRING).
