(** /repo/src/extra_functions.rs: numbers, times and dates to STRING and back, and the ST
    functions of /repo/iec61131-st/extra_functions.st around them.

    Pointers are modelled as in ModelString.v: a source is the list of bytes from the pointer to
    the end of its allocation, a destination the list of bytes that may be written from it; the
    functions return the destination after the call (the [i32] they return is always 0). *)
From Coq Require Import String Ascii ZArith List Bool SpecFloat.
From Verif Require Import Base ModelText ModelString ModelChrono ModelFloat ModelST.
Import ListNotations.
Open Scope list_scope.
Open Scope Z_scope.

(** The bytes of an ASCII literal.  Used for the literals of /repo/src/extra_functions.rs:94-103,
    200-208. *)
Definition str (s : string) : list Z :=
  map (fun c => Z.of_N (N_of_ascii c)) (list_ascii_of_string s).

(** /repo/src/extra_functions.rs:17. *)
Definition DEFAULT_STRING_LEN : nat := 81.

(** [let buf = from_raw_parts_mut(dest, DEFAULT_STRING_LEN); write!(&mut *buf, ..).unwrap()],
    e.g. /repo/src/extra_functions.rs:25-27: the formatted text is copied to the front of the
    81-byte slice; [std::io::Write for &mut [u8]] reports an error, hence a panic, if it does
    not fit.  No terminating NUL is written.  A destination of fewer than 81 bytes makes the
    slice itself invalid. *)
Definition write_buf (t dest : list Z) : outcome (list Z) :=
  if (length dest <? DEFAULT_STRING_LEN)%nat then Ub
  else if (DEFAULT_STRING_LEN <? length t)%nat then Panic
  else Ok (t ++ skipn (length t) dest).

(** [Display] of the Rust integer types (core::fmt), used by the ["{input}"] at
    /repo/src/extra_functions.rs:27, 39, 50, 179: the decimal digits, least significant first
    in the loop; the two-digits-at-a-time table of the real implementation is simplified away. *)
Fixpoint dec_loop (fuel : nat) (n : Z) (acc : list Z) : list Z :=
  match fuel with
  | O => acc
  | S f => let acc := 48 + n mod 10 :: acc in
           if n <? 10 then acc else dec_loop f (n / 10) acc
  end.
(** [Display] of an unsigned integer (/repo/src/extra_functions.rs:27, 39, 179). *)
Definition dec_nat (n : Z) : list Z := dec_loop (S (Z.to_nat (Z.log2 n))) n [].
(** [Display] of an integer (/repo/src/extra_functions.rs:27, 39, 50). *)
Definition dec_int (n : Z) : list Z := if n <? 0 then 45 :: dec_nat (- n) else dec_nat n.

(** /repo/src/extra_functions.rs:24-30, 36-42, 48-53. *)
Definition BYTE_TO_STRING_EXT (input : Z) (dest : list Z) : outcome (list Z) :=
  write_buf (dec_int input) dest.
(** /repo/src/extra_functions.rs:36-42. *)
Definition LWORD_TO_STRING_EXT (input : Z) (dest : list Z) : outcome (list Z) :=
  write_buf (dec_int input) dest.
(** /repo/src/extra_functions.rs:48-53. *)
Definition LINT_TO_STRING_EXT (input : Z) (dest : list Z) : outcome (list Z) :=
  write_buf (dec_int input) dest.

(** [char::to_digit] (Rust core) for a byte and a radix up to 16; used by [from_str_radix]
    (/repo/src/extra_functions.rs:106). *)
Definition to_digit (radix b : Z) : option Z :=
  let d := if between 48 b 57 then b - 48
           else if between 97 b 122 then b - 87
           else if between 65 b 90 then b - 55
           else 99 in
  if d <? radix then Some d else None.

(** [from_str_radix] of a Rust signed integer type, called at
    /repo/src/extra_functions.rs:106: an optional sign that is not the whole text, then digits,
    each step with [checked_mul] and [checked_add] or [checked_sub]; every kind of error is the
    same panic to the caller. *)
Fixpoint radix_loop (t : ity) (neg : bool) (radix : Z) (l : list Z) (acc : Z) : option Z :=
  match l with
  | [] => Some acc
  | b :: r =>
      match to_digit radix b, checked t (acc * radix) with
      | Some d, Some a =>
          match checked t (if neg then a - d else a + d) with
          | Some acc' => radix_loop t neg radix r acc'
          | None => None
          end
      | _, _ => None
      end
  end.
(** The sign of the text, then the digits (/repo/src/extra_functions.rs:106). *)
Definition from_str_radix (t : ity) (radix : Z) (l : list Z) : option Z :=
  match l with
  | [] => None
  | [b] => if (b =? 43) || (b =? 45) then None else radix_loop t false radix l 0
  | b :: r =>
      if b =? 43 then radix_loop t false radix r 0
      else if b =? 45 then radix_loop t true radix r 0
      else radix_loop t false radix l 0
  end.

(** The prefix match of /repo/src/extra_functions.rs:94-103: rest of the text, radix.  The slice
    patterns are tried in the order of the source. *)
Fixpoint strip (p l : list Z) : option (list Z) :=
  match p, l with
  | [], _ => Some l
  | a :: p', b :: l' => if a =? b then strip p' l' else None
  | _, _ => None
  end.
(** The arms of the [match] at /repo/src/extra_functions.rs:94-103, tried in order. *)
Fixpoint match_prefix (arms : list (list Z * Z)) (l : list Z) : list Z * Z :=
  match arms with
  | [] => (l, 10)
  | (p, r) :: arms' => match strip p l with Some q => (q, r) | None => match_prefix arms' l end
  end.
(** The patterns at /repo/src/extra_functions.rs:95-102. *)
Definition split_radix : list Z -> list Z * Z :=
  match_prefix [ (str "16#", 16); (str "0x", 16); (str "0X", 16); (str "8#", 8);
                 (str "2#", 2); (str "0b", 2); (str "0B", 2) ].

(** /repo/src/extra_functions.rs:89-112. *)
Definition string_to_int (t : ity) (src : list Z) : outcome Z :=
  let! s := ptr_to_slice src in
  let '(rest, radix) := split_radix s in
  match utf8_decode rest with
  | Some _ => unwrap (from_str_radix t radix rest)
  | None => Panic
  end.
(** /repo/src/extra_functions.rs:118-120, 126-128. *)
Definition STRING_TO_LINT := string_to_int i64.
(** /repo/src/extra_functions.rs:126-128. *)
Definition STRING_TO_DINT := string_to_int i32.

(** Decimal floating-point literals: Rust core's [FromStr] for [f32] and [f64] (dec2flt),
    called at /repo/src/extra_functions.rs:140.  The grammar is that of Rust 1.55 and later.
    The conversion algorithm of core is replaced by the exact quotient of two integers, rounded
    by the standard library's [SFdiv]; core saturates exponents of absolute value 65536 and
    above, which does not change the result of texts shorter than that many digits. *)
Fixpoint take_digits (l : list Z) : list Z * list Z :=
  match l with
  | b :: r => if between 48 b 57 then let '(d, q) := take_digits r in (b :: d, q) else ([], l)
  | [] => ([], [])
  end.
(** The value of decimal digits.  Part of [FromStr], /repo/src/extra_functions.rs:140. *)
Definition dec_value (l : list Z) : Z := fold_left (fun a b => a * 10 + (b - 48)) l 0.

(** Mantissa and power of ten.  Part of [FromStr], /repo/src/extra_functions.rs:140. *)
Definition parse_number (l : list Z) : option (Z * Z) :=
  let '(i, r) := take_digits l in
  let '(fr, r) := match r with 46 :: r' => take_digits r' | _ => ([], r) end in
  match i ++ fr with
  | [] => None
  | ds =>
      let scale := - Z.of_nat (length fr) in
      match r with
      | [] => Some (dec_value ds, scale)
      | c :: r' =>
          if (c =? 101) || (c =? 69) then
            let '(neg, r') := match r' with 43 :: q => (false, q) | 45 :: q => (true, q)
                                         | _ => (false, r') end in
            let '(es, rest) := take_digits r' in
            match es, rest with
            | _ :: _, [] => Some (dec_value ds, scale + (if neg then - dec_value es else dec_value es))
            | _, _ => None
            end
          else None
      end
  end.
(** Inf and NaN are recognised whatever their case ([FromStr], /repo/src/extra_functions.rs:140). *)
Definition to_lower (b : Z) : Z := if between 65 b 90 then b + 32 else b.
(** "inf", "infinity" and "nan" ([FromStr], /repo/src/extra_functions.rs:140). *)
Definition parse_inf_nan (f : fmt) (neg : bool) (l : list Z) : option fl :=
  let s := map to_lower l in
  if list_eqb s (str "inf") || list_eqb s (str "infinity") then Some (FNum (S754_infinity neg))
  else if list_eqb s (str "nan") then Some (FNan neg (2 ^ (Z.to_pos (f_mw f - 1)))%positive)
  else None.
(** [(-1)^neg * m * 10^e] rounded to the format.  Part of [FromStr],
    /repo/src/extra_functions.rs:140. *)
Definition scaled (f : fmt) (neg : bool) (m e : Z) : spec_float :=
  match m * 10 ^ Z.max e 0, 10 ^ Z.max (- e) 0 with
  | Zpos n, Zpos d =>
      SFdiv (f_prec f) (f_emax f) (S754_finite neg n 0) (S754_finite false d 0)
  | _, _ => S754_zero neg
  end.
(** [FromStr] of [f32] and [f64], /repo/src/extra_functions.rs:140. *)
Definition parse_float (f : fmt) (l : list Z) : option fl :=
  match l with
  | [] => None
  | c :: r =>
      let neg := c =? 45 in
      let s := if (c =? 45) || (c =? 43) then r else l in
      match parse_number s with
      | Some (m, e) => Some (FNum (scaled f neg m e))
      | None => parse_inf_nan f neg s
      end
  end.
(** /repo/src/extra_functions.rs:130-146. *)
Definition string_to_float (f : fmt) (src : list Z) : outcome fl :=
  let! s := ptr_to_slice src in
  match utf8_decode s with
  | Some _ => unwrap (parse_float f s)
  | None => Panic
  end.
(** /repo/src/extra_functions.rs:151-153, 159-161. *)
Definition STRING_TO_LREAL := string_to_float F64.
(** /repo/src/extra_functions.rs:159-161. *)
Definition STRING_TO_REAL := string_to_float F32.

(** [ARRAY] of zero bytes: a zero-initialised STRING variable.  Variables as at
    /repo/iec61131-st/extra_functions.st:497-499. *)
Definition zeros (n : nat) : list Z := repeat 0 n.

(** /repo/iec61131-st/extra_functions.st:494-503, 674-683, 714-723, 730-739.  The temporary
    [STR : STRING] has 80 characters and a NUL; ST initialises it with zeros.  The assignment of
    a LINT to the DINT result of WSTRING_TO_DINT truncates. *)
Definition str_temp : list Z := zeros 81.
(** /repo/iec61131-st/extra_functions.st:494-503. *)
Definition WSTRING_TO_LINT (src : list Z) : outcome Z :=
  let! s := WSTRING_TO_STRING_EXT src str_temp in STRING_TO_LINT s.
(** /repo/iec61131-st/extra_functions.st:674-683: through STRING_TO_LINT. *)
Definition WSTRING_TO_DINT (src : list Z) : outcome Z :=
  let! s := WSTRING_TO_STRING_EXT src str_temp in omap (wrap i32) (STRING_TO_LINT s).
(** /repo/iec61131-st/extra_functions.st:714-723. *)
Definition WSTRING_TO_LREAL (src : list Z) : outcome fl :=
  let! s := WSTRING_TO_STRING_EXT src str_temp in STRING_TO_LREAL s.
(** /repo/iec61131-st/extra_functions.st:730-739. *)
Definition WSTRING_TO_REAL (src : list Z) : outcome fl :=
  let! s := WSTRING_TO_STRING_EXT src str_temp in STRING_TO_REAL s.

(** /repo/iec61131-st/extra_functions.st:6-11, 38-43, 50-55, 72-77, 84-89: the result variable
    STRING[__STRING_LENGTH] (2048 characters and a NUL) is zero-initialised by the caller and
    handed to the Rust function; the promotion of DWORD to LWORD and DINT to LINT keeps the
    value. *)
Definition st_string : list Z := zeros 2049.
(** /repo/iec61131-st/extra_functions.st:6-11. *)
Definition BYTE_TO_STRING (x : Z) : outcome (list Z) := BYTE_TO_STRING_EXT x st_string.
(** /repo/iec61131-st/extra_functions.st:38-43. *)
Definition LWORD_TO_STRING (x : Z) : outcome (list Z) := LWORD_TO_STRING_EXT x st_string.
(** /repo/iec61131-st/extra_functions.st:50-55. *)
Definition DWORD_TO_STRING (x : Z) : outcome (list Z) := LWORD_TO_STRING_EXT x st_string.
(** /repo/iec61131-st/extra_functions.st:72-77. *)
Definition LINT_TO_STRING (x : Z) : outcome (list Z) := LINT_TO_STRING_EXT x st_string.
(** /repo/iec61131-st/extra_functions.st:84-89. *)
Definition DINT_TO_STRING (x : Z) : outcome (list Z) := LINT_TO_STRING_EXT x st_string.

(** /repo/iec61131-st/extra_functions.st:298-351: the STRING result widened. *)
Definition to_wstring (r : outcome (list Z)) : outcome (list Z) :=
  let! s := r in STRING_TO_WSTRING_EXT s st_string.
(** /repo/iec61131-st/extra_functions.st:298-303. *)
Definition BYTE_TO_WSTRING (x : Z) : outcome (list Z) := to_wstring (BYTE_TO_STRING x).
(** /repo/iec61131-st/extra_functions.st:310-315. *)
Definition LWORD_TO_WSTRING (x : Z) : outcome (list Z) := to_wstring (LWORD_TO_STRING x).
(** /repo/iec61131-st/extra_functions.st:322-327. *)
Definition DWORD_TO_WSTRING (x : Z) : outcome (list Z) := LWORD_TO_WSTRING x.
(** /repo/iec61131-st/extra_functions.st:334-339. *)
Definition LINT_TO_WSTRING (x : Z) : outcome (list Z) := to_wstring (LINT_TO_STRING x).
(** /repo/iec61131-st/extra_functions.st:346-351. *)
Definition DINT_TO_WSTRING (x : Z) : outcome (list Z) := LINT_TO_WSTRING x.

(** /repo/src/extra_functions.rs:165-168 on a clock reading: [num_seconds_from_midnight] (u32)
    and [nanosecond] (u32, 1e9 and more during a leap second).  [dev] and [release] agree as the
    i64 arithmetic cannot overflow; the overflow check is kept. *)
Definition TIME (p : profile) (secs nanos : Z) : outcome Z :=
  let! a := arith p i64 (secs * 1000000000) in arith p i64 (a + nanos).

(** /repo/src/extra_functions.rs:187-209. *)
Definition NANOS_PER_DAY : Z := 1000000000 * 3600 * 24.
(** /repo/src/extra_functions.rs:187-209. *)
Definition parse_timestamp (t : Z) : list (Z * list Z) :=
  let d := of_timestamp_nanos t in
  [ (wrap u32 (Z.quot t NANOS_PER_DAY), str "d");
    (hour d, str "h");
    (minute d, str "m");
    (second d, str "s");
    (subsec_nanos d / 1000000, str "ms");
    (subsec_nanos d / 1000 mod 1000, str "us");
    (subsec_nanos d mod 1000, str "ns") ].
(** First NUL in a slice: [buf.iter().position(|&c| c == 0)].  At /repo/src/extra_functions.rs:180. *)
Fixpoint position0 (l : list Z) : option nat :=
  match l with
  | [] => None
  | b :: r => if b =? 0 then Some O else option_map S (position0 r)
  end.
(** The loop of /repo/src/extra_functions.rs:177-182 from the moving [dest]: [before] are the
    bytes it has passed. *)
Fixpoint time_loop (items : list (Z * list Z)) (before dest : list Z) : outcome (list Z) :=
  match items with
  | [] => Ok (before ++ dest)
  | (n, unit) :: r =>
      if n =? 0 then time_loop r before dest
      else
        let! d := write_buf (dec_int n ++ unit) dest in
        let! idx := unwrap (position0 (firstn DEFAULT_STRING_LEN d)) in
        time_loop r (before ++ firstn idx d) (skipn idx d)
  end.
(** /repo/src/extra_functions.rs:174-185 and /repo/iec61131-st/extra_functions.st:154-166. *)
Definition TIME_TO_STRING_EXT (input : Z) (dest : list Z) : outcome (list Z) :=
  time_loop (parse_timestamp input) [] dest.
(** /repo/iec61131-st/extra_functions.st:154-166. *)
Definition TIME_TO_STRING (t : Z) : outcome (list Z) := TIME_TO_STRING_EXT t st_string.

(** [{:0w}]: decimal, padded with zeros to [w] digits.  Used by chrono's formatting of dates and
    times at /repo/src/extra_functions.rs:217, 232, 246. *)
Definition pad (w : nat) (n : Z) : list Z :=
  let d := dec_int n in repeat 48 (w - length d) ++ d.
(** chrono's [Display for NaiveDate]: used at /repo/src/extra_functions.rs:217, 232. *)
Definition date_to_string (d : ndate) : list Z :=
  let '(y, m, dd) := ymd d in
  (if between 0 y 9999 then pad 4 y
   else if y <? 0 then 45 :: pad 4 (- y) else 43 :: pad 4 y)
  ++ str "-" ++ pad 2 m ++ str "-" ++ pad 2 dd.
(** chrono's [Display for NaiveTime]: used at /repo/src/extra_functions.rs:218, 246. *)
Definition time_to_string (t : ntime) : list Z :=
  let h := nt_secs t / 3600 in
  let m := nt_secs t / 60 mod 60 in
  let s := nt_secs t mod 60 in
  let '(s, n) := if 1000000000 <=? nt_frac t then (s + 1, nt_frac t - 1000000000)
                 else (s, nt_frac t) in
  pad 2 h ++ str ":" ++ pad 2 m ++ str ":" ++ pad 2 s ++
  (if n =? 0 then []
   else if n mod 1000000 =? 0 then str "." ++ pad 3 (n / 1000000)
   else if n mod 1000 =? 0 then str "." ++ pad 6 (n / 1000)
   else str "." ++ pad 9 n).
(** /repo/src/extra_functions.rs:215-224, 230-238, 244-252. *)
Definition DT_TO_STRING_EXT (input : Z) (dest : list Z) : outcome (list Z) :=
  let t := of_timestamp_nanos input in
  write_buf (date_to_string (dt_date t) ++ str "-" ++ time_to_string (dt_time t)) dest.
(** /repo/src/extra_functions.rs:230-238. *)
Definition DATE_TO_STRING_EXT (input : Z) (dest : list Z) : outcome (list Z) :=
  write_buf (date_to_string (dt_date (of_timestamp_nanos input))) dest.
(** /repo/src/extra_functions.rs:244-252. *)
Definition TOD_TO_STRING_EXT (input : Z) (dest : list Z) : outcome (list Z) :=
  write_buf (time_to_string (dt_time (of_timestamp_nanos input))) dest.
(** /repo/iec61131-st/extra_functions.st:106-118, 202-214, 250-262. *)
Definition DT_TO_STRING (t : Z) : outcome (list Z) := DT_TO_STRING_EXT t st_string.
(** /repo/iec61131-st/extra_functions.st:202-214. *)
Definition DATE_TO_STRING (t : Z) : outcome (list Z) := DATE_TO_STRING_EXT t st_string.
(** /repo/iec61131-st/extra_functions.st:250-262. *)
Definition TOD_TO_STRING (t : Z) : outcome (list Z) := TOD_TO_STRING_EXT t st_string.

(** Formatting of floats (Rust core, flt2dec): exact decimal expansion rounded half to even.
    [half_even n d] rounds the quotient of two positive integers.  Used at
    /repo/src/extra_functions.rs:63-65, 81-83. *)
Definition half_even (n d : Z) : Z :=
  let q := n / d in let r := n mod d in
  if 2 * r <? d then q
  else if 2 * r =? d then (if Z.even q then q else q + 1)
  else q + 1.
(** [|x|] as a fraction.  For the formatting at /repo/src/extra_functions.rs:63-65, 81-83. *)
Definition fl_num (m : positive) (e : Z) : Z := Zpos m * 2 ^ Z.max e 0.
(** The denominator of the fraction (/repo/src/extra_functions.rs:63-65, 81-83). *)
Definition fl_den (e : Z) : Z := 2 ^ Z.max (- e) 0.
(** The sign printed in front (/repo/src/extra_functions.rs:63-65, 81-83). *)
Definition minus (s : bool) : list Z := if s then [45] else [].
(** ["{x:.6}"], /repo/src/extra_functions.rs:63, 81. *)
Definition fmt_fixed6 (x : fl) : list Z :=
  let number s n := minus s ++ dec_nat (n / 1000000) ++ str "." ++ pad 6 (n mod 1000000) in
  match x with
  | FNum (S754_zero s) => number s 0
  | FNum (S754_finite s m e) => number s (half_even (fl_num m e * 1000000) (fl_den e))
  | FNum (S754_infinity s) => minus s ++ str "inf"
  | _ => str "NaN"
  end.
(** ["{x:.6e}"], /repo/src/extra_functions.rs:65, 83: one digit, six decimals and the power of
    ten.  The code uses it for numbers from 1e6 only, so the power of ten is the number of digits
    of the integer part less one, with a carry when rounding gives eight digits. *)
Definition fmt_exp6 (x : fl) : list Z :=
  let number s n k := minus s ++ dec_nat (n / 1000000) ++ str "." ++ pad 6 (n mod 1000000)
                      ++ str "e" ++ dec_int k in
  match x with
  | FNum (S754_zero s) => number s 0 0
  | FNum (S754_finite s m e) =>
      let k := Z.of_nat (length (dec_nat (fl_num m e / fl_den e))) - 1 in
      let n := half_even (fl_num m e * 1000000) (fl_den e * 10 ^ k) in
      if n =? 10000000 then number s 1000000 (k + 1) else number s n k
  | FNum (S754_infinity s) => minus s ++ str "inf"
  | _ => str "NaN"
  end.
(** [x.floor() < c] for an integer [c] that is a float.  The tests at
    /repo/src/extra_functions.rs:62, 80. *)
Definition floor_lt (x : fl) (c : Z) : bool :=
  match x with
  | FNum (S754_zero _) => 0 <? c
  | FNum (S754_finite s m e) => (if s then - fl_num m e else fl_num m e) / fl_den e <? c
  | FNum (S754_infinity s) => s
  | _ => false
  end.
(** /repo/src/extra_functions.rs:59-69, 75-87. *)
Definition float_to_string (c : Z) (input : fl) (dest : list Z) : outcome (list Z) :=
  write_buf (if floor_lt input c then fmt_fixed6 input else fmt_exp6 input) dest.
(** /repo/src/extra_functions.rs:59-69. *)
Definition LREAL_TO_STRING_EXT (input : fl) (dest : list Z) : outcome (list Z) :=
  float_to_string (10 ^ 14) input dest.
(** /repo/src/extra_functions.rs:75-87. *)
Definition REAL_TO_STRING_EXT (input : fl) (dest : list Z) : outcome (list Z) :=
  float_to_string (10 ^ 6) input dest.
(** /repo/iec61131-st/extra_functions.st:358-363, 370-375: REAL_TO_STRING calls
    LREAL_TO_STRING_EXT with its argument promoted to LREAL. *)
Definition LREAL_TO_STRING (x : fl) : outcome (list Z) := LREAL_TO_STRING_EXT x st_string.
(** /repo/iec61131-st/extra_functions.st:370-375. *)
Definition REAL_TO_STRING (x : fl) : outcome (list Z) :=
  LREAL_TO_STRING_EXT (fl_convert F64 x) st_string.
(** /repo/iec61131-st/extra_functions.st:135-147, 183-195, 231-243, 279-291, 382-399; the L-variants
    are the same code. *)
Definition DT_TO_WSTRING (t : Z) : outcome (list Z) := to_wstring (DT_TO_STRING t).
(** /repo/iec61131-st/extra_functions.st:183-195. *)
Definition TIME_TO_WSTRING (t : Z) : outcome (list Z) := to_wstring (TIME_TO_STRING t).
(** /repo/iec61131-st/extra_functions.st:231-243. *)
Definition DATE_TO_WSTRING (t : Z) : outcome (list Z) := to_wstring (DATE_TO_STRING t).
(** /repo/iec61131-st/extra_functions.st:279-291. *)
Definition TOD_TO_WSTRING (t : Z) : outcome (list Z) := to_wstring (TOD_TO_STRING t).
(** /repo/iec61131-st/extra_functions.st:382-387. *)
Definition LREAL_TO_WSTRING (x : fl) : outcome (list Z) := to_wstring (LREAL_TO_STRING x).
(** /repo/iec61131-st/extra_functions.st:394-399. *)
Definition REAL_TO_WSTRING (x : fl) : outcome (list Z) := to_wstring (REAL_TO_STRING x).
