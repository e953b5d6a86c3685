(** /repo/src/string_functions.rs and /repo/src/string_conversion.rs.

    Pointers: a source pointer is the list of units from the pointer to the end of its
    allocation; reading past the end is [Ub].  A destination pointer is the list of units that
    may be written from it; the functions return the destination after the call (the [i32] they
    return is always 0).  Source and destination do not overlap.  Null source pointers (for
    which [slice::from_raw_parts] is undefined) are not modelled; the null checks of CONCAT are.
    [usize] has 64 bits. *)
From Coq Require Import ZArith List Bool.
From Verif Require Import Base ModelText.
Import ListNotations.
Open Scope Z_scope.

(** The two instances of the generic code: [u8]/UTF-8 and [u16]/UTF-16.
    /repo/src/string_functions.rs:79-127. *)
Inductive kind := STRING | WSTRING.

(** /repo/src/string_functions.rs:18-24. *)
Fixpoint get_null_terminated_len (src : list Z) : outcome nat :=
  match src with
  | [] => Ub
  | u :: r => if u =? 0 then Ok O else omap S (get_null_terminated_len r)
  end.
(** /repo/src/string_functions.rs:35-38. *)
Definition ptr_to_slice (src : list Z) : outcome (list Z) :=
  let! n := get_null_terminated_len src in Ok (firstn n src).

(** /repo/src/string_functions.rs:79-87 ([u8]; [unwrap] of [from_utf8]) and 119-127 ([u16];
    items are [Result<char, _>], [None] for [Err]).  The iterators are lazy but their source is
    not modified in between, so the list of all items stands for them. *)
Definition decode (k : kind) (src : list Z) : outcome (list (option Z)) :=
  let! s := ptr_to_slice src in
  match k with
  | STRING => let! cs := unwrap (utf8_decode s) in Ok (map Some cs)
  | WSTRING => Ok (decode_utf16 s)
  end.

(** A destination pointer that moves: units before it and units from it on.
    /repo/src/string_functions.rs:89-117. *)
Definition cursor := (list Z * list Z)%type.
(** [**dest = u; *dest = dest.add(1)], /repo/src/string_functions.rs:95-96, 110-111. *)
Definition put (u : Z) (d : cursor) : outcome cursor :=
  match snd d with [] => Ub | _ :: r => Ok (fst d ++ [u], r) end.
(** Writing several units in turn: /repo/src/string_functions.rs:91-98, 106-113. *)
Fixpoint put_all (us : list Z) (d : cursor) : outcome cursor :=
  match us with [] => Ok d | u :: r => let! d' := put u d in put_all r d' end.
(** [**dest = 0], /repo/src/string_functions.rs:100, 115. *)
Definition put_nul (d : cursor) : outcome cursor :=
  match snd d with [] => Ub | _ :: r => Ok (fst d, 0 :: r) end.

(** [encode_utf8]/[encode_utf16] at /repo/src/string_functions.rs:93, 108. *)
Definition encode_char (k : kind) (c : Z) : list Z :=
  match k with STRING => encode_utf8 c | WSTRING => encode_utf16 c end.
(** The loop of /repo/src/string_functions.rs:91-98 (items are characters) and 106-113 (items are
    [Result]s, [c.unwrap()]). *)
Fixpoint encode_loop (k : kind) (items : list (option Z)) (d : cursor) : outcome cursor :=
  match items with
  | [] => Ok d
  | c :: r => let! c := unwrap c in let! d' := put_all (encode_char k c) d in encode_loop k r d'
  end.
(** /repo/src/string_functions.rs:89-102 and 104-117. *)
Definition encode (k : kind) (items : list (option Z)) (d : cursor) : outcome cursor :=
  let! d' := encode_loop k items d in put_nul d'.
(** The whole destination, seen from the pointer passed in.  What the caller of
    /repo/src/string_functions.rs:89-117 finds. *)
Definition contents (d : cursor) : list Z := fst d ++ snd d.
(** /repo/src/string_functions.rs:89-117 from the beginning of the destination. *)
Definition encode_to (k : kind) (items : list (option Z)) (dest : list Z) : outcome (list Z) :=
  omap contents (encode k items ([], dest)).

(** [.count()] as [usize].  E.g. /repo/src/string_functions.rs:142, 158. *)
Definition count (items : list (option Z)) : Z := Z.of_nat (length items).

(** /repo/src/string_functions.rs:141-143 [LEN__STRING], 157-159 [LEN__WSTRING]. *)
Definition LEN (k : kind) (src : list Z) : outcome Z :=
  let! cs := decode k src in Ok (wrap i32 (count cs)).

(** [haystack.windows(needle.len()).position(|w| w == needle)] (Rust core): the first index at
    which [needle] (not empty) is found.  /repo/src/string_functions.rs:179-180, 211-212; here the
    comparison of slices. *)
Fixpoint list_eqb (a b : list Z) : bool :=
  match a, b with
  | [], [] => true
  | x :: a', y :: b' => (x =? y) && list_eqb a' b'
  | _, _ => false
  end.
(** [windows(n).position(..)] at /repo/src/string_functions.rs:179-180, 211-212. *)
Fixpoint position (needle hay : list Z) : option nat :=
  if (length hay <? length needle)%nat then None
  else if list_eqb (firstn (length needle) hay) needle then Some O
  else match hay with [] => None | _ :: r => option_map S (position needle r) end.

(** /repo/src/string_functions.rs:170-192 [FIND__STRING], 202-223 [FIND__WSTRING].
    [char_index as i32 + 1] is [i32] arithmetic. *)
Definition FIND (p : profile) (k : kind) (src1 src2 : list Z) : outcome Z :=
  let! haystack := ptr_to_slice src1 in
  let! needle := ptr_to_slice src2 in
  if (length haystack <? length needle)%nat || (length haystack =? 0)%nat || (length needle =? 0)%nat
  then Ok 0
  else match position needle haystack with
  | Some idx =>
      let! char_index :=
        match k with
        | STRING => let! cs := unwrap (utf8_decode (firstn idx haystack)) in
                    Ok (Z.of_nat (length cs))
        | WSTRING => Ok (count (decode_utf16 (firstn idx haystack)))
        end in
      arith p i32 (wrap i32 char_index + 1)
  | None => Ok 0
  end.

(** /repo/src/string_functions.rs:236-250 [LEFT_EXT__STRING], 263-281 [LEFT_EXT__WSTRING]. *)
Definition LEFT_EXT (k : kind) (src : list Z) (substr_len : Z) (dest : list Z) : outcome (list Z) :=
  if substr_len <? 0 then Panic
  else
    let! cs := decode k src in
    if count cs <? substr_len then Panic
    else let! cs := decode k src in encode_to k (firstn (Z.to_nat substr_len) cs) dest.

(** /repo/src/string_functions.rs:294-308 [RIGHT_EXT__STRING], 321-338 [RIGHT_EXT__WSTRING]. *)
Definition RIGHT_EXT (k : kind) (src : list Z) (substr_len : Z) (dest : list Z) : outcome (list Z) :=
  if substr_len <? 0 then Panic
  else
    let! cs := decode k src in
    let nchars := count cs in
    if nchars <? substr_len then Panic
    else let! cs := decode k src in encode_to k (skipn (Z.to_nat (nchars - substr_len)) cs) dest.

(** /repo/src/string_functions.rs:352-381 [MID_EXT__STRING], 395-424 [MID_EXT__WSTRING]. *)
Definition MID_EXT (p : profile) (k : kind) (src : list Z) (substr_len start_index : Z)
    (dest : list Z) : outcome (list Z) :=
  if substr_len <? 0 then Panic
  else
    let start_index := wrap usize start_index in
    let! cs := decode k src in
    let nchars := count cs in
    if (start_index <? 1) || (nchars <? start_index) then Panic
    else
      let start_index := start_index - 1 in
      let! stop := arith p usize (substr_len + start_index) in
      if nchars <? stop then Panic
      else
        let! cs := decode k src in
        encode_to k (firstn (Z.to_nat substr_len) (skipn (Z.to_nat start_index) cs)) dest.

(** /repo/src/string_functions.rs:438-457 [INSERT_EXT__STRING], 471-490 [INSERT_EXT__WSTRING]. *)
Definition INSERT_EXT (k : kind) (src_base src_to_insert : list Z) (pos : Z) (dest : list Z)
    : outcome (list Z) :=
  let! cs := decode k src_base in
  if (pos <? 0) || (wrap i32 (count cs) <? pos) then Panic
  else
    let! base1 := decode k src_base in
    let! ins := decode k src_to_insert in
    let! base2 := decode k src_base in
    encode_to k (firstn (Z.to_nat pos) base1 ++ ins ++ skipn (Z.to_nat pos) base2) dest.

(** /repo/src/string_functions.rs:504-533 [DELETE_EXT__STRING], 547-577 [DELETE_EXT__WSTRING]. *)
Definition DELETE_EXT (p : profile) (k : kind) (src : list Z) (num_chars_to_delete pos : Z)
    (dest : list Z) : outcome (list Z) :=
  let! cs := decode k src in
  let nchars := count cs in
  if (pos <? 1) || (wrap i32 nchars <? pos) then Panic
  else
    let pos := pos - 1 in
    let ndel := wrap usize num_chars_to_delete in
    let! stop := arith p usize (ndel + pos) in
    if nchars <? stop then Panic
    else
      let! cs1 := decode k src in
      let! cs2 := decode k src in
      encode_to k (firstn (Z.to_nat pos) cs1 ++ skipn (Z.to_nat stop) cs2) dest.

(** /repo/src/string_functions.rs:591-625 [REPLACE_EXT__STRING], 639-672
    [REPLACE_EXT__WSTRING]. *)
Definition REPLACE_EXT (p : profile) (k : kind) (src_base src_replacement : list Z)
    (num_chars_to_replace pos : Z) (dest : list Z) : outcome (list Z) :=
  let! cs := decode k src_base in
  let nbase := count cs in
  if (pos <? 1) || (wrap i32 nbase <? pos) then Panic
  else
    let pos := pos - 1 in
    let nreplace := wrap usize num_chars_to_replace in
    let! stop := arith p usize (nreplace + pos) in
    if nbase <? stop then Panic
    else
      let! cs1 := decode k src_base in
      let! rep := decode k src_replacement in
      let! cs2 := decode k src_base in
      encode_to k (firstn (Z.to_nat pos) cs1 ++ rep ++ skipn (Z.to_nat stop) cs2) dest.

(** The loop of /repo/src/string_functions.rs:714-717 and 762-765; [n] iterations. *)
Fixpoint concat_loop (k : kind) (n : nat) (argv : list (list Z)) (d : cursor) : outcome cursor :=
  match n with
  | O => Ok d
  | S n' =>
      match argv with
      | [] => Ub
      | a :: r => let! cs := decode k a in let! d' := encode k cs d in concat_loop k n' r d'
      end
  end.
(** /repo/src/string_functions.rs:687-689, 704-720 [CONCAT__STRING], [CONCAT_EXT__STRING], 735-737, 752-768
    [CONCAT__WSTRING], [CONCAT_EXT__WSTRING]; [None] is the null pointer. *)
Definition CONCAT (k : kind) (dest : option (list Z)) (argc : Z) (argv : option (list (list Z)))
    : outcome (list Z) :=
  match argv, dest with
  | Some argv, Some dest => omap contents (concat_loop k (Z.to_nat argc) argv ([], dest))
  | _, _ => Panic
  end.

(** [Ord::cmp] on slices (Rust core): lexicographic.  Called at
    /repo/src/string_functions.rs:784, 922, 934. *)
Fixpoint slice_cmp (a b : list Z) : comparison :=
  match a, b with
  | [], [] => Eq
  | [], _ => Lt
  | _, [] => Gt
  | x :: a', y :: b' => match x ?= y with Eq => slice_cmp a' b' | c => c end
  end.
(** [Ordering::is_gt] (Rust core); /repo/src/string_functions.rs:802, 814. *)
Definition is_gt (c : comparison) : bool := match c with Gt => true | _ => false end.
(** [Ordering::is_ge] (Rust core); /repo/src/string_functions.rs:826, 838. *)
Definition is_ge (c : comparison) : bool := match c with Lt => false | _ => true end.
(** [Ordering::is_eq] (Rust core); /repo/src/string_functions.rs:850, 862. *)
Definition is_eq (c : comparison) : bool := match c with Eq => true | _ => false end.
(** [Ordering::is_le] (Rust core); /repo/src/string_functions.rs:874, 886. *)
Definition is_le (c : comparison) : bool := match c with Gt => false | _ => true end.
(** [Ordering::is_lt] (Rust core); /repo/src/string_functions.rs:898, 910. *)
Definition is_lt (c : comparison) : bool := match c with Lt => true | _ => false end.
(** [Ordering::is_ne] (Rust core); /repo/src/string_functions.rs:922, 934. *)
Definition is_ne (c : comparison) : bool := match c with Eq => false | _ => true end.

(** The loop of /repo/src/string_functions.rs:781-788, [n] iterations. *)
Fixpoint compare_loop (f : comparison -> bool) (n : nat) (previous : list Z) (argv : list (list Z))
    : outcome bool :=
  match n with
  | O => Ok true
  | S n' =>
      match argv with
      | [] => Ub
      | a :: r =>
          let! current := ptr_to_slice a in
          if negb (f (slice_cmp previous current)) then Ok false
          else compare_loop f n' current r
      end
  end.
(** /repo/src/string_functions.rs:771-791. *)
Definition compare (f : comparison -> bool) (argc : Z) (argv : list (list Z)) : outcome bool :=
  if argc <? 2 then Panic
  else match argv with
  | [] => Ub
  | a :: r => let! previous := ptr_to_slice a in compare_loop f (Z.to_nat (argc - 1)) previous r
  end.

(** /repo/src/string_functions.rs:801-803, 813-815 (GT), 825-827, 837-839 (GE), 849-851, 861-863
    (EQ), 873-875, 885-887 (LE), 897-899, 909-911 (LT): the same for [u8] and [u16]. *)
Definition GT_STR := compare is_gt.
(** /repo/src/string_functions.rs:825-827, 837-839. *)
Definition GE_STR := compare is_ge.
(** /repo/src/string_functions.rs:849-851, 861-863. *)
Definition EQ_STR := compare is_eq.
(** /repo/src/string_functions.rs:873-875, 885-887. *)
Definition LE_STR := compare is_le.
(** /repo/src/string_functions.rs:897-899, 909-911. *)
Definition LT_STR := compare is_lt.
(** /repo/src/string_functions.rs:921-923, 933-935. *)
Definition NE_STR (string1 string2 : list Z) : outcome bool :=
  let! a := ptr_to_slice string1 in
  let! b := ptr_to_slice string2 in
  Ok (is_ne (slice_cmp a b)).

(** [char::REPLACEMENT_CHARACTER].  /repo/src/string_conversion.rs:16. *)
Definition REPLACEMENT_CHARACTER : Z := 0xFFFD.
(** [.map(|c| c.unwrap_or(char::REPLACEMENT_CHARACTER))].  /repo/src/string_conversion.rs:16. *)
Definition or_replacement (c : option Z) : option Z :=
  Some match c with Some c => c | None => REPLACEMENT_CHARACTER end.
(** /repo/src/string_conversion.rs:13-20. *)
Definition WSTRING_TO_STRING_EXT (src dest : list Z) : outcome (list Z) :=
  let! cs := decode WSTRING src in encode_to STRING (map or_replacement cs) dest.
(** /repo/src/string_conversion.rs:32-44: no terminator is written. *)
Definition STRING_TO_WSTRING_EXT (src dest : list Z) : outcome (list Z) :=
  let! cs := decode STRING src in
  omap contents (encode_loop WSTRING cs ([], dest)).
(** /repo/src/string_conversion.rs:51-62: the first byte of the encoding; the array is
    initialised with [u8::MAX]. *)
Definition WCHAR_TO_CHAR (input : Z) : Z :=
  match map or_replacement (decode_utf16 [input]) with
  | [Some c] => hd 255 (encode_utf8 c)
  | _ => 255
  end.
(** /repo/src/string_conversion.rs:69-74. *)
Definition CHAR_TO_WCHAR (input : Z) : Z := hd 65535 (encode_utf16 input).
