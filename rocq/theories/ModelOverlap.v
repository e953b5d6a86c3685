(** /repo/src/string_functions.rs on a single memory, in which the destination may overlap the
    sources (a caller may pass the same variable twice).

    The memory is a list of units (bytes for STRING, words for WSTRING), a pointer an index into
    it.  Reads and writes happen in the order in which the code makes them: characters are
    decoded one by one while the result is written.  (Rust's aliasing rules do not
    promise this for overlapping memory; the compiler is assumed not to use that freedom.)  [usize] has 64 bits. *)
From Coq Require Import ZArith List Bool.
From Verif Require Import Base ModelText ModelString.
Import ListNotations.
Open Scope Z_scope.

(** A read through a pointer; outside the memory it is undefined.
    /repo/src/string_functions.rs:23, 37. *)
Definition peek (m : list Z) (p : nat) : outcome Z :=
  match nth_error m p with Some u => Ok u | None => Ub end.
(** [**dest = u], /repo/src/string_functions.rs:95, 100, 110, 115. *)
Definition poke (m : list Z) (p : nat) (u : Z) : outcome (list Z) :=
  if (p <? length m)%nat then Ok (firstn p m ++ u :: skipn (S p) m) else Ub.
(** The inner loops /repo/src/string_functions.rs:94-97, 109-112: the memory and the moved pointer. *)
Fixpoint poke_all (m : list Z) (d : nat) (us : list Z) : outcome (list Z * nat) :=
  match us with
  | [] => Ok (m, d)
  | u :: r => let! m' := poke m d u in poke_all m' (S d) r
  end.

(** An iterator over characters: position, end, and the word that [DecodeUtf16] has read ahead.
    /repo/src/string_functions.rs:40-41, 66-87, 119-127. *)
Record chars := Chars { c_pos : nat; c_end : nat; c_buf : option Z }.
(** [decode(src)], /repo/src/string_functions.rs:79-87, 119-127: the NUL is searched and UTF-8 validated at once. *)
Definition decode_at (k : kind) (m : list Z) (src : nat) : outcome chars :=
  let! n := get_null_terminated_len (skipn src m) in
  match k with
  | STRING => let! _ := unwrap (utf8_decode (firstn n (skipn src m))) in Ok (Chars src (src + n) None)
  | WSTRING => Ok (Chars src (src + n) None)
  end.
(** [Chars::next] of Rust's core library on the bytes [l] (not empty) of a [str] that may have been
    overwritten since it was validated: the first character and its number of bytes; [None] if the bytes are
    not the beginning of UTF-8 text, which is undefined behaviour.  Used by /repo/src/string_functions.rs:74. *)
Definition first_char (l : list Z) : option (Z * nat) :=
  match l with
  | [] => None
  | b0 :: l0 =>
      if between 0 b0 0x7F then Some (b0, 1%nat)
      else match l0 with
      | [] => None
      | b1 :: l1 =>
          if between 0xC2 b0 0xDF then if is_cont b1 then Some (char2 b0 b1, 2%nat) else None
          else match l1 with
          | [] => None
          | b2 :: l2 =>
              if between 0xE0 b0 0xEF
              then if second3 b0 b1 && is_cont b2 then Some (char3 b0 b1 b2, 3%nat) else None
              else match l2 with
              | [] => None
              | b3 :: _ =>
                  if second4 b0 b1 && is_cont b2 && is_cont b3 then Some (char4 b0 b1 b2 b3, 4%nat) else None
              end
          end
      end
  end.
(** [next], /repo/src/string_functions.rs:73-75: [None] at the end, otherwise the item (for WSTRING possibly an
    error, [Some None]).  [DecodeUtf16::next] of Rust's core library keeps the word after an unpaired leading surrogate. *)
Definition next (k : kind) (m : list Z) (it : chars) : outcome (option (option Z) * chars) :=
  match k with
  | STRING =>
      if (c_end it <=? c_pos it)%nat then Ok (None, it)
      else match first_char (firstn (c_end it - c_pos it) (skipn (c_pos it) m)) with
           | Some (c, n) => Ok (Some (Some c), Chars (c_pos it + n) (c_end it) None)
           | None => Ub
           end
  | WSTRING =>
      let read := fun p => if (c_end it <=? p)%nat then Ok None else omap Some (peek m p) in
      let! '(u, p) := match c_buf it with
                      | Some u => Ok (Some u, c_pos it)
                      | None => let! u := read (c_pos it) in Ok (u, match u with Some _ => S (c_pos it) | None => c_pos it end)
                      end in
      match u with
      | None => Ok (None, it)
      | Some u =>
          if negb (Z.land u 0xF800 =? 0xD800) then Ok (Some (Some u), Chars p (c_end it) None)
          else if 0xDC00 <=? u then Ok (Some None, Chars p (c_end it) None)
          else
            let! u2 := read p in
            match u2 with
            | None => Ok (Some None, Chars p (c_end it) None)
            | Some u2 =>
                if (u2 <? 0xDC00) || (0xDFFF <? u2) then Ok (Some None, Chars (S p) (c_end it) (Some u2))
                else Ok (Some (Some (Z.lor (Z.shiftl (Z.land u 0x3FF) 10) (Z.land u2 0x3FF) + 0x10000)),
                         Chars (S p) (c_end it) None)
            end
      end
  end.
(** [.skip(n)], e.g. /repo/src/string_functions.rs:304: on the first [next] of the result, [n] items are
    read; [None] if there are fewer. *)
Fixpoint skip (k : kind) (m : list Z) (n : nat) (it : chars) : outcome (option chars) :=
  match n with
  | O => Ok (Some it)
  | S n' =>
      let! '(item, it') := next k m it in
      match item with None => Ok None | Some _ => skip k m n' it' end
  end.
(** [.count()], e.g. /repo/src/string_functions.rs:242; [fuel] bounds the number of units. *)
Fixpoint count_items (k : kind) (m : list Z) (fuel : nat) (it : chars) : outcome nat :=
  match fuel with
  | O => Ok O
  | S f =>
      let! '(item, it') := next k m it in
      match item with None => Ok O | Some _ => omap S (count_items k m f it') end
  end.
(** [.count()] of the items from an address, /repo/src/string_functions.rs:242. *)
Definition count_at (k : kind) (m : list Z) (src : nat) : outcome Z :=
  let! it := decode_at k m src in
  omap Z.of_nat (count_items k m (S (length m)) it).

(** A link of the chains built at e.g. /repo/src/string_functions.rs:450-453: what is skipped,
    and how many items are taken at most. *)
Record link := Link { l_skip : nat; l_take : option nat; l_it : chars }.
(** The loops /repo/src/string_functions.rs:91-98, 106-113 over one link; [fuel] bounds the number of items. *)
Fixpoint copy (k : kind) (fuel : nat) (m : list Z) (d : nat) (take : option nat) (it : chars) : outcome (list Z * nat) :=
  match fuel, take with
  | O, _ | _, Some O => Ok (m, d)
  | S f, _ =>
      let! '(item, it') := next k m it in
      match item with
      | None => Ok (m, d)
      | Some c =>
          let! c := unwrap c in
          let! '(m', d') := poke_all m d (encode_char k c) in
          copy k f m' d' (option_map pred take) it'
      end
  end.
(** One link copied: /repo/src/string_functions.rs:91-98, 106-113. *)
Definition copy_link (k : kind) (m : list Z) (d : nat) (l : link) : outcome (list Z * nat) :=
  let! it := skip k m (l_skip l) (l_it l) in
  match it with
  | None => Ok (m, d)
  | Some it => copy k (S (length m)) m d (l_take l) it
  end.
(** The chain and the NUL, /repo/src/string_functions.rs:89-102, 104-117. *)
Fixpoint encode_at (k : kind) (m : list Z) (d : nat) (links : list link) : outcome (list Z * nat) :=
  match links with
  | [] => let! m' := poke m d 0 in Ok (m', d)
  | l :: r => let! '(m', d') := copy_link k m d l in encode_at k m' d' r
  end.

(** /repo/src/string_functions.rs:236-250, 263-281. *)
Definition LEFT_at (k : kind) (m : list Z) (src : nat) (substr_len : Z) (dest : nat) : outcome (list Z) :=
  if substr_len <? 0 then Panic
  else
    let! nchars := count_at k m src in
    if nchars <? substr_len then Panic
    else
      let! it := decode_at k m src in
      omap fst (encode_at k m dest [Link 0 (Some (Z.to_nat substr_len)) it]).
(** /repo/src/string_functions.rs:294-308, 321-338. *)
Definition RIGHT_at (k : kind) (m : list Z) (src : nat) (substr_len : Z) (dest : nat) : outcome (list Z) :=
  if substr_len <? 0 then Panic
  else
    let! nchars := count_at k m src in
    if nchars <? substr_len then Panic
    else
      let! it := decode_at k m src in
      omap fst (encode_at k m dest [Link (Z.to_nat (nchars - substr_len)) None it]).
(** /repo/src/string_functions.rs:352-381, 395-424. *)
Definition MID_at (p : profile) (k : kind) (m : list Z) (src : nat) (substr_len start_index : Z) (dest : nat)
    : outcome (list Z) :=
  if substr_len <? 0 then Panic
  else
    let start_index := wrap usize start_index in
    let! nchars := count_at k m src in
    if (start_index <? 1) || (nchars <? start_index) then Panic
    else
      let start_index := start_index - 1 in
      let! stop := arith p usize (substr_len + start_index) in
      if nchars <? stop then Panic
      else
        let! it := decode_at k m src in
        omap fst (encode_at k m dest [Link (Z.to_nat start_index) (Some (Z.to_nat substr_len)) it]).
(** /repo/src/string_functions.rs:438-457, 471-490. *)
Definition INSERT_at (k : kind) (m : list Z) (src_base src_to_insert : nat) (pos : Z) (dest : nat) : outcome (list Z) :=
  let! nchars := count_at k m src_base in
  if (pos <? 0) || (wrap i32 nchars <? pos) then Panic
  else
    let! base1 := decode_at k m src_base in
    let! ins := decode_at k m src_to_insert in
    let! base2 := decode_at k m src_base in
    omap fst (encode_at k m dest [Link 0 (Some (Z.to_nat pos)) base1; Link 0 None ins; Link (Z.to_nat pos) None base2]).
(** /repo/src/string_functions.rs:504-533, 547-577. *)
Definition DELETE_at (p : profile) (k : kind) (m : list Z) (src : nat) (num_chars_to_delete pos : Z) (dest : nat)
    : outcome (list Z) :=
  let! nchars := count_at k m src in
  if (pos <? 1) || (wrap i32 nchars <? pos) then Panic
  else
    let pos := pos - 1 in
    let ndel := wrap usize num_chars_to_delete in
    let! stop := arith p usize (ndel + pos) in
    if nchars <? stop then Panic
    else
      let! it1 := decode_at k m src in
      let! it2 := decode_at k m src in
      omap fst (encode_at k m dest [Link 0 (Some (Z.to_nat pos)) it1; Link (Z.to_nat stop) None it2]).
(** /repo/src/string_functions.rs:591-625, 639-672. *)
Definition REPLACE_at (p : profile) (k : kind) (m : list Z) (src_base src_replacement : nat) (num_chars_to_replace pos : Z)
    (dest : nat) : outcome (list Z) :=
  let! nbase := count_at k m src_base in
  if (pos <? 1) || (wrap i32 nbase <? pos) then Panic
  else
    let pos := pos - 1 in
    let nreplace := wrap usize num_chars_to_replace in
    let! stop := arith p usize (nreplace + pos) in
    if nbase <? stop then Panic
    else
      let! base1 := decode_at k m src_base in
      let! rep := decode_at k m src_replacement in
      let! base2 := decode_at k m src_base in
      omap fst (encode_at k m dest [Link 0 (Some (Z.to_nat pos)) base1; Link 0 None rep; Link (Z.to_nat stop) None base2]).
(** The loop /repo/src/string_functions.rs:714-717, 762-765 of CONCAT and CONCAT_EXT; no pointer is null. *)
Fixpoint CONCAT_at (k : kind) (m : list Z) (dest : nat) (argv : list nat) : outcome (list Z) :=
  match argv with
  | [] => Ok m
  | a :: r =>
      let! it := decode_at k m a in
      let! '(m', d') := encode_at k m dest [Link 0 None it] in
      CONCAT_at k m' d' r
  end.
