(** The UTF-8 and UTF-16 codecs of Rust's core library as used by
    /repo/src/string_functions.rs.  Units (bytes, 16-bit words) and characters are [Z]. *)
From Coq Require Import ZArith List Bool.
From Verif Require Import Base.
Import ListNotations.
Open Scope Z_scope.

(** Range test of the decoders used at /repo/src/string_functions.rs:79-87. *)
Definition between (lo x hi : Z) : bool := (lo <=? x) && (x <=? hi).
(** A continuation byte ([(b as i8) < -64] in core::str::validations).  Behind [from_utf8],
    /repo/src/string_functions.rs:79-87. *)
Definition is_cont (b : Z) : bool := between 0x80 b 0xBF.

(** Allowed second byte after the lead byte of a three-byte / four-byte sequence
    (core::str::validations::run_utf8_validation).  Behind [from_utf8],
    /repo/src/string_functions.rs:79-87. *)
Definition second3 (b0 b1 : Z) : bool :=
  ((b0 =? 0xE0) && between 0xA0 b1 0xBF) || (between 0xE1 b0 0xEC && between 0x80 b1 0xBF) ||
  ((b0 =? 0xED) && between 0x80 b1 0x9F) || (between 0xEE b0 0xEF && between 0x80 b1 0xBF).
(** The same after the lead byte of a four-byte sequence; behind [from_utf8],
    /repo/src/string_functions.rs:79-87. *)
Definition second4 (b0 b1 : Z) : bool :=
  ((b0 =? 0xF0) && between 0x90 b1 0xBF) || (between 0xF1 b0 0xF3 && between 0x80 b1 0xBF) ||
  ((b0 =? 0xF4) && between 0x80 b1 0x8F).

(** The character assembled from its bytes (core::str::validations::next_code_point).  Behind
    [chars()], /repo/src/string_functions.rs:79-87. *)
Definition char2 (b0 b1 : Z) : Z := Z.lor (Z.shiftl (Z.land b0 0x1F) 6) (Z.land b1 0x3F).
(** Three bytes; behind [chars()], /repo/src/string_functions.rs:79-87. *)
Definition char3 (b0 b1 b2 : Z) : Z :=
  Z.lor (Z.shiftl (Z.land b0 0x1F) 12)
        (Z.lor (Z.shiftl (Z.land b1 0x3F) 6) (Z.land b2 0x3F)).
(** Four bytes; behind [chars()], /repo/src/string_functions.rs:79-87. *)
Definition char4 (b0 b1 b2 b3 : Z) : Z :=
  Z.lor (Z.shiftl (Z.land b0 0x7) 18)
        (Z.lor (Z.shiftl (Z.lor (Z.shiftl (Z.land b1 0x3F) 6) (Z.land b2 0x3F)) 6)
               (Z.land b3 0x3F)).

(** [std::str::from_utf8(slice)] followed by [.chars()]
    (used at /repo/src/string_functions.rs:79-87); [None] is the [Err] of [from_utf8]. *)
Fixpoint utf8_decode (l : list Z) : option (list Z) :=
  match l with
  | [] => Some []
  | b0 :: l0 =>
      if between 0 b0 0x7F then option_map (cons b0) (utf8_decode l0)
      else match l0 with
      | [] => None
      | b1 :: l1 =>
          if between 0xC2 b0 0xDF
          then if is_cont b1 then option_map (cons (char2 b0 b1)) (utf8_decode l1) else None
          else match l1 with
          | [] => None
          | b2 :: l2 =>
              if between 0xE0 b0 0xEF
              then if second3 b0 b1 && is_cont b2
                   then option_map (cons (char3 b0 b1 b2)) (utf8_decode l2) else None
              else match l2 with
              | [] => None
              | b3 :: l3 =>
                  if second4 b0 b1 && is_cont b2 && is_cont b3
                  then option_map (cons (char4 b0 b1 b2 b3)) (utf8_decode l3) else None
              end
          end
      end
  end.

(** [char::encode_utf8] (core::char::methods), used at /repo/src/string_functions.rs:93. *)
Definition encode_utf8 (c : Z) : list Z :=
  let tag_cont x := Z.lor (Z.land x 0x3F) 0x80 in
  if c <? 0x80 then [c]
  else if c <? 0x800 then [Z.lor (Z.land (Z.shiftr c 6) 0x1F) 0xC0; tag_cont c]
  else if c <? 0x10000 then [Z.lor (Z.land (Z.shiftr c 12) 0xF) 0xE0; tag_cont (Z.shiftr c 6); tag_cont c]
  else [Z.lor (Z.land (Z.shiftr c 18) 0x7) 0xF0; tag_cont (Z.shiftr c 12); tag_cont (Z.shiftr c 6);
        tag_cont c].

(** [char::decode_utf16] (core::char::decode), used at /repo/src/string_functions.rs:119-127;
    [None] is an [Err] item (an unpaired surrogate). *)
Fixpoint decode_utf16 (l : list Z) : list (option Z) :=
  match l with
  | [] => []
  | u :: l0 =>
      if negb (Z.land u 0xF800 =? 0xD800) then Some u :: decode_utf16 l0
      else if 0xDC00 <=? u then None :: decode_utf16 l0
      else match l0 with
      | [] => [None]
      | u2 :: l1 =>
          if (u2 <? 0xDC00) || (0xDFFF <? u2) then None :: decode_utf16 l0
          else Some (Z.lor (Z.shiftl (Z.land u 0x3FF) 10) (Z.land u2 0x3FF) + 0x10000)
               :: decode_utf16 l1
      end
  end.

(** [char::encode_utf16] (core::char::methods), used at /repo/src/string_functions.rs:108. *)
Definition encode_utf16 (c : Z) : list Z :=
  if c <? 0x10000 then [c]
  else let d := c - 0x10000 in
       [Z.lor 0xD800 (Z.shiftr d 10); Z.lor 0xDC00 (Z.land d 0x3FF)].
