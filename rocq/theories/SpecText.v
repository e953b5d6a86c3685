(** Specification vocabulary for strings: texts are lists of Unicode scalar values; UTF-8 and
    UTF-16 are given by the arithmetic of the Unicode standard (tables 3-5 and 3-6). *)
From Coq Require Import ZArith List.
From Verif Require Import Base ModelString.
Import ListNotations.
Open Scope Z_scope.

Definition is_scalar (c : Z) : Prop := 0 <= c <= 0xD7FF \/ 0xE000 <= c <= 0x10FFFF.
(** A text: characters other than NUL, which terminates strings. *)
Definition text (t : list Z) : Prop := Forall (fun c => is_scalar c /\ c <> 0) t.

Definition utf8_char (c : Z) : list Z :=
  if c <? 0x80 then [c]
  else if c <? 0x800 then [0xC0 + c / 64; 0x80 + c mod 64]
  else if c <? 0x10000 then [0xE0 + c / 4096; 0x80 + c / 64 mod 64; 0x80 + c mod 64]
  else [0xF0 + c / 262144; 0x80 + c / 4096 mod 64; 0x80 + c / 64 mod 64; 0x80 + c mod 64].
Definition utf16_char (c : Z) : list Z :=
  if c <? 0x10000 then [c]
  else [0xD800 + (c - 0x10000) / 1024; 0xDC00 + (c - 0x10000) mod 1024].

(** The units (bytes of a STRING, words of a WSTRING) of a text. *)
Definition units (k : kind) (t : list Z) : list Z :=
  flat_map (match k with STRING => utf8_char | WSTRING => utf16_char end) t.

(** The memory [src] holds the text [t]: its units, a NUL, anything. *)
Definition holds (k : kind) (src t : list Z) : Prop :=
  text t /\ exists rest, src = units k t ++ 0 :: rest.
(** The memory [dest] after writing the text [t] and one NUL to its beginning. *)
Definition written (k : kind) (t dest : list Z) : list Z :=
  units k t ++ 0 :: skipn (length (units k t) + 1) dest.
(** There is room for the text and its NUL. *)
Definition fits (k : kind) (t dest : list Z) : Prop := (length (units k t) < length dest)%nat.

(** Units that a STRING (bytes) or WSTRING (words) can hold. *)
Definition unit_ok (k : kind) (u : Z) : Prop :=
  match k with STRING => 0 <= u < 256 | WSTRING => 0 <= u < 65536 end.

(** Parsing of arbitrary words as UTF-16: [None] for an unpaired surrogate. *)
Definition high_surrogate (u : Z) : Prop := 0xD800 <= u <= 0xDBFF.
Definition low_surrogate (u : Z) : Prop := 0xDC00 <= u <= 0xDFFF.
Inductive utf16_parse : list Z -> list (option Z) -> Prop :=
| parse_nil : utf16_parse [] []
| parse_char : forall c l items, is_scalar c -> utf16_parse l items ->
    utf16_parse (utf16_char c ++ l) (Some c :: items)
| parse_high : forall u l items, high_surrogate u ->
    (forall v r, l = v :: r -> ~ low_surrogate v) -> utf16_parse l items ->
    utf16_parse (u :: l) (None :: items)
| parse_low : forall u l items, low_surrogate u -> utf16_parse l items ->
    utf16_parse (u :: l) (None :: items).

(** [needle] occurs in [hay] first after [n] elements. *)
Definition occurs_at (needle hay : list Z) (n : nat) : Prop :=
  exists a b, hay = a ++ needle ++ b /\ length a = n.
Definition first_at (needle hay : list Z) (n : nat) : Prop :=
  occurs_at needle hay n /\ forall m, occurs_at needle hay m -> (n <= m)%nat.

(** Lexicographic order: [a] is a proper prefix of [b] or smaller at the first difference. *)
Definition lex_lt (a b : list Z) : Prop :=
  (exists c r, b = a ++ c :: r) \/
  (exists p x y r s, a = p ++ x :: r /\ b = p ++ y :: s /\ x < y).

(** The memory [src] holds the units [s]: [s] has no zero unit and a NUL follows. *)
Definition reads (src s : list Z) : Prop :=
  Forall (fun u => u <> 0) s /\ exists rest, src = s ++ 0 :: rest.

(** Every earlier element is related to every later one. *)
Definition all_pairs (R : list Z -> list Z -> Prop) (l : list (list Z)) : Prop :=
  forall l1 x l2 y l3, l = l1 ++ x :: l2 ++ y :: l3 -> R x y.
Definition lex_le (a b : list Z) : Prop := a = b \/ lex_lt a b.

Definition slen (t : list Z) : Z := Z.of_nat (length t).
(** The call's outcome is the text [r] written to [dest], or, when there is no room for it, an
    access outside the destination. *)
Definition delivers (k : kind) (r dest : list Z) (o : outcome (list Z)) : Prop :=
  (fits k r dest -> o = Ok (written k r dest)) /\ (~ fits k r dest -> o = Ub).
(** [dest'] is [dest] overwritten from its beginning by some text and its NUL. *)
Definition well_written (k : kind) (dest dest' : list Z) : Prop :=
  exists t, text t /\ fits k t dest /\ dest' = written k t dest.
