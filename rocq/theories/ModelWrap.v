(** The string functions written in Structured Text: /repo/iec61131-st/string_functions.st and
    /repo/iec61131-st/string_conversion.st.

    Assumed of the RuSTy compiler: a function's result variable and the copies of parameters
    passed by value are zero-initialised; assigning a string (also to a parameter passed by
    value) copies as many units as the target has characters, never its last unit. *)
From Coq Require Import ZArith List.
From Verif Require Import Base ModelString.
Import ListNotations.
Open Scope Z_scope.

(** /repo/iec61131-st/string_functions.st:1-3: results have [__STRING_LENGTH] = 2048 characters and a
    NUL (262, 269 say 2048 literally). *)
Definition result : list Z := repeat 0 2049.
(** /repo/iec61131-st/string_functions.st:47-65, 122-140. *)
Definition LEFT (k : kind) (src : list Z) (L : Z) : outcome (list Z) := LEFT_EXT k src L result.
(** /repo/iec61131-st/string_functions.st:122-140. *)
Definition RIGHT (k : kind) (src : list Z) (L : Z) : outcome (list Z) := RIGHT_EXT k src L result.
(** /repo/iec61131-st/string_functions.st:202-222. *)
Definition MID (p : profile) (k : kind) (src : list Z) (L P : Z) : outcome (list Z) := MID_EXT p k src L P result.
(** /repo/iec61131-st/string_functions.st:262-273: the result is the first argument of the Rust function. *)
Definition CONCAT_ALL (k : kind) (args : list (list Z)) : outcome (list Z) :=
  CONCAT k (Some result) (Z.of_nat (length args)) (Some args).
(** /repo/iec61131-st/string_functions.st:324-344. *)
Definition INSERT (k : kind) (base ins : list Z) (P : Z) : outcome (list Z) := INSERT_EXT k base ins P result.
(** /repo/iec61131-st/string_functions.st:406-426. *)
Definition DELETE (p : profile) (k : kind) (src : list Z) (L P : Z) : outcome (list Z) :=
  DELETE_EXT p k src L P result.
(** /repo/iec61131-st/string_functions.st:490-512. *)
Definition REPLACE (p : profile) (k : kind) (base rep : list Z) (L P : Z) : outcome (list Z) :=
  REPLACE_EXT p k base rep L P result.
(** /repo/iec61131-st/string_conversion.st:6-11, 45-50. *)
Definition WSTRING_TO_STRING (src : list Z) : outcome (list Z) := WSTRING_TO_STRING_EXT src result.
(** /repo/iec61131-st/string_conversion.st:45-50. *)
Definition STRING_TO_WSTRING (src : list Z) : outcome (list Z) := STRING_TO_WSTRING_EXT src result.

(** Assignment to a STRING (WSTRING) variable of the default length, 80 characters and a NUL, from
    memory with the units [src].  Parameters at /repo/iec61131-st/string_functions.st:575-587. *)
Definition assigned (src : list Z) : list Z :=
  let copied := firstn 80 src in copied ++ repeat 0 (81 - length copied).
(** /repo/iec61131-st/string_functions.st:575-587, 616-628, 658-670: the parameters are passed by value. *)
Definition STRING_GREATER (a b : list Z) : outcome bool := GT_STR 2 [assigned a; assigned b].
(** /repo/iec61131-st/string_functions.st:616-628. *)
Definition STRING_EQUAL (a b : list Z) : outcome bool := EQ_STR 2 [assigned a; assigned b].
(** /repo/iec61131-st/string_functions.st:658-670. *)
Definition STRING_LESS (a b : list Z) : outcome bool := LT_STR 2 [assigned a; assigned b].

(** /repo/iec61131-st/string_conversion.st:28-36, 67-75: the first unit. *)
Definition STRING_TO_CHAR (src : list Z) : outcome Z :=
  match src with u :: _ => Ok u | [] => Ub end.
(** /repo/iec61131-st/string_conversion.st:83-91, 111-119: the character's address is taken for that of a
    string with 80 characters; [behind] is the memory behind the parameter [in]. *)
Definition CHAR_TO_STRING (c : Z) (behind : list Z) : outcome (list Z) :=
  if (length behind <? 79)%nat then Ub else Ok (assigned (c :: behind)).
