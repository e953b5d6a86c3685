(** The assertions of the project's own integration tests, evaluated in the model.

    Each test of /repo/tests/<file>.rs compiles an ST program together with the library, runs it and
    compares variables with expected values.  Below, a test is its line in that file, the literals and
    variables of the program, its statements, and the expected values; [passes] executes the
    statements with the functions of ModelApi.v.  Nothing here is a proof about all inputs: it
    checks the model against what the authors of the code observed when running it.

    Not transcribed (DESIGN.md, section 3): programs with function blocks (ConformanceFB.v), with the operators [**],
    [+], [-], comparisons joined by AND, the built-in functions MUX, SEL and MOVE, tests of
    elementary functions (their values are a parameter of the model) and tests whose assertion is an
    inequality.  [assert_almost_eq!] is checked as equality. *)
From Coq Require Import String ZArith List Bool SpecFloat.
From Verif Require Import Base ModelFloat ModelChrono ModelTimeNum ModelText ModelExtra ModelWrap ModelLink ModelLib ModelApi.
Import ListNotations.
Open Scope string_scope.
Open Scope Z_scope.
Open Scope list_scope.

(** /repo/tests/common/mod.rs:50-59: the tests run against the debug build on the machine of the
    developer. *)
Definition machine : platform :=
  {| p_profile := Debug; p_chrono := Chrono true false; p_durgen := DurRound; p_endian := LittleEndian;
     p_tie := fun _ _ => true; p_clock := (0, 0); p_math := fun _ _ _ => FNum S754_nan |}.

(** Text up to the first NUL.  The helpers in /repo/tests/string_function_tests.rs:9-24 read results
    this way. *)
Fixpoint upto (m : list Z) : list Z := match m with [] => [] | c :: m' => if c =? 0 then [] else c :: upto m' end.

(** Assignment to a variable of a test program: strings are cut to its size.  E.g.
    /repo/tests/string_function_tests.rs:29-36. *)
Definition store (old v : value) : value :=
  match old, v with
  | VS m, VS w => let s := firstn (length m - 1) (upto w) in VS (s ++ repeat 0 (length m - length s))
  | _, _ => v
  end.

(** Statements of a test program; an empty name stands for a call whose result is not used.  E.g.
    /repo/tests/numerical_functions_tests.rs:18-27. *)
Fixpoint exec (P : platform) (l : list (string * expr)) (r : env value) : outcome (env value) :=
  match l with
  | [] => Ok r
  | (x, e) :: l' =>
      let! '(u, v, r') := value_of (api P) r e in
      if String.eqb x "" then exec P l' r'
      else let! '(t, old) := get x r' in
        let! w := coerce u t v in exec P l' (put x (store old w) r')
  end.

(** [assert_eq!] on numbers and on text, e.g. /repo/tests/numerical_functions_tests.rs:32. *)
Definition same (a b : value) : bool :=
  match a, b with
  | VZ x, VZ y => x =? y
  | VF x, VF y => SFeqb (fl_sf x) (fl_sf y)
  | VS x, VS y => if list_eq_dec Z.eq_dec (upto x) y then true else false
  | _, _ => false
  end.

(** A test, e.g. /repo/tests/numerical_functions_tests.rs:16-36. *)
Record test := Test { t_line : Z; t_env : env value; t_body : list (string * expr);
  t_expect : option (list (string * value)) }.
(** No expected values: the test is marked [should_panic], e.g.
    /repo/tests/date_time_numeric_functions_tests.rs:115-128. *)
Definition passes (t : test) : bool :=
  match exec machine (t_body t) (t_env t), t_expect t with
  | Ok r, Some l => forallb (fun '(x, v) => match get x r with Ok (_, w) => same w v | _ => false end) l
  | Panic, None => true
  | _, _ => false
  end.

(** /repo/tests/bit_conversion_tests.rs, at the lines given. *)
Definition bit_conversion_tests : list test := [
  Test 51 (* lword_to_dword *)
    [("#0", (S_LWORD, (VZ 0)));
     ("#1", (S_LWORD, (VZ 100)));
     ("#2", (S_LWORD, (VZ 18446744073709551615)));
     ("#3", (S_LWORD, (VZ 4294967296)));
     ("#4", (S_LWORD, (VZ 18446744073709551615)));
     ("ret.zero", (S_DWORD, (VZ 0)));
     ("ret.positive", (S_DWORD, (VZ 0)));
     ("ret.negative", (S_DWORD, (VZ 0)));
     ("ret.max_overflow", (S_DWORD, (VZ 0)));
     ("ret.min_overflow", (S_DWORD, (VZ 0)))]
    [("ret.zero", Call "LWORD_TO_DWORD" [Arg "#0"]);
     ("ret.positive", Call "LWORD_TO_DWORD" [Arg "#1"]);
     ("ret.negative", Call "LWORD_TO_DWORD" [Arg "#2"]);
     ("ret.max_overflow", Call "LWORD_TO_DWORD" [Arg "#3"]);
     ("ret.min_overflow", Call "LWORD_TO_DWORD" [Arg "#4"])]
    (Some [("ret.zero", (VZ 0)); ("ret.positive", (VZ 100)); ("ret.negative", (VZ 4294967295)); ("ret.max_overflow", (VZ 0)); ("ret.min_overflow", (VZ 4294967295))]);
  Test 85 (* lword_to_word *)
    [("#0", (S_LWORD, (VZ 0)));
     ("#1", (S_LWORD, (VZ 100)));
     ("#2", (S_LWORD, (VZ 18446744073709551615)));
     ("#3", (S_LWORD, (VZ 65536)));
     ("#4", (S_LWORD, (VZ 18446744073709551615)));
     ("ret.zero", (S_WORD, (VZ 0)));
     ("ret.positive", (S_WORD, (VZ 0)));
     ("ret.negative", (S_WORD, (VZ 0)));
     ("ret.max_overflow", (S_WORD, (VZ 0)));
     ("ret.min_overflow", (S_WORD, (VZ 0)))]
    [("ret.zero", Call "LWORD_TO_WORD" [Arg "#0"]);
     ("ret.positive", Call "LWORD_TO_WORD" [Arg "#1"]);
     ("ret.negative", Call "LWORD_TO_WORD" [Arg "#2"]);
     ("ret.max_overflow", Call "LWORD_TO_WORD" [Arg "#3"]);
     ("ret.min_overflow", Call "LWORD_TO_WORD" [Arg "#4"])]
    (Some [("ret.zero", (VZ 0)); ("ret.positive", (VZ 100)); ("ret.negative", (VZ 65535)); ("ret.max_overflow", (VZ 0)); ("ret.min_overflow", (VZ 65535))]);
  Test 119 (* lword_to_byte *)
    [("#0", (S_LWORD, (VZ 0)));
     ("#1", (S_LWORD, (VZ 100)));
     ("#2", (S_LWORD, (VZ 18446744073709551615)));
     ("#3", (S_LWORD, (VZ 256)));
     ("#4", (S_LWORD, (VZ 18446744073709551615)));
     ("ret.zero", (S_BYTE, (VZ 0)));
     ("ret.positive", (S_BYTE, (VZ 0)));
     ("ret.negative", (S_BYTE, (VZ 0)));
     ("ret.max_overflow", (S_BYTE, (VZ 0)));
     ("ret.min_overflow", (S_BYTE, (VZ 0)))]
    [("ret.zero", Call "LWORD_TO_BYTE" [Arg "#0"]);
     ("ret.positive", Call "LWORD_TO_BYTE" [Arg "#1"]);
     ("ret.negative", Call "LWORD_TO_BYTE" [Arg "#2"]);
     ("ret.max_overflow", Call "LWORD_TO_BYTE" [Arg "#3"]);
     ("ret.min_overflow", Call "LWORD_TO_BYTE" [Arg "#4"])]
    (Some [("ret.zero", (VZ 0)); ("ret.positive", (VZ 100)); ("ret.negative", (VZ 255)); ("ret.max_overflow", (VZ 0)); ("ret.min_overflow", (VZ 255))]);
  Test 153 (* lword_to_bool *)
    [("#0", (S_LWORD, (VZ 1)));
     ("#1", (S_LWORD, (VZ 0)));
     ("#2", (S_LWORD, (VZ 2)));
     ("#3", (S_LWORD, (VZ 18446744073709551615)));
     ("ret.true_", (S_BOOL, (VZ 0)));
     ("ret.false_", (S_BOOL, (VZ 0)));
     ("ret.max_overflow", (S_BOOL, (VZ 0)));
     ("ret.min_overflow", (S_BOOL, (VZ 0)))]
    [("ret.true_", Call "LWORD_TO_BOOL" [Arg "#0"]);
     ("ret.false_", Call "LWORD_TO_BOOL" [Arg "#1"]);
     ("ret.max_overflow", Call "LWORD_TO_BOOL" [Arg "#2"]);
     ("ret.min_overflow", Call "LWORD_TO_BOOL" [Arg "#3"])]
    (Some [("ret.true_", (VZ 1)); ("ret.false_", (VZ 0)); ("ret.max_overflow", (VZ 0)); ("ret.min_overflow", (VZ 1))]);
  Test 180 (* dword_to_lword *)
    [("#0", (S_DWORD, (VZ 0)));
     ("#1", (S_DWORD, (VZ 100)));
     ("#2", (S_DWORD, (VZ 4294967295)));
     ("ret.zero", (S_LWORD, (VZ 0)));
     ("ret.positive", (S_LWORD, (VZ 0)));
     ("ret.negative", (S_LWORD, (VZ 0)))]
    [("ret.zero", Call "DWORD_TO_LWORD" [Arg "#0"]);
     ("ret.positive", Call "DWORD_TO_LWORD" [Arg "#1"]);
     ("ret.negative", Call "DWORD_TO_LWORD" [Arg "#2"])]
    (Some [("ret.zero", (VZ 0)); ("ret.positive", (VZ 100)); ("ret.negative", (VZ 4294967295))]);
  Test 204 (* dword_to_word *)
    [("#0", (S_DWORD, (VZ 0)));
     ("#1", (S_DWORD, (VZ 100)));
     ("#2", (S_DWORD, (VZ 4294967295)));
     ("#3", (S_DWORD, (VZ 65536)));
     ("#4", (S_DWORD, (VZ 4294967295)));
     ("ret.zero", (S_WORD, (VZ 0)));
     ("ret.positive", (S_WORD, (VZ 0)));
     ("ret.negative", (S_WORD, (VZ 0)));
     ("ret.max_overflow", (S_WORD, (VZ 0)));
     ("ret.min_overflow", (S_WORD, (VZ 0)))]
    [("ret.zero", Call "DWORD_TO_WORD" [Arg "#0"]);
     ("ret.positive", Call "DWORD_TO_WORD" [Arg "#1"]);
     ("ret.negative", Call "DWORD_TO_WORD" [Arg "#2"]);
     ("ret.max_overflow", Call "DWORD_TO_WORD" [Arg "#3"]);
     ("ret.min_overflow", Call "DWORD_TO_WORD" [Arg "#4"])]
    (Some [("ret.zero", (VZ 0)); ("ret.positive", (VZ 100)); ("ret.negative", (VZ 65535)); ("ret.max_overflow", (VZ 0)); ("ret.min_overflow", (VZ 65535))]);
  Test 238 (* dword_to_byte *)
    [("#0", (S_DWORD, (VZ 0)));
     ("#1", (S_DWORD, (VZ 100)));
     ("#2", (S_DWORD, (VZ 4294967295)));
     ("#3", (S_DWORD, (VZ 256)));
     ("#4", (S_DWORD, (VZ 4294967295)));
     ("ret.zero", (S_BYTE, (VZ 0)));
     ("ret.positive", (S_BYTE, (VZ 0)));
     ("ret.negative", (S_BYTE, (VZ 0)));
     ("ret.max_overflow", (S_BYTE, (VZ 0)));
     ("ret.min_overflow", (S_BYTE, (VZ 0)))]
    [("ret.zero", Call "DWORD_TO_BYTE" [Arg "#0"]);
     ("ret.positive", Call "DWORD_TO_BYTE" [Arg "#1"]);
     ("ret.negative", Call "DWORD_TO_BYTE" [Arg "#2"]);
     ("ret.max_overflow", Call "DWORD_TO_BYTE" [Arg "#3"]);
     ("ret.min_overflow", Call "DWORD_TO_BYTE" [Arg "#4"])]
    (Some [("ret.zero", (VZ 0)); ("ret.positive", (VZ 100)); ("ret.negative", (VZ 255)); ("ret.max_overflow", (VZ 0)); ("ret.min_overflow", (VZ 255))]);
  Test 272 (* dword_to_bool *)
    [("#0", (S_DWORD, (VZ 1)));
     ("#1", (S_DWORD, (VZ 0)));
     ("#2", (S_DWORD, (VZ 2)));
     ("#3", (S_DWORD, (VZ 4294967295)));
     ("ret.true_", (S_BOOL, (VZ 0)));
     ("ret.false_", (S_BOOL, (VZ 0)));
     ("ret.max_overflow", (S_BOOL, (VZ 0)));
     ("ret.min_overflow", (S_BOOL, (VZ 0)))]
    [("ret.true_", Call "DWORD_TO_BOOL" [Arg "#0"]);
     ("ret.false_", Call "DWORD_TO_BOOL" [Arg "#1"]);
     ("ret.max_overflow", Call "DWORD_TO_BOOL" [Arg "#2"]);
     ("ret.min_overflow", Call "DWORD_TO_BOOL" [Arg "#3"])]
    (Some [("ret.true_", (VZ 1)); ("ret.false_", (VZ 0)); ("ret.max_overflow", (VZ 0)); ("ret.min_overflow", (VZ 1))]);
  Test 299 (* word_to_lword *)
    [("#0", (S_WORD, (VZ 0)));
     ("#1", (S_WORD, (VZ 100)));
     ("#2", (S_WORD, (VZ 65535)));
     ("ret.zero", (S_LWORD, (VZ 0)));
     ("ret.positive", (S_LWORD, (VZ 0)));
     ("ret.negative", (S_LWORD, (VZ 0)))]
    [("ret.zero", Call "WORD_TO_LWORD" [Arg "#0"]);
     ("ret.positive", Call "WORD_TO_LWORD" [Arg "#1"]);
     ("ret.negative", Call "WORD_TO_LWORD" [Arg "#2"])]
    (Some [("ret.zero", (VZ 0)); ("ret.positive", (VZ 100)); ("ret.negative", (VZ 65535))]);
  Test 323 (* word_to_dword *)
    [("#0", (S_WORD, (VZ 0)));
     ("#1", (S_WORD, (VZ 100)));
     ("#2", (S_WORD, (VZ 65535)));
     ("ret.zero", (S_DWORD, (VZ 0)));
     ("ret.positive", (S_DWORD, (VZ 0)));
     ("ret.negative", (S_DWORD, (VZ 0)))]
    [("ret.zero", Call "WORD_TO_DWORD" [Arg "#0"]);
     ("ret.positive", Call "WORD_TO_DWORD" [Arg "#1"]);
     ("ret.negative", Call "WORD_TO_DWORD" [Arg "#2"])]
    (Some [("ret.zero", (VZ 0)); ("ret.positive", (VZ 100)); ("ret.negative", (VZ 65535))]);
  Test 347 (* word_to_byte *)
    [("#0", (S_WORD, (VZ 0)));
     ("#1", (S_WORD, (VZ 100)));
     ("#2", (S_WORD, (VZ 65535)));
     ("#3", (S_WORD, (VZ 256)));
     ("#4", (S_WORD, (VZ 65535)));
     ("ret.zero", (S_BYTE, (VZ 0)));
     ("ret.positive", (S_BYTE, (VZ 0)));
     ("ret.negative", (S_BYTE, (VZ 0)));
     ("ret.max_overflow", (S_BYTE, (VZ 0)));
     ("ret.min_overflow", (S_BYTE, (VZ 0)))]
    [("ret.zero", Call "WORD_TO_BYTE" [Arg "#0"]);
     ("ret.positive", Call "WORD_TO_BYTE" [Arg "#1"]);
     ("ret.negative", Call "WORD_TO_BYTE" [Arg "#2"]);
     ("ret.max_overflow", Call "WORD_TO_BYTE" [Arg "#3"]);
     ("ret.min_overflow", Call "WORD_TO_BYTE" [Arg "#4"])]
    (Some [("ret.zero", (VZ 0)); ("ret.positive", (VZ 100)); ("ret.negative", (VZ 255)); ("ret.max_overflow", (VZ 0)); ("ret.min_overflow", (VZ 255))]);
  Test 381 (* word_to_bool *)
    [("#0", (S_WORD, (VZ 1)));
     ("#1", (S_WORD, (VZ 0)));
     ("#2", (S_WORD, (VZ 2)));
     ("#3", (S_WORD, (VZ 65535)));
     ("ret.true_", (S_BOOL, (VZ 0)));
     ("ret.false_", (S_BOOL, (VZ 0)));
     ("ret.max_overflow", (S_BOOL, (VZ 0)));
     ("ret.min_overflow", (S_BOOL, (VZ 0)))]
    [("ret.true_", Call "WORD_TO_BOOL" [Arg "#0"]);
     ("ret.false_", Call "WORD_TO_BOOL" [Arg "#1"]);
     ("ret.max_overflow", Call "WORD_TO_BOOL" [Arg "#2"]);
     ("ret.min_overflow", Call "WORD_TO_BOOL" [Arg "#3"])]
    (Some [("ret.true_", (VZ 1)); ("ret.false_", (VZ 0)); ("ret.max_overflow", (VZ 0)); ("ret.min_overflow", (VZ 1))]);
  Test 408 (* byte_to_lword *)
    [("#0", (S_BYTE, (VZ 0)));
     ("#1", (S_BYTE, (VZ 100)));
     ("#2", (S_BYTE, (VZ 255)));
     ("ret.zero", (S_LWORD, (VZ 0)));
     ("ret.positive", (S_LWORD, (VZ 0)));
     ("ret.negative", (S_LWORD, (VZ 0)))]
    [("ret.zero", Call "BYTE_TO_LWORD" [Arg "#0"]);
     ("ret.positive", Call "BYTE_TO_LWORD" [Arg "#1"]);
     ("ret.negative", Call "BYTE_TO_LWORD" [Arg "#2"])]
    (Some [("ret.zero", (VZ 0)); ("ret.positive", (VZ 100)); ("ret.negative", (VZ 255))]);
  Test 432 (* byte_to_dword *)
    [("#0", (S_BYTE, (VZ 0)));
     ("#1", (S_BYTE, (VZ 100)));
     ("#2", (S_BYTE, (VZ 255)));
     ("ret.zero", (S_DWORD, (VZ 0)));
     ("ret.positive", (S_DWORD, (VZ 0)));
     ("ret.negative", (S_DWORD, (VZ 0)))]
    [("ret.zero", Call "BYTE_TO_DWORD" [Arg "#0"]);
     ("ret.positive", Call "BYTE_TO_DWORD" [Arg "#1"]);
     ("ret.negative", Call "BYTE_TO_DWORD" [Arg "#2"])]
    (Some [("ret.zero", (VZ 0)); ("ret.positive", (VZ 100)); ("ret.negative", (VZ 255))]);
  Test 456 (* byte_to_word *)
    [("#0", (S_BYTE, (VZ 0)));
     ("#1", (S_BYTE, (VZ 100)));
     ("#2", (S_BYTE, (VZ 255)));
     ("ret.zero", (S_WORD, (VZ 0)));
     ("ret.positive", (S_WORD, (VZ 0)));
     ("ret.negative", (S_WORD, (VZ 0)))]
    [("ret.zero", Call "BYTE_TO_WORD" [Arg "#0"]);
     ("ret.positive", Call "BYTE_TO_WORD" [Arg "#1"]);
     ("ret.negative", Call "BYTE_TO_WORD" [Arg "#2"])]
    (Some [("ret.zero", (VZ 0)); ("ret.positive", (VZ 100)); ("ret.negative", (VZ 255))]);
  Test 480 (* byte_to_bool *)
    [("#0", (S_BYTE, (VZ 1)));
     ("#1", (S_BYTE, (VZ 0)));
     ("#2", (S_BYTE, (VZ 2)));
     ("#3", (S_BYTE, (VZ 255)));
     ("ret.true_", (S_BOOL, (VZ 0)));
     ("ret.false_", (S_BOOL, (VZ 0)));
     ("ret.max_overflow", (S_BOOL, (VZ 0)));
     ("ret.min_overflow", (S_BOOL, (VZ 0)))]
    [("ret.true_", Call "BYTE_TO_BOOL" [Arg "#0"]);
     ("ret.false_", Call "BYTE_TO_BOOL" [Arg "#1"]);
     ("ret.max_overflow", Call "BYTE_TO_BOOL" [Arg "#2"]);
     ("ret.min_overflow", Call "BYTE_TO_BOOL" [Arg "#3"])]
    (Some [("ret.true_", (VZ 1)); ("ret.false_", (VZ 0)); ("ret.max_overflow", (VZ 0)); ("ret.min_overflow", (VZ 1))]);
  Test 507 (* byte_to_char *)
    [("#0", (S_BYTE, (VZ 97)));
     ("#1", (S_BYTE, (VZ 98)));
     ("#2", (S_BYTE, (VZ 99)));
     ("a", (S_CHAR, (VZ 0)));
     ("b", (S_CHAR, (VZ 0)));
     ("c", (S_CHAR, (VZ 0)))]
    [("a", Call "BYTE_TO_CHAR" [Arg "#0"]);
     ("b", Call "BYTE_TO_CHAR" [Arg "#1"]);
     ("c", Call "BYTE_TO_CHAR" [Arg "#2"])]
    (Some [("a", (VZ 97)); ("b", (VZ 98)); ("c", (VZ 99))]);
  Test 536 (* bool_to_lword *)
    [("#0", (S_BOOL, (VZ 0)));
     ("#1", (S_BOOL, (VZ 1)));
     ("#2", (S_BOOL, (VZ 255)));
     ("#3", (S_BOOL, (VZ 10)));
     ("ret.zero", (S_LWORD, (VZ 0)));
     ("ret.positive", (S_LWORD, (VZ 0)));
     ("ret.negative", (S_LWORD, (VZ 0)));
     ("ret.max_overflow", (S_LWORD, (VZ 0)))]
    [("ret.zero", Call "BOOL_TO_LWORD" [Arg "#0"]);
     ("ret.positive", Call "BOOL_TO_LWORD" [Arg "#1"]);
     ("ret.negative", Call "BOOL_TO_LWORD" [Arg "#2"]);
     ("ret.max_overflow", Call "BOOL_TO_LWORD" [Arg "#3"])]
    (Some [("ret.zero", (VZ 0)); ("ret.positive", (VZ 1)); ("ret.negative", (VZ 1)); ("ret.max_overflow", (VZ 1))]);
  Test 563 (* bool_to_dword *)
    [("#0", (S_BOOL, (VZ 0)));
     ("#1", (S_BOOL, (VZ 1)));
     ("#2", (S_BOOL, (VZ 255)));
     ("#3", (S_BOOL, (VZ 10)));
     ("ret.zero", (S_DWORD, (VZ 0)));
     ("ret.positive", (S_DWORD, (VZ 0)));
     ("ret.negative", (S_DWORD, (VZ 0)));
     ("ret.max_overflow", (S_DWORD, (VZ 0)))]
    [("ret.zero", Call "BOOL_TO_DWORD" [Arg "#0"]);
     ("ret.positive", Call "BOOL_TO_DWORD" [Arg "#1"]);
     ("ret.negative", Call "BOOL_TO_DWORD" [Arg "#2"]);
     ("ret.max_overflow", Call "BOOL_TO_DWORD" [Arg "#3"])]
    (Some [("ret.zero", (VZ 0)); ("ret.positive", (VZ 1)); ("ret.negative", (VZ 1)); ("ret.max_overflow", (VZ 1))]);
  Test 590 (* bool_to_word *)
    [("#0", (S_BOOL, (VZ 0)));
     ("#1", (S_BOOL, (VZ 1)));
     ("#2", (S_BOOL, (VZ 255)));
     ("#3", (S_BOOL, (VZ 10)));
     ("ret.zero", (S_WORD, (VZ 0)));
     ("ret.positive", (S_WORD, (VZ 0)));
     ("ret.negative", (S_WORD, (VZ 0)));
     ("ret.max_overflow", (S_WORD, (VZ 0)))]
    [("ret.zero", Call "BOOL_TO_WORD" [Arg "#0"]);
     ("ret.positive", Call "BOOL_TO_WORD" [Arg "#1"]);
     ("ret.negative", Call "BOOL_TO_WORD" [Arg "#2"]);
     ("ret.max_overflow", Call "BOOL_TO_WORD" [Arg "#3"])]
    (Some [("ret.zero", (VZ 0)); ("ret.positive", (VZ 1)); ("ret.negative", (VZ 1)); ("ret.max_overflow", (VZ 1))]);
  Test 617 (* bool_to_byte *)
    [("#0", (S_BOOL, (VZ 0)));
     ("#1", (S_BOOL, (VZ 1)));
     ("#2", (S_BOOL, (VZ 255)));
     ("#3", (S_BOOL, (VZ 10)));
     ("ret.zero", (S_BYTE, (VZ 0)));
     ("ret.positive", (S_BYTE, (VZ 0)));
     ("ret.negative", (S_BYTE, (VZ 0)));
     ("ret.max_overflow", (S_BYTE, (VZ 0)))]
    [("ret.zero", Call "BOOL_TO_BYTE" [Arg "#0"]);
     ("ret.positive", Call "BOOL_TO_BYTE" [Arg "#1"]);
     ("ret.negative", Call "BOOL_TO_BYTE" [Arg "#2"]);
     ("ret.max_overflow", Call "BOOL_TO_BYTE" [Arg "#3"])]
    (Some [("ret.zero", (VZ 0)); ("ret.positive", (VZ 1)); ("ret.negative", (VZ 1)); ("ret.max_overflow", (VZ 1))]);
  Test 644 (* char_to_byte *)
    [("#0", (S_CHAR, (VZ 97)));
     ("#1", (S_CHAR, (VZ 98)));
     ("#2", (S_CHAR, (VZ 99)));
     ("a", (S_BYTE, (VZ 0)));
     ("b", (S_BYTE, (VZ 0)));
     ("c", (S_BYTE, (VZ 0)))]
    [("a", Call "CHAR_TO_BYTE" [Arg "#0"]);
     ("b", Call "CHAR_TO_BYTE" [Arg "#1"]);
     ("c", Call "CHAR_TO_BYTE" [Arg "#2"])]
    (Some [("a", (VZ 97)); ("b", (VZ 98)); ("c", (VZ 99))]);
  Test 673 (* char_to_word *)
    [("#0", (S_CHAR, (VZ 97)));
     ("#1", (S_CHAR, (VZ 98)));
     ("#2", (S_CHAR, (VZ 99)));
     ("a", (S_WORD, (VZ 0)));
     ("b", (S_WORD, (VZ 0)));
     ("c", (S_WORD, (VZ 0)))]
    [("a", Call "CHAR_TO_WORD" [Arg "#0"]);
     ("b", Call "CHAR_TO_WORD" [Arg "#1"]);
     ("c", Call "CHAR_TO_WORD" [Arg "#2"])]
    (Some [("a", (VZ 97)); ("b", (VZ 98)); ("c", (VZ 99))]);
  Test 702 (* char_to_dword *)
    [("#0", (S_CHAR, (VZ 97)));
     ("#1", (S_CHAR, (VZ 98)));
     ("#2", (S_CHAR, (VZ 99)));
     ("a", (S_DWORD, (VZ 0)));
     ("b", (S_DWORD, (VZ 0)));
     ("c", (S_DWORD, (VZ 0)))]
    [("a", Call "CHAR_TO_DWORD" [Arg "#0"]);
     ("b", Call "CHAR_TO_DWORD" [Arg "#1"]);
     ("c", Call "CHAR_TO_DWORD" [Arg "#2"])]
    (Some [("a", (VZ 97)); ("b", (VZ 98)); ("c", (VZ 99))]);
  Test 731 (* char_to_lword *)
    [("#0", (S_CHAR, (VZ 97)));
     ("#1", (S_CHAR, (VZ 98)));
     ("#2", (S_CHAR, (VZ 99)));
     ("a", (S_LWORD, (VZ 0)));
     ("b", (S_LWORD, (VZ 0)));
     ("c", (S_LWORD, (VZ 0)))]
    [("a", Call "CHAR_TO_LWORD" [Arg "#0"]);
     ("b", Call "CHAR_TO_LWORD" [Arg "#1"]);
     ("c", Call "CHAR_TO_LWORD" [Arg "#2"])]
    (Some [("a", (VZ 97)); ("b", (VZ 98)); ("c", (VZ 99))]);
  Test 760 (* wchar_to_word *)
    [("#0", (S_WCHAR, (VZ 97)));
     ("#1", (S_WCHAR, (VZ 98)));
     ("#2", (S_WCHAR, (VZ 99)));
     ("a", (S_WORD, (VZ 0)));
     ("b", (S_WORD, (VZ 0)));
     ("c", (S_WORD, (VZ 0)))]
    [("a", Call "WCHAR_TO_WORD" [Arg "#0"]);
     ("b", Call "WCHAR_TO_WORD" [Arg "#1"]);
     ("c", Call "WCHAR_TO_WORD" [Arg "#2"])]
    (Some [("a", (VZ 97)); ("b", (VZ 98)); ("c", (VZ 99))]);
  Test 789 (* wchar_to_dword *)
    [("#0", (S_WCHAR, (VZ 97)));
     ("#1", (S_WCHAR, (VZ 98)));
     ("#2", (S_WCHAR, (VZ 99)));
     ("a", (S_DWORD, (VZ 0)));
     ("b", (S_DWORD, (VZ 0)));
     ("c", (S_DWORD, (VZ 0)))]
    [("a", Call "WCHAR_TO_DWORD" [Arg "#0"]);
     ("b", Call "WCHAR_TO_DWORD" [Arg "#1"]);
     ("c", Call "WCHAR_TO_DWORD" [Arg "#2"])]
    (Some [("a", (VZ 97)); ("b", (VZ 98)); ("c", (VZ 99))]);
  Test 818 (* wchar_to_lword *)
    [("#0", (S_WCHAR, (VZ 97)));
     ("#1", (S_WCHAR, (VZ 98)));
     ("#2", (S_WCHAR, (VZ 99)));
     ("a", (S_LWORD, (VZ 0)));
     ("b", (S_LWORD, (VZ 0)));
     ("c", (S_LWORD, (VZ 0)))]
    [("a", Call "WCHAR_TO_LWORD" [Arg "#0"]);
     ("b", Call "WCHAR_TO_LWORD" [Arg "#1"]);
     ("c", Call "WCHAR_TO_LWORD" [Arg "#2"])]
    (Some [("a", (VZ 97)); ("b", (VZ 98)); ("c", (VZ 99))])].
Example bit_conversion_tests_pass : forallb passes bit_conversion_tests = true.
Proof. vm_compute. reflexivity. Qed.

(** /repo/tests/bit_num_conversion_tests.rs, at the lines given. *)
Definition bit_num_conversion_tests : list test := [
  Test 70 (* lword_to_lreal_conversion *)
    [("#0", (S_LWORD, (VZ 0)));
     ("#1", (S_LWORD, (VZ 4611686018427387904)));
     ("ret.zero", (S_LREAL, (VF (FNum (S754_zero false)))));
     ("ret.max", (S_LREAL, (VF (FNum (S754_zero false)))))]
    [("ret.zero", Call "LWORD_TO_LREAL" [Arg "#0"]);
     ("ret.max", Call "LWORD_TO_LREAL" [Arg "#1"])]
    (Some [("ret.zero", (VF (FNum (S754_zero false)))); ("ret.max", (VF (FNum (S754_finite false 4503599627370496 (-51)))))]);
  Test 93 (* lword_to_lint_conversion *)
    [("#0", (S_LWORD, (VZ 0)));
     ("#1", (S_LWORD, (VZ 9223372036854775807)));
     ("ret.zero", (S_LINT, (VZ 0)));
     ("ret.max", (S_LINT, (VZ 0)))]
    [("ret.zero", Call "LWORD_TO_LINT" [Arg "#0"]);
     ("ret.max", Call "LWORD_TO_LINT" [Arg "#1"])]
    (Some [("ret.zero", (VZ 0)); ("ret.max", (VZ 9223372036854775807))]);
  Test 115 (* lword_to_dint_conversion *)
    [("#0", (S_LWORD, (VZ 0)));
     ("#1", (S_LWORD, (VZ 2147483647)));
     ("ret.zero", (S_DINT, (VZ 0)));
     ("ret.max", (S_DINT, (VZ 0)))]
    [("ret.zero", Call "LWORD_TO_DINT" [Arg "#0"]);
     ("ret.max", Call "LWORD_TO_DINT" [Arg "#1"])]
    (Some [("ret.zero", (VZ 0)); ("ret.max", (VZ 2147483647))]);
  Test 137 (* lword_to_int_conversion *)
    [("#0", (S_LWORD, (VZ 0)));
     ("#1", (S_LWORD, (VZ 32767)));
     ("ret.zero", (S_INT, (VZ 0)));
     ("ret.max", (S_INT, (VZ 0)))]
    [("ret.zero", Call "LWORD_TO_INT" [Arg "#0"]);
     ("ret.max", Call "LWORD_TO_INT" [Arg "#1"])]
    (Some [("ret.zero", (VZ 0)); ("ret.max", (VZ 32767))]);
  Test 159 (* lword_to_sint_conversion *)
    [("#0", (S_LWORD, (VZ 0)));
     ("#1", (S_LWORD, (VZ 127)));
     ("ret.zero", (S_SINT, (VZ 0)));
     ("ret.max", (S_SINT, (VZ 0)))]
    [("ret.zero", Call "LWORD_TO_SINT" [Arg "#0"]);
     ("ret.max", Call "LWORD_TO_SINT" [Arg "#1"])]
    (Some [("ret.zero", (VZ 0)); ("ret.max", (VZ 127))]);
  Test 181 (* lword_to_ulint_conversion *)
    [("#0", (S_LWORD, (VZ 0)));
     ("#1", (S_LWORD, (VZ 18446744073709551615)));
     ("ret.zero", (S_ULINT, (VZ 0)));
     ("ret.max", (S_ULINT, (VZ 0)))]
    [("ret.zero", Call "LWORD_TO_ULINT" [Arg "#0"]);
     ("ret.max", Call "LWORD_TO_ULINT" [Arg "#1"])]
    (Some [("ret.zero", (VZ 0)); ("ret.max", (VZ 18446744073709551615))]);
  Test 203 (* lword_to_udint_conversion *)
    [("#0", (S_LWORD, (VZ 0)));
     ("#1", (S_LWORD, (VZ 4294967295)));
     ("ret.zero", (S_UDINT, (VZ 0)));
     ("ret.max", (S_UDINT, (VZ 0)))]
    [("ret.zero", Call "LWORD_TO_UDINT" [Arg "#0"]);
     ("ret.max", Call "LWORD_TO_UDINT" [Arg "#1"])]
    (Some [("ret.zero", (VZ 0)); ("ret.max", (VZ 4294967295))]);
  Test 225 (* lword_to_uint_conversion *)
    [("#0", (S_LWORD, (VZ 0)));
     ("#1", (S_LWORD, (VZ 65535)));
     ("ret.zero", (S_UINT, (VZ 0)));
     ("ret.max", (S_UINT, (VZ 0)))]
    [("ret.zero", Call "LWORD_TO_UINT" [Arg "#0"]);
     ("ret.max", Call "LWORD_TO_UINT" [Arg "#1"])]
    (Some [("ret.zero", (VZ 0)); ("ret.max", (VZ 65535))]);
  Test 247 (* lword_to_usint_conversion *)
    [("#0", (S_LWORD, (VZ 0)));
     ("#1", (S_LWORD, (VZ 255)));
     ("ret.zero", (S_USINT, (VZ 0)));
     ("ret.max", (S_USINT, (VZ 0)))]
    [("ret.zero", Call "LWORD_TO_USINT" [Arg "#0"]);
     ("ret.max", Call "LWORD_TO_USINT" [Arg "#1"])]
    (Some [("ret.zero", (VZ 0)); ("ret.max", (VZ 255))]);
  Test 269 (* dword_to_real_conversion *)
    [("#0", (S_DWORD, (VZ 0)));
     ("#1", (S_DWORD, (VZ 1073741824)));
     ("ret.zero", (S_REAL, (VF (FNum (S754_zero false)))));
     ("ret.max", (S_REAL, (VF (FNum (S754_zero false)))))]
    [("ret.zero", Call "DWORD_TO_REAL" [Arg "#0"]);
     ("ret.max", Call "DWORD_TO_REAL" [Arg "#1"])]
    (Some [("ret.zero", (VF (FNum (S754_zero false)))); ("ret.max", (VF (FNum (S754_finite false 8388608 (-22)))))]);
  Test 292 (* dword_to_lint_conversion *)
    [("#0", (S_DWORD, (VZ 0)));
     ("#1", (S_DWORD, (VZ 4294967295)));
     ("ret.zero", (S_LINT, (VZ 0)));
     ("ret.max", (S_LINT, (VZ 0)))]
    [("ret.zero", Call "DWORD_TO_LINT" [Arg "#0"]);
     ("ret.max", Call "DWORD_TO_LINT" [Arg "#1"])]
    (Some [("ret.zero", (VZ 0)); ("ret.max", (VZ 4294967295))]);
  Test 314 (* dword_to_dint_conversion *)
    [("#0", (S_DWORD, (VZ 0)));
     ("#1", (S_DWORD, (VZ 2147483647)));
     ("#2", (S_DWORD, (VZ 4294967295)));
     ("#3", (S_DWORD, (VZ 4294967295)));
     ("ret.zero", (S_DINT, (VZ 0)));
     ("ret.max", (S_DINT, (VZ 0)));
     ("ret.max_overflow", (S_DINT, (VZ 0)));
     ("ret.negative", (S_DINT, (VZ 0)))]
    [("ret.zero", Call "DWORD_TO_DINT" [Arg "#0"]);
     ("ret.max", Call "DWORD_TO_DINT" [Arg "#1"]);
     ("ret.max_overflow", Call "DWORD_TO_DINT" [Arg "#2"]);
     ("ret.negative", Call "DWORD_TO_DINT" [Arg "#3"])]
    (Some [("ret.zero", (VZ 0)); ("ret.max", (VZ 2147483647)); ("ret.max_overflow", (VZ (-1))); ("ret.negative", (VZ (-1)))]);
  Test 340 (* dword_to_int_conversion *)
    [("#0", (S_DWORD, (VZ 0)));
     ("#1", (S_DWORD, (VZ 32767)));
     ("ret.zero", (S_INT, (VZ 0)));
     ("ret.max", (S_INT, (VZ 0)))]
    [("ret.zero", Call "DWORD_TO_INT" [Arg "#0"]);
     ("ret.max", Call "DWORD_TO_INT" [Arg "#1"])]
    (Some [("ret.zero", (VZ 0)); ("ret.max", (VZ 32767))]);
  Test 362 (* dword_to_sint_conversion *)
    [("#0", (S_DWORD, (VZ 0)));
     ("#1", (S_DWORD, (VZ 127)));
     ("ret.zero", (S_SINT, (VZ 0)));
     ("ret.max", (S_SINT, (VZ 0)))]
    [("ret.zero", Call "DWORD_TO_SINT" [Arg "#0"]);
     ("ret.max", Call "DWORD_TO_SINT" [Arg "#1"])]
    (Some [("ret.zero", (VZ 0)); ("ret.max", (VZ 127))]);
  Test 384 (* dword_to_ulint_conversion *)
    [("#0", (S_DWORD, (VZ 0)));
     ("#1", (S_DWORD, (VZ 4294967295)));
     ("ret.zero", (S_ULINT, (VZ 0)));
     ("ret.max", (S_ULINT, (VZ 0)))]
    [("ret.zero", Call "DWORD_TO_ULINT" [Arg "#0"]);
     ("ret.max", Call "DWORD_TO_ULINT" [Arg "#1"])]
    (Some [("ret.zero", (VZ 0)); ("ret.max", (VZ 4294967295))]);
  Test 406 (* dword_to_udint_conversion *)
    [("#0", (S_DWORD, (VZ 0)));
     ("#1", (S_DWORD, (VZ 4294967295)));
     ("ret.zero", (S_UDINT, (VZ 0)));
     ("ret.max", (S_UDINT, (VZ 0)))]
    [("ret.zero", Call "DWORD_TO_UDINT" [Arg "#0"]);
     ("ret.max", Call "DWORD_TO_UDINT" [Arg "#1"])]
    (Some [("ret.zero", (VZ 0)); ("ret.max", (VZ 4294967295))]);
  Test 428 (* dword_to_uint_conversion *)
    [("#0", (S_DWORD, (VZ 0)));
     ("#1", (S_DWORD, (VZ 65535)));
     ("ret.zero", (S_UINT, (VZ 0)));
     ("ret.max", (S_UINT, (VZ 0)))]
    [("ret.zero", Call "DWORD_TO_UINT" [Arg "#0"]);
     ("ret.max", Call "DWORD_TO_UINT" [Arg "#1"])]
    (Some [("ret.zero", (VZ 0)); ("ret.max", (VZ 65535))]);
  Test 450 (* dword_to_usint_conversion *)
    [("#0", (S_DWORD, (VZ 0)));
     ("#1", (S_DWORD, (VZ 255)));
     ("ret.zero", (S_USINT, (VZ 0)));
     ("ret.max", (S_USINT, (VZ 0)))]
    [("ret.zero", Call "DWORD_TO_USINT" [Arg "#0"]);
     ("ret.max", Call "DWORD_TO_USINT" [Arg "#1"])]
    (Some [("ret.zero", (VZ 0)); ("ret.max", (VZ 255))]);
  Test 472 (* word_to_lint_conversion *)
    [("#0", (S_WORD, (VZ 0)));
     ("#1", (S_WORD, (VZ 65535)));
     ("ret.zero", (S_LINT, (VZ 0)));
     ("ret.max", (S_LINT, (VZ 0)))]
    [("ret.zero", Call "WORD_TO_LINT" [Arg "#0"]);
     ("ret.max", Call "WORD_TO_LINT" [Arg "#1"])]
    (Some [("ret.zero", (VZ 0)); ("ret.max", (VZ 65535))]);
  Test 494 (* word_to_dint_conversion *)
    [("#0", (S_WORD, (VZ 0)));
     ("#1", (S_WORD, (VZ 65535)));
     ("ret.zero", (S_DINT, (VZ 0)));
     ("ret.max", (S_DINT, (VZ 0)))]
    [("ret.zero", Call "WORD_TO_DINT" [Arg "#0"]);
     ("ret.max", Call "WORD_TO_DINT" [Arg "#1"])]
    (Some [("ret.zero", (VZ 0)); ("ret.max", (VZ 65535))]);
  Test 516 (* word_to_int_conversion *)
    [("#0", (S_WORD, (VZ 0)));
     ("#1", (S_WORD, (VZ 32767)));
     ("ret.zero", (S_INT, (VZ 0)));
     ("ret.max", (S_INT, (VZ 0)))]
    [("ret.zero", Call "WORD_TO_INT" [Arg "#0"]);
     ("ret.max", Call "WORD_TO_INT" [Arg "#1"])]
    (Some [("ret.zero", (VZ 0)); ("ret.max", (VZ 32767))]);
  Test 538 (* word_to_sint_conversion *)
    [("#0", (S_WORD, (VZ 0)));
     ("#1", (S_WORD, (VZ 127)));
     ("ret.zero", (S_SINT, (VZ 0)));
     ("ret.max", (S_SINT, (VZ 0)))]
    [("ret.zero", Call "WORD_TO_SINT" [Arg "#0"]);
     ("ret.max", Call "WORD_TO_SINT" [Arg "#1"])]
    (Some [("ret.zero", (VZ 0)); ("ret.max", (VZ 127))]);
  Test 560 (* word_to_ulint_conversion *)
    [("#0", (S_WORD, (VZ 0)));
     ("#1", (S_WORD, (VZ 65535)));
     ("ret.zero", (S_ULINT, (VZ 0)));
     ("ret.max", (S_ULINT, (VZ 0)))]
    [("ret.zero", Call "WORD_TO_ULINT" [Arg "#0"]);
     ("ret.max", Call "WORD_TO_ULINT" [Arg "#1"])]
    (Some [("ret.zero", (VZ 0)); ("ret.max", (VZ 65535))]);
  Test 582 (* word_to_udint_conversion *)
    [("#0", (S_WORD, (VZ 0)));
     ("#1", (S_WORD, (VZ 65535)));
     ("ret.zero", (S_UDINT, (VZ 0)));
     ("ret.max", (S_UDINT, (VZ 0)))]
    [("ret.zero", Call "WORD_TO_UDINT" [Arg "#0"]);
     ("ret.max", Call "WORD_TO_UDINT" [Arg "#1"])]
    (Some [("ret.zero", (VZ 0)); ("ret.max", (VZ 65535))]);
  Test 604 (* word_to_uint_conversion *)
    [("#0", (S_WORD, (VZ 0)));
     ("#1", (S_WORD, (VZ 65535)));
     ("ret.zero", (S_UINT, (VZ 0)));
     ("ret.max", (S_UINT, (VZ 0)))]
    [("ret.zero", Call "WORD_TO_UINT" [Arg "#0"]);
     ("ret.max", Call "WORD_TO_UINT" [Arg "#1"])]
    (Some [("ret.zero", (VZ 0)); ("ret.max", (VZ 65535))]);
  Test 626 (* word_to_usint_conversion *)
    [("#0", (S_WORD, (VZ 0)));
     ("#1", (S_WORD, (VZ 255)));
     ("ret.zero", (S_USINT, (VZ 0)));
     ("ret.max", (S_USINT, (VZ 0)))]
    [("ret.zero", Call "WORD_TO_USINT" [Arg "#0"]);
     ("ret.max", Call "WORD_TO_USINT" [Arg "#1"])]
    (Some [("ret.zero", (VZ 0)); ("ret.max", (VZ 255))]);
  Test 648 (* byte_to_lint_conversion *)
    [("#0", (S_BYTE, (VZ 0)));
     ("#1", (S_BYTE, (VZ 255)));
     ("ret.zero", (S_LINT, (VZ 0)));
     ("ret.max", (S_LINT, (VZ 0)))]
    [("ret.zero", Call "BYTE_TO_LINT" [Arg "#0"]);
     ("ret.max", Call "BYTE_TO_LINT" [Arg "#1"])]
    (Some [("ret.zero", (VZ 0)); ("ret.max", (VZ 255))]);
  Test 670 (* byte_to_dint_conversion *)
    [("#0", (S_BYTE, (VZ 0)));
     ("#1", (S_BYTE, (VZ 255)));
     ("ret.zero", (S_DINT, (VZ 0)));
     ("ret.max", (S_DINT, (VZ 0)))]
    [("ret.zero", Call "BYTE_TO_DINT" [Arg "#0"]);
     ("ret.max", Call "BYTE_TO_DINT" [Arg "#1"])]
    (Some [("ret.zero", (VZ 0)); ("ret.max", (VZ 255))]);
  Test 692 (* byte_to_int_conversion *)
    [("#0", (S_BYTE, (VZ 0)));
     ("#1", (S_BYTE, (VZ 255)));
     ("ret.zero", (S_INT, (VZ 0)));
     ("ret.max", (S_INT, (VZ 0)))]
    [("ret.zero", Call "BYTE_TO_INT" [Arg "#0"]);
     ("ret.max", Call "BYTE_TO_INT" [Arg "#1"])]
    (Some [("ret.zero", (VZ 0)); ("ret.max", (VZ 255))]);
  Test 714 (* byte_to_sint_conversion *)
    [("#0", (S_BYTE, (VZ 0)));
     ("#1", (S_BYTE, (VZ 127)));
     ("ret.zero", (S_SINT, (VZ 0)));
     ("ret.max", (S_SINT, (VZ 0)))]
    [("ret.zero", Call "BYTE_TO_SINT" [Arg "#0"]);
     ("ret.max", Call "BYTE_TO_SINT" [Arg "#1"])]
    (Some [("ret.zero", (VZ 0)); ("ret.max", (VZ 127))]);
  Test 736 (* byte_to_ulint_conversion *)
    [("#0", (S_BYTE, (VZ 0)));
     ("#1", (S_BYTE, (VZ 255)));
     ("ret.zero", (S_ULINT, (VZ 0)));
     ("ret.max", (S_ULINT, (VZ 0)))]
    [("ret.zero", Call "BYTE_TO_ULINT" [Arg "#0"]);
     ("ret.max", Call "BYTE_TO_ULINT" [Arg "#1"])]
    (Some [("ret.zero", (VZ 0)); ("ret.max", (VZ 255))]);
  Test 758 (* byte_to_udint_conversion *)
    [("#0", (S_BYTE, (VZ 0)));
     ("#1", (S_BYTE, (VZ 255)));
     ("ret.zero", (S_UDINT, (VZ 0)));
     ("ret.max", (S_UDINT, (VZ 0)))]
    [("ret.zero", Call "BYTE_TO_UDINT" [Arg "#0"]);
     ("ret.max", Call "BYTE_TO_UDINT" [Arg "#1"])]
    (Some [("ret.zero", (VZ 0)); ("ret.max", (VZ 255))]);
  Test 780 (* byte_to_uint_conversion *)
    [("#0", (S_BYTE, (VZ 0)));
     ("#1", (S_BYTE, (VZ 255)));
     ("ret.zero", (S_UINT, (VZ 0)));
     ("ret.max", (S_UINT, (VZ 0)))]
    [("ret.zero", Call "BYTE_TO_UINT" [Arg "#0"]);
     ("ret.max", Call "BYTE_TO_UINT" [Arg "#1"])]
    (Some [("ret.zero", (VZ 0)); ("ret.max", (VZ 255))]);
  Test 802 (* byte_to_usint_conversion *)
    [("#0", (S_BYTE, (VZ 0)));
     ("#1", (S_BYTE, (VZ 255)));
     ("ret.zero", (S_USINT, (VZ 0)));
     ("ret.max", (S_USINT, (VZ 0)))]
    [("ret.zero", Call "BYTE_TO_USINT" [Arg "#0"]);
     ("ret.max", Call "BYTE_TO_USINT" [Arg "#1"])]
    (Some [("ret.zero", (VZ 0)); ("ret.max", (VZ 255))]);
  Test 824 (* bool_to_lint_conversion *)
    [("#0", (S_BOOL, (VZ 0)));
     ("#1", (S_BOOL, (VZ 1)));
     ("ret.zero", (S_LINT, (VZ 0)));
     ("ret.max", (S_LINT, (VZ 0)))]
    [("ret.zero", Call "BOOL_TO_LINT" [Arg "#0"]);
     ("ret.max", Call "BOOL_TO_LINT" [Arg "#1"])]
    (Some [("ret.zero", (VZ 0)); ("ret.max", (VZ 1))]);
  Test 846 (* bool_to_dint_conversion *)
    [("#0", (S_BOOL, (VZ 0)));
     ("#1", (S_BOOL, (VZ 1)));
     ("ret.zero", (S_DINT, (VZ 0)));
     ("ret.max", (S_DINT, (VZ 0)))]
    [("ret.zero", Call "BOOL_TO_DINT" [Arg "#0"]);
     ("ret.max", Call "BOOL_TO_DINT" [Arg "#1"])]
    (Some [("ret.zero", (VZ 0)); ("ret.max", (VZ 1))]);
  Test 868 (* bool_to_int_conversion *)
    [("#0", (S_BOOL, (VZ 0)));
     ("#1", (S_BOOL, (VZ 1)));
     ("ret.zero", (S_INT, (VZ 0)));
     ("ret.max", (S_INT, (VZ 0)))]
    [("ret.zero", Call "BOOL_TO_INT" [Arg "#0"]);
     ("ret.max", Call "BOOL_TO_INT" [Arg "#1"])]
    (Some [("ret.zero", (VZ 0)); ("ret.max", (VZ 1))]);
  Test 890 (* bool_to_sint_conversion *)
    [("#0", (S_BOOL, (VZ 0)));
     ("#1", (S_BOOL, (VZ 1)));
     ("ret.zero", (S_SINT, (VZ 0)));
     ("ret.max", (S_SINT, (VZ 0)))]
    [("ret.zero", Call "BOOL_TO_SINT" [Arg "#0"]);
     ("ret.max", Call "BOOL_TO_SINT" [Arg "#1"])]
    (Some [("ret.zero", (VZ 0)); ("ret.max", (VZ 1))]);
  Test 912 (* bool_to_ulint_conversion *)
    [("#0", (S_BOOL, (VZ 0)));
     ("#1", (S_BOOL, (VZ 1)));
     ("ret.zero", (S_ULINT, (VZ 0)));
     ("ret.max", (S_ULINT, (VZ 0)))]
    [("ret.zero", Call "BOOL_TO_ULINT" [Arg "#0"]);
     ("ret.max", Call "BOOL_TO_ULINT" [Arg "#1"])]
    (Some [("ret.zero", (VZ 0)); ("ret.max", (VZ 1))]);
  Test 934 (* bool_to_udint_conversion *)
    [("#0", (S_BOOL, (VZ 0)));
     ("#1", (S_BOOL, (VZ 1)));
     ("ret.zero", (S_UDINT, (VZ 0)));
     ("ret.max", (S_UDINT, (VZ 0)))]
    [("ret.zero", Call "BOOL_TO_UDINT" [Arg "#0"]);
     ("ret.max", Call "BOOL_TO_UDINT" [Arg "#1"])]
    (Some [("ret.zero", (VZ 0)); ("ret.max", (VZ 1))]);
  Test 956 (* bool_to_uint_conversion *)
    [("#0", (S_BOOL, (VZ 0)));
     ("#1", (S_BOOL, (VZ 1)));
     ("ret.zero", (S_UINT, (VZ 0)));
     ("ret.max", (S_UINT, (VZ 0)))]
    [("ret.zero", Call "BOOL_TO_UINT" [Arg "#0"]);
     ("ret.max", Call "BOOL_TO_UINT" [Arg "#1"])]
    (Some [("ret.zero", (VZ 0)); ("ret.max", (VZ 1))]);
  Test 978 (* bool_to_usint_conversion *)
    [("#0", (S_BOOL, (VZ 0)));
     ("#1", (S_BOOL, (VZ 1)));
     ("ret.zero", (S_USINT, (VZ 0)));
     ("ret.max", (S_USINT, (VZ 0)))]
    [("ret.zero", Call "BOOL_TO_USINT" [Arg "#0"]);
     ("ret.max", Call "BOOL_TO_USINT" [Arg "#1"])]
    (Some [("ret.zero", (VZ 0)); ("ret.max", (VZ 1))]);
  Test 1000 (* lreal_to_lword_conversion *)
    [("#0", (S_LREAL, (VF (FNum (S754_zero false)))));
     ("#1", (S_LREAL, (VF (FNum (S754_finite false 4503599627370496 (-51))))));
     ("ret.zero", (S_LWORD, (VZ 0)));
     ("ret.max", (S_LWORD, (VZ 0)))]
    [("ret.zero", Call "LREAL_TO_LWORD" [Arg "#0"]);
     ("ret.max", Call "LREAL_TO_LWORD" [Arg "#1"])]
    (Some [("ret.zero", (VZ 0)); ("ret.max", (VZ 4611686018427387904))]);
  Test 1024 (* real_to_dword_conversion *)
    [("#0", (S_REAL, (VF (FNum (S754_zero false)))));
     ("#1", (S_REAL, (VF (FNum (S754_finite false 8388608 (-22))))));
     ("ret.zero", (S_DWORD, (VZ 0)));
     ("ret.max", (S_DWORD, (VZ 0)))]
    [("ret.zero", Call "REAL_TO_DWORD" [Arg "#0"]);
     ("ret.max", Call "REAL_TO_DWORD" [Arg "#1"])]
    (Some [("ret.zero", (VZ 0)); ("ret.max", (VZ 1073741824))]);
  Test 1048 (* lint_to_lword_conversion *)
    [("#0", (S_LINT, (VZ 0)));
     ("#1", (S_LINT, (VZ 9223372036854775807)));
     ("ret.zero", (S_LWORD, (VZ 0)));
     ("ret.max", (S_LWORD, (VZ 0)))]
    [("ret.zero", Call "LINT_TO_LWORD" [Arg "#0"]);
     ("ret.max", Call "LINT_TO_LWORD" [Arg "#1"])]
    (Some [("ret.zero", (VZ 0)); ("ret.max", (VZ 9223372036854775807))]);
  Test 1070 (* lint_to_dword_conversion *)
    [("#0", (S_LINT, (VZ 0)));
     ("#1", (S_LINT, (VZ 4294967295)));
     ("ret.zero", (S_DWORD, (VZ 0)));
     ("ret.max", (S_DWORD, (VZ 0)))]
    [("ret.zero", Call "LINT_TO_DWORD" [Arg "#0"]);
     ("ret.max", Call "LINT_TO_DWORD" [Arg "#1"])]
    (Some [("ret.zero", (VZ 0)); ("ret.max", (VZ 4294967295))]);
  Test 1092 (* lint_to_word_conversion *)
    [("#0", (S_LINT, (VZ 0)));
     ("#1", (S_LINT, (VZ 65535)));
     ("ret.zero", (S_WORD, (VZ 0)));
     ("ret.max", (S_WORD, (VZ 0)))]
    [("ret.zero", Call "LINT_TO_WORD" [Arg "#0"]);
     ("ret.max", Call "LINT_TO_WORD" [Arg "#1"])]
    (Some [("ret.zero", (VZ 0)); ("ret.max", (VZ 65535))]);
  Test 1114 (* lint_to_byte_conversion *)
    [("#0", (S_LINT, (VZ 0)));
     ("#1", (S_LINT, (VZ 255)));
     ("ret.zero", (S_BYTE, (VZ 0)));
     ("ret.max", (S_BYTE, (VZ 0)))]
    [("ret.zero", Call "LINT_TO_BYTE" [Arg "#0"]);
     ("ret.max", Call "LINT_TO_BYTE" [Arg "#1"])]
    (Some [("ret.zero", (VZ 0)); ("ret.max", (VZ 255))]);
  Test 1136 (* dint_to_lword_conversion *)
    [("#0", (S_DINT, (VZ 0)));
     ("#1", (S_DINT, (VZ 2147483647)));
     ("ret.zero", (S_LWORD, (VZ 0)));
     ("ret.max", (S_LWORD, (VZ 0)))]
    [("ret.zero", Call "DINT_TO_LWORD" [Arg "#0"]);
     ("ret.max", Call "DINT_TO_LWORD" [Arg "#1"])]
    (Some [("ret.zero", (VZ 0)); ("ret.max", (VZ 2147483647))]);
  Test 1158 (* dint_to_dword_conversion *)
    [("#0", (S_DINT, (VZ 0)));
     ("#1", (S_DINT, (VZ 2147483647)));
     ("ret.zero", (S_DWORD, (VZ 0)));
     ("ret.max", (S_DWORD, (VZ 0)))]
    [("ret.zero", Call "DINT_TO_DWORD" [Arg "#0"]);
     ("ret.max", Call "DINT_TO_DWORD" [Arg "#1"])]
    (Some [("ret.zero", (VZ 0)); ("ret.max", (VZ 2147483647))]);
  Test 1180 (* dint_to_word_conversion *)
    [("#0", (S_DINT, (VZ 0)));
     ("#1", (S_DINT, (VZ 65535)));
     ("ret.zero", (S_WORD, (VZ 0)));
     ("ret.max", (S_WORD, (VZ 0)))]
    [("ret.zero", Call "DINT_TO_WORD" [Arg "#0"]);
     ("ret.max", Call "DINT_TO_WORD" [Arg "#1"])]
    (Some [("ret.zero", (VZ 0)); ("ret.max", (VZ 65535))]);
  Test 1202 (* dint_to_byte_conversion *)
    [("#0", (S_DINT, (VZ 0)));
     ("#1", (S_DINT, (VZ 255)));
     ("ret.zero", (S_BYTE, (VZ 0)));
     ("ret.max", (S_BYTE, (VZ 0)))]
    [("ret.zero", Call "DINT_TO_BYTE" [Arg "#0"]);
     ("ret.max", Call "DINT_TO_BYTE" [Arg "#1"])]
    (Some [("ret.zero", (VZ 0)); ("ret.max", (VZ 255))]);
  Test 1224 (* int_to_lword_conversion *)
    [("#0", (S_INT, (VZ 0)));
     ("#1", (S_INT, (VZ 32767)));
     ("ret.zero", (S_LWORD, (VZ 0)));
     ("ret.max", (S_LWORD, (VZ 0)))]
    [("ret.zero", Call "INT_TO_LWORD" [Arg "#0"]);
     ("ret.max", Call "INT_TO_LWORD" [Arg "#1"])]
    (Some [("ret.zero", (VZ 0)); ("ret.max", (VZ 32767))]);
  Test 1246 (* int_to_dword_conversion *)
    [("#0", (S_INT, (VZ 0)));
     ("#1", (S_INT, (VZ 32767)));
     ("ret.zero", (S_DWORD, (VZ 0)));
     ("ret.max", (S_DWORD, (VZ 0)))]
    [("ret.zero", Call "INT_TO_DWORD" [Arg "#0"]);
     ("ret.max", Call "INT_TO_DWORD" [Arg "#1"])]
    (Some [("ret.zero", (VZ 0)); ("ret.max", (VZ 32767))]);
  Test 1268 (* int_to_word_conversion *)
    [("#0", (S_INT, (VZ 0)));
     ("#1", (S_INT, (VZ 32767)));
     ("ret.zero", (S_WORD, (VZ 0)));
     ("ret.max", (S_WORD, (VZ 0)))]
    [("ret.zero", Call "INT_TO_WORD" [Arg "#0"]);
     ("ret.max", Call "INT_TO_WORD" [Arg "#1"])]
    (Some [("ret.zero", (VZ 0)); ("ret.max", (VZ 32767))]);
  Test 1290 (* int_to_byte_conversion *)
    [("#0", (S_INT, (VZ 0)));
     ("#1", (S_INT, (VZ 255)));
     ("ret.zero", (S_BYTE, (VZ 0)));
     ("ret.max", (S_BYTE, (VZ 0)))]
    [("ret.zero", Call "INT_TO_BYTE" [Arg "#0"]);
     ("ret.max", Call "INT_TO_BYTE" [Arg "#1"])]
    (Some [("ret.zero", (VZ 0)); ("ret.max", (VZ 255))]);
  Test 1312 (* sint_to_lword_conversion *)
    [("#0", (S_SINT, (VZ 0)));
     ("#1", (S_SINT, (VZ 127)));
     ("ret.zero", (S_LWORD, (VZ 0)));
     ("ret.max", (S_LWORD, (VZ 0)))]
    [("ret.zero", Call "SINT_TO_LWORD" [Arg "#0"]);
     ("ret.max", Call "SINT_TO_LWORD" [Arg "#1"])]
    (Some [("ret.zero", (VZ 0)); ("ret.max", (VZ 127))]);
  Test 1334 (* sint_to_dword_conversion *)
    [("#0", (S_SINT, (VZ 0)));
     ("#1", (S_SINT, (VZ 127)));
     ("ret.zero", (S_DWORD, (VZ 0)));
     ("ret.max", (S_DWORD, (VZ 0)))]
    [("ret.zero", Call "SINT_TO_DWORD" [Arg "#0"]);
     ("ret.max", Call "SINT_TO_DWORD" [Arg "#1"])]
    (Some [("ret.zero", (VZ 0)); ("ret.max", (VZ 127))]);
  Test 1356 (* sint_to_word_conversion *)
    [("#0", (S_SINT, (VZ 0)));
     ("#1", (S_SINT, (VZ 127)));
     ("ret.zero", (S_WORD, (VZ 0)));
     ("ret.max", (S_WORD, (VZ 0)))]
    [("ret.zero", Call "SINT_TO_WORD" [Arg "#0"]);
     ("ret.max", Call "SINT_TO_WORD" [Arg "#1"])]
    (Some [("ret.zero", (VZ 0)); ("ret.max", (VZ 127))]);
  Test 1378 (* sint_to_byte_conversion *)
    [("#0", (S_SINT, (VZ 0)));
     ("#1", (S_SINT, (VZ 127)));
     ("ret.zero", (S_BYTE, (VZ 0)));
     ("ret.max", (S_BYTE, (VZ 0)))]
    [("ret.zero", Call "SINT_TO_BYTE" [Arg "#0"]);
     ("ret.max", Call "SINT_TO_BYTE" [Arg "#1"])]
    (Some [("ret.zero", (VZ 0)); ("ret.max", (VZ 127))]);
  Test 1400 (* ulint_to_lword_conversion *)
    [("#0", (S_ULINT, (VZ 0)));
     ("#1", (S_ULINT, (VZ 18446744073709551615)));
     ("ret.zero", (S_LWORD, (VZ 0)));
     ("ret.max", (S_LWORD, (VZ 0)))]
    [("ret.zero", Call "ULINT_TO_LWORD" [Arg "#0"]);
     ("ret.max", Call "ULINT_TO_LWORD" [Arg "#1"])]
    (Some [("ret.zero", (VZ 0)); ("ret.max", (VZ 18446744073709551615))]);
  Test 1422 (* ulint_to_dword_conversion *)
    [("#0", (S_ULINT, (VZ 0)));
     ("#1", (S_ULINT, (VZ 4294967295)));
     ("ret.zero", (S_DWORD, (VZ 0)));
     ("ret.max", (S_DWORD, (VZ 0)))]
    [("ret.zero", Call "ULINT_TO_DWORD" [Arg "#0"]);
     ("ret.max", Call "ULINT_TO_DWORD" [Arg "#1"])]
    (Some [("ret.zero", (VZ 0)); ("ret.max", (VZ 4294967295))]);
  Test 1444 (* ulint_to_word_conversion *)
    [("#0", (S_ULINT, (VZ 0)));
     ("#1", (S_ULINT, (VZ 65535)));
     ("ret.zero", (S_WORD, (VZ 0)));
     ("ret.max", (S_WORD, (VZ 0)))]
    [("ret.zero", Call "ULINT_TO_WORD" [Arg "#0"]);
     ("ret.max", Call "ULINT_TO_WORD" [Arg "#1"])]
    (Some [("ret.zero", (VZ 0)); ("ret.max", (VZ 65535))]);
  Test 1466 (* ulint_to_byte_conversion *)
    [("#0", (S_ULINT, (VZ 0)));
     ("#1", (S_ULINT, (VZ 255)));
     ("ret.zero", (S_BYTE, (VZ 0)));
     ("ret.max", (S_BYTE, (VZ 0)))]
    [("ret.zero", Call "ULINT_TO_BYTE" [Arg "#0"]);
     ("ret.max", Call "ULINT_TO_BYTE" [Arg "#1"])]
    (Some [("ret.zero", (VZ 0)); ("ret.max", (VZ 255))]);
  Test 1488 (* udint_to_lword_conversion *)
    [("#0", (S_UDINT, (VZ 0)));
     ("#1", (S_UDINT, (VZ 4294967295)));
     ("ret.zero", (S_LWORD, (VZ 0)));
     ("ret.max", (S_LWORD, (VZ 0)))]
    [("ret.zero", Call "UDINT_TO_LWORD" [Arg "#0"]);
     ("ret.max", Call "UDINT_TO_LWORD" [Arg "#1"])]
    (Some [("ret.zero", (VZ 0)); ("ret.max", (VZ 4294967295))]);
  Test 1510 (* udint_to_dword_conversion *)
    [("#0", (S_UDINT, (VZ 0)));
     ("#1", (S_UDINT, (VZ 4294967295)));
     ("ret.zero", (S_DWORD, (VZ 0)));
     ("ret.max", (S_DWORD, (VZ 0)))]
    [("ret.zero", Call "UDINT_TO_DWORD" [Arg "#0"]);
     ("ret.max", Call "UDINT_TO_DWORD" [Arg "#1"])]
    (Some [("ret.zero", (VZ 0)); ("ret.max", (VZ 4294967295))]);
  Test 1532 (* udint_to_word_conversion *)
    [("#0", (S_UDINT, (VZ 0)));
     ("#1", (S_UDINT, (VZ 65535)));
     ("ret.zero", (S_WORD, (VZ 0)));
     ("ret.max", (S_WORD, (VZ 0)))]
    [("ret.zero", Call "UDINT_TO_WORD" [Arg "#0"]);
     ("ret.max", Call "UDINT_TO_WORD" [Arg "#1"])]
    (Some [("ret.zero", (VZ 0)); ("ret.max", (VZ 65535))]);
  Test 1554 (* udint_to_byte_conversion *)
    [("#0", (S_UDINT, (VZ 0)));
     ("#1", (S_UDINT, (VZ 255)));
     ("ret.zero", (S_BYTE, (VZ 0)));
     ("ret.max", (S_BYTE, (VZ 0)))]
    [("ret.zero", Call "UDINT_TO_BYTE" [Arg "#0"]);
     ("ret.max", Call "UDINT_TO_BYTE" [Arg "#1"])]
    (Some [("ret.zero", (VZ 0)); ("ret.max", (VZ 255))]);
  Test 1576 (* uint_to_lword_conversion *)
    [("#0", (S_UINT, (VZ 0)));
     ("#1", (S_UINT, (VZ 65535)));
     ("ret.zero", (S_LWORD, (VZ 0)));
     ("ret.max", (S_LWORD, (VZ 0)))]
    [("ret.zero", Call "UINT_TO_LWORD" [Arg "#0"]);
     ("ret.max", Call "UINT_TO_LWORD" [Arg "#1"])]
    (Some [("ret.zero", (VZ 0)); ("ret.max", (VZ 65535))]);
  Test 1598 (* uint_to_dword_conversion *)
    [("#0", (S_UINT, (VZ 0)));
     ("#1", (S_UINT, (VZ 65535)));
     ("ret.zero", (S_DWORD, (VZ 0)));
     ("ret.max", (S_DWORD, (VZ 0)))]
    [("ret.zero", Call "UINT_TO_DWORD" [Arg "#0"]);
     ("ret.max", Call "UINT_TO_DWORD" [Arg "#1"])]
    (Some [("ret.zero", (VZ 0)); ("ret.max", (VZ 65535))]);
  Test 1620 (* uint_to_word_conversion *)
    [("#0", (S_UINT, (VZ 0)));
     ("#1", (S_UINT, (VZ 65535)));
     ("ret.zero", (S_WORD, (VZ 0)));
     ("ret.max", (S_WORD, (VZ 0)))]
    [("ret.zero", Call "UINT_TO_WORD" [Arg "#0"]);
     ("ret.max", Call "UINT_TO_WORD" [Arg "#1"])]
    (Some [("ret.zero", (VZ 0)); ("ret.max", (VZ 65535))]);
  Test 1642 (* uint_to_byte_conversion *)
    [("#0", (S_UINT, (VZ 0)));
     ("#1", (S_UINT, (VZ 255)));
     ("ret.zero", (S_BYTE, (VZ 0)));
     ("ret.max", (S_BYTE, (VZ 0)))]
    [("ret.zero", Call "UINT_TO_BYTE" [Arg "#0"]);
     ("ret.max", Call "UINT_TO_BYTE" [Arg "#1"])]
    (Some [("ret.zero", (VZ 0)); ("ret.max", (VZ 255))]);
  Test 1664 (* usint_to_lword_conversion *)
    [("#0", (S_USINT, (VZ 0)));
     ("#1", (S_USINT, (VZ 255)));
     ("ret.zero", (S_LWORD, (VZ 0)));
     ("ret.max", (S_LWORD, (VZ 0)))]
    [("ret.zero", Call "USINT_TO_LWORD" [Arg "#0"]);
     ("ret.max", Call "USINT_TO_LWORD" [Arg "#1"])]
    (Some [("ret.zero", (VZ 0)); ("ret.max", (VZ 255))]);
  Test 1686 (* usint_to_dword_conversion *)
    [("#0", (S_USINT, (VZ 0)));
     ("#1", (S_USINT, (VZ 255)));
     ("ret.zero", (S_DWORD, (VZ 0)));
     ("ret.max", (S_DWORD, (VZ 0)))]
    [("ret.zero", Call "USINT_TO_DWORD" [Arg "#0"]);
     ("ret.max", Call "USINT_TO_DWORD" [Arg "#1"])]
    (Some [("ret.zero", (VZ 0)); ("ret.max", (VZ 255))]);
  Test 1708 (* usint_to_word_conversion *)
    [("#0", (S_USINT, (VZ 0)));
     ("#1", (S_USINT, (VZ 255)));
     ("ret.zero", (S_WORD, (VZ 0)));
     ("ret.max", (S_WORD, (VZ 0)))]
    [("ret.zero", Call "USINT_TO_WORD" [Arg "#0"]);
     ("ret.max", Call "USINT_TO_WORD" [Arg "#1"])]
    (Some [("ret.zero", (VZ 0)); ("ret.max", (VZ 255))]);
  Test 1730 (* usint_to_byte_conversion *)
    [("#0", (S_USINT, (VZ 0)));
     ("#1", (S_USINT, (VZ 255)));
     ("ret.zero", (S_BYTE, (VZ 0)));
     ("ret.max", (S_BYTE, (VZ 0)))]
    [("ret.zero", Call "USINT_TO_BYTE" [Arg "#0"]);
     ("ret.max", Call "USINT_TO_BYTE" [Arg "#1"])]
    (Some [("ret.zero", (VZ 0)); ("ret.max", (VZ 255))])].
Example bit_num_conversion_tests_pass : forallb passes bit_num_conversion_tests = true.
Proof. vm_compute. reflexivity. Qed.

(** /repo/tests/bit_shift_functions_tests.rs, at the lines given. *)
Definition bit_shift_functions_tests : list test := [
  Test 17 (* shift_left_test *)
    [("#0", (S_BYTE, (VZ 25)));
     ("#1", (S_UDINT, (VZ 3)));
     ("#2", (S_WORD, (VZ 25)));
     ("#3", (S_UDINT, (VZ 11)));
     ("#4", (S_DWORD, (VZ 25)));
     ("#5", (S_UDINT, (VZ 27)));
     ("#6", (S_LWORD, (VZ 25)));
     ("#7", (S_UDINT, (VZ 59)));
     ("b", (S_BYTE, (VZ 0)));
     ("w", (S_WORD, (VZ 0)));
     ("d", (S_DWORD, (VZ 0)));
     ("l", (S_LWORD, (VZ 0)))]
    [("b", Call "SHL" [Arg "#0"; Arg "#1"]);
     ("w", Call "SHL" [Arg "#2"; Arg "#3"]);
     ("d", Call "SHL" [Arg "#4"; Arg "#5"]);
     ("l", Call "SHL" [Arg "#6"; Arg "#7"])]
    (Some [("b", (VZ 200)); ("w", (VZ 51200)); ("d", (VZ 3355443200)); ("l", (VZ 14411518807585587200))]);
  Test 45 (* shift_right_test *)
    [("#0", (S_BYTE, (VZ 17)));
     ("#1", (S_UDINT, (VZ 3)));
     ("#2", (S_WORD, (VZ 257)));
     ("#3", (S_UDINT, (VZ 3)));
     ("#4", (S_DWORD, (VZ 65537)));
     ("#5", (S_UDINT, (VZ 3)));
     ("#6", (S_LWORD, (VZ 281474976710657)));
     ("#7", (S_UDINT, (VZ 3)));
     ("b", (S_BYTE, (VZ 0)));
     ("w", (S_WORD, (VZ 0)));
     ("d", (S_DWORD, (VZ 0)));
     ("l", (S_LWORD, (VZ 0)))]
    [("b", Call "SHR" [Arg "#0"; Arg "#1"]);
     ("w", Call "SHR" [Arg "#2"; Arg "#3"]);
     ("d", Call "SHR" [Arg "#4"; Arg "#5"]);
     ("l", Call "SHR" [Arg "#6"; Arg "#7"])]
    (Some [("b", (VZ 2)); ("w", (VZ 32)); ("d", (VZ 8192)); ("l", (VZ 35184372088832))]);
  Test 70 (* rotate_left_test *)
    [("#0", (S_BYTE, (VZ 129)));
     ("#1", (S_UDINT, (VZ 3)));
     ("#2", (S_WORD, (VZ 32769)));
     ("#3", (S_UDINT, (VZ 3)));
     ("#4", (S_DWORD, (VZ 2147483649)));
     ("#5", (S_UDINT, (VZ 3)));
     ("#6", (S_LWORD, (VZ 9223372036854775809)));
     ("#7", (S_UDINT, (VZ 3)));
     ("b", (S_BYTE, (VZ 0)));
     ("w", (S_WORD, (VZ 0)));
     ("d", (S_DWORD, (VZ 0)));
     ("l", (S_LWORD, (VZ 0)))]
    [("b", Call "ROL" [Arg "#0"; Arg "#1"]);
     ("w", Call "ROL" [Arg "#2"; Arg "#3"]);
     ("d", Call "ROL" [Arg "#4"; Arg "#5"]);
     ("l", Call "ROL" [Arg "#6"; Arg "#7"])]
    (Some [("b", (VZ 12)); ("w", (VZ 12)); ("d", (VZ 12)); ("l", (VZ 12))]);
  Test 95 (* rotate_right_test *)
    [("#0", (S_BYTE, (VZ 129)));
     ("#1", (S_UDINT, (VZ 3)));
     ("#2", (S_WORD, (VZ 32769)));
     ("#3", (S_UDINT, (VZ 3)));
     ("#4", (S_DWORD, (VZ 2147483649)));
     ("#5", (S_UDINT, (VZ 3)));
     ("#6", (S_LWORD, (VZ 9223372036854775809)));
     ("#7", (S_UDINT, (VZ 3)));
     ("b", (S_BYTE, (VZ 0)));
     ("w", (S_WORD, (VZ 0)));
     ("d", (S_DWORD, (VZ 0)));
     ("l", (S_LWORD, (VZ 0)))]
    [("b", Call "ROR" [Arg "#0"; Arg "#1"]);
     ("w", Call "ROR" [Arg "#2"; Arg "#3"]);
     ("d", Call "ROR" [Arg "#4"; Arg "#5"]);
     ("l", Call "ROR" [Arg "#6"; Arg "#7"])]
    (Some [("b", (VZ 48)); ("w", (VZ 12288)); ("d", (VZ 805306368)); ("l", (VZ 3458764513820540928))])].
Example bit_shift_functions_tests_pass : forallb passes bit_shift_functions_tests = true.
Proof. vm_compute. reflexivity. Qed.

(** /repo/tests/date_time_conversion_tests.rs, at the lines given. *)
Definition date_time_conversion_tests : list test := [
  Test 20 (* ltime_to_time_conversion *)
    [("#0", (S_LTIME, (VZ 10000000000)));
     ("main", (S_TIME, (VZ 0)))]
    [("main", Call "LTIME_TO_TIME" [Arg "#0"])]
    (Some [("main", (VZ 10000000000))]);
  Test 32 (* time_to_ltime_conversion *)
    [("#0", (S_TIME, (VZ 10000000000)));
     ("main", (S_LTIME, (VZ 0)))]
    [("main", Call "TIME_TO_LTIME" [Arg "#0"])]
    (Some [("main", (VZ 10000000000))]);
  Test 44 (* ldt_to_dt_conversion *)
    [("#0", (S_LDT, (VZ 1618957994000000000)));
     ("main", (S_DT, (VZ 0)))]
    [("main", Call "LDT_TO_DT" [Arg "#0"])]
    (Some [("main", (VZ 1618957994000000000))]);
  Test 63 (* ldt_to_date_conversion *)
    [("#0", (S_LDT, (VZ 946757711000000000)));
     ("main", (S_DATE, (VZ 0)))]
    [("main", Call "LDT_TO_DATE" [Arg "#0"])]
    (Some [("main", (VZ 946684800000000000))]);
  Test 82 (* ldt_to_ltod_conversion *)
    [("#0", (S_LDT, (VZ 946740990123456000)));
     ("main", (S_LTOD, (VZ 0)))]
    [("main", Call "LDT_TO_LTOD" [Arg "#0"])]
    (Some [("main", (VZ 56190123456000))]);
  Test 101 (* ldt_to_tod_conversion *)
    [("#0", (S_LDT, (VZ 4737212111543000000)));
     ("main", (S_TOD, (VZ 0)))]
    [("main", Call "LDT_TO_TOD" [Arg "#0"])]
    (Some [("main", (VZ 72911543000000))]);
  Test 120 (* dt_to_ldt_conversion *)
    [("#0", (S_DT, (VZ 1618957994000000000)));
     ("main", (S_LDT, (VZ 0)))]
    [("main", Call "DT_TO_LDT" [Arg "#0"])]
    (Some [("main", (VZ 1618957994000000000))]);
  Test 139 (* dt_to_date_conversion *)
    [("#0", (S_DT, (VZ 946757711000000000)));
     ("main", (S_DATE, (VZ 0)))]
    [("main", Call "DT_TO_DATE" [Arg "#0"])]
    (Some [("main", (VZ 946684800000000000))]);
  Test 158 (* dt_to_ltod_conversion *)
    [("#0", (S_DT, (VZ 946740990123000000)));
     ("main", (S_LTOD, (VZ 0)))]
    [("main", Call "DT_TO_LTOD" [Arg "#0"])]
    (Some [("main", (VZ 56190123000000))]);
  Test 177 (* dt_to_tod_conversion *)
    [("#0", (S_DT, (VZ 4737212111543000000)));
     ("main", (S_TOD, (VZ 0)))]
    [("main", Call "DT_TO_TOD" [Arg "#0"])]
    (Some [("main", (VZ 72911543000000))]);
  Test 196 (* ltod_to_tod_conversion *)
    [("#0", (S_LTOD, (VZ 37230000000000)));
     ("main", (S_TOD, (VZ 0)))]
    [("main", Call "LTOD_TO_TOD" [Arg "#0"])]
    (Some [("main", (VZ 37230000000000))]);
  Test 215 (* tod_to_ltod_conversion *)
    [("#0", (S_TOD, (VZ 37230000000000)));
     ("main", (S_LTOD, (VZ 0)))]
    [("main", Call "TOD_TO_LTOD" [Arg "#0"])]
    (Some [("main", (VZ 37230000000000))])].
Example date_time_conversion_tests_pass : forallb passes date_time_conversion_tests = true.
Proof. vm_compute. reflexivity. Qed.

(** /repo/tests/date_time_extra_functions_tests.rs, at the lines given. *)
Definition date_time_extra_functions_tests : list test := [
  Test 27 (* concat_date_tod *)
    [("#0", (S_DATE, (VZ 1268352000000000000)));
     ("#1", (S_TOD, (VZ 45015121121121)));
     ("main", (S_DT, (VZ 0)))]
    [("main", Call "CONCAT_DATE_TOD" [Arg "#0"; Arg "#1"])]
    (Some [("main", (VZ 1268397015121121121))]);
  Test 44 (* concat_date_ltod *)
    [("#0", (S_DATE, (VZ 1268352000000000000)));
     ("#1", (S_LTOD, (VZ 45015121121121)));
     ("main", (S_LDT, (VZ 0)))]
    [("main", Call "CONCAT_DATE_LTOD" [Arg "#0"; Arg "#1"])]
    (Some [("main", (VZ 1268397015121121121))]);
  Test 72 (* concat_date_signed_ints *)
    [("#0", (S_INT, (VZ 2000)));
     ("#1", (S_SINT, (VZ 1)));
     ("#2", (S_SINT, (VZ 1)));
     ("#3", (S_DINT, (VZ 2000)));
     ("#4", (S_DINT, (VZ 1)));
     ("#5", (S_DINT, (VZ 1)));
     ("#6", (S_LINT, (VZ 2000)));
     ("#7", (S_LINT, (VZ 1)));
     ("#8", (S_LINT, (VZ 1)));
     ("a", (S_DATE, (VZ 0)));
     ("b", (S_DATE, (VZ 0)));
     ("c", (S_DATE, (VZ 0)))]
    [("a", Call "CONCAT_DATE" [Arg "#0"; Arg "#1"; Arg "#2"]);
     ("b", Call "CONCAT_DATE" [Arg "#3"; Arg "#4"; Arg "#5"]);
     ("c", Call "CONCAT_DATE" [Arg "#6"; Arg "#7"; Arg "#8"])]
    (Some [("a", (VZ 946684800000000000)); ("b", (VZ 946684800000000000)); ("c", (VZ 946684800000000000))]);
  Test 98 (* concat_date_unsigned_ints *)
    [("#0", (S_UINT, (VZ 2000)));
     ("#1", (S_USINT, (VZ 1)));
     ("#2", (S_USINT, (VZ 1)));
     ("#3", (S_UDINT, (VZ 2000)));
     ("#4", (S_UDINT, (VZ 1)));
     ("#5", (S_UDINT, (VZ 1)));
     ("#6", (S_ULINT, (VZ 2000)));
     ("#7", (S_ULINT, (VZ 1)));
     ("#8", (S_ULINT, (VZ 1)));
     ("a", (S_DATE, (VZ 0)));
     ("b", (S_DATE, (VZ 0)));
     ("c", (S_DATE, (VZ 0)))]
    [("a", Call "CONCAT_DATE" [Arg "#0"; Arg "#1"; Arg "#2"]);
     ("b", Call "CONCAT_DATE" [Arg "#3"; Arg "#4"; Arg "#5"]);
     ("c", Call "CONCAT_DATE" [Arg "#6"; Arg "#7"; Arg "#8"])]
    (Some [("a", (VZ 946684800000000000)); ("b", (VZ 946684800000000000)); ("c", (VZ 946684800000000000))]);
  Test 124 (* concat_tod_signed_ints *)
    [("#0", (S_SINT, (VZ 20)));
     ("#1", (S_SINT, (VZ 15)));
     ("#2", (S_SINT, (VZ 12)));
     ("#3", (S_SINT, (VZ 34)));
     ("#4", (S_INT, (VZ 20)));
     ("#5", (S_INT, (VZ 15)));
     ("#6", (S_INT, (VZ 12)));
     ("#7", (S_INT, (VZ 341)));
     ("#8", (S_DINT, (VZ 20)));
     ("#9", (S_DINT, (VZ 15)));
     ("#10", (S_DINT, (VZ 12)));
     ("#11", (S_DINT, (VZ 341)));
     ("#12", (S_LINT, (VZ 20)));
     ("#13", (S_LINT, (VZ 15)));
     ("#14", (S_LINT, (VZ 12)));
     ("#15", (S_LINT, (VZ 341)));
     ("a", (S_TOD, (VZ 0)));
     ("b", (S_TOD, (VZ 0)));
     ("c", (S_TOD, (VZ 0)));
     ("d", (S_TOD, (VZ 0)))]
    [("a", Call "CONCAT_TOD" [Arg "#0"; Arg "#1"; Arg "#2"; Arg "#3"]);
     ("b", Call "CONCAT_TOD" [Arg "#4"; Arg "#5"; Arg "#6"; Arg "#7"]);
     ("c", Call "CONCAT_TOD" [Arg "#8"; Arg "#9"; Arg "#10"; Arg "#11"]);
     ("d", Call "CONCAT_TOD" [Arg "#12"; Arg "#13"; Arg "#14"; Arg "#15"])]
    (Some [("a", (VZ 72912034000000)); ("b", (VZ 72912341000000)); ("c", (VZ 72912341000000)); ("d", (VZ 72912341000000))]);
  Test 152 (* concat_tod_unsigned_ints *)
    [("#0", (S_USINT, (VZ 20)));
     ("#1", (S_USINT, (VZ 15)));
     ("#2", (S_USINT, (VZ 12)));
     ("#3", (S_USINT, (VZ 34)));
     ("#4", (S_UINT, (VZ 20)));
     ("#5", (S_UINT, (VZ 15)));
     ("#6", (S_UINT, (VZ 12)));
     ("#7", (S_UINT, (VZ 341)));
     ("#8", (S_UDINT, (VZ 20)));
     ("#9", (S_UDINT, (VZ 15)));
     ("#10", (S_UDINT, (VZ 12)));
     ("#11", (S_UDINT, (VZ 341)));
     ("#12", (S_ULINT, (VZ 20)));
     ("#13", (S_ULINT, (VZ 15)));
     ("#14", (S_ULINT, (VZ 12)));
     ("#15", (S_ULINT, (VZ 341)));
     ("a", (S_TOD, (VZ 0)));
     ("b", (S_TOD, (VZ 0)));
     ("c", (S_TOD, (VZ 0)));
     ("d", (S_TOD, (VZ 0)))]
    [("a", Call "CONCAT_TOD" [Arg "#0"; Arg "#1"; Arg "#2"; Arg "#3"]);
     ("b", Call "CONCAT_TOD" [Arg "#4"; Arg "#5"; Arg "#6"; Arg "#7"]);
     ("c", Call "CONCAT_TOD" [Arg "#8"; Arg "#9"; Arg "#10"; Arg "#11"]);
     ("d", Call "CONCAT_TOD" [Arg "#12"; Arg "#13"; Arg "#14"; Arg "#15"])]
    (Some [("a", (VZ 72912034000000)); ("b", (VZ 72912341000000)); ("c", (VZ 72912341000000)); ("d", (VZ 72912341000000))]);
  Test 180 (* concat_ltod_signed_ints *)
    [("#0", (S_SINT, (VZ 20)));
     ("#1", (S_SINT, (VZ 15)));
     ("#2", (S_SINT, (VZ 12)));
     ("#3", (S_SINT, (VZ 34)));
     ("#4", (S_INT, (VZ 20)));
     ("#5", (S_INT, (VZ 15)));
     ("#6", (S_INT, (VZ 12)));
     ("#7", (S_INT, (VZ 341)));
     ("#8", (S_DINT, (VZ 20)));
     ("#9", (S_DINT, (VZ 15)));
     ("#10", (S_DINT, (VZ 12)));
     ("#11", (S_DINT, (VZ 341)));
     ("#12", (S_LINT, (VZ 20)));
     ("#13", (S_LINT, (VZ 15)));
     ("#14", (S_LINT, (VZ 12)));
     ("#15", (S_LINT, (VZ 341)));
     ("a", (S_TOD, (VZ 0)));
     ("b", (S_TOD, (VZ 0)));
     ("c", (S_TOD, (VZ 0)));
     ("d", (S_TOD, (VZ 0)))]
    [("a", Call "CONCAT_LTOD" [Arg "#0"; Arg "#1"; Arg "#2"; Arg "#3"]);
     ("b", Call "CONCAT_LTOD" [Arg "#4"; Arg "#5"; Arg "#6"; Arg "#7"]);
     ("c", Call "CONCAT_LTOD" [Arg "#8"; Arg "#9"; Arg "#10"; Arg "#11"]);
     ("d", Call "CONCAT_LTOD" [Arg "#12"; Arg "#13"; Arg "#14"; Arg "#15"])]
    (Some [("a", (VZ 72912034000000)); ("b", (VZ 72912341000000)); ("c", (VZ 72912341000000)); ("d", (VZ 72912341000000))]);
  Test 208 (* concat_ltod_unsigned_ints *)
    [("#0", (S_USINT, (VZ 20)));
     ("#1", (S_USINT, (VZ 15)));
     ("#2", (S_USINT, (VZ 12)));
     ("#3", (S_USINT, (VZ 34)));
     ("#4", (S_UINT, (VZ 20)));
     ("#5", (S_UINT, (VZ 15)));
     ("#6", (S_UINT, (VZ 12)));
     ("#7", (S_UINT, (VZ 341)));
     ("#8", (S_UDINT, (VZ 20)));
     ("#9", (S_UDINT, (VZ 15)));
     ("#10", (S_UDINT, (VZ 12)));
     ("#11", (S_UDINT, (VZ 341)));
     ("#12", (S_ULINT, (VZ 20)));
     ("#13", (S_ULINT, (VZ 15)));
     ("#14", (S_ULINT, (VZ 12)));
     ("#15", (S_ULINT, (VZ 341)));
     ("a", (S_TOD, (VZ 0)));
     ("b", (S_TOD, (VZ 0)));
     ("c", (S_TOD, (VZ 0)));
     ("d", (S_TOD, (VZ 0)))]
    [("a", Call "CONCAT_LTOD" [Arg "#0"; Arg "#1"; Arg "#2"; Arg "#3"]);
     ("b", Call "CONCAT_LTOD" [Arg "#4"; Arg "#5"; Arg "#6"; Arg "#7"]);
     ("c", Call "CONCAT_LTOD" [Arg "#8"; Arg "#9"; Arg "#10"; Arg "#11"]);
     ("d", Call "CONCAT_LTOD" [Arg "#12"; Arg "#13"; Arg "#14"; Arg "#15"])]
    (Some [("a", (VZ 72912034000000)); ("b", (VZ 72912341000000)); ("c", (VZ 72912341000000)); ("d", (VZ 72912341000000))]);
  Test 236 (* concat_dt_signed_ints *)
    [("#0", (S_INT, (VZ 2000)));
     ("#1", (S_SINT, (VZ 1)));
     ("#2", (S_SINT, (VZ 2)));
     ("#3", (S_SINT, (VZ 20)));
     ("#4", (S_SINT, (VZ 15)));
     ("#5", (S_SINT, (VZ 12)));
     ("#6", (S_SINT, (VZ 111)));
     ("#7", (S_DINT, (VZ 2000)));
     ("#8", (S_DINT, (VZ 1)));
     ("#9", (S_DINT, (VZ 2)));
     ("#10", (S_DINT, (VZ 20)));
     ("#11", (S_DINT, (VZ 15)));
     ("#12", (S_DINT, (VZ 12)));
     ("#13", (S_DINT, (VZ 111)));
     ("#14", (S_LINT, (VZ 2000)));
     ("#15", (S_LINT, (VZ 1)));
     ("#16", (S_LINT, (VZ 2)));
     ("#17", (S_LINT, (VZ 20)));
     ("#18", (S_LINT, (VZ 15)));
     ("#19", (S_LINT, (VZ 12)));
     ("#20", (S_LINT, (VZ 111)));
     ("a", (S_DT, (VZ 0)));
     ("b", (S_DT, (VZ 0)));
     ("c", (S_DT, (VZ 0)))]
    [("a", Call "CONCAT_DT" [Arg "#0"; Arg "#1"; Arg "#2"; Arg "#3"; Arg "#4"; Arg "#5"; Arg "#6"]);
     ("b", Call "CONCAT_DT" [Arg "#7"; Arg "#8"; Arg "#9"; Arg "#10"; Arg "#11"; Arg "#12"; Arg "#13"]);
     ("c", Call "CONCAT_DT" [Arg "#14"; Arg "#15"; Arg "#16"; Arg "#17"; Arg "#18"; Arg "#19"; Arg "#20"])]
    (Some [("a", (VZ 946844112111000000)); ("b", (VZ 946844112111000000)); ("c", (VZ 946844112111000000))]);
  Test 262 (* concat_dt_unsigned_ints *)
    [("#0", (S_UINT, (VZ 2000)));
     ("#1", (S_USINT, (VZ 1)));
     ("#2", (S_USINT, (VZ 2)));
     ("#3", (S_USINT, (VZ 20)));
     ("#4", (S_USINT, (VZ 15)));
     ("#5", (S_USINT, (VZ 12)));
     ("#6", (S_USINT, (VZ 111)));
     ("#7", (S_UDINT, (VZ 2000)));
     ("#8", (S_UDINT, (VZ 1)));
     ("#9", (S_UDINT, (VZ 2)));
     ("#10", (S_UDINT, (VZ 20)));
     ("#11", (S_UDINT, (VZ 15)));
     ("#12", (S_UDINT, (VZ 12)));
     ("#13", (S_UDINT, (VZ 111)));
     ("#14", (S_ULINT, (VZ 2000)));
     ("#15", (S_ULINT, (VZ 1)));
     ("#16", (S_ULINT, (VZ 2)));
     ("#17", (S_ULINT, (VZ 20)));
     ("#18", (S_ULINT, (VZ 15)));
     ("#19", (S_ULINT, (VZ 12)));
     ("#20", (S_ULINT, (VZ 111)));
     ("a", (S_DT, (VZ 0)));
     ("b", (S_DT, (VZ 0)));
     ("c", (S_DT, (VZ 0)))]
    [("a", Call "CONCAT_DT" [Arg "#0"; Arg "#1"; Arg "#2"; Arg "#3"; Arg "#4"; Arg "#5"; Arg "#6"]);
     ("b", Call "CONCAT_DT" [Arg "#7"; Arg "#8"; Arg "#9"; Arg "#10"; Arg "#11"; Arg "#12"; Arg "#13"]);
     ("c", Call "CONCAT_DT" [Arg "#14"; Arg "#15"; Arg "#16"; Arg "#17"; Arg "#18"; Arg "#19"; Arg "#20"])]
    (Some [("a", (VZ 946844112111000000)); ("b", (VZ 946844112111000000)); ("c", (VZ 946844112111000000))]);
  Test 288 (* concat_ldt_signed_ints *)
    [("#0", (S_INT, (VZ 2000)));
     ("#1", (S_SINT, (VZ 1)));
     ("#2", (S_SINT, (VZ 2)));
     ("#3", (S_SINT, (VZ 20)));
     ("#4", (S_SINT, (VZ 15)));
     ("#5", (S_SINT, (VZ 12)));
     ("#6", (S_SINT, (VZ 111)));
     ("#7", (S_DINT, (VZ 2000)));
     ("#8", (S_DINT, (VZ 1)));
     ("#9", (S_DINT, (VZ 2)));
     ("#10", (S_DINT, (VZ 20)));
     ("#11", (S_DINT, (VZ 15)));
     ("#12", (S_DINT, (VZ 12)));
     ("#13", (S_DINT, (VZ 111)));
     ("#14", (S_LINT, (VZ 2000)));
     ("#15", (S_LINT, (VZ 1)));
     ("#16", (S_LINT, (VZ 2)));
     ("#17", (S_LINT, (VZ 20)));
     ("#18", (S_LINT, (VZ 15)));
     ("#19", (S_LINT, (VZ 12)));
     ("#20", (S_LINT, (VZ 111)));
     ("a", (S_LDT, (VZ 0)));
     ("b", (S_LDT, (VZ 0)));
     ("c", (S_LDT, (VZ 0)))]
    [("a", Call "CONCAT_LDT" [Arg "#0"; Arg "#1"; Arg "#2"; Arg "#3"; Arg "#4"; Arg "#5"; Arg "#6"]);
     ("b", Call "CONCAT_LDT" [Arg "#7"; Arg "#8"; Arg "#9"; Arg "#10"; Arg "#11"; Arg "#12"; Arg "#13"]);
     ("c", Call "CONCAT_LDT" [Arg "#14"; Arg "#15"; Arg "#16"; Arg "#17"; Arg "#18"; Arg "#19"; Arg "#20"])]
    (Some [("a", (VZ 946844112111000000)); ("b", (VZ 946844112111000000)); ("c", (VZ 946844112111000000))]);
  Test 314 (* concat_ldt_unsigned_ints *)
    [("#0", (S_UINT, (VZ 2000)));
     ("#1", (S_USINT, (VZ 1)));
     ("#2", (S_USINT, (VZ 2)));
     ("#3", (S_USINT, (VZ 20)));
     ("#4", (S_USINT, (VZ 15)));
     ("#5", (S_USINT, (VZ 12)));
     ("#6", (S_USINT, (VZ 111)));
     ("#7", (S_UDINT, (VZ 2000)));
     ("#8", (S_UDINT, (VZ 1)));
     ("#9", (S_UDINT, (VZ 2)));
     ("#10", (S_UDINT, (VZ 20)));
     ("#11", (S_UDINT, (VZ 15)));
     ("#12", (S_UDINT, (VZ 12)));
     ("#13", (S_UDINT, (VZ 111)));
     ("#14", (S_ULINT, (VZ 2000)));
     ("#15", (S_ULINT, (VZ 1)));
     ("#16", (S_ULINT, (VZ 2)));
     ("#17", (S_ULINT, (VZ 20)));
     ("#18", (S_ULINT, (VZ 15)));
     ("#19", (S_ULINT, (VZ 12)));
     ("#20", (S_ULINT, (VZ 111)));
     ("a", (S_LDT, (VZ 0)));
     ("b", (S_LDT, (VZ 0)));
     ("c", (S_LDT, (VZ 0)))]
    [("a", Call "CONCAT_LDT" [Arg "#0"; Arg "#1"; Arg "#2"; Arg "#3"; Arg "#4"; Arg "#5"; Arg "#6"]);
     ("b", Call "CONCAT_LDT" [Arg "#7"; Arg "#8"; Arg "#9"; Arg "#10"; Arg "#11"; Arg "#12"; Arg "#13"]);
     ("c", Call "CONCAT_LDT" [Arg "#14"; Arg "#15"; Arg "#16"; Arg "#17"; Arg "#18"; Arg "#19"; Arg "#20"])]
    (Some [("a", (VZ 946844112111000000)); ("b", (VZ 946844112111000000)); ("c", (VZ 946844112111000000))]);
  Test 340 (* split_date_int *)
    [("#0", (S_DATE, (VZ 946771200000000000)));
     ("a", (S_INT, (VZ 0)));
     ("b", (S_INT, (VZ 0)));
     ("c", (S_INT, (VZ 0)))]
    [("", Call "SPLIT_DATE" [Arg "#0"; Arg "a"; Arg "b"; Arg "c"])]
    (Some [("a", (VZ 2000)); ("b", (VZ 1)); ("c", (VZ 2))]);
  Test 359 (* split_date_uint *)
    [("#0", (S_DATE, (VZ 946771200000000000)));
     ("a", (S_UINT, (VZ 0)));
     ("b", (S_UINT, (VZ 0)));
     ("c", (S_UINT, (VZ 0)))]
    [("", Call "SPLIT_DATE" [Arg "#0"; Arg "a"; Arg "b"; Arg "c"])]
    (Some [("a", (VZ 2000)); ("b", (VZ 1)); ("c", (VZ 2))]);
  Test 378 (* split_date_dint *)
    [("#0", (S_DATE, (VZ 946771200000000000)));
     ("a", (S_DINT, (VZ 0)));
     ("b", (S_DINT, (VZ 0)));
     ("c", (S_DINT, (VZ 0)))]
    [("", Call "SPLIT_DATE" [Arg "#0"; Arg "a"; Arg "b"; Arg "c"])]
    (Some [("a", (VZ 2000)); ("b", (VZ 1)); ("c", (VZ 2))]);
  Test 397 (* split_date_udint *)
    [("#0", (S_DATE, (VZ 946771200000000000)));
     ("a", (S_UDINT, (VZ 0)));
     ("b", (S_UDINT, (VZ 0)));
     ("c", (S_UDINT, (VZ 0)))]
    [("", Call "SPLIT_DATE" [Arg "#0"; Arg "a"; Arg "b"; Arg "c"])]
    (Some [("a", (VZ 2000)); ("b", (VZ 1)); ("c", (VZ 2))]);
  Test 416 (* split_date_lint *)
    [("#0", (S_DATE, (VZ 946771200000000000)));
     ("a", (S_LINT, (VZ 0)));
     ("b", (S_LINT, (VZ 0)));
     ("c", (S_LINT, (VZ 0)))]
    [("", Call "SPLIT_DATE" [Arg "#0"; Arg "a"; Arg "b"; Arg "c"])]
    (Some [("a", (VZ 2000)); ("b", (VZ 1)); ("c", (VZ 2))]);
  Test 435 (* split_date_ulint *)
    [("#0", (S_DATE, (VZ 946771200000000000)));
     ("a", (S_ULINT, (VZ 0)));
     ("b", (S_ULINT, (VZ 0)));
     ("c", (S_ULINT, (VZ 0)))]
    [("", Call "SPLIT_DATE" [Arg "#0"; Arg "a"; Arg "b"; Arg "c"])]
    (Some [("a", (VZ 2000)); ("b", (VZ 1)); ("c", (VZ 2))]);
  Test 454 (* split_tod_int *)
    [("#0", (S_TOD, (VZ 51123123000000)));
     ("a", (S_INT, (VZ 0)));
     ("b", (S_INT, (VZ 0)));
     ("c", (S_INT, (VZ 0)));
     ("d", (S_INT, (VZ 0)))]
    [("", Call "SPLIT_TOD" [Arg "#0"; Arg "a"; Arg "b"; Arg "c"; Arg "d"])]
    (Some [("a", (VZ 14)); ("b", (VZ 12)); ("c", (VZ 3)); ("d", (VZ 123))]);
  Test 475 (* split_tod_uint *)
    [("#0", (S_TOD, (VZ 51123123000000)));
     ("a", (S_UINT, (VZ 0)));
     ("b", (S_UINT, (VZ 0)));
     ("c", (S_UINT, (VZ 0)));
     ("d", (S_UINT, (VZ 0)))]
    [("", Call "SPLIT_TOD" [Arg "#0"; Arg "a"; Arg "b"; Arg "c"; Arg "d"])]
    (Some [("a", (VZ 14)); ("b", (VZ 12)); ("c", (VZ 3)); ("d", (VZ 123))]);
  Test 496 (* split_tod_dint *)
    [("#0", (S_TOD, (VZ 51123123000000)));
     ("a", (S_DINT, (VZ 0)));
     ("b", (S_DINT, (VZ 0)));
     ("c", (S_DINT, (VZ 0)));
     ("d", (S_DINT, (VZ 0)))]
    [("", Call "SPLIT_TOD" [Arg "#0"; Arg "a"; Arg "b"; Arg "c"; Arg "d"])]
    (Some [("a", (VZ 14)); ("b", (VZ 12)); ("c", (VZ 3)); ("d", (VZ 123))]);
  Test 517 (* split_tod_udint *)
    [("#0", (S_TOD, (VZ 51123123000000)));
     ("a", (S_UDINT, (VZ 0)));
     ("b", (S_UDINT, (VZ 0)));
     ("c", (S_UDINT, (VZ 0)));
     ("d", (S_UDINT, (VZ 0)))]
    [("", Call "SPLIT_TOD" [Arg "#0"; Arg "a"; Arg "b"; Arg "c"; Arg "d"])]
    (Some [("a", (VZ 14)); ("b", (VZ 12)); ("c", (VZ 3)); ("d", (VZ 123))]);
  Test 538 (* split_tod_lint *)
    [("#0", (S_TOD, (VZ 51123123000000)));
     ("a", (S_LINT, (VZ 0)));
     ("b", (S_LINT, (VZ 0)));
     ("c", (S_LINT, (VZ 0)));
     ("d", (S_LINT, (VZ 0)))]
    [("", Call "SPLIT_TOD" [Arg "#0"; Arg "a"; Arg "b"; Arg "c"; Arg "d"])]
    (Some [("a", (VZ 14)); ("b", (VZ 12)); ("c", (VZ 3)); ("d", (VZ 123))]);
  Test 559 (* split_tod_ulint *)
    [("#0", (S_TOD, (VZ 51123123000000)));
     ("a", (S_ULINT, (VZ 0)));
     ("b", (S_ULINT, (VZ 0)));
     ("c", (S_ULINT, (VZ 0)));
     ("d", (S_ULINT, (VZ 0)))]
    [("", Call "SPLIT_TOD" [Arg "#0"; Arg "a"; Arg "b"; Arg "c"; Arg "d"])]
    (Some [("a", (VZ 14)); ("b", (VZ 12)); ("c", (VZ 3)); ("d", (VZ 123))]);
  Test 580 (* split_ltod_int *)
    [("#0", (S_TOD, (VZ 51123123000000)));
     ("a", (S_INT, (VZ 0)));
     ("b", (S_INT, (VZ 0)));
     ("c", (S_INT, (VZ 0)));
     ("d", (S_INT, (VZ 0)))]
    [("", Call "SPLIT_TOD" [Arg "#0"; Arg "a"; Arg "b"; Arg "c"; Arg "d"])]
    (Some [("a", (VZ 14)); ("b", (VZ 12)); ("c", (VZ 3)); ("d", (VZ 123))]);
  Test 601 (* split_ltod_uint *)
    [("#0", (S_TOD, (VZ 51123123000000)));
     ("a", (S_UINT, (VZ 0)));
     ("b", (S_UINT, (VZ 0)));
     ("c", (S_UINT, (VZ 0)));
     ("d", (S_UINT, (VZ 0)))]
    [("", Call "SPLIT_TOD" [Arg "#0"; Arg "a"; Arg "b"; Arg "c"; Arg "d"])]
    (Some [("a", (VZ 14)); ("b", (VZ 12)); ("c", (VZ 3)); ("d", (VZ 123))]);
  Test 622 (* split_ltod_dint *)
    [("#0", (S_TOD, (VZ 51123123000000)));
     ("a", (S_DINT, (VZ 0)));
     ("b", (S_DINT, (VZ 0)));
     ("c", (S_DINT, (VZ 0)));
     ("d", (S_DINT, (VZ 0)))]
    [("", Call "SPLIT_TOD" [Arg "#0"; Arg "a"; Arg "b"; Arg "c"; Arg "d"])]
    (Some [("a", (VZ 14)); ("b", (VZ 12)); ("c", (VZ 3)); ("d", (VZ 123))]);
  Test 643 (* split_ltod_udint *)
    [("#0", (S_TOD, (VZ 51123123000000)));
     ("a", (S_UDINT, (VZ 0)));
     ("b", (S_UDINT, (VZ 0)));
     ("c", (S_UDINT, (VZ 0)));
     ("d", (S_UDINT, (VZ 0)))]
    [("", Call "SPLIT_TOD" [Arg "#0"; Arg "a"; Arg "b"; Arg "c"; Arg "d"])]
    (Some [("a", (VZ 14)); ("b", (VZ 12)); ("c", (VZ 3)); ("d", (VZ 123))]);
  Test 664 (* split_ltod_lint *)
    [("#0", (S_TOD, (VZ 51123123000000)));
     ("a", (S_LINT, (VZ 0)));
     ("b", (S_LINT, (VZ 0)));
     ("c", (S_LINT, (VZ 0)));
     ("d", (S_LINT, (VZ 0)))]
    [("", Call "SPLIT_TOD" [Arg "#0"; Arg "a"; Arg "b"; Arg "c"; Arg "d"])]
    (Some [("a", (VZ 14)); ("b", (VZ 12)); ("c", (VZ 3)); ("d", (VZ 123))]);
  Test 685 (* split_ltod_ulint *)
    [("#0", (S_TOD, (VZ 51123123000000)));
     ("a", (S_ULINT, (VZ 0)));
     ("b", (S_ULINT, (VZ 0)));
     ("c", (S_ULINT, (VZ 0)));
     ("d", (S_ULINT, (VZ 0)))]
    [("", Call "SPLIT_TOD" [Arg "#0"; Arg "a"; Arg "b"; Arg "c"; Arg "d"])]
    (Some [("a", (VZ 14)); ("b", (VZ 12)); ("c", (VZ 3)); ("d", (VZ 123))]);
  Test 706 (* split_dt_int *)
    [("#0", (S_DT, (VZ 946822323123000000)));
     ("a", (S_INT, (VZ 0)));
     ("b", (S_INT, (VZ 0)));
     ("c", (S_INT, (VZ 0)));
     ("d", (S_INT, (VZ 0)));
     ("e", (S_INT, (VZ 0)));
     ("f", (S_INT, (VZ 0)));
     ("g", (S_INT, (VZ 0)))]
    [("", Call "SPLIT_DT" [Arg "#0"; Arg "a"; Arg "b"; Arg "c"; Arg "d"; Arg "e"; Arg "f"; Arg "g"])]
    (Some [("a", (VZ 2000)); ("b", (VZ 1)); ("c", (VZ 2)); ("d", (VZ 14)); ("e", (VZ 12)); ("f", (VZ 3)); ("g", (VZ 123))]);
  Test 733 (* split_dt_uint *)
    [("#0", (S_DT, (VZ 946822323123000000)));
     ("a", (S_UINT, (VZ 0)));
     ("b", (S_UINT, (VZ 0)));
     ("c", (S_UINT, (VZ 0)));
     ("d", (S_UINT, (VZ 0)));
     ("e", (S_UINT, (VZ 0)));
     ("f", (S_UINT, (VZ 0)));
     ("g", (S_UINT, (VZ 0)))]
    [("", Call "SPLIT_DT" [Arg "#0"; Arg "a"; Arg "b"; Arg "c"; Arg "d"; Arg "e"; Arg "f"; Arg "g"])]
    (Some [("a", (VZ 2000)); ("b", (VZ 1)); ("c", (VZ 2)); ("d", (VZ 14)); ("e", (VZ 12)); ("f", (VZ 3)); ("g", (VZ 123))]);
  Test 760 (* split_dt_dint *)
    [("#0", (S_DT, (VZ 946822323123000000)));
     ("a", (S_DINT, (VZ 0)));
     ("b", (S_DINT, (VZ 0)));
     ("c", (S_DINT, (VZ 0)));
     ("d", (S_DINT, (VZ 0)));
     ("e", (S_DINT, (VZ 0)));
     ("f", (S_DINT, (VZ 0)));
     ("g", (S_DINT, (VZ 0)))]
    [("", Call "SPLIT_DT" [Arg "#0"; Arg "a"; Arg "b"; Arg "c"; Arg "d"; Arg "e"; Arg "f"; Arg "g"])]
    (Some [("a", (VZ 2000)); ("b", (VZ 1)); ("c", (VZ 2)); ("d", (VZ 14)); ("e", (VZ 12)); ("f", (VZ 3)); ("g", (VZ 123))]);
  Test 787 (* split_dt_udint *)
    [("#0", (S_DT, (VZ 946822323123000000)));
     ("a", (S_UDINT, (VZ 0)));
     ("b", (S_UDINT, (VZ 0)));
     ("c", (S_UDINT, (VZ 0)));
     ("d", (S_UDINT, (VZ 0)));
     ("e", (S_UDINT, (VZ 0)));
     ("f", (S_UDINT, (VZ 0)));
     ("g", (S_UDINT, (VZ 0)))]
    [("", Call "SPLIT_DT" [Arg "#0"; Arg "a"; Arg "b"; Arg "c"; Arg "d"; Arg "e"; Arg "f"; Arg "g"])]
    (Some [("a", (VZ 2000)); ("b", (VZ 1)); ("c", (VZ 2)); ("d", (VZ 14)); ("e", (VZ 12)); ("f", (VZ 3)); ("g", (VZ 123))]);
  Test 814 (* split_dt_lint *)
    [("#0", (S_DT, (VZ 946822323123000000)));
     ("a", (S_LINT, (VZ 0)));
     ("b", (S_LINT, (VZ 0)));
     ("c", (S_LINT, (VZ 0)));
     ("d", (S_LINT, (VZ 0)));
     ("e", (S_LINT, (VZ 0)));
     ("f", (S_LINT, (VZ 0)));
     ("g", (S_LINT, (VZ 0)))]
    [("", Call "SPLIT_DT" [Arg "#0"; Arg "a"; Arg "b"; Arg "c"; Arg "d"; Arg "e"; Arg "f"; Arg "g"])]
    (Some [("a", (VZ 2000)); ("b", (VZ 1)); ("c", (VZ 2)); ("d", (VZ 14)); ("e", (VZ 12)); ("f", (VZ 3)); ("g", (VZ 123))]);
  Test 841 (* split_dt_ulint *)
    [("#0", (S_DT, (VZ 946822323123000000)));
     ("a", (S_ULINT, (VZ 0)));
     ("b", (S_ULINT, (VZ 0)));
     ("c", (S_ULINT, (VZ 0)));
     ("d", (S_ULINT, (VZ 0)));
     ("e", (S_ULINT, (VZ 0)));
     ("f", (S_ULINT, (VZ 0)));
     ("g", (S_ULINT, (VZ 0)))]
    [("", Call "SPLIT_DT" [Arg "#0"; Arg "a"; Arg "b"; Arg "c"; Arg "d"; Arg "e"; Arg "f"; Arg "g"])]
    (Some [("a", (VZ 2000)); ("b", (VZ 1)); ("c", (VZ 2)); ("d", (VZ 14)); ("e", (VZ 12)); ("f", (VZ 3)); ("g", (VZ 123))]);
  Test 868 (* split_ldt_int *)
    [("#0", (S_DT, (VZ 946822323123000000)));
     ("a", (S_INT, (VZ 0)));
     ("b", (S_INT, (VZ 0)));
     ("c", (S_INT, (VZ 0)));
     ("d", (S_INT, (VZ 0)));
     ("e", (S_INT, (VZ 0)));
     ("f", (S_INT, (VZ 0)));
     ("g", (S_INT, (VZ 0)))]
    [("", Call "SPLIT_DT" [Arg "#0"; Arg "a"; Arg "b"; Arg "c"; Arg "d"; Arg "e"; Arg "f"; Arg "g"])]
    (Some [("a", (VZ 2000)); ("b", (VZ 1)); ("c", (VZ 2)); ("d", (VZ 14)); ("e", (VZ 12)); ("f", (VZ 3)); ("g", (VZ 123))]);
  Test 895 (* split_ldt_uint *)
    [("#0", (S_DT, (VZ 946822323123000000)));
     ("a", (S_UINT, (VZ 0)));
     ("b", (S_UINT, (VZ 0)));
     ("c", (S_UINT, (VZ 0)));
     ("d", (S_UINT, (VZ 0)));
     ("e", (S_UINT, (VZ 0)));
     ("f", (S_UINT, (VZ 0)));
     ("g", (S_UINT, (VZ 0)))]
    [("", Call "SPLIT_DT" [Arg "#0"; Arg "a"; Arg "b"; Arg "c"; Arg "d"; Arg "e"; Arg "f"; Arg "g"])]
    (Some [("a", (VZ 2000)); ("b", (VZ 1)); ("c", (VZ 2)); ("d", (VZ 14)); ("e", (VZ 12)); ("f", (VZ 3)); ("g", (VZ 123))]);
  Test 922 (* split_ldt_dint *)
    [("#0", (S_DT, (VZ 946822323123000000)));
     ("a", (S_DINT, (VZ 0)));
     ("b", (S_DINT, (VZ 0)));
     ("c", (S_DINT, (VZ 0)));
     ("d", (S_DINT, (VZ 0)));
     ("e", (S_DINT, (VZ 0)));
     ("f", (S_DINT, (VZ 0)));
     ("g", (S_DINT, (VZ 0)))]
    [("", Call "SPLIT_DT" [Arg "#0"; Arg "a"; Arg "b"; Arg "c"; Arg "d"; Arg "e"; Arg "f"; Arg "g"])]
    (Some [("a", (VZ 2000)); ("b", (VZ 1)); ("c", (VZ 2)); ("d", (VZ 14)); ("e", (VZ 12)); ("f", (VZ 3)); ("g", (VZ 123))]);
  Test 949 (* split_ldt_udint *)
    [("#0", (S_DT, (VZ 946822323123000000)));
     ("a", (S_UDINT, (VZ 0)));
     ("b", (S_UDINT, (VZ 0)));
     ("c", (S_UDINT, (VZ 0)));
     ("d", (S_UDINT, (VZ 0)));
     ("e", (S_UDINT, (VZ 0)));
     ("f", (S_UDINT, (VZ 0)));
     ("g", (S_UDINT, (VZ 0)))]
    [("", Call "SPLIT_DT" [Arg "#0"; Arg "a"; Arg "b"; Arg "c"; Arg "d"; Arg "e"; Arg "f"; Arg "g"])]
    (Some [("a", (VZ 2000)); ("b", (VZ 1)); ("c", (VZ 2)); ("d", (VZ 14)); ("e", (VZ 12)); ("f", (VZ 3)); ("g", (VZ 123))]);
  Test 976 (* split_ldt_lint *)
    [("#0", (S_DT, (VZ 946822323123000000)));
     ("a", (S_LINT, (VZ 0)));
     ("b", (S_LINT, (VZ 0)));
     ("c", (S_LINT, (VZ 0)));
     ("d", (S_LINT, (VZ 0)));
     ("e", (S_LINT, (VZ 0)));
     ("f", (S_LINT, (VZ 0)));
     ("g", (S_LINT, (VZ 0)))]
    [("", Call "SPLIT_DT" [Arg "#0"; Arg "a"; Arg "b"; Arg "c"; Arg "d"; Arg "e"; Arg "f"; Arg "g"])]
    (Some [("a", (VZ 2000)); ("b", (VZ 1)); ("c", (VZ 2)); ("d", (VZ 14)); ("e", (VZ 12)); ("f", (VZ 3)); ("g", (VZ 123))]);
  Test 1003 (* split_ldt_ulint *)
    [("#0", (S_DT, (VZ 946822323123000000)));
     ("a", (S_ULINT, (VZ 0)));
     ("b", (S_ULINT, (VZ 0)));
     ("c", (S_ULINT, (VZ 0)));
     ("d", (S_ULINT, (VZ 0)));
     ("e", (S_ULINT, (VZ 0)));
     ("f", (S_ULINT, (VZ 0)));
     ("g", (S_ULINT, (VZ 0)))]
    [("", Call "SPLIT_DT" [Arg "#0"; Arg "a"; Arg "b"; Arg "c"; Arg "d"; Arg "e"; Arg "f"; Arg "g"])]
    (Some [("a", (VZ 2000)); ("b", (VZ 1)); ("c", (VZ 2)); ("d", (VZ 14)); ("e", (VZ 12)); ("f", (VZ 3)); ("g", (VZ 123))]);
  Test 1030 (* day_of_week *)
    [("#0", (S_DATE, (VZ 1655164800000000000)));
     ("#1", (S_DATE, (VZ 1654992000000000000)));
     ("#2", (S_DATE, (VZ 1655510400000000000)));
     ("a", (S_SINT, (VZ 0)));
     ("b", (S_SINT, (VZ 0)));
     ("c", (S_SINT, (VZ 0)))]
    [("a", Call "DAY_OF_WEEK" [Arg "#0"]);
     ("b", Call "DAY_OF_WEEK" [Arg "#1"]);
     ("c", Call "DAY_OF_WEEK" [Arg "#2"])]
    (Some [("a", (VZ 2)); ("b", (VZ 0)); ("c", (VZ 6))])].
Example date_time_extra_functions_tests_pass : forallb passes date_time_extra_functions_tests = true.
Proof. vm_compute. reflexivity. Qed.

(** /repo/tests/date_time_numeric_functions_tests.rs, at the lines given. *)
Definition date_time_numeric_functions_tests : list test := [
  Test 34 (* add_time *)
    [("#0", (S_TIME, (VZ 18000000000000)));
     ("#1", (S_TIME, (VZ 30000000000)));
     ("#2", (S_TIME, (VZ 10000000000)));
     ("#3", (S_TIME, (VZ (-5000000000))));
     ("#4", (S_LTIME, (VZ (-10000000000))));
     ("#5", (S_LTIME, (VZ (-10000000000))));
     ("#6", (S_LTIME, (VZ 10000000000)));
     ("#7", (S_LTIME, (VZ 10000000000)));
     ("a", (S_TIME, (VZ 0)));
     ("b", (S_TIME, (VZ 0)));
     ("c", (S_LTIME, (VZ 0)));
     ("d", (S_LTIME, (VZ 0)))]
    [("a", Call "ADD" [Arg "#0"; Arg "#1"]);
     ("b", Call "ADD_TIME" [Arg "#2"; Arg "#3"]);
     ("c", Call "ADD" [Arg "#4"; Arg "#5"]);
     ("d", Call "ADD_LTIME" [Arg "#6"; Arg "#7"])]
    (Some [("a", (VZ 18030000000000)); ("b", (VZ 5000000000)); ("c", (VZ (-20000000000))); ("d", (VZ 20000000000))]);
  Test 60 (* add_tod_time *)
    [("#0", (S_TOD, (VZ 72000000000000)));
     ("#1", (S_TIME, (VZ 1000000000)));
     ("#2", (S_TOD, (VZ 72002000000000)));
     ("#3", (S_TIME, (VZ (-1000000000))));
     ("#4", (S_LTOD, (VZ 43200000000000)));
     ("#5", (S_LTIME, (VZ 732000000000)));
     ("#6", (S_LTOD, (VZ 43200000000000)));
     ("#7", (S_LTIME, (VZ 732000000000)));
     ("a", (S_TOD, (VZ 0)));
     ("b", (S_TOD, (VZ 0)));
     ("c", (S_LTOD, (VZ 0)));
     ("d", (S_LTOD, (VZ 0)))]
    [("a", Call "ADD_TOD_TIME" [Arg "#0"; Arg "#1"]);
     ("b", Call "ADD" [Arg "#2"; Arg "#3"]);
     ("c", Call "ADD_LTOD_LTIME" [Arg "#4"; Arg "#5"]);
     ("d", Call "ADD" [Arg "#6"; Arg "#7"])]
    (Some [("a", (VZ 72001000000000)); ("b", (VZ 72001000000000)); ("c", (VZ 43932000000000)); ("d", (VZ 43932000000000))]);
  Test 86 (* add_dt_time *)
    [("#0", (S_DT, (VZ 946728000000000000)));
     ("#1", (S_TIME, (VZ 87132123000000)));
     ("#2", (S_DT, (VZ 946728000000000000)));
     ("#3", (S_TIME, (VZ 87132123000000)));
     ("#4", (S_LDT, (VZ 946728000000000000)));
     ("#5", (S_LTIME, (VZ 87132123000000)));
     ("#6", (S_LDT, (VZ 946728000000000000)));
     ("#7", (S_LTIME, (VZ 87132123000000)));
     ("a", (S_DT, (VZ 0)));
     ("b", (S_DT, (VZ 0)));
     ("c", (S_LDT, (VZ 0)));
     ("d", (S_LDT, (VZ 0)))]
    [("a", Call "ADD_DT_TIME" [Arg "#0"; Arg "#1"]);
     ("b", Call "ADD" [Arg "#2"; Arg "#3"]);
     ("c", Call "ADD_LDT_LTIME" [Arg "#4"; Arg "#5"]);
     ("d", Call "ADD" [Arg "#6"; Arg "#7"])]
    (Some [("a", (VZ 946815132123000000)); ("b", (VZ 946815132123000000)); ("c", (VZ 946815132123000000)); ("d", (VZ 946815132123000000))]);
  Test 130 (* sub_time *)
    [("#0", (S_TIME, (VZ 39000000000000)));
     ("#1", (S_TIME, (VZ (-600000000000))));
     ("#2", (S_TIME, (VZ 20120000000000)));
     ("#3", (S_TIME, (VZ 3920000000000)));
     ("#4", (S_LTIME, (VZ 39000000000000)));
     ("#5", (S_LTIME, (VZ 22800000000000)));
     ("#6", (S_LTIME, (VZ 20120000000000)));
     ("#7", (S_LTIME, (VZ 3920000000000)));
     ("a", (S_TIME, (VZ 0)));
     ("b", (S_TIME, (VZ 0)));
     ("c", (S_LTIME, (VZ 0)));
     ("d", (S_LTIME, (VZ 0)))]
    [("a", Call "SUB" [Arg "#0"; Arg "#1"]);
     ("b", Call "SUB_TIME" [Arg "#2"; Arg "#3"]);
     ("c", Call "SUB" [Arg "#4"; Arg "#5"]);
     ("d", Call "SUB_LTIME" [Arg "#6"; Arg "#7"])]
    (Some [("a", (VZ 39600000000000)); ("b", (VZ 16200000000000)); ("c", (VZ 16200000000000)); ("d", (VZ 16200000000000))]);
  Test 156 (* sub_date *)
    [("#0", (S_DATE, (VZ 978220800000000000)));
     ("#1", (S_DATE, (VZ 946684800000000000)));
     ("#2", (S_DATE, (VZ 958867200000000000)));
     ("#3", (S_DATE, (VZ 957139200000000000)));
     ("#4", (S_LDATE, (VZ 978220800000000000)));
     ("#5", (S_LDATE, (VZ 946684800000000000)));
     ("#6", (S_LDATE, (VZ 958867200000000000)));
     ("#7", (S_LDATE, (VZ 957139200000000000)));
     ("a", (S_TIME, (VZ 0)));
     ("b", (S_TIME, (VZ 0)));
     ("c", (S_LTIME, (VZ 0)));
     ("d", (S_LTIME, (VZ 0)))]
    [("a", Call "SUB" [Arg "#0"; Arg "#1"]);
     ("b", Call "SUB_DATE_DATE" [Arg "#2"; Arg "#3"]);
     ("c", Call "SUB" [Arg "#4"; Arg "#5"]);
     ("d", Call "SUB_LDATE_LDATE" [Arg "#6"; Arg "#7"])]
    (Some [("a", (VZ 31536000000000000)); ("b", (VZ 1728000000000000)); ("c", (VZ 31536000000000000)); ("d", (VZ 1728000000000000))]);
  Test 183 (* sub_tod_time *)
    [("#0", (S_TOD, (VZ 83405123000000)));
     ("#1", (S_TIME, (VZ 11405123000000)));
     ("#2", (S_TOD, (VZ 83405123000000)));
     ("#3", (S_TIME, (VZ 11405123000000)));
     ("#4", (S_LTOD, (VZ 83405123000000)));
     ("#5", (S_LTIME, (VZ 11405123000000)));
     ("#6", (S_LTOD, (VZ 83405123000000)));
     ("#7", (S_LTIME, (VZ 11405123000000)));
     ("a", (S_TOD, (VZ 0)));
     ("b", (S_TOD, (VZ 0)));
     ("c", (S_LTOD, (VZ 0)));
     ("d", (S_LTOD, (VZ 0)))]
    [("a", Call "SUB_TOD_TIME" [Arg "#0"; Arg "#1"]);
     ("b", Call "SUB" [Arg "#2"; Arg "#3"]);
     ("c", Call "SUB_LTOD_LTIME" [Arg "#4"; Arg "#5"]);
     ("d", Call "SUB" [Arg "#6"; Arg "#7"])]
    (Some [("a", (VZ 72000000000000)); ("b", (VZ 72000000000000)); ("c", (VZ 72000000000000)); ("d", (VZ 72000000000000))]);
  Test 208 (* sub_tod *)
    [("#0", (S_TOD, (VZ 83405123000000)));
     ("#1", (S_TOD, (VZ 11405123000000)));
     ("#2", (S_TOD, (VZ 83405123000000)));
     ("#3", (S_TOD, (VZ 11405123000000)));
     ("#4", (S_LTOD, (VZ 83405123000000)));
     ("#5", (S_LTOD, (VZ 11405123000000)));
     ("#6", (S_LTOD, (VZ 83405123000000)));
     ("#7", (S_LTOD, (VZ 11405123000000)));
     ("a", (S_TIME, (VZ 0)));
     ("b", (S_TIME, (VZ 0)));
     ("c", (S_LTIME, (VZ 0)));
     ("d", (S_LTIME, (VZ 0)))]
    [("a", Call "SUB" [Arg "#0"; Arg "#1"]);
     ("b", Call "SUB_TOD_TOD" [Arg "#2"; Arg "#3"]);
     ("c", Call "SUB" [Arg "#4"; Arg "#5"]);
     ("d", Call "SUB_LTOD_LTOD" [Arg "#6"; Arg "#7"])]
    (Some [("a", (VZ 72000000000000)); ("a", (VZ 72000000000000)); ("a", (VZ 72000000000000)); ("b", (VZ 72000000000000))]);
  Test 233 (* sub_dt_time *)
    [("#0", (S_DT, (VZ 946847712345000000)));
     ("#1", (S_TIME, (VZ 90912345000000)));
     ("#2", (S_DT, (VZ 946847712345000000)));
     ("#3", (S_TIME, (VZ 90912345000000)));
     ("#4", (S_LDT, (VZ 946847712345000000)));
     ("#5", (S_LTIME, (VZ 90912345000000)));
     ("#6", (S_LDT, (VZ 946847712345000000)));
     ("#7", (S_LTIME, (VZ 90912345000000)));
     ("a", (S_DT, (VZ 0)));
     ("b", (S_DT, (VZ 0)));
     ("c", (S_LDT, (VZ 0)));
     ("d", (S_LDT, (VZ 0)))]
    [("a", Call "SUB" [Arg "#0"; Arg "#1"]);
     ("b", Call "SUB_DT_TIME" [Arg "#2"; Arg "#3"]);
     ("c", Call "SUB" [Arg "#4"; Arg "#5"]);
     ("d", Call "SUB_LDT_LTIME" [Arg "#6"; Arg "#7"])]
    (Some [("a", (VZ 946756800000000000)); ("b", (VZ 946756800000000000)); ("c", (VZ 946756800000000000)); ("d", (VZ 946756800000000000))]);
  Test 305 (* mul_signed *)
    [("#0", (S_TIME, (VZ 86400000000000)));
     ("#1", (S_SINT, (VZ (-120))));
     ("#2", (S_TIME, (VZ 1000000000)));
     ("#3", (S_INT, (VZ 3600)));
     ("#4", (S_LTIME, (VZ 1000000000)));
     ("#5", (S_DINT, (VZ 86400)));
     ("#6", (S_LTIME, (VZ 1000000000)));
     ("#7", (S_LINT, (VZ 864000000)));
     ("a", (S_TIME, (VZ 0)));
     ("b", (S_TIME, (VZ 0)));
     ("c", (S_LTIME, (VZ 0)));
     ("d", (S_LTIME, (VZ 0)))]
    [("a", Call "MUL" [Arg "#0"; Arg "#1"]);
     ("b", Call "MUL" [Arg "#2"; Arg "#3"]);
     ("c", Call "MUL" [Arg "#4"; Arg "#5"]);
     ("d", Call "MUL" [Arg "#6"; Arg "#7"])]
    (Some [("a", (VZ (-10368000000000000))); ("b", (VZ 3600000000000)); ("c", (VZ 86400000000000)); ("d", (VZ 864000000000000000))]);
  Test 341 (* mul_signed_overflow *)
    [("#0", (S_TIME, (VZ 10)));
     ("#1", (S_LINT, (VZ 9223372036854775807)));
     ("a", (S_TIME, (VZ 0)))]
    [("a", Call "MUL" [Arg "#0"; Arg "#1"])]
    None;
  Test 357 (* mul_unsigned *)
    [("#0", (S_TIME, (VZ (-86400000000000))));
     ("#1", (S_USINT, (VZ 120)));
     ("#2", (S_TIME, (VZ 1000000000)));
     ("#3", (S_UINT, (VZ 3600)));
     ("#4", (S_LTIME, (VZ 1000000000)));
     ("#5", (S_UDINT, (VZ 86400)));
     ("#6", (S_LTIME, (VZ 1000000000)));
     ("#7", (S_ULINT, (VZ 864000000)));
     ("a", (S_TIME, (VZ 0)));
     ("b", (S_TIME, (VZ 0)));
     ("c", (S_LTIME, (VZ 0)));
     ("d", (S_LTIME, (VZ 0)))]
    [("a", Call "MUL" [Arg "#0"; Arg "#1"]);
     ("b", Call "MUL" [Arg "#2"; Arg "#3"]);
     ("c", Call "MUL" [Arg "#4"; Arg "#5"]);
     ("d", Call "MUL" [Arg "#6"; Arg "#7"])]
    (Some [("a", (VZ (-10368000000000000))); ("b", (VZ 3600000000000)); ("c", (VZ 86400000000000)); ("d", (VZ 864000000000000000))]);
  Test 393 (* mul_unsigned_overflow *)
    [("#0", (S_TIME, (VZ 1)));
     ("#1", (S_ULINT, (VZ 9223372036854775808)));
     ("a", (S_TIME, (VZ 0)))]
    [("a", Call "MUL" [Arg "#0"; Arg "#1"])]
    None;
  Test 409 (* mul_time_signed *)
    [("#0", (S_TIME, (VZ 86400000000000)));
     ("#1", (S_SINT, (VZ (-120))));
     ("#2", (S_TIME, (VZ 1000000000)));
     ("#3", (S_INT, (VZ 3600)));
     ("#4", (S_TIME, (VZ 1000000000)));
     ("#5", (S_DINT, (VZ 86400)));
     ("#6", (S_TIME, (VZ 1000000000)));
     ("#7", (S_LINT, (VZ 864000000)));
     ("a", (S_TIME, (VZ 0)));
     ("b", (S_TIME, (VZ 0)));
     ("c", (S_TIME, (VZ 0)));
     ("d", (S_TIME, (VZ 0)))]
    [("a", Call "MUL_TIME" [Arg "#0"; Arg "#1"]);
     ("b", Call "MUL_TIME" [Arg "#2"; Arg "#3"]);
     ("c", Call "MUL_TIME" [Arg "#4"; Arg "#5"]);
     ("d", Call "MUL_TIME" [Arg "#6"; Arg "#7"])]
    (Some [("a", (VZ (-10368000000000000))); ("b", (VZ 3600000000000)); ("c", (VZ 86400000000000)); ("d", (VZ 864000000000000000))]);
  Test 445 (* mul_time_unsigned *)
    [("#0", (S_TIME, (VZ (-86400000000000))));
     ("#1", (S_USINT, (VZ 120)));
     ("#2", (S_TIME, (VZ 1000000000)));
     ("#3", (S_UINT, (VZ 3600)));
     ("#4", (S_TIME, (VZ 1000000000)));
     ("#5", (S_UDINT, (VZ 86400)));
     ("#6", (S_TIME, (VZ 1000000000)));
     ("#7", (S_ULINT, (VZ 864000000)));
     ("a", (S_TIME, (VZ 0)));
     ("b", (S_TIME, (VZ 0)));
     ("c", (S_TIME, (VZ 0)));
     ("d", (S_TIME, (VZ 0)))]
    [("a", Call "MUL_TIME" [Arg "#0"; Arg "#1"]);
     ("b", Call "MUL_TIME" [Arg "#2"; Arg "#3"]);
     ("c", Call "MUL_TIME" [Arg "#4"; Arg "#5"]);
     ("d", Call "MUL_TIME" [Arg "#6"; Arg "#7"])]
    (Some [("a", (VZ (-10368000000000000))); ("b", (VZ 3600000000000)); ("c", (VZ 86400000000000)); ("d", (VZ 864000000000000000))]);
  Test 481 (* mul_ltime_signed *)
    [("#0", (S_LTIME, (VZ 86400000000000)));
     ("#1", (S_SINT, (VZ (-120))));
     ("#2", (S_LTIME, (VZ 1000000000)));
     ("#3", (S_INT, (VZ 3600)));
     ("#4", (S_LTIME, (VZ 1000000000)));
     ("#5", (S_DINT, (VZ 86400)));
     ("#6", (S_LTIME, (VZ 1000000000)));
     ("#7", (S_LINT, (VZ 864000000)));
     ("a", (S_LTIME, (VZ 0)));
     ("b", (S_LTIME, (VZ 0)));
     ("c", (S_LTIME, (VZ 0)));
     ("d", (S_LTIME, (VZ 0)))]
    [("a", Call "MUL_LTIME" [Arg "#0"; Arg "#1"]);
     ("b", Call "MUL_LTIME" [Arg "#2"; Arg "#3"]);
     ("c", Call "MUL_LTIME" [Arg "#4"; Arg "#5"]);
     ("d", Call "MUL_LTIME" [Arg "#6"; Arg "#7"])]
    (Some [("a", (VZ (-10368000000000000))); ("b", (VZ 3600000000000)); ("c", (VZ 86400000000000)); ("d", (VZ 864000000000000000))]);
  Test 517 (* mul_ltime_unsigned *)
    [("#0", (S_LTIME, (VZ (-86400000000000))));
     ("#1", (S_USINT, (VZ 120)));
     ("#2", (S_LTIME, (VZ 1000000000)));
     ("#3", (S_UINT, (VZ 3600)));
     ("#4", (S_LTIME, (VZ 1000000000)));
     ("#5", (S_UDINT, (VZ 86400)));
     ("#6", (S_LTIME, (VZ 1000000000)));
     ("#7", (S_ULINT, (VZ 864000000)));
     ("a", (S_LTIME, (VZ 0)));
     ("b", (S_LTIME, (VZ 0)));
     ("c", (S_LTIME, (VZ 0)));
     ("d", (S_LTIME, (VZ 0)))]
    [("a", Call "MUL_LTIME" [Arg "#0"; Arg "#1"]);
     ("b", Call "MUL_LTIME" [Arg "#2"; Arg "#3"]);
     ("c", Call "MUL_LTIME" [Arg "#4"; Arg "#5"]);
     ("d", Call "MUL_LTIME" [Arg "#6"; Arg "#7"])]
    (Some [("a", (VZ (-10368000000000000))); ("b", (VZ 3600000000000)); ("c", (VZ 86400000000000)); ("d", (VZ 864000000000000000))]);
  Test 553 (* div_signed *)
    [("#0", (S_TIME, (VZ 60000000000)));
     ("#1", (S_SINT, (VZ 60)));
     ("#2", (S_TIME, (VZ 3600000000000)));
     ("#3", (S_INT, (VZ (-3600))));
     ("#4", (S_LTIME, (VZ 86400000000000)));
     ("#5", (S_DINT, (VZ 86400)));
     ("#6", (S_LTIME, (VZ 864000000000000000)));
     ("#7", (S_DINT, (VZ 864000000)));
     ("a", (S_TIME, (VZ 0)));
     ("b", (S_TIME, (VZ 0)));
     ("c", (S_LTIME, (VZ 0)));
     ("d", (S_LTIME, (VZ 0)))]
    [("a", Call "DIV" [Arg "#0"; Arg "#1"]);
     ("b", Call "DIV" [Arg "#2"; Arg "#3"]);
     ("c", Call "DIV" [Arg "#4"; Arg "#5"]);
     ("d", Call "DIV" [Arg "#6"; Arg "#7"])]
    (Some [("a", (VZ 1000000000)); ("b", (VZ (-1000000000))); ("c", (VZ 1000000000)); ("d", (VZ 1000000000))]);
  Test 578 (* div_unsigned *)
    [("#0", (S_TIME, (VZ 60000000000)));
     ("#1", (S_USINT, (VZ 60)));
     ("#2", (S_TIME, (VZ (-3600000000000))));
     ("#3", (S_UINT, (VZ 3600)));
     ("#4", (S_LTIME, (VZ 86400000000000)));
     ("#5", (S_UDINT, (VZ 86400)));
     ("#6", (S_LTIME, (VZ 864000000000000000)));
     ("#7", (S_UDINT, (VZ 864000000)));
     ("a", (S_TIME, (VZ 0)));
     ("b", (S_TIME, (VZ 0)));
     ("c", (S_LTIME, (VZ 0)));
     ("d", (S_LTIME, (VZ 0)))]
    [("a", Call "DIV" [Arg "#0"; Arg "#1"]);
     ("b", Call "DIV" [Arg "#2"; Arg "#3"]);
     ("c", Call "DIV" [Arg "#4"; Arg "#5"]);
     ("d", Call "DIV" [Arg "#6"; Arg "#7"])]
    (Some [("a", (VZ 1000000000)); ("b", (VZ (-1000000000))); ("c", (VZ 1000000000)); ("d", (VZ 1000000000))]);
  Test 603 (* div_by_zero *)
    [("#0", (S_TIME, (VZ 60000000000)));
     ("#1", (S_USINT, (VZ 0)));
     ("a", (S_TIME, (VZ 0)))]
    [("a", Call "DIV" [Arg "#0"; Arg "#1"])]
    None;
  Test 618 (* div_time_signed *)
    [("#0", (S_TIME, (VZ 60000000000)));
     ("#1", (S_SINT, (VZ 60)));
     ("#2", (S_TIME, (VZ 3600000000000)));
     ("#3", (S_INT, (VZ (-3600))));
     ("#4", (S_TIME, (VZ 86400000000000)));
     ("#5", (S_DINT, (VZ 86400)));
     ("#6", (S_TIME, (VZ 864000000000000000)));
     ("#7", (S_DINT, (VZ 864000000)));
     ("a", (S_TIME, (VZ 0)));
     ("b", (S_TIME, (VZ 0)));
     ("c", (S_TIME, (VZ 0)));
     ("d", (S_TIME, (VZ 0)))]
    [("a", Call "DIV_TIME" [Arg "#0"; Arg "#1"]);
     ("b", Call "DIV_TIME" [Arg "#2"; Arg "#3"]);
     ("c", Call "DIV_TIME" [Arg "#4"; Arg "#5"]);
     ("d", Call "DIV_TIME" [Arg "#6"; Arg "#7"])]
    (Some [("a", (VZ 1000000000)); ("b", (VZ (-1000000000))); ("c", (VZ 1000000000)); ("d", (VZ 1000000000))]);
  Test 643 (* div_time_unsigned *)
    [("#0", (S_TIME, (VZ 60000000000)));
     ("#1", (S_USINT, (VZ 60)));
     ("#2", (S_TIME, (VZ (-3600000000000))));
     ("#3", (S_UINT, (VZ 3600)));
     ("#4", (S_TIME, (VZ 86400000000000)));
     ("#5", (S_UDINT, (VZ 86400)));
     ("#6", (S_TIME, (VZ 864000000000000000)));
     ("#7", (S_UDINT, (VZ 864000000)));
     ("a", (S_TIME, (VZ 0)));
     ("b", (S_TIME, (VZ 0)));
     ("c", (S_TIME, (VZ 0)));
     ("d", (S_TIME, (VZ 0)))]
    [("a", Call "DIV_TIME" [Arg "#0"; Arg "#1"]);
     ("b", Call "DIV_TIME" [Arg "#2"; Arg "#3"]);
     ("c", Call "DIV_TIME" [Arg "#4"; Arg "#5"]);
     ("d", Call "DIV_TIME" [Arg "#6"; Arg "#7"])]
    (Some [("a", (VZ 1000000000)); ("b", (VZ (-1000000000))); ("c", (VZ 1000000000)); ("d", (VZ 1000000000))]);
  Test 668 (* div_ltime_signed *)
    [("#0", (S_LTIME, (VZ 60000000000)));
     ("#1", (S_SINT, (VZ 60)));
     ("#2", (S_LTIME, (VZ 3600000000000)));
     ("#3", (S_INT, (VZ (-3600))));
     ("#4", (S_LTIME, (VZ 86400000000000)));
     ("#5", (S_DINT, (VZ 86400)));
     ("#6", (S_LTIME, (VZ 864000000000000000)));
     ("#7", (S_DINT, (VZ 864000000)));
     ("a", (S_LTIME, (VZ 0)));
     ("b", (S_LTIME, (VZ 0)));
     ("c", (S_LTIME, (VZ 0)));
     ("d", (S_LTIME, (VZ 0)))]
    [("a", Call "DIV_LTIME" [Arg "#0"; Arg "#1"]);
     ("b", Call "DIV_LTIME" [Arg "#2"; Arg "#3"]);
     ("c", Call "DIV_LTIME" [Arg "#4"; Arg "#5"]);
     ("d", Call "DIV_LTIME" [Arg "#6"; Arg "#7"])]
    (Some [("a", (VZ 1000000000)); ("b", (VZ (-1000000000))); ("c", (VZ 1000000000)); ("d", (VZ 1000000000))]);
  Test 693 (* div_ltime_unsigned *)
    [("#0", (S_LTIME, (VZ 60000000000)));
     ("#1", (S_USINT, (VZ 60)));
     ("#2", (S_LTIME, (VZ (-3600000000000))));
     ("#3", (S_UINT, (VZ 3600)));
     ("#4", (S_LTIME, (VZ 86400000000000)));
     ("#5", (S_UDINT, (VZ 86400)));
     ("#6", (S_LTIME, (VZ 864000000000000000)));
     ("#7", (S_UDINT, (VZ 864000000)));
     ("a", (S_LTIME, (VZ 0)));
     ("b", (S_LTIME, (VZ 0)));
     ("c", (S_LTIME, (VZ 0)));
     ("d", (S_LTIME, (VZ 0)))]
    [("a", Call "DIV_LTIME" [Arg "#0"; Arg "#1"]);
     ("b", Call "DIV_LTIME" [Arg "#2"; Arg "#3"]);
     ("c", Call "DIV_LTIME" [Arg "#4"; Arg "#5"]);
     ("d", Call "DIV_LTIME" [Arg "#6"; Arg "#7"])]
    (Some [("a", (VZ 1000000000)); ("b", (VZ (-1000000000))); ("c", (VZ 1000000000)); ("d", (VZ 1000000000))]);
  Test 768 (* mul_real_overflow *)
    [("#0", (S_TIME, (VZ (-2700000000))));
     ("#1", (S_REAL, (VF (FNum (S754_finite false 16777215 104)))));
     ("a", (S_TIME, (VZ 0)))]
    [("a", Call "MUL" [Arg "#0"; Arg "#1"])]
    None;
  Test 783 (* mul_lreal *)
    [("#0", (S_TIME, (VZ (-2700000000))));
     ("#1", (S_LREAL, (VF (FNum (S754_finite false 7070651414971679 (-51))))));
     ("#2", (S_LTIME, (VZ 2700000000)));
     ("#3", (S_LREAL, (VF (FNum (S754_finite false 5394478923776000 (-34))))));
     ("#4", (S_TIME, (VZ (-2700000000))));
     ("#5", (S_LREAL, (VF (FNum (S754_finite true 7070651414971679 (-51))))));
     ("a", (S_TIME, (VZ 0)));
     ("b", (S_LTIME, (VZ 0)));
     ("c", (S_TIME, (VZ 0)))]
    [("a", Call "MUL" [Arg "#0"; Arg "#1"]);
     ("b", Call "MUL" [Arg "#2"; Arg "#3"]);
     ("c", Call "MUL" [Arg "#4"; Arg "#5"])]
    (Some [("a", (VZ (-8478000000))); ("b", (VZ 847800000000000)); ("a", (VZ (-8478000000)))]);
  Test 819 (* mul_lreal_overflow *)
    [("#0", (S_TIME, (VZ (-2700000000))));
     ("#1", (S_LREAL, (VF (FNum (S754_finite false 9007198727438141 75)))));
     ("a", (S_TIME, (VZ 0)))]
    [("a", Call "MUL" [Arg "#0"; Arg "#1"])]
    None;
  Test 935 (* div_real_by_zero *)
    [("#0", (S_TIME, (VZ (-2700000000))));
     ("#1", (S_REAL, (VF (FNum (S754_zero false)))));
     ("a", (S_TIME, (VZ 0)))]
    [("a", Call "DIV" [Arg "#0"; Arg "#1"])]
    None;
  Test 980 (* div_lreal_by_zero *)
    [("#0", (S_TIME, (VZ (-2700000000))));
     ("#1", (S_LREAL, (VF (FNum (S754_zero false)))));
     ("a", (S_TIME, (VZ 0)))]
    [("a", Call "DIV" [Arg "#0"; Arg "#1"])]
    None].
Example date_time_numeric_functions_tests_pass : forallb passes date_time_numeric_functions_tests = true.
Proof. vm_compute. reflexivity. Qed.

(** /repo/tests/endianness_conversion_functions_tests.rs, at the lines given. *)
Definition endianness_conversion_functions_tests : list test := [
  Test 11 (* test_to_big_endian_int *)
    [("#0", (S_INT, (VZ 4097)));
     ("main", (S_INT, (VZ 0)))]
    [("main", Call "TO_BIG_ENDIAN" [Arg "#0"])]
    (Some [("main", (VZ 272))]);
  Test 23 (* test_to_little_endian_int *)
    [("#0", (S_INT, (VZ 4097)));
     ("main", (S_INT, (VZ 0)))]
    [("main", Call "TO_LITTLE_ENDIAN" [Arg "#0"])]
    (Some [("main", (VZ 4097))]);
  Test 35 (* test_from_big_endian_int *)
    [("#0", (S_INT, (VZ 4097)));
     ("main", (S_INT, (VZ 0)))]
    [("main", Call "FROM_BIG_ENDIAN" [Arg "#0"])]
    (Some [("main", (VZ 4097))]);
  Test 47 (* test_from_little_endian_int *)
    [("#0", (S_INT, (VZ 4097)));
     ("main", (S_INT, (VZ 0)))]
    [("main", Call "FROM_LITTLE_ENDIAN" [Arg "#0"])]
    (Some [("main", (VZ 272))]);
  Test 60 (* test_to_big_endian_dint *)
    [("#0", (S_DINT, (VZ 268503563)));
     ("main", (S_DINT, (VZ 0)))]
    [("main", Call "TO_BIG_ENDIAN" [Arg "#0"])]
    (Some [("main", (VZ 185205008))]);
  Test 72 (* test_to_little_endian_dint *)
    [("#0", (S_DINT, (VZ 268503563)));
     ("main", (S_DINT, (VZ 0)))]
    [("main", Call "TO_LITTLE_ENDIAN" [Arg "#0"])]
    (Some [("main", (VZ 268503563))]);
  Test 84 (* test_from_big_endian_dint *)
    [("#0", (S_DINT, (VZ 268503563)));
     ("main", (S_DINT, (VZ 0)))]
    [("main", Call "FROM_BIG_ENDIAN" [Arg "#0"])]
    (Some [("main", (VZ 268503563))]);
  Test 96 (* test_from_little_endian_dint *)
    [("#0", (S_DINT, (VZ 268503563)));
     ("main", (S_DINT, (VZ 0)))]
    [("main", Call "FROM_LITTLE_ENDIAN" [Arg "#0"])]
    (Some [("main", (VZ 185205008))]);
  Test 109 (* test_to_big_endian_lint *)
    [("#0", (S_LINT, (VZ 1153214022212979211)));
     ("main", (S_LINT, (VZ 0)))]
    [("main", Call "TO_BIG_ENDIAN" [Arg "#0"])]
    (Some [("main", (VZ 795449452600623376))]);
  Test 121 (* test_to_little_endian_lint *)
    [("#0", (S_LINT, (VZ 1153214022212979211)));
     ("main", (S_LINT, (VZ 0)))]
    [("main", Call "TO_LITTLE_ENDIAN" [Arg "#0"])]
    (Some [("main", (VZ 1153214022212979211))]);
  Test 133 (* test_from_big_endian_lint *)
    [("#0", (S_LINT, (VZ 1153214022212979211)));
     ("main", (S_LINT, (VZ 0)))]
    [("main", Call "FROM_BIG_ENDIAN" [Arg "#0"])]
    (Some [("main", (VZ 1153214022212979211))]);
  Test 145 (* test_from_little_endian_lint *)
    [("#0", (S_LINT, (VZ 1153214022212979211)));
     ("main", (S_LINT, (VZ 0)))]
    [("main", Call "FROM_LITTLE_ENDIAN" [Arg "#0"])]
    (Some [("main", (VZ 795449452600623376))]);
  Test 158 (* test_to_big_endian_uint *)
    [("#0", (S_UINT, (VZ 43962)));
     ("main", (S_UINT, (VZ 0)))]
    [("main", Call "TO_BIG_ENDIAN" [Arg "#0"])]
    (Some [("main", (VZ 47787))]);
  Test 170 (* test_to_little_endian_uint *)
    [("#0", (S_UINT, (VZ 4097)));
     ("main", (S_UINT, (VZ 0)))]
    [("main", Call "TO_LITTLE_ENDIAN" [Arg "#0"])]
    (Some [("main", (VZ 4097))]);
  Test 182 (* test_from_big_endian_uint *)
    [("#0", (S_UINT, (VZ 4097)));
     ("main", (S_UINT, (VZ 0)))]
    [("main", Call "FROM_BIG_ENDIAN" [Arg "#0"])]
    (Some [("main", (VZ 4097))]);
  Test 194 (* test_from_little_endian_uint *)
    [("#0", (S_UINT, (VZ 43962)));
     ("main", (S_UINT, (VZ 0)))]
    [("main", Call "FROM_LITTLE_ENDIAN" [Arg "#0"])]
    (Some [("main", (VZ 47787))]);
  Test 207 (* test_to_big_endian_udint *)
    [("#0", (S_UDINT, (VZ 268503563)));
     ("main", (S_UDINT, (VZ 0)))]
    [("main", Call "TO_BIG_ENDIAN" [Arg "#0"])]
    (Some [("main", (VZ 185205008))]);
  Test 219 (* test_to_little_endian_udint *)
    [("#0", (S_UDINT, (VZ 268503563)));
     ("main", (S_UDINT, (VZ 0)))]
    [("main", Call "TO_LITTLE_ENDIAN" [Arg "#0"])]
    (Some [("main", (VZ 268503563))]);
  Test 231 (* test_from_big_endian_udint *)
    [("#0", (S_UDINT, (VZ 268503563)));
     ("main", (S_UDINT, (VZ 0)))]
    [("main", Call "FROM_BIG_ENDIAN" [Arg "#0"])]
    (Some [("main", (VZ 268503563))]);
  Test 243 (* test_from_little_endian_udint *)
    [("#0", (S_UDINT, (VZ 268503563)));
     ("main", (S_UDINT, (VZ 0)))]
    [("main", Call "FROM_LITTLE_ENDIAN" [Arg "#0"])]
    (Some [("main", (VZ 185205008))]);
  Test 256 (* test_to_big_endian_ulint *)
    [("#0", (S_LINT, (VZ 1153214022212979211)));
     ("main", (S_ULINT, (VZ 0)))]
    [("main", Call "TO_BIG_ENDIAN" [Arg "#0"])]
    (Some [("main", (VZ 795449452600623376))]);
  Test 268 (* test_to_little_endian_ulint *)
    [("#0", (S_LINT, (VZ 1153214022212979211)));
     ("main", (S_ULINT, (VZ 0)))]
    [("main", Call "TO_LITTLE_ENDIAN" [Arg "#0"])]
    (Some [("main", (VZ 1153214022212979211))]);
  Test 280 (* test_from_big_endian_ulint *)
    [("#0", (S_LINT, (VZ 1153214022212979211)));
     ("main", (S_ULINT, (VZ 0)))]
    [("main", Call "FROM_BIG_ENDIAN" [Arg "#0"])]
    (Some [("main", (VZ 1153214022212979211))]);
  Test 292 (* test_from_little_endian_ulint *)
    [("#0", (S_LINT, (VZ 1153214022212979211)));
     ("main", (S_ULINT, (VZ 0)))]
    [("main", Call "FROM_LITTLE_ENDIAN" [Arg "#0"])]
    (Some [("main", (VZ 795449452600623376))]);
  Test 305 (* test_to_big_endian_f32 *)
    [("#0", (S_REAL, (VF (FNum (S754_finite false 13107200 (-20))))));
     ("main", (S_REAL, (VF (FNum (S754_zero false)))))]
    [("main", Call "TO_BIG_ENDIAN" [Arg "#0"])]
    (Some [("main", (VF (FNum (S754_finite false 13107200 (-20)))))]);
  Test 317 (* test_to_little_endian_f32 *)
    [("#0", (S_REAL, (VF (FNum (S754_finite false 13107200 (-20))))));
     ("main", (S_REAL, (VF (FNum (S754_zero false)))))]
    [("main", Call "TO_BIG_ENDIAN" [Arg "#0"])]
    (Some [("main", (VF (FNum (S754_finite false 13107200 (-20)))))]);
  Test 329 (* test_from_big_endian_f32 *)
    [("#0", (S_REAL, (VF (FNum (S754_finite false 13107200 (-20))))));
     ("main", (S_REAL, (VF (FNum (S754_zero false)))))]
    [("main", Call "FROM_BIG_ENDIAN" [Arg "#0"])]
    (Some [("main", (VF (FNum (S754_finite false 13107200 (-20)))))]);
  Test 341 (* test_from_little_endian_f32 *)
    [("#0", (S_REAL, (VF (FNum (S754_finite false 13107200 (-20))))));
     ("main", (S_REAL, (VF (FNum (S754_zero false)))))]
    [("main", Call "FROM_LITTLE_ENDIAN" [Arg "#0"])]
    (Some [("main", (VF (FNum (S754_finite false 13107200 (-20)))))]);
  Test 354 (* test_to_big_endian_f64 *)
    [("#0", (S_LREAL, (VF (FNum (S754_finite false 7036874417766400 (-49))))));
     ("main", (S_LREAL, (VF (FNum (S754_zero false)))))]
    [("main", Call "TO_BIG_ENDIAN" [Arg "#0"])]
    (Some [("main", (VF (FNum (S754_finite false 7036874417766400 (-49)))))]);
  Test 366 (* test_to_little_endian_f64 *)
    [("#0", (S_LREAL, (VF (FNum (S754_finite false 7036874417766400 (-49))))));
     ("main", (S_LREAL, (VF (FNum (S754_zero false)))))]
    [("main", Call "TO_BIG_ENDIAN" [Arg "#0"])]
    (Some [("main", (VF (FNum (S754_finite false 7036874417766400 (-49)))))]);
  Test 378 (* test_from_big_endian_f64 *)
    [("#0", (S_LREAL, (VF (FNum (S754_finite false 7036874417766400 (-49))))));
     ("main", (S_LREAL, (VF (FNum (S754_zero false)))))]
    [("main", Call "FROM_BIG_ENDIAN" [Arg "#0"])]
    (Some [("main", (VF (FNum (S754_finite false 7036874417766400 (-49)))))]);
  Test 390 (* test_from_little_endian_f64 *)
    [("#0", (S_LREAL, (VF (FNum (S754_finite false 7036874417766400 (-49))))));
     ("main", (S_LREAL, (VF (FNum (S754_zero false)))))]
    [("main", Call "FROM_LITTLE_ENDIAN" [Arg "#0"])]
    (Some [("main", (VF (FNum (S754_finite false 7036874417766400 (-49)))))]);
  Test 403 (* test_to_big_endian_word *)
    [("#0", (S_WORD, (VZ 43962)));
     ("main", (S_WORD, (VZ 0)))]
    [("main", Call "TO_BIG_ENDIAN" [Arg "#0"])]
    (Some [("main", (VZ 47787))]);
  Test 415 (* test_to_little_endian_word *)
    [("#0", (S_WORD, (VZ 4097)));
     ("main", (S_WORD, (VZ 0)))]
    [("main", Call "TO_LITTLE_ENDIAN" [Arg "#0"])]
    (Some [("main", (VZ 4097))]);
  Test 427 (* test_from_big_endian_word *)
    [("#0", (S_WORD, (VZ 4097)));
     ("main", (S_WORD, (VZ 0)))]
    [("main", Call "FROM_BIG_ENDIAN" [Arg "#0"])]
    (Some [("main", (VZ 4097))]);
  Test 439 (* test_from_little_endian_word *)
    [("#0", (S_WORD, (VZ 43962)));
     ("main", (S_WORD, (VZ 0)))]
    [("main", Call "FROM_LITTLE_ENDIAN" [Arg "#0"])]
    (Some [("main", (VZ 47787))]);
  Test 452 (* test_to_big_endian_dword *)
    [("#0", (S_UDINT, (VZ 268503563)));
     ("main", (S_UDINT, (VZ 0)))]
    [("main", Call "TO_BIG_ENDIAN" [Arg "#0"])]
    (Some [("main", (VZ 185205008))]);
  Test 464 (* test_to_little_endian_dword *)
    [("#0", (S_DWORD, (VZ 268503563)));
     ("main", (S_DWORD, (VZ 0)))]
    [("main", Call "TO_LITTLE_ENDIAN" [Arg "#0"])]
    (Some [("main", (VZ 268503563))]);
  Test 476 (* test_from_big_endian_dword *)
    [("#0", (S_DWORD, (VZ 268503563)));
     ("main", (S_DWORD, (VZ 0)))]
    [("main", Call "FROM_BIG_ENDIAN" [Arg "#0"])]
    (Some [("main", (VZ 268503563))]);
  Test 488 (* test_from_little_endian_dword *)
    [("#0", (S_DWORD, (VZ 268503563)));
     ("main", (S_DWORD, (VZ 0)))]
    [("main", Call "FROM_LITTLE_ENDIAN" [Arg "#0"])]
    (Some [("main", (VZ 185205008))]);
  Test 501 (* test_to_big_endian_lword *)
    [("#0", (S_LINT, (VZ 1153214022212979211)));
     ("main", (S_LWORD, (VZ 0)))]
    [("main", Call "TO_BIG_ENDIAN" [Arg "#0"])]
    (Some [("main", (VZ 795449452600623376))]);
  Test 513 (* test_to_little_endian_lword *)
    [("#0", (S_LINT, (VZ 1153214022212979211)));
     ("main", (S_LWORD, (VZ 0)))]
    [("main", Call "TO_LITTLE_ENDIAN" [Arg "#0"])]
    (Some [("main", (VZ 1153214022212979211))]);
  Test 525 (* test_from_big_endian_lword *)
    [("#0", (S_LINT, (VZ 1153214022212979211)));
     ("main", (S_LWORD, (VZ 0)))]
    [("main", Call "FROM_BIG_ENDIAN" [Arg "#0"])]
    (Some [("main", (VZ 1153214022212979211))]);
  Test 537 (* test_from_little_endian_lword *)
    [("#0", (S_LINT, (VZ 1153214022212979211)));
     ("main", (S_LWORD, (VZ 0)))]
    [("main", Call "FROM_LITTLE_ENDIAN" [Arg "#0"])]
    (Some [("main", (VZ 795449452600623376))]);
  Test 550 (* test_to_big_endian_wchar *)
    [("#0", (S_WCHAR, (VZ 67)));
     ("main", (S_WCHAR, (VZ 0)))]
    [("main", Call "TO_BIG_ENDIAN" [Arg "#0"])]
    (Some [("main", (VZ 17152))]);
  Test 562 (* test_to_little_endian_wchar *)
    [("#0", (S_WCHAR, (VZ 67)));
     ("main", (S_WCHAR, (VZ 0)))]
    [("main", Call "TO_LITTLE_ENDIAN" [Arg "#0"])]
    (Some [("main", (VZ 67))]);
  Test 574 (* test_from_big_endian_wchar *)
    [("#0", (S_WCHAR, (VZ 67)));
     ("main", (S_WCHAR, (VZ 0)))]
    [("main", Call "FROM_BIG_ENDIAN" [Arg "#0"])]
    (Some [("main", (VZ 67))]);
  Test 586 (* test_from_little_endian_wchar *)
    [("#0", (S_WCHAR, (VZ 67)));
     ("main", (S_WCHAR, (VZ 0)))]
    [("main", Call "FROM_LITTLE_ENDIAN" [Arg "#0"])]
    (Some [("main", (VZ 17152))]);
  Test 599 (* test_to_big_endian_date *)
    [("#0", (S_DATE, (VZ 456969600000000000)));
     ("main", (S_DATE, (VZ 0)))]
    [("main", Call "TO_BIG_ENDIAN" [Arg "#0"])]
    (Some [("main", (VZ 42990181242630))]);
  Test 618 (* test_to_little_endian_date *)
    [("#0", (S_DATE, (VZ 456969600000000000)));
     ("main", (S_DATE, (VZ 0)))]
    [("main", Call "TO_LITTLE_ENDIAN" [Arg "#0"])]
    (Some [("main", (VZ 456969600000000000))]);
  Test 636 (* test_from_big_endian_date *)
    [("#0", (S_DATE, (VZ 456969600000000000)));
     ("main", (S_DATE, (VZ 0)))]
    [("main", Call "FROM_BIG_ENDIAN" [Arg "#0"])]
    (Some [("main", (VZ 456969600000000000))]);
  Test 654 (* test_from_little_endian_date *)
    [("#0", (S_DATE, (VZ 456969600000000000)));
     ("main", (S_DATE, (VZ 0)))]
    [("main", Call "FROM_LITTLE_ENDIAN" [Arg "#0"])]
    (Some [("main", (VZ 42990181242630))]);
  Test 674 (* test_to_big_endian_tod *)
    [("#0", (S_TOD, (VZ 80542000000000)));
     ("main", (S_TOD, (VZ 0)))]
    [("main", Call "TO_BIG_ENDIAN" [Arg "#0"])]
    (Some [("main", (VZ 48497968626073600))]);
  Test 686 (* test_to_little_endian_tod *)
    [("#0", (S_TOD, (VZ 80542000000000)));
     ("main", (S_TOD, (VZ 0)))]
    [("main", Call "TO_LITTLE_ENDIAN" [Arg "#0"])]
    (Some [("main", (VZ 80542000000000))]);
  Test 698 (* test_from_big_endian_tod *)
    [("#0", (S_TOD, (VZ 80542000000000)));
     ("main", (S_TOD, (VZ 0)))]
    [("main", Call "FROM_BIG_ENDIAN" [Arg "#0"])]
    (Some [("main", (VZ 80542000000000))]);
  Test 710 (* test_from_little_endian_tod *)
    [("#0", (S_TOD, (VZ 80542000000000)));
     ("main", (S_TOD, (VZ 0)))]
    [("main", Call "FROM_LITTLE_ENDIAN" [Arg "#0"])]
    (Some [("main", (VZ 48497968626073600))]);
  Test 723 (* test_to_big_endian_dt *)
    [("#0", (S_DT, (VZ 456969600000000000)));
     ("main", (S_DT, (VZ 0)))]
    [("main", Call "TO_BIG_ENDIAN" [Arg "#0"])]
    (Some [("main", (VZ 42990181242630))]);
  Test 743 (* test_to_little_endian_dt *)
    [("#0", (S_DT, (VZ 456969600000000000)));
     ("main", (S_DT, (VZ 0)))]
    [("main", Call "TO_LITTLE_ENDIAN" [Arg "#0"])]
    (Some [("main", (VZ 456969600000000000))]);
  Test 762 (* test_from_big_endian_dt *)
    [("#0", (S_DT, (VZ 456969600000000000)));
     ("main", (S_DT, (VZ 0)))]
    [("main", Call "FROM_BIG_ENDIAN" [Arg "#0"])]
    (Some [("main", (VZ 456969600000000000))]);
  Test 781 (* test_from_little_endian_dt *)
    [("#0", (S_DT, (VZ 456969600000000000)));
     ("main", (S_DT, (VZ 0)))]
    [("main", Call "FROM_LITTLE_ENDIAN" [Arg "#0"])]
    (Some [("main", (VZ 42990181242630))]);
  Test 803 (* test_to_big_endian_ldate_nanos *)
    [("#0", (S_LDATE, (VZ 456969600000000000)));
     ("main", (S_LDATE, (VZ 0)))]
    [("main", Call "TO_BIG_ENDIAN" [Arg "#0"])]
    (Some [("main", (VZ 42990181242630))]);
  Test 823 (* test_to_little_endian_ldate_nanos *)
    [("#0", (S_LDATE, (VZ 456969600000000000)));
     ("main", (S_LDATE, (VZ 0)))]
    [("main", Call "TO_LITTLE_ENDIAN" [Arg "#0"])]
    (Some [("main", (VZ 456969600000000000))]);
  Test 842 (* test_from_big_endian_ldate_nanos *)
    [("#0", (S_LDATE, (VZ 456969600000000000)));
     ("main", (S_LDATE, (VZ 0)))]
    [("main", Call "FROM_BIG_ENDIAN" [Arg "#0"])]
    (Some [("main", (VZ 456969600000000000))]);
  Test 861 (* test_from_little_endian_ldate_nanos *)
    [("#0", (S_LDATE, (VZ 456969600000000000)));
     ("main", (S_LDATE, (VZ 0)))]
    [("main", Call "FROM_LITTLE_ENDIAN" [Arg "#0"])]
    (Some [("main", (VZ 42990181242630))]);
  Test 882 (* test_to_big_endian_ldt_nanos *)
    [("#0", (S_LDT, (VZ 456969600000000000)));
     ("main", (S_LDT, (VZ 0)))]
    [("main", Call "TO_BIG_ENDIAN" [Arg "#0"])]
    (Some [("main", (VZ 42990181242630))]);
  Test 903 (* test_to_little_endian_ldt_nanos *)
    [("#0", (S_LDT, (VZ 456969600000000000)));
     ("main", (S_LDT, (VZ 0)))]
    [("main", Call "TO_LITTLE_ENDIAN" [Arg "#0"])]
    (Some [("main", (VZ 456969600000000000))]);
  Test 922 (* test_from_big_endian_nanos *)
    [("#0", (S_LDT, (VZ 456969600000000000)));
     ("main", (S_LDT, (VZ 0)))]
    [("main", Call "FROM_BIG_ENDIAN" [Arg "#0"])]
    (Some [("main", (VZ 456969600000000000))]);
  Test 941 (* test_from_little_endian_nanos *)
    [("#0", (S_LDT, (VZ 456969600000000000)));
     ("main", (S_LDT, (VZ 0)))]
    [("main", Call "FROM_LITTLE_ENDIAN" [Arg "#0"])]
    (Some [("main", (VZ 42990181242630))]);
  Test 962 (* test_to_big_endian_ltod_nanos *)
    [("#0", (S_LTOD, (VZ 80542000000000)));
     ("main", (S_LTOD, (VZ 0)))]
    [("main", Call "TO_BIG_ENDIAN" [Arg "#0"])]
    (Some [("main", (VZ 48497968626073600))]);
  Test 974 (* test_to_little_endian_ltod_nanos *)
    [("#0", (S_LTOD, (VZ 80542000000000)));
     ("main", (S_LTOD, (VZ 0)))]
    [("main", Call "TO_LITTLE_ENDIAN" [Arg "#0"])]
    (Some [("main", (VZ 80542000000000))]);
  Test 986 (* test_from_big_endian_ltod_nanos *)
    [("#0", (S_LTOD, (VZ 80542000000000)));
     ("main", (S_LTOD, (VZ 0)))]
    [("main", Call "FROM_BIG_ENDIAN" [Arg "#0"])]
    (Some [("main", (VZ 80542000000000))]);
  Test 998 (* test_from_little_endian_ltod_nanos *)
    [("#0", (S_LTOD, (VZ 80542000000000)));
     ("main", (S_LTOD, (VZ 0)))]
    [("main", Call "FROM_LITTLE_ENDIAN" [Arg "#0"])]
    (Some [("main", (VZ 48497968626073600))])].
Example endianness_conversion_functions_tests_pass : forallb passes endianness_conversion_functions_tests = true.
Proof. vm_compute. reflexivity. Qed.

(** /repo/tests/extra_function_tests.rs, at the lines given. *)
Definition extra_function_tests : list test := [
  Test 15 (* byte_to_string_conversion *)
    [("#0", (S_BYTE, (VZ 85)));
     ("main", (S_STRING, (VS ([] ++ repeat 0 81))));
     ("in", (S_BYTE, (VZ 0)))]
    [("in", Arg "#0");
     ("main", Call "BYTE_TO_STRING" [Arg "in"])]
    (Some [("main", (VS [56; 53]))]);
  Test 43 (* dword_to_string_conversion *)
    [("#0", (S_DWORD, (VZ 195948557)));
     ("main", (S_STRING, (VS ([] ++ repeat 0 81))));
     ("in", (S_DWORD, (VZ 0)))]
    [("in", Arg "#0");
     ("main", Call "DWORD_TO_STRING" [Arg "in"])]
    (Some [("main", (VS [49; 57; 53; 57; 52; 56; 53; 53; 55]))]);
  Test 70 (* lword_to_string_conversion *)
    [("#0", (S_LWORD, (VZ 16045690984835251117)));
     ("main", (S_STRING, (VS ([] ++ repeat 0 81))));
     ("in", (S_LWORD, (VZ 0)))]
    [("in", Arg "#0");
     ("main", Call "LWORD_TO_STRING" [Arg "in"])]
    (Some [("main", (VS [49; 54; 48; 52; 53; 54; 57; 48; 57; 56; 52; 56; 51; 53; 50; 53; 49; 49; 49; 55]))]);
  Test 98 (* byte_to_wstring_conversion *)
    [("#0", (S_BYTE, (VZ 85)));
     ("main", (S_WSTRING, (VS ([] ++ repeat 0 81))));
     ("in", (S_BYTE, (VZ 0)))]
    [("in", Arg "#0");
     ("main", Call "BYTE_TO_WSTRING" [Arg "in"])]
    (Some [("main", (VS [56; 53]))]);
  Test 127 (* dword_to_wstring_conversion *)
    [("#0", (S_DWORD, (VZ 195948557)));
     ("main", (S_WSTRING, (VS ([] ++ repeat 0 81))));
     ("in", (S_DWORD, (VZ 0)))]
    [("in", Arg "#0");
     ("main", Call "DWORD_TO_WSTRING" [Arg "in"])]
    (Some [("main", (VS [49; 57; 53; 57; 52; 56; 53; 53; 55]))]);
  Test 155 (* lword_to_wstring_conversion *)
    [("#0", (S_LWORD, (VZ 16045690984835251117)));
     ("main", (S_WSTRING, (VS ([] ++ repeat 0 81))));
     ("in", (S_LWORD, (VZ 0)))]
    [("in", Arg "#0");
     ("main", Call "LWORD_TO_WSTRING" [Arg "in"])]
    (Some [("main", (VS [49; 54; 48; 52; 53; 54; 57; 48; 57; 56; 52; 56; 51; 53; 50; 53; 49; 49; 49; 55]))]);
  Test 184 (* lint_to_string_conversion *)
    [("#0", (S_LINT, (VZ 7600500400300200100)));
     ("main", (S_STRING, (VS ([] ++ repeat 0 81))));
     ("in", (S_LINT, (VZ 0)))]
    [("in", Arg "#0");
     ("main", Call "LINT_TO_STRING" [Arg "in"])]
    (Some [("main", (VS [55; 54; 48; 48; 53; 48; 48; 52; 48; 48; 51; 48; 48; 50; 48; 48; 49; 48; 48]))]);
  Test 212 (* lint_to_wstring_conversion *)
    [("#0", (S_LINT, (VZ 7600500400300200100)));
     ("main", (S_WSTRING, (VS ([] ++ repeat 0 81))));
     ("in", (S_LINT, (VZ 0)))]
    [("in", Arg "#0");
     ("main", Call "LINT_TO_WSTRING" [Arg "in"])]
    (Some [("main", (VS [55; 54; 48; 48; 53; 48; 48; 52; 48; 48; 51; 48; 48; 50; 48; 48; 49; 48; 48]))]);
  Test 241 (* dint_to_string_conversion *)
    [("#0", (S_DINT, (VZ 2000200100)));
     ("main", (S_STRING, (VS ([] ++ repeat 0 81))));
     ("in", (S_DINT, (VZ 0)))]
    [("in", Arg "#0");
     ("main", Call "DINT_TO_STRING" [Arg "in"])]
    (Some [("main", (VS [50; 48; 48; 48; 50; 48; 48; 49; 48; 48]))]);
  Test 269 (* dint_to_wstring_conversion *)
    [("#0", (S_DINT, (VZ (-1300200100))));
     ("main", (S_WSTRING, (VS ([] ++ repeat 0 81))));
     ("in", (S_DINT, (VZ 0)))]
    [("in", Arg "#0");
     ("main", Call "DINT_TO_WSTRING" [Arg "in"])]
    (Some [("main", (VS [45; 49; 51; 48; 48; 50; 48; 48; 49; 48; 48]))]);
  Test 298 (* lreal_to_string_conversion *)
    [("#0", (S_LREAL, (VF (FNum (S754_finite false 7275605879947264 (-39))))));
     ("main", (S_STRING, (VS ([] ++ repeat 0 81))));
     ("in", (S_LREAL, (VF (FNum (S754_zero false)))))]
    [("in", Arg "#0");
     ("", Call "LREAL_TO_STRING_EXT" [Arg "in"; Arg "main"])]
    (Some [("main", (VS [49; 51; 50; 51; 52; 46; 50; 53; 48; 48; 48; 48]))]);
  Test 327 (* lreal_to_wstring_conversion *)
    [("#0", (S_LREAL, (VF (FNum (S754_finite false 7275605879947264 (-39))))));
     ("main", (S_WSTRING, (VS ([] ++ repeat 0 81))));
     ("in", (S_LREAL, (VF (FNum (S754_zero false)))))]
    [("in", Arg "#0");
     ("main", Call "LREAL_TO_WSTRING" [Arg "in"])]
    (Some [("main", (VS [49; 51; 50; 51; 52; 46; 50; 53; 48; 48; 48; 48]))]);
  Test 356 (* real_to_string_conversion *)
    [("#0", (S_REAL, (VF (FNum (S754_finite false 13551872 (-10))))));
     ("main", (S_STRING, (VS ([] ++ repeat 0 81))));
     ("in", (S_REAL, (VF (FNum (S754_zero false)))))]
    [("in", Arg "#0");
     ("main", Call "REAL_TO_STRING" [Arg "in"])]
    (Some [("main", (VS [49; 51; 50; 51; 52; 46; 50; 53; 48; 48; 48; 48]))]);
  Test 384 (* real_to_wstring_conversion *)
    [("#0", (S_REAL, (VF (FNum (S754_finite false 13551872 (-10))))));
     ("main", (S_WSTRING, (VS ([] ++ repeat 0 81))));
     ("in", (S_REAL, (VF (FNum (S754_zero false)))))]
    [("in", Arg "#0");
     ("main", Call "REAL_TO_WSTRING" [Arg "in"])]
    (Some [("main", (VS [49; 51; 50; 51; 52; 46; 50; 53; 48; 48; 48; 48]))]);
  Test 414 (* tod_to_lword_conversion *)
    [("#0", (S_TOD, (VZ 7199256700000)));
     ("main", (S_LWORD, (VZ 0)));
     ("t", (S_TOD, (VZ 0)))]
    [("t", Arg "#0");
     ("main", Call "TOD_TO_LWORD" [Arg "t"])]
    (Some [("main", (VZ 7199256700000))]);
  Test 439 (* ltod_to_lword_conversion *)
    [("#0", (S_LTOD, (VZ 7199256700000)));
     ("main", (S_LWORD, (VZ 0)));
     ("t", (S_LTOD, (VZ 0)))]
    [("t", Arg "#0");
     ("main", Call "LTOD_TO_LWORD" [Arg "t"])]
    (Some [("main", (VZ 7199256700000))]);
  Test 464 (* dt_to_lword_conversion *)
    [("#0", (S_DT, (VZ 946605599256700000)));
     ("main", (S_LWORD, (VZ 0)));
     ("t", (S_DT, (VZ 0)))]
    [("t", Arg "#0");
     ("main", Call "DT_TO_LWORD" [Arg "t"])]
    (Some [("main", (VZ 946605599256700000))]);
  Test 490 (* ldt_to_lword_conversion *)
    [("#0", (S_LDT, (VZ 946605599256700000)));
     ("main", (S_LWORD, (VZ 0)));
     ("t", (S_LDT, (VZ 0)))]
    [("t", Arg "#0");
     ("main", Call "LDT_TO_LWORD" [Arg "t"])]
    (Some [("main", (VZ 946605599256700000))]);
  Test 516 (* date_to_lword_conversion *)
    [("#0", (S_DATE, (VZ 946598400000000000)));
     ("main", (S_LWORD, (VZ 0)));
     ("t", (S_DATE, (VZ 0)))]
    [("t", Arg "#0");
     ("main", Call "DATE_TO_LWORD" [Arg "t"])]
    (Some [("main", (VZ 946598400000000000))]);
  Test 542 (* ldate_to_lword_conversion *)
    [("#0", (S_LDATE, (VZ 946598400000000000)));
     ("main", (S_LWORD, (VZ 0)));
     ("t", (S_LDATE, (VZ 0)))]
    [("t", Arg "#0");
     ("main", Call "LDATE_TO_LWORD" [Arg "t"])]
    (Some [("main", (VZ 946598400000000000))]);
  Test 568 (* time_to_lword_conversion *)
    [("#0", (S_TIME, (VZ 43280391000010)));
     ("main", (S_LWORD, (VZ 0)));
     ("t", (S_TIME, (VZ 0)))]
    [("t", Arg "#0");
     ("main", Call "TIME_TO_LWORD" [Arg "t"])]
    (Some [("main", (VZ 43280391000010))]);
  Test 593 (* ltime_to_lword_conversion *)
    [("#0", (S_LTIME, (VZ 43280391000010)));
     ("main", (S_LWORD, (VZ 0)));
     ("t", (S_LTIME, (VZ 0)))]
    [("t", Arg "#0");
     ("main", Call "LTIME_TO_LWORD" [Arg "t"])]
    (Some [("main", (VZ 43280391000010))]);
  Test 619 (* string_to_lint_conversion *)
    [("#0", (S_STRING, (VS ([49; 50; 51; 52; 53; 54] ++ repeat 0 75))));
     ("#1", (S_STRING, (VS ([50; 35; 49; 48; 49; 48; 49; 48; 49; 48; 49; 48; 49; 48; 49; 48; 49; 48] ++ repeat 0 63))));
     ("#2", (S_STRING, (VS ([56; 35; 49; 50; 51; 52; 53; 54; 55] ++ repeat 0 72))));
     ("#3", (S_STRING, (VS ([49; 54; 35; 68; 69; 67; 65; 70; 66; 65; 68] ++ repeat 0 70))));
     ("i1", (S_LINT, (VZ 0)));
     ("i2", (S_LINT, (VZ 0)));
     ("i3", (S_LINT, (VZ 0)));
     ("i4", (S_LINT, (VZ 0)));
     ("s1", (S_STRING, (VS ([] ++ repeat 0 81))));
     ("s2", (S_STRING, (VS ([] ++ repeat 0 81))));
     ("s3", (S_STRING, (VS ([] ++ repeat 0 81))));
     ("s4", (S_STRING, (VS ([] ++ repeat 0 81))))]
    [("s1", Arg "#0");
     ("s2", Arg "#1");
     ("s3", Arg "#2");
     ("s4", Arg "#3");
     ("i1", Call "STRING_TO_LINT" [Arg "s1"]);
     ("i2", Call "STRING_TO_LINT" [Arg "s2"]);
     ("i3", Call "STRING_TO_LINT" [Arg "s3"]);
     ("i4", Call "STRING_TO_LINT" [Arg "s4"])]
    (Some [("i1", (VZ 123456)); ("i2", (VZ 43690)); ("i3", (VZ 342391)); ("i4", (VZ 3737844653))]);
  Test 665 (* wstring_to_lint_conversion *)
    [("#0", (S_WSTRING, (VS ([45; 49; 50; 51; 52; 53; 54] ++ repeat 0 74))));
     ("#1", (S_WSTRING, (VS ([50; 35; 49; 48; 49; 48; 49; 48; 49; 48; 49; 48; 49; 48; 49; 48; 49; 48] ++ repeat 0 63))));
     ("#2", (S_WSTRING, (VS ([56; 35; 49; 50; 51; 52; 53; 54; 55] ++ repeat 0 72))));
     ("#3", (S_WSTRING, (VS ([49; 54; 35; 68; 69; 67; 65; 70; 66; 65; 68] ++ repeat 0 70))));
     ("i1", (S_LINT, (VZ 0)));
     ("i2", (S_LINT, (VZ 0)));
     ("i3", (S_LINT, (VZ 0)));
     ("i4", (S_LINT, (VZ 0)));
     ("s1", (S_WSTRING, (VS ([] ++ repeat 0 81))));
     ("s2", (S_WSTRING, (VS ([] ++ repeat 0 81))));
     ("s3", (S_WSTRING, (VS ([] ++ repeat 0 81))));
     ("s4", (S_WSTRING, (VS ([] ++ repeat 0 81))))]
    [("s1", Arg "#0");
     ("s2", Arg "#1");
     ("s3", Arg "#2");
     ("s4", Arg "#3");
     ("i1", Call "WSTRING_TO_LINT" [Arg "s1"]);
     ("i2", Call "WSTRING_TO_LINT" [Arg "s2"]);
     ("i3", Call "WSTRING_TO_LINT" [Arg "s3"]);
     ("i4", Call "WSTRING_TO_LINT" [Arg "s4"])]
    (Some [("i1", (VZ (-123456))); ("i2", (VZ 43690)); ("i3", (VZ 342391)); ("i4", (VZ 3737844653))]);
  Test 712 (* string_to_dint_conversion *)
    [("#0", (S_STRING, (VS ([49; 50; 51; 52; 53; 54] ++ repeat 0 75))));
     ("#1", (S_STRING, (VS ([50; 35; 49; 48; 49; 48; 49; 48; 49; 48; 49; 48; 49; 48; 49; 48; 49; 48] ++ repeat 0 63))));
     ("#2", (S_STRING, (VS ([56; 35; 49; 50; 51; 52; 53; 54; 55] ++ repeat 0 72))));
     ("i1", (S_DINT, (VZ 0)));
     ("i2", (S_DINT, (VZ 0)));
     ("i3", (S_DINT, (VZ 0)));
     ("s1", (S_STRING, (VS ([] ++ repeat 0 81))));
     ("s2", (S_STRING, (VS ([] ++ repeat 0 81))));
     ("s3", (S_STRING, (VS ([] ++ repeat 0 81))))]
    [("s1", Arg "#0");
     ("s2", Arg "#1");
     ("s3", Arg "#2");
     ("i1", Call "STRING_TO_DINT" [Arg "s1"]);
     ("i2", Call "STRING_TO_DINT" [Arg "s2"]);
     ("i3", Call "STRING_TO_DINT" [Arg "s3"])]
    (Some [("i1", (VZ 123456)); ("i2", (VZ 43690)); ("i3", (VZ 342391))]);
  Test 753 (* wstring_to_dint_conversion *)
    [("#0", (S_WSTRING, (VS ([45; 49; 50; 51; 52; 53; 54] ++ repeat 0 74))));
     ("#1", (S_WSTRING, (VS ([50; 35; 49; 48; 49; 48; 49; 48; 49; 48; 49; 48; 49; 48; 49; 48; 49; 48] ++ repeat 0 63))));
     ("#2", (S_WSTRING, (VS ([56; 35; 49; 50; 51; 52; 53; 54; 55] ++ repeat 0 72))));
     ("i1", (S_DINT, (VZ 0)));
     ("i2", (S_DINT, (VZ 0)));
     ("i3", (S_DINT, (VZ 0)));
     ("s1", (S_WSTRING, (VS ([] ++ repeat 0 81))));
     ("s2", (S_WSTRING, (VS ([] ++ repeat 0 81))));
     ("s3", (S_WSTRING, (VS ([] ++ repeat 0 81))))]
    [("s1", Arg "#0");
     ("s2", Arg "#1");
     ("s3", Arg "#2");
     ("i1", Call "WSTRING_TO_DINT" [Arg "s1"]);
     ("i2", Call "WSTRING_TO_DINT" [Arg "s2"]);
     ("i3", Call "WSTRING_TO_DINT" [Arg "s3"])]
    (Some [("i1", (VZ (-123456))); ("i2", (VZ 43690)); ("i3", (VZ 342391))]);
  Test 794 (* time_to_lint_conversion *)
    [("#0", (S_TIME, (VZ 43280391000010)));
     ("main", (S_LINT, (VZ 0)));
     ("t", (S_TIME, (VZ 0)))]
    [("t", Arg "#0");
     ("main", Call "TIME_TO_LINT" [Arg "t"])]
    (Some [("main", (VZ 43280391000010))]);
  Test 820 (* ltime_to_lint_conversion *)
    [("#0", (S_LTIME, (VZ 43280391000010)));
     ("main", (S_LINT, (VZ 0)));
     ("t", (S_LTIME, (VZ 0)))]
    [("t", Arg "#0");
     ("main", Call "LTIME_TO_LINT" [Arg "t"])]
    (Some [("main", (VZ 43280391000010))]);
  Test 846 (* tod_to_lint_conversion *)
    [("#0", (S_TOD, (VZ 7199256700000)));
     ("main", (S_LINT, (VZ 0)));
     ("t", (S_TOD, (VZ 0)))]
    [("t", Arg "#0");
     ("main", Call "TOD_TO_LINT" [Arg "t"])]
    (Some [("main", (VZ 7199256700000))]);
  Test 871 (* ltod_to_lint_conversion *)
    [("#0", (S_LTOD, (VZ 7199256700000)));
     ("main", (S_LINT, (VZ 0)));
     ("t", (S_LTOD, (VZ 0)))]
    [("t", Arg "#0");
     ("main", Call "LTOD_TO_LINT" [Arg "t"])]
    (Some [("main", (VZ 7199256700000))]);
  Test 896 (* date_to_lint_conversion *)
    [("#0", (S_DATE, (VZ 946598400000000000)));
     ("main", (S_LINT, (VZ 0)));
     ("t", (S_DATE, (VZ 0)))]
    [("t", Arg "#0");
     ("main", Call "DATE_TO_LINT" [Arg "t"])]
    (Some [("main", (VZ 946598400000000000))]);
  Test 922 (* ldate_to_lint_conversion *)
    [("#0", (S_LDATE, (VZ 946598400000000000)));
     ("main", (S_LINT, (VZ 0)));
     ("t", (S_LDATE, (VZ 0)))]
    [("t", Arg "#0");
     ("main", Call "LDATE_TO_LINT" [Arg "t"])]
    (Some [("main", (VZ 946598400000000000))]);
  Test 948 (* dt_to_lint_conversion *)
    [("#0", (S_DT, (VZ 947719380000000000)));
     ("main", (S_LINT, (VZ 0)));
     ("t", (S_DT, (VZ 0)))]
    [("t", Arg "#0");
     ("main", Call "DT_TO_LINT" [Arg "t"])]
    (Some [("main", (VZ 947719380000000000))]);
  Test 977 (* ldt_to_lint_conversion *)
    [("#0", (S_LDT, (VZ 947719380000000000)));
     ("main", (S_LINT, (VZ 0)));
     ("t", (S_LDT, (VZ 0)))]
    [("t", Arg "#0");
     ("main", Call "LDT_TO_LINT" [Arg "t"])]
    (Some [("main", (VZ 947719380000000000))]);
  Test 1007 (* time_to_ulint_conversion *)
    [("#0", (S_TIME, (VZ 43280391000010)));
     ("main", (S_ULINT, (VZ 0)));
     ("t", (S_TIME, (VZ 0)))]
    [("t", Arg "#0");
     ("main", Call "TIME_TO_ULINT" [Arg "t"])]
    (Some [("main", (VZ 43280391000010))]);
  Test 1033 (* ltime_to_ulint_conversion *)
    [("#0", (S_LTIME, (VZ 43280391000010)));
     ("main", (S_ULINT, (VZ 0)));
     ("t", (S_LTIME, (VZ 0)))]
    [("t", Arg "#0");
     ("main", Call "LTIME_TO_ULINT" [Arg "t"])]
    (Some [("main", (VZ 43280391000010))]);
  Test 1059 (* tod_to_ulint_conversion *)
    [("#0", (S_TOD, (VZ 7199256700000)));
     ("main", (S_ULINT, (VZ 0)));
     ("t", (S_TOD, (VZ 0)))]
    [("t", Arg "#0");
     ("main", Call "TOD_TO_ULINT" [Arg "t"])]
    (Some [("main", (VZ 7199256700000))]);
  Test 1084 (* ltod_to_ulint_conversion *)
    [("#0", (S_LTOD, (VZ 7199256700000)));
     ("main", (S_ULINT, (VZ 0)));
     ("t", (S_LTOD, (VZ 0)))]
    [("t", Arg "#0");
     ("main", Call "LTOD_TO_ULINT" [Arg "t"])]
    (Some [("main", (VZ 7199256700000))]);
  Test 1109 (* date_to_ulint_conversion *)
    [("#0", (S_DATE, (VZ 946598400000000000)));
     ("main", (S_ULINT, (VZ 0)));
     ("t", (S_DATE, (VZ 0)))]
    [("t", Arg "#0");
     ("main", Call "DATE_TO_ULINT" [Arg "t"])]
    (Some [("main", (VZ 946598400000000000))]);
  Test 1135 (* ldate_to_ulint_conversion *)
    [("#0", (S_LDATE, (VZ 946598400000000000)));
     ("main", (S_ULINT, (VZ 0)));
     ("t", (S_LDATE, (VZ 0)))]
    [("t", Arg "#0");
     ("main", Call "LDATE_TO_ULINT" [Arg "t"])]
    (Some [("main", (VZ 946598400000000000))]);
  Test 1161 (* dt_to_ulint_conversion *)
    [("#0", (S_DT, (VZ 947719380000000000)));
     ("main", (S_ULINT, (VZ 0)));
     ("t", (S_DT, (VZ 0)))]
    [("t", Arg "#0");
     ("main", Call "DT_TO_ULINT" [Arg "t"])]
    (Some [("main", (VZ 947719380000000000))]);
  Test 1190 (* ldt_to_ulint_conversion *)
    [("#0", (S_LDT, (VZ 947719380000000000)));
     ("main", (S_ULINT, (VZ 0)));
     ("t", (S_LDT, (VZ 0)))]
    [("t", Arg "#0");
     ("main", Call "LDT_TO_ULINT" [Arg "t"])]
    (Some [("main", (VZ 947719380000000000))]);
  Test 1220 (* string_to_lreal_conversion *)
    [("#0", (S_STRING, (VS ([49; 50; 46; 51; 52; 53; 54] ++ repeat 0 74))));
     ("#1", (S_STRING, (VS ([49; 51; 49; 50; 52; 51; 51; 46; 49] ++ repeat 0 72))));
     ("#2", (S_STRING, (VS ([49; 46; 51; 69; 45; 56] ++ repeat 0 75))));
     ("#3", (S_STRING, (VS ([49; 46; 50; 52; 101; 49; 51] ++ repeat 0 74))));
     ("f1", (S_LREAL, (VF (FNum (S754_zero false)))));
     ("f2", (S_LREAL, (VF (FNum (S754_zero false)))));
     ("f3", (S_LREAL, (VF (FNum (S754_zero false)))));
     ("f4", (S_LREAL, (VF (FNum (S754_zero false)))));
     ("s1", (S_STRING, (VS ([] ++ repeat 0 81))));
     ("s2", (S_STRING, (VS ([] ++ repeat 0 81))));
     ("s3", (S_STRING, (VS ([] ++ repeat 0 81))));
     ("s4", (S_STRING, (VS ([] ++ repeat 0 81))))]
    [("s1", Arg "#0");
     ("s2", Arg "#1");
     ("s3", Arg "#2");
     ("s4", Arg "#3");
     ("f1", Call "STRING_TO_LREAL" [Arg "s1"]);
     ("f2", Call "STRING_TO_LREAL" [Arg "s2"]);
     ("f3", Call "STRING_TO_LREAL" [Arg "s3"]);
     ("f4", Call "STRING_TO_LREAL" [Arg "s4"])]
    (Some [("f1", (VF (FNum (S754_finite false 6949954944958149 (-49))))); ("f2", (VF (FNum (S754_finite false 5636857242687898 (-32))))); ("f3", (VF (FNum (S754_finite false 7858017827495090 (-79))))); ("f4", (VF (FNum (S754_finite false 6348800000000000 (-9)))))]);
  Test 1266 (* wstring_to_lreal_conversion *)
    [("#0", (S_WSTRING, (VS ([49; 50; 46; 51; 52; 53; 54] ++ repeat 0 74))));
     ("#1", (S_WSTRING, (VS ([49; 51; 49; 50; 52; 51; 51; 46; 49] ++ repeat 0 72))));
     ("#2", (S_WSTRING, (VS ([49; 46; 51; 69; 45; 56] ++ repeat 0 75))));
     ("#3", (S_WSTRING, (VS ([49; 46; 50; 52; 101; 49; 51] ++ repeat 0 74))));
     ("f1", (S_LREAL, (VF (FNum (S754_zero false)))));
     ("f2", (S_LREAL, (VF (FNum (S754_zero false)))));
     ("f3", (S_LREAL, (VF (FNum (S754_zero false)))));
     ("f4", (S_LREAL, (VF (FNum (S754_zero false)))));
     ("s1", (S_WSTRING, (VS ([] ++ repeat 0 81))));
     ("s2", (S_WSTRING, (VS ([] ++ repeat 0 81))));
     ("s3", (S_WSTRING, (VS ([] ++ repeat 0 81))));
     ("s4", (S_WSTRING, (VS ([] ++ repeat 0 81))))]
    [("s1", Arg "#0");
     ("s2", Arg "#1");
     ("s3", Arg "#2");
     ("s4", Arg "#3");
     ("f1", Call "WSTRING_TO_LREAL" [Arg "s1"]);
     ("f2", Call "WSTRING_TO_LREAL" [Arg "s2"]);
     ("f3", Call "WSTRING_TO_LREAL" [Arg "s3"]);
     ("f4", Call "WSTRING_TO_LREAL" [Arg "s4"])]
    (Some [("f1", (VF (FNum (S754_finite false 6949954944958149 (-49))))); ("f2", (VF (FNum (S754_finite false 5636857242687898 (-32))))); ("f3", (VF (FNum (S754_finite false 7858017827495090 (-79))))); ("f4", (VF (FNum (S754_finite false 6348800000000000 (-9)))))]);
  Test 1312 (* string_to_real_conversion *)
    [("#0", (S_STRING, (VS ([49; 50; 46; 51; 52; 53; 54] ++ repeat 0 74))));
     ("#1", (S_STRING, (VS ([49; 51; 49; 50; 52; 51; 51; 46; 49] ++ repeat 0 72))));
     ("#2", (S_STRING, (VS ([49; 46; 51; 69; 45; 56] ++ repeat 0 75))));
     ("#3", (S_STRING, (VS ([49; 46; 50; 52; 101; 49; 51] ++ repeat 0 74))));
     ("f1", (S_REAL, (VF (FNum (S754_zero false)))));
     ("f2", (S_REAL, (VF (FNum (S754_zero false)))));
     ("f3", (S_REAL, (VF (FNum (S754_zero false)))));
     ("f4", (S_REAL, (VF (FNum (S754_zero false)))));
     ("s1", (S_STRING, (VS ([] ++ repeat 0 81))));
     ("s2", (S_STRING, (VS ([] ++ repeat 0 81))));
     ("s3", (S_STRING, (VS ([] ++ repeat 0 81))));
     ("s4", (S_STRING, (VS ([] ++ repeat 0 81))))]
    [("s1", Arg "#0");
     ("s2", Arg "#1");
     ("s3", Arg "#2");
     ("s4", Arg "#3");
     ("f1", Call "STRING_TO_REAL" [Arg "s1"]);
     ("f2", Call "STRING_TO_REAL" [Arg "s2"]);
     ("f3", Call "STRING_TO_REAL" [Arg "s3"]);
     ("f4", Call "STRING_TO_REAL" [Arg "s4"])]
    (Some [("f1", (VF (FNum (S754_finite false 12945300 (-20))))); ("f2", (VF (FNum (S754_finite false 10499465 (-3))))); ("f3", (VF (FNum (S754_finite false 14636699 (-50))))); ("f4", (VF (FNum (S754_finite false 11825562 20))))]);
  Test 1358 (* wstring_to_real_conversion *)
    [("#0", (S_WSTRING, (VS ([49; 50; 46; 51; 52; 53; 54] ++ repeat 0 74))));
     ("#1", (S_WSTRING, (VS ([49; 51; 49; 50; 52; 51; 51; 46; 49] ++ repeat 0 72))));
     ("#2", (S_WSTRING, (VS ([49; 46; 51; 69; 45; 56] ++ repeat 0 75))));
     ("#3", (S_WSTRING, (VS ([49; 46; 50; 52; 101; 49; 51] ++ repeat 0 74))));
     ("f1", (S_REAL, (VF (FNum (S754_zero false)))));
     ("f2", (S_REAL, (VF (FNum (S754_zero false)))));
     ("f3", (S_REAL, (VF (FNum (S754_zero false)))));
     ("f4", (S_REAL, (VF (FNum (S754_zero false)))));
     ("s1", (S_WSTRING, (VS ([] ++ repeat 0 81))));
     ("s2", (S_WSTRING, (VS ([] ++ repeat 0 81))));
     ("s3", (S_WSTRING, (VS ([] ++ repeat 0 81))));
     ("s4", (S_WSTRING, (VS ([] ++ repeat 0 81))))]
    [("s1", Arg "#0");
     ("s2", Arg "#1");
     ("s3", Arg "#2");
     ("s4", Arg "#3");
     ("f1", Call "WSTRING_TO_REAL" [Arg "s1"]);
     ("f2", Call "WSTRING_TO_REAL" [Arg "s2"]);
     ("f3", Call "WSTRING_TO_REAL" [Arg "s3"]);
     ("f4", Call "WSTRING_TO_REAL" [Arg "s4"])]
    (Some [("f1", (VF (FNum (S754_finite false 12945300 (-20))))); ("f2", (VF (FNum (S754_finite false 10499465 (-3))))); ("f3", (VF (FNum (S754_finite false 14636699 (-50))))); ("f4", (VF (FNum (S754_finite false 11825562 20))))]);
  Test 1429 (* lword_to_ltime_conversion *)
    [("#0", (S_LWORD, (VZ 93784005005005)));
     ("main", (S_TIME, (VZ 0)));
     ("lw", (S_LWORD, (VZ 0)))]
    [("lw", Arg "#0");
     ("main", Call "LWORD_TO_TIME" [Arg "lw"])]
    (Some [("main", (VZ 93784005005005))]);
  Test 1454 (* lreal_to_ltime_conversion *)
    [("#0", (S_LREAL, (VF (FNum (S754_finite false 6293738037256200 (-26))))));
     ("main", (S_TIME, (VZ 0)));
     ("r", (S_LREAL, (VF (FNum (S754_zero false)))))]
    [("r", Arg "#0");
     ("main", Call "LREAL_TO_TIME" [Arg "r"])]
    (Some [("main", (VZ 93784005))]);
  Test 1477 (* lword_to_ldate_conversion *)
    [("#0", (S_LWORD, (VZ 123456789000)));
     ("main", (S_DATE, (VZ 0)));
     ("lw", (S_LWORD, (VZ 0)))]
    [("lw", Arg "#0");
     ("main", Call "LWORD_TO_DATE" [Arg "lw"])]
    (Some [("main", (VZ 123456789000))]);
  Test 1501 (* ulint_to_ldate_conversion *)
    [("#0", (S_ULINT, (VZ 1669244400)));
     ("main", (S_DATE, (VZ 0)));
     ("ul", (S_ULINT, (VZ 0)))]
    [("ul", Arg "#0");
     ("main", Call "ULINT_TO_DATE" [Arg "ul"])]
    (Some [("main", (VZ 1669244400))]);
  Test 1524 (* u64_to_ldate_signed_overflow *)
    [("#0", (S_ULINT, (VZ 9223372036854775808)));
     ("main", (S_DATE, (VZ 0)));
     ("ul", (S_ULINT, (VZ 0)))]
    [("ul", Arg "#0");
     ("main", Call "ULINT_TO_DATE" [Arg "ul"])]
    (Some [("main", (VZ (-9223372036854775808)))]);
  Test 1548 (* ulint_to_dt_conversion *)
    [("#0", (S_ULINT, (VZ 1669244400000000)));
     ("main", (S_DT, (VZ 0)));
     ("ul", (S_ULINT, (VZ 0)))]
    [("ul", Arg "#0");
     ("main", Call "ULINT_TO_DT" [Arg "ul"])]
    (Some [("main", (VZ 1669244400000000))]);
  Test 1572 (* lword_to_ltod_conversion *)
    [("#0", (S_LWORD, (VZ 1669244400000000123)));
     ("main", (S_TOD, (VZ 0)));
     ("ul", (S_LWORD, (VZ 0)))]
    [("ul", Arg "#0");
     ("main", Call "LWORD_TO_TOD" [Arg "ul"])]
    (Some [("main", (VZ 1669244400000000123))]);
  Test 1596 (* lint_to_ltod_conversion *)
    [("#0", (S_LINT, (VZ 1669244400000000123)));
     ("main", (S_TOD, (VZ 0)));
     ("l", (S_LINT, (VZ 0)))]
    [("l", Arg "#0");
     ("main", Call "LINT_TO_TOD" [Arg "l"])]
    (Some [("main", (VZ 1669244400000000123))]);
  Test 1620 (* trunc_lreal_to_lint *)
    [("#0", (S_LREAL, (VF (FNum (S754_finite false 8687443681197687 (-46))))));
     ("main", (S_LINT, (VZ 0)));
     ("r", (S_LREAL, (VF (FNum (S754_zero false)))))]
    [("r", Arg "#0");
     ("main", Call "TRUNC" [Arg "r"])]
    (Some [("main", (VZ 123))]);
  Test 1703 (* dt_to_string_conversion *)
    [("#0", (S_DT, (VZ 4200000000000)));
     ("main", (S_STRING, (VS ([] ++ repeat 0 81))));
     ("in", (S_DT, (VZ 0)))]
    [("in", Arg "#0");
     ("main", Call "DT_TO_STRING" [Arg "in"])]
    (Some [("main", (VS [49; 57; 55; 48; 45; 48; 49; 45; 48; 49; 45; 48; 49; 58; 49; 48; 58; 48; 48]))]);
  Test 1731 (* dt_to_wstring_conversion *)
    [("#0", (S_DT, (VZ 4200000000000)));
     ("main", (S_WSTRING, (VS ([] ++ repeat 0 81))));
     ("in", (S_DT, (VZ 0)))]
    [("in", Arg "#0");
     ("main", Call "DT_TO_WSTRING" [Arg "in"])]
    (Some [("main", (VS [49; 57; 55; 48; 45; 48; 49; 45; 48; 49; 45; 48; 49; 58; 49; 48; 58; 48; 48]))]);
  Test 1760 (* date_to_string_conversion *)
    [("#0", (S_DATE, (VZ 0)));
     ("main", (S_STRING, (VS ([] ++ repeat 0 81))));
     ("in", (S_DATE, (VZ 0)))]
    [("in", Arg "#0");
     ("main", Call "DATE_TO_STRING" [Arg "in"])]
    (Some [("main", (VS [49; 57; 55; 48; 45; 48; 49; 45; 48; 49]))]);
  Test 1788 (* date_to_wstring_conversion *)
    [("#0", (S_DATE, (VZ 0)));
     ("main", (S_WSTRING, (VS ([] ++ repeat 0 81))));
     ("in", (S_DATE, (VZ 0)))]
    [("in", Arg "#0");
     ("main", Call "DATE_TO_WSTRING" [Arg "in"])]
    (Some [("main", (VS [49; 57; 55; 48; 45; 48; 49; 45; 48; 49]))]);
  Test 1817 (* time_to_string_conversion *)
    [("#0", (S_TIME, (VZ 518520123456789)));
     ("main", (S_STRING, (VS ([] ++ repeat 0 81))));
     ("in", (S_TIME, (VZ 0)))]
    [("in", Arg "#0");
     ("main", Call "TIME_TO_STRING" [Arg "in"])]
    (Some [("main", (VS [54; 100; 50; 109; 49; 50; 51; 109; 115; 52; 53; 54; 117; 115; 55; 56; 57; 110; 115]))]);
  Test 1845 (* time_to_wstring_conversion *)
    [("#0", (S_TIME, (VZ 529320000000009)));
     ("main", (S_WSTRING, (VS ([] ++ repeat 0 81))));
     ("in", (S_TIME, (VZ 0)))]
    [("in", Arg "#0");
     ("main", Call "TIME_TO_WSTRING" [Arg "in"])]
    (Some [("main", (VS [54; 100; 51; 104; 50; 109; 57; 110; 115]))]);
  Test 1874 (* tod_ltod_to_string_conversion *)
    [("#0", (S_TOD, (VZ 56215123000000)));
     ("main", (S_STRING, (VS ([] ++ repeat 0 81))));
     ("in", (S_TOD, (VZ 0)))]
    [("in", Arg "#0");
     ("main", Call "TOD_TO_STRING" [Arg "in"])]
    (Some [("main", (VS [49; 53; 58; 51; 54; 58; 53; 53; 46; 49; 50; 51]))]);
  Test 1902 (* tod_to_wstring_conversion *)
    [("#0", (S_TOD, (VZ 56215123000000)));
     ("main", (S_WSTRING, (VS ([] ++ repeat 0 81))));
     ("in", (S_TOD, (VZ 0)))]
    [("in", Arg "#0");
     ("main", Call "TOD_TO_WSTRING" [Arg "in"])]
    (Some [("main", (VS [49; 53; 58; 51; 54; 58; 53; 53; 46; 49; 50; 51]))]);
  Test 1931 (* ldt_to_string_conversion *)
    [("#0", (S_LDT, (VZ 4200000000000)));
     ("main", (S_STRING, (VS ([] ++ repeat 0 81))));
     ("in", (S_LDT, (VZ 0)))]
    [("in", Arg "#0");
     ("main", Call "LDT_TO_STRING" [Arg "in"])]
    (Some [("main", (VS [49; 57; 55; 48; 45; 48; 49; 45; 48; 49; 45; 48; 49; 58; 49; 48; 58; 48; 48]))]);
  Test 1959 (* ldt_to_wstring_conversion *)
    [("#0", (S_LDT, (VZ 4200000000000)));
     ("main", (S_WSTRING, (VS ([] ++ repeat 0 81))));
     ("in", (S_LDT, (VZ 0)))]
    [("in", Arg "#0");
     ("main", Call "LDT_TO_WSTRING" [Arg "in"])]
    (Some [("main", (VS [49; 57; 55; 48; 45; 48; 49; 45; 48; 49; 45; 48; 49; 58; 49; 48; 58; 48; 48]))]);
  Test 1988 (* ldate_to_string_conversion *)
    [("#0", (S_LDATE, (VZ 0)));
     ("main", (S_STRING, (VS ([] ++ repeat 0 81))));
     ("in", (S_LDATE, (VZ 0)))]
    [("in", Arg "#0");
     ("main", Call "LDATE_TO_STRING" [Arg "in"])]
    (Some [("main", (VS [49; 57; 55; 48; 45; 48; 49; 45; 48; 49]))]);
  Test 2016 (* ldate_to_wstring_conversion *)
    [("#0", (S_LDATE, (VZ 0)));
     ("main", (S_WSTRING, (VS ([] ++ repeat 0 81))));
     ("in", (S_LDATE, (VZ 0)))]
    [("in", Arg "#0");
     ("main", Call "LDATE_TO_WSTRING" [Arg "in"])]
    (Some [("main", (VS [49; 57; 55; 48; 45; 48; 49; 45; 48; 49]))]);
  Test 2045 (* ltime_to_string_conversion *)
    [("#0", (S_LTIME, (VZ 529320000000009)));
     ("main", (S_STRING, (VS ([] ++ repeat 0 81))));
     ("in", (S_LTIME, (VZ 0)))]
    [("in", Arg "#0");
     ("main", Call "LTIME_TO_STRING" [Arg "in"])]
    (Some [("main", (VS [54; 100; 51; 104; 50; 109; 57; 110; 115]))]);
  Test 2073 (* ltime_to_wstring_conversion *)
    [("#0", (S_LTIME, (VZ 529320000000009)));
     ("main", (S_WSTRING, (VS ([] ++ repeat 0 81))));
     ("in", (S_LTIME, (VZ 0)))]
    [("in", Arg "#0");
     ("main", Call "LTIME_TO_WSTRING" [Arg "in"])]
    (Some [("main", (VS [54; 100; 51; 104; 50; 109; 57; 110; 115]))]);
  Test 2102 (* ltod_to_string_conversion *)
    [("#0", (S_LTOD, (VZ 56215123000000)));
     ("main", (S_STRING, (VS ([] ++ repeat 0 81))));
     ("in", (S_LTOD, (VZ 0)))]
    [("in", Arg "#0");
     ("main", Call "LTOD_TO_STRING" [Arg "in"])]
    (Some [("main", (VS [49; 53; 58; 51; 54; 58; 53; 53; 46; 49; 50; 51]))]);
  Test 2130 (* ltod_to_wstring_conversion *)
    [("#0", (S_LTOD, (VZ 56215123000000)));
     ("main", (S_WSTRING, (VS ([] ++ repeat 0 81))));
     ("in", (S_LTOD, (VZ 0)))]
    [("in", Arg "#0");
     ("main", Call "LTOD_TO_WSTRING" [Arg "in"])]
    (Some [("main", (VS [49; 53; 58; 51; 54; 58; 53; 53; 46; 49; 50; 51]))])].
Example extra_function_tests_pass : forallb passes extra_function_tests = true.
Proof. vm_compute. reflexivity. Qed.

(** /repo/tests/num_conversion_tests.rs, at the lines given. *)
Definition num_conversion_tests : list test := [
  Test 119 (* lreal_to_real_conversion *)
    [("#0", (S_LREAL, (VF (FNum (S754_zero false)))));
     ("#1", (S_LREAL, (VF (FNum (S754_finite true 8912896000000000 (-19))))));
     ("#2", (S_LREAL, (VF (FNum (S754_finite false 8912896000000000 (-19))))));
     ("ret.zero", (S_REAL, (VF (FNum (S754_zero false)))));
     ("ret.negative", (S_REAL, (VF (FNum (S754_zero false)))));
     ("ret.positive", (S_REAL, (VF (FNum (S754_zero false)))))]
    [("ret.zero", Call "LREAL_TO_REAL" [Arg "#0"]);
     ("ret.negative", Call "LREAL_TO_REAL" [Arg "#1"]);
     ("ret.positive", Call "LREAL_TO_REAL" [Arg "#2"])]
    (Some [("ret.zero", (VF (FNum (S754_zero false)))); ("ret.negative", (VF (FNum (S754_finite true 16601562 10)))); ("ret.positive", (VF (FNum (S754_finite false 16601562 10))))]);
  Test 143 (* lreal_to_lint_conversion *)
    [("#0", (S_LREAL, (VF (FNum (S754_zero false)))));
     ("#1", (S_LREAL, (VF (FNum (S754_finite true 9007198717871094 10)))));
     ("#2", (S_LREAL, (VF (FNum (S754_finite false 9007198717871094 10)))));
     ("ret.zero", (S_LINT, (VZ 0)));
     ("ret.negative", (S_LINT, (VZ 0)));
     ("ret.positive", (S_LINT, (VZ 0)))]
    [("ret.zero", Call "LREAL_TO_LINT" [Arg "#0"]);
     ("ret.negative", Call "LREAL_TO_LINT" [Arg "#1"]);
     ("ret.positive", Call "LREAL_TO_LINT" [Arg "#2"])]
    (Some [("ret.zero", (VZ 0)); ("ret.negative", (VZ (-9223371487100000256))); ("ret.positive", (VZ 9223371487100000256))]);
  Test 167 (* lreal_to_dint_conversion *)
    [("#0", (S_LREAL, (VF (FNum (S754_finite false 7205759403792794 (-54))))));
     ("#1", (S_LREAL, (VF (FNum (S754_finite true 9007198717870080 (-22))))));
     ("#2", (S_LREAL, (VF (FNum (S754_finite false 9007198717870080 (-22))))));
     ("ret.zero", (S_DINT, (VZ 0)));
     ("ret.negative", (S_DINT, (VZ 0)));
     ("ret.positive", (S_DINT, (VZ 0)))]
    [("ret.zero", Call "LREAL_TO_DINT" [Arg "#0"]);
     ("ret.negative", Call "LREAL_TO_DINT" [Arg "#1"]);
     ("ret.positive", Call "LREAL_TO_DINT" [Arg "#2"])]
    (Some [("ret.zero", (VZ 0)); ("ret.negative", (VZ (-2147483520))); ("ret.positive", (VZ 2147483520))]);
  Test 191 (* lreal_to_int_conversion *)
    [("#0", (S_LREAL, (VF (FNum (S754_finite true 5404319552844595 (-54))))));
     ("#1", (S_LREAL, (VF (FNum (S754_finite true 9006924376834048 (-38))))));
     ("#2", (S_LREAL, (VF (FNum (S754_finite false 9006924376834048 (-38))))));
     ("ret.zero", (S_INT, (VZ 0)));
     ("ret.negative", (S_INT, (VZ 0)));
     ("ret.positive", (S_INT, (VZ 0)))]
    [("ret.zero", Call "LREAL_TO_INT" [Arg "#0"]);
     ("ret.negative", Call "LREAL_TO_INT" [Arg "#1"]);
     ("ret.positive", Call "LREAL_TO_INT" [Arg "#2"])]
    (Some [("ret.zero", (VZ 0)); ("ret.negative", (VZ (-32767))); ("ret.positive", (VZ 32767))]);
  Test 215 (* lreal_to_sint_conversion *)
    [("#0", (S_LREAL, (VF (FNum (S754_finite false 7205759403792794 (-54))))));
     ("#1", (S_LREAL, (VF (FNum (S754_finite true 8936830510563328 (-46))))));
     ("#2", (S_LREAL, (VF (FNum (S754_finite false 8936830510563328 (-46))))));
     ("ret.zero", (S_SINT, (VZ 0)));
     ("ret.negative", (S_SINT, (VZ 0)));
     ("ret.positive", (S_SINT, (VZ 0)))]
    [("ret.zero", Call "LREAL_TO_SINT" [Arg "#0"]);
     ("ret.negative", Call "LREAL_TO_SINT" [Arg "#1"]);
     ("ret.positive", Call "LREAL_TO_SINT" [Arg "#2"])]
    (Some [("ret.zero", (VZ 0)); ("ret.negative", (VZ (-127))); ("ret.positive", (VZ 127))]);
  Test 239 (* lreal_to_ulint_conversion *)
    [("#0", (S_LREAL, (VF (FNum (S754_finite false 7205759403792794 (-55))))));
     ("#1", (S_LREAL, (VF (FNum (S754_finite false 9007198717871094 11)))));
     ("ret.zero", (S_ULINT, (VZ 0)));
     ("ret.positive", (S_ULINT, (VZ 0)))]
    [("ret.zero", Call "LREAL_TO_ULINT" [Arg "#0"]);
     ("ret.positive", Call "LREAL_TO_ULINT" [Arg "#1"])]
    (Some [("ret.zero", (VZ 0)); ("ret.positive", (VZ 18446742974200000512))]);
  Test 267 (* lreal_to_udint_conversion *)
    [("#0", (S_LREAL, (VF (FNum (S754_finite false 7205759403792794 (-54))))));
     ("#1", (S_LREAL, (VF (FNum (S754_finite false 9007198717870080 (-21))))));
     ("ret.zero", (S_UDINT, (VZ 0)));
     ("ret.positive", (S_UDINT, (VZ 0)))]
    [("ret.zero", Call "LREAL_TO_UDINT" [Arg "#0"]);
     ("ret.positive", Call "LREAL_TO_UDINT" [Arg "#1"])]
    (Some [("ret.zero", (VZ 0)); ("ret.positive", (VZ 4294967040))]);
  Test 295 (* lreal_to_uint_conversion *)
    [("#0", (S_LREAL, (VF (FNum (S754_finite false 7205759403792794 (-54))))));
     ("#1", (S_LREAL, (VF (FNum (S754_finite false 9007061815787520 (-37))))));
     ("ret.zero", (S_UINT, (VZ 0)));
     ("ret.positive", (S_UINT, (VZ 0)))]
    [("ret.zero", Call "LREAL_TO_UINT" [Arg "#0"]);
     ("ret.positive", Call "LREAL_TO_UINT" [Arg "#1"])]
    (Some [("ret.zero", (VZ 0)); ("ret.positive", (VZ 65535))]);
  Test 323 (* lreal_to_usint_conversion *)
    [("#0", (S_LREAL, (VF (FNum (S754_finite false 5404319552844595 (-54))))));
     ("#1", (S_LREAL, (VF (FNum (S754_finite false 7916483719987200 (-45))))));
     ("ret.zero", (S_USINT, (VZ 0)));
     ("ret.positive", (S_USINT, (VZ 0)))]
    [("ret.zero", Call "LREAL_TO_USINT" [Arg "#0"]);
     ("ret.positive", Call "LREAL_TO_USINT" [Arg "#1"])]
    (Some [("ret.zero", (VZ 0)); ("ret.positive", (VZ 225))]);
  Test 351 (* real_to_lreal_conversion *)
    [("#0", (S_REAL, (VF (FNum (S754_zero false)))));
     ("#1", (S_REAL, (VF (FNum (S754_finite true 14080000 (-6))))));
     ("#2", (S_REAL, (VF (FNum (S754_finite false 14080000 (-6))))));
     ("ret.zero", (S_LREAL, (VF (FNum (S754_zero false)))));
     ("ret.negative", (S_LREAL, (VF (FNum (S754_zero false)))));
     ("ret.positive", (S_LREAL, (VF (FNum (S754_zero false)))))]
    [("ret.zero", Call "REAL_TO_LREAL" [Arg "#0"]);
     ("ret.negative", Call "REAL_TO_LREAL" [Arg "#1"]);
     ("ret.positive", Call "REAL_TO_LREAL" [Arg "#2"])]
    (Some [("ret.zero", (VF (FNum (S754_zero false)))); ("ret.negative", (VF (FNum (S754_finite true 7559142440960000 (-35))))); ("ret.positive", (VF (FNum (S754_finite false 7559142440960000 (-35)))))]);
  Test 375 (* real_to_lint_conversion *)
    [("#0", (S_REAL, (VF (FNum (S754_finite false 13421773 (-26))))));
     ("#1", (S_REAL, (VF (FNum (S754_finite true 16777215 39)))));
     ("#2", (S_REAL, (VF (FNum (S754_finite false 16777215 39)))));
     ("ret.zero", (S_LINT, (VZ 0)));
     ("ret.negative", (S_LINT, (VZ 0)));
     ("ret.positive", (S_LINT, (VZ 0)))]
    [("ret.zero", Call "REAL_TO_LINT" [Arg "#0"]);
     ("ret.negative", Call "REAL_TO_LINT" [Arg "#1"]);
     ("ret.positive", Call "REAL_TO_LINT" [Arg "#2"])]
    (Some [("ret.zero", (VZ 0)); ("ret.negative", (VZ (-9223371487098961920))); ("ret.positive", (VZ 9223371487098961920))]);
  Test 399 (* real_to_dint_conversion *)
    [("#0", (S_REAL, (VF (FNum (S754_finite false 13421773 (-26))))));
     ("#1", (S_REAL, (VF (FNum (S754_finite true 16777215 7)))));
     ("#2", (S_REAL, (VF (FNum (S754_finite false 16777215 7)))));
     ("ret.zero", (S_DINT, (VZ 0)));
     ("ret.negative", (S_DINT, (VZ 0)));
     ("ret.positive", (S_DINT, (VZ 0)))]
    [("ret.zero", Call "REAL_TO_DINT" [Arg "#0"]);
     ("ret.negative", Call "REAL_TO_DINT" [Arg "#1"]);
     ("ret.positive", Call "REAL_TO_DINT" [Arg "#2"])]
    (Some [("ret.zero", (VZ 0)); ("ret.negative", (VZ (-2147483520))); ("ret.positive", (VZ 2147483520))]);
  Test 423 (* real_to_int_conversion *)
    [("#0", (S_REAL, (VF (FNum (S754_finite false 10066330 (-25))))));
     ("#1", (S_REAL, (VF (FNum (S754_finite true 16776704 (-9))))));
     ("#2", (S_REAL, (VF (FNum (S754_finite false 16776704 (-9))))));
     ("ret.zero", (S_INT, (VZ 0)));
     ("ret.negative", (S_INT, (VZ 0)));
     ("ret.positive", (S_INT, (VZ 0)))]
    [("ret.zero", Call "REAL_TO_INT" [Arg "#0"]);
     ("ret.negative", Call "REAL_TO_INT" [Arg "#1"]);
     ("ret.positive", Call "REAL_TO_INT" [Arg "#2"])]
    (Some [("ret.zero", (VZ 0)); ("ret.negative", (VZ (-32767))); ("ret.positive", (VZ 32767))]);
  Test 447 (* real_to_sint_conversion *)
    [("#0", (S_REAL, (VF (FNum (S754_finite false 13421773 (-26))))));
     ("#1", (S_REAL, (VF (FNum (S754_finite true 16646144 (-17))))));
     ("#2", (S_REAL, (VF (FNum (S754_finite false 16646144 (-17))))));
     ("ret.zero", (S_SINT, (VZ 0)));
     ("ret.negative", (S_SINT, (VZ 0)));
     ("ret.positive", (S_SINT, (VZ 0)))]
    [("ret.zero", Call "REAL_TO_SINT" [Arg "#0"]);
     ("ret.negative", Call "REAL_TO_SINT" [Arg "#1"]);
     ("ret.positive", Call "REAL_TO_SINT" [Arg "#2"])]
    (Some [("ret.zero", (VZ 0)); ("ret.negative", (VZ (-127))); ("ret.positive", (VZ 127))]);
  Test 471 (* real_to_ulint_conversion *)
    [("#0", (S_REAL, (VF (FNum (S754_finite false 13421773 (-27))))));
     ("#1", (S_REAL, (VF (FNum (S754_finite false 16777215 40)))));
     ("ret.zero", (S_ULINT, (VZ 0)));
     ("ret.positive", (S_ULINT, (VZ 0)))]
    [("ret.zero", Call "REAL_TO_ULINT" [Arg "#0"]);
     ("ret.positive", Call "REAL_TO_ULINT" [Arg "#1"])]
    (Some [("ret.zero", (VZ 0)); ("ret.positive", (VZ 18446742974197923840))]);
  Test 499 (* real_to_udint_conversion *)
    [("#0", (S_REAL, (VF (FNum (S754_finite false 13421773 (-26))))));
     ("#1", (S_REAL, (VF (FNum (S754_finite false 16777215 8)))));
     ("ret.zero", (S_UDINT, (VZ 0)));
     ("ret.positive", (S_UDINT, (VZ 0)))]
    [("ret.zero", Call "REAL_TO_UDINT" [Arg "#0"]);
     ("ret.positive", Call "REAL_TO_UDINT" [Arg "#1"])]
    (Some [("ret.zero", (VZ 0)); ("ret.positive", (VZ 4294967040))]);
  Test 527 (* real_to_uint_conversion *)
    [("#0", (S_REAL, (VF (FNum (S754_finite false 13421773 (-25))))));
     ("#1", (S_REAL, (VF (FNum (S754_finite false 16776960 (-8))))));
     ("ret.zero", (S_UINT, (VZ 0)));
     ("ret.positive", (S_UINT, (VZ 0)))]
    [("ret.zero", Call "REAL_TO_UINT" [Arg "#0"]);
     ("ret.positive", Call "REAL_TO_UINT" [Arg "#1"])]
    (Some [("ret.zero", (VZ 0)); ("ret.positive", (VZ 65535))]);
  Test 555 (* real_to_usint_conversion *)
    [("#0", (S_REAL, (VF (FNum (S754_finite false 13421773 (-26))))));
     ("#1", (S_REAL, (VF (FNum (S754_finite false 14745600 (-16))))));
     ("ret.zero", (S_USINT, (VZ 0)));
     ("ret.positive", (S_USINT, (VZ 0)))]
    [("ret.zero", Call "REAL_TO_USINT" [Arg "#0"]);
     ("ret.positive", Call "REAL_TO_USINT" [Arg "#1"])]
    (Some [("ret.zero", (VZ 0)); ("ret.positive", (VZ 225))]);
  Test 583 (* lint_to_lreal_conversion *)
    [("#0", (S_LINT, (VZ 0)));
     ("#1", (S_LINT, (VZ (-11))));
     ("#2", (S_LINT, (VZ 22)));
     ("#3", (S_LINT, (VZ 9223372036854775806)));
     ("#4", (S_LINT, (VZ (-9223372036854775807))));
     ("#5", (S_LINT, (VZ (-9223372036854775808))));
     ("#6", (S_LINT, (VZ 9223372036854775807)));
     ("ret.zero", (S_LREAL, (VF (FNum (S754_zero false)))));
     ("ret.negative", (S_LREAL, (VF (FNum (S754_zero false)))));
     ("ret.positive", (S_LREAL, (VF (FNum (S754_zero false)))));
     ("ret.max_minus_one", (S_LREAL, (VF (FNum (S754_zero false)))));
     ("ret.min_plus_one", (S_LREAL, (VF (FNum (S754_zero false)))));
     ("ret.max_overflow", (S_LREAL, (VF (FNum (S754_zero false)))));
     ("ret.min_overflow", (S_LREAL, (VF (FNum (S754_zero false)))))]
    [("ret.zero", Call "LINT_TO_LREAL" [Arg "#0"]);
     ("ret.negative", Call "LINT_TO_LREAL" [Arg "#1"]);
     ("ret.positive", Call "LINT_TO_LREAL" [Arg "#2"]);
     ("ret.max_minus_one", Call "LINT_TO_LREAL" [Arg "#3"]);
     ("ret.min_plus_one", Call "LINT_TO_LREAL" [Arg "#4"]);
     ("ret.max_overflow", Call "LINT_TO_LREAL" [Arg "#5"]);
     ("ret.min_overflow", Call "LINT_TO_LREAL" [Arg "#6"])]
    (Some [("ret.zero", (VF (FNum (S754_zero false)))); ("ret.negative", (VF (FNum (S754_finite true 6192449487634432 (-49))))); ("ret.positive", (VF (FNum (S754_finite false 6192449487634432 (-48))))); ("ret.max_minus_one", (VF (FNum (S754_finite false 4503599627370496 11)))); ("ret.min_plus_one", (VF (FNum (S754_finite true 4503599627370496 11)))); ("ret.max_overflow", (VF (FNum (S754_finite true 4503599627370496 11)))); ("ret.min_overflow", (VF (FNum (S754_finite false 4503599627370496 11))))]);
  Test 621 (* lint_to_real_conversion *)
    [("#0", (S_LINT, (VZ 0)));
     ("#1", (S_LINT, (VZ (-11))));
     ("#2", (S_LINT, (VZ 22)));
     ("#3", (S_LINT, (VZ 9223372036854775806)));
     ("#4", (S_LINT, (VZ (-9223372036854775807))));
     ("#5", (S_LINT, (VZ (-9223372036854775808))));
     ("#6", (S_LINT, (VZ 9223372036854775807)));
     ("ret.zero", (S_REAL, (VF (FNum (S754_zero false)))));
     ("ret.negative", (S_REAL, (VF (FNum (S754_zero false)))));
     ("ret.positive", (S_REAL, (VF (FNum (S754_zero false)))));
     ("ret.max_minus_one", (S_REAL, (VF (FNum (S754_zero false)))));
     ("ret.min_plus_one", (S_REAL, (VF (FNum (S754_zero false)))));
     ("ret.max_overflow", (S_REAL, (VF (FNum (S754_zero false)))));
     ("ret.min_overflow", (S_REAL, (VF (FNum (S754_zero false)))))]
    [("ret.zero", Call "LINT_TO_REAL" [Arg "#0"]);
     ("ret.negative", Call "LINT_TO_REAL" [Arg "#1"]);
     ("ret.positive", Call "LINT_TO_REAL" [Arg "#2"]);
     ("ret.max_minus_one", Call "LINT_TO_REAL" [Arg "#3"]);
     ("ret.min_plus_one", Call "LINT_TO_REAL" [Arg "#4"]);
     ("ret.max_overflow", Call "LINT_TO_REAL" [Arg "#5"]);
     ("ret.min_overflow", Call "LINT_TO_REAL" [Arg "#6"])]
    (Some [("ret.zero", (VF (FNum (S754_zero false)))); ("ret.negative", (VF (FNum (S754_finite true 11534336 (-20))))); ("ret.positive", (VF (FNum (S754_finite false 11534336 (-19))))); ("ret.max_minus_one", (VF (FNum (S754_finite false 8388608 40)))); ("ret.min_plus_one", (VF (FNum (S754_finite true 8388608 40)))); ("ret.max_overflow", (VF (FNum (S754_finite true 8388608 40)))); ("ret.min_overflow", (VF (FNum (S754_finite false 8388608 40))))]);
  Test 659 (* lint_to_dint_conversion *)
    [("#0", (S_LINT, (VZ 0)));
     ("#1", (S_LINT, (VZ (-11))));
     ("#2", (S_LINT, (VZ 22)));
     ("#3", (S_LINT, (VZ 2147483646)));
     ("#4", (S_LINT, (VZ (-2147483647))));
     ("#5", (S_LINT, (VZ 2147483648)));
     ("#6", (S_LINT, (VZ (-2147483649))));
     ("ret.zero", (S_DINT, (VZ 0)));
     ("ret.negative", (S_DINT, (VZ 0)));
     ("ret.positive", (S_DINT, (VZ 0)));
     ("ret.max_minus_one", (S_DINT, (VZ 0)));
     ("ret.min_plus_one", (S_DINT, (VZ 0)));
     ("ret.max_overflow", (S_DINT, (VZ 0)));
     ("ret.min_overflow", (S_DINT, (VZ 0)))]
    [("ret.zero", Call "LINT_TO_DINT" [Arg "#0"]);
     ("ret.negative", Call "LINT_TO_DINT" [Arg "#1"]);
     ("ret.positive", Call "LINT_TO_DINT" [Arg "#2"]);
     ("ret.max_minus_one", Call "LINT_TO_DINT" [Arg "#3"]);
     ("ret.min_plus_one", Call "LINT_TO_DINT" [Arg "#4"]);
     ("ret.max_overflow", Call "LINT_TO_DINT" [Arg "#5"]);
     ("ret.min_overflow", Call "LINT_TO_DINT" [Arg "#6"])]
    (Some [("ret.zero", (VZ 0)); ("ret.negative", (VZ (-11))); ("ret.positive", (VZ 22)); ("ret.max_minus_one", (VZ 2147483646)); ("ret.min_plus_one", (VZ (-2147483647))); ("ret.max_overflow", (VZ (-2147483648))); ("ret.min_overflow", (VZ 2147483647))]);
  Test 697 (* lint_to_int_conversion *)
    [("#0", (S_LINT, (VZ 0)));
     ("#1", (S_LINT, (VZ (-11))));
     ("#2", (S_LINT, (VZ 22)));
     ("#3", (S_LINT, (VZ 32766)));
     ("#4", (S_LINT, (VZ (-32767))));
     ("#5", (S_LINT, (VZ 32768)));
     ("#6", (S_LINT, (VZ (-32769))));
     ("ret.zero", (S_INT, (VZ 0)));
     ("ret.negative", (S_INT, (VZ 0)));
     ("ret.positive", (S_INT, (VZ 0)));
     ("ret.max_minus_one", (S_INT, (VZ 0)));
     ("ret.min_plus_one", (S_INT, (VZ 0)));
     ("ret.max_overflow", (S_INT, (VZ 0)));
     ("ret.min_overflow", (S_INT, (VZ 0)))]
    [("ret.zero", Call "LINT_TO_INT" [Arg "#0"]);
     ("ret.negative", Call "LINT_TO_INT" [Arg "#1"]);
     ("ret.positive", Call "LINT_TO_INT" [Arg "#2"]);
     ("ret.max_minus_one", Call "LINT_TO_INT" [Arg "#3"]);
     ("ret.min_plus_one", Call "LINT_TO_INT" [Arg "#4"]);
     ("ret.max_overflow", Call "LINT_TO_INT" [Arg "#5"]);
     ("ret.min_overflow", Call "LINT_TO_INT" [Arg "#6"])]
    (Some [("ret.zero", (VZ 0)); ("ret.negative", (VZ (-11))); ("ret.positive", (VZ 22)); ("ret.max_minus_one", (VZ 32766)); ("ret.min_plus_one", (VZ (-32767))); ("ret.max_overflow", (VZ (-32768))); ("ret.min_overflow", (VZ 32767))]);
  Test 735 (* lint_to_sint_conversion *)
    [("#0", (S_LINT, (VZ 0)));
     ("#1", (S_LINT, (VZ (-11))));
     ("#2", (S_LINT, (VZ 22)));
     ("#3", (S_LINT, (VZ 126)));
     ("#4", (S_LINT, (VZ (-127))));
     ("#5", (S_LINT, (VZ 128)));
     ("#6", (S_LINT, (VZ (-129))));
     ("ret.zero", (S_SINT, (VZ 0)));
     ("ret.negative", (S_SINT, (VZ 0)));
     ("ret.positive", (S_SINT, (VZ 0)));
     ("ret.max_minus_one", (S_SINT, (VZ 0)));
     ("ret.min_plus_one", (S_SINT, (VZ 0)));
     ("ret.max_overflow", (S_SINT, (VZ 0)));
     ("ret.min_overflow", (S_SINT, (VZ 0)))]
    [("ret.zero", Call "LINT_TO_SINT" [Arg "#0"]);
     ("ret.negative", Call "LINT_TO_SINT" [Arg "#1"]);
     ("ret.positive", Call "LINT_TO_SINT" [Arg "#2"]);
     ("ret.max_minus_one", Call "LINT_TO_SINT" [Arg "#3"]);
     ("ret.min_plus_one", Call "LINT_TO_SINT" [Arg "#4"]);
     ("ret.max_overflow", Call "LINT_TO_SINT" [Arg "#5"]);
     ("ret.min_overflow", Call "LINT_TO_SINT" [Arg "#6"])]
    (Some [("ret.zero", (VZ 0)); ("ret.negative", (VZ (-11))); ("ret.positive", (VZ 22)); ("ret.max_minus_one", (VZ 126)); ("ret.min_plus_one", (VZ (-127))); ("ret.max_overflow", (VZ (-128))); ("ret.min_overflow", (VZ 127))]);
  Test 773 (* lint_to_ulint_conversion *)
    [("#0", (S_LINT, (VZ 0)));
     ("#1", (S_LINT, (VZ (-1))));
     ("#2", (S_LINT, (VZ 22)));
     ("#3", (S_LINT, (VZ 9223372036854775806)));
     ("#4", (S_LINT, (VZ (-9223372036854775807))));
     ("#5", (S_LINT, (VZ (-9223372036854775808))));
     ("#6", (S_LINT, (VZ 9223372036854775807)));
     ("ret.zero", (S_ULINT, (VZ 0)));
     ("ret.negative", (S_ULINT, (VZ 0)));
     ("ret.positive", (S_ULINT, (VZ 0)));
     ("ret.max_minus_one", (S_ULINT, (VZ 0)));
     ("ret.min_plus_one", (S_ULINT, (VZ 0)));
     ("ret.max_overflow", (S_ULINT, (VZ 0)));
     ("ret.min_overflow", (S_ULINT, (VZ 0)))]
    [("ret.zero", Call "LINT_TO_ULINT" [Arg "#0"]);
     ("ret.negative", Call "LINT_TO_ULINT" [Arg "#1"]);
     ("ret.positive", Call "LINT_TO_ULINT" [Arg "#2"]);
     ("ret.max_minus_one", Call "LINT_TO_ULINT" [Arg "#3"]);
     ("ret.min_plus_one", Call "LINT_TO_ULINT" [Arg "#4"]);
     ("ret.max_overflow", Call "LINT_TO_ULINT" [Arg "#5"]);
     ("ret.min_overflow", Call "LINT_TO_ULINT" [Arg "#6"])]
    (Some [("ret.zero", (VZ 0)); ("ret.negative", (VZ 18446744073709551615)); ("ret.positive", (VZ 22)); ("ret.max_minus_one", (VZ 9223372036854775806)); ("ret.min_plus_one", (VZ 9223372036854775809)); ("ret.max_overflow", (VZ 9223372036854775808)); ("ret.min_overflow", (VZ 9223372036854775807))]);
  Test 811 (* lint_to_udint_conversion *)
    [("#0", (S_LINT, (VZ 0)));
     ("#1", (S_LINT, (VZ (-1))));
     ("#2", (S_LINT, (VZ 22)));
     ("#3", (S_LINT, (VZ 4294967294)));
     ("#4", (S_LINT, (VZ 1)));
     ("#5", (S_LINT, (VZ 4294967296)));
     ("#6", (S_LINT, (VZ (-1))));
     ("ret.zero", (S_UDINT, (VZ 0)));
     ("ret.negative", (S_UDINT, (VZ 0)));
     ("ret.positive", (S_UDINT, (VZ 0)));
     ("ret.max_minus_one", (S_UDINT, (VZ 0)));
     ("ret.min_plus_one", (S_UDINT, (VZ 0)));
     ("ret.max_overflow", (S_UDINT, (VZ 0)));
     ("ret.min_overflow", (S_UDINT, (VZ 0)))]
    [("ret.zero", Call "LINT_TO_UDINT" [Arg "#0"]);
     ("ret.negative", Call "LINT_TO_UDINT" [Arg "#1"]);
     ("ret.positive", Call "LINT_TO_UDINT" [Arg "#2"]);
     ("ret.max_minus_one", Call "LINT_TO_UDINT" [Arg "#3"]);
     ("ret.min_plus_one", Call "LINT_TO_UDINT" [Arg "#4"]);
     ("ret.max_overflow", Call "LINT_TO_UDINT" [Arg "#5"]);
     ("ret.min_overflow", Call "LINT_TO_UDINT" [Arg "#6"])]
    (Some [("ret.zero", (VZ 0)); ("ret.negative", (VZ 4294967295)); ("ret.positive", (VZ 22)); ("ret.max_minus_one", (VZ 4294967294)); ("ret.min_plus_one", (VZ 1)); ("ret.max_overflow", (VZ 0)); ("ret.min_overflow", (VZ 4294967295))]);
  Test 849 (* lint_to_uint_conversion *)
    [("#0", (S_LINT, (VZ 0)));
     ("#1", (S_LINT, (VZ (-1))));
     ("#2", (S_LINT, (VZ 22)));
     ("#3", (S_LINT, (VZ 65534)));
     ("#4", (S_LINT, (VZ 1)));
     ("#5", (S_LINT, (VZ 65536)));
     ("#6", (S_LINT, (VZ (-1))));
     ("ret.zero", (S_UINT, (VZ 0)));
     ("ret.negative", (S_UINT, (VZ 0)));
     ("ret.positive", (S_UINT, (VZ 0)));
     ("ret.max_minus_one", (S_UINT, (VZ 0)));
     ("ret.min_plus_one", (S_UINT, (VZ 0)));
     ("ret.max_overflow", (S_UINT, (VZ 0)));
     ("ret.min_overflow", (S_UINT, (VZ 0)))]
    [("ret.zero", Call "LINT_TO_UINT" [Arg "#0"]);
     ("ret.negative", Call "LINT_TO_UINT" [Arg "#1"]);
     ("ret.positive", Call "LINT_TO_UINT" [Arg "#2"]);
     ("ret.max_minus_one", Call "LINT_TO_UINT" [Arg "#3"]);
     ("ret.min_plus_one", Call "LINT_TO_UINT" [Arg "#4"]);
     ("ret.max_overflow", Call "LINT_TO_UINT" [Arg "#5"]);
     ("ret.min_overflow", Call "LINT_TO_UINT" [Arg "#6"])]
    (Some [("ret.zero", (VZ 0)); ("ret.negative", (VZ 65535)); ("ret.positive", (VZ 22)); ("ret.max_minus_one", (VZ 65534)); ("ret.min_plus_one", (VZ 1)); ("ret.max_overflow", (VZ 0)); ("ret.min_overflow", (VZ 65535))]);
  Test 887 (* lint_to_usint_conversion *)
    [("#0", (S_LINT, (VZ 0)));
     ("#1", (S_LINT, (VZ (-1))));
     ("#2", (S_LINT, (VZ 22)));
     ("#3", (S_LINT, (VZ 254)));
     ("#4", (S_LINT, (VZ 1)));
     ("#5", (S_LINT, (VZ 256)));
     ("#6", (S_LINT, (VZ (-1))));
     ("ret.zero", (S_USINT, (VZ 0)));
     ("ret.negative", (S_USINT, (VZ 0)));
     ("ret.positive", (S_USINT, (VZ 0)));
     ("ret.max_minus_one", (S_USINT, (VZ 0)));
     ("ret.min_plus_one", (S_USINT, (VZ 0)));
     ("ret.max_overflow", (S_USINT, (VZ 0)));
     ("ret.min_overflow", (S_USINT, (VZ 0)))]
    [("ret.zero", Call "LINT_TO_USINT" [Arg "#0"]);
     ("ret.negative", Call "LINT_TO_USINT" [Arg "#1"]);
     ("ret.positive", Call "LINT_TO_USINT" [Arg "#2"]);
     ("ret.max_minus_one", Call "LINT_TO_USINT" [Arg "#3"]);
     ("ret.min_plus_one", Call "LINT_TO_USINT" [Arg "#4"]);
     ("ret.max_overflow", Call "LINT_TO_USINT" [Arg "#5"]);
     ("ret.min_overflow", Call "LINT_TO_USINT" [Arg "#6"])]
    (Some [("ret.zero", (VZ 0)); ("ret.negative", (VZ 255)); ("ret.positive", (VZ 22)); ("ret.max_minus_one", (VZ 254)); ("ret.min_plus_one", (VZ 1)); ("ret.max_overflow", (VZ 0)); ("ret.min_overflow", (VZ 255))]);
  Test 925 (* dint_to_lreal_conversion *)
    [("#0", (S_DINT, (VZ 0)));
     ("#1", (S_DINT, (VZ (-11))));
     ("#2", (S_DINT, (VZ 22)));
     ("#3", (S_DINT, (VZ 2147483646)));
     ("#4", (S_DINT, (VZ (-2147483647))));
     ("#5", (S_DINT, (VZ (-2147483648))));
     ("#6", (S_DINT, (VZ 2147483647)));
     ("ret.zero", (S_LREAL, (VF (FNum (S754_zero false)))));
     ("ret.negative", (S_LREAL, (VF (FNum (S754_zero false)))));
     ("ret.positive", (S_LREAL, (VF (FNum (S754_zero false)))));
     ("ret.max_minus_one", (S_LREAL, (VF (FNum (S754_zero false)))));
     ("ret.min_plus_one", (S_LREAL, (VF (FNum (S754_zero false)))));
     ("ret.max_overflow", (S_LREAL, (VF (FNum (S754_zero false)))));
     ("ret.min_overflow", (S_LREAL, (VF (FNum (S754_zero false)))))]
    [("ret.zero", Call "DINT_TO_LREAL" [Arg "#0"]);
     ("ret.negative", Call "DINT_TO_LREAL" [Arg "#1"]);
     ("ret.positive", Call "DINT_TO_LREAL" [Arg "#2"]);
     ("ret.max_minus_one", Call "DINT_TO_LREAL" [Arg "#3"]);
     ("ret.min_plus_one", Call "DINT_TO_LREAL" [Arg "#4"]);
     ("ret.max_overflow", Call "DINT_TO_LREAL" [Arg "#5"]);
     ("ret.min_overflow", Call "DINT_TO_LREAL" [Arg "#6"])]
    (Some [("ret.zero", (VF (FNum (S754_zero false)))); ("ret.negative", (VF (FNum (S754_finite true 6192449487634432 (-49))))); ("ret.positive", (VF (FNum (S754_finite false 6192449487634432 (-48))))); ("ret.max_minus_one", (VF (FNum (S754_finite false 9007199246352384 (-22))))); ("ret.min_plus_one", (VF (FNum (S754_finite true 9007199250546688 (-22))))); ("ret.max_overflow", (VF (FNum (S754_finite true 4503599627370496 (-21))))); ("ret.min_overflow", (VF (FNum (S754_finite false 9007199250546688 (-22)))))]);
  Test 963 (* dint_to_real_conversion *)
    [("#0", (S_DINT, (VZ 0)));
     ("#1", (S_DINT, (VZ (-11))));
     ("#2", (S_DINT, (VZ 22)));
     ("#3", (S_DINT, (VZ 2147483646)));
     ("#4", (S_DINT, (VZ (-2147483647))));
     ("#5", (S_DINT, (VZ (-2147483648))));
     ("#6", (S_DINT, (VZ 2147483647)));
     ("ret.zero", (S_REAL, (VF (FNum (S754_zero false)))));
     ("ret.negative", (S_REAL, (VF (FNum (S754_zero false)))));
     ("ret.positive", (S_REAL, (VF (FNum (S754_zero false)))));
     ("ret.max_minus_one", (S_REAL, (VF (FNum (S754_zero false)))));
     ("ret.min_plus_one", (S_REAL, (VF (FNum (S754_zero false)))));
     ("ret.max_overflow", (S_REAL, (VF (FNum (S754_zero false)))));
     ("ret.min_overflow", (S_REAL, (VF (FNum (S754_zero false)))))]
    [("ret.zero", Call "DINT_TO_REAL" [Arg "#0"]);
     ("ret.negative", Call "DINT_TO_REAL" [Arg "#1"]);
     ("ret.positive", Call "DINT_TO_REAL" [Arg "#2"]);
     ("ret.max_minus_one", Call "DINT_TO_REAL" [Arg "#3"]);
     ("ret.min_plus_one", Call "DINT_TO_REAL" [Arg "#4"]);
     ("ret.max_overflow", Call "DINT_TO_REAL" [Arg "#5"]);
     ("ret.min_overflow", Call "DINT_TO_REAL" [Arg "#6"])]
    (Some [("ret.zero", (VF (FNum (S754_zero false)))); ("ret.negative", (VF (FNum (S754_finite true 11534336 (-20))))); ("ret.positive", (VF (FNum (S754_finite false 11534336 (-19))))); ("ret.max_minus_one", (VF (FNum (S754_finite false 8388608 8)))); ("ret.min_plus_one", (VF (FNum (S754_finite true 8388608 8)))); ("ret.max_overflow", (VF (FNum (S754_finite true 8388608 8)))); ("ret.min_overflow", (VF (FNum (S754_finite false 8388608 8))))]);
  Test 1001 (* dint_to_lint_conversion *)
    [("#0", (S_DINT, (VZ 0)));
     ("#1", (S_DINT, (VZ (-11))));
     ("#2", (S_DINT, (VZ 22)));
     ("#3", (S_DINT, (VZ 2147483646)));
     ("#4", (S_DINT, (VZ (-2147483647))));
     ("#5", (S_DINT, (VZ (-2147483648))));
     ("#6", (S_DINT, (VZ 2147483647)));
     ("ret.zero", (S_LINT, (VZ 0)));
     ("ret.negative", (S_LINT, (VZ 0)));
     ("ret.positive", (S_LINT, (VZ 0)));
     ("ret.max_minus_one", (S_LINT, (VZ 0)));
     ("ret.min_plus_one", (S_LINT, (VZ 0)));
     ("ret.max_overflow", (S_LINT, (VZ 0)));
     ("ret.min_overflow", (S_LINT, (VZ 0)))]
    [("ret.zero", Call "DINT_TO_LINT" [Arg "#0"]);
     ("ret.negative", Call "DINT_TO_LINT" [Arg "#1"]);
     ("ret.positive", Call "DINT_TO_LINT" [Arg "#2"]);
     ("ret.max_minus_one", Call "DINT_TO_LINT" [Arg "#3"]);
     ("ret.min_plus_one", Call "DINT_TO_LINT" [Arg "#4"]);
     ("ret.max_overflow", Call "DINT_TO_LINT" [Arg "#5"]);
     ("ret.min_overflow", Call "DINT_TO_LINT" [Arg "#6"])]
    (Some [("ret.zero", (VZ 0)); ("ret.negative", (VZ (-11))); ("ret.positive", (VZ 22)); ("ret.max_minus_one", (VZ 2147483646)); ("ret.min_plus_one", (VZ (-2147483647))); ("ret.max_overflow", (VZ (-2147483648))); ("ret.min_overflow", (VZ 2147483647))]);
  Test 1039 (* dint_to_int_conversion *)
    [("#0", (S_DINT, (VZ 0)));
     ("#1", (S_DINT, (VZ (-11))));
     ("#2", (S_DINT, (VZ 22)));
     ("#3", (S_DINT, (VZ 32766)));
     ("#4", (S_DINT, (VZ (-32767))));
     ("#5", (S_DINT, (VZ 32768)));
     ("#6", (S_DINT, (VZ (-32769))));
     ("ret.zero", (S_INT, (VZ 0)));
     ("ret.negative", (S_INT, (VZ 0)));
     ("ret.positive", (S_INT, (VZ 0)));
     ("ret.max_minus_one", (S_INT, (VZ 0)));
     ("ret.min_plus_one", (S_INT, (VZ 0)));
     ("ret.max_overflow", (S_INT, (VZ 0)));
     ("ret.min_overflow", (S_INT, (VZ 0)))]
    [("ret.zero", Call "DINT_TO_INT" [Arg "#0"]);
     ("ret.negative", Call "DINT_TO_INT" [Arg "#1"]);
     ("ret.positive", Call "DINT_TO_INT" [Arg "#2"]);
     ("ret.max_minus_one", Call "DINT_TO_INT" [Arg "#3"]);
     ("ret.min_plus_one", Call "DINT_TO_INT" [Arg "#4"]);
     ("ret.max_overflow", Call "DINT_TO_INT" [Arg "#5"]);
     ("ret.min_overflow", Call "DINT_TO_INT" [Arg "#6"])]
    (Some [("ret.zero", (VZ 0)); ("ret.negative", (VZ (-11))); ("ret.positive", (VZ 22)); ("ret.max_minus_one", (VZ 32766)); ("ret.min_plus_one", (VZ (-32767))); ("ret.max_overflow", (VZ (-32768))); ("ret.min_overflow", (VZ 32767))]);
  Test 1077 (* dint_to_sint_conversion *)
    [("#0", (S_DINT, (VZ 0)));
     ("#1", (S_DINT, (VZ (-11))));
     ("#2", (S_DINT, (VZ 22)));
     ("#3", (S_DINT, (VZ 126)));
     ("#4", (S_DINT, (VZ (-127))));
     ("#5", (S_DINT, (VZ 128)));
     ("#6", (S_DINT, (VZ (-129))));
     ("ret.zero", (S_SINT, (VZ 0)));
     ("ret.negative", (S_SINT, (VZ 0)));
     ("ret.positive", (S_SINT, (VZ 0)));
     ("ret.max_minus_one", (S_SINT, (VZ 0)));
     ("ret.min_plus_one", (S_SINT, (VZ 0)));
     ("ret.max_overflow", (S_SINT, (VZ 0)));
     ("ret.min_overflow", (S_SINT, (VZ 0)))]
    [("ret.zero", Call "DINT_TO_SINT" [Arg "#0"]);
     ("ret.negative", Call "DINT_TO_SINT" [Arg "#1"]);
     ("ret.positive", Call "DINT_TO_SINT" [Arg "#2"]);
     ("ret.max_minus_one", Call "DINT_TO_SINT" [Arg "#3"]);
     ("ret.min_plus_one", Call "DINT_TO_SINT" [Arg "#4"]);
     ("ret.max_overflow", Call "DINT_TO_SINT" [Arg "#5"]);
     ("ret.min_overflow", Call "DINT_TO_SINT" [Arg "#6"])]
    (Some [("ret.zero", (VZ 0)); ("ret.negative", (VZ (-11))); ("ret.positive", (VZ 22)); ("ret.max_minus_one", (VZ 126)); ("ret.min_plus_one", (VZ (-127))); ("ret.max_overflow", (VZ (-128))); ("ret.min_overflow", (VZ 127))]);
  Test 1115 (* dint_to_ulint_conversion *)
    [("#0", (S_DINT, (VZ 0)));
     ("#1", (S_DINT, (VZ (-1))));
     ("#2", (S_DINT, (VZ 22)));
     ("#3", (S_DINT, (VZ 2147483646)));
     ("#4", (S_DINT, (VZ (-2147483647))));
     ("#5", (S_DINT, (VZ (-2147483648))));
     ("#6", (S_DINT, (VZ 2147483647)));
     ("ret.zero", (S_ULINT, (VZ 0)));
     ("ret.negative", (S_ULINT, (VZ 0)));
     ("ret.positive", (S_ULINT, (VZ 0)));
     ("ret.max_minus_one", (S_ULINT, (VZ 0)));
     ("ret.min_plus_one", (S_ULINT, (VZ 0)));
     ("ret.max_overflow", (S_ULINT, (VZ 0)));
     ("ret.min_overflow", (S_ULINT, (VZ 0)))]
    [("ret.zero", Call "DINT_TO_ULINT" [Arg "#0"]);
     ("ret.negative", Call "DINT_TO_ULINT" [Arg "#1"]);
     ("ret.positive", Call "DINT_TO_ULINT" [Arg "#2"]);
     ("ret.max_minus_one", Call "DINT_TO_ULINT" [Arg "#3"]);
     ("ret.min_plus_one", Call "DINT_TO_ULINT" [Arg "#4"]);
     ("ret.max_overflow", Call "DINT_TO_ULINT" [Arg "#5"]);
     ("ret.min_overflow", Call "DINT_TO_ULINT" [Arg "#6"])]
    (Some [("ret.zero", (VZ 0)); ("ret.negative", (VZ 18446744073709551615)); ("ret.positive", (VZ 22)); ("ret.max_minus_one", (VZ 2147483646)); ("ret.min_plus_one", (VZ 18446744071562067969)); ("ret.max_overflow", (VZ 18446744071562067968)); ("ret.min_overflow", (VZ 2147483647))]);
  Test 1153 (* dint_to_udint_conversion *)
    [("#0", (S_DINT, (VZ 0)));
     ("#1", (S_DINT, (VZ (-1))));
     ("#2", (S_DINT, (VZ 22)));
     ("#3", (S_DINT, (VZ 2147483646)));
     ("#4", (S_DINT, (VZ (-2147483647))));
     ("#5", (S_DINT, (VZ (-2147483648))));
     ("#6", (S_DINT, (VZ 2147483647)));
     ("ret.zero", (S_UDINT, (VZ 0)));
     ("ret.negative", (S_UDINT, (VZ 0)));
     ("ret.positive", (S_UDINT, (VZ 0)));
     ("ret.max_minus_one", (S_UDINT, (VZ 0)));
     ("ret.min_plus_one", (S_UDINT, (VZ 0)));
     ("ret.max_overflow", (S_UDINT, (VZ 0)));
     ("ret.min_overflow", (S_UDINT, (VZ 0)))]
    [("ret.zero", Call "DINT_TO_UDINT" [Arg "#0"]);
     ("ret.negative", Call "DINT_TO_UDINT" [Arg "#1"]);
     ("ret.positive", Call "DINT_TO_UDINT" [Arg "#2"]);
     ("ret.max_minus_one", Call "DINT_TO_UDINT" [Arg "#3"]);
     ("ret.min_plus_one", Call "DINT_TO_UDINT" [Arg "#4"]);
     ("ret.max_overflow", Call "DINT_TO_UDINT" [Arg "#5"]);
     ("ret.min_overflow", Call "DINT_TO_UDINT" [Arg "#6"])]
    (Some [("ret.zero", (VZ 0)); ("ret.negative", (VZ 4294967295)); ("ret.positive", (VZ 22)); ("ret.max_minus_one", (VZ 2147483646)); ("ret.min_plus_one", (VZ 2147483649)); ("ret.max_overflow", (VZ 2147483648)); ("ret.min_overflow", (VZ 2147483647))]);
  Test 1191 (* dint_to_uint_conversion *)
    [("#0", (S_DINT, (VZ 0)));
     ("#1", (S_DINT, (VZ (-1))));
     ("#2", (S_DINT, (VZ 22)));
     ("#3", (S_DINT, (VZ 65534)));
     ("#4", (S_DINT, (VZ 1)));
     ("#5", (S_DINT, (VZ 65536)));
     ("#6", (S_DINT, (VZ (-1))));
     ("ret.zero", (S_UINT, (VZ 0)));
     ("ret.negative", (S_UINT, (VZ 0)));
     ("ret.positive", (S_UINT, (VZ 0)));
     ("ret.max_minus_one", (S_UINT, (VZ 0)));
     ("ret.min_plus_one", (S_UINT, (VZ 0)));
     ("ret.max_overflow", (S_UINT, (VZ 0)));
     ("ret.min_overflow", (S_UINT, (VZ 0)))]
    [("ret.zero", Call "DINT_TO_UINT" [Arg "#0"]);
     ("ret.negative", Call "DINT_TO_UINT" [Arg "#1"]);
     ("ret.positive", Call "DINT_TO_UINT" [Arg "#2"]);
     ("ret.max_minus_one", Call "DINT_TO_UINT" [Arg "#3"]);
     ("ret.min_plus_one", Call "DINT_TO_UINT" [Arg "#4"]);
     ("ret.max_overflow", Call "DINT_TO_UINT" [Arg "#5"]);
     ("ret.min_overflow", Call "DINT_TO_UINT" [Arg "#6"])]
    (Some [("ret.zero", (VZ 0)); ("ret.negative", (VZ 65535)); ("ret.positive", (VZ 22)); ("ret.max_minus_one", (VZ 65534)); ("ret.min_plus_one", (VZ 1)); ("ret.max_overflow", (VZ 0)); ("ret.min_overflow", (VZ 65535))]);
  Test 1229 (* dint_to_usint_conversion *)
    [("#0", (S_DINT, (VZ 0)));
     ("#1", (S_DINT, (VZ (-1))));
     ("#2", (S_DINT, (VZ 22)));
     ("#3", (S_DINT, (VZ 254)));
     ("#4", (S_DINT, (VZ 1)));
     ("#5", (S_DINT, (VZ 256)));
     ("#6", (S_DINT, (VZ (-1))));
     ("ret.zero", (S_USINT, (VZ 0)));
     ("ret.negative", (S_USINT, (VZ 0)));
     ("ret.positive", (S_USINT, (VZ 0)));
     ("ret.max_minus_one", (S_USINT, (VZ 0)));
     ("ret.min_plus_one", (S_USINT, (VZ 0)));
     ("ret.max_overflow", (S_USINT, (VZ 0)));
     ("ret.min_overflow", (S_USINT, (VZ 0)))]
    [("ret.zero", Call "DINT_TO_USINT" [Arg "#0"]);
     ("ret.negative", Call "DINT_TO_USINT" [Arg "#1"]);
     ("ret.positive", Call "DINT_TO_USINT" [Arg "#2"]);
     ("ret.max_minus_one", Call "DINT_TO_USINT" [Arg "#3"]);
     ("ret.min_plus_one", Call "DINT_TO_USINT" [Arg "#4"]);
     ("ret.max_overflow", Call "DINT_TO_USINT" [Arg "#5"]);
     ("ret.min_overflow", Call "DINT_TO_USINT" [Arg "#6"])]
    (Some [("ret.zero", (VZ 0)); ("ret.negative", (VZ 255)); ("ret.positive", (VZ 22)); ("ret.max_minus_one", (VZ 254)); ("ret.min_plus_one", (VZ 1)); ("ret.max_overflow", (VZ 0)); ("ret.min_overflow", (VZ 255))]);
  Test 1267 (* int_to_lreal_conversion *)
    [("#0", (S_INT, (VZ 0)));
     ("#1", (S_INT, (VZ (-11))));
     ("#2", (S_INT, (VZ 22)));
     ("#3", (S_INT, (VZ 32766)));
     ("#4", (S_INT, (VZ (-32767))));
     ("#5", (S_INT, (VZ (-32768))));
     ("#6", (S_INT, (VZ 32767)));
     ("ret.zero", (S_LREAL, (VF (FNum (S754_zero false)))));
     ("ret.negative", (S_LREAL, (VF (FNum (S754_zero false)))));
     ("ret.positive", (S_LREAL, (VF (FNum (S754_zero false)))));
     ("ret.max_minus_one", (S_LREAL, (VF (FNum (S754_zero false)))));
     ("ret.min_plus_one", (S_LREAL, (VF (FNum (S754_zero false)))));
     ("ret.max_overflow", (S_LREAL, (VF (FNum (S754_zero false)))));
     ("ret.min_overflow", (S_LREAL, (VF (FNum (S754_zero false)))))]
    [("ret.zero", Call "INT_TO_LREAL" [Arg "#0"]);
     ("ret.negative", Call "INT_TO_LREAL" [Arg "#1"]);
     ("ret.positive", Call "INT_TO_LREAL" [Arg "#2"]);
     ("ret.max_minus_one", Call "INT_TO_LREAL" [Arg "#3"]);
     ("ret.min_plus_one", Call "INT_TO_LREAL" [Arg "#4"]);
     ("ret.max_overflow", Call "INT_TO_LREAL" [Arg "#5"]);
     ("ret.min_overflow", Call "INT_TO_LREAL" [Arg "#6"])]
    (Some [("ret.zero", (VF (FNum (S754_zero false)))); ("ret.negative", (VF (FNum (S754_finite true 6192449487634432 (-49))))); ("ret.positive", (VF (FNum (S754_finite false 6192449487634432 (-48))))); ("ret.max_minus_one", (VF (FNum (S754_finite false 9006649498927104 (-38))))); ("ret.min_plus_one", (VF (FNum (S754_finite true 9006924376834048 (-38))))); ("ret.max_overflow", (VF (FNum (S754_finite true 4503599627370496 (-37))))); ("ret.min_overflow", (VF (FNum (S754_finite false 9006924376834048 (-38)))))]);
  Test 1305 (* int_to_real_conversion *)
    [("#0", (S_INT, (VZ 0)));
     ("#1", (S_INT, (VZ (-11))));
     ("#2", (S_INT, (VZ 22)));
     ("#3", (S_INT, (VZ 32766)));
     ("#4", (S_INT, (VZ (-32767))));
     ("#5", (S_INT, (VZ (-32768))));
     ("#6", (S_INT, (VZ 32767)));
     ("ret.zero", (S_REAL, (VF (FNum (S754_zero false)))));
     ("ret.negative", (S_REAL, (VF (FNum (S754_zero false)))));
     ("ret.positive", (S_REAL, (VF (FNum (S754_zero false)))));
     ("ret.max_minus_one", (S_REAL, (VF (FNum (S754_zero false)))));
     ("ret.min_plus_one", (S_REAL, (VF (FNum (S754_zero false)))));
     ("ret.max_overflow", (S_REAL, (VF (FNum (S754_zero false)))));
     ("ret.min_overflow", (S_REAL, (VF (FNum (S754_zero false)))))]
    [("ret.zero", Call "INT_TO_REAL" [Arg "#0"]);
     ("ret.negative", Call "INT_TO_REAL" [Arg "#1"]);
     ("ret.positive", Call "INT_TO_REAL" [Arg "#2"]);
     ("ret.max_minus_one", Call "INT_TO_REAL" [Arg "#3"]);
     ("ret.min_plus_one", Call "INT_TO_REAL" [Arg "#4"]);
     ("ret.max_overflow", Call "INT_TO_REAL" [Arg "#5"]);
     ("ret.min_overflow", Call "INT_TO_REAL" [Arg "#6"])]
    (Some [("ret.zero", (VF (FNum (S754_zero false)))); ("ret.negative", (VF (FNum (S754_finite true 11534336 (-20))))); ("ret.positive", (VF (FNum (S754_finite false 11534336 (-19))))); ("ret.max_minus_one", (VF (FNum (S754_finite false 16776192 (-9))))); ("ret.min_plus_one", (VF (FNum (S754_finite true 16776704 (-9))))); ("ret.max_overflow", (VF (FNum (S754_finite true 8388608 (-8))))); ("ret.min_overflow", (VF (FNum (S754_finite false 16776704 (-9)))))]);
  Test 1343 (* int_to_lint_conversion *)
    [("#0", (S_INT, (VZ 0)));
     ("#1", (S_INT, (VZ (-11))));
     ("#2", (S_INT, (VZ 22)));
     ("#3", (S_INT, (VZ 32766)));
     ("#4", (S_INT, (VZ (-32767))));
     ("#5", (S_INT, (VZ (-32768))));
     ("#6", (S_INT, (VZ 32767)));
     ("ret.zero", (S_LINT, (VZ 0)));
     ("ret.negative", (S_LINT, (VZ 0)));
     ("ret.positive", (S_LINT, (VZ 0)));
     ("ret.max_minus_one", (S_LINT, (VZ 0)));
     ("ret.min_plus_one", (S_LINT, (VZ 0)));
     ("ret.max_overflow", (S_LINT, (VZ 0)));
     ("ret.min_overflow", (S_LINT, (VZ 0)))]
    [("ret.zero", Call "INT_TO_LINT" [Arg "#0"]);
     ("ret.negative", Call "INT_TO_LINT" [Arg "#1"]);
     ("ret.positive", Call "INT_TO_LINT" [Arg "#2"]);
     ("ret.max_minus_one", Call "INT_TO_LINT" [Arg "#3"]);
     ("ret.min_plus_one", Call "INT_TO_LINT" [Arg "#4"]);
     ("ret.max_overflow", Call "INT_TO_LINT" [Arg "#5"]);
     ("ret.min_overflow", Call "INT_TO_LINT" [Arg "#6"])]
    (Some [("ret.zero", (VZ 0)); ("ret.negative", (VZ (-11))); ("ret.positive", (VZ 22)); ("ret.max_minus_one", (VZ 32766)); ("ret.min_plus_one", (VZ (-32767))); ("ret.max_overflow", (VZ (-32768))); ("ret.min_overflow", (VZ 32767))]);
  Test 1381 (* int_to_dint_conversion *)
    [("#0", (S_INT, (VZ 0)));
     ("#1", (S_INT, (VZ (-11))));
     ("#2", (S_INT, (VZ 22)));
     ("#3", (S_INT, (VZ 32766)));
     ("#4", (S_INT, (VZ (-32767))));
     ("#5", (S_INT, (VZ (-32768))));
     ("#6", (S_INT, (VZ 32767)));
     ("ret.zero", (S_DINT, (VZ 0)));
     ("ret.negative", (S_DINT, (VZ 0)));
     ("ret.positive", (S_DINT, (VZ 0)));
     ("ret.max_minus_one", (S_DINT, (VZ 0)));
     ("ret.min_plus_one", (S_DINT, (VZ 0)));
     ("ret.max_overflow", (S_DINT, (VZ 0)));
     ("ret.min_overflow", (S_DINT, (VZ 0)))]
    [("ret.zero", Call "INT_TO_DINT" [Arg "#0"]);
     ("ret.negative", Call "INT_TO_DINT" [Arg "#1"]);
     ("ret.positive", Call "INT_TO_DINT" [Arg "#2"]);
     ("ret.max_minus_one", Call "INT_TO_DINT" [Arg "#3"]);
     ("ret.min_plus_one", Call "INT_TO_DINT" [Arg "#4"]);
     ("ret.max_overflow", Call "INT_TO_DINT" [Arg "#5"]);
     ("ret.min_overflow", Call "INT_TO_DINT" [Arg "#6"])]
    (Some [("ret.zero", (VZ 0)); ("ret.negative", (VZ (-11))); ("ret.positive", (VZ 22)); ("ret.max_minus_one", (VZ 32766)); ("ret.min_plus_one", (VZ (-32767))); ("ret.max_overflow", (VZ (-32768))); ("ret.min_overflow", (VZ 32767))]);
  Test 1419 (* int_to_sint_conversion *)
    [("#0", (S_INT, (VZ 0)));
     ("#1", (S_INT, (VZ (-11))));
     ("#2", (S_INT, (VZ 22)));
     ("#3", (S_INT, (VZ 126)));
     ("#4", (S_INT, (VZ (-127))));
     ("#5", (S_INT, (VZ 128)));
     ("#6", (S_INT, (VZ (-129))));
     ("ret.zero", (S_SINT, (VZ 0)));
     ("ret.negative", (S_SINT, (VZ 0)));
     ("ret.positive", (S_SINT, (VZ 0)));
     ("ret.max_minus_one", (S_SINT, (VZ 0)));
     ("ret.min_plus_one", (S_SINT, (VZ 0)));
     ("ret.max_overflow", (S_SINT, (VZ 0)));
     ("ret.min_overflow", (S_SINT, (VZ 0)))]
    [("ret.zero", Call "INT_TO_SINT" [Arg "#0"]);
     ("ret.negative", Call "INT_TO_SINT" [Arg "#1"]);
     ("ret.positive", Call "INT_TO_SINT" [Arg "#2"]);
     ("ret.max_minus_one", Call "INT_TO_SINT" [Arg "#3"]);
     ("ret.min_plus_one", Call "INT_TO_SINT" [Arg "#4"]);
     ("ret.max_overflow", Call "INT_TO_SINT" [Arg "#5"]);
     ("ret.min_overflow", Call "INT_TO_SINT" [Arg "#6"])]
    (Some [("ret.zero", (VZ 0)); ("ret.negative", (VZ (-11))); ("ret.positive", (VZ 22)); ("ret.max_minus_one", (VZ 126)); ("ret.min_plus_one", (VZ (-127))); ("ret.max_overflow", (VZ (-128))); ("ret.min_overflow", (VZ 127))]);
  Test 1457 (* int_to_ulint_conversion *)
    [("#0", (S_INT, (VZ 0)));
     ("#1", (S_INT, (VZ (-1))));
     ("#2", (S_INT, (VZ 22)));
     ("#3", (S_INT, (VZ 32766)));
     ("#4", (S_INT, (VZ (-32767))));
     ("#5", (S_INT, (VZ (-32768))));
     ("#6", (S_INT, (VZ 32767)));
     ("ret.zero", (S_ULINT, (VZ 0)));
     ("ret.negative", (S_ULINT, (VZ 0)));
     ("ret.positive", (S_ULINT, (VZ 0)));
     ("ret.max_minus_one", (S_ULINT, (VZ 0)));
     ("ret.min_plus_one", (S_ULINT, (VZ 0)));
     ("ret.max_overflow", (S_ULINT, (VZ 0)));
     ("ret.min_overflow", (S_ULINT, (VZ 0)))]
    [("ret.zero", Call "INT_TO_ULINT" [Arg "#0"]);
     ("ret.negative", Call "INT_TO_ULINT" [Arg "#1"]);
     ("ret.positive", Call "INT_TO_ULINT" [Arg "#2"]);
     ("ret.max_minus_one", Call "INT_TO_ULINT" [Arg "#3"]);
     ("ret.min_plus_one", Call "INT_TO_ULINT" [Arg "#4"]);
     ("ret.max_overflow", Call "INT_TO_ULINT" [Arg "#5"]);
     ("ret.min_overflow", Call "INT_TO_ULINT" [Arg "#6"])]
    (Some [("ret.zero", (VZ 0)); ("ret.negative", (VZ 18446744073709551615)); ("ret.positive", (VZ 22)); ("ret.max_minus_one", (VZ 32766)); ("ret.min_plus_one", (VZ 18446744073709518849)); ("ret.max_overflow", (VZ 18446744073709518848)); ("ret.min_overflow", (VZ 32767))]);
  Test 1495 (* int_to_udint_conversion *)
    [("#0", (S_INT, (VZ 0)));
     ("#1", (S_INT, (VZ (-1))));
     ("#2", (S_INT, (VZ 22)));
     ("#3", (S_INT, (VZ 32766)));
     ("#4", (S_INT, (VZ (-32767))));
     ("#5", (S_INT, (VZ (-32768))));
     ("#6", (S_INT, (VZ 32767)));
     ("ret.zero", (S_UDINT, (VZ 0)));
     ("ret.negative", (S_UDINT, (VZ 0)));
     ("ret.positive", (S_UDINT, (VZ 0)));
     ("ret.max_minus_one", (S_UDINT, (VZ 0)));
     ("ret.min_plus_one", (S_UDINT, (VZ 0)));
     ("ret.max_overflow", (S_UDINT, (VZ 0)));
     ("ret.min_overflow", (S_UDINT, (VZ 0)))]
    [("ret.zero", Call "INT_TO_UDINT" [Arg "#0"]);
     ("ret.negative", Call "INT_TO_UDINT" [Arg "#1"]);
     ("ret.positive", Call "INT_TO_UDINT" [Arg "#2"]);
     ("ret.max_minus_one", Call "INT_TO_UDINT" [Arg "#3"]);
     ("ret.min_plus_one", Call "INT_TO_UDINT" [Arg "#4"]);
     ("ret.max_overflow", Call "INT_TO_UDINT" [Arg "#5"]);
     ("ret.min_overflow", Call "INT_TO_UDINT" [Arg "#6"])]
    (Some [("ret.zero", (VZ 0)); ("ret.negative", (VZ 4294967295)); ("ret.positive", (VZ 22)); ("ret.max_minus_one", (VZ 32766)); ("ret.min_plus_one", (VZ 4294934529)); ("ret.max_overflow", (VZ 4294934528)); ("ret.min_overflow", (VZ 32767))]);
  Test 1533 (* int_to_uint_conversion *)
    [("#0", (S_INT, (VZ 0)));
     ("#1", (S_INT, (VZ (-1))));
     ("#2", (S_INT, (VZ 22)));
     ("#3", (S_INT, (VZ 32766)));
     ("#4", (S_INT, (VZ (-32767))));
     ("#5", (S_INT, (VZ (-32768))));
     ("#6", (S_INT, (VZ 32767)));
     ("ret.zero", (S_UINT, (VZ 0)));
     ("ret.negative", (S_UINT, (VZ 0)));
     ("ret.positive", (S_UINT, (VZ 0)));
     ("ret.max_minus_one", (S_UINT, (VZ 0)));
     ("ret.min_plus_one", (S_UINT, (VZ 0)));
     ("ret.max_overflow", (S_UINT, (VZ 0)));
     ("ret.min_overflow", (S_UINT, (VZ 0)))]
    [("ret.zero", Call "INT_TO_UINT" [Arg "#0"]);
     ("ret.negative", Call "INT_TO_UINT" [Arg "#1"]);
     ("ret.positive", Call "INT_TO_UINT" [Arg "#2"]);
     ("ret.max_minus_one", Call "INT_TO_UINT" [Arg "#3"]);
     ("ret.min_plus_one", Call "INT_TO_UINT" [Arg "#4"]);
     ("ret.max_overflow", Call "INT_TO_UINT" [Arg "#5"]);
     ("ret.min_overflow", Call "INT_TO_UINT" [Arg "#6"])]
    (Some [("ret.zero", (VZ 0)); ("ret.negative", (VZ 65535)); ("ret.positive", (VZ 22)); ("ret.max_minus_one", (VZ 32766)); ("ret.min_plus_one", (VZ 32769)); ("ret.max_overflow", (VZ 32768)); ("ret.min_overflow", (VZ 32767))]);
  Test 1571 (* int_to_usint_conversion *)
    [("#0", (S_INT, (VZ 0)));
     ("#1", (S_INT, (VZ (-1))));
     ("#2", (S_INT, (VZ 22)));
     ("#3", (S_INT, (VZ 254)));
     ("#4", (S_INT, (VZ 1)));
     ("#5", (S_INT, (VZ 256)));
     ("#6", (S_INT, (VZ (-1))));
     ("ret.zero", (S_USINT, (VZ 0)));
     ("ret.negative", (S_USINT, (VZ 0)));
     ("ret.positive", (S_USINT, (VZ 0)));
     ("ret.max_minus_one", (S_USINT, (VZ 0)));
     ("ret.min_plus_one", (S_USINT, (VZ 0)));
     ("ret.max_overflow", (S_USINT, (VZ 0)));
     ("ret.min_overflow", (S_USINT, (VZ 0)))]
    [("ret.zero", Call "INT_TO_USINT" [Arg "#0"]);
     ("ret.negative", Call "INT_TO_USINT" [Arg "#1"]);
     ("ret.positive", Call "INT_TO_USINT" [Arg "#2"]);
     ("ret.max_minus_one", Call "INT_TO_USINT" [Arg "#3"]);
     ("ret.min_plus_one", Call "INT_TO_USINT" [Arg "#4"]);
     ("ret.max_overflow", Call "INT_TO_USINT" [Arg "#5"]);
     ("ret.min_overflow", Call "INT_TO_USINT" [Arg "#6"])]
    (Some [("ret.zero", (VZ 0)); ("ret.negative", (VZ 255)); ("ret.positive", (VZ 22)); ("ret.max_minus_one", (VZ 254)); ("ret.min_plus_one", (VZ 1)); ("ret.max_overflow", (VZ 0)); ("ret.min_overflow", (VZ 255))]);
  Test 1609 (* sint_to_lreal_conversion *)
    [("#0", (S_SINT, (VZ 0)));
     ("#1", (S_SINT, (VZ (-11))));
     ("#2", (S_SINT, (VZ 22)));
     ("#3", (S_SINT, (VZ 126)));
     ("#4", (S_SINT, (VZ (-127))));
     ("#5", (S_SINT, (VZ (-128))));
     ("#6", (S_SINT, (VZ 127)));
     ("ret.zero", (S_LREAL, (VF (FNum (S754_zero false)))));
     ("ret.negative", (S_LREAL, (VF (FNum (S754_zero false)))));
     ("ret.positive", (S_LREAL, (VF (FNum (S754_zero false)))));
     ("ret.max_minus_one", (S_LREAL, (VF (FNum (S754_zero false)))));
     ("ret.min_plus_one", (S_LREAL, (VF (FNum (S754_zero false)))));
     ("ret.max_overflow", (S_LREAL, (VF (FNum (S754_zero false)))));
     ("ret.min_overflow", (S_LREAL, (VF (FNum (S754_zero false)))))]
    [("ret.zero", Call "SINT_TO_LREAL" [Arg "#0"]);
     ("ret.negative", Call "SINT_TO_LREAL" [Arg "#1"]);
     ("ret.positive", Call "SINT_TO_LREAL" [Arg "#2"]);
     ("ret.max_minus_one", Call "SINT_TO_LREAL" [Arg "#3"]);
     ("ret.min_plus_one", Call "SINT_TO_LREAL" [Arg "#4"]);
     ("ret.max_overflow", Call "SINT_TO_LREAL" [Arg "#5"]);
     ("ret.min_overflow", Call "SINT_TO_LREAL" [Arg "#6"])]
    (Some [("ret.zero", (VF (FNum (S754_zero false)))); ("ret.negative", (VF (FNum (S754_finite true 6192449487634432 (-49))))); ("ret.positive", (VF (FNum (S754_finite false 6192449487634432 (-48))))); ("ret.max_minus_one", (VF (FNum (S754_finite false 8866461766385664 (-46))))); ("ret.min_plus_one", (VF (FNum (S754_finite true 8936830510563328 (-46))))); ("ret.max_overflow", (VF (FNum (S754_finite true 4503599627370496 (-45))))); ("ret.min_overflow", (VF (FNum (S754_finite false 8936830510563328 (-46)))))]);
  Test 1647 (* sint_to_real_conversion *)
    [("#0", (S_SINT, (VZ 0)));
     ("#1", (S_SINT, (VZ (-11))));
     ("#2", (S_SINT, (VZ 22)));
     ("#3", (S_SINT, (VZ 126)));
     ("#4", (S_SINT, (VZ (-127))));
     ("#5", (S_SINT, (VZ (-128))));
     ("#6", (S_SINT, (VZ 127)));
     ("ret.zero", (S_REAL, (VF (FNum (S754_zero false)))));
     ("ret.negative", (S_REAL, (VF (FNum (S754_zero false)))));
     ("ret.positive", (S_REAL, (VF (FNum (S754_zero false)))));
     ("ret.max_minus_one", (S_REAL, (VF (FNum (S754_zero false)))));
     ("ret.min_plus_one", (S_REAL, (VF (FNum (S754_zero false)))));
     ("ret.max_overflow", (S_REAL, (VF (FNum (S754_zero false)))));
     ("ret.min_overflow", (S_REAL, (VF (FNum (S754_zero false)))))]
    [("ret.zero", Call "SINT_TO_REAL" [Arg "#0"]);
     ("ret.negative", Call "SINT_TO_REAL" [Arg "#1"]);
     ("ret.positive", Call "SINT_TO_REAL" [Arg "#2"]);
     ("ret.max_minus_one", Call "SINT_TO_REAL" [Arg "#3"]);
     ("ret.min_plus_one", Call "SINT_TO_REAL" [Arg "#4"]);
     ("ret.max_overflow", Call "SINT_TO_REAL" [Arg "#5"]);
     ("ret.min_overflow", Call "SINT_TO_REAL" [Arg "#6"])]
    (Some [("ret.zero", (VF (FNum (S754_zero false)))); ("ret.negative", (VF (FNum (S754_finite true 11534336 (-20))))); ("ret.positive", (VF (FNum (S754_finite false 11534336 (-19))))); ("ret.max_minus_one", (VF (FNum (S754_finite false 16515072 (-17))))); ("ret.min_plus_one", (VF (FNum (S754_finite true 16646144 (-17))))); ("ret.max_overflow", (VF (FNum (S754_finite true 8388608 (-16))))); ("ret.min_overflow", (VF (FNum (S754_finite false 16646144 (-17)))))]);
  Test 1685 (* sint_to_lint_conversion *)
    [("#0", (S_SINT, (VZ 0)));
     ("#1", (S_SINT, (VZ (-11))));
     ("#2", (S_SINT, (VZ 22)));
     ("#3", (S_SINT, (VZ 126)));
     ("#4", (S_SINT, (VZ (-127))));
     ("#5", (S_SINT, (VZ (-128))));
     ("#6", (S_SINT, (VZ 127)));
     ("ret.zero", (S_LINT, (VZ 0)));
     ("ret.negative", (S_LINT, (VZ 0)));
     ("ret.positive", (S_LINT, (VZ 0)));
     ("ret.max_minus_one", (S_LINT, (VZ 0)));
     ("ret.min_plus_one", (S_LINT, (VZ 0)));
     ("ret.max_overflow", (S_LINT, (VZ 0)));
     ("ret.min_overflow", (S_LINT, (VZ 0)))]
    [("ret.zero", Call "SINT_TO_LINT" [Arg "#0"]);
     ("ret.negative", Call "SINT_TO_LINT" [Arg "#1"]);
     ("ret.positive", Call "SINT_TO_LINT" [Arg "#2"]);
     ("ret.max_minus_one", Call "SINT_TO_LINT" [Arg "#3"]);
     ("ret.min_plus_one", Call "SINT_TO_LINT" [Arg "#4"]);
     ("ret.max_overflow", Call "SINT_TO_LINT" [Arg "#5"]);
     ("ret.min_overflow", Call "SINT_TO_LINT" [Arg "#6"])]
    (Some [("ret.zero", (VZ 0)); ("ret.negative", (VZ (-11))); ("ret.positive", (VZ 22)); ("ret.max_minus_one", (VZ 126)); ("ret.min_plus_one", (VZ (-127))); ("ret.max_overflow", (VZ (-128))); ("ret.min_overflow", (VZ 127))]);
  Test 1723 (* sint_to_dint_conversion *)
    [("#0", (S_SINT, (VZ 0)));
     ("#1", (S_SINT, (VZ (-11))));
     ("#2", (S_SINT, (VZ 22)));
     ("#3", (S_SINT, (VZ 126)));
     ("#4", (S_SINT, (VZ (-127))));
     ("#5", (S_SINT, (VZ (-128))));
     ("#6", (S_SINT, (VZ 127)));
     ("ret.zero", (S_DINT, (VZ 0)));
     ("ret.negative", (S_DINT, (VZ 0)));
     ("ret.positive", (S_DINT, (VZ 0)));
     ("ret.max_minus_one", (S_DINT, (VZ 0)));
     ("ret.min_plus_one", (S_DINT, (VZ 0)));
     ("ret.max_overflow", (S_DINT, (VZ 0)));
     ("ret.min_overflow", (S_DINT, (VZ 0)))]
    [("ret.zero", Call "SINT_TO_DINT" [Arg "#0"]);
     ("ret.negative", Call "SINT_TO_DINT" [Arg "#1"]);
     ("ret.positive", Call "SINT_TO_DINT" [Arg "#2"]);
     ("ret.max_minus_one", Call "SINT_TO_DINT" [Arg "#3"]);
     ("ret.min_plus_one", Call "SINT_TO_DINT" [Arg "#4"]);
     ("ret.max_overflow", Call "SINT_TO_DINT" [Arg "#5"]);
     ("ret.min_overflow", Call "SINT_TO_DINT" [Arg "#6"])]
    (Some [("ret.zero", (VZ 0)); ("ret.negative", (VZ (-11))); ("ret.positive", (VZ 22)); ("ret.max_minus_one", (VZ 126)); ("ret.min_plus_one", (VZ (-127))); ("ret.max_overflow", (VZ (-128))); ("ret.min_overflow", (VZ 127))]);
  Test 1761 (* sint_to_int_conversion *)
    [("#0", (S_SINT, (VZ 0)));
     ("#1", (S_SINT, (VZ (-11))));
     ("#2", (S_SINT, (VZ 22)));
     ("#3", (S_SINT, (VZ 126)));
     ("#4", (S_SINT, (VZ (-127))));
     ("#5", (S_SINT, (VZ (-128))));
     ("#6", (S_SINT, (VZ 127)));
     ("ret.zero", (S_INT, (VZ 0)));
     ("ret.negative", (S_INT, (VZ 0)));
     ("ret.positive", (S_INT, (VZ 0)));
     ("ret.max_minus_one", (S_INT, (VZ 0)));
     ("ret.min_plus_one", (S_INT, (VZ 0)));
     ("ret.max_overflow", (S_INT, (VZ 0)));
     ("ret.min_overflow", (S_INT, (VZ 0)))]
    [("ret.zero", Call "SINT_TO_INT" [Arg "#0"]);
     ("ret.negative", Call "SINT_TO_INT" [Arg "#1"]);
     ("ret.positive", Call "SINT_TO_INT" [Arg "#2"]);
     ("ret.max_minus_one", Call "SINT_TO_INT" [Arg "#3"]);
     ("ret.min_plus_one", Call "SINT_TO_INT" [Arg "#4"]);
     ("ret.max_overflow", Call "SINT_TO_INT" [Arg "#5"]);
     ("ret.min_overflow", Call "SINT_TO_INT" [Arg "#6"])]
    (Some [("ret.zero", (VZ 0)); ("ret.negative", (VZ (-11))); ("ret.positive", (VZ 22)); ("ret.max_minus_one", (VZ 126)); ("ret.min_plus_one", (VZ (-127))); ("ret.max_overflow", (VZ (-128))); ("ret.min_overflow", (VZ 127))]);
  Test 1799 (* sint_to_ulint_conversion *)
    [("#0", (S_SINT, (VZ 0)));
     ("#1", (S_SINT, (VZ (-1))));
     ("#2", (S_SINT, (VZ 22)));
     ("#3", (S_SINT, (VZ 126)));
     ("#4", (S_SINT, (VZ (-127))));
     ("#5", (S_SINT, (VZ (-128))));
     ("#6", (S_SINT, (VZ 127)));
     ("ret.zero", (S_ULINT, (VZ 0)));
     ("ret.negative", (S_ULINT, (VZ 0)));
     ("ret.positive", (S_ULINT, (VZ 0)));
     ("ret.max_minus_one", (S_ULINT, (VZ 0)));
     ("ret.min_plus_one", (S_ULINT, (VZ 0)));
     ("ret.max_overflow", (S_ULINT, (VZ 0)));
     ("ret.min_overflow", (S_ULINT, (VZ 0)))]
    [("ret.zero", Call "SINT_TO_ULINT" [Arg "#0"]);
     ("ret.negative", Call "SINT_TO_ULINT" [Arg "#1"]);
     ("ret.positive", Call "SINT_TO_ULINT" [Arg "#2"]);
     ("ret.max_minus_one", Call "SINT_TO_ULINT" [Arg "#3"]);
     ("ret.min_plus_one", Call "SINT_TO_ULINT" [Arg "#4"]);
     ("ret.max_overflow", Call "SINT_TO_ULINT" [Arg "#5"]);
     ("ret.min_overflow", Call "SINT_TO_ULINT" [Arg "#6"])]
    (Some [("ret.zero", (VZ 0)); ("ret.negative", (VZ 18446744073709551615)); ("ret.positive", (VZ 22)); ("ret.max_minus_one", (VZ 126)); ("ret.min_plus_one", (VZ 18446744073709551489)); ("ret.max_overflow", (VZ 18446744073709551488)); ("ret.min_overflow", (VZ 127))]);
  Test 1837 (* sint_to_udint_conversion *)
    [("#0", (S_SINT, (VZ 0)));
     ("#1", (S_SINT, (VZ (-1))));
     ("#2", (S_SINT, (VZ 22)));
     ("#3", (S_SINT, (VZ 126)));
     ("#4", (S_SINT, (VZ (-127))));
     ("#5", (S_SINT, (VZ (-128))));
     ("#6", (S_SINT, (VZ 127)));
     ("ret.zero", (S_UDINT, (VZ 0)));
     ("ret.negative", (S_UDINT, (VZ 0)));
     ("ret.positive", (S_UDINT, (VZ 0)));
     ("ret.max_minus_one", (S_UDINT, (VZ 0)));
     ("ret.min_plus_one", (S_UDINT, (VZ 0)));
     ("ret.max_overflow", (S_UDINT, (VZ 0)));
     ("ret.min_overflow", (S_UDINT, (VZ 0)))]
    [("ret.zero", Call "SINT_TO_UDINT" [Arg "#0"]);
     ("ret.negative", Call "SINT_TO_UDINT" [Arg "#1"]);
     ("ret.positive", Call "SINT_TO_UDINT" [Arg "#2"]);
     ("ret.max_minus_one", Call "SINT_TO_UDINT" [Arg "#3"]);
     ("ret.min_plus_one", Call "SINT_TO_UDINT" [Arg "#4"]);
     ("ret.max_overflow", Call "SINT_TO_UDINT" [Arg "#5"]);
     ("ret.min_overflow", Call "SINT_TO_UDINT" [Arg "#6"])]
    (Some [("ret.zero", (VZ 0)); ("ret.negative", (VZ 4294967295)); ("ret.positive", (VZ 22)); ("ret.max_minus_one", (VZ 126)); ("ret.min_plus_one", (VZ 4294967169)); ("ret.max_overflow", (VZ 4294967168)); ("ret.min_overflow", (VZ 127))]);
  Test 1875 (* sint_to_uint_conversion *)
    [("#0", (S_SINT, (VZ 0)));
     ("#1", (S_SINT, (VZ (-1))));
     ("#2", (S_SINT, (VZ 22)));
     ("#3", (S_SINT, (VZ 126)));
     ("#4", (S_SINT, (VZ (-127))));
     ("#5", (S_SINT, (VZ (-128))));
     ("#6", (S_SINT, (VZ 127)));
     ("ret.zero", (S_UINT, (VZ 0)));
     ("ret.negative", (S_UINT, (VZ 0)));
     ("ret.positive", (S_UINT, (VZ 0)));
     ("ret.max_minus_one", (S_UINT, (VZ 0)));
     ("ret.min_plus_one", (S_UINT, (VZ 0)));
     ("ret.max_overflow", (S_UINT, (VZ 0)));
     ("ret.min_overflow", (S_UINT, (VZ 0)))]
    [("ret.zero", Call "SINT_TO_UINT" [Arg "#0"]);
     ("ret.negative", Call "SINT_TO_UINT" [Arg "#1"]);
     ("ret.positive", Call "SINT_TO_UINT" [Arg "#2"]);
     ("ret.max_minus_one", Call "SINT_TO_UINT" [Arg "#3"]);
     ("ret.min_plus_one", Call "SINT_TO_UINT" [Arg "#4"]);
     ("ret.max_overflow", Call "SINT_TO_UINT" [Arg "#5"]);
     ("ret.min_overflow", Call "SINT_TO_UINT" [Arg "#6"])]
    (Some [("ret.zero", (VZ 0)); ("ret.negative", (VZ 65535)); ("ret.positive", (VZ 22)); ("ret.max_minus_one", (VZ 126)); ("ret.min_plus_one", (VZ 65409)); ("ret.max_overflow", (VZ 65408)); ("ret.min_overflow", (VZ 127))]);
  Test 1913 (* sint_to_usint_conversion *)
    [("#0", (S_SINT, (VZ 0)));
     ("#1", (S_SINT, (VZ (-1))));
     ("#2", (S_SINT, (VZ 22)));
     ("#3", (S_SINT, (VZ 126)));
     ("#4", (S_SINT, (VZ (-127))));
     ("#5", (S_SINT, (VZ (-128))));
     ("#6", (S_SINT, (VZ 127)));
     ("ret.zero", (S_USINT, (VZ 0)));
     ("ret.negative", (S_USINT, (VZ 0)));
     ("ret.positive", (S_USINT, (VZ 0)));
     ("ret.max_minus_one", (S_USINT, (VZ 0)));
     ("ret.min_plus_one", (S_USINT, (VZ 0)));
     ("ret.max_overflow", (S_USINT, (VZ 0)));
     ("ret.min_overflow", (S_USINT, (VZ 0)))]
    [("ret.zero", Call "SINT_TO_USINT" [Arg "#0"]);
     ("ret.negative", Call "SINT_TO_USINT" [Arg "#1"]);
     ("ret.positive", Call "SINT_TO_USINT" [Arg "#2"]);
     ("ret.max_minus_one", Call "SINT_TO_USINT" [Arg "#3"]);
     ("ret.min_plus_one", Call "SINT_TO_USINT" [Arg "#4"]);
     ("ret.max_overflow", Call "SINT_TO_USINT" [Arg "#5"]);
     ("ret.min_overflow", Call "SINT_TO_USINT" [Arg "#6"])]
    (Some [("ret.zero", (VZ 0)); ("ret.negative", (VZ 255)); ("ret.positive", (VZ 22)); ("ret.max_minus_one", (VZ 126)); ("ret.min_plus_one", (VZ 129)); ("ret.max_overflow", (VZ 128)); ("ret.min_overflow", (VZ 127))]);
  Test 1951 (* ulint_to_lreal_conversion *)
    [("#0", (S_ULINT, (VZ 0)));
     ("#1", (S_ULINT, (VZ 18446744073709551614)));
     ("#2", (S_ULINT, (VZ 22)));
     ("#3", (S_ULINT, (VZ 18446744073709551614)));
     ("#4", (S_ULINT, (VZ 1)));
     ("#5", (S_ULINT, (VZ 0)));
     ("#6", (S_ULINT, (VZ 18446744073709551615)));
     ("ret.zero", (S_LREAL, (VF (FNum (S754_zero false)))));
     ("ret.negative", (S_LREAL, (VF (FNum (S754_zero false)))));
     ("ret.positive", (S_LREAL, (VF (FNum (S754_zero false)))));
     ("ret.max_minus_one", (S_LREAL, (VF (FNum (S754_zero false)))));
     ("ret.min_plus_one", (S_LREAL, (VF (FNum (S754_zero false)))));
     ("ret.max_overflow", (S_LREAL, (VF (FNum (S754_zero false)))));
     ("ret.min_overflow", (S_LREAL, (VF (FNum (S754_zero false)))))]
    [("ret.zero", Call "ULINT_TO_LREAL" [Arg "#0"]);
     ("ret.negative", Call "ULINT_TO_LREAL" [Arg "#1"]);
     ("ret.positive", Call "ULINT_TO_LREAL" [Arg "#2"]);
     ("ret.max_minus_one", Call "ULINT_TO_LREAL" [Arg "#3"]);
     ("ret.min_plus_one", Call "ULINT_TO_LREAL" [Arg "#4"]);
     ("ret.max_overflow", Call "ULINT_TO_LREAL" [Arg "#5"]);
     ("ret.min_overflow", Call "ULINT_TO_LREAL" [Arg "#6"])]
    (Some [("ret.zero", (VF (FNum (S754_zero false)))); ("ret.negative", (VF (FNum (S754_finite false 4503599627370496 12)))); ("ret.positive", (VF (FNum (S754_finite false 6192449487634432 (-48))))); ("ret.max_minus_one", (VF (FNum (S754_finite false 4503599627370496 12)))); ("ret.min_plus_one", (VF (FNum (S754_finite false 4503599627370496 (-52))))); ("ret.max_overflow", (VF (FNum (S754_zero false)))); ("ret.min_overflow", (VF (FNum (S754_finite false 4503599627370496 12))))]);
  Test 1989 (* ulint_to_real_conversion *)
    [("#0", (S_ULINT, (VZ 0)));
     ("#1", (S_ULINT, (VZ 18446744073709551614)));
     ("#2", (S_ULINT, (VZ 22)));
     ("#3", (S_ULINT, (VZ 18446744073709551614)));
     ("#4", (S_ULINT, (VZ 1)));
     ("#5", (S_ULINT, (VZ 0)));
     ("#6", (S_ULINT, (VZ 18446744073709551615)));
     ("ret.zero", (S_REAL, (VF (FNum (S754_zero false)))));
     ("ret.negative", (S_REAL, (VF (FNum (S754_zero false)))));
     ("ret.positive", (S_REAL, (VF (FNum (S754_zero false)))));
     ("ret.max_minus_one", (S_REAL, (VF (FNum (S754_zero false)))));
     ("ret.min_plus_one", (S_REAL, (VF (FNum (S754_zero false)))));
     ("ret.max_overflow", (S_REAL, (VF (FNum (S754_zero false)))));
     ("ret.min_overflow", (S_REAL, (VF (FNum (S754_zero false)))))]
    [("ret.zero", Call "ULINT_TO_REAL" [Arg "#0"]);
     ("ret.negative", Call "ULINT_TO_REAL" [Arg "#1"]);
     ("ret.positive", Call "ULINT_TO_REAL" [Arg "#2"]);
     ("ret.max_minus_one", Call "ULINT_TO_REAL" [Arg "#3"]);
     ("ret.min_plus_one", Call "ULINT_TO_REAL" [Arg "#4"]);
     ("ret.max_overflow", Call "ULINT_TO_REAL" [Arg "#5"]);
     ("ret.min_overflow", Call "ULINT_TO_REAL" [Arg "#6"])]
    (Some [("ret.zero", (VF (FNum (S754_zero false)))); ("ret.negative", (VF (FNum (S754_finite false 8388608 41)))); ("ret.positive", (VF (FNum (S754_finite false 11534336 (-19))))); ("ret.max_minus_one", (VF (FNum (S754_finite false 8388608 41)))); ("ret.min_plus_one", (VF (FNum (S754_finite false 8388608 (-23))))); ("ret.max_overflow", (VF (FNum (S754_zero false)))); ("ret.min_overflow", (VF (FNum (S754_finite false 8388608 41))))]);
  Test 2027 (* ulint_to_lint_conversion *)
    [("#0", (S_ULINT, (VZ 0)));
     ("#1", (S_ULINT, (VZ 22)));
     ("#2", (S_ULINT, (VZ 9223372036854775806)));
     ("#3", (S_ULINT, (VZ 1)));
     ("#4", (S_ULINT, (VZ 9223372036854775808)));
     ("ret.zero", (S_LINT, (VZ 0)));
     ("ret.negative", (S_LINT, (VZ 0)));
     ("ret.positive", (S_LINT, (VZ 0)));
     ("ret.max_minus_one", (S_LINT, (VZ 0)));
     ("ret.min_plus_one", (S_LINT, (VZ 0)));
     ("ret.max_overflow", (S_LINT, (VZ 0)));
     ("ret.min_overflow", (S_LINT, (VZ 0)))]
    [("ret.zero", Call "ULINT_TO_LINT" [Arg "#0"]);
     ("ret.positive", Call "ULINT_TO_LINT" [Arg "#1"]);
     ("ret.max_minus_one", Call "ULINT_TO_LINT" [Arg "#2"]);
     ("ret.min_plus_one", Call "ULINT_TO_LINT" [Arg "#3"]);
     ("ret.max_overflow", Call "ULINT_TO_LINT" [Arg "#4"])]
    (Some [("ret.zero", (VZ 0)); ("ret.positive", (VZ 22)); ("ret.max_minus_one", (VZ 9223372036854775806)); ("ret.min_plus_one", (VZ 1)); ("ret.max_overflow", (VZ (-9223372036854775808)))]);
  Test 2061 (* ulint_to_dint_conversion *)
    [("#0", (S_ULINT, (VZ 0)));
     ("#1", (S_ULINT, (VZ 22)));
     ("#2", (S_ULINT, (VZ 2147483646)));
     ("#3", (S_ULINT, (VZ 1)));
     ("#4", (S_ULINT, (VZ 2147483648)));
     ("ret.zero", (S_DINT, (VZ 0)));
     ("ret.negative", (S_DINT, (VZ 0)));
     ("ret.positive", (S_DINT, (VZ 0)));
     ("ret.max_minus_one", (S_DINT, (VZ 0)));
     ("ret.min_plus_one", (S_DINT, (VZ 0)));
     ("ret.max_overflow", (S_DINT, (VZ 0)));
     ("ret.min_overflow", (S_DINT, (VZ 0)))]
    [("ret.zero", Call "ULINT_TO_DINT" [Arg "#0"]);
     ("ret.positive", Call "ULINT_TO_DINT" [Arg "#1"]);
     ("ret.max_minus_one", Call "ULINT_TO_DINT" [Arg "#2"]);
     ("ret.min_plus_one", Call "ULINT_TO_DINT" [Arg "#3"]);
     ("ret.max_overflow", Call "ULINT_TO_DINT" [Arg "#4"])]
    (Some [("ret.zero", (VZ 0)); ("ret.positive", (VZ 22)); ("ret.max_minus_one", (VZ 2147483646)); ("ret.min_plus_one", (VZ 1)); ("ret.max_overflow", (VZ (-2147483648)))]);
  Test 2095 (* ulint_to_int_conversion *)
    [("#0", (S_ULINT, (VZ 0)));
     ("#1", (S_ULINT, (VZ 22)));
     ("#2", (S_ULINT, (VZ 32766)));
     ("#3", (S_ULINT, (VZ 1)));
     ("#4", (S_ULINT, (VZ 32768)));
     ("ret.zero", (S_INT, (VZ 0)));
     ("ret.negative", (S_INT, (VZ 0)));
     ("ret.positive", (S_INT, (VZ 0)));
     ("ret.max_minus_one", (S_INT, (VZ 0)));
     ("ret.min_plus_one", (S_INT, (VZ 0)));
     ("ret.max_overflow", (S_INT, (VZ 0)));
     ("ret.min_overflow", (S_INT, (VZ 0)))]
    [("ret.zero", Call "ULINT_TO_INT" [Arg "#0"]);
     ("ret.positive", Call "ULINT_TO_INT" [Arg "#1"]);
     ("ret.max_minus_one", Call "ULINT_TO_INT" [Arg "#2"]);
     ("ret.min_plus_one", Call "ULINT_TO_INT" [Arg "#3"]);
     ("ret.max_overflow", Call "ULINT_TO_INT" [Arg "#4"])]
    (Some [("ret.zero", (VZ 0)); ("ret.positive", (VZ 22)); ("ret.max_minus_one", (VZ 32766)); ("ret.min_plus_one", (VZ 1)); ("ret.max_overflow", (VZ (-32768)))]);
  Test 2129 (* ulint_to_sint_conversion *)
    [("#0", (S_ULINT, (VZ 0)));
     ("#1", (S_ULINT, (VZ 22)));
     ("#2", (S_ULINT, (VZ 126)));
     ("#3", (S_ULINT, (VZ 1)));
     ("#4", (S_ULINT, (VZ 128)));
     ("ret.zero", (S_SINT, (VZ 0)));
     ("ret.negative", (S_SINT, (VZ 0)));
     ("ret.positive", (S_SINT, (VZ 0)));
     ("ret.max_minus_one", (S_SINT, (VZ 0)));
     ("ret.min_plus_one", (S_SINT, (VZ 0)));
     ("ret.max_overflow", (S_SINT, (VZ 0)));
     ("ret.min_overflow", (S_SINT, (VZ 0)))]
    [("ret.zero", Call "ULINT_TO_SINT" [Arg "#0"]);
     ("ret.positive", Call "ULINT_TO_SINT" [Arg "#1"]);
     ("ret.max_minus_one", Call "ULINT_TO_SINT" [Arg "#2"]);
     ("ret.min_plus_one", Call "ULINT_TO_SINT" [Arg "#3"]);
     ("ret.max_overflow", Call "ULINT_TO_SINT" [Arg "#4"])]
    (Some [("ret.zero", (VZ 0)); ("ret.positive", (VZ 22)); ("ret.max_minus_one", (VZ 126)); ("ret.min_plus_one", (VZ 1)); ("ret.max_overflow", (VZ (-128)))]);
  Test 2163 (* ulint_to_udint_conversion *)
    [("#0", (S_ULINT, (VZ 0)));
     ("#1", (S_ULINT, (VZ 18446744073709551615)));
     ("#2", (S_ULINT, (VZ 22)));
     ("#3", (S_ULINT, (VZ 4294967294)));
     ("#4", (S_ULINT, (VZ 1)));
     ("#5", (S_ULINT, (VZ 4294967296)));
     ("#6", (S_ULINT, (VZ 18446744073709551615)));
     ("ret.zero", (S_UDINT, (VZ 0)));
     ("ret.negative", (S_UDINT, (VZ 0)));
     ("ret.positive", (S_UDINT, (VZ 0)));
     ("ret.max_minus_one", (S_UDINT, (VZ 0)));
     ("ret.min_plus_one", (S_UDINT, (VZ 0)));
     ("ret.max_overflow", (S_UDINT, (VZ 0)));
     ("ret.min_overflow", (S_UDINT, (VZ 0)))]
    [("ret.zero", Call "ULINT_TO_UDINT" [Arg "#0"]);
     ("ret.negative", Call "ULINT_TO_UDINT" [Arg "#1"]);
     ("ret.positive", Call "ULINT_TO_UDINT" [Arg "#2"]);
     ("ret.max_minus_one", Call "ULINT_TO_UDINT" [Arg "#3"]);
     ("ret.min_plus_one", Call "ULINT_TO_UDINT" [Arg "#4"]);
     ("ret.max_overflow", Call "ULINT_TO_UDINT" [Arg "#5"]);
     ("ret.min_overflow", Call "ULINT_TO_UDINT" [Arg "#6"])]
    (Some [("ret.zero", (VZ 0)); ("ret.negative", (VZ 4294967295)); ("ret.positive", (VZ 22)); ("ret.max_minus_one", (VZ 4294967294)); ("ret.min_plus_one", (VZ 1)); ("ret.max_overflow", (VZ 0)); ("ret.min_overflow", (VZ 4294967295))]);
  Test 2201 (* ulint_to_uint_conversion *)
    [("#0", (S_ULINT, (VZ 0)));
     ("#1", (S_ULINT, (VZ 18446744073709551615)));
     ("#2", (S_ULINT, (VZ 22)));
     ("#3", (S_ULINT, (VZ 65534)));
     ("#4", (S_ULINT, (VZ 1)));
     ("#5", (S_ULINT, (VZ 65536)));
     ("#6", (S_ULINT, (VZ 18446744073709551615)));
     ("ret.zero", (S_UINT, (VZ 0)));
     ("ret.negative", (S_UINT, (VZ 0)));
     ("ret.positive", (S_UINT, (VZ 0)));
     ("ret.max_minus_one", (S_UINT, (VZ 0)));
     ("ret.min_plus_one", (S_UINT, (VZ 0)));
     ("ret.max_overflow", (S_UINT, (VZ 0)));
     ("ret.min_overflow", (S_UINT, (VZ 0)))]
    [("ret.zero", Call "ULINT_TO_UINT" [Arg "#0"]);
     ("ret.negative", Call "ULINT_TO_UINT" [Arg "#1"]);
     ("ret.positive", Call "ULINT_TO_UINT" [Arg "#2"]);
     ("ret.max_minus_one", Call "ULINT_TO_UINT" [Arg "#3"]);
     ("ret.min_plus_one", Call "ULINT_TO_UINT" [Arg "#4"]);
     ("ret.max_overflow", Call "ULINT_TO_UINT" [Arg "#5"]);
     ("ret.min_overflow", Call "ULINT_TO_UINT" [Arg "#6"])]
    (Some [("ret.zero", (VZ 0)); ("ret.negative", (VZ 65535)); ("ret.positive", (VZ 22)); ("ret.max_minus_one", (VZ 65534)); ("ret.min_plus_one", (VZ 1)); ("ret.max_overflow", (VZ 0)); ("ret.min_overflow", (VZ 65535))]);
  Test 2239 (* ulint_to_usint_conversion *)
    [("#0", (S_ULINT, (VZ 0)));
     ("#1", (S_ULINT, (VZ 18446744073709551615)));
     ("#2", (S_ULINT, (VZ 22)));
     ("#3", (S_ULINT, (VZ 254)));
     ("#4", (S_ULINT, (VZ 1)));
     ("#5", (S_ULINT, (VZ 256)));
     ("#6", (S_ULINT, (VZ 18446744073709551615)));
     ("ret.zero", (S_USINT, (VZ 0)));
     ("ret.negative", (S_USINT, (VZ 0)));
     ("ret.positive", (S_USINT, (VZ 0)));
     ("ret.max_minus_one", (S_USINT, (VZ 0)));
     ("ret.min_plus_one", (S_USINT, (VZ 0)));
     ("ret.max_overflow", (S_USINT, (VZ 0)));
     ("ret.min_overflow", (S_USINT, (VZ 0)))]
    [("ret.zero", Call "ULINT_TO_USINT" [Arg "#0"]);
     ("ret.negative", Call "ULINT_TO_USINT" [Arg "#1"]);
     ("ret.positive", Call "ULINT_TO_USINT" [Arg "#2"]);
     ("ret.max_minus_one", Call "ULINT_TO_USINT" [Arg "#3"]);
     ("ret.min_plus_one", Call "ULINT_TO_USINT" [Arg "#4"]);
     ("ret.max_overflow", Call "ULINT_TO_USINT" [Arg "#5"]);
     ("ret.min_overflow", Call "ULINT_TO_USINT" [Arg "#6"])]
    (Some [("ret.zero", (VZ 0)); ("ret.negative", (VZ 255)); ("ret.positive", (VZ 22)); ("ret.max_minus_one", (VZ 254)); ("ret.min_plus_one", (VZ 1)); ("ret.max_overflow", (VZ 0)); ("ret.min_overflow", (VZ 255))]);
  Test 2277 (* udint_to_lreal_conversion *)
    [("#0", (S_UDINT, (VZ 0)));
     ("#1", (S_UDINT, (VZ 4294967294)));
     ("#2", (S_UDINT, (VZ 22)));
     ("#3", (S_UDINT, (VZ 4294967294)));
     ("#4", (S_UDINT, (VZ 1)));
     ("#5", (S_UDINT, (VZ 0)));
     ("#6", (S_UDINT, (VZ 4294967295)));
     ("ret.zero", (S_LREAL, (VF (FNum (S754_zero false)))));
     ("ret.negative", (S_LREAL, (VF (FNum (S754_zero false)))));
     ("ret.positive", (S_LREAL, (VF (FNum (S754_zero false)))));
     ("ret.max_minus_one", (S_LREAL, (VF (FNum (S754_zero false)))));
     ("ret.min_plus_one", (S_LREAL, (VF (FNum (S754_zero false)))));
     ("ret.max_overflow", (S_LREAL, (VF (FNum (S754_zero false)))));
     ("ret.min_overflow", (S_LREAL, (VF (FNum (S754_zero false)))))]
    [("ret.zero", Call "UDINT_TO_LREAL" [Arg "#0"]);
     ("ret.negative", Call "UDINT_TO_LREAL" [Arg "#1"]);
     ("ret.positive", Call "UDINT_TO_LREAL" [Arg "#2"]);
     ("ret.max_minus_one", Call "UDINT_TO_LREAL" [Arg "#3"]);
     ("ret.min_plus_one", Call "UDINT_TO_LREAL" [Arg "#4"]);
     ("ret.max_overflow", Call "UDINT_TO_LREAL" [Arg "#5"]);
     ("ret.min_overflow", Call "UDINT_TO_LREAL" [Arg "#6"])]
    (Some [("ret.zero", (VF (FNum (S754_zero false)))); ("ret.negative", (VF (FNum (S754_finite false 9007199250546688 (-21))))); ("ret.positive", (VF (FNum (S754_finite false 6192449487634432 (-48))))); ("ret.max_minus_one", (VF (FNum (S754_finite false 9007199250546688 (-21))))); ("ret.min_plus_one", (VF (FNum (S754_finite false 4503599627370496 (-52))))); ("ret.max_overflow", (VF (FNum (S754_zero false)))); ("ret.min_overflow", (VF (FNum (S754_finite false 9007199252643840 (-21)))))]);
  Test 2315 (* udint_to_real_conversion *)
    [("#0", (S_UDINT, (VZ 0)));
     ("#1", (S_UDINT, (VZ 4294967294)));
     ("#2", (S_UDINT, (VZ 22)));
     ("#3", (S_UDINT, (VZ 4294967294)));
     ("#4", (S_UDINT, (VZ 1)));
     ("#5", (S_UDINT, (VZ 0)));
     ("#6", (S_UDINT, (VZ 4294967295)));
     ("ret.zero", (S_REAL, (VF (FNum (S754_zero false)))));
     ("ret.negative", (S_REAL, (VF (FNum (S754_zero false)))));
     ("ret.positive", (S_REAL, (VF (FNum (S754_zero false)))));
     ("ret.max_minus_one", (S_REAL, (VF (FNum (S754_zero false)))));
     ("ret.min_plus_one", (S_REAL, (VF (FNum (S754_zero false)))));
     ("ret.max_overflow", (S_REAL, (VF (FNum (S754_zero false)))));
     ("ret.min_overflow", (S_REAL, (VF (FNum (S754_zero false)))))]
    [("ret.zero", Call "UDINT_TO_REAL" [Arg "#0"]);
     ("ret.negative", Call "UDINT_TO_REAL" [Arg "#1"]);
     ("ret.positive", Call "UDINT_TO_REAL" [Arg "#2"]);
     ("ret.max_minus_one", Call "UDINT_TO_REAL" [Arg "#3"]);
     ("ret.min_plus_one", Call "UDINT_TO_REAL" [Arg "#4"]);
     ("ret.max_overflow", Call "UDINT_TO_REAL" [Arg "#5"]);
     ("ret.min_overflow", Call "UDINT_TO_REAL" [Arg "#6"])]
    (Some [("ret.zero", (VF (FNum (S754_zero false)))); ("ret.negative", (VF (FNum (S754_finite false 8388608 9)))); ("ret.positive", (VF (FNum (S754_finite false 11534336 (-19))))); ("ret.max_minus_one", (VF (FNum (S754_finite false 8388608 9)))); ("ret.min_plus_one", (VF (FNum (S754_finite false 8388608 (-23))))); ("ret.max_overflow", (VF (FNum (S754_zero false)))); ("ret.min_overflow", (VF (FNum (S754_finite false 8388608 9))))]);
  Test 2353 (* udint_to_lint_conversion *)
    [("#0", (S_UDINT, (VZ 0)));
     ("#1", (S_UDINT, (VZ 4294967295)));
     ("#2", (S_UDINT, (VZ 22)));
     ("#3", (S_UDINT, (VZ 4294967294)));
     ("#4", (S_UDINT, (VZ 1)));
     ("#5", (S_UDINT, (VZ 0)));
     ("#6", (S_UDINT, (VZ 4294967295)));
     ("ret.zero", (S_LINT, (VZ 0)));
     ("ret.negative", (S_LINT, (VZ 0)));
     ("ret.positive", (S_LINT, (VZ 0)));
     ("ret.max_minus_one", (S_LINT, (VZ 0)));
     ("ret.min_plus_one", (S_LINT, (VZ 0)));
     ("ret.max_overflow", (S_LINT, (VZ 0)));
     ("ret.min_overflow", (S_LINT, (VZ 0)))]
    [("ret.zero", Call "UDINT_TO_LINT" [Arg "#0"]);
     ("ret.negative", Call "UDINT_TO_LINT" [Arg "#1"]);
     ("ret.positive", Call "UDINT_TO_LINT" [Arg "#2"]);
     ("ret.max_minus_one", Call "UDINT_TO_LINT" [Arg "#3"]);
     ("ret.min_plus_one", Call "UDINT_TO_LINT" [Arg "#4"]);
     ("ret.max_overflow", Call "UDINT_TO_LINT" [Arg "#5"]);
     ("ret.min_overflow", Call "UDINT_TO_LINT" [Arg "#6"])]
    (Some [("ret.zero", (VZ 0)); ("ret.negative", (VZ 4294967295)); ("ret.positive", (VZ 22)); ("ret.max_minus_one", (VZ 4294967294)); ("ret.min_plus_one", (VZ 1)); ("ret.max_overflow", (VZ 0)); ("ret.min_overflow", (VZ 4294967295))]);
  Test 2391 (* udint_to_dint_conversion *)
    [("#0", (S_UDINT, (VZ 0)));
     ("#1", (S_UDINT, (VZ 22)));
     ("#2", (S_UDINT, (VZ 2147483646)));
     ("#3", (S_UDINT, (VZ 1)));
     ("#4", (S_UDINT, (VZ 2147483648)));
     ("ret.zero", (S_DINT, (VZ 0)));
     ("ret.negative", (S_DINT, (VZ 0)));
     ("ret.positive", (S_DINT, (VZ 0)));
     ("ret.max_minus_one", (S_DINT, (VZ 0)));
     ("ret.min_plus_one", (S_DINT, (VZ 0)));
     ("ret.max_overflow", (S_DINT, (VZ 0)));
     ("ret.min_overflow", (S_DINT, (VZ 0)))]
    [("ret.zero", Call "UDINT_TO_DINT" [Arg "#0"]);
     ("ret.positive", Call "UDINT_TO_DINT" [Arg "#1"]);
     ("ret.max_minus_one", Call "UDINT_TO_DINT" [Arg "#2"]);
     ("ret.min_plus_one", Call "UDINT_TO_DINT" [Arg "#3"]);
     ("ret.max_overflow", Call "UDINT_TO_DINT" [Arg "#4"])]
    (Some [("ret.zero", (VZ 0)); ("ret.positive", (VZ 22)); ("ret.max_minus_one", (VZ 2147483646)); ("ret.min_plus_one", (VZ 1)); ("ret.max_overflow", (VZ (-2147483648)))]);
  Test 2425 (* udint_to_int_conversion *)
    [("#0", (S_UDINT, (VZ 0)));
     ("#1", (S_UDINT, (VZ 22)));
     ("#2", (S_UDINT, (VZ 32766)));
     ("#3", (S_UDINT, (VZ 1)));
     ("#4", (S_UDINT, (VZ 32768)));
     ("ret.zero", (S_INT, (VZ 0)));
     ("ret.negative", (S_INT, (VZ 0)));
     ("ret.positive", (S_INT, (VZ 0)));
     ("ret.max_minus_one", (S_INT, (VZ 0)));
     ("ret.min_plus_one", (S_INT, (VZ 0)));
     ("ret.max_overflow", (S_INT, (VZ 0)));
     ("ret.min_overflow", (S_INT, (VZ 0)))]
    [("ret.zero", Call "UDINT_TO_INT" [Arg "#0"]);
     ("ret.positive", Call "UDINT_TO_INT" [Arg "#1"]);
     ("ret.max_minus_one", Call "UDINT_TO_INT" [Arg "#2"]);
     ("ret.min_plus_one", Call "UDINT_TO_INT" [Arg "#3"]);
     ("ret.max_overflow", Call "UDINT_TO_INT" [Arg "#4"])]
    (Some [("ret.zero", (VZ 0)); ("ret.positive", (VZ 22)); ("ret.max_minus_one", (VZ 32766)); ("ret.min_plus_one", (VZ 1)); ("ret.max_overflow", (VZ (-32768)))]);
  Test 2459 (* udint_to_sint_conversion *)
    [("#0", (S_UDINT, (VZ 0)));
     ("#1", (S_UDINT, (VZ 22)));
     ("#2", (S_UDINT, (VZ 126)));
     ("#3", (S_UDINT, (VZ 1)));
     ("#4", (S_UDINT, (VZ 128)));
     ("ret.zero", (S_SINT, (VZ 0)));
     ("ret.negative", (S_SINT, (VZ 0)));
     ("ret.positive", (S_SINT, (VZ 0)));
     ("ret.max_minus_one", (S_SINT, (VZ 0)));
     ("ret.min_plus_one", (S_SINT, (VZ 0)));
     ("ret.max_overflow", (S_SINT, (VZ 0)));
     ("ret.min_overflow", (S_SINT, (VZ 0)))]
    [("ret.zero", Call "UDINT_TO_SINT" [Arg "#0"]);
     ("ret.positive", Call "UDINT_TO_SINT" [Arg "#1"]);
     ("ret.max_minus_one", Call "UDINT_TO_SINT" [Arg "#2"]);
     ("ret.min_plus_one", Call "UDINT_TO_SINT" [Arg "#3"]);
     ("ret.max_overflow", Call "UDINT_TO_SINT" [Arg "#4"])]
    (Some [("ret.zero", (VZ 0)); ("ret.positive", (VZ 22)); ("ret.max_minus_one", (VZ 126)); ("ret.min_plus_one", (VZ 1)); ("ret.max_overflow", (VZ (-128)))]);
  Test 2493 (* udint_to_ulint_conversion *)
    [("#0", (S_UDINT, (VZ 0)));
     ("#1", (S_UDINT, (VZ 4294967295)));
     ("#2", (S_UDINT, (VZ 22)));
     ("#3", (S_UDINT, (VZ 4294967294)));
     ("#4", (S_UDINT, (VZ 1)));
     ("#5", (S_UDINT, (VZ 0)));
     ("#6", (S_UDINT, (VZ 4294967295)));
     ("ret.zero", (S_ULINT, (VZ 0)));
     ("ret.negative", (S_ULINT, (VZ 0)));
     ("ret.positive", (S_ULINT, (VZ 0)));
     ("ret.max_minus_one", (S_ULINT, (VZ 0)));
     ("ret.min_plus_one", (S_ULINT, (VZ 0)));
     ("ret.max_overflow", (S_ULINT, (VZ 0)));
     ("ret.min_overflow", (S_ULINT, (VZ 0)))]
    [("ret.zero", Call "UDINT_TO_ULINT" [Arg "#0"]);
     ("ret.negative", Call "UDINT_TO_ULINT" [Arg "#1"]);
     ("ret.positive", Call "UDINT_TO_ULINT" [Arg "#2"]);
     ("ret.max_minus_one", Call "UDINT_TO_ULINT" [Arg "#3"]);
     ("ret.min_plus_one", Call "UDINT_TO_ULINT" [Arg "#4"]);
     ("ret.max_overflow", Call "UDINT_TO_ULINT" [Arg "#5"]);
     ("ret.min_overflow", Call "UDINT_TO_ULINT" [Arg "#6"])]
    (Some [("ret.zero", (VZ 0)); ("ret.negative", (VZ 4294967295)); ("ret.positive", (VZ 22)); ("ret.max_minus_one", (VZ 4294967294)); ("ret.min_plus_one", (VZ 1)); ("ret.max_overflow", (VZ 0)); ("ret.min_overflow", (VZ 4294967295))]);
  Test 2531 (* udint_to_uint_conversion *)
    [("#0", (S_UDINT, (VZ 0)));
     ("#1", (S_UDINT, (VZ 4294967295)));
     ("#2", (S_UDINT, (VZ 22)));
     ("#3", (S_UDINT, (VZ 65534)));
     ("#4", (S_UDINT, (VZ 1)));
     ("#5", (S_UDINT, (VZ 65536)));
     ("#6", (S_UDINT, (VZ 4294967295)));
     ("ret.zero", (S_UINT, (VZ 0)));
     ("ret.negative", (S_UINT, (VZ 0)));
     ("ret.positive", (S_UINT, (VZ 0)));
     ("ret.max_minus_one", (S_UINT, (VZ 0)));
     ("ret.min_plus_one", (S_UINT, (VZ 0)));
     ("ret.max_overflow", (S_UINT, (VZ 0)));
     ("ret.min_overflow", (S_UINT, (VZ 0)))]
    [("ret.zero", Call "UDINT_TO_UINT" [Arg "#0"]);
     ("ret.negative", Call "UDINT_TO_UINT" [Arg "#1"]);
     ("ret.positive", Call "UDINT_TO_UINT" [Arg "#2"]);
     ("ret.max_minus_one", Call "UDINT_TO_UINT" [Arg "#3"]);
     ("ret.min_plus_one", Call "UDINT_TO_UINT" [Arg "#4"]);
     ("ret.max_overflow", Call "UDINT_TO_UINT" [Arg "#5"]);
     ("ret.min_overflow", Call "UDINT_TO_UINT" [Arg "#6"])]
    (Some [("ret.zero", (VZ 0)); ("ret.negative", (VZ 65535)); ("ret.positive", (VZ 22)); ("ret.max_minus_one", (VZ 65534)); ("ret.min_plus_one", (VZ 1)); ("ret.max_overflow", (VZ 0)); ("ret.min_overflow", (VZ 65535))]);
  Test 2569 (* udint_to_usint_conversion *)
    [("#0", (S_UDINT, (VZ 0)));
     ("#1", (S_UDINT, (VZ 4294967295)));
     ("#2", (S_UDINT, (VZ 22)));
     ("#3", (S_UDINT, (VZ 254)));
     ("#4", (S_UDINT, (VZ 1)));
     ("#5", (S_UDINT, (VZ 256)));
     ("#6", (S_UDINT, (VZ 4294967295)));
     ("ret.zero", (S_USINT, (VZ 0)));
     ("ret.negative", (S_USINT, (VZ 0)));
     ("ret.positive", (S_USINT, (VZ 0)));
     ("ret.max_minus_one", (S_USINT, (VZ 0)));
     ("ret.min_plus_one", (S_USINT, (VZ 0)));
     ("ret.max_overflow", (S_USINT, (VZ 0)));
     ("ret.min_overflow", (S_USINT, (VZ 0)))]
    [("ret.zero", Call "UDINT_TO_USINT" [Arg "#0"]);
     ("ret.negative", Call "UDINT_TO_USINT" [Arg "#1"]);
     ("ret.positive", Call "UDINT_TO_USINT" [Arg "#2"]);
     ("ret.max_minus_one", Call "UDINT_TO_USINT" [Arg "#3"]);
     ("ret.min_plus_one", Call "UDINT_TO_USINT" [Arg "#4"]);
     ("ret.max_overflow", Call "UDINT_TO_USINT" [Arg "#5"]);
     ("ret.min_overflow", Call "UDINT_TO_USINT" [Arg "#6"])]
    (Some [("ret.zero", (VZ 0)); ("ret.negative", (VZ 255)); ("ret.positive", (VZ 22)); ("ret.max_minus_one", (VZ 254)); ("ret.min_plus_one", (VZ 1)); ("ret.max_overflow", (VZ 0)); ("ret.min_overflow", (VZ 255))]);
  Test 2607 (* uint_to_lreal_conversion *)
    [("#0", (S_UINT, (VZ 0)));
     ("#1", (S_UINT, (VZ 65534)));
     ("#2", (S_UINT, (VZ 22)));
     ("#3", (S_UINT, (VZ 65534)));
     ("#4", (S_UINT, (VZ 1)));
     ("#5", (S_UINT, (VZ 0)));
     ("#6", (S_UINT, (VZ 65535)));
     ("ret.zero", (S_LREAL, (VF (FNum (S754_zero false)))));
     ("ret.negative", (S_LREAL, (VF (FNum (S754_zero false)))));
     ("ret.positive", (S_LREAL, (VF (FNum (S754_zero false)))));
     ("ret.max_minus_one", (S_LREAL, (VF (FNum (S754_zero false)))));
     ("ret.min_plus_one", (S_LREAL, (VF (FNum (S754_zero false)))));
     ("ret.max_overflow", (S_LREAL, (VF (FNum (S754_zero false)))));
     ("ret.min_overflow", (S_LREAL, (VF (FNum (S754_zero false)))))]
    [("ret.zero", Call "UINT_TO_LREAL" [Arg "#0"]);
     ("ret.negative", Call "UINT_TO_LREAL" [Arg "#1"]);
     ("ret.positive", Call "UINT_TO_LREAL" [Arg "#2"]);
     ("ret.max_minus_one", Call "UINT_TO_LREAL" [Arg "#3"]);
     ("ret.min_plus_one", Call "UINT_TO_LREAL" [Arg "#4"]);
     ("ret.max_overflow", Call "UINT_TO_LREAL" [Arg "#5"]);
     ("ret.min_overflow", Call "UINT_TO_LREAL" [Arg "#6"])]
    (Some [("ret.zero", (VF (FNum (S754_zero false)))); ("ret.negative", (VF (FNum (S754_finite false 9006924376834048 (-37))))); ("ret.positive", (VF (FNum (S754_finite false 6192449487634432 (-48))))); ("ret.max_minus_one", (VF (FNum (S754_finite false 9006924376834048 (-37))))); ("ret.min_plus_one", (VF (FNum (S754_finite false 4503599627370496 (-52))))); ("ret.max_overflow", (VF (FNum (S754_zero false)))); ("ret.min_overflow", (VF (FNum (S754_finite false 9007061815787520 (-37)))))]);
  Test 2645 (* uint_to_real_conversion *)
    [("#0", (S_UINT, (VZ 0)));
     ("#1", (S_UINT, (VZ 65534)));
     ("#2", (S_UINT, (VZ 22)));
     ("#3", (S_UINT, (VZ 65534)));
     ("#4", (S_UINT, (VZ 1)));
     ("#5", (S_UINT, (VZ 0)));
     ("#6", (S_UINT, (VZ 65535)));
     ("ret.zero", (S_REAL, (VF (FNum (S754_zero false)))));
     ("ret.negative", (S_REAL, (VF (FNum (S754_zero false)))));
     ("ret.positive", (S_REAL, (VF (FNum (S754_zero false)))));
     ("ret.max_minus_one", (S_REAL, (VF (FNum (S754_zero false)))));
     ("ret.min_plus_one", (S_REAL, (VF (FNum (S754_zero false)))));
     ("ret.max_overflow", (S_REAL, (VF (FNum (S754_zero false)))));
     ("ret.min_overflow", (S_REAL, (VF (FNum (S754_zero false)))))]
    [("ret.zero", Call "UINT_TO_REAL" [Arg "#0"]);
     ("ret.negative", Call "UINT_TO_REAL" [Arg "#1"]);
     ("ret.positive", Call "UINT_TO_REAL" [Arg "#2"]);
     ("ret.max_minus_one", Call "UINT_TO_REAL" [Arg "#3"]);
     ("ret.min_plus_one", Call "UINT_TO_REAL" [Arg "#4"]);
     ("ret.max_overflow", Call "UINT_TO_REAL" [Arg "#5"]);
     ("ret.min_overflow", Call "UINT_TO_REAL" [Arg "#6"])]
    (Some [("ret.zero", (VF (FNum (S754_zero false)))); ("ret.negative", (VF (FNum (S754_finite false 16776704 (-8))))); ("ret.positive", (VF (FNum (S754_finite false 11534336 (-19))))); ("ret.max_minus_one", (VF (FNum (S754_finite false 16776704 (-8))))); ("ret.min_plus_one", (VF (FNum (S754_finite false 8388608 (-23))))); ("ret.max_overflow", (VF (FNum (S754_zero false)))); ("ret.min_overflow", (VF (FNum (S754_finite false 16776960 (-8)))))]);
  Test 2683 (* uint_to_lint_conversion *)
    [("#0", (S_UINT, (VZ 0)));
     ("#1", (S_UINT, (VZ 65535)));
     ("#2", (S_UINT, (VZ 22)));
     ("#3", (S_UINT, (VZ 65534)));
     ("#4", (S_UINT, (VZ 1)));
     ("#5", (S_UINT, (VZ 0)));
     ("#6", (S_UINT, (VZ 65535)));
     ("ret.zero", (S_LINT, (VZ 0)));
     ("ret.negative", (S_LINT, (VZ 0)));
     ("ret.positive", (S_LINT, (VZ 0)));
     ("ret.max_minus_one", (S_LINT, (VZ 0)));
     ("ret.min_plus_one", (S_LINT, (VZ 0)));
     ("ret.max_overflow", (S_LINT, (VZ 0)));
     ("ret.min_overflow", (S_LINT, (VZ 0)))]
    [("ret.zero", Call "UINT_TO_LINT" [Arg "#0"]);
     ("ret.negative", Call "UINT_TO_LINT" [Arg "#1"]);
     ("ret.positive", Call "UINT_TO_LINT" [Arg "#2"]);
     ("ret.max_minus_one", Call "UINT_TO_LINT" [Arg "#3"]);
     ("ret.min_plus_one", Call "UINT_TO_LINT" [Arg "#4"]);
     ("ret.max_overflow", Call "UINT_TO_LINT" [Arg "#5"]);
     ("ret.min_overflow", Call "UINT_TO_LINT" [Arg "#6"])]
    (Some [("ret.zero", (VZ 0)); ("ret.negative", (VZ 65535)); ("ret.positive", (VZ 22)); ("ret.max_minus_one", (VZ 65534)); ("ret.min_plus_one", (VZ 1)); ("ret.max_overflow", (VZ 0)); ("ret.min_overflow", (VZ 65535))]);
  Test 2721 (* uint_to_dint_conversion *)
    [("#0", (S_UINT, (VZ 0)));
     ("#1", (S_UINT, (VZ 65535)));
     ("#2", (S_UINT, (VZ 22)));
     ("#3", (S_UINT, (VZ 65534)));
     ("#4", (S_UINT, (VZ 1)));
     ("#5", (S_UINT, (VZ 0)));
     ("#6", (S_UINT, (VZ 65535)));
     ("ret.zero", (S_DINT, (VZ 0)));
     ("ret.negative", (S_DINT, (VZ 0)));
     ("ret.positive", (S_DINT, (VZ 0)));
     ("ret.max_minus_one", (S_DINT, (VZ 0)));
     ("ret.min_plus_one", (S_DINT, (VZ 0)));
     ("ret.max_overflow", (S_DINT, (VZ 0)));
     ("ret.min_overflow", (S_DINT, (VZ 0)))]
    [("ret.zero", Call "UINT_TO_DINT" [Arg "#0"]);
     ("ret.negative", Call "UINT_TO_DINT" [Arg "#1"]);
     ("ret.positive", Call "UINT_TO_DINT" [Arg "#2"]);
     ("ret.max_minus_one", Call "UINT_TO_DINT" [Arg "#3"]);
     ("ret.min_plus_one", Call "UINT_TO_DINT" [Arg "#4"]);
     ("ret.max_overflow", Call "UINT_TO_DINT" [Arg "#5"]);
     ("ret.min_overflow", Call "UINT_TO_DINT" [Arg "#6"])]
    (Some [("ret.zero", (VZ 0)); ("ret.negative", (VZ 65535)); ("ret.positive", (VZ 22)); ("ret.max_minus_one", (VZ 65534)); ("ret.min_plus_one", (VZ 1)); ("ret.max_overflow", (VZ 0)); ("ret.min_overflow", (VZ 65535))]);
  Test 2759 (* uint_to_int_conversion *)
    [("#0", (S_UINT, (VZ 0)));
     ("#1", (S_UINT, (VZ 22)));
     ("#2", (S_UINT, (VZ 32766)));
     ("#3", (S_UINT, (VZ 1)));
     ("#4", (S_UINT, (VZ 32768)));
     ("ret.zero", (S_INT, (VZ 0)));
     ("ret.negative", (S_INT, (VZ 0)));
     ("ret.positive", (S_INT, (VZ 0)));
     ("ret.max_minus_one", (S_INT, (VZ 0)));
     ("ret.min_plus_one", (S_INT, (VZ 0)));
     ("ret.max_overflow", (S_INT, (VZ 0)));
     ("ret.min_overflow", (S_INT, (VZ 0)))]
    [("ret.zero", Call "UINT_TO_INT" [Arg "#0"]);
     ("ret.positive", Call "UINT_TO_INT" [Arg "#1"]);
     ("ret.max_minus_one", Call "UINT_TO_INT" [Arg "#2"]);
     ("ret.min_plus_one", Call "UINT_TO_INT" [Arg "#3"]);
     ("ret.max_overflow", Call "UINT_TO_INT" [Arg "#4"])]
    (Some [("ret.zero", (VZ 0)); ("ret.positive", (VZ 22)); ("ret.max_minus_one", (VZ 32766)); ("ret.min_plus_one", (VZ 1)); ("ret.max_overflow", (VZ (-32768)))]);
  Test 2793 (* uint_to_sint_conversion *)
    [("#0", (S_UINT, (VZ 0)));
     ("#1", (S_UINT, (VZ 22)));
     ("#2", (S_UINT, (VZ 126)));
     ("#3", (S_UINT, (VZ 1)));
     ("#4", (S_UINT, (VZ 128)));
     ("ret.zero", (S_SINT, (VZ 0)));
     ("ret.negative", (S_SINT, (VZ 0)));
     ("ret.positive", (S_SINT, (VZ 0)));
     ("ret.max_minus_one", (S_SINT, (VZ 0)));
     ("ret.min_plus_one", (S_SINT, (VZ 0)));
     ("ret.max_overflow", (S_SINT, (VZ 0)));
     ("ret.min_overflow", (S_SINT, (VZ 0)))]
    [("ret.zero", Call "UINT_TO_SINT" [Arg "#0"]);
     ("ret.positive", Call "UINT_TO_SINT" [Arg "#1"]);
     ("ret.max_minus_one", Call "UINT_TO_SINT" [Arg "#2"]);
     ("ret.min_plus_one", Call "UINT_TO_SINT" [Arg "#3"]);
     ("ret.max_overflow", Call "UINT_TO_SINT" [Arg "#4"])]
    (Some [("ret.zero", (VZ 0)); ("ret.positive", (VZ 22)); ("ret.max_minus_one", (VZ 126)); ("ret.min_plus_one", (VZ 1)); ("ret.max_overflow", (VZ (-128)))]);
  Test 2827 (* uint_to_ulint_conversion *)
    [("#0", (S_UINT, (VZ 0)));
     ("#1", (S_UINT, (VZ 65535)));
     ("#2", (S_UINT, (VZ 22)));
     ("#3", (S_UINT, (VZ 65534)));
     ("#4", (S_UINT, (VZ 1)));
     ("#5", (S_UINT, (VZ 0)));
     ("#6", (S_UINT, (VZ 65535)));
     ("ret.zero", (S_ULINT, (VZ 0)));
     ("ret.negative", (S_ULINT, (VZ 0)));
     ("ret.positive", (S_ULINT, (VZ 0)));
     ("ret.max_minus_one", (S_ULINT, (VZ 0)));
     ("ret.min_plus_one", (S_ULINT, (VZ 0)));
     ("ret.max_overflow", (S_ULINT, (VZ 0)));
     ("ret.min_overflow", (S_ULINT, (VZ 0)))]
    [("ret.zero", Call "UINT_TO_ULINT" [Arg "#0"]);
     ("ret.negative", Call "UINT_TO_ULINT" [Arg "#1"]);
     ("ret.positive", Call "UINT_TO_ULINT" [Arg "#2"]);
     ("ret.max_minus_one", Call "UINT_TO_ULINT" [Arg "#3"]);
     ("ret.min_plus_one", Call "UINT_TO_ULINT" [Arg "#4"]);
     ("ret.max_overflow", Call "UINT_TO_ULINT" [Arg "#5"]);
     ("ret.min_overflow", Call "UINT_TO_ULINT" [Arg "#6"])]
    (Some [("ret.zero", (VZ 0)); ("ret.negative", (VZ 65535)); ("ret.positive", (VZ 22)); ("ret.max_minus_one", (VZ 65534)); ("ret.min_plus_one", (VZ 1)); ("ret.max_overflow", (VZ 0)); ("ret.min_overflow", (VZ 65535))]);
  Test 2865 (* uint_to_udint_conversion *)
    [("#0", (S_UINT, (VZ 0)));
     ("#1", (S_UINT, (VZ 65535)));
     ("#2", (S_UINT, (VZ 22)));
     ("#3", (S_UINT, (VZ 65534)));
     ("#4", (S_UINT, (VZ 1)));
     ("#5", (S_UINT, (VZ 0)));
     ("#6", (S_UINT, (VZ 65535)));
     ("ret.zero", (S_UDINT, (VZ 0)));
     ("ret.negative", (S_UDINT, (VZ 0)));
     ("ret.positive", (S_UDINT, (VZ 0)));
     ("ret.max_minus_one", (S_UDINT, (VZ 0)));
     ("ret.min_plus_one", (S_UDINT, (VZ 0)));
     ("ret.max_overflow", (S_UDINT, (VZ 0)));
     ("ret.min_overflow", (S_UDINT, (VZ 0)))]
    [("ret.zero", Call "UINT_TO_UDINT" [Arg "#0"]);
     ("ret.negative", Call "UINT_TO_UDINT" [Arg "#1"]);
     ("ret.positive", Call "UINT_TO_UDINT" [Arg "#2"]);
     ("ret.max_minus_one", Call "UINT_TO_UDINT" [Arg "#3"]);
     ("ret.min_plus_one", Call "UINT_TO_UDINT" [Arg "#4"]);
     ("ret.max_overflow", Call "UINT_TO_UDINT" [Arg "#5"]);
     ("ret.min_overflow", Call "UINT_TO_UDINT" [Arg "#6"])]
    (Some [("ret.zero", (VZ 0)); ("ret.negative", (VZ 65535)); ("ret.positive", (VZ 22)); ("ret.max_minus_one", (VZ 65534)); ("ret.min_plus_one", (VZ 1)); ("ret.max_overflow", (VZ 0)); ("ret.min_overflow", (VZ 65535))]);
  Test 2903 (* uint_to_usint_conversion *)
    [("#0", (S_UINT, (VZ 0)));
     ("#1", (S_UINT, (VZ 65535)));
     ("#2", (S_UINT, (VZ 22)));
     ("#3", (S_UINT, (VZ 254)));
     ("#4", (S_UINT, (VZ 1)));
     ("#5", (S_UINT, (VZ 256)));
     ("#6", (S_UINT, (VZ 65535)));
     ("ret.zero", (S_USINT, (VZ 0)));
     ("ret.negative", (S_USINT, (VZ 0)));
     ("ret.positive", (S_USINT, (VZ 0)));
     ("ret.max_minus_one", (S_USINT, (VZ 0)));
     ("ret.min_plus_one", (S_USINT, (VZ 0)));
     ("ret.max_overflow", (S_USINT, (VZ 0)));
     ("ret.min_overflow", (S_USINT, (VZ 0)))]
    [("ret.zero", Call "UINT_TO_USINT" [Arg "#0"]);
     ("ret.negative", Call "UINT_TO_USINT" [Arg "#1"]);
     ("ret.positive", Call "UINT_TO_USINT" [Arg "#2"]);
     ("ret.max_minus_one", Call "UINT_TO_USINT" [Arg "#3"]);
     ("ret.min_plus_one", Call "UINT_TO_USINT" [Arg "#4"]);
     ("ret.max_overflow", Call "UINT_TO_USINT" [Arg "#5"]);
     ("ret.min_overflow", Call "UINT_TO_USINT" [Arg "#6"])]
    (Some [("ret.zero", (VZ 0)); ("ret.negative", (VZ 255)); ("ret.positive", (VZ 22)); ("ret.max_minus_one", (VZ 254)); ("ret.min_plus_one", (VZ 1)); ("ret.max_overflow", (VZ 0)); ("ret.min_overflow", (VZ 255))]);
  Test 2941 (* usint_to_lreal_conversion *)
    [("#0", (S_USINT, (VZ 0)));
     ("#1", (S_USINT, (VZ 254)));
     ("#2", (S_USINT, (VZ 22)));
     ("#3", (S_USINT, (VZ 254)));
     ("#4", (S_USINT, (VZ 1)));
     ("#5", (S_USINT, (VZ 0)));
     ("#6", (S_USINT, (VZ 255)));
     ("ret.zero", (S_LREAL, (VF (FNum (S754_zero false)))));
     ("ret.negative", (S_LREAL, (VF (FNum (S754_zero false)))));
     ("ret.positive", (S_LREAL, (VF (FNum (S754_zero false)))));
     ("ret.max_minus_one", (S_LREAL, (VF (FNum (S754_zero false)))));
     ("ret.min_plus_one", (S_LREAL, (VF (FNum (S754_zero false)))));
     ("ret.max_overflow", (S_LREAL, (VF (FNum (S754_zero false)))));
     ("ret.min_overflow", (S_LREAL, (VF (FNum (S754_zero false)))))]
    [("ret.zero", Call "USINT_TO_LREAL" [Arg "#0"]);
     ("ret.negative", Call "USINT_TO_LREAL" [Arg "#1"]);
     ("ret.positive", Call "USINT_TO_LREAL" [Arg "#2"]);
     ("ret.max_minus_one", Call "USINT_TO_LREAL" [Arg "#3"]);
     ("ret.min_plus_one", Call "USINT_TO_LREAL" [Arg "#4"]);
     ("ret.max_overflow", Call "USINT_TO_LREAL" [Arg "#5"]);
     ("ret.min_overflow", Call "USINT_TO_LREAL" [Arg "#6"])]
    (Some [("ret.zero", (VF (FNum (S754_zero false)))); ("ret.negative", (VF (FNum (S754_finite false 8936830510563328 (-45))))); ("ret.positive", (VF (FNum (S754_finite false 6192449487634432 (-48))))); ("ret.max_minus_one", (VF (FNum (S754_finite false 8936830510563328 (-45))))); ("ret.min_plus_one", (VF (FNum (S754_finite false 4503599627370496 (-52))))); ("ret.max_overflow", (VF (FNum (S754_zero false)))); ("ret.min_overflow", (VF (FNum (S754_finite false 8972014882652160 (-45)))))]);
  Test 2979 (* usint_to_real_conversion *)
    [("#0", (S_USINT, (VZ 0)));
     ("#1", (S_USINT, (VZ 254)));
     ("#2", (S_USINT, (VZ 22)));
     ("#3", (S_USINT, (VZ 254)));
     ("#4", (S_USINT, (VZ 1)));
     ("#5", (S_USINT, (VZ 0)));
     ("#6", (S_USINT, (VZ 255)));
     ("ret.zero", (S_REAL, (VF (FNum (S754_zero false)))));
     ("ret.negative", (S_REAL, (VF (FNum (S754_zero false)))));
     ("ret.positive", (S_REAL, (VF (FNum (S754_zero false)))));
     ("ret.max_minus_one", (S_REAL, (VF (FNum (S754_zero false)))));
     ("ret.min_plus_one", (S_REAL, (VF (FNum (S754_zero false)))));
     ("ret.max_overflow", (S_REAL, (VF (FNum (S754_zero false)))));
     ("ret.min_overflow", (S_REAL, (VF (FNum (S754_zero false)))))]
    [("ret.zero", Call "USINT_TO_REAL" [Arg "#0"]);
     ("ret.negative", Call "USINT_TO_REAL" [Arg "#1"]);
     ("ret.positive", Call "USINT_TO_REAL" [Arg "#2"]);
     ("ret.max_minus_one", Call "USINT_TO_REAL" [Arg "#3"]);
     ("ret.min_plus_one", Call "USINT_TO_REAL" [Arg "#4"]);
     ("ret.max_overflow", Call "USINT_TO_REAL" [Arg "#5"]);
     ("ret.min_overflow", Call "USINT_TO_REAL" [Arg "#6"])]
    (Some [("ret.zero", (VF (FNum (S754_zero false)))); ("ret.negative", (VF (FNum (S754_finite false 16646144 (-16))))); ("ret.positive", (VF (FNum (S754_finite false 11534336 (-19))))); ("ret.max_minus_one", (VF (FNum (S754_finite false 16646144 (-16))))); ("ret.min_plus_one", (VF (FNum (S754_finite false 8388608 (-23))))); ("ret.max_overflow", (VF (FNum (S754_zero false)))); ("ret.min_overflow", (VF (FNum (S754_finite false 16711680 (-16)))))]);
  Test 3017 (* usint_to_lint_conversion *)
    [("#0", (S_USINT, (VZ 0)));
     ("#1", (S_USINT, (VZ 255)));
     ("#2", (S_USINT, (VZ 22)));
     ("#3", (S_USINT, (VZ 254)));
     ("#4", (S_USINT, (VZ 1)));
     ("#5", (S_USINT, (VZ 0)));
     ("#6", (S_USINT, (VZ 255)));
     ("ret.zero", (S_LINT, (VZ 0)));
     ("ret.negative", (S_LINT, (VZ 0)));
     ("ret.positive", (S_LINT, (VZ 0)));
     ("ret.max_minus_one", (S_LINT, (VZ 0)));
     ("ret.min_plus_one", (S_LINT, (VZ 0)));
     ("ret.max_overflow", (S_LINT, (VZ 0)));
     ("ret.min_overflow", (S_LINT, (VZ 0)))]
    [("ret.zero", Call "USINT_TO_LINT" [Arg "#0"]);
     ("ret.negative", Call "USINT_TO_LINT" [Arg "#1"]);
     ("ret.positive", Call "USINT_TO_LINT" [Arg "#2"]);
     ("ret.max_minus_one", Call "USINT_TO_LINT" [Arg "#3"]);
     ("ret.min_plus_one", Call "USINT_TO_LINT" [Arg "#4"]);
     ("ret.max_overflow", Call "USINT_TO_LINT" [Arg "#5"]);
     ("ret.min_overflow", Call "USINT_TO_LINT" [Arg "#6"])]
    (Some [("ret.zero", (VZ 0)); ("ret.negative", (VZ 255)); ("ret.positive", (VZ 22)); ("ret.max_minus_one", (VZ 254)); ("ret.min_plus_one", (VZ 1)); ("ret.max_overflow", (VZ 0)); ("ret.min_overflow", (VZ 255))]);
  Test 3055 (* usint_to_dint_conversion *)
    [("#0", (S_USINT, (VZ 0)));
     ("#1", (S_USINT, (VZ 255)));
     ("#2", (S_USINT, (VZ 22)));
     ("#3", (S_USINT, (VZ 254)));
     ("#4", (S_USINT, (VZ 1)));
     ("#5", (S_USINT, (VZ 0)));
     ("#6", (S_USINT, (VZ 255)));
     ("ret.zero", (S_DINT, (VZ 0)));
     ("ret.negative", (S_DINT, (VZ 0)));
     ("ret.positive", (S_DINT, (VZ 0)));
     ("ret.max_minus_one", (S_DINT, (VZ 0)));
     ("ret.min_plus_one", (S_DINT, (VZ 0)));
     ("ret.max_overflow", (S_DINT, (VZ 0)));
     ("ret.min_overflow", (S_DINT, (VZ 0)))]
    [("ret.zero", Call "USINT_TO_DINT" [Arg "#0"]);
     ("ret.negative", Call "USINT_TO_DINT" [Arg "#1"]);
     ("ret.positive", Call "USINT_TO_DINT" [Arg "#2"]);
     ("ret.max_minus_one", Call "USINT_TO_DINT" [Arg "#3"]);
     ("ret.min_plus_one", Call "USINT_TO_DINT" [Arg "#4"]);
     ("ret.max_overflow", Call "USINT_TO_DINT" [Arg "#5"]);
     ("ret.min_overflow", Call "USINT_TO_DINT" [Arg "#6"])]
    (Some [("ret.zero", (VZ 0)); ("ret.negative", (VZ 255)); ("ret.positive", (VZ 22)); ("ret.max_minus_one", (VZ 254)); ("ret.min_plus_one", (VZ 1)); ("ret.max_overflow", (VZ 0)); ("ret.min_overflow", (VZ 255))]);
  Test 3093 (* usint_to_int_conversion *)
    [("#0", (S_USINT, (VZ 0)));
     ("#1", (S_USINT, (VZ 255)));
     ("#2", (S_USINT, (VZ 22)));
     ("#3", (S_USINT, (VZ 254)));
     ("#4", (S_USINT, (VZ 1)));
     ("#5", (S_USINT, (VZ 0)));
     ("#6", (S_USINT, (VZ 255)));
     ("ret.zero", (S_INT, (VZ 0)));
     ("ret.negative", (S_INT, (VZ 0)));
     ("ret.positive", (S_INT, (VZ 0)));
     ("ret.max_minus_one", (S_INT, (VZ 0)));
     ("ret.min_plus_one", (S_INT, (VZ 0)));
     ("ret.max_overflow", (S_INT, (VZ 0)));
     ("ret.min_overflow", (S_INT, (VZ 0)))]
    [("ret.zero", Call "USINT_TO_INT" [Arg "#0"]);
     ("ret.negative", Call "USINT_TO_INT" [Arg "#1"]);
     ("ret.positive", Call "USINT_TO_INT" [Arg "#2"]);
     ("ret.max_minus_one", Call "USINT_TO_INT" [Arg "#3"]);
     ("ret.min_plus_one", Call "USINT_TO_INT" [Arg "#4"]);
     ("ret.max_overflow", Call "USINT_TO_INT" [Arg "#5"]);
     ("ret.min_overflow", Call "USINT_TO_INT" [Arg "#6"])]
    (Some [("ret.zero", (VZ 0)); ("ret.negative", (VZ 255)); ("ret.positive", (VZ 22)); ("ret.max_minus_one", (VZ 254)); ("ret.min_plus_one", (VZ 1)); ("ret.max_overflow", (VZ 0)); ("ret.min_overflow", (VZ 255))]);
  Test 3131 (* usint_to_sint_conversion *)
    [("#0", (S_USINT, (VZ 0)));
     ("#1", (S_USINT, (VZ 22)));
     ("#2", (S_USINT, (VZ 126)));
     ("#3", (S_USINT, (VZ 1)));
     ("#4", (S_USINT, (VZ 128)));
     ("ret.zero", (S_SINT, (VZ 0)));
     ("ret.negative", (S_SINT, (VZ 0)));
     ("ret.positive", (S_SINT, (VZ 0)));
     ("ret.max_minus_one", (S_SINT, (VZ 0)));
     ("ret.min_plus_one", (S_SINT, (VZ 0)));
     ("ret.max_overflow", (S_SINT, (VZ 0)));
     ("ret.min_overflow", (S_SINT, (VZ 0)))]
    [("ret.zero", Call "USINT_TO_SINT" [Arg "#0"]);
     ("ret.positive", Call "USINT_TO_SINT" [Arg "#1"]);
     ("ret.max_minus_one", Call "USINT_TO_SINT" [Arg "#2"]);
     ("ret.min_plus_one", Call "USINT_TO_SINT" [Arg "#3"]);
     ("ret.max_overflow", Call "USINT_TO_SINT" [Arg "#4"])]
    (Some [("ret.zero", (VZ 0)); ("ret.positive", (VZ 22)); ("ret.max_minus_one", (VZ 126)); ("ret.min_plus_one", (VZ 1)); ("ret.max_overflow", (VZ (-128)))]);
  Test 3165 (* usint_to_ulint_conversion *)
    [("#0", (S_USINT, (VZ 0)));
     ("#1", (S_USINT, (VZ 255)));
     ("#2", (S_USINT, (VZ 22)));
     ("#3", (S_USINT, (VZ 254)));
     ("#4", (S_USINT, (VZ 1)));
     ("#5", (S_USINT, (VZ 0)));
     ("#6", (S_USINT, (VZ 255)));
     ("ret.zero", (S_ULINT, (VZ 0)));
     ("ret.negative", (S_ULINT, (VZ 0)));
     ("ret.positive", (S_ULINT, (VZ 0)));
     ("ret.max_minus_one", (S_ULINT, (VZ 0)));
     ("ret.min_plus_one", (S_ULINT, (VZ 0)));
     ("ret.max_overflow", (S_ULINT, (VZ 0)));
     ("ret.min_overflow", (S_ULINT, (VZ 0)))]
    [("ret.zero", Call "USINT_TO_ULINT" [Arg "#0"]);
     ("ret.negative", Call "USINT_TO_ULINT" [Arg "#1"]);
     ("ret.positive", Call "USINT_TO_ULINT" [Arg "#2"]);
     ("ret.max_minus_one", Call "USINT_TO_ULINT" [Arg "#3"]);
     ("ret.min_plus_one", Call "USINT_TO_ULINT" [Arg "#4"]);
     ("ret.max_overflow", Call "USINT_TO_ULINT" [Arg "#5"]);
     ("ret.min_overflow", Call "USINT_TO_ULINT" [Arg "#6"])]
    (Some [("ret.zero", (VZ 0)); ("ret.negative", (VZ 255)); ("ret.positive", (VZ 22)); ("ret.max_minus_one", (VZ 254)); ("ret.min_plus_one", (VZ 1)); ("ret.max_overflow", (VZ 0)); ("ret.min_overflow", (VZ 255))]);
  Test 3203 (* usint_to_udint_conversion *)
    [("#0", (S_USINT, (VZ 0)));
     ("#1", (S_USINT, (VZ 255)));
     ("#2", (S_USINT, (VZ 22)));
     ("#3", (S_USINT, (VZ 254)));
     ("#4", (S_USINT, (VZ 1)));
     ("#5", (S_USINT, (VZ 0)));
     ("#6", (S_USINT, (VZ 255)));
     ("ret.zero", (S_UDINT, (VZ 0)));
     ("ret.negative", (S_UDINT, (VZ 0)));
     ("ret.positive", (S_UDINT, (VZ 0)));
     ("ret.max_minus_one", (S_UDINT, (VZ 0)));
     ("ret.min_plus_one", (S_UDINT, (VZ 0)));
     ("ret.max_overflow", (S_UDINT, (VZ 0)));
     ("ret.min_overflow", (S_UDINT, (VZ 0)))]
    [("ret.zero", Call "USINT_TO_UDINT" [Arg "#0"]);
     ("ret.negative", Call "USINT_TO_UDINT" [Arg "#1"]);
     ("ret.positive", Call "USINT_TO_UDINT" [Arg "#2"]);
     ("ret.max_minus_one", Call "USINT_TO_UDINT" [Arg "#3"]);
     ("ret.min_plus_one", Call "USINT_TO_UDINT" [Arg "#4"]);
     ("ret.max_overflow", Call "USINT_TO_UDINT" [Arg "#5"]);
     ("ret.min_overflow", Call "USINT_TO_UDINT" [Arg "#6"])]
    (Some [("ret.zero", (VZ 0)); ("ret.negative", (VZ 255)); ("ret.positive", (VZ 22)); ("ret.max_minus_one", (VZ 254)); ("ret.min_plus_one", (VZ 1)); ("ret.max_overflow", (VZ 0)); ("ret.min_overflow", (VZ 255))]);
  Test 3241 (* usint_to_uint_conversion *)
    [("#0", (S_USINT, (VZ 0)));
     ("#1", (S_USINT, (VZ 255)));
     ("#2", (S_USINT, (VZ 22)));
     ("#3", (S_USINT, (VZ 254)));
     ("#4", (S_USINT, (VZ 1)));
     ("#5", (S_USINT, (VZ 0)));
     ("#6", (S_USINT, (VZ 255)));
     ("ret.zero", (S_UINT, (VZ 0)));
     ("ret.negative", (S_UINT, (VZ 0)));
     ("ret.positive", (S_UINT, (VZ 0)));
     ("ret.max_minus_one", (S_UINT, (VZ 0)));
     ("ret.min_plus_one", (S_UINT, (VZ 0)));
     ("ret.max_overflow", (S_UINT, (VZ 0)));
     ("ret.min_overflow", (S_UINT, (VZ 0)))]
    [("ret.zero", Call "USINT_TO_UINT" [Arg "#0"]);
     ("ret.negative", Call "USINT_TO_UINT" [Arg "#1"]);
     ("ret.positive", Call "USINT_TO_UINT" [Arg "#2"]);
     ("ret.max_minus_one", Call "USINT_TO_UINT" [Arg "#3"]);
     ("ret.min_plus_one", Call "USINT_TO_UINT" [Arg "#4"]);
     ("ret.max_overflow", Call "USINT_TO_UINT" [Arg "#5"]);
     ("ret.min_overflow", Call "USINT_TO_UINT" [Arg "#6"])]
    (Some [("ret.zero", (VZ 0)); ("ret.negative", (VZ 255)); ("ret.positive", (VZ 22)); ("ret.max_minus_one", (VZ 254)); ("ret.min_plus_one", (VZ 1)); ("ret.max_overflow", (VZ 0)); ("ret.min_overflow", (VZ 255))])].
Example num_conversion_tests_pass : forallb passes num_conversion_tests = true.
Proof. vm_compute. reflexivity. Qed.

(** /repo/tests/numerical_functions_tests.rs, at the lines given. *)
Definition numerical_functions_tests : list test := [
  Test 16 (* absolute_on_sint_test *)
    [("#0", (S_SINT, (VZ (-120))));
     ("#1", (S_SINT, (VZ 0)));
     ("#2", (S_SINT, (VZ 121)));
     ("#3", (S_SINT, (VZ 0)));
     ("a", (S_SINT, (VZ 0)));
     ("b", (S_SINT, (VZ 0)));
     ("c", (S_SINT, (VZ 0)));
     ("res", (S_SINT, (VZ 0)))]
    [("a", Call "ABS" [Arg "#0"]);
     ("b", Call "ABS" [Arg "#1"]);
     ("c", Call "ABS" [Arg "#2"]);
     ("res", Call "ABS" [Arg "#3"])]
    (Some [("res", (VZ 0)); ("a", (VZ 120)); ("b", (VZ 0)); ("c", (VZ 121))]);
  Test 38 (* absolute_on_int_test *)
    [("#0", (S_INT, (VZ (-99))));
     ("#1", (S_INT, (VZ 0)));
     ("#2", (S_INT, (VZ 98)));
     ("#3", (S_INT, (VZ 0)));
     ("a", (S_INT, (VZ 0)));
     ("b", (S_INT, (VZ 0)));
     ("c", (S_INT, (VZ 0)));
     ("res", (S_INT, (VZ 0)))]
    [("a", Call "ABS" [Arg "#0"]);
     ("b", Call "ABS" [Arg "#1"]);
     ("c", Call "ABS" [Arg "#2"]);
     ("res", Call "ABS" [Arg "#3"])]
    (Some [("res", (VZ 0)); ("a", (VZ 99)); ("b", (VZ 0)); ("c", (VZ 98))]);
  Test 59 (* absolute_on_dint_test *)
    [("#0", (S_DINT, (VZ (-77))));
     ("#1", (S_DINT, (VZ 0)));
     ("#2", (S_DINT, (VZ 78)));
     ("#3", (S_DINT, (VZ 0)));
     ("a", (S_DINT, (VZ 0)));
     ("b", (S_DINT, (VZ 0)));
     ("c", (S_DINT, (VZ 0)));
     ("res", (S_DINT, (VZ 0)))]
    [("a", Call "ABS" [Arg "#0"]);
     ("b", Call "ABS" [Arg "#1"]);
     ("c", Call "ABS" [Arg "#2"]);
     ("res", Call "ABS" [Arg "#3"])]
    (Some [("res", (VZ 0)); ("a", (VZ 77)); ("b", (VZ 0)); ("c", (VZ 78))]);
  Test 80 (* absolute_on_lint_test *)
    [("#0", (S_LINT, (VZ (-88))));
     ("#1", (S_LINT, (VZ 0)));
     ("#2", (S_LINT, (VZ 89)));
     ("#3", (S_LINT, (VZ 0)));
     ("a", (S_LINT, (VZ 0)));
     ("b", (S_LINT, (VZ 0)));
     ("c", (S_LINT, (VZ 0)));
     ("res", (S_LINT, (VZ 0)))]
    [("a", Call "ABS" [Arg "#0"]);
     ("b", Call "ABS" [Arg "#1"]);
     ("c", Call "ABS" [Arg "#2"]);
     ("res", Call "ABS" [Arg "#3"])]
    (Some [("res", (VZ 0)); ("a", (VZ 88)); ("b", (VZ 0)); ("c", (VZ 89))]);
  Test 101 (* absolute_on_real_test *)
    [("#0", (S_REAL, (VF (FNum (S754_finite true 13421773 (-22))))));
     ("#1", (S_REAL, (VF (FNum (S754_zero false)))));
     ("#2", (S_REAL, (VF (FNum (S754_finite false 13841203 (-22))))));
     ("#3", (S_REAL, (VF (FNum (S754_zero false)))));
     ("a", (S_REAL, (VF (FNum (S754_zero false)))));
     ("b", (S_REAL, (VF (FNum (S754_zero false)))));
     ("c", (S_REAL, (VF (FNum (S754_zero false)))));
     ("res", (S_REAL, (VF (FNum (S754_zero false)))))]
    [("a", Call "ABS" [Arg "#0"]);
     ("b", Call "ABS" [Arg "#1"]);
     ("c", Call "ABS" [Arg "#2"]);
     ("res", Call "ABS" [Arg "#3"])]
    (Some [("res", (VF (FNum (S754_zero false)))); ("a", (VF (FNum (S754_finite false 13421773 (-22))))); ("b", (VF (FNum (S754_zero false)))); ("c", (VF (FNum (S754_finite false 13841203 (-22)))))]);
  Test 122 (* absolute_on_lreal_test *)
    [("#0", (S_LREAL, (VF (FNum (S754_finite true 5629499534213120 (-51))))));
     ("#1", (S_LREAL, (VF (FNum (S754_zero false)))));
     ("#2", (S_LREAL, (VF (FNum (S754_finite false 5854679515581645 (-51))))));
     ("#3", (S_LREAL, (VF (FNum (S754_zero false)))));
     ("a", (S_LREAL, (VF (FNum (S754_zero false)))));
     ("b", (S_LREAL, (VF (FNum (S754_zero false)))));
     ("c", (S_LREAL, (VF (FNum (S754_zero false)))));
     ("res", (S_LREAL, (VF (FNum (S754_zero false)))))]
    [("a", Call "ABS" [Arg "#0"]);
     ("b", Call "ABS" [Arg "#1"]);
     ("c", Call "ABS" [Arg "#2"]);
     ("res", Call "ABS" [Arg "#3"])]
    (Some [("res", (VF (FNum (S754_zero false)))); ("a", (VF (FNum (S754_finite false 5629499534213120 (-51))))); ("b", (VF (FNum (S754_zero false)))); ("c", (VF (FNum (S754_finite false 5854679515581645 (-51)))))]);
  Test 143 (* test_round_real *)
    [("#0", (S_REAL, (VF (FNum (S754_finite false 10485760 (-22))))));
     ("main", (S_REAL, (VF (FNum (S754_zero false)))))]
    [("main", Call "ROUND" [Arg "#0"])]
    (Some [("main", (VF (FNum (S754_finite false 12582912 (-22)))))]);
  Test 156 (* test_round_lreal *)
    [("#0", (S_LREAL, (VF (FNum (S754_finite false 5629499534213120 (-51))))));
     ("main", (S_LREAL, (VF (FNum (S754_zero false)))))]
    [("main", Call "ROUND" [Arg "#0"])]
    (Some [("main", (VF (FNum (S754_finite false 6755399441055744 (-51)))))])].
Example numerical_functions_tests_pass : forallb passes numerical_functions_tests = true.
Proof. vm_compute. reflexivity. Qed.

(** /repo/tests/selectors.rs, at the lines given. *)
Definition selectors : list test := [
  Test 56 (* test_max_int *)
    [("#0", (S_INT, (VZ 5)));
     ("#1", (S_INT, (VZ 2)));
     ("#2", (S_INT, (VZ 1)));
     ("#3", (S_INT, (VZ 3)));
     ("#4", (S_INT, (VZ 4)));
     ("#5", (S_INT, (VZ 7)));
     ("#6", (S_INT, (VZ (-1))));
     ("main", (S_INT, (VZ 0)))]
    [("main", Call "MAX" [Arg "#0"; Arg "#1"; Arg "#2"; Arg "#3"; Arg "#4"; Arg "#5"; Arg "#6"])]
    (Some [("main", (VZ 7))]);
  Test 67 (* test_max_dint *)
    [("#0", (S_DINT, (VZ 5)));
     ("#1", (S_DINT, (VZ 2)));
     ("#2", (S_DINT, (VZ 1)));
     ("#3", (S_DINT, (VZ 3)));
     ("#4", (S_DINT, (VZ 4)));
     ("#5", (S_DINT, (VZ 7)));
     ("#6", (S_DINT, (VZ (-1))));
     ("main", (S_DINT, (VZ 0)))]
    [("main", Call "MAX" [Arg "#0"; Arg "#1"; Arg "#2"; Arg "#3"; Arg "#4"; Arg "#5"; Arg "#6"])]
    (Some [("main", (VZ 7))]);
  Test 78 (* test_max_lint *)
    [("#0", (S_LINT, (VZ 5)));
     ("#1", (S_LINT, (VZ 2)));
     ("#2", (S_LINT, (VZ 1)));
     ("#3", (S_LINT, (VZ 3)));
     ("#4", (S_LINT, (VZ 4)));
     ("#5", (S_LINT, (VZ 7)));
     ("#6", (S_LINT, (VZ (-1))));
     ("main", (S_LINT, (VZ 0)))]
    [("main", Call "MAX" [Arg "#0"; Arg "#1"; Arg "#2"; Arg "#3"; Arg "#4"; Arg "#5"; Arg "#6"])]
    (Some [("main", (VZ 7))]);
  Test 89 (* test_max_char *)
    [("#0", (S_CHAR, (VZ 97)));
     ("#1", (S_CHAR, (VZ 100)));
     ("#2", (S_CHAR, (VZ 101)));
     ("#3", (S_CHAR, (VZ 103)));
     ("#4", (S_CHAR, (VZ 102)));
     ("#5", (S_CHAR, (VZ 99)));
     ("#6", (S_CHAR, (VZ 98)));
     ("main", (S_CHAR, (VZ 0)))]
    [("main", Call "MAX" [Arg "#0"; Arg "#1"; Arg "#2"; Arg "#3"; Arg "#4"; Arg "#5"; Arg "#6"])]
    (Some [("main", (VZ 103))]);
  Test 100 (* test_max_date *)
    [("#0", (S_TIME, (VZ 35000000)));
     ("#1", (S_TIME, (VZ 40000000)));
     ("#2", (S_TIME, (VZ 1000000)));
     ("#3", (S_TIME, (VZ 30000000)));
     ("main", (S_TIME, (VZ 0)))]
    [("main", Call "MAX" [Arg "#0"; Arg "#1"; Arg "#2"; Arg "#3"])]
    (Some [("main", (VZ 40000000))]);
  Test 111 (* test_max_real *)
    [("#0", (S_REAL, (VF (FNum (S754_finite false 8388608 (-24))))));
     ("#1", (S_REAL, (VF (FNum (S754_finite false 13421773 (-27))))));
     ("#2", (S_REAL, (VF (FNum (S754_finite false 12582912 (-23))))));
     ("#3", (S_REAL, (VF (FNum (S754_finite false 10066330 (-23))))));
     ("main", (S_REAL, (VF (FNum (S754_zero false)))))]
    [("main", Call "MAX" [Arg "#0"; Arg "#1"; Arg "#2"; Arg "#3"])]
    (Some [("main", (VF (FNum (S754_finite false 12582912 (-23)))))]);
  Test 122 (* test_max_lreal *)
    [("#0", (S_LREAL, (VF (FNum (S754_finite false 4503599627370496 (-53))))));
     ("#1", (S_LREAL, (VF (FNum (S754_finite false 7205759403792794 (-56))))));
     ("#2", (S_LREAL, (VF (FNum (S754_finite false 6755399441055744 (-52))))));
     ("#3", (S_LREAL, (VF (FNum (S754_finite false 5404319552844595 (-52))))));
     ("main", (S_LREAL, (VF (FNum (S754_zero false)))))]
    [("main", Call "MAX" [Arg "#0"; Arg "#1"; Arg "#2"; Arg "#3"])]
    (Some [("main", (VF (FNum (S754_finite false 6755399441055744 (-52)))))]);
  Test 133 (* test_min_int *)
    [("#0", (S_INT, (VZ 5)));
     ("#1", (S_INT, (VZ 2)));
     ("#2", (S_INT, (VZ (-1))));
     ("#3", (S_INT, (VZ 3)));
     ("#4", (S_INT, (VZ 4)));
     ("#5", (S_INT, (VZ 7)));
     ("#6", (S_INT, (VZ 1)));
     ("main", (S_INT, (VZ 0)))]
    [("main", Call "MIN" [Arg "#0"; Arg "#1"; Arg "#2"; Arg "#3"; Arg "#4"; Arg "#5"; Arg "#6"])]
    (Some [("main", (VZ (-1)))]);
  Test 144 (* test_min_dint *)
    [("#0", (S_DINT, (VZ 5)));
     ("#1", (S_DINT, (VZ 2)));
     ("#2", (S_DINT, (VZ (-1))));
     ("#3", (S_DINT, (VZ 3)));
     ("#4", (S_DINT, (VZ 4)));
     ("#5", (S_DINT, (VZ 7)));
     ("#6", (S_DINT, (VZ 1)));
     ("main", (S_DINT, (VZ 0)))]
    [("main", Call "MIN" [Arg "#0"; Arg "#1"; Arg "#2"; Arg "#3"; Arg "#4"; Arg "#5"; Arg "#6"])]
    (Some [("main", (VZ (-1)))]);
  Test 155 (* test_min_lint *)
    [("#0", (S_LINT, (VZ 5)));
     ("#1", (S_LINT, (VZ 2)));
     ("#2", (S_LINT, (VZ (-1))));
     ("#3", (S_LINT, (VZ 3)));
     ("#4", (S_LINT, (VZ 4)));
     ("#5", (S_LINT, (VZ 7)));
     ("#6", (S_LINT, (VZ 1)));
     ("main", (S_LINT, (VZ 0)))]
    [("main", Call "MIN" [Arg "#0"; Arg "#1"; Arg "#2"; Arg "#3"; Arg "#4"; Arg "#5"; Arg "#6"])]
    (Some [("main", (VZ (-1)))]);
  Test 166 (* test_min_char *)
    [("#0", (S_CHAR, (VZ 98)));
     ("#1", (S_CHAR, (VZ 100)));
     ("#2", (S_CHAR, (VZ 101)));
     ("#3", (S_CHAR, (VZ 103)));
     ("#4", (S_CHAR, (VZ 102)));
     ("#5", (S_CHAR, (VZ 97)));
     ("#6", (S_CHAR, (VZ 99)));
     ("main", (S_CHAR, (VZ 0)))]
    [("main", Call "MIN" [Arg "#0"; Arg "#1"; Arg "#2"; Arg "#3"; Arg "#4"; Arg "#5"; Arg "#6"])]
    (Some [("main", (VZ 97))]);
  Test 177 (* test_min_date *)
    [("#0", (S_TIME, (VZ 40000000)));
     ("#1", (S_TIME, (VZ 86400000000000)));
     ("#2", (S_TIME, (VZ 30000000)));
     ("#3", (S_TIME, (VZ 300000000000)));
     ("main", (S_TIME, (VZ 0)))]
    [("main", Call "MIN" [Arg "#0"; Arg "#1"; Arg "#2"; Arg "#3"])]
    (Some [("main", (VZ 30000000))]);
  Test 188 (* test_min_real *)
    [("#0", (S_REAL, (VF (FNum (S754_finite false 8388608 (-24))))));
     ("#1", (S_REAL, (VF (FNum (S754_finite false 13421773 (-27))))));
     ("#2", (S_REAL, (VF (FNum (S754_finite false 12582912 (-23))))));
     ("#3", (S_REAL, (VF (FNum (S754_finite false 10066330 (-23))))));
     ("main", (S_REAL, (VF (FNum (S754_zero false)))))]
    [("main", Call "MIN" [Arg "#0"; Arg "#1"; Arg "#2"; Arg "#3"])]
    (Some [("main", (VF (FNum (S754_finite false 13421773 (-27)))))]);
  Test 199 (* test_min_lreal *)
    [("#0", (S_LREAL, (VF (FNum (S754_finite false 4503599627370496 (-53))))));
     ("#1", (S_LREAL, (VF (FNum (S754_finite false 7205759403792794 (-56))))));
     ("#2", (S_LREAL, (VF (FNum (S754_finite false 6755399441055744 (-52))))));
     ("#3", (S_LREAL, (VF (FNum (S754_finite false 5404319552844595 (-52))))));
     ("main", (S_LREAL, (VF (FNum (S754_zero false)))))]
    [("main", Call "MIN" [Arg "#0"; Arg "#1"; Arg "#2"; Arg "#3"])]
    (Some [("main", (VF (FNum (S754_finite false 7205759403792794 (-56)))))]);
  Test 210 (* test_limit_int *)
    [("#0", (S_INT, (VZ 10)));
     ("#1", (S_INT, (VZ 50)));
     ("main", (S_INT, (VZ 0)));
     ("in", (S_INT, (VZ 30)))]
    [("main", Call "LIMIT" [Arg "#0"; Arg "in"; Arg "#1"])]
    (Some [("main", (VZ 30))]);
  Test 210 (* test_limit_int *)
    [("#0", (S_INT, (VZ 10)));
     ("#1", (S_INT, (VZ 50)));
     ("main", (S_INT, (VZ 0)));
     ("in", (S_INT, (VZ 1)))]
    [("main", Call "LIMIT" [Arg "#0"; Arg "in"; Arg "#1"])]
    (Some [("main", (VZ 10))]);
  Test 210 (* test_limit_int *)
    [("#0", (S_INT, (VZ 10)));
     ("#1", (S_INT, (VZ 50)));
     ("main", (S_INT, (VZ 0)));
     ("in", (S_INT, (VZ 60)))]
    [("main", Call "LIMIT" [Arg "#0"; Arg "in"; Arg "#1"])]
    (Some [("main", (VZ 50))]);
  Test 238 (* test_limit_dint *)
    [("#0", (S_DINT, (VZ 10)));
     ("#1", (S_DINT, (VZ 50)));
     ("main", (S_DINT, (VZ 0)));
     ("in", (S_DINT, (VZ 30)))]
    [("main", Call "LIMIT" [Arg "#0"; Arg "in"; Arg "#1"])]
    (Some [("main", (VZ 30))]);
  Test 238 (* test_limit_dint *)
    [("#0", (S_DINT, (VZ 10)));
     ("#1", (S_DINT, (VZ 50)));
     ("main", (S_DINT, (VZ 0)));
     ("in", (S_DINT, (VZ 1)))]
    [("main", Call "LIMIT" [Arg "#0"; Arg "in"; Arg "#1"])]
    (Some [("main", (VZ 10))]);
  Test 238 (* test_limit_dint *)
    [("#0", (S_DINT, (VZ 10)));
     ("#1", (S_DINT, (VZ 50)));
     ("main", (S_DINT, (VZ 0)));
     ("in", (S_DINT, (VZ 60)))]
    [("main", Call "LIMIT" [Arg "#0"; Arg "in"; Arg "#1"])]
    (Some [("main", (VZ 50))]);
  Test 266 (* test_limit_lint *)
    [("#0", (S_LINT, (VZ 10)));
     ("#1", (S_LINT, (VZ 50)));
     ("main", (S_LINT, (VZ 0)));
     ("in", (S_LINT, (VZ 30)))]
    [("main", Call "LIMIT" [Arg "#0"; Arg "in"; Arg "#1"])]
    (Some [("main", (VZ 30))]);
  Test 266 (* test_limit_lint *)
    [("#0", (S_LINT, (VZ 10)));
     ("#1", (S_LINT, (VZ 50)));
     ("main", (S_LINT, (VZ 0)));
     ("in", (S_LINT, (VZ 1)))]
    [("main", Call "LIMIT" [Arg "#0"; Arg "in"; Arg "#1"])]
    (Some [("main", (VZ 10))]);
  Test 266 (* test_limit_lint *)
    [("#0", (S_LINT, (VZ 10)));
     ("#1", (S_LINT, (VZ 50)));
     ("main", (S_LINT, (VZ 0)));
     ("in", (S_LINT, (VZ 60)))]
    [("main", Call "LIMIT" [Arg "#0"; Arg "in"; Arg "#1"])]
    (Some [("main", (VZ 50))]);
  Test 294 (* test_limit_char *)
    [("#0", (S_CHAR, (VZ 98)));
     ("#1", (S_CHAR, (VZ 100)));
     ("main", (S_CHAR, (VZ 0)));
     ("in", (S_CHAR, (VZ 99)))]
    [("main", Call "LIMIT" [Arg "#0"; Arg "in"; Arg "#1"])]
    (Some [("main", (VZ 99))]);
  Test 294 (* test_limit_char *)
    [("#0", (S_CHAR, (VZ 98)));
     ("#1", (S_CHAR, (VZ 100)));
     ("main", (S_CHAR, (VZ 0)));
     ("in", (S_CHAR, (VZ 97)))]
    [("main", Call "LIMIT" [Arg "#0"; Arg "in"; Arg "#1"])]
    (Some [("main", (VZ 98))]);
  Test 294 (* test_limit_char *)
    [("#0", (S_CHAR, (VZ 98)));
     ("#1", (S_CHAR, (VZ 100)));
     ("main", (S_CHAR, (VZ 0)));
     ("in", (S_CHAR, (VZ 102)))]
    [("main", Call "LIMIT" [Arg "#0"; Arg "in"; Arg "#1"])]
    (Some [("main", (VZ 100))]);
  Test 322 (* test_limit_real *)
    [("#0", (S_REAL, (VF (FNum (S754_finite false 10485760 (-20))))));
     ("#1", (S_REAL, (VF (FNum (S754_finite false 13107200 (-18))))));
     ("main", (S_REAL, (VF (FNum (S754_zero false)))));
     ("in", (S_REAL, (VF (FNum (S754_finite false 11010048 (-20))))))]
    [("main", Call "LIMIT" [Arg "#0"; Arg "in"; Arg "#1"])]
    (Some [("main", (VF (FNum (S754_finite false 11010048 (-20)))))]);
  Test 322 (* test_limit_real *)
    [("#0", (S_REAL, (VF (FNum (S754_finite false 10485760 (-20))))));
     ("#1", (S_REAL, (VF (FNum (S754_finite false 13107200 (-18))))));
     ("main", (S_REAL, (VF (FNum (S754_zero false)))));
     ("in", (S_REAL, (VF (FNum (S754_finite true 8388608 (-23))))))]
    [("main", Call "LIMIT" [Arg "#0"; Arg "in"; Arg "#1"])]
    (Some [("main", (VF (FNum (S754_finite false 10485760 (-20)))))]);
  Test 322 (* test_limit_real *)
    [("#0", (S_REAL, (VF (FNum (S754_finite false 10485760 (-20))))));
     ("#1", (S_REAL, (VF (FNum (S754_finite false 13107200 (-18))))));
     ("main", (S_REAL, (VF (FNum (S754_zero false)))));
     ("in", (S_REAL, (VF (FNum (S754_finite false 15728640 (-18))))))]
    [("main", Call "LIMIT" [Arg "#0"; Arg "in"; Arg "#1"])]
    (Some [("main", (VF (FNum (S754_finite false 13107200 (-18)))))]);
  Test 350 (* test_limit_lreal *)
    [("#0", (S_LREAL, (VF (FNum (S754_finite false 5629499534213120 (-49))))));
     ("#1", (S_LREAL, (VF (FNum (S754_finite false 7036874417766400 (-47))))));
     ("main", (S_LREAL, (VF (FNum (S754_zero false)))));
     ("in", (S_LREAL, (VF (FNum (S754_finite false 5910974510923776 (-49))))))]
    [("main", Call "LIMIT" [Arg "#0"; Arg "in"; Arg "#1"])]
    (Some [("main", (VF (FNum (S754_finite false 5910974510923776 (-49)))))]);
  Test 350 (* test_limit_lreal *)
    [("#0", (S_LREAL, (VF (FNum (S754_finite false 5629499534213120 (-49))))));
     ("#1", (S_LREAL, (VF (FNum (S754_finite false 7036874417766400 (-47))))));
     ("main", (S_LREAL, (VF (FNum (S754_zero false)))));
     ("in", (S_LREAL, (VF (FNum (S754_finite true 4503599627370496 (-52))))))]
    [("main", Call "LIMIT" [Arg "#0"; Arg "in"; Arg "#1"])]
    (Some [("main", (VF (FNum (S754_finite false 5629499534213120 (-49)))))]);
  Test 350 (* test_limit_lreal *)
    [("#0", (S_LREAL, (VF (FNum (S754_finite false 5629499534213120 (-49))))));
     ("#1", (S_LREAL, (VF (FNum (S754_finite false 7036874417766400 (-47))))));
     ("main", (S_LREAL, (VF (FNum (S754_zero false)))));
     ("in", (S_LREAL, (VF (FNum (S754_finite false 8444249301319680 (-47))))))]
    [("main", Call "LIMIT" [Arg "#0"; Arg "in"; Arg "#1"])]
    (Some [("main", (VF (FNum (S754_finite false 7036874417766400 (-47)))))])].
Example selectors_pass : forallb passes selectors = true.
Proof. vm_compute. reflexivity. Qed.

(** /repo/tests/string_conversion_tests.rs, at the lines given. *)
Definition string_conversion_tests : list test := [
  Test 8 (* wstring_to_string_conversion *)
    [("#0", (S_WSTRING, (VS ([104; 101; 108; 108; 111] ++ repeat 0 1))));
     ("res", (S_STRING, (VS ([] ++ repeat 0 81))))]
    [("res", Call "WSTRING_TO_STRING" [Arg "#0"])]
    (Some [("res", (VS [104; 101; 108; 108; 111]))]);
  Test 30 (* empty_wstring_to_string_conversion *)
    [("#0", (S_WSTRING, (VS ([] ++ repeat 0 1))));
     ("res", (S_STRING, (VS ([] ++ repeat 0 81))))]
    [("res", Call "WSTRING_TO_STRING" [Arg "#0"])]
    (Some [("res", (VS []))]);
  Test 52 (* wstring_to_string_extra_conversion *)
    [("#0", (S_WSTRING, (VS ([104; 232; 223; 108; 111; 55357; 56445; 65039] ++ repeat 0 1))));
     ("res", (S_STRING, (VS ([] ++ repeat 0 81))))]
    [("res", Call "WSTRING_TO_STRING" [Arg "#0"])]
    (Some [("res", (VS [104; 195; 168; 195; 159; 108; 111; 240; 159; 145; 189; 239; 184; 143])); ("res", (VS [104; 195; 168; 195; 159; 108; 111; 240; 159; 145; 189; 239; 184; 143]))]);
  Test 105 (* wstring_to_wchar_conversion *)
    [("#0", (S_WSTRING, (VS ([65; 66; 67] ++ repeat 0 1))));
     ("res", (S_WCHAR, (VZ 0)))]
    [("res", Call "WSTRING_TO_WCHAR" [Arg "#0"])]
    (Some [("res", (VZ 65))]);
  Test 126 (* string_to_wstring_conversion *)
    [("#0", (S_STRING, (VS ([72; 101; 108; 108; 111] ++ repeat 0 1))));
     ("res", (S_WSTRING, (VS ([] ++ repeat 0 81))))]
    [("res", Call "STRING_TO_WSTRING" [Arg "#0"])]
    (Some [("res", (VS [72; 101; 108; 108; 111]))]);
  Test 147 (* empty_string_to_wstring_conversion *)
    [("#0", (S_STRING, (VS ([] ++ repeat 0 1))));
     ("res", (S_WSTRING, (VS ([] ++ repeat 0 81))))]
    [("res", Call "STRING_TO_WSTRING" [Arg "#0"])]
    (Some [("res", (VS []))]);
  Test 225 (* string_to_char_conversion *)
    [("#0", (S_STRING, (VS ([66; 67; 68] ++ repeat 0 1))));
     ("res", (S_CHAR, (VZ 0)))]
    [("res", Call "STRING_TO_CHAR" [Arg "#0"])]
    (Some [("res", (VZ 66))]);
  Test 267 (* wchar_to_char_conversion *)
    [("#0", (S_WCHAR, (VZ 65)));
     ("res", (S_CHAR, (VZ 0)))]
    [("res", Call "WCHAR_TO_CHAR" [Arg "#0"])]
    (Some [("res", (VZ 65))]);
  Test 309 (* char_to_wchar_conversion *)
    [("#0", (S_CHAR, (VZ 66)));
     ("res", (S_WCHAR, (VZ 0)))]
    [("res", Call "CHAR_TO_WCHAR" [Arg "#0"])]
    (Some [("res", (VZ 66))])].
Example string_conversion_tests_pass : forallb passes string_conversion_tests = true.
Proof. vm_compute. reflexivity. Qed.

(** /repo/tests/string_function_tests.rs, at the lines given. *)
Definition string_function_tests : list test := [
  Test 27 (* len_string *)
    [("#0", (S_STRING, (VS ([32; 32; 32; 32; 32; 116; 104; 105; 115; 32; 105; 115; 32; 32; 32; 97; 32; 32; 118; 101; 114; 121; 32; 32; 32; 108; 111; 110; 103; 32; 32; 32; 32; 32; 32; 32; 32; 32; 32; 115; 101; 110; 116; 101; 110; 99; 101; 32; 32; 32; 119; 105; 116; 104; 32; 112; 108; 101; 110; 116; 121; 32; 32; 111; 102; 32; 32; 32; 32; 99; 104; 97; 114; 97; 99; 116; 101; 114; 115; 46] ++ repeat 0 1))));
     ("main", (S_DINT, (VZ 0)));
     ("variable", (S_STRING, (VS ([] ++ repeat 0 81))))]
    [("variable", Arg "#0");
     ("main", Call "LEN" [Arg "variable"])]
    (Some [("main", (VZ 80))]);
  Test 43 (* len_string_long_string *)
    [("#0", (S_STRING, (VS ([32; 32; 32; 32; 32; 116; 104; 105; 115; 32; 105; 115; 32; 32; 32; 97; 32; 32; 118; 101; 114; 121; 32; 32; 32; 108; 111; 110; 103; 32; 32; 32; 32; 32; 32; 32; 32; 32; 32; 32; 115; 101; 110; 116; 101; 110; 99; 101; 32; 32; 32; 119; 105; 116; 104; 32; 112; 108; 101; 110; 116; 121; 32; 32; 111; 102; 32; 32; 32; 32; 99; 104; 97; 114; 97; 99; 116; 101; 114; 115; 32; 97; 110; 100; 32; 119; 101; 105; 114; 100; 32; 32; 115; 112; 97; 99; 105; 110; 103; 46] ++ repeat 0 1))));
     ("main", (S_DINT, (VZ 0)))]
    [("main", Call "LEN" [Arg "#0"])]
    (Some [("main", (VZ 100))]);
  Test 55 (* len_string_no_variable *)
    [("#0", (S_STRING, (VS ([104; 101; 108; 108; 111] ++ repeat 0 1))));
     ("main", (S_DINT, (VZ 0)))]
    [("main", Call "LEN" [Arg "#0"])]
    (Some [("main", (VZ 5))]);
  Test 67 (* len_string_empty *)
    [("#0", (S_STRING, (VS ([] ++ repeat 0 1025))));
     ("main", (S_DINT, (VZ 0)));
     ("in", (S_STRING, (VS ([] ++ repeat 0 1025))))]
    [("in", Arg "#0");
     ("main", Call "LEN" [Arg "in"])]
    (Some [("main", (VZ 0))]);
  Test 83 (* left_string *)
    [("#0", (S_STRING, (VS ([104; 101; 108; 108; 111] ++ repeat 0 76))));
     ("#1", (S_DINT, (VZ 3)));
     ("main", (S_STRING, (VS ([] ++ repeat 0 81))));
     ("in", (S_STRING, (VS ([] ++ repeat 0 81))))]
    [("in", Arg "#0");
     ("main", Call "LEFT" [Arg "in"; Arg "#1"])]
    (Some [("main", (VS [104; 101; 108]))]);
  Test 104 (* left_string_long_string *)
    [("#0", (S_STRING, (VS ([32; 32; 32; 32; 32; 116; 104; 105; 115; 32; 105; 115; 32; 32; 32; 97; 32; 32; 118; 101; 114; 121; 32; 32; 32; 108; 111; 110; 103; 32; 32; 32; 32; 32; 32; 32; 32; 32; 32; 32; 115; 101; 110; 116; 101; 110; 99; 101; 32; 32; 32; 119; 105; 116; 104; 32; 112; 108; 101; 110; 116; 121; 32; 32; 111; 102; 32; 32; 32; 32; 99; 104; 97; 114; 97; 99; 116; 101; 114; 115; 32; 97; 110; 100; 32; 119; 101; 105; 114; 100; 32; 32; 115; 112; 97; 99; 105; 110; 103; 46] ++ repeat 0 1))));
     ("#1", (S_DINT, (VZ 85)));
     ("main", (S_STRING, (VS ([] ++ repeat 0 2049))));
     ("in", (S_STRING, (VS ([] ++ repeat 0 101))))]
    [("in", Arg "#0");
     ("main", Call "LEFT" [Arg "in"; Arg "#1"])]
    (Some [("main", (VS [32; 32; 32; 32; 32; 116; 104; 105; 115; 32; 105; 115; 32; 32; 32; 97; 32; 32; 118; 101; 114; 121; 32; 32; 32; 108; 111; 110; 103; 32; 32; 32; 32; 32; 32; 32; 32; 32; 32; 32; 115; 101; 110; 116; 101; 110; 99; 101; 32; 32; 32; 119; 105; 116; 104; 32; 112; 108; 101; 110; 116; 121; 32; 32; 111; 102; 32; 32; 32; 32; 99; 104; 97; 114; 97; 99; 116; 101; 114; 115; 32; 97; 110; 100; 32]))]);
  Test 128 (* left_string_lint *)
    [("#0", (S_STRING, (VS ([108; 101; 116; 115; 32; 115; 101; 101; 32; 105; 102; 32; 108; 111; 110; 103; 32; 105; 110; 116; 32; 105; 115; 32; 104; 97; 110; 100; 108; 101; 100; 32; 99; 111; 114; 114; 101; 99; 116; 108; 121] ++ repeat 0 40))));
     ("#1", (S_LINT, (VZ 31)));
     ("main", (S_STRING, (VS ([] ++ repeat 0 81))));
     ("in", (S_STRING, (VS ([] ++ repeat 0 81))));
     ("l", (S_LINT, (VZ 0)))]
    [("in", Arg "#0");
     ("l", Arg "#1");
     ("main", Call "LEFT" [Arg "in"; Arg "l"])]
    (Some [("main", (VS [108; 101; 116; 115; 32; 115; 101; 101; 32; 105; 102; 32; 108; 111; 110; 103; 32; 105; 110; 116; 32; 105; 115; 32; 104; 97; 110; 100; 108; 101; 100]))]);
  Test 151 (* left_ext_string *)
    [("#0", (S_STRING, (VS ([101; 120; 116; 101; 110; 100; 101; 100] ++ repeat 0 73))));
     ("#1", (S_UDINT, (VZ 6)));
     ("main", (S_STRING, (VS ([] ++ repeat 0 81))));
     ("in", (S_STRING, (VS ([] ++ repeat 0 81))));
     ("out", (S_STRING, (VS ([] ++ repeat 0 81))));
     ("l", (S_UDINT, (VZ 0)))]
    [("in", Arg "#0");
     ("l", Arg "#1");
     ("", Call "LEFT_EXT" [Arg "in"; Arg "l"; Arg "out"]);
     ("main", Arg "out")]
    (Some [("main", (VS [101; 120; 116; 101; 110; 100]))]);
  Test 176 (* right_string_usint *)
    [("#0", (S_STRING, (VS ([115; 97; 109; 112; 108; 101; 32; 116; 101; 120; 116] ++ repeat 0 70))));
     ("#1", (S_DINT, (VZ 7)));
     ("main", (S_STRING, (VS ([] ++ repeat 0 81))));
     ("in", (S_STRING, (VS ([] ++ repeat 0 81))))]
    [("in", Arg "#0");
     ("main", Call "RIGHT" [Arg "in"; Arg "#1"])]
    (Some [("main", (VS [108; 101; 32; 116; 101; 120; 116]))]);
  Test 197 (* right_string_substring_too_long *)
    [("#0", (S_STRING, (VS ([115; 97; 109; 112; 108; 101; 32; 116; 101; 120; 116] ++ repeat 0 70))));
     ("#1", (S_DINT, (VZ 12)));
     ("main", (S_STRING, (VS ([] ++ repeat 0 81))));
     ("in", (S_STRING, (VS ([] ++ repeat 0 81))))]
    [("in", Arg "#0");
     ("main", Call "RIGHT" [Arg "in"; Arg "#1"])]
    None;
  Test 214 (* right_ext_string *)
    [("#0", (S_STRING, (VS ([101; 120; 116; 101; 110; 100; 101; 100] ++ repeat 0 73))));
     ("#1", (S_DINT, (VZ 3)));
     ("main", (S_STRING, (VS ([] ++ repeat 0 81))));
     ("in", (S_STRING, (VS ([] ++ repeat 0 81))));
     ("out", (S_STRING, (VS ([] ++ repeat 0 81))))]
    [("in", Arg "#0");
     ("", Call "RIGHT_EXT" [Arg "in"; Arg "#1"; Arg "out"]);
     ("main", Arg "out")]
    (Some [("main", (VS [100; 101; 100]))]);
  Test 237 (* right_string_long_string *)
    [("#0", (S_STRING, (VS ([32; 32; 32; 32; 32; 116; 104; 105; 115; 32; 105; 115; 32; 32; 32; 97; 32; 32; 118; 101; 114; 121; 32; 32; 32; 108; 111; 110; 103; 32; 32; 32; 32; 32; 32; 32; 32; 32; 32; 32; 115; 101; 110; 116; 101; 110; 99; 101; 32; 32; 32; 119; 105; 116; 104; 32; 112; 108; 101; 110; 116; 121; 32; 32; 111; 102; 32; 32; 32; 32; 99; 104; 97; 114; 97; 99; 116; 101; 114; 115; 32; 97; 110; 100; 32; 119; 101; 105; 114; 100; 32; 32; 115; 112; 97; 99; 105; 110; 103; 46] ++ repeat 0 1))));
     ("#1", (S_DINT, (VZ 85)));
     ("main", (S_STRING, (VS ([] ++ repeat 0 2049))));
     ("in", (S_STRING, (VS ([] ++ repeat 0 101))));
     ("l", (S_DINT, (VZ 0)))]
    [("in", Arg "#0");
     ("l", Arg "#1");
     ("main", Call "RIGHT" [Arg "in"; Arg "l"])]
    (Some [("main", (VS [97; 32; 32; 118; 101; 114; 121; 32; 32; 32; 108; 111; 110; 103; 32; 32; 32; 32; 32; 32; 32; 32; 32; 32; 32; 115; 101; 110; 116; 101; 110; 99; 101; 32; 32; 32; 119; 105; 116; 104; 32; 112; 108; 101; 110; 116; 121; 32; 32; 111; 102; 32; 32; 32; 32; 99; 104; 97; 114; 97; 99; 116; 101; 114; 115; 32; 97; 110; 100; 32; 119; 101; 105; 114; 100; 32; 32; 115; 112; 97; 99; 105; 110; 103; 46]))]);
  Test 263 (* right_ext_string_long_string *)
    [("#0", (S_STRING, (VS ([55; 103; 65; 78; 53; 112; 109; 109; 83; 88; 113; 72; 74; 51; 122; 90; 67; 88; 110; 66; 119; 105; 107; 97; 57; 78; 56; 82; 80; 88; 112; 84; 65; 100; 88; 52; 76; 100; 119; 72; 98; 76; 106; 119; 118; 57; 103; 51; 109; 85; 51; 100; 116; 112; 67; 84; 50; 77; 72; 86; 80; 120; 119; 116; 77; 119; 54; 106; 77; 81; 107; 105; 112; 51; 72; 68; 121; 56; 82; 117; 119; 52; 50; 112; 86; 105; 53; 54; 102; 105; 86; 104; 89; 110; 56; 102; 97; 80; 76; 85; 75; 82; 103; 104; 121; 116; 81; 99; 66; 70; 103; 90; 104; 77; 88; 71; 104; 112; 66; 87] ++ repeat 0 9))));
     ("#1", (S_DINT, (VZ 99)));
     ("main", (S_STRING, (VS ([] ++ repeat 0 2049))));
     ("in", (S_STRING, (VS ([] ++ repeat 0 129))));
     ("out", (S_STRING, (VS ([] ++ repeat 0 129))));
     ("l", (S_DINT, (VZ 0)))]
    [("in", Arg "#0");
     ("l", Arg "#1");
     ("", Call "RIGHT_EXT" [Arg "in"; Arg "l"; Arg "out"]);
     ("main", Arg "out")]
    (Some [("main", (VS [105; 107; 97; 57; 78; 56; 82; 80; 88; 112; 84; 65; 100; 88; 52; 76; 100; 119; 72; 98; 76; 106; 119; 118; 57; 103; 51; 109; 85; 51; 100; 116; 112; 67; 84; 50; 77; 72; 86; 80; 120; 119; 116; 77; 119; 54; 106; 77; 81; 107; 105; 112; 51; 72; 68; 121; 56; 82; 117; 119; 52; 50; 112; 86; 105; 53; 54; 102; 105; 86; 104; 89; 110; 56; 102; 97; 80; 76; 85; 75; 82; 103; 104; 121; 116; 81; 99; 66; 70; 103; 90; 104; 77; 88; 71; 104; 112; 66; 87]))]);
  Test 291 (* mid_string *)
    [("#0", (S_STRING, (VS ([115; 97; 109; 112; 108; 101; 32; 116; 101; 120; 116] ++ repeat 0 70))));
     ("#1", (S_DINT, (VZ 7)));
     ("#2", (S_DINT, (VZ 2)));
     ("main", (S_STRING, (VS ([] ++ repeat 0 81))));
     ("in", (S_STRING, (VS ([] ++ repeat 0 81))));
     ("l", (S_DINT, (VZ 0)));
     ("p", (S_DINT, (VZ 0)))]
    [("in", Arg "#0");
     ("l", Arg "#1");
     ("p", Arg "#2");
     ("main", Call "MID" [Arg "in"; Arg "l"; Arg "p"])]
    (Some [("main", (VS [97; 109; 112; 108; 101; 32; 116]))]);
  Test 316 (* mid_string_long_literal *)
    [("#0", (S_DINT, (VZ 4)));
     ("#1", (S_DINT, (VZ 6)));
     ("#2", (S_STRING, (VS ([32; 32; 32; 32; 32; 116; 104; 105; 115; 32; 105; 115; 32; 32; 32; 97; 32; 32; 118; 101; 114; 121; 32; 32; 32; 108; 111; 110; 103; 32; 32; 32; 32; 32; 32; 32; 32; 32; 32; 32; 115; 101; 110; 116; 101; 110; 99; 101; 32; 32; 32; 119; 105; 116; 104; 32; 112; 108; 101; 110; 116; 121; 32; 32; 111; 102; 32; 32; 32; 32; 99; 104; 97; 114; 97; 99; 116; 101; 114; 115; 32; 97; 110; 100; 32; 119; 101; 105; 114; 100; 32; 32; 115; 112; 97; 99; 105; 110; 103; 46; 116; 104; 101; 32; 32; 32; 32; 32; 32; 32; 32; 32; 32; 32; 32; 32; 32; 32; 32; 115; 97; 109; 101; 32; 32; 32; 32; 32; 32; 32; 32; 32; 32; 32; 105; 115; 32; 32; 32; 116; 114; 117; 101; 32; 32; 32; 32; 32; 32; 32; 32; 32; 32; 32; 32; 32; 32; 32; 32; 32; 32; 32; 32; 102; 111; 114; 32; 32; 32; 32; 32; 32; 32; 32; 32; 32; 32; 32; 32; 116; 104; 105; 115; 32; 32; 32; 32; 32; 32; 32; 32; 32; 32; 32; 32; 32; 32; 32; 32; 32; 32; 32; 32; 32; 115; 116; 114; 105; 110; 103; 46] ++ repeat 0 1))));
     ("main", (S_STRING, (VS ([] ++ repeat 0 81))));
     ("l", (S_DINT, (VZ 0)));
     ("p", (S_DINT, (VZ 0)))]
    [("l", Arg "#0");
     ("p", Arg "#1");
     ("main", Call "MID" [Arg "#2"; Arg "l"; Arg "p"])]
    (Some [("main", (VS [116; 104; 105; 115]))]);
  Test 343 (* mid_ext_string *)
    [("#0", (S_STRING, (VS ([115; 97; 109; 112; 108; 101; 32; 116; 101; 120; 116] ++ repeat 0 70))));
     ("#1", (S_DINT, (VZ 7)));
     ("#2", (S_DINT, (VZ 2)));
     ("main", (S_STRING, (VS ([] ++ repeat 0 81))));
     ("in", (S_STRING, (VS ([] ++ repeat 0 81))));
     ("out", (S_STRING, (VS ([] ++ repeat 0 81))));
     ("l", (S_DINT, (VZ 0)));
     ("p", (S_DINT, (VZ 0)))]
    [("in", Arg "#0");
     ("l", Arg "#1");
     ("p", Arg "#2");
     ("", Call "MID_EXT" [Arg "in"; Arg "l"; Arg "p"; Arg "out"]);
     ("main", Arg "out")]
    (Some [("main", (VS [97; 109; 112; 108; 101; 32; 116]))]);
  Test 370 (* mid_string_long_string *)
    [("#0", (S_STRING, (VS ([55; 103; 65; 78; 53; 112; 109; 109; 83; 88; 113; 72; 74; 51; 122; 90; 67; 88; 110; 66; 119; 105; 107; 97; 57; 78; 56; 82; 80; 88; 112; 84; 65; 100; 88; 52; 76; 100; 119; 72; 98; 76; 106; 119; 118; 57; 103; 51; 109; 85; 51; 100; 116; 112; 67; 84; 50; 77; 72; 86; 80; 120; 119; 116; 77; 119; 54; 106; 77; 81; 107; 105; 112; 51; 72; 68; 121; 56; 82; 117; 119; 52; 50; 112; 86; 105; 53; 54; 102; 105; 86; 104; 89; 110; 56; 102; 97; 80; 76; 85; 75; 82; 103; 104; 121; 116; 81; 99; 66; 70; 103; 90; 104; 77; 88; 71; 104; 112; 66; 87] ++ repeat 0 9))));
     ("#1", (S_DINT, (VZ 99)));
     ("#2", (S_DINT, (VZ 10)));
     ("main", (S_STRING, (VS ([] ++ repeat 0 2049))));
     ("in", (S_STRING, (VS ([] ++ repeat 0 129))));
     ("l", (S_DINT, (VZ 0)));
     ("p", (S_DINT, (VZ 0)))]
    [("in", Arg "#0");
     ("l", Arg "#1");
     ("p", Arg "#2");
     ("main", Call "MID" [Arg "in"; Arg "l"; Arg "p"])]
    (Some [("main", (VS [88; 113; 72; 74; 51; 122; 90; 67; 88; 110; 66; 119; 105; 107; 97; 57; 78; 56; 82; 80; 88; 112; 84; 65; 100; 88; 52; 76; 100; 119; 72; 98; 76; 106; 119; 118; 57; 103; 51; 109; 85; 51; 100; 116; 112; 67; 84; 50; 77; 72; 86; 80; 120; 119; 116; 77; 119; 54; 106; 77; 81; 107; 105; 112; 51; 72; 68; 121; 56; 82; 117; 119; 52; 50; 112; 86; 105; 53; 54; 102; 105; 86; 104; 89; 110; 56; 102; 97; 80; 76; 85; 75; 82; 103; 104; 121; 116; 81; 99]))]);
  Test 398 (* mid_ext_string_long_string *)
    [("#0", (S_STRING, (VS ([55; 103; 65; 78; 53; 112; 109; 109; 83; 88; 113; 72; 74; 51; 122; 90; 67; 88; 110; 66; 119; 105; 107; 97; 57; 78; 56; 82; 80; 88; 112; 84; 65; 100; 88; 52; 76; 100; 119; 72; 98; 76; 106; 119; 118; 57; 103; 51; 109; 85; 51; 100; 116; 112; 67; 84; 50; 77; 72; 86; 80; 120; 119; 116; 77; 119; 54; 106; 77; 81; 107; 105; 112; 51; 72; 68; 121; 56; 82; 117; 119; 52; 50; 112; 86; 105; 53; 54; 102; 105; 86; 104; 89; 110; 56; 102; 97; 80; 76; 85; 75; 82; 103; 104; 121; 116; 81; 99; 66; 70; 103; 90; 104; 77; 88; 71; 104; 112; 66; 87] ++ repeat 0 9))));
     ("#1", (S_DINT, (VZ 99)));
     ("#2", (S_DINT, (VZ 10)));
     ("main", (S_STRING, (VS ([] ++ repeat 0 2049))));
     ("in", (S_STRING, (VS ([] ++ repeat 0 129))));
     ("out", (S_STRING, (VS ([] ++ repeat 0 129))));
     ("l", (S_DINT, (VZ 0)));
     ("p", (S_DINT, (VZ 0)))]
    [("in", Arg "#0");
     ("l", Arg "#1");
     ("p", Arg "#2");
     ("", Call "MID_EXT" [Arg "in"; Arg "l"; Arg "p"; Arg "main"])]
    (Some [("main", (VS [88; 113; 72; 74; 51; 122; 90; 67; 88; 110; 66; 119; 105; 107; 97; 57; 78; 56; 82; 80; 88; 112; 84; 65; 100; 88; 52; 76; 100; 119; 72; 98; 76; 106; 119; 118; 57; 103; 51; 109; 85; 51; 100; 116; 112; 67; 84; 50; 77; 72; 86; 80; 120; 119; 116; 77; 119; 54; 106; 77; 81; 107; 105; 112; 51; 72; 68; 121; 56; 82; 117; 119; 52; 50; 112; 86; 105; 53; 54; 102; 105; 86; 104; 89; 110; 56; 102; 97; 80; 76; 85; 75; 82; 103; 104; 121; 116; 81; 99]))]);
  Test 427 (* insert_string *)
    [("#0", (S_STRING, (VS ([115; 116; 117; 99; 107; 32; 119; 105; 116; 104; 32; 121; 111; 117] ++ repeat 0 67))));
     ("#1", (S_STRING, (VS ([105; 110; 32; 116; 104; 101; 32; 109; 105; 100; 100; 108; 101; 32] ++ repeat 0 67))));
     ("#2", (S_SINT, (VZ 6)));
     ("main", (S_STRING, (VS ([] ++ repeat 0 81))));
     ("in1", (S_STRING, (VS ([] ++ repeat 0 81))));
     ("in2", (S_STRING, (VS ([] ++ repeat 0 81))));
     ("p", (S_SINT, (VZ 0)))]
    [("in1", Arg "#0");
     ("in2", Arg "#1");
     ("p", Arg "#2");
     ("main", Call "INSERT" [Arg "in1"; Arg "in2"; Arg "p"])]
    (Some [("main", (VS [115; 116; 117; 99; 107; 32; 105; 110; 32; 116; 104; 101; 32; 109; 105; 100; 100; 108; 101; 32; 119; 105; 116; 104; 32; 121; 111; 117]))]);
  Test 452 (* insert_ext_string_at_start_and_end *)
    [("#0", (S_STRING, (VS ([50] ++ repeat 0 80))));
     ("#1", (S_STRING, (VS ([49] ++ repeat 0 80))));
     ("#2", (S_DINT, (VZ 0)));
     ("#3", (S_STRING, (VS ([51] ++ repeat 0 80))));
     ("#4", (S_DINT, (VZ 2)));
     ("main", (S_STRING, (VS ([] ++ repeat 0 81))));
     ("in1", (S_STRING, (VS ([] ++ repeat 0 81))));
     ("in2", (S_STRING, (VS ([] ++ repeat 0 81))));
     ("out", (S_STRING, (VS ([] ++ repeat 0 81))))]
    [("in1", Arg "#0");
     ("in2", Arg "#1");
     ("", Call "INSERT_EXT" [Arg "in1"; Arg "in2"; Arg "#2"; Arg "out"]);
     ("in1", Arg "out");
     ("in2", Arg "#3");
     ("", Call "INSERT_EXT" [Arg "in1"; Arg "in2"; Arg "#4"; Arg "out"]);
     ("main", Arg "out")]
    (Some [("main", (VS [49; 50; 51]))]);
  Test 505 (* delete_ext_string *)
    [("#0", (S_STRING, (VS ([240; 157; 132; 158; 116; 121; 112; 111; 97; 115; 100; 102] ++ repeat 0 69))));
     ("#1", (S_LINT, (VZ 4)));
     ("#2", (S_USINT, (VZ 6)));
     ("main", (S_STRING, (VS ([] ++ repeat 0 81))));
     ("in", (S_STRING, (VS ([] ++ repeat 0 81))));
     ("out", (S_STRING, (VS ([] ++ repeat 0 81))));
     ("l", (S_LINT, (VZ 0)));
     ("p", (S_USINT, (VZ 0)))]
    [("in", Arg "#0");
     ("l", Arg "#1");
     ("p", Arg "#2");
     ("", Call "DELETE_EXT" [Arg "in"; Arg "l"; Arg "p"; Arg "out"]);
     ("main", Arg "out")]
    (Some [("main", (VS [240; 157; 132; 158; 116; 121; 112; 111]))]);
  Test 559 (* replace_string *)
    [("#0", (S_STRING, (VS ([114; 101; 112; 108; 97; 99; 101; 32; 109; 101] ++ repeat 0 71))));
     ("#1", (S_STRING, (VS ([103; 114; 101; 116; 240; 157; 132; 158] ++ repeat 0 73))));
     ("#2", (S_LINT, (VZ 8)));
     ("#3", (S_USINT, (VZ 3)));
     ("main", (S_STRING, (VS ([] ++ repeat 0 81))));
     ("in1", (S_STRING, (VS ([] ++ repeat 0 81))));
     ("in2", (S_STRING, (VS ([] ++ repeat 0 81))));
     ("l", (S_LINT, (VZ 0)));
     ("p", (S_USINT, (VZ 0)))]
    [("in1", Arg "#0");
     ("in2", Arg "#1");
     ("l", Arg "#2");
     ("p", Arg "#3");
     ("main", Call "REPLACE" [Arg "in1"; Arg "in2"; Arg "l"; Arg "p"])]
    (Some [("main", (VS [114; 101; 103; 114; 101; 116; 240; 157; 132; 158]))]);
  Test 586 (* replace_ext_string *)
    [("#0", (S_STRING, (VS ([114; 101; 112; 108; 97; 99; 101; 32; 109; 101] ++ repeat 0 71))));
     ("#1", (S_STRING, (VS ([115; 116; 240; 157; 132; 158; 114; 101; 100] ++ repeat 0 72))));
     ("#2", (S_LINT, (VZ 8)));
     ("#3", (S_USINT, (VZ 3)));
     ("main", (S_STRING, (VS ([] ++ repeat 0 81))));
     ("in1", (S_STRING, (VS ([] ++ repeat 0 81))));
     ("in2", (S_STRING, (VS ([] ++ repeat 0 81))));
     ("out", (S_STRING, (VS ([] ++ repeat 0 81))));
     ("l", (S_LINT, (VZ 0)));
     ("p", (S_USINT, (VZ 0)))]
    [("in1", Arg "#0");
     ("in2", Arg "#1");
     ("l", Arg "#2");
     ("p", Arg "#3");
     ("", Call "REPLACE_EXT" [Arg "in1"; Arg "in2"; Arg "l"; Arg "p"; Arg "out"]);
     ("main", Arg "out")]
    (Some [("main", (VS [114; 101; 115; 116; 240; 157; 132; 158; 114; 101; 100]))]);
  Test 615 (* find_string *)
    [("#0", (S_STRING, (VS ([87; 104; 101; 114; 101; 32; 105; 115; 32; 87; 97; 108; 100; 111; 63] ++ repeat 0 66))));
     ("#1", (S_STRING, (VS ([87; 97; 108; 100; 111] ++ repeat 0 76))));
     ("main", (S_DINT, (VZ 0)));
     ("in1", (S_STRING, (VS ([] ++ repeat 0 81))));
     ("in2", (S_STRING, (VS ([] ++ repeat 0 81))))]
    [("in1", Arg "#0");
     ("in2", Arg "#1");
     ("main", Call "FIND" [Arg "in1"; Arg "in2"])]
    (Some [("main", (VZ 10))]);
  Test 653 (* test_concat_string *)
    [("#0", (S_STRING, (VS ([72; 101; 108; 108; 111] ++ repeat 0 76))));
     ("#1", (S_STRING, (VS ([44; 32] ++ repeat 0 79))));
     ("#2", (S_STRING, (VS ([87; 111; 114; 108; 100] ++ repeat 0 76))));
     ("#3", (S_STRING, (VS ([33] ++ repeat 0 80))));
     ("main", (S_STRING, (VS ([] ++ repeat 0 2049))));
     ("a", (S_STRING, (VS ([] ++ repeat 0 81))));
     ("b", (S_STRING, (VS ([] ++ repeat 0 81))));
     ("c", (S_STRING, (VS ([] ++ repeat 0 81))));
     ("d", (S_STRING, (VS ([] ++ repeat 0 81))))]
    [("a", Arg "#0");
     ("b", Arg "#1");
     ("c", Arg "#2");
     ("d", Arg "#3");
     ("main", Call "CONCAT" [Arg "a"; Arg "b"; Arg "c"; Arg "d"])]
    (Some [("main", (VS [72; 101; 108; 108; 111; 44; 32; 87; 111; 114; 108; 100; 33]))]);
  Test 677 (* test_concat_ext_string *)
    [("#0", (S_STRING, (VS ([72; 101; 108; 108; 111] ++ repeat 0 76))));
     ("#1", (S_STRING, (VS ([44; 32] ++ repeat 0 79))));
     ("#2", (S_STRING, (VS ([87; 111; 114; 108; 100] ++ repeat 0 76))));
     ("#3", (S_STRING, (VS ([33] ++ repeat 0 80))));
     ("main", (S_STRING, (VS ([] ++ repeat 0 2049))));
     ("a", (S_STRING, (VS ([] ++ repeat 0 81))));
     ("b", (S_STRING, (VS ([] ++ repeat 0 81))));
     ("c", (S_STRING, (VS ([] ++ repeat 0 81))));
     ("d", (S_STRING, (VS ([] ++ repeat 0 81))))]
    [("a", Arg "#0");
     ("b", Arg "#1");
     ("c", Arg "#2");
     ("d", Arg "#3");
     ("", Call "CONCAT_EXT" [Arg "main"; Arg "a"; Arg "b"; Arg "c"; Arg "d"])]
    (Some [("main", (VS [72; 101; 108; 108; 111; 44; 32; 87; 111; 114; 108; 100; 33]))]);
  Test 700 (* test_concat_long_strings *)
    [("#0", (S_STRING, (VS ([32; 32; 32; 32; 32; 116; 104; 105; 115; 32; 105; 115; 32; 32; 32; 97; 32; 32; 118; 101; 114; 121; 32; 32; 32; 108; 111; 110; 103; 32; 32; 32; 32; 32; 32; 32; 32; 32; 32; 32; 115; 101; 110; 116; 101; 110; 99; 101; 32; 32; 32; 119; 105; 116; 104; 32; 112; 108; 101; 110; 116; 121; 32; 32; 111; 102; 32; 32; 32; 32; 99; 104; 97; 114; 97; 99; 116; 101; 114; 115; 32; 97; 110; 100; 32; 119; 101; 105; 114; 100; 32; 32; 115; 112; 97; 99; 105; 110; 103; 46] ++ repeat 0 157))));
     ("#1", (S_STRING, (VS ([10] ++ repeat 0 80))));
     ("#2", (S_STRING, (VS ([116; 104; 101; 32; 32; 32; 32; 32; 32; 32; 32; 32; 32; 32; 32; 32; 32; 32; 32; 115; 97; 109; 101; 32; 32; 32; 32; 32; 32; 32; 32; 32; 32; 32; 105; 115; 32; 32; 32; 116; 114; 117; 101; 32; 32; 32; 32; 32; 32; 32; 32; 32; 32; 32; 32; 32; 32; 32; 32; 32; 32; 32; 32; 102; 111; 114; 32; 32; 32; 32; 32; 32; 32; 32; 32; 32; 32; 32; 32; 116; 104; 105; 115; 32; 32; 32; 32; 32; 32; 32; 32; 32; 32; 32; 32; 32; 32; 32; 32; 32; 32; 32; 32; 32; 115; 116; 114; 105; 110; 103; 46] ++ repeat 0 146))));
     ("main", (S_STRING, (VS ([] ++ repeat 0 2049))));
     ("s1", (S_STRING, (VS ([] ++ repeat 0 257))));
     ("s2", (S_STRING, (VS ([] ++ repeat 0 81))));
     ("s3", (S_STRING, (VS ([] ++ repeat 0 257))))]
    [("s1", Arg "#0");
     ("s2", Arg "#1");
     ("s3", Arg "#2");
     ("main", Call "CONCAT" [Arg "s1"; Arg "s2"; Arg "s3"])]
    (Some [("main", (VS [32; 32; 32; 32; 32; 116; 104; 105; 115; 32; 105; 115; 32; 32; 32; 97; 32; 32; 118; 101; 114; 121; 32; 32; 32; 108; 111; 110; 103; 32; 32; 32; 32; 32; 32; 32; 32; 32; 32; 32; 115; 101; 110; 116; 101; 110; 99; 101; 32; 32; 32; 119; 105; 116; 104; 32; 112; 108; 101; 110; 116; 121; 32; 32; 111; 102; 32; 32; 32; 32; 99; 104; 97; 114; 97; 99; 116; 101; 114; 115; 32; 97; 110; 100; 32; 119; 101; 105; 114; 100; 32; 32; 115; 112; 97; 99; 105; 110; 103; 46; 10; 116; 104; 101; 32; 32; 32; 32; 32; 32; 32; 32; 32; 32; 32; 32; 32; 32; 32; 32; 115; 97; 109; 101; 32; 32; 32; 32; 32; 32; 32; 32; 32; 32; 32; 105; 115; 32; 32; 32; 116; 114; 117; 101; 32; 32; 32; 32; 32; 32; 32; 32; 32; 32; 32; 32; 32; 32; 32; 32; 32; 32; 32; 32; 102; 111; 114; 32; 32; 32; 32; 32; 32; 32; 32; 32; 32; 32; 32; 32; 116; 104; 105; 115; 32; 32; 32; 32; 32; 32; 32; 32; 32; 32; 32; 32; 32; 32; 32; 32; 32; 32; 32; 32; 32; 115; 116; 114; 105; 110; 103; 46]))]);
  Test 727 (* test_concat_long_string_literals *)
    [("#0", (S_STRING, (VS ([32; 32; 32; 32; 32; 116; 104; 105; 115; 32; 105; 115; 32; 32; 32; 97; 32; 32; 118; 101; 114; 121; 32; 32; 32; 108; 111; 110; 103; 32; 32; 32; 32; 32; 32; 32; 32; 32; 32; 32; 115; 101; 110; 116; 101; 110; 99; 101; 32; 32; 32; 119; 105; 116; 104; 32; 112; 108; 101; 110; 116; 121; 32; 32; 111; 102; 32; 32; 32; 32; 99; 104; 97; 114; 97; 99; 116; 101; 114; 115; 32; 97; 110; 100; 32; 119; 101; 105; 114; 100; 32; 32; 115; 112; 97; 99; 105; 110; 103; 46] ++ repeat 0 1))));
     ("#1", (S_STRING, (VS ([10] ++ repeat 0 1))));
     ("#2", (S_STRING, (VS ([116; 104; 101; 32; 32; 32; 32; 32; 32; 32; 32; 32; 32; 32; 32; 32; 32; 32; 32; 115; 97; 109; 101; 32; 32; 32; 32; 32; 32; 32; 32; 32; 32; 32; 105; 115; 32; 32; 32; 116; 114; 117; 101; 32; 32; 32; 32; 32; 32; 32; 32; 32; 32; 32; 32; 32; 32; 32; 32; 32; 32; 32; 32; 102; 111; 114; 32; 32; 32; 32; 32; 32; 32; 32; 32; 32; 32; 32; 32; 116; 104; 105; 115; 32; 32; 32; 32; 32; 32; 32; 32; 32; 32; 32; 32; 32; 32; 32; 32; 32; 32; 32; 32; 32; 115; 116; 114; 105; 110; 103; 46] ++ repeat 0 1))));
     ("main", (S_STRING, (VS ([] ++ repeat 0 2049))))]
    [("main", Call "CONCAT" [Arg "#0"; Arg "#1"; Arg "#2"])]
    (Some [("main", (VS [32; 32; 32; 32; 32; 116; 104; 105; 115; 32; 105; 115; 32; 32; 32; 97; 32; 32; 118; 101; 114; 121; 32; 32; 32; 108; 111; 110; 103; 32; 32; 32; 32; 32; 32; 32; 32; 32; 32; 32; 115; 101; 110; 116; 101; 110; 99; 101; 32; 32; 32; 119; 105; 116; 104; 32; 112; 108; 101; 110; 116; 121; 32; 32; 111; 102; 32; 32; 32; 32; 99; 104; 97; 114; 97; 99; 116; 101; 114; 115; 32; 97; 110; 100; 32; 119; 101; 105; 114; 100; 32; 32; 115; 112; 97; 99; 105; 110; 103; 46; 10; 116; 104; 101; 32; 32; 32; 32; 32; 32; 32; 32; 32; 32; 32; 32; 32; 32; 32; 32; 115; 97; 109; 101; 32; 32; 32; 32; 32; 32; 32; 32; 32; 32; 32; 105; 115; 32; 32; 32; 116; 114; 117; 101; 32; 32; 32; 32; 32; 32; 32; 32; 32; 32; 32; 32; 32; 32; 32; 32; 32; 32; 32; 32; 102; 111; 114; 32; 32; 32; 32; 32; 32; 32; 32; 32; 32; 32; 32; 32; 116; 104; 105; 115; 32; 32; 32; 32; 32; 32; 32; 32; 32; 32; 32; 32; 32; 32; 32; 32; 32; 32; 32; 32; 32; 115; 116; 114; 105; 110; 103; 46]))]);
  Test 750 (* len_wstring *)
    [("#0", (S_WSTRING, (VS ([72; 232; 223; 108; 111; 55357; 56832; 55348; 56606] ++ repeat 0 72))));
     ("main", (S_DINT, (VZ 0)));
     ("in", (S_WSTRING, (VS ([] ++ repeat 0 81))))]
    [("in", Arg "#0");
     ("main", Call "LEN" [Arg "in"])]
    (Some [("main", (VZ 7))]);
  Test 766 (* len_wstring_no_variable *)
    [("#0", (S_WSTRING, (VS ([72; 232; 223; 108; 111; 55357; 56832; 55348; 56606] ++ repeat 0 1))));
     ("main", (S_DINT, (VZ 0)))]
    [("main", Call "LEN" [Arg "#0"])]
    (Some [("main", (VZ 7))]);
  Test 778 (* len_wstring_empty *)
    [("#0", (S_WSTRING, (VS ([] ++ repeat 0 1025))));
     ("main", (S_DINT, (VZ 0)));
     ("in", (S_WSTRING, (VS ([] ++ repeat 0 1025))))]
    [("in", Arg "#0");
     ("main", Call "LEN" [Arg "in"])]
    (Some [("main", (VZ 0))]);
  Test 794 (* left_wstring *)
    [("#0", (S_WSTRING, (VS ([55348; 56606; 109; 117; 115; 105; 99] ++ repeat 0 74))));
     ("#1", (S_DINT, (VZ 2)));
     ("main", (S_WSTRING, (VS ([] ++ repeat 0 81))));
     ("in", (S_WSTRING, (VS ([] ++ repeat 0 81))))]
    [("in", Arg "#0");
     ("main", Call "LEFT" [Arg "in"; Arg "#1"])]
    (Some [("main", (VS [55348; 56606; 109]))]);
  Test 815 (* left_wstring_lint *)
    [("#0", (S_WSTRING, (VS ([108; 101; 116; 115; 32; 115; 101; 101; 32; 55348; 56606; 102; 32; 108; 111; 110; 103; 32; 55348; 56606; 110; 116; 32; 105; 115; 32; 104; 97; 110; 100; 108; 101; 100; 32; 99; 111; 114; 114; 101; 99; 116; 108; 121] ++ repeat 0 38))));
     ("#1", (S_LINT, (VZ 31)));
     ("main", (S_WSTRING, (VS ([] ++ repeat 0 81))));
     ("in", (S_WSTRING, (VS ([] ++ repeat 0 81))));
     ("l", (S_LINT, (VZ 0)))]
    [("in", Arg "#0");
     ("l", Arg "#1");
     ("main", Call "LEFT" [Arg "in"; Arg "l"])]
    (Some [("main", (VS [108; 101; 116; 115; 32; 115; 101; 101; 32; 55348; 56606; 102; 32; 108; 111; 110; 103; 32; 55348; 56606; 110; 116; 32; 105; 115; 32; 104; 97; 110; 100; 108; 101; 100]))]);
  Test 838 (* left_ext_wstring *)
    [("#0", (S_WSTRING, (VS ([101; 55348; 56606; 116; 101; 110; 100; 101; 100] ++ repeat 0 72))));
     ("#1", (S_UDINT, (VZ 6)));
     ("main", (S_WSTRING, (VS ([] ++ repeat 0 81))));
     ("in", (S_WSTRING, (VS ([] ++ repeat 0 81))));
     ("out", (S_WSTRING, (VS ([] ++ repeat 0 81))));
     ("l", (S_UDINT, (VZ 0)))]
    [("in", Arg "#0");
     ("l", Arg "#1");
     ("", Call "LEFT_EXT" [Arg "in"; Arg "l"; Arg "out"]);
     ("main", Arg "out")]
    (Some [("main", (VS [101; 55348; 56606; 116; 101; 110; 100]))]);
  Test 863 (* right_wstring_usint *)
    [("#0", (S_WSTRING, (VS ([115; 97; 109; 112; 55348; 56606; 101; 32; 116; 101; 120; 116] ++ repeat 0 69))));
     ("#1", (S_DINT, (VZ 7)));
     ("main", (S_WSTRING, (VS ([] ++ repeat 0 81))));
     ("in", (S_WSTRING, (VS ([] ++ repeat 0 81))))]
    [("in", Arg "#0");
     ("main", Call "RIGHT" [Arg "in"; Arg "#1"])]
    (Some [("main", (VS [55348; 56606; 101; 32; 116; 101; 120; 116]))]);
  Test 884 (* right_wstring_substring_too_long *)
    [("#0", (S_WSTRING, (VS ([115; 97; 55348; 56606; 112; 108; 101; 32; 116; 101; 120; 116] ++ repeat 0 69))));
     ("#1", (S_DINT, (VZ 12)));
     ("main", (S_WSTRING, (VS ([] ++ repeat 0 81))));
     ("in", (S_WSTRING, (VS ([] ++ repeat 0 81))))]
    [("in", Arg "#0");
     ("main", Call "RIGHT" [Arg "in"; Arg "#1"])]
    None;
  Test 901 (* right_ext_wstring *)
    [("#0", (S_WSTRING, (VS ([101; 120; 116; 101; 110; 55348; 56606; 101; 100; 55348; 56606] ++ repeat 0 70))));
     ("#1", (S_DINT, (VZ 4)));
     ("main", (S_WSTRING, (VS ([] ++ repeat 0 81))));
     ("in", (S_WSTRING, (VS ([] ++ repeat 0 81))));
     ("out", (S_WSTRING, (VS ([] ++ repeat 0 81))))]
    [("in", Arg "#0");
     ("", Call "RIGHT_EXT" [Arg "in"; Arg "#1"; Arg "out"]);
     ("main", Arg "out")]
    (Some [("main", (VS [55348; 56606; 101; 100; 55348; 56606]))]);
  Test 924 (* right_string_long_wstring *)
    [("#0", (S_WSTRING, (VS ([55; 103; 65; 78; 53; 112; 109; 109; 83; 88; 113; 72; 74; 51; 122; 90; 67; 88; 110; 66; 119; 105; 107; 97; 57; 78; 56; 82; 80; 88; 112; 84; 65; 100; 88; 52; 76; 100; 119; 72; 98; 76; 106; 119; 118; 57; 103; 51; 109; 85; 51; 100; 116; 112; 67; 84; 50; 77; 72; 86; 80; 120; 119; 116; 77; 119; 54; 106; 77; 81; 107; 105; 112; 51; 72; 68; 121; 56; 82; 117; 119; 52; 50; 112; 86; 105; 53; 54; 102; 105; 86; 104; 89; 110; 56; 102; 97; 80; 76; 85; 75; 82; 103; 104; 121; 116; 81; 99; 66; 70; 103; 90; 104; 77; 88; 71; 104; 112; 55348; 56606; 55348; 56606] ++ repeat 0 7))));
     ("#1", (S_DINT, (VZ 99)));
     ("main", (S_WSTRING, (VS ([] ++ repeat 0 129))));
     ("in", (S_WSTRING, (VS ([] ++ repeat 0 129))));
     ("l", (S_DINT, (VZ 0)))]
    [("in", Arg "#0");
     ("l", Arg "#1");
     ("main", Call "RIGHT" [Arg "in"; Arg "l"])]
    (Some [("main", (VS [105; 107; 97; 57; 78; 56; 82; 80; 88; 112; 84; 65; 100; 88; 52; 76; 100; 119; 72; 98; 76; 106; 119; 118; 57; 103; 51; 109; 85; 51; 100; 116; 112; 67; 84; 50; 77; 72; 86; 80; 120; 119; 116; 77; 119; 54; 106; 77; 81; 107; 105; 112; 51; 72; 68; 121; 56; 82; 117; 119; 52; 50; 112; 86; 105; 53; 54; 102; 105; 86; 104; 89; 110; 56; 102; 97; 80; 76; 85; 75; 82; 103; 104; 121; 116; 81; 99; 66; 70; 103; 90; 104; 77; 88; 71; 104; 112; 55348; 56606; 55348; 56606]))]);
  Test 947 (* right_ext_string_long_wstring *)
    [("#0", (S_WSTRING, (VS ([55; 103; 65; 78; 53; 112; 109; 109; 83; 88; 113; 72; 74; 51; 122; 90; 67; 88; 110; 66; 119; 105; 55348; 56606; 55348; 56606; 57; 78; 56; 82; 80; 88; 112; 84; 65; 100; 88; 52; 76; 100; 119; 72; 98; 76; 106; 119; 118; 57; 103; 51; 109; 85; 51; 100; 116; 112; 67; 84; 50; 77; 72; 86; 80; 120; 119; 116; 77; 119; 54; 106; 77; 81; 107; 105; 112; 51; 72; 68; 121; 56; 82; 117; 119; 52; 50; 112; 86; 105; 53; 54; 102; 105; 86; 104; 89; 110; 56; 102; 97; 80; 76; 85; 75; 82; 103; 104; 121; 116; 81; 99; 66; 70; 103; 90; 104; 77; 88; 71; 104; 112; 66; 87] ++ repeat 0 7))));
     ("#1", (S_DINT, (VZ 99)));
     ("main", (S_WSTRING, (VS ([] ++ repeat 0 129))));
     ("in", (S_WSTRING, (VS ([] ++ repeat 0 129))));
     ("out", (S_WSTRING, (VS ([] ++ repeat 0 129))));
     ("l", (S_DINT, (VZ 0)))]
    [("in", Arg "#0");
     ("l", Arg "#1");
     ("", Call "RIGHT_EXT" [Arg "in"; Arg "l"; Arg "main"])]
    (Some [("main", (VS [105; 55348; 56606; 55348; 56606; 57; 78; 56; 82; 80; 88; 112; 84; 65; 100; 88; 52; 76; 100; 119; 72; 98; 76; 106; 119; 118; 57; 103; 51; 109; 85; 51; 100; 116; 112; 67; 84; 50; 77; 72; 86; 80; 120; 119; 116; 77; 119; 54; 106; 77; 81; 107; 105; 112; 51; 72; 68; 121; 56; 82; 117; 119; 52; 50; 112; 86; 105; 53; 54; 102; 105; 86; 104; 89; 110; 56; 102; 97; 80; 76; 85; 75; 82; 103; 104; 121; 116; 81; 99; 66; 70; 103; 90; 104; 77; 88; 71; 104; 112; 66; 87]))]);
  Test 971 (* mid_wstring *)
    [("#0", (S_WSTRING, (VS ([115; 97; 109; 112; 108; 101; 32; 55348; 56606; 109; 117; 983; 55357; 56832; 32; 116; 101; 120; 116] ++ repeat 0 62))));
     ("#1", (S_DINT, (VZ 7)));
     ("#2", (S_DINT, (VZ 2)));
     ("main", (S_WSTRING, (VS ([] ++ repeat 0 81))));
     ("in", (S_WSTRING, (VS ([] ++ repeat 0 81))));
     ("l", (S_DINT, (VZ 0)));
     ("p", (S_DINT, (VZ 0)))]
    [("in", Arg "#0");
     ("l", Arg "#1");
     ("p", Arg "#2");
     ("main", Call "MID" [Arg "in"; Arg "l"; Arg "p"])]
    (Some [("main", (VS [97; 109; 112; 108; 101; 32; 55348; 56606]))]);
  Test 996 (* mid_ext_wstring *)
    [("#0", (S_WSTRING, (VS ([55348; 56606; 109; 117; 983; 55357; 56832; 32; 115; 97; 109; 112; 108; 101; 32; 116; 101; 120; 116] ++ repeat 0 62))));
     ("#1", (S_DINT, (VZ 7)));
     ("#2", (S_DINT, (VZ 2)));
     ("main", (S_WSTRING, (VS ([] ++ repeat 0 81))));
     ("in", (S_WSTRING, (VS ([] ++ repeat 0 81))));
     ("out", (S_WSTRING, (VS ([] ++ repeat 0 81))));
     ("l", (S_DINT, (VZ 0)));
     ("p", (S_DINT, (VZ 0)))]
    [("in", Arg "#0");
     ("l", Arg "#1");
     ("p", Arg "#2");
     ("", Call "MID_EXT" [Arg "in"; Arg "l"; Arg "p"; Arg "out"]);
     ("main", Arg "out")]
    (Some [("main", (VS [109; 117; 983; 55357; 56832; 32; 115; 97]))]);
  Test 1023 (* mid_string_long_wstring *)
    [("#0", (S_WSTRING, (VS ([55348; 56606; 109; 117; 983; 55357; 56832; 112; 109; 109; 83; 88; 113; 72; 74; 51; 122; 90; 67; 88; 110; 66; 119; 105; 107; 97; 57; 78; 56; 82; 80; 88; 112; 84; 65; 100; 88; 52; 76; 100; 119; 72; 98; 76; 106; 119; 118; 57; 103; 51; 109; 85; 51; 100; 116; 112; 67; 84; 50; 77; 72; 86; 80; 120; 119; 116; 77; 119; 54; 106; 77; 81; 107; 105; 112; 51; 72; 68; 121; 56; 82; 117; 119; 52; 50; 112; 86; 105; 53; 54; 102; 105; 86; 104; 89; 110; 56; 102; 97; 80; 76; 85; 75; 82; 103; 104; 121; 116; 81; 99; 66; 70; 103; 90; 104; 77; 88; 71; 104; 112; 66; 87] ++ repeat 0 7))));
     ("#1", (S_DINT, (VZ 99)));
     ("#2", (S_DINT, (VZ 10)));
     ("main", (S_WSTRING, (VS ([] ++ repeat 0 129))));
     ("in", (S_WSTRING, (VS ([] ++ repeat 0 129))));
     ("l", (S_DINT, (VZ 0)));
     ("p", (S_DINT, (VZ 0)))]
    [("in", Arg "#0");
     ("l", Arg "#1");
     ("p", Arg "#2");
     ("main", Call "MID" [Arg "in"; Arg "l"; Arg "p"])]
    (Some [("main", (VS [88; 113; 72; 74; 51; 122; 90; 67; 88; 110; 66; 119; 105; 107; 97; 57; 78; 56; 82; 80; 88; 112; 84; 65; 100; 88; 52; 76; 100; 119; 72; 98; 76; 106; 119; 118; 57; 103; 51; 109; 85; 51; 100; 116; 112; 67; 84; 50; 77; 72; 86; 80; 120; 119; 116; 77; 119; 54; 106; 77; 81; 107; 105; 112; 51; 72; 68; 121; 56; 82; 117; 119; 52; 50; 112; 86; 105; 53; 54; 102; 105; 86; 104; 89; 110; 56; 102; 97; 80; 76; 85; 75; 82; 103; 104; 121; 116; 81; 99]))]);
  Test 1048 (* mid_ext_string_long_wstring *)
    [("#0", (S_WSTRING, (VS ([55348; 56606; 109; 117; 983; 55357; 56832; 112; 109; 109; 83; 88; 113; 72; 74; 51; 122; 90; 67; 88; 110; 66; 119; 105; 107; 97; 57; 78; 56; 82; 80; 88; 112; 84; 65; 100; 88; 52; 76; 100; 119; 72; 98; 76; 106; 119; 118; 57; 103; 51; 109; 85; 51; 100; 116; 112; 67; 84; 50; 77; 72; 86; 80; 120; 119; 116; 77; 119; 54; 106; 77; 81; 107; 105; 112; 51; 72; 68; 121; 56; 82; 117; 119; 52; 50; 112; 86; 105; 53; 54; 102; 105; 86; 104; 89; 110; 56; 102; 97; 80; 76; 85; 75; 82; 103; 104; 121; 116; 81; 99; 66; 70; 103; 90; 104; 77; 88; 71; 104; 112; 66; 87] ++ repeat 0 7))));
     ("#1", (S_DINT, (VZ 99)));
     ("#2", (S_DINT, (VZ 10)));
     ("main", (S_WSTRING, (VS ([] ++ repeat 0 129))));
     ("in", (S_WSTRING, (VS ([] ++ repeat 0 129))));
     ("l", (S_DINT, (VZ 0)));
     ("p", (S_DINT, (VZ 0)))]
    [("in", Arg "#0");
     ("l", Arg "#1");
     ("p", Arg "#2");
     ("", Call "MID_EXT" [Arg "in"; Arg "l"; Arg "p"; Arg "main"])]
    (Some [("main", (VS [88; 113; 72; 74; 51; 122; 90; 67; 88; 110; 66; 119; 105; 107; 97; 57; 78; 56; 82; 80; 88; 112; 84; 65; 100; 88; 52; 76; 100; 119; 72; 98; 76; 106; 119; 118; 57; 103; 51; 109; 85; 51; 100; 116; 112; 67; 84; 50; 77; 72; 86; 80; 120; 119; 116; 77; 119; 54; 106; 77; 81; 107; 105; 112; 51; 72; 68; 121; 56; 82; 117; 119; 52; 50; 112; 86; 105; 53; 54; 102; 105; 86; 104; 89; 110; 56; 102; 97; 80; 76; 85; 75; 82; 103; 104; 121; 116; 81; 99]))]);
  Test 1073 (* insert_wstring *)
    [("#0", (S_WSTRING, (VS ([115; 116; 117; 99; 107; 32; 119; 105; 116; 104; 32; 121; 111; 117] ++ repeat 0 67))));
     ("#1", (S_WSTRING, (VS ([105; 110; 32; 116; 104; 101; 32; 109; 105; 100; 100; 108; 101; 32] ++ repeat 0 67))));
     ("#2", (S_SINT, (VZ 6)));
     ("main", (S_WSTRING, (VS ([] ++ repeat 0 81))));
     ("in1", (S_WSTRING, (VS ([] ++ repeat 0 81))));
     ("in2", (S_WSTRING, (VS ([] ++ repeat 0 81))));
     ("p", (S_SINT, (VZ 0)))]
    [("in1", Arg "#0");
     ("in2", Arg "#1");
     ("p", Arg "#2");
     ("main", Call "INSERT" [Arg "in1"; Arg "in2"; Arg "p"])]
    (Some [("main", (VS [115; 116; 117; 99; 107; 32; 105; 110; 32; 116; 104; 101; 32; 109; 105; 100; 100; 108; 101; 32; 119; 105; 116; 104; 32; 121; 111; 117]))]);
  Test 1101 (* insert_ext_wstring_at_start_and_end *)
    [("#0", (S_WSTRING, (VS ([50] ++ repeat 0 80))));
     ("#1", (S_WSTRING, (VS ([49] ++ repeat 0 80))));
     ("#2", (S_DINT, (VZ 0)));
     ("#3", (S_WSTRING, (VS ([51] ++ repeat 0 80))));
     ("#4", (S_DINT, (VZ 2)));
     ("main", (S_WSTRING, (VS ([] ++ repeat 0 81))));
     ("in1", (S_WSTRING, (VS ([] ++ repeat 0 81))));
     ("in2", (S_WSTRING, (VS ([] ++ repeat 0 81))));
     ("out", (S_WSTRING, (VS ([] ++ repeat 0 81))))]
    [("in1", Arg "#0");
     ("in2", Arg "#1");
     ("", Call "INSERT_EXT" [Arg "in1"; Arg "in2"; Arg "#2"; Arg "out"]);
     ("in1", Arg "out");
     ("in2", Arg "#3");
     ("", Call "INSERT_EXT" [Arg "in1"; Arg "in2"; Arg "#4"; Arg "out"]);
     ("main", Arg "out")]
    (Some [("main", (VS [49; 50; 51]))]);
  Test 1129 (* delete_wstring *)
    [("#0", (S_WSTRING, (VS ([116; 104; 105; 115; 32; 119; 105; 108; 108; 32; 98; 101; 32; 100; 101; 108; 101; 116; 101; 100] ++ repeat 0 61))));
     ("#1", (S_UINT, (VZ 13)));
     ("#2", (S_ULINT, (VZ 1)));
     ("main", (S_WSTRING, (VS ([] ++ repeat 0 81))));
     ("in", (S_WSTRING, (VS ([] ++ repeat 0 81))));
     ("l", (S_UINT, (VZ 0)));
     ("p", (S_ULINT, (VZ 0)))]
    [("in", Arg "#0");
     ("l", Arg "#1");
     ("p", Arg "#2");
     ("main", Call "DELETE" [Arg "in"; Arg "l"; Arg "p"])]
    (Some [("main", (VS [100; 101; 108; 101; 116; 101; 100]))]);
  Test 1185 (* replace_wstring *)
    [("#0", (S_WSTRING, (VS ([114; 101; 112; 108; 97; 99; 101; 32; 109; 101] ++ repeat 0 71))));
     ("#1", (S_WSTRING, (VS ([103; 114; 101; 116] ++ repeat 0 77))));
     ("#2", (S_LINT, (VZ 8)));
     ("#3", (S_USINT, (VZ 3)));
     ("main", (S_WSTRING, (VS ([] ++ repeat 0 81))));
     ("in1", (S_WSTRING, (VS ([] ++ repeat 0 81))));
     ("in2", (S_WSTRING, (VS ([] ++ repeat 0 81))));
     ("l", (S_LINT, (VZ 0)));
     ("p", (S_USINT, (VZ 0)))]
    [("in1", Arg "#0");
     ("in2", Arg "#1");
     ("l", Arg "#2");
     ("p", Arg "#3");
     ("main", Call "REPLACE" [Arg "in1"; Arg "in2"; Arg "l"; Arg "p"])]
    (Some [("main", (VS [114; 101; 103; 114; 101; 116]))]);
  Test 1212 (* replace_ext_wstring *)
    [("#0", (S_WSTRING, (VS ([114; 101; 112; 108; 97; 99; 101; 32; 109; 101] ++ repeat 0 71))));
     ("#1", (S_WSTRING, (VS ([115; 116; 111; 114; 101; 100] ++ repeat 0 75))));
     ("#2", (S_LINT, (VZ 8)));
     ("#3", (S_USINT, (VZ 3)));
     ("main", (S_WSTRING, (VS ([] ++ repeat 0 81))));
     ("in1", (S_WSTRING, (VS ([] ++ repeat 0 81))));
     ("in2", (S_WSTRING, (VS ([] ++ repeat 0 81))));
     ("out", (S_WSTRING, (VS ([] ++ repeat 0 81))));
     ("l", (S_LINT, (VZ 0)));
     ("p", (S_USINT, (VZ 0)))]
    [("in1", Arg "#0");
     ("in2", Arg "#1");
     ("l", Arg "#2");
     ("p", Arg "#3");
     ("", Call "REPLACE_EXT" [Arg "in1"; Arg "in2"; Arg "l"; Arg "p"; Arg "out"]);
     ("main", Arg "out")]
    (Some [("main", (VS [114; 101; 115; 116; 111; 114; 101; 100]))]);
  Test 1241 (* find_wstring *)
    [("#0", (S_WSTRING, (VS ([87; 104; 101; 114; 101; 32; 105; 115; 32; 87; 97; 108; 100; 111; 63] ++ repeat 0 66))));
     ("#1", (S_WSTRING, (VS ([87; 97; 108; 100; 111] ++ repeat 0 76))));
     ("main", (S_DINT, (VZ 0)));
     ("in1", (S_WSTRING, (VS ([] ++ repeat 0 81))));
     ("in2", (S_WSTRING, (VS ([] ++ repeat 0 81))))]
    [("in1", Arg "#0");
     ("in2", Arg "#1");
     ("main", Call "FIND" [Arg "in1"; Arg "in2"])]
    (Some [("main", (VZ 10))]);
  Test 1260 (* delete_wstring_with_escape_sequence *)
    [("#0", (S_WSTRING, (VS ([116; 104; 101; 36; 101; 32; 97; 114; 101; 32; 101; 115; 99; 97; 112; 101; 32; 115; 101; 113; 117; 101; 110; 99; 101; 115; 32; 34; 55348; 56606; 34] ++ repeat 0 50))));
     ("#1", (S_UINT, (VZ 21)));
     ("#2", (S_ULINT, (VZ 6)));
     ("main", (S_WSTRING, (VS ([] ++ repeat 0 81))));
     ("in", (S_WSTRING, (VS ([] ++ repeat 0 81))));
     ("l", (S_UINT, (VZ 0)));
     ("p", (S_ULINT, (VZ 0)))]
    [("in", Arg "#0");
     ("l", Arg "#1");
     ("p", Arg "#2");
     ("main", Call "DELETE" [Arg "in"; Arg "l"; Arg "p"])]
    (Some [("main", (VS [116; 104; 101; 36; 101; 32; 34; 55348; 56606; 34]))]);
  Test 1285 (* test_concat_wstring *)
    [("#0", (S_WSTRING, (VS ([72; 101; 108; 108; 111] ++ repeat 0 76))));
     ("#1", (S_WSTRING, (VS ([44; 32] ++ repeat 0 79))));
     ("#2", (S_WSTRING, (VS ([87; 111; 114; 108; 100] ++ repeat 0 76))));
     ("#3", (S_WSTRING, (VS ([33] ++ repeat 0 80))));
     ("main", (S_WSTRING, (VS ([] ++ repeat 0 2049))));
     ("a", (S_WSTRING, (VS ([] ++ repeat 0 81))));
     ("b", (S_WSTRING, (VS ([] ++ repeat 0 81))));
     ("c", (S_WSTRING, (VS ([] ++ repeat 0 81))));
     ("d", (S_WSTRING, (VS ([] ++ repeat 0 81))))]
    [("a", Arg "#0");
     ("b", Arg "#1");
     ("c", Arg "#2");
     ("d", Arg "#3");
     ("main", Call "CONCAT" [Arg "a"; Arg "b"; Arg "c"; Arg "d"])]
    (Some [("main", (VS [72; 101; 108; 108; 111; 44; 32; 87; 111; 114; 108; 100; 33]))]);
  Test 1308 (* test_concat_ext_wstring *)
    [("#0", (S_WSTRING, (VS ([72; 101; 108; 108; 111] ++ repeat 0 76))));
     ("#1", (S_WSTRING, (VS ([44; 32] ++ repeat 0 79))));
     ("#2", (S_WSTRING, (VS ([87; 111; 114; 108; 100] ++ repeat 0 76))));
     ("#3", (S_WSTRING, (VS ([33] ++ repeat 0 80))));
     ("main", (S_WSTRING, (VS ([] ++ repeat 0 2049))));
     ("a", (S_WSTRING, (VS ([] ++ repeat 0 81))));
     ("b", (S_WSTRING, (VS ([] ++ repeat 0 81))));
     ("c", (S_WSTRING, (VS ([] ++ repeat 0 81))));
     ("d", (S_WSTRING, (VS ([] ++ repeat 0 81))))]
    [("a", Arg "#0");
     ("b", Arg "#1");
     ("c", Arg "#2");
     ("d", Arg "#3");
     ("", Call "CONCAT_EXT" [Arg "main"; Arg "a"; Arg "b"; Arg "c"; Arg "d"])]
    (Some [("main", (VS [72; 101; 108; 108; 111; 44; 32; 87; 111; 114; 108; 100; 33]))]);
  Test 1332 (* test_gt_string *)
    [("#0", (S_STRING, (VS ([122] ++ repeat 0 80))));
     ("#1", (S_STRING, (VS ([121; 32] ++ repeat 0 79))));
     ("#2", (S_STRING, (VS ([120] ++ repeat 0 80))));
     ("main", (S_BOOL, (VZ 0)));
     ("a", (S_STRING, (VS ([] ++ repeat 0 81))));
     ("b", (S_STRING, (VS ([] ++ repeat 0 81))));
     ("c", (S_STRING, (VS ([] ++ repeat 0 81))))]
    [("a", Arg "#0");
     ("b", Arg "#1");
     ("c", Arg "#2");
     ("main", Call "GT" [Arg "a"; Arg "b"; Arg "c"])]
    (Some [("main", (VZ 1))]);
  Test 1350 (* test_ge_string *)
    [("#0", (S_STRING, (VS ([122] ++ repeat 0 80))));
     ("#1", (S_STRING, (VS ([122] ++ repeat 0 80))));
     ("#2", (S_STRING, (VS ([121] ++ repeat 0 80))));
     ("#3", (S_STRING, (VS ([120] ++ repeat 0 80))));
     ("main", (S_BOOL, (VZ 0)));
     ("a", (S_STRING, (VS ([] ++ repeat 0 81))));
     ("b", (S_STRING, (VS ([] ++ repeat 0 81))));
     ("c", (S_STRING, (VS ([] ++ repeat 0 81))));
     ("d", (S_STRING, (VS ([] ++ repeat 0 81))))]
    [("a", Arg "#0");
     ("b", Arg "#1");
     ("c", Arg "#2");
     ("d", Arg "#3");
     ("main", Call "GE" [Arg "a"; Arg "b"; Arg "c"; Arg "d"])]
    (Some [("main", (VZ 1))]);
  Test 1369 (* test_eq_string *)
    [("#0", (S_STRING, (VS ([115; 97; 109; 101] ++ repeat 0 77))));
     ("#1", (S_STRING, (VS ([115; 97; 109; 101] ++ repeat 0 77))));
     ("#2", (S_STRING, (VS ([115; 97; 109; 101] ++ repeat 0 77))));
     ("main", (S_BOOL, (VZ 0)));
     ("a", (S_STRING, (VS ([] ++ repeat 0 81))));
     ("b", (S_STRING, (VS ([] ++ repeat 0 81))));
     ("c", (S_STRING, (VS ([] ++ repeat 0 81))))]
    [("a", Arg "#0");
     ("b", Arg "#1");
     ("c", Arg "#2");
     ("main", Call "EQ" [Arg "a"; Arg "b"; Arg "c"])]
    (Some [("main", (VZ 1))]);
  Test 1387 (* test_lt_string *)
    [("#0", (S_STRING, (VS ([122] ++ repeat 0 80))));
     ("#1", (S_STRING, (VS ([122] ++ repeat 0 80))));
     ("#2", (S_STRING, (VS ([121] ++ repeat 0 80))));
     ("#3", (S_STRING, (VS ([120] ++ repeat 0 80))));
     ("main", (S_BOOL, (VZ 0)));
     ("a", (S_STRING, (VS ([] ++ repeat 0 81))));
     ("b", (S_STRING, (VS ([] ++ repeat 0 81))));
     ("c", (S_STRING, (VS ([] ++ repeat 0 81))));
     ("d", (S_STRING, (VS ([] ++ repeat 0 81))))]
    [("a", Arg "#0");
     ("b", Arg "#1");
     ("c", Arg "#2");
     ("d", Arg "#3");
     ("main", Call "LT" [Arg "d"; Arg "c"; Arg "b"; Arg "a"])]
    (Some [("main", (VZ 0))]);
  Test 1406 (* test_le_string *)
    [("#0", (S_STRING, (VS ([122] ++ repeat 0 80))));
     ("#1", (S_STRING, (VS ([122] ++ repeat 0 80))));
     ("#2", (S_STRING, (VS ([121] ++ repeat 0 80))));
     ("#3", (S_STRING, (VS ([120] ++ repeat 0 80))));
     ("main", (S_BOOL, (VZ 0)));
     ("a", (S_STRING, (VS ([] ++ repeat 0 81))));
     ("b", (S_STRING, (VS ([] ++ repeat 0 81))));
     ("c", (S_STRING, (VS ([] ++ repeat 0 81))));
     ("d", (S_STRING, (VS ([] ++ repeat 0 81))))]
    [("a", Arg "#0");
     ("b", Arg "#1");
     ("c", Arg "#2");
     ("d", Arg "#3");
     ("main", Call "LE" [Arg "d"; Arg "c"; Arg "b"; Arg "a"])]
    (Some [("main", (VZ 1))]);
  Test 1425 (* test_ne_string *)
    [("#0", (S_STRING, (VS ([122] ++ repeat 0 80))));
     ("#1", (S_STRING, (VS ([121] ++ repeat 0 80))));
     ("main", (S_BOOL, (VZ 0)));
     ("a", (S_STRING, (VS ([] ++ repeat 0 81))));
     ("b", (S_STRING, (VS ([] ++ repeat 0 81))))]
    [("a", Arg "#0");
     ("b", Arg "#1");
     ("main", Call "NE" [Arg "a"; Arg "b"])]
    (Some [("main", (VZ 1))]);
  Test 1442 (* test_gt_wstring *)
    [("#0", (S_WSTRING, (VS ([122] ++ repeat 0 80))));
     ("#1", (S_WSTRING, (VS ([121] ++ repeat 0 80))));
     ("#2", (S_WSTRING, (VS ([120] ++ repeat 0 80))));
     ("main", (S_BOOL, (VZ 0)));
     ("a", (S_WSTRING, (VS ([] ++ repeat 0 81))));
     ("b", (S_WSTRING, (VS ([] ++ repeat 0 81))));
     ("c", (S_WSTRING, (VS ([] ++ repeat 0 81))))]
    [("a", Arg "#0");
     ("b", Arg "#1");
     ("c", Arg "#2");
     ("main", Call "GT" [Arg "a"; Arg "b"; Arg "c"])]
    (Some [("main", (VZ 1))]);
  Test 1460 (* test_ge_wstring *)
    [("#0", (S_WSTRING, (VS ([122] ++ repeat 0 80))));
     ("#1", (S_WSTRING, (VS ([122] ++ repeat 0 80))));
     ("#2", (S_WSTRING, (VS ([121] ++ repeat 0 80))));
     ("#3", (S_WSTRING, (VS ([120] ++ repeat 0 80))));
     ("main", (S_BOOL, (VZ 0)));
     ("a", (S_WSTRING, (VS ([] ++ repeat 0 81))));
     ("b", (S_WSTRING, (VS ([] ++ repeat 0 81))));
     ("c", (S_WSTRING, (VS ([] ++ repeat 0 81))));
     ("d", (S_WSTRING, (VS ([] ++ repeat 0 81))))]
    [("a", Arg "#0");
     ("b", Arg "#1");
     ("c", Arg "#2");
     ("d", Arg "#3");
     ("main", Call "GE" [Arg "a"; Arg "b"; Arg "c"; Arg "d"])]
    (Some [("main", (VZ 1))]);
  Test 1479 (* test_eq_wstring *)
    [("#0", (S_WSTRING, (VS ([115; 97; 109; 101] ++ repeat 0 77))));
     ("#1", (S_WSTRING, (VS ([115; 97; 109; 101] ++ repeat 0 77))));
     ("#2", (S_WSTRING, (VS ([115; 97; 109; 101] ++ repeat 0 77))));
     ("main", (S_BOOL, (VZ 0)));
     ("a", (S_WSTRING, (VS ([] ++ repeat 0 81))));
     ("b", (S_WSTRING, (VS ([] ++ repeat 0 81))));
     ("c", (S_WSTRING, (VS ([] ++ repeat 0 81))))]
    [("a", Arg "#0");
     ("b", Arg "#1");
     ("c", Arg "#2");
     ("main", Call "EQ" [Arg "a"; Arg "b"; Arg "c"])]
    (Some [("main", (VZ 1))]);
  Test 1497 (* test_lt_wstring *)
    [("#0", (S_WSTRING, (VS ([122] ++ repeat 0 80))));
     ("#1", (S_WSTRING, (VS ([122] ++ repeat 0 80))));
     ("#2", (S_WSTRING, (VS ([121] ++ repeat 0 80))));
     ("#3", (S_WSTRING, (VS ([120] ++ repeat 0 80))));
     ("main", (S_BOOL, (VZ 0)));
     ("a", (S_WSTRING, (VS ([] ++ repeat 0 81))));
     ("b", (S_WSTRING, (VS ([] ++ repeat 0 81))));
     ("c", (S_WSTRING, (VS ([] ++ repeat 0 81))));
     ("d", (S_WSTRING, (VS ([] ++ repeat 0 81))))]
    [("a", Arg "#0");
     ("b", Arg "#1");
     ("c", Arg "#2");
     ("d", Arg "#3");
     ("main", Call "LT" [Arg "d"; Arg "c"; Arg "b"; Arg "a"])]
    (Some [("main", (VZ 0))]);
  Test 1516 (* test_le_wstring *)
    [("#0", (S_WSTRING, (VS ([122] ++ repeat 0 80))));
     ("#1", (S_WSTRING, (VS ([122] ++ repeat 0 80))));
     ("#2", (S_WSTRING, (VS ([121] ++ repeat 0 80))));
     ("#3", (S_WSTRING, (VS ([120] ++ repeat 0 80))));
     ("main", (S_BOOL, (VZ 0)));
     ("a", (S_WSTRING, (VS ([] ++ repeat 0 81))));
     ("b", (S_WSTRING, (VS ([] ++ repeat 0 81))));
     ("c", (S_WSTRING, (VS ([] ++ repeat 0 81))));
     ("d", (S_WSTRING, (VS ([] ++ repeat 0 81))))]
    [("a", Arg "#0");
     ("b", Arg "#1");
     ("c", Arg "#2");
     ("d", Arg "#3");
     ("main", Call "LE" [Arg "d"; Arg "c"; Arg "b"; Arg "a"])]
    (Some [("main", (VZ 1))]);
  Test 1535 (* test_ne_wstring *)
    [("#0", (S_WSTRING, (VS ([108; 104; 115; 32; 61; 61; 32; 114; 104; 115] ++ repeat 0 1))));
     ("#1", (S_WSTRING, (VS ([116; 104; 105; 115; 32; 118; 101; 114; 121; 32; 108; 111; 110; 103; 32; 117; 110; 105; 109; 97; 103; 105; 110; 97; 116; 105; 118; 101; 32; 115; 101; 110; 116; 101; 110; 99; 101; 32; 99; 108; 97; 105; 109; 115; 32; 116; 104; 101; 32; 112; 114; 101; 118; 105; 111; 117; 115; 32; 115; 116; 97; 116; 101; 109; 101; 110; 116; 32; 105; 115; 32; 100; 105; 115; 104; 111; 110; 101; 115; 116; 32; 97; 110; 100; 32; 117; 110; 116; 114; 117; 101] ++ repeat 0 1))));
     ("main", (S_BOOL, (VZ 0)))]
    [("main", Call "NE" [Arg "#0"; Arg "#1"])]
    (Some [("main", (VZ 1))]);
  Test 1550 (* test_string_greater_operator_works_if_result_is_true *)
    [("#0", (S_STRING, (VS ([122; 121; 120] ++ repeat 0 78))));
     ("#1", (S_STRING, (VS ([121; 120] ++ repeat 0 79))));
     ("main", (S_BOOL, (VZ 0)));
     ("a", (S_STRING, (VS ([] ++ repeat 0 81))));
     ("b", (S_STRING, (VS ([] ++ repeat 0 81))))]
    [("a", Arg "#0");
     ("b", Arg "#1");
     ("main", Call "STRING_GREATER" [Arg "a"; Arg "b"])]
    (Some [("main", (VZ 1))]);
  Test 1685 (* test_string_equality_operator_works_for_long_strings *)
    [("#0", (S_STRING, (VS ([116; 104; 105; 115; 32; 118; 101; 114; 121; 32; 108; 111; 110; 103; 32; 117; 110; 105; 109; 97; 103; 105; 110; 97; 116; 105; 118; 101; 32; 115; 101; 110; 116; 101; 110; 99; 101; 32; 99; 111; 110; 115; 105; 115; 116; 115; 32; 111; 102; 32; 116; 104; 101; 32; 115; 97; 109; 101; 32; 99; 104; 97; 114; 97; 99; 116; 101; 114; 115; 32; 105; 110; 32; 116; 104; 101; 32; 115; 97; 109] ++ repeat 0 1))));
     ("#1", (S_STRING, (VS ([116; 104; 105; 115; 32; 118; 101; 114; 121; 32; 108; 111; 110; 103; 32; 117; 110; 105; 109; 97; 103; 105; 110; 97; 116; 105; 118; 101; 32; 115; 101; 110; 116; 101; 110; 99; 101; 32; 99; 111; 110; 115; 105; 115; 116; 115; 32; 111; 102; 32; 116; 104; 101; 32; 115; 97; 109; 101; 32; 99; 104; 97; 114; 97; 99; 116; 101; 114; 115; 32; 105; 110; 32; 116; 104; 101; 32; 115; 97; 109] ++ repeat 0 1))));
     ("main", (S_BOOL, (VZ 0)));
     ("a", (S_STRING, (VS ([] ++ repeat 0 81))));
     ("b", (S_STRING, (VS ([] ++ repeat 0 81))))]
    [("a", Arg "#0");
     ("b", Arg "#1");
     ("main", Call "STRING_EQUAL" [Arg "a"; Arg "b"])]
    (Some [("main", (VZ 1))]);
  Test 1719 (* test_string_equal_operator_works_for_long_literals *)
    [("#0", (S_STRING, (VS ([116; 104; 105; 115; 32; 118; 101; 114; 121; 32; 108; 111; 110; 103; 32; 117; 110; 105; 109; 97; 103; 105; 110; 97; 116; 105; 118; 101; 32; 115; 101; 110; 116; 101; 110; 99; 101; 32; 99; 111; 110; 115; 105; 115; 116; 115; 32; 111; 102; 32; 116; 104; 101; 32; 115; 97; 109; 101; 32; 99; 104; 97; 114; 97; 99; 116; 101; 114; 115; 32; 105; 110; 32; 116; 104; 101; 32; 115; 97; 109; 101; 32; 115; 101; 113; 117; 101; 110; 99; 101; 32; 116; 119; 105; 99; 101] ++ repeat 0 1))));
     ("#1", (S_STRING, (VS ([116; 104; 105; 115; 32; 118; 101; 114; 121; 32; 108; 111; 110; 103; 32; 117; 110; 105; 109; 97; 103; 105; 110; 97; 116; 105; 118; 101; 32; 115; 101; 110; 116; 101; 110; 99; 101; 32; 99; 111; 110; 115; 105; 115; 116; 115; 32; 111; 102; 32; 116; 104; 101; 32; 115; 97; 109; 101; 32; 99; 104; 97; 114; 97; 99; 116; 101; 114; 115; 32; 105; 110; 32; 116; 104; 101; 32; 115; 97; 109; 101; 32; 115; 101; 113; 117; 101; 110; 99; 101; 32; 116; 119; 105; 99; 101] ++ repeat 0 1))));
     ("main", (S_BOOL, (VZ 0)))]
    [("main", Call "STRING_EQUAL" [Arg "#0"; Arg "#1"])]
    (Some [("main", (VZ 1))])].
Example string_function_tests_pass : forallb passes string_function_tests = true.
Proof. vm_compute. reflexivity. Qed.

(** /repo/tests/validation_functions_tests.rs, at the lines given. *)
Definition validation_functions_tests : list test := [
  Test 17 (* is_valid_real *)
    [("#0", (S_REAL, (VF (FNum (S754_finite false 16777215 104)))));
     ("#1", (S_REAL, (VF (FNum (S754_finite true 16777215 104)))));
     ("#2", (S_REAL, (VF (FNum (S754_zero false)))));
     ("#3", (S_REAL, (VF (FNum (S754_infinity false)))));
     ("#4", (S_REAL, (VF (FNan false 1))));
     ("max_", (S_BOOL, (VZ 0)));
     ("min_", (S_BOOL, (VZ 0)));
     ("zero", (S_BOOL, (VZ 0)));
     ("inf_", (S_BOOL, (VZ 0)));
     ("nan_", (S_BOOL, (VZ 0)))]
    [("max_", Call "IS_VALID" [Arg "#0"]);
     ("min_", Call "IS_VALID" [Arg "#1"]);
     ("zero", Call "IS_VALID" [Arg "#2"]);
     ("inf_", Call "IS_VALID" [Arg "#3"]);
     ("nan_", Call "IS_VALID" [Arg "#4"])]
    (Some [("max_", (VZ 1)); ("min_", (VZ 1)); ("zero", (VZ 1)); ("inf_", (VZ 0)); ("nan_", (VZ 0))]);
  Test 56 (* is_valid_lreal *)
    [("#0", (S_LREAL, (VF (FNum (S754_finite false 9007199254740991 971)))));
     ("#1", (S_LREAL, (VF (FNum (S754_finite true 9007199254740991 971)))));
     ("#2", (S_LREAL, (VF (FNum (S754_zero false)))));
     ("#3", (S_LREAL, (VF (FNum (S754_infinity false)))));
     ("#4", (S_LREAL, (VF (FNan false 1))));
     ("max_", (S_BOOL, (VZ 0)));
     ("min_", (S_BOOL, (VZ 0)));
     ("zero", (S_BOOL, (VZ 0)));
     ("inf_", (S_BOOL, (VZ 0)));
     ("nan_", (S_BOOL, (VZ 0)))]
    [("max_", Call "IS_VALID" [Arg "#0"]);
     ("min_", Call "IS_VALID" [Arg "#1"]);
     ("zero", Call "IS_VALID" [Arg "#2"]);
     ("inf_", Call "IS_VALID" [Arg "#3"]);
     ("nan_", Call "IS_VALID" [Arg "#4"])]
    (Some [("max_", (VZ 1)); ("min_", (VZ 1)); ("zero", (VZ 1)); ("inf_", (VZ 0)); ("nan_", (VZ 0))]);
  Test 109 (* is_valid_byte *)
    [("#0", (S_BYTE, (VZ 50)));
     ("#1", (S_BYTE, (VZ 44)));
     ("valid", (S_BOOL, (VZ 0)));
     ("invalid", (S_BOOL, (VZ 0)));
     ("v_valid", (S_BYTE, (VZ 0)));
     ("v_invalid", (S_BYTE, (VZ 0)))]
    [("v_valid", Arg "#0");
     ("valid", Call "IS_VALID_BCD" [Arg "v_valid"]);
     ("v_invalid", Arg "#1");
     ("invalid", Call "IS_VALID_BCD" [Arg "v_invalid"])]
    (Some [("valid", (VZ 1)); ("invalid", (VZ 0))]);
  Test 134 (* is_valid_word *)
    [("#0", (S_WORD, (VZ 18545)));
     ("#1", (S_WORD, (VZ 19313)));
     ("valid", (S_BOOL, (VZ 0)));
     ("invalid", (S_BOOL, (VZ 0)));
     ("v_valid", (S_WORD, (VZ 0)));
     ("v_invalid", (S_WORD, (VZ 0)))]
    [("v_valid", Arg "#0");
     ("valid", Call "IS_VALID_BCD" [Arg "v_valid"]);
     ("v_invalid", Arg "#1");
     ("invalid", Call "IS_VALID_BCD" [Arg "v_invalid"])]
    (Some [("valid", (VZ 1)); ("invalid", (VZ 0))]);
  Test 159 (* is_valid_dword *)
    [("#0", (S_DWORD, (VZ 1215383665)));
     ("#1", (S_DWORD, (VZ 1265716081)));
     ("valid", (S_BOOL, (VZ 0)));
     ("invalid", (S_BOOL, (VZ 0)));
     ("v_valid", (S_DWORD, (VZ 0)));
     ("v_invalid", (S_DWORD, (VZ 0)))]
    [("v_valid", Arg "#0");
     ("valid", Call "IS_VALID_BCD" [Arg "v_valid"]);
     ("v_invalid", Arg "#1");
     ("invalid", Call "IS_VALID_BCD" [Arg "v_invalid"])]
    (Some [("valid", (VZ 1)); ("invalid", (VZ 0))]);
  Test 184 (* is_valid_lword *)
    [("#0", (S_LWORD, (VZ 4611686018427387904)));
     ("#1", (S_LWORD, (VZ 4611686018427387919)));
     ("valid", (S_BOOL, (VZ 0)));
     ("invalid", (S_BOOL, (VZ 0)));
     ("v_valid", (S_LWORD, (VZ 0)));
     ("v_invalid", (S_LWORD, (VZ 0)))]
    [("v_valid", Arg "#0");
     ("valid", Call "IS_VALID_BCD" [Arg "v_valid"]);
     ("v_invalid", Arg "#1");
     ("invalid", Call "IS_VALID_BCD" [Arg "v_invalid"])]
    (Some [("valid", (VZ 1)); ("invalid", (VZ 0))])].
Example validation_functions_tests_pass : forallb passes validation_functions_tests = true.
Proof. vm_compute. reflexivity. Qed.
