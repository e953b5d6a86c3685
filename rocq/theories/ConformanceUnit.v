(** The project's own unit tests of string functions, conversions and edges, evaluated in the model.

    A test of the module [test] at the end of a file of /repo/src calls exported functions and
    compares the result, or the text in the destination buffer, with an expected value, or is marked
    [should_panic].  Below, a test is its line in that file, the function called, the memory and
    numbers passed, and what is expected.  Nothing here is a proof about all inputs: it checks the model against
    what the authors of the code observed when running it.  Left out: the ignored test
    string_functions.rs:953.  [Undefined]: five tests pass a Rust literal without a final NUL, so the
    function reads behind it; what they assert is not determined by the code.  TIME_TO_STRING_EXT forms
    81-byte slices at advancing positions of the 81-byte buffer. *)
From Coq Require Import String ZArith List Bool SpecFloat.
From Verif Require Import Base ModelFB ModelFloat ModelChrono ModelTimeNum ModelText ModelExtra ModelLib.
Import ListNotations.
Open Scope string_scope.
Open Scope Z_scope.
Open Scope list_scope.

(** [cargo test] uses the debug build; nothing else of the platform matters here.  E.g.
    /repo/src/string_functions.rs:938-951. *)
Definition machine : platform :=
  {| p_profile := Debug; p_chrono := Chrono true false; p_durgen := DurRound; p_endian := LittleEndian;
     p_tie := fun _ _ => true; p_clock := (0, 0); p_math := fun _ _ _ => FNum S754_nan |}.

(** What a test asserts, e.g. /repo/src/string_functions.rs:949, 1001, 1049. *)
Inductive expected := Number (z : Z) | Real (f : fl) | Text (s : list Z) | Abort | Undefined.
Definition unit_test : Type := Z * string * list value * expected.

(** Text up to the first NUL ([CStr::from_ptr], [trim_end_matches]). E.g.
    /repo/src/string_functions.rs:1000. *)
Fixpoint upto (m : list Z) : list Z := match m with [] => [] | c :: m' => if c =? 0 then [] else c :: upto m' end.

(** One test, e.g. /repo/src/string_functions.rs:993-1004.  The destination is the last argument,
    for CONCAT_EXT the first; the model of CONCAT returns its destination. *)
Definition passes (t : unit_test) : bool :=
  let '(_, f, args, e) := t in
  let text d s := if list_eq_dec Z.eq_dec (upto d) s then true else false in
  match rust_call machine f args, e with
  | Panic, Abort => true
  | Ub, Undefined => true
  | Ok (VZ x, _), Number y => x =? y
  | Ok (VF x, _), Real y => SFeqb (fl_sf x) (fl_sf y)
  | Ok (VS d, _), Text s => text d s
  | Ok (VZ 0, outs), Text s =>
      match (if prefix "CONCAT_EXT" f then hd_error outs else nth_error outs (length outs - 1)) with
      | Some (VS d) => text d s
      | _ => false
      end
  | _, _ => false
  end.

(** /repo/src/string_functions.rs, at the lines given. *)
Definition string_functions : list unit_test := [
  (946, "LEN__STRING", [VS [207; 149; 207; 154; 207; 161; 207; 151; 97; 98; 99; 100; 0]],
    Number 8); (* test_len_correct_utf8_character_count *)
  (967, "FIND__STRING", [VS [104; 207; 151; 108; 108; 111; 32; 119; 207; 149; 114; 108; 100; 0]; VS [108; 108; 111; 0]],
    Number 3); (* test_find_index_correct *)
  (977, "FIND__STRING", [VS [104; 101; 108; 108; 111; 32; 119; 207; 149; 114; 108; 100; 0]; VS [104; 0]],
    Number 1); (* test_find_index_correct_edge_case *)
  (987, "FIND__STRING", [VS [104; 101; 108; 108; 111; 32; 119; 111; 114; 108; 100; 0]; VS [100; 0]],
    Number 11); (* test_find_index_correct_edge_case2 *)
  (997, "FIND__STRING", [VS [104; 101; 108; 108; 111; 32; 207; 149; 207; 154; 207; 161; 207; 151; 0]; VS [207; 151; 0]],
    Number 10); (* test_find_index_correct_multibyte *)
  (1007, "LEFT_EXT__STRING", [VS [207; 149; 207; 154; 207; 161; 207; 151; 32; 104; 101; 108; 108; 111; 0]; VZ (7); VS (repeat 0 2048)],
    Text [207; 149; 207; 154; 207; 161; 207; 151; 32; 104; 101]); (* test_left_ext_str *)
  (1019, "LEFT_EXT__STRING", [VS [32; 32; 32; 32; 32; 116; 104; 105; 115; 32; 105; 115; 32; 32; 32; 97; 32; 32; 118; 101; 114; 121; 32; 32; 32; 108; 111; 110; 103; 32; 32; 32; 32; 32; 32; 32; 32; 32; 32; 32; 115; 101; 110; 116; 101; 110; 99; 101; 32; 32; 32; 119; 105; 116; 104; 32; 112; 108; 101; 110; 116; 121; 32; 32; 111; 102; 32; 32; 32; 32; 99; 104; 97; 114; 97; 99; 116; 101; 114; 115; 32; 97; 110; 100; 32; 119; 101; 105; 114; 100; 32; 32; 115; 112; 97; 99; 105; 110; 103; 46; 0]; VZ (85); VS (repeat 0 2048)],
    Text [32; 32; 32; 32; 32; 116; 104; 105; 115; 32; 105; 115; 32; 32; 32; 97; 32; 32; 118; 101; 114; 121; 32; 32; 32; 108; 111; 110; 103; 32; 32; 32; 32; 32; 32; 32; 32; 32; 32; 32; 115; 101; 110; 116; 101; 110; 99; 101; 32; 32; 32; 119; 105; 116; 104; 32; 112; 108; 101; 110; 116; 121; 32; 32; 111; 102; 32; 32; 32; 32; 99; 104; 97; 114; 97; 99; 116; 101; 114; 115; 32; 97; 110; 100; 32]); (* test_left_ext_long_str *)
  (1031, "LEFT_EXT__STRING", [VS [207; 149; 34; 207; 154; 34; 207; 161; 207; 151; 32; 104; 101; 108; 108; 111; 0]; VZ (6); VS (repeat 0 2048)],
    Text [207; 149; 34; 207; 154; 34; 207; 161; 207; 151]); (* test_left_ext_str_w_escape_sequence *)
  (1043, "LEFT_EXT__STRING", [VS [207; 149; 207; 154; 207; 161; 207; 151; 32; 104; 101; 108; 108; 111; 0]; VZ (10); VS (repeat 0 2048)],
    Text [207; 149; 207; 154; 207; 161; 207; 151; 32; 104; 101; 108; 108; 111]); (* test_left_ext_str_edge_case *)
  (1056, "LEFT_EXT__STRING", [VS [104; 101; 108; 108; 111; 0; 32; 119; 111; 114; 108; 100]; VZ (7); VS (repeat 0 2048)],
    Abort); (* test_left_ext_str_len_out_of_range *)
  (1066, "RIGHT_EXT__STRING", [VS [207; 149; 207; 154; 207; 161; 207; 151; 32; 104; 101; 108; 108; 111; 0]; VZ (5); VS (repeat 0 2048)],
    Text [104; 101; 108; 108; 111]); (* test_right_ext_str *)
  (1078, "RIGHT_EXT__STRING", [VS [207; 149; 207; 154; 207; 161; 120; 207; 151; 32; 119; 207; 149; 114; 108; 100; 0]; VZ (8); VS (repeat 0 2048)],
    Text [120; 207; 151; 32; 119; 207; 149; 114; 108; 100]); (* test_right_ext_str_multi_byte *)
  (1090, "MID_EXT__STRING", [VS [207; 149; 207; 154; 207; 161; 120; 207; 151; 32; 119; 207; 149; 114; 108; 100; 0]; VZ (6); VZ (3); VS (repeat 0 2048)],
    Text [207; 161; 120; 207; 151; 32; 119; 207; 149]); (* test_mid_ext_str *)
  (1103, "MID_EXT__STRING", [VS [207; 149; 207; 154; 207; 161; 120; 207; 151; 32; 119; 207; 149; 114; 108; 100; 0]; VZ (11); VZ (1); VS (repeat 0 2048)],
    Text [207; 149; 207; 154; 207; 161; 120; 207; 151; 32; 119; 207; 149; 114; 108; 100]); (* test_mid_ext_str_edge_case *)
  (1117, "MID_EXT__STRING", [VS [104; 101; 108; 108; 111; 32; 119; 111; 114; 108; 100; 0]; VZ (5); VZ (12); VS (repeat 0 2048)],
    Abort); (* test_mid_ext_str_start_index_out_of_range *)
  (1126, "INSERT_EXT__STRING", [VS [207; 149; 207; 154; 207; 161; 120; 207; 151; 32; 119; 207; 149; 114; 108; 100; 0]; VS [98; 114; 97; 118; 101; 32; 110; 101; 119; 32; 0]; VZ (6); VS (repeat 0 2048)],
    Text [207; 149; 207; 154; 207; 161; 120; 207; 151; 32; 98; 114; 97; 118; 101; 32; 110; 101; 119; 32; 119; 207; 149; 114; 108; 100]); (* test_insert_ext_str *)
  (1138, "INSERT_EXT__STRING", [VS [104; 101; 108; 108; 111; 32; 119; 111; 114; 108; 100; 0]; VS [207; 149; 207; 154; 207; 161; 120; 207; 151; 32; 110; 101; 119; 32; 0]; VZ (0); VS (repeat 0 2048)],
    Text [207; 149; 207; 154; 207; 161; 120; 207; 151; 32; 110; 101; 119; 32; 104; 101; 108; 108; 111; 32; 119; 111; 114; 108; 100]); (* test_insert_ext_str_insert_at_zero *)
  (1150, "INSERT_EXT__STRING", [VS [104; 101; 108; 108; 111; 32; 119; 111; 114; 108; 100; 0]; VS [207; 149; 207; 154; 207; 161; 120; 207; 151; 32; 110; 101; 119; 32; 0]; VZ (11); VS (repeat 0 2048)],
    Text [104; 101; 108; 108; 111; 32; 119; 111; 114; 108; 100; 207; 149; 207; 154; 207; 161; 120; 207; 151; 32; 110; 101; 119; 32]); (* test_insert_ext_str_insert_at_end *)
  (1168, "INSERT_EXT__STRING", [VS [104; 101; 108; 108; 111; 32; 119; 111; 114; 108; 100; 0]; VS [98; 114; 97; 118; 101; 32; 110; 101; 119; 32; 0]; VZ (12); VS (repeat 0 2048)],
    Abort); (* test_insert_ext_str_pos_out_of_range *)
  (1184, "INSERT_EXT__STRING", [VS [104; 101; 108; 108; 111; 32; 119; 111; 114; 108; 100; 0]; VS [98; 114; 97; 118; 101; 32; 110; 101; 119; 32; 0]; VZ (-2); VS (repeat 0 2048)],
    Abort); (* test_insert_ext_str_pos_negative *)
  (1194, "DELETE_EXT__STRING", [VS [207; 149; 207; 154; 207; 161; 120; 207; 151; 32; 119; 207; 149; 114; 108; 100; 0]; VZ (9); VZ (3); VS (repeat 0 2048)],
    Text [207; 149; 207; 154]); (* test_delete_ext_str *)
  (1205, "DELETE_EXT__STRING", [VS [207; 149; 207; 154; 207; 161; 120; 207; 151; 32; 119; 207; 149; 114; 108; 100; 0]; VZ (11); VZ (1); VS (repeat 0 2048)],
    Text []); (* test_delete_ext_str_delete_all *)
  (1217, "DELETE_EXT__STRING", [VS [207; 149; 207; 154; 207; 161; 120; 207; 151; 32; 119; 207; 149; 114; 108; 100; 0]; VZ (1); VZ (11); VS (repeat 0 2048)],
    Text [207; 149; 207; 154; 207; 161; 120; 207; 151; 32; 119; 207; 149; 114; 108]); (* test_delete_ext_str_delete_last *)
  (1228, "DELETE_EXT__STRING", [VS [207; 149; 207; 154; 207; 161; 120; 207; 151; 32; 119; 207; 149; 114; 108; 100; 0]; VZ (1); VZ (1); VS (repeat 0 2048)],
    Text [207; 154; 207; 161; 120; 207; 151; 32; 119; 207; 149; 114; 108; 100]); (* test_delete_ext_str_delete_first *)
  (1240, "DELETE_EXT__STRING", [VS [104; 101; 108; 108; 111; 32; 119; 111; 114; 108; 100; 0]; VZ (12); VZ (1); VS (repeat 0 2048)],
    Abort); (* test_delete_ext_str_too_many_del_chars *)
  (1250, "DELETE_EXT__STRING", [VS [104; 101; 108; 108; 111; 32; 119; 111; 114; 108; 100; 0]; VZ (11); VZ (0); VS (repeat 0 2048)],
    Abort); (* test_delete_ext_str_pos_out_of_range_lower *)
  (1260, "DELETE_EXT__STRING", [VS [104; 101; 108; 108; 111; 32; 119; 111; 114; 108; 100; 0]; VZ (11); VZ (12); VS (repeat 0 2048)],
    Abort); (* test_delete_ext_str_pos_out_of_range_upper *)
  (1269, "REPLACE_EXT__STRING", [VS [207; 149; 207; 154; 207; 161; 120; 207; 151; 32; 119; 207; 149; 114; 108; 100; 0]; VS [98; 114; 207; 161; 120; 207; 151; 32; 110; 101; 119; 32; 0]; VZ (6); VZ (1); VS (repeat 0 2048)],
    Text [98; 114; 207; 161; 120; 207; 151; 32; 110; 101; 119; 32; 119; 207; 149; 114; 108; 100]); (* test_replace_ext_str_replace_at_beginning *)
  (1281, "REPLACE_EXT__STRING", [VS [104; 101; 108; 108; 207; 149; 32; 119; 207; 149; 114; 108; 100; 0]; VS [98; 114; 207; 161; 120; 207; 151; 32; 110; 101; 119; 0]; VZ (3); VZ (5); VS (repeat 0 2048)],
    Text [104; 101; 108; 108; 98; 114; 207; 161; 120; 207; 151; 32; 110; 101; 119; 207; 149; 114; 108; 100]); (* test_replace_ext_str_replace_at_middle *)
  (1293, "REPLACE_EXT__STRING", [VS [104; 195; 166; 108; 108; 195; 184; 32; 119; 195; 184; 114; 108; 195; 158; 0]; VS [97; 108; 100; 195; 184; 44; 32; 104; 111; 119; 32; 97; 114; 101; 32; 121; 111; 117; 240; 159; 152; 128; 0]; VZ (4); VZ (8); VS (repeat 0 2048)],
    Text [104; 195; 166; 108; 108; 195; 184; 32; 119; 97; 108; 100; 195; 184; 44; 32; 104; 111; 119; 32; 97; 114; 101; 32; 121; 111; 117; 240; 159; 152; 128]); (* test_replace_ext_str_replace_at_end *)
  (1306, "REPLACE_EXT__STRING", [VS [104; 101; 108; 108; 111; 32; 119; 111; 114; 108; 100; 0]; VS [97; 108; 100; 111; 44; 32; 104; 111; 119; 32; 97; 114; 101; 32; 121; 111; 117; 0]; VZ (12); VZ (1); VS (repeat 0 2048)],
    Abort); (* test_replace_ext_str_replace_too_many_chars *)
  (1323, "REPLACE_EXT__STRING", [VS [104; 101; 108; 108; 111; 32; 119; 111; 114; 108; 100; 0]; VS [97; 108; 100; 111; 44; 32; 104; 111; 119; 32; 97; 114; 101; 32; 121; 111; 117; 0]; VZ (8); VZ (0); VS (repeat 0 2048)],
    Abort); (* test_replace_ext_str_pos_out_of_bounds_lower *)
  (1334, "REPLACE_EXT__STRING", [VS [104; 101; 108; 108; 111; 32; 119; 111; 114; 108; 100; 0]; VS [97; 108; 100; 111; 44; 32; 104; 111; 119; 32; 97; 114; 101; 32; 121; 111; 117; 0]; VZ (8); VZ (12); VS (repeat 0 2048)],
    Abort); (* test_replace_ext_str_pos_out_of_bounds_upper *)
  (1350, "CONCAT__STRING", [VS [104; 195; 166; 108; 108; 195; 184; 32; 119; 195; 184; 114; 108; 195; 158; 0]; VS [104; 101; 108; 108; 111; 32; 119; 111; 114; 108; 100; 0]; VS [240; 157; 132; 158; 109; 117; 115; 105; 99; 0]],
    Text [104; 195; 166; 108; 108; 195; 184; 32; 119; 195; 184; 114; 108; 195; 158; 104; 101; 108; 108; 111; 32; 119; 111; 114; 108; 100; 240; 157; 132; 158; 109; 117; 115; 105; 99]); (* test_concat_str *)
  (1367, "CONCAT_EXT__STRING", [VS (repeat 0 2048); VS [104; 195; 166; 108; 108; 195; 184; 32; 119; 195; 184; 114; 108; 195; 158; 0]; VS [104; 101; 108; 108; 111; 32; 119; 111; 114; 108; 100; 0]; VS [240; 157; 132; 158; 109; 117; 115; 105; 99; 0]],
    Text [104; 195; 166; 108; 108; 195; 184; 32; 119; 195; 184; 114; 108; 195; 158; 104; 101; 108; 108; 111; 32; 119; 111; 114; 108; 100; 240; 157; 132; 158; 109; 117; 115; 105; 99]); (* test_concat_ext_str *)
  (1383, "CONCAT_EXT__STRING", [VS (repeat 0 2048)],
    Text []); (* test_concat_ext_no_args *)
  (1394, "GT__STRING", [VS [104; 195; 166; 108; 108; 195; 184; 32; 119; 195; 184; 114; 108; 195; 158; 0]; VS [104; 195; 166; 108; 108; 195; 184; 32; 119; 195; 184; 114; 108; 195; 158; 0]],
    Number 0); (* test_greater_than_string_is_false_for_equal_strings *)
  (1401, "GT__STRING", [VS [122; 121; 120; 90; 97; 98; 99; 100; 101; 102; 103; 104; 105; 106; 107; 108; 109; 110; 0]; VS [122; 121; 120; 65; 0]; VS [122; 121; 120; 0]],
    Number 1); (* test_greater_than_string_is_true_for_decreasing_sequence *)
  (1412, "GT__STRING", [VS [97; 98; 99; 0]; VS [98; 99; 101; 0]; VS [120; 121; 122; 0]],
    Number 0); (* test_greater_than_string_is_false_for_increasing_sequence *)
  (1419, "GT__STRING", [VS [122; 121; 120; 65; 97; 98; 99; 100; 101; 102; 103; 104; 105; 106; 107; 108; 109; 110; 0]; VS [122; 121; 120; 90]],
    Undefined); (* test_greater_than_string_works_correctly_for_two_params *)
  (1426, "GE__STRING", [VS [120; 121; 122; 0]; VS [98; 99; 101; 102; 103; 104; 105; 106; 107; 108; 0]; VS [97; 98; 99; 0]],
    Number 1); (* test_greater_or_equal_string *)
  (1433, "GE__STRING", [VS [104; 195; 166; 108; 108; 195; 184; 32; 119; 195; 184; 114; 108; 195; 158; 0]; VS [104; 195; 166; 108; 108; 195; 184; 32; 119; 195; 184; 114; 108; 195; 158; 0]],
    Number 1); (* test_greater_or_equal_string_is_true_for_equal_strings *)
  (1440, "EQ__STRING", [VS [104; 195; 166; 108; 108; 195; 184; 32; 119; 195; 184; 114; 108; 195; 158; 0]; VS [104; 195; 166; 108; 108; 195; 184; 32; 119; 195; 184; 114; 108; 195; 158; 0]],
    Number 1); (* test_equal_string *)
  (1447, "EQ__STRING", [VS [104; 195; 166; 108; 108; 195; 184; 32; 119; 195; 184; 114; 108; 195; 158; 97; 98; 99; 0]; VS [104; 195; 166; 108; 108; 195; 184; 32; 119; 195; 184; 114; 108; 195; 158; 97; 98; 99; 0]; VS [104; 195; 166; 108; 108; 195; 184; 32; 119; 195; 184; 114; 108; 195; 158; 97; 98; 99; 0]; VS [104; 195; 166; 108; 108; 195; 184; 32; 119; 195; 184; 114; 108; 195; 158; 90; 90; 99; 0]],
    Number 0); (* test_equal_string_is_false_for_inequality *)
  (1459, "LT__STRING", [VS [104; 195; 166; 108; 108; 195; 184; 32; 119; 195; 184; 114; 108; 195; 158; 97; 98; 99; 0]; VS [104; 195; 166; 108; 108; 195; 184; 32; 119; 195; 184; 114; 108; 195; 158; 122; 0]],
    Number 1); (* test_lesser_than_string *)
  (1466, "LT__STRING", [VS [122; 0]; VS [104; 195; 166; 108; 108; 195; 184; 32; 119; 195; 184; 114; 108; 195; 158; 122; 98; 99; 0]],
    Number 0); (* test_lesser_than_string_is_false *)
  (1473, "LE__STRING", [VS [97; 0]; VS [97; 0]; VS [98; 0]; VS [98; 0]; VS [98; 0]; VS [104; 195; 166; 108; 108; 195; 184; 32; 119; 195; 184; 114; 108; 195; 158; 122; 98; 99; 0]; VS [104; 195; 166; 108; 108; 195; 184; 32; 119; 195; 184; 114; 108; 195; 158; 122; 98; 99; 0]; VS [104; 195; 166; 108; 108; 195; 184; 32; 119; 195; 184; 114; 108; 195; 158; 122; 98; 99; 0]; VS [113]],
    Undefined); (* test_lesser_or_equal_string_is_true_for_increasing_sequence *)
  (1490, "LE__STRING", [VS [97; 0]; VS [97; 0]; VS [98; 0]; VS [98; 0]; VS [98; 0]; VS [104; 195; 166; 108; 108; 195; 184; 32; 119; 195; 184; 114; 108; 195; 158; 122; 98; 99; 0]; VS [104; 195; 166; 108; 108; 195; 184; 32; 119; 195; 184; 114; 108; 195; 158; 122; 98; 99; 0]; VS [104; 195; 166; 108; 108; 195; 184; 32; 119; 195; 184; 114; 108; 195; 158; 122; 98; 99; 0]; VS [97]],
    Undefined); (* test_lesser_or_equal_string_is_false_if_last_string_doesnt_match *)
  (1507, "NE__STRING", [VS [116; 104; 101; 115; 101; 32; 115; 116; 114; 105; 110; 103; 115]; VS [97; 114; 101; 32; 110; 111; 116; 32; 101; 113; 117; 97; 108]],
    Undefined); (* test_not_equal_string_is_true_for_unequal_strings *)
  (1514, "NE__STRING", [VS [116; 104; 101; 115; 101; 32; 115; 116; 114; 105; 110; 103; 115; 32; 97; 114; 101; 32; 32; 101; 113; 117; 97; 108]; VS [116; 104; 101; 115; 101; 32; 115; 116; 114; 105; 110; 103; 115; 32; 97; 114; 101; 32; 32; 101; 113; 117; 97; 108]],
    Undefined); (* test_not_equal_string_is_false_for_equal_strings *)
  (1522, "LEN__WSTRING", [VS [55348; 56606; 109; 117; 115; 105; 99; 55348; 56606; 32; 55357; 56832; 55348; 56606; 981; 986; 993; 983; 55357; 56832; 0]],
    Number 15); (* test_len_correct_utf16_character_count *)
  (1532, "FIND__WSTRING", [VS [55348; 56606; 109; 117; 115; 105; 99; 55348; 56606; 32; 119; 111; 114; 108; 100; 0]; VS [99; 55348; 56606; 0]],
    Number 6); (* test_find_wstring *)
  (1544, "FIND__WSTRING", [VS [104; 101; 108; 108; 111; 32; 119; 111; 114; 108; 100; 0]; VS [122; 122; 122; 122; 122; 122; 0]],
    Number 0); (* test_find_wstring_no_match *)
  (1556, "FIND__WSTRING", [VS [104; 101; 108; 108; 111; 32; 119; 111; 114; 108; 100; 0]; VS [104; 101; 108; 108; 111; 32; 119; 111; 114; 108; 100; 32; 111; 97; 99; 104; 107; 97; 116; 122; 108; 115; 99; 104; 119; 111; 97; 102; 0]],
    Number 0); (* test_find_wstring_base_string_too_short *)
  (1570, "LEFT_EXT__WSTRING", [VS [55348; 56606; 109; 117; 115; 983; 55357; 56832; 105; 99; 32; 119; 111; 114; 108; 100; 0]; VZ (7); VS (repeat 0 2048)],
    Text [55348; 56606; 109; 117; 115; 983; 55357; 56832; 105]); (* test_left_ext_wstring *)
  (1586, "LEFT_EXT__WSTRING", [VS [104; 101; 108; 108; 111; 32; 119; 111; 114; 108; 100; 0]; VZ (14); VS (repeat 0 2048)],
    Abort); (* test_left_ext_wstring_len_out_of_range *)
  (1596, "RIGHT_EXT__WSTRING", [VS [104; 101; 108; 108; 111; 32; 55348; 56606; 109; 117; 115; 983; 55357; 56832; 0]; VZ (8); VS (repeat 0 2048)],
    Text [111; 32; 55348; 56606; 109; 117; 115; 983; 55357; 56832]); (* test_right_ext_wstring *)
  (1612, "RIGHT_EXT__WSTRING", [VS [0]; VZ (0); VS (repeat 0 2048)],
    Text []); (* test_right_ext_wstring_zero_length_strings *)
  (1628, "MID_EXT__WSTRING", [VS [55348; 56606; 109; 117; 983; 55357; 56832; 32; 119; 111; 114; 108; 100; 0]; VZ (5); VZ (5); VS (repeat 0 2048)],
    Text [55357; 56832; 32; 119; 111; 114]); (* test_mid_ext_wstring *)
  (1644, "MID_EXT__WSTRING", [VS [104; 101; 108; 108; 111; 32; 119; 111; 114; 108; 100; 0]; VZ (4); VZ (12); VS (repeat 0 2048)],
    Abort); (* test_mid_ext_wstring_index_out_of_range *)
  (1654, "INSERT_EXT__WSTRING", [VS [55348; 56606; 109; 117; 983; 55357; 56832; 32; 119; 111; 114; 108; 100; 0]; VS [98; 114; 97; 118; 101; 32; 55348; 56606; 109; 117; 983; 55357; 56832; 32; 0]; VZ (6); VS (repeat 0 2048)],
    Text [55348; 56606; 109; 117; 983; 55357; 56832; 32; 98; 114; 97; 118; 101; 32; 55348; 56606; 109; 117; 983; 55357; 56832; 32; 119; 111; 114; 108; 100]); (* test_insert_ext_wstring *)
  (1671, "INSERT_EXT__WSTRING", [VS [104; 101; 108; 108; 111; 32; 55348; 56606; 109; 117; 983; 55357; 56832; 0]; VS [55348; 56606; 109; 117; 983; 55357; 56832; 32; 110; 101; 119; 32; 0]; VZ (0); VS (repeat 0 2048)],
    Text [55348; 56606; 109; 117; 983; 55357; 56832; 32; 110; 101; 119; 32; 104; 101; 108; 108; 111; 32; 55348; 56606; 109; 117; 983; 55357; 56832]); (* test_insert_ext_wstring_insert_at_zero *)
  (1688, "INSERT_EXT__WSTRING", [VS [104; 101; 108; 108; 111; 32; 119; 111; 114; 108; 100; 0]; VS [98; 114; 97; 118; 101; 32; 55348; 56606; 109; 117; 983; 55357; 56832; 32; 0]; VZ (11); VS (repeat 0 2048)],
    Text [104; 101; 108; 108; 111; 32; 119; 111; 114; 108; 100; 98; 114; 97; 118; 101; 32; 55348; 56606; 109; 117; 983; 55357; 56832; 32]); (* test_insert_ext_wstring_insert_at_end *)
  (1706, "INSERT_EXT__WSTRING", [VS [104; 101; 108; 108; 111; 32; 119; 111; 114; 108; 100; 0]; VS [98; 114; 97; 118; 101; 32; 110; 101; 119; 32; 0]; VZ (12); VS (repeat 0 2048)],
    Abort); (* test_insert_ext_wstring_pos_out_of_range *)
  (1718, "DELETE_EXT__WSTRING", [VS [104; 55348; 56606; 109; 117; 983; 32; 119; 55357; 56832; 114; 108; 100; 0]; VZ (5); VZ (3); VS (repeat 0 2048)],
    Text [104; 55348; 56606; 55357; 56832; 114; 108; 100]); (* test_delete_ext_wstring *)
  (1733, "DELETE_EXT__WSTRING", [VS [104; 55348; 56606; 109; 117; 983; 32; 119; 55357; 56832; 114; 108; 100; 0]; VZ (11); VZ (1); VS (repeat 0 2048)],
    Text []); (* test_delete_ext_wstring_delete_all *)
  (1750, "DELETE_EXT__WSTRING", [VS [104; 101; 108; 108; 111; 32; 119; 111; 114; 108; 100; 0]; VZ (10); VZ (3); VS (repeat 0 2048)],
    Abort); (* test_delete_ext_wstring_too_many_del_chars *)
  (1761, "DELETE_EXT__WSTRING", [VS [104; 101; 108; 108; 111; 32; 119; 111; 114; 108; 100; 0]; VZ (9); VZ (0); VS (repeat 0 2048)],
    Abort); (* test_delete_ext_wstring_pos_out_of_range_lower *)
  (1772, "DELETE_EXT__WSTRING", [VS [104; 101; 108; 108; 111; 32; 119; 111; 114; 108; 100; 0]; VZ (9); VZ (12); VS (repeat 0 2048)],
    Abort); (* test_delete_ext_wstring_pos_out_of_range_upper *)
  (1782, "REPLACE_EXT__WSTRING", [VS [104; 55348; 56606; 109; 117; 983; 32; 119; 55357; 56832; 114; 108; 100; 0]; VS [98; 114; 97; 118; 101; 32; 110; 101; 119; 32; 0]; VZ (6); VZ (1); VS (repeat 0 2048)],
    Text [98; 114; 97; 118; 101; 32; 110; 101; 119; 32; 119; 55357; 56832; 114; 108; 100]); (* test_replace_ext_wstring_replace_at_beginning *)
  (1800, "REPLACE_EXT__WSTRING", [VS [104; 101; 108; 108; 111; 32; 119; 55357; 56832; 114; 108; 100; 55348; 56606; 0]; VS [32; 105; 115; 32; 111; 117; 116; 32; 111; 102; 32; 116; 104; 105; 115; 32; 0]; VZ (2); VZ (5); VS (repeat 0 2048)],
    Text [104; 101; 108; 108; 32; 105; 115; 32; 111; 117; 116; 32; 111; 102; 32; 116; 104; 105; 115; 32; 119; 55357; 56832; 114; 108; 100; 55348; 56606]); (* test_replace_ext_wstring_replace_at_middle *)
  (1817, "REPLACE_EXT__WSTRING", [VS [104; 101; 108; 108; 111; 32; 119; 55357; 56832; 114; 108; 100; 55348; 56606; 0]; VS [97; 108; 100; 111; 44; 32; 104; 111; 119; 32; 97; 114; 101; 32; 121; 111; 117; 63; 32; 55357; 56832; 0]; VZ (5); VZ (8); VS (repeat 0 2048)],
    Text [104; 101; 108; 108; 111; 32; 119; 97; 108; 100; 111; 44; 32; 104; 111; 119; 32; 97; 114; 101; 32; 121; 111; 117; 63; 32; 55357; 56832]); (* test_replace_ext_wstring_replace_at_end *)
  (1838, "REPLACE_EXT__WSTRING", [VS [104; 101; 108; 108; 111; 32; 119; 111; 114; 108; 100; 0]; VS [32; 105; 115; 32; 111; 117; 116; 32; 111; 102; 32; 116; 104; 105; 115; 32; 0]; VZ (12); VZ (1); VS (repeat 0 2048)],
    Abort); (* test_replace_ext_wstring_replace_too_many_chars *)
  (1851, "REPLACE_EXT__WSTRING", [VS [104; 101; 108; 108; 111; 32; 119; 111; 114; 108; 100; 0]; VS [32; 105; 115; 32; 111; 117; 116; 32; 111; 102; 32; 116; 104; 105; 115; 32; 0]; VZ (8); VZ (0); VS (repeat 0 2048)],
    Abort); (* test_replace_ext_wstring_pos_out_of_bounds_lower *)
  (1864, "REPLACE_EXT__WSTRING", [VS [104; 101; 108; 108; 111; 32; 119; 111; 114; 108; 100; 0]; VS [32; 105; 115; 32; 111; 117; 116; 32; 111; 102; 32; 116; 104; 105; 115; 32; 0]; VZ (8); VZ (12); VS (repeat 0 2048)],
    Abort); (* test_replace_ext_wstring_pos_out_of_bounds_upper *)
  (1876, "CONCAT__WSTRING", [VS [104; 230; 108; 108; 248; 32; 119; 248; 114; 108; 222; 0]; VS [104; 101; 108; 108; 111; 32; 119; 111; 114; 108; 100; 0]; VS [55348; 56606; 109; 117; 115; 105; 99; 0]],
    Text [104; 230; 108; 108; 248; 32; 119; 248; 114; 108; 222; 104; 101; 108; 108; 111; 32; 119; 111; 114; 108; 100; 55348; 56606; 109; 117; 115; 105; 99]); (* test_concat_wstring *)
  (1897, "CONCAT_EXT__WSTRING", [VS (repeat 0 2048); VS [104; 230; 108; 108; 248; 32; 119; 248; 114; 108; 222; 0]; VS [104; 101; 108; 108; 111; 32; 119; 111; 114; 108; 100; 0]; VS [55348; 56606; 109; 117; 115; 105; 99; 0]],
    Text [104; 230; 108; 108; 248; 32; 119; 248; 114; 108; 222; 104; 101; 108; 108; 111; 32; 119; 111; 114; 108; 100; 55348; 56606; 109; 117; 115; 105; 99]); (* test_concat_ext_wstring *)
  (1920, "GT__WSTRING", [VS [104; 230; 108; 108; 248; 32; 119; 248; 114; 108; 222; 0]; VS [104; 101; 108; 108; 111; 32; 119; 111; 114; 108; 100; 0]; VS [104; 101; 108; 0]],
    Number 1); (* test_gt_wstring *)
  (1935, "GE__WSTRING", [VS [104; 230; 108; 108; 248; 32; 119; 248; 114; 108; 222; 0]; VS [104; 101; 108; 108; 111; 32; 119; 111; 114; 108; 100; 0]; VS [104; 101; 108; 108; 111; 32; 119; 111; 114; 108; 100; 0]],
    Number 1); (* test_ge_wstring *)
  (1950, "EQ__WSTRING", [VS [104; 230; 108; 108; 248; 32; 119; 248; 114; 108; 222; 0]; VS [104; 230; 108; 108; 248; 32; 119; 248; 114; 108; 222; 0]; VS [104; 230; 108; 108; 248; 32; 119; 248; 114; 108; 222; 0]],
    Number 1); (* test_eq_wstring *)
  (1965, "LT__WSTRING", [VS [104; 101; 108; 108; 111; 32; 119; 111; 114; 108; 100; 0]; VS [104; 230; 108; 108; 248; 32; 119; 248; 114; 108; 222; 0]; VS [104; 230; 108; 108; 248; 32; 119; 248; 114; 55348; 56606; 222; 0]],
    Number 1); (* test_lt_wstring *)
  (1980, "LE__WSTRING", [VS [104; 101; 108; 108; 111; 0]; VS [104; 101; 108; 108; 111; 32; 119; 111; 114; 108; 98; 0]; VS [104; 101; 108; 108; 111; 32; 119; 111; 114; 108; 99; 0]; VS [104; 101; 108; 108; 111; 32; 119; 111; 114; 108; 100; 0]; VS [104; 230; 108; 108; 248; 32; 119; 248; 114; 108; 222; 0]; VS [104; 230; 108; 108; 248; 32; 119; 248; 114; 108; 222; 0]],
    Number 1); (* test_le_wstring *)
  (1998, "NE__WSTRING", [VS [104; 230; 108; 108; 248; 32; 119; 248; 114; 108; 222; 0]; VS [104; 101; 108; 108; 111; 32; 119; 111; 114; 108; 100; 0]],
    Number 1) (* test_ne_wstring *)
].
Example string_functions_pass : forallb passes string_functions = true.
Proof. vm_compute. reflexivity. Qed.

(** /repo/src/extra_functions.rs, at the lines given. *)
Definition extra_functions : list unit_test := [
  (260, "BYTE_TO_STRING_EXT", [VZ 170; VS (repeat 0 81)],
    Text [49; 55; 48]); (* byte_to_string_conversion *)
  (273, "LWORD_TO_STRING_EXT", [VZ 18374966855153418495; VS (repeat 0 81)],
    Text [49; 56; 51; 55; 52; 57; 54; 54; 56; 53; 53; 49; 53; 51; 52; 49; 56; 52; 57; 53]); (* lword_to_string_conversion *)
  (289, "LINT_TO_STRING_EXT", [VZ 100200300400500; VS (repeat 0 81)],
    Text [49; 48; 48; 50; 48; 48; 51; 48; 48; 52; 48; 48; 53; 48; 48]); (* lint_to_string_conversion *)
  (302, "LREAL_TO_STRING_EXT", [VF (FNum (S754_finite false 5624129581167292 (-39))); VS (repeat 0 81)],
    Text [49; 48; 50; 51; 48; 46; 50; 51; 50; 49; 49; 50]); (* lreal_to_string_conversion *)
  (302, "LREAL_TO_STRING_EXT", [VF (FNum (S754_finite true 5624129581167292 (-39))); VS (repeat 0 81)],
    Text [45; 49; 48; 50; 51; 48; 46; 50; 51; 50; 49; 49; 50]); (* lreal_to_string_conversion *)
  (302, "LREAL_TO_STRING_EXT", [VF (FNum (S754_finite false 6399999999999952 (-6))); VS (repeat 0 81)],
    Text [57; 57; 57; 57; 57; 57; 57; 57; 57; 57; 57; 57; 57; 57; 46; 50; 53; 48; 48; 48; 48]); (* lreal_to_string_conversion *)
  (302, "LREAL_TO_STRING_EXT", [VF (FNum (S754_finite false 7901234503901192 (-6))); VS (repeat 0 81)],
    Text [49; 46; 50; 51; 52; 53; 54; 56; 101; 49; 52]); (* lreal_to_string_conversion *)
  (347, "STRING_TO_LINT", [VS [49; 50; 51; 52; 53; 0]],
    Number 12345); (* string_to_lint_conversion *)
  (347, "STRING_TO_LINT", [VS [50; 35; 49; 49; 49; 49; 0]],
    Number 15); (* string_to_lint_conversion *)
  (347, "STRING_TO_LINT", [VS [56; 35; 55; 55; 0]],
    Number 63); (* string_to_lint_conversion *)
  (347, "STRING_TO_LINT", [VS [49; 54; 35; 70; 70; 0]],
    Number 255); (* string_to_lint_conversion *)
  (347, "STRING_TO_LINT", [VS [48; 98; 49; 49; 49; 49; 0]],
    Number 15); (* string_to_lint_conversion *)
  (347, "STRING_TO_LINT", [VS [48; 66; 49; 49; 49; 49; 0]],
    Number 15); (* string_to_lint_conversion *)
  (347, "STRING_TO_LINT", [VS [48; 120; 70; 70; 0]],
    Number 255); (* string_to_lint_conversion *)
  (347, "STRING_TO_LINT", [VS [48; 88; 70; 70; 0]],
    Number 255); (* string_to_lint_conversion *)
  (383, "STRING_TO_LINT", [VS [97; 98; 52; 53; 54; 0]],
    Abort); (* string_to_lint_conversion_panics_if_given_invalid_string *)
  (389, "STRING_TO_LREAL", [VS [49; 46; 50; 53; 0]],
    Real (FNum (S754_finite false 5629499534213120 (-52)))); (* string_to_lreal_conversion *)
  (396, "STRING_TO_REAL", [VS [49; 46; 50; 53; 0]],
    Real (FNum (S754_finite false 10485760 (-23)))); (* string_to_real_conversion *)
  (404, "STRING_TO_LREAL", [VS [49; 44; 50; 53; 102; 0]],
    Abort); (* string_to_lreal_conversion_panics_if_given_invalid_string *)
  (410, "DATE_TO_STRING_EXT", [VZ 408758400000000000; VS (repeat 0 81)],
    Text [49; 57; 56; 50; 45; 49; 50; 45; 49; 53]); (* date_to_string_is_converted_in_correct_format *)
  (428, "DT_TO_STRING_EXT", [VZ 408795002123456789; VS (repeat 0 81)],
    Text [49; 57; 56; 50; 45; 49; 50; 45; 49; 53; 45; 49; 48; 58; 49; 48; 58; 48; 50; 46; 49; 50; 51; 52; 53; 54; 55; 56; 57]); (* dt_to_string_is_converted_in_correct_format *)
  (446, "TOD_TO_STRING_EXT", [VZ 408795002123456789; VS (repeat 0 81)],
    Text [49; 48; 58; 49; 48; 58; 48; 50; 46; 49; 50; 51; 52; 53; 54; 55; 56; 57]); (* tod_to_string_is_converted_in_correct_format *)
  (464, "TIME_TO_STRING_EXT", [VZ 1674468600123456789; VS (repeat 0 81)],
    Undefined) (* time_to_string_is_converted_in_correct_format *)
].
Example extra_functions_pass : forallb passes extra_functions = true.
Proof. vm_compute. reflexivity. Qed.

(** A test of [Signal], e.g. /repo/src/utils.rs:43-52: inputs and asserted results. *)
Fixpoint edges (f : signal -> bool -> bool * signal) (s : signal) (l : list (bool * bool)) : bool :=
  match l with
  | [] => true
  | (x, y) :: l' => let '(r, s') := f s x in Bool.eqb r y && edges f s' l'
  end.

(** /repo/src/utils.rs, at the lines given. *)
Definition utils : list (Z * (signal -> bool -> bool * signal) * list (bool * bool)) := [
  (43, rising_edge, [(true, true); (true, false)]) (* rising_edge_subsequent_true *);
  (55, rising_edge, [(true, true); (false, false); (true, true); (true, false)]) (* rising_edge_true_false_true_true *);
  (73, rising_edge, [(false, false); (true, true); (true, false); (false, false); (true, true)]) (* rising_edge_reuse *);
  (94, falling_edge, [(true, false); (true, false)]) (* falling_edge_returns_false_on_subsequent_true *);
  (106, falling_edge, [(true, false); (false, true); (false, false); (true, false); (true, false)]) (* falling_edge_true_false_true_true *);
  (127, falling_edge, [(true, false); (false, true); (true, false); (false, true); (false, false)]) (* falling_edge_reuse *)
].
Example utils_pass : forallb (fun '(_, f, l) => edges f signal_default l) utils = true.
Proof. vm_compute. reflexivity. Qed.
