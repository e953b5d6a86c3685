(** Properties C110 to C112: string functions and text conversions in a program.  [call] is a call
    by the name that the library declares, with typed arguments (ModelApi.v); see SpecCall.v for
    [gives], [tells], [prints] and [value_in], SpecText.v for [holds] and [reads]. *)
From Coq Require Import String Ascii ZArith Lia List Bool Reals Lra SpecFloat.
From Verif Require Import Base ModelScalar ModelFloat ModelTimeNum ModelText ModelString ModelExtra ModelDate ModelST ModelWrap ModelLink ModelLib
  ModelApi SpecScalar SpecDate SpecTimeNum SpecReal SpecText SpecExtra SpecLink SpecLib SpecName SpecWrap SpecCall ProofBase
  ProofExtra ProofExtra2 PropertiesExtra ProofCall ProofCall3 ProofCall4 ProofCall5 ProofCall6.
Import ListNotations.
Open Scope string_scope.
Open Scope list_scope.
Open Scope Z_scope.
Local Notation size := SpecWrap.size.

(** * C110: string functions called by their generic name *)
(** LEFT, RIGHT, MID and DELETE of an argument of at most 2048 units; outside the range they abort. *)
Theorem C110_left : forall P k src t L, holds k src t -> (size k t <= 2048)%nat ->
  (0 <= L <= slen t -> gives k (firstn (Z.to_nat L) t) (call P "LEFT" [(string_type k, VS src); (S_DINT, VZ L)])) /\
  (~ 0 <= L <= slen t -> call P "LEFT" [(string_type k, VS src); (S_DINT, VZ L)] = Panic).
Proof. exact left_gives. Qed.
Print Assumptions C110_left.
Theorem C110_right : forall P k src t L, holds k src t -> (size k t <= 2048)%nat ->
  (0 <= L <= slen t -> gives k (skipn (length t - Z.to_nat L) t) (call P "RIGHT" [(string_type k, VS src); (S_DINT, VZ L)])) /\
  (~ 0 <= L <= slen t -> call P "RIGHT" [(string_type k, VS src); (S_DINT, VZ L)] = Panic).
Proof. exact right_gives. Qed.
Print Assumptions C110_right.
Theorem C110_mid : forall P k src t L N, holds k src t -> (size k t <= 2048)%nat -> in_ity i32 L -> in_ity i32 N ->
  (0 <= L -> 1 <= N <= slen t -> N - 1 + L <= slen t ->
     gives k (firstn (Z.to_nat L) (skipn (Z.to_nat (N - 1)) t))
       (call P "MID" [(string_type k, VS src); (S_DINT, VZ L); (S_DINT, VZ N)])) /\
  (~ (0 <= L /\ 1 <= N <= slen t /\ N - 1 + L <= slen t) ->
     call P "MID" [(string_type k, VS src); (S_DINT, VZ L); (S_DINT, VZ N)] = Panic).
Proof. exact mid_gives. Qed.
Print Assumptions C110_mid.
Theorem C110_delete : forall P k src t L N, holds k src t -> (size k t <= 2048)%nat -> in_ity i32 L -> in_ity i32 N ->
  0 <= L ->
  (1 <= N <= slen t -> N - 1 + L <= slen t ->
     gives k (firstn (Z.to_nat (N - 1)) t ++ skipn (Z.to_nat (N - 1 + L)) t)
       (call P "DELETE" [(string_type k, VS src); (S_DINT, VZ L); (S_DINT, VZ N)])) /\
  (~ (1 <= N <= slen t /\ N - 1 + L <= slen t) ->
     call P "DELETE" [(string_type k, VS src); (S_DINT, VZ L); (S_DINT, VZ N)] = Panic).
Proof. exact delete_gives. Qed.
Print Assumptions C110_delete.
(** INSERT, REPLACE and CONCAT: exactly the results of at most 2048 units are returned, longer ones
    overrun the result. *)
Theorem C110_insert : forall P k base ins s t N, holds k base s -> holds k ins t -> slen s < 2 ^ 31 -> 0 <= N <= slen s ->
  ((size k s + size k t <= 2048)%nat -> gives k (firstn (Z.to_nat N) s ++ t ++ skipn (Z.to_nat N) s)
     (call P "INSERT" [(string_type k, VS base); (string_type k, VS ins); (S_DINT, VZ N)])) /\
  ((2048 < size k s + size k t)%nat ->
     call P "INSERT" [(string_type k, VS base); (string_type k, VS ins); (S_DINT, VZ N)] = Ub).
Proof. exact insert_gives. Qed.
Print Assumptions C110_insert.
Theorem C110_replace : forall P k base rep s t L N, holds k base s -> holds k rep t -> in_ity i32 L -> in_ity i32 N ->
  slen s < 2 ^ 31 -> 0 <= L -> 1 <= N <= slen s -> N - 1 + L <= slen s ->
  let r := (firstn (Z.to_nat (N - 1)) s ++ t ++ skipn (Z.to_nat (N - 1 + L)) s)%list in
  let o := call P "REPLACE" [(string_type k, VS base); (string_type k, VS rep); (S_DINT, VZ L); (S_DINT, VZ N)] in
  ((size k r <= 2048)%nat -> gives k r o) /\ ((2048 < size k r)%nat -> o = Ub).
Proof. exact replace_gives. Qed.
Print Assumptions C110_replace.
Theorem C110_concat : forall P k argv ts, Forall2 (holds k) argv ts -> ts <> [] ->
  let o := call P "CONCAT" (map (fun m => (string_type k, VS m)) argv) in
  ((size k (concat ts) <= 2048)%nat -> gives k (concat ts) o) /\ ((2048 < size k (concat ts))%nat -> o = Ub).
Proof. exact concat_gives. Qed.
Print Assumptions C110_concat.
(** LEN counts characters, FIND counts from one and returns zero for no occurrence. *)
Theorem C110_len : forall P k src t, holds k src t -> slen t < 2 ^ 31 ->
  call P "LEN" [(string_type k, VS src)] = Ok (S_DINT, VZ (slen t)).
Proof. exact len_call. Qed.
Print Assumptions C110_len.
Theorem C110_find : forall P k a b hs ns, holds k a hs -> holds k b ns -> slen hs < 2 ^ 31 ->
  (ns = [] \/ (forall i, ~ occurs_at ns hs i) ->
     call P "FIND" [(string_type k, VS a); (string_type k, VS b)] = Ok (S_DINT, VZ 0)) /\
  (forall i, ns <> [] -> first_at ns hs i ->
     call P "FIND" [(string_type k, VS a); (string_type k, VS b)] = Ok (S_DINT, VZ (Z.of_nat i + 1))).
Proof. exact find_call. Qed.
Print Assumptions C110_find.
(** The comparisons of any number of strings, in the order of their units. *)
Theorem C110_compare : forall P k argv strs, Forall2 reads argv strs -> (2 <= length strs)%nat ->
  let args := map (fun m => (string_type k, VS m)) argv in
  tells (all_pairs (fun a b => lex_lt b a) strs) (call P "GT" args) /\
  tells (all_pairs (fun a b => lex_le b a) strs) (call P "GE" args) /\
  tells (all_pairs eq strs) (call P "EQ" args) /\
  tells (all_pairs lex_le strs) (call P "LE" args) /\
  tells (all_pairs lex_lt strs) (call P "LT" args).
Proof. exact compare_call. Qed.
Print Assumptions C110_compare.
Theorem C110_equal_texts : forall P k a b s t, holds k a s -> holds k b t ->
  let args := [(string_type k, VS a); (string_type k, VS b)] in
  tells (s = t) (call P "EQ" args) /\ tells (s <> t) (call P "NE" args).
Proof. exact eq_texts. Qed.
Print Assumptions C110_equal_texts.
(** The functions behind the comparison operators see the first 80 units. *)
Theorem C110_operators : forall P k a b s t, reads a s -> reads b t ->
  let args := [(string_type k, VS a); (string_type k, VS b)] in
  tells (lex_lt (firstn 80 s) (firstn 80 t)) (call P (ty_name (string_type k) ++ "_LESS") args) /\
  tells (firstn 80 s = firstn 80 t) (call P (ty_name (string_type k) ++ "_EQUAL") args) /\
  tells (lex_lt (firstn 80 t) (firstn 80 s)) (call P (ty_name (string_type k) ++ "_GREATER") args).
Proof. exact operators_call. Qed.
Print Assumptions C110_operators.
(** Conversions between the two kinds of string keep the text. *)
Theorem C110_wstring_to_string : forall P src t, holds WSTRING src t ->
  ((size STRING t <= 2048)%nat -> gives STRING t (call P "WSTRING_TO_STRING" [(S_WSTRING, VS src)])) /\
  ((2048 < size STRING t)%nat -> call P "WSTRING_TO_STRING" [(S_WSTRING, VS src)] = Ub).
Proof. exact to_string_gives. Qed.
Print Assumptions C110_wstring_to_string.
Theorem C110_string_to_wstring : forall P src t, holds STRING src t -> (size STRING t <= 2048)%nat ->
  gives WSTRING t (call P "STRING_TO_WSTRING" [(S_STRING, VS src)]).
Proof. exact to_wstring_gives. Qed.
Print Assumptions C110_string_to_wstring.
(** STRING_TO_CHAR and WSTRING_TO_WCHAR return the first unit. *)
Theorem C110_first_unit : forall P k u src s, reads src (u :: s) ->
  call P (match k with STRING => "STRING_TO_CHAR" | WSTRING => "WSTRING_TO_WCHAR" end) [(string_type k, VS src)] =
  Ok (match k with STRING => S_CHAR | WSTRING => S_WCHAR end, VZ u).
Proof. exact to_char_call. Qed.
Print Assumptions C110_first_unit.

Definition hello : list Z := [0x68; 0xE9; 0x6C; 0x6C; 0x6F; 0x1F600].
Lemma hello_text : text hello.
Proof. repeat constructor; unfold is_scalar; lia. Qed.
Definition stored (k : kind) (t : list Z) : list Z := units k t ++ [0; 0x7F].
Lemma stored_holds : forall k t, text t -> holds k (stored k t) t.
Proof. intros k t T. split; [exact T|]. now exists [0x7F]. Qed.
Definition here : platform :=
  Platform Debug (ModelChrono.Chrono true true) DurRound LittleEndian (fun _ _ => true) (0, 0) (fun _ _ _ => FNan false 1).
Example C110_ex1 : forall k, gives k [0x68; 0xE9] (call here "LEFT" [(string_type k, VS (stored k hello)); (S_DINT, VZ 2)]) /\
  call here "LEFT" [(string_type k, VS (stored k hello)); (S_DINT, VZ 7)] = Panic.
Proof.
  intros k. pose proof (stored_holds k hello hello_text) as H.
  assert (S : (size k hello <= 2048)%nat) by (destruct k; vm_compute; lia). split.
  - apply (C110_left here k _ hello 2 H S). vm_compute. split; discriminate.
  - apply (C110_left here k _ hello 7 H S). vm_compute. intros [_ E]. now apply E.
Qed.
Example C110_ex2 : forall k, gives k [0x1F600] (call here "RIGHT" [(string_type k, VS (stored k hello)); (S_DINT, VZ 1)]) /\
  gives k [0x6C; 0x6C] (call here "MID" [(string_type k, VS (stored k hello)); (S_DINT, VZ 2); (S_DINT, VZ 3)]) /\
  gives k [0x68; 0xE9; 0x6F; 0x1F600] (call here "DELETE" [(string_type k, VS (stored k hello)); (S_DINT, VZ 2); (S_DINT, VZ 3)]).
Proof.
  intros k. pose proof (stored_holds k hello hello_text) as H.
  assert (S : (size k hello <= 2048)%nat) by (destruct k; vm_compute; lia). split; [|split].
  - apply (C110_right here k _ hello 1 H S). vm_compute. split; discriminate.
  - apply (C110_mid here k _ hello 2 3 H S); vm_compute; try (split; discriminate); discriminate.
  - apply (C110_delete here k _ hello 2 3 H S); vm_compute; try (split; discriminate); discriminate.
Qed.
Example C110_ex3 : forall k,
  gives k [0x68; 0x68; 0xE9; 0x6C; 0x6C; 0x6F; 0x1F600; 0xE9; 0x6C; 0x6C; 0x6F; 0x1F600]
    (call here "INSERT" [(string_type k, VS (stored k hello)); (string_type k, VS (stored k hello)); (S_DINT, VZ 1)]) /\
  gives k (hello ++ [0x1F600])
    (call here "REPLACE" [(string_type k, VS (stored k hello)); (string_type k, VS (stored k hello)); (S_DINT, VZ 5); (S_DINT, VZ 1)]) /\
  gives k (hello ++ hello ++ hello) (call here "CONCAT" (map (fun m => (string_type k, VS m)) (repeat (stored k hello) 3))).
Proof.
  intros k. pose proof (stored_holds k hello hello_text) as H. split; [|split].
  - apply (C110_insert here k _ _ hello hello 1 H H); [reflexivity|vm_compute; split; discriminate|destruct k; vm_compute; lia].
  - assert (I5 : in_ity i32 5) by (split; discriminate). assert (I1 : in_ity i32 1) by (split; discriminate).
    assert (R : 1 <= 1 <= slen hello) by (split; discriminate). assert (R' : 1 - 1 + 5 <= slen hello) by discriminate.
    refine (proj1 (C110_replace here k _ _ hello hello 5 1 H H I5 I1 eq_refl ltac:(lia) R R') _). destruct k; vm_compute; lia.
  - replace (hello ++ hello ++ hello) with (concat [hello; hello; hello]) by reflexivity.
    refine (proj1 (C110_concat here k (repeat (stored k hello) 3) [hello; hello; hello] _ _) _);
      [repeat (constructor; [exact H|]); constructor|discriminate|destruct k; vm_compute; lia].
Qed.
Example C110_ex4 : forall k, call here "LEN" [(string_type k, VS (stored k hello))] = Ok (S_DINT, VZ 6) /\
  call here "FIND" [(string_type k, VS (stored k hello)); (string_type k, VS (stored k [0x6C; 0x6F]))] = Ok (S_DINT, VZ 4).
Proof. intros k. destruct k; split; vm_compute; reflexivity. Qed.
Example C110_ex5 : call here "GT" [(S_STRING, VS [98; 0]); (S_STRING, VS [97; 98; 0]); (S_STRING, VS [97; 0])] = Ok (S_BOOL, VZ 1) /\
  call here "WSTRING_LESS" [(S_WSTRING, VS [0x20AC; 0]); (S_WSTRING, VS [0x20AD; 0])] = Ok (S_BOOL, VZ 1) /\
  call here "STRING_EQUAL" [(S_STRING, VS [97; 0]); (S_STRING, VS [97; 0; 5])] = Ok (S_BOOL, VZ 1) /\
  call here "STRING_TO_CHAR" [(S_STRING, VS [97; 98; 0])] = Ok (S_CHAR, VZ 97).
Proof. repeat match goal with |- _ /\ _ => split end; vm_compute; reflexivity. Qed.
Example C110_ex6 : gives STRING hello (call here "WSTRING_TO_STRING" [(S_WSTRING, VS (stored WSTRING hello))]) /\
  gives WSTRING hello (call here "STRING_TO_WSTRING" [(S_STRING, VS (stored STRING hello))]).
Proof.
  split; [apply (C110_wstring_to_string here _ hello)|apply (C110_string_to_wstring here _ hello)];
    try (apply stored_holds, hello_text); vm_compute; lia.
Qed.

(** * C111: numbers and times as text, called by name *)
(** Integers are written as their canonical decimal numeral. *)
Theorem C111_integers : forall P X t i x,
  List.In (X, t, i) [("BYTE", S_BYTE, u8); ("DWORD", S_DWORD, u32); ("LWORD", S_LWORD, u64); ("DINT", S_DINT, i32); ("LINT", S_LINT, i64)] ->
  in_ity i x -> exists s, canonical_int s x /\ prints STRING s (call P (X ++ "_TO_STRING") [(t, VZ x)]) /\
    prints WSTRING s (call P (X ++ "_TO_WSTRING") [(t, VZ x)]).
Proof. exact integers_print. Qed.
Print Assumptions C111_integers.
(** Times (not negative, see C60), dates, times of day and timestamps. *)
Theorem C111_times : forall P X t x, List.In (X, t) [("TIME", S_TIME); ("LTIME", S_LTIME)] -> 0 <= x -> in_ity i64 x ->
  exists s, time_text s x /\ prints STRING s (call P (X ++ "_TO_STRING") [(t, VZ x)]) /\
    prints WSTRING s (call P (X ++ "_TO_WSTRING") [(t, VZ x)]).
Proof. exact times_print. Qed.
Print Assumptions C111_times.
Theorem C111_dates : forall P X t x, List.In (X, t) [("DATE", S_DATE); ("LDATE", S_LDATE)] -> in_ity i64 x ->
  exists s y m dd, date_text s y m dd /\ day_number (y, m, dd) (x / DAY) /\
    prints STRING s (call P (X ++ "_TO_STRING") [(t, VZ x)]) /\ prints WSTRING s (call P (X ++ "_TO_WSTRING") [(t, VZ x)]).
Proof. exact dates_print. Qed.
Print Assumptions C111_dates.
Theorem C111_times_of_day : forall P X t x, List.In (X, t) [("TOD", S_TOD); ("LTOD", S_LTOD)] -> in_ity i64 x ->
  exists s h m sec ns, clock_text s h m sec ns /\ 0 <= h < 24 /\ 0 <= m < 60 /\ 0 <= sec < 60 /\ 0 <= ns < SECOND /\
    h * HOUR + m * MINUTE + sec * SECOND + ns = x mod DAY /\
    prints STRING s (call P (X ++ "_TO_STRING") [(t, VZ x)]) /\ prints WSTRING s (call P (X ++ "_TO_WSTRING") [(t, VZ x)]).
Proof. exact tods_print. Qed.
Print Assumptions C111_times_of_day.
Theorem C111_timestamps : forall P X t x, List.In (X, t) [("DT", S_DT); ("LDT", S_LDT)] -> in_ity i64 x ->
  exists ds cs y m dd h mi sec ns, date_text ds y m dd /\ day_number (y, m, dd) (x / DAY) /\ clock_text cs h mi sec ns /\
    0 <= h < 24 /\ 0 <= mi < 60 /\ 0 <= sec < 60 /\ 0 <= ns < SECOND /\
    h * HOUR + mi * MINUTE + sec * SECOND + ns = x mod DAY /\
    prints STRING (ds ++ str "-" ++ cs) (call P (X ++ "_TO_STRING") [(t, VZ x)]) /\
    prints WSTRING (ds ++ str "-" ++ cs) (call P (X ++ "_TO_WSTRING") [(t, VZ x)]).
Proof. exact dts_print. Qed.
Print Assumptions C111_timestamps.
Theorem C111_reals : forall P x, fl_valid F32 x -> fl_finite x = true ->
  exists s y, fl_value y = fl_value x /\ fl_negative y = fl_negative x /\
    ((fl_value x < IZR (10 ^ 14))%R -> fixed6_text s y) /\ ((IZR (10 ^ 14) <= fl_value x)%R -> exp6_text s y) /\
    prints STRING s (call P "REAL_TO_STRING" [(S_REAL, VF x)]) /\ prints WSTRING s (call P "REAL_TO_WSTRING" [(S_REAL, VF x)]).
Proof. exact reals_print. Qed.
Print Assumptions C111_reals.
(** Exactly the numerals in range are accepted. *)
Theorem C111_parse_integers : forall P src s, reads src s ->
  (forall z, call P "STRING_TO_LINT" [(S_STRING, VS src)] = Ok (S_LINT, VZ z) <-> int_text s z /\ in_ity i64 z) /\
  ((forall z, int_text s z -> ~ in_ity i64 z) -> call P "STRING_TO_LINT" [(S_STRING, VS src)] = Panic) /\
  (forall z, call P "STRING_TO_DINT" [(S_STRING, VS src)] = Ok (S_DINT, VZ z) <-> int_text s z /\ in_ity i32 z) /\
  ((forall z, int_text s z -> ~ in_ity i32 z) -> call P "STRING_TO_DINT" [(S_STRING, VS src)] = Panic).
Proof. exact ints_parse. Qed.
Print Assumptions C111_parse_integers.
Theorem C111_parse_wide_integers : forall P w s t, holds WSTRING w t -> holds STRING s t -> (length (units STRING t) <= 80)%nat ->
  call P "WSTRING_TO_LINT" [(S_WSTRING, VS w)] = call P "STRING_TO_LINT" [(S_STRING, VS s)] /\
  (forall z, call P "STRING_TO_DINT" [(S_STRING, VS s)] = Ok z -> call P "WSTRING_TO_DINT" [(S_WSTRING, VS w)] = Ok z).
Proof. exact wide_ints_parse. Qed.
Print Assumptions C111_parse_wide_integers.
Theorem C111_parse_reals : forall P src s, reads src s ->
  (forall neg m e, number_text s neg m e -> exists x y,
     call P "STRING_TO_LREAL" [(S_STRING, VS src)] = Ok (S_LREAL, VF x) /\ rounded F64 x neg (number_value neg m e) /\
     call P "STRING_TO_REAL" [(S_STRING, VS src)] = Ok (S_REAL, VF y) /\ rounded F32 y neg (number_value neg m e)) /\
  ((forall neg m e, ~ number_text s neg m e) -> (forall neg nan, ~ special_text s neg nan) ->
     call P "STRING_TO_LREAL" [(S_STRING, VS src)] = Panic /\ call P "STRING_TO_REAL" [(S_STRING, VS src)] = Panic).
Proof. exact reals_parse. Qed.
Print Assumptions C111_parse_reals.
Theorem C111_parse_wide_reals : forall P w s t, holds WSTRING w t -> holds STRING s t -> (length (units STRING t) <= 80)%nat ->
  call P "WSTRING_TO_LREAL" [(S_WSTRING, VS w)] = call P "STRING_TO_LREAL" [(S_STRING, VS s)] /\
  call P "WSTRING_TO_REAL" [(S_WSTRING, VS w)] = call P "STRING_TO_REAL" [(S_STRING, VS s)].
Proof. exact wide_reals_parse. Qed.
Print Assumptions C111_parse_wide_reals.
(** Reading back what was written. *)
Theorem C111_integer_round_trips : forall P x,
  (in_ity i64 x -> obind (call P "LINT_TO_STRING" [(S_LINT, VZ x)]) (fun tv => call P "STRING_TO_LINT" [tv]) = Ok (S_LINT, VZ x) /\
     obind (call P "LINT_TO_WSTRING" [(S_LINT, VZ x)]) (fun tv => call P "WSTRING_TO_LINT" [tv]) = Ok (S_LINT, VZ x)) /\
  (in_ity i32 x -> obind (call P "DINT_TO_STRING" [(S_DINT, VZ x)]) (fun tv => call P "STRING_TO_DINT" [tv]) = Ok (S_DINT, VZ x) /\
     obind (call P "DINT_TO_WSTRING" [(S_DINT, VZ x)]) (fun tv => call P "WSTRING_TO_DINT" [tv]) = Ok (S_DINT, VZ x)).
Proof. exact ints_back. Qed.
Print Assumptions C111_integer_round_trips.
Theorem C111_real_round_trip : forall P x, fl_valid F32 x -> fl_finite x = true ->
  exists y, obind (call P "REAL_TO_STRING" [(S_REAL, VF x)]) (fun tv => call P "STRING_TO_REAL" [tv]) = Ok (S_REAL, VF y) /\
   fl_negative y = fl_negative x /\ fl_finite y = true /\
   ((fl_value x < IZR (10 ^ 14))%R -> (Rabs (fl_value y - fl_value x) <= / 1000000)%R /\
       ((exists n, fl_value x * 1000000 = IZR n)%R -> fl_value y = fl_value x)) /\
   ((IZR (10 ^ 14) <= fl_value x)%R -> (Rabs (fl_value y - fl_value x) <= Rabs (fl_value x) / 999999)%R).
Proof. exact reals_back. Qed.
Print Assumptions C111_real_round_trip.
Theorem C111_lreal_round_trip : forall P x, fl_valid F64 x -> fl_finite x = true -> (IZR (- 10 ^ 73) < fl_value x)%R ->
  exists y, obind (call P "LREAL_TO_STRING" [(S_LREAL, VF x)]) (fun tv => call P "STRING_TO_LREAL" [tv]) = Ok (S_LREAL, VF y) /\
   fl_negative y = fl_negative x /\ fl_finite y = true /\
   ((fl_value x < IZR (10 ^ 14))%R -> (Rabs (fl_value y - fl_value x) <= / 1000000)%R /\
       ((exists n, fl_value x * 1000000 = IZR n)%R -> fl_value y = fl_value x)) /\
   ((IZR (10 ^ 14) <= fl_value x)%R -> (Rabs (fl_value y - fl_value x) <= Rabs (fl_value x) / 999999)%R).
Proof. exact lreals_back. Qed.
Print Assumptions C111_lreal_round_trip.

Definition printed (o : outcome (sty * value)) : option (list Z) :=
  match o with Ok (_, VS d) => option_map (fun n => firstn n d) (position0 d) | _ => None end.
Example C111_ex1 : printed (call here "DINT_TO_WSTRING" [(S_DINT, VZ (-2147483648))]) = Some (str "-2147483648") /\
  printed (call here "DWORD_TO_STRING" [(S_DWORD, VZ 4294967295)]) = Some (str "4294967295") /\
  printed (call here "LTIME_TO_STRING" [(S_LTIME, VZ 90000000000005)]) = Some (str "1d1h5ns") /\
  printed (call here "DATE_TO_WSTRING" [(S_DATE, VZ 951782400000000000)]) = Some (str "2000-02-29") /\
  printed (call here "TOD_TO_STRING" [(S_TOD, VZ 7000000001)]) = Some (str "00:00:07.000000001") /\
  printed (call here "LDT_TO_STRING" [(S_LDT, VZ (-1000000))]) = Some (str "1969-12-31-23:59:59.999") /\
  printed (call here "REAL_TO_WSTRING" [(S_REAL, VF (FNum (S754_finite true (2 ^ 23) (-25))))]) = Some (str "-0.250000").
Proof. repeat match goal with |- _ /\ _ => split end; vm_compute; reflexivity. Qed.
Example C111_ex2 : call here "STRING_TO_DINT" [(S_STRING, VS (str "16#7f" ++ [0]))] = Ok (S_DINT, VZ 127) /\
  call here "WSTRING_TO_LINT" [(S_WSTRING, VS (str "-12" ++ [0]))] = Ok (S_LINT, VZ (-12)) /\
  call here "STRING_TO_DINT" [(S_STRING, VS (str "2147483648" ++ [0]))] = Panic /\
  call here "STRING_TO_LREAL" [(S_STRING, VS (str "-.5e1" ++ [0]))] = Ok (S_LREAL, VF (FNum (S754_finite true (5 * 2 ^ 50) (-50)))) /\
  number_text (str "-.5e1") true 5 0.
Proof.
  split; [vm_compute; reflexivity|]. split; [vm_compute; reflexivity|]. split; [vm_compute; reflexivity|].
  split; [vm_compute; reflexivity|]. exact (proj1 PropertiesExtra.C78_example).
Qed.
Example C111_ex3 : obind (call here "LINT_TO_WSTRING" [(S_LINT, VZ (-77))]) (fun tv => call here "WSTRING_TO_LINT" [tv]) = Ok (S_LINT, VZ (-77)) /\
  obind (call here "LREAL_TO_STRING" [(S_LREAL, VF (FNum (S754_finite true 7205759403792794 (-56))))])
    (fun tv => call here "STRING_TO_LREAL" [tv]) = Ok (S_LREAL, VF (FNum (S754_finite true 7205759403792794 (-56)))).
Proof. split; vm_compute; reflexivity. Qed.

(** * C112: laws of string expressions

    The arguments are variables; a nested call passes the result of the inner one on. *)
Theorem C112_left_of_concat : forall k P r a b s t, string_var k r a s -> string_var k r b t -> (size k s + size k t <= 2048)%nat ->
  gives k s (value_in P r (Call "LEFT" [Call "CONCAT" [Arg a; Arg b]; Call "LEN" [Arg a]])).
Proof. exact left_of_concat. Qed.
Print Assumptions C112_left_of_concat.
Theorem C112_right_of_concat : forall k P r a b s t, string_var k r a s -> string_var k r b t -> (size k s + size k t <= 2048)%nat ->
  gives k t (value_in P r (Call "RIGHT" [Call "CONCAT" [Arg a; Arg b]; Call "LEN" [Arg b]])).
Proof. exact right_of_concat. Qed.
Print Assumptions C112_right_of_concat.
Theorem C112_concat_assoc : forall k P r a b c s t u, string_var k r a s -> string_var k r b t -> string_var k r c u ->
  (size k s + size k t + size k u <= 2048)%nat ->
  gives k (s ++ t ++ u) (value_in P r (Call "CONCAT" [Arg a; Arg b; Arg c])) /\
  gives k (s ++ t ++ u) (value_in P r (Call "CONCAT" [Call "CONCAT" [Arg a; Arg b]; Arg c])) /\
  gives k (s ++ t ++ u) (value_in P r (Call "CONCAT" [Arg a; Call "CONCAT" [Arg b; Arg c]])).
Proof. exact concat_assoc. Qed.
Print Assumptions C112_concat_assoc.
Theorem C112_len_of_concat : forall k P r a b s t, string_var k r a s -> string_var k r b t -> (size k s + size k t <= 2048)%nat ->
  value_in P r (Call "LEN" [Call "CONCAT" [Arg a; Arg b]]) = Ok (S_DINT, VZ (slen s + slen t)).
Proof. exact len_of_concat. Qed.
Print Assumptions C112_len_of_concat.
Theorem C112_split_left_right : forall k P r a n m s i j, string_var k r a s -> dint_var r n i -> dint_var r m j ->
  0 <= i -> 0 <= j -> i + j = slen s -> (size k s <= 2048)%nat ->
  gives k s (value_in P r (Call "CONCAT" [Call "LEFT" [Arg a; Arg n]; Call "RIGHT" [Arg a; Arg m]])).
Proof. exact split_left_right. Qed.
Print Assumptions C112_split_left_right.
Theorem C112_split_left_mid : forall k P r a n m l s i j, string_var k r a s -> dint_var r n i -> dint_var r m (i + 1) -> dint_var r l j ->
  0 <= i < slen s -> i + j = slen s -> (size k s <= 2048)%nat ->
  gives k s (value_in P r (Call "CONCAT" [Call "LEFT" [Arg a; Arg n]; Call "MID" [Arg a; Arg l; Arg m]])).
Proof. exact split_left_mid. Qed.
Print Assumptions C112_split_left_mid.
Theorem C112_delete_undoes_insert : forall k P r a b n m s t i, string_var k r a s -> string_var k r b t ->
  dint_var r n i -> dint_var r m (i + 1) -> 0 <= i <= slen s -> i < slen s + slen t -> (size k s + size k t <= 2048)%nat ->
  gives k s (value_in P r (Call "DELETE" [Call "INSERT" [Arg a; Arg b; Arg n]; Call "LEN" [Arg b]; Arg m])) /\
  gives k t (value_in P r (Call "MID" [Call "INSERT" [Arg a; Arg b; Arg n]; Call "LEN" [Arg b]; Arg m])).
Proof. exact delete_undoes_insert. Qed.
Print Assumptions C112_delete_undoes_insert.
Theorem C112_replace_is_insert_delete : forall k P r a b l m n s t i j, string_var k r a s -> string_var k r b t ->
  dint_var r l j -> dint_var r m (i + 1) -> dint_var r n i -> 0 <= j -> 0 <= i < slen s -> i + j <= slen s ->
  (size k s + size k t <= 2048)%nat ->
  let result := (firstn (Z.to_nat i) s ++ t ++ skipn (Z.to_nat (i + j)) s)%list in
  gives k result (value_in P r (Call "REPLACE" [Arg a; Arg b; Arg l; Arg m])) /\
  gives k result (value_in P r (Call "INSERT" [Call "DELETE" [Arg a; Arg l; Arg m]; Arg b; Arg n])).
Proof. exact replace_is_insert_delete. Qed.
Print Assumptions C112_replace_is_insert_delete.
Theorem C112_find_mid : forall k P r a b hs ns x y, string_var k r a hs -> string_var k r b ns -> (size k hs <= 2048)%nat ->
  ns <> [] -> hs = x ++ ns ++ y -> gives k ns (value_in P r (Call "MID" [Arg a; Call "LEN" [Arg b]; Call "FIND" [Arg a; Arg b]])).
Proof. exact find_mid. Qed.
Print Assumptions C112_find_mid.
Theorem C112_find_replace : forall k P r a b c hs ns t x y, string_var k r a hs -> string_var k r b ns -> string_var k r c t ->
  (size k hs + size k t <= 2048)%nat -> ns <> [] -> hs = x ++ ns ++ y -> first_at ns hs (length x) ->
  gives k (x ++ t ++ y) (value_in P r (Call "REPLACE" [Arg a; Arg c; Call "LEN" [Arg b]; Call "FIND" [Arg a; Arg b]])).
Proof. exact find_replace. Qed.
Print Assumptions C112_find_replace.
Theorem C112_wide_and_back : forall P r a s, string_var STRING r a s -> (size STRING s <= 2048)%nat ->
  gives STRING s (value_in P r (Call "WSTRING_TO_STRING" [Call "STRING_TO_WSTRING" [Arg a]])).
Proof. exact wide_and_back. Qed.
Print Assumptions C112_wide_and_back.
Theorem C112_narrow_and_back : forall P r a s, string_var WSTRING r a s -> (size STRING s <= 2048)%nat ->
  gives WSTRING s (value_in P r (Call "STRING_TO_WSTRING" [Call "WSTRING_TO_STRING" [Arg a]])).
Proof. exact narrow_and_back. Qed.
Print Assumptions C112_narrow_and_back.

Definition lo : list Z := [0x6C; 0x6F].
Definition vars (k : kind) : env value :=
  [("a", (string_type k, VS (stored k hello))); ("b", (string_type k, VS (stored k lo)));
   ("i", (S_DINT, VZ 2)); ("j", (S_DINT, VZ 3)); ("n", (S_DINT, VZ 4))].
Lemma var_a : forall k, string_var k (vars k) "a" hello.
Proof. intros k. exists (stored k hello). split; [reflexivity|apply stored_holds, hello_text]. Qed.
Lemma var_b : forall k, string_var k (vars k) "b" lo.
Proof. intros k. exists (stored k lo). split; [reflexivity|apply stored_holds; repeat constructor; unfold is_scalar; lia]. Qed.
Lemma var_n : forall k x n, List.In (x, n) [("i", 2); ("j", 3); ("n", 4)] -> dint_var (vars k) x n.
Proof.
  intros k x n I. repeat (destruct I as [I|I]; [injection I as <- <-; split; [reflexivity|vm_compute; split; discriminate]|]). destruct I.
Qed.
Example C112_ex1 : forall k,
  gives k hello (value_in here (vars k) (Call "LEFT" [Call "CONCAT" [Arg "a"; Arg "b"]; Call "LEN" [Arg "a"]])) /\
  gives k lo (value_in here (vars k) (Call "RIGHT" [Call "CONCAT" [Arg "a"; Arg "b"]; Call "LEN" [Arg "b"]])) /\
  gives k hello (value_in here (vars k) (Call "CONCAT" [Call "LEFT" [Arg "a"; Arg "i"]; Call "RIGHT" [Arg "a"; Arg "n"]])) /\
  gives k hello (value_in here (vars k) (Call "CONCAT" [Call "LEFT" [Arg "a"; Arg "i"]; Call "MID" [Arg "a"; Arg "n"; Arg "j"]])).
Proof.
  intros k. assert (S : (size k hello + size k lo <= 2048)%nat) by (destruct k; vm_compute; lia).
  split; [exact (C112_left_of_concat k here _ _ _ _ _ (var_a k) (var_b k) S)|].
  split; [exact (C112_right_of_concat k here _ _ _ _ _ (var_a k) (var_b k) S)|]. split.
  - apply (C112_split_left_right k here _ _ _ _ _ 2 4 (var_a k)); try (apply var_n; cbn; tauto); try lia; reflexivity.
  - apply (C112_split_left_mid k here _ _ _ _ _ _ 2 4 (var_a k)); try (apply var_n; cbn; tauto); try lia; vm_compute; split; congruence.
Qed.
Example C112_ex2 : forall k,
  gives k hello (value_in here (vars k) (Call "DELETE" [Call "INSERT" [Arg "a"; Arg "b"; Arg "i"]; Call "LEN" [Arg "b"]; Arg "j"])) /\
  gives k [0x68; 0xE9; 0x6C; 0x6F] (value_in here (vars k) (Call "REPLACE" [Arg "a"; Arg "b"; Arg "n"; Arg "j"])) /\
  gives k lo (value_in here (vars k) (Call "MID" [Arg "a"; Call "LEN" [Arg "b"]; Call "FIND" [Arg "a"; Arg "b"]])) /\
  gives k ([0x68; 0xE9; 0x6C] ++ hello ++ [0x1F600])
    (value_in here (vars k) (Call "REPLACE" [Arg "a"; Arg "a"; Call "LEN" [Arg "b"]; Call "FIND" [Arg "a"; Arg "b"]])).
Proof.
  intros k. assert (S : (size k hello + size k lo <= 2048)%nat) by (destruct k; vm_compute; lia).
  split; [|split; [|split]].
  - apply (C112_delete_undoes_insert k here _ _ _ _ _ _ _ 2 (var_a k) (var_b k)); try (apply var_n; cbn; tauto); try exact S;
      vm_compute; repeat split; discriminate.
  - apply (C112_replace_is_insert_delete k here _ _ _ _ _ "i" _ _ 2 4 (var_a k) (var_b k)); try (apply var_n; cbn; tauto); try exact S;
      vm_compute; repeat split; discriminate.
  - apply (C112_find_mid k here _ _ _ _ _ [0x68; 0xE9; 0x6C] [0x1F600] (var_a k) (var_b k)); [lia|discriminate|reflexivity].
  - apply (C112_find_replace k here _ _ _ _ _ _ _ [0x68; 0xE9; 0x6C] [0x1F600] (var_a k) (var_b k) (var_a k));
      [destruct k; vm_compute; lia|discriminate|reflexivity|].
    split; [exists [0x68; 0xE9; 0x6C], [0x1F600]; now split|].
    intros m (x & y & E & <-).
    destruct x as [|? [|? [|? x]]]; try discriminate; cbn [length]; lia.
Qed.

(** * More about C54, C82 and C84 *)
(** The first byte of the UTF-8 encoding, for a surrogate that of U+FFFD. *)
Theorem C54_wchar_to_char : forall w, 0 <= w < 65536 ->
  WCHAR_TO_CHAR w = hd 0 (utf8_char (if (0xD800 <=? w) && (w <=? 0xDFFF) then 0xFFFD else w)).
Proof. exact wchar. Qed.
Print Assumptions C54_wchar_to_char.
Theorem C54_char_to_wchar : forall c, 0 <= c < 256 -> CHAR_TO_WCHAR c = c.
Proof. exact char_wide. Qed.
Print Assumptions C54_char_to_wchar.
(** An exported function is declared external and without a body; a function without a body that is not
    generic is exported; a generic function has no body. *)
Theorem C82_code_of_every_function : forall d, List.In d st_decls ->
  ((exists s, List.In s rust_symbols /\ sy_name s = d_name d) -> d_external d = true /\ d_body d = Empty) /\
  (d_generic d = [] -> d_body d = Empty -> exists s, List.In s rust_symbols /\ sy_name s = d_name d) /\
  (d_generic d <> [] -> d_body d = Empty).
Proof. exact code_of. Qed.
Print Assumptions C82_code_of_every_function.
(** Bodies mention only parameters and declared functions with the right number of arguments. *)
Theorem C84_bodies_well_scoped : forall d e, List.In d st_decls -> d_body d = Assign e \/ d_body d = Do e ->
  well_scoped (map (fun p => fst (fst p)) (d_params d)) e.
Proof. exact bodies. Qed.
Print Assumptions C84_bodies_well_scoped.
(** The bodies of SPLIT_LDT, which are never used (see C82), pass the parameters on to SPLIT_DT. *)
Theorem C84_split_ldt_bodies : forall t, List.In t wide_ints -> exists d, List.In d st_decls /\ d_name d = instance_name "SPLIT_LDT" [t] /\
  d_external d = true /\ ~ (exists s, List.In s rust_symbols /\ sy_name s = d_name d) /\
  d_body d = Assign (Call (instance_name "SPLIT_DT" [t]) (map (fun p => Arg (fst (fst p))) (d_params d))).
Proof. exact split_ldt_bodies. Qed.
Print Assumptions C84_split_ldt_bodies.
Example C54_ex2 : WCHAR_TO_CHAR 0x20AC = 0xE2 /\ WCHAR_TO_CHAR 0xD83D = 0xEF /\ CHAR_TO_WCHAR 0xE9 = 0xE9.
Proof. now repeat split. Qed.
Example C84_ex_body : exists d e, List.In d st_decls /\ d_name d = "DINT_TO_WSTRING" /\ d_body d = Assign e.
Proof.
  destruct (find_decl "DINT_TO_WSTRING") as [d|] eqn:F; [|vm_compute in F; discriminate F].
  pose proof F as G. unfold find_decl in G. apply find_some in G as [D N]. apply String.eqb_eq in N.
  exists d. vm_compute in F. injection F as F. eexists. split; [exact D|]. split; [exact N|]. rewrite <- F. reflexivity.
Qed.
