(** Property C95: a string function depends on the texts of its inputs and on nothing else in memory. *)
From Coq Require Import String ZArith List Bool.
From Verif Require Import Base ModelString ModelExtra ModelLink ModelLib SpecText SpecLink SpecSafe SpecTail ProofTail2 PropertiesLib.
Import ListNotations.
Open Scope list_scope.
Open Scope Z_scope.

(** Every exported function works on numbers only, is a function block, or is of one of
    the four shapes of the theorems below. *)
Example shapes_are_complete : forallb (fun s =>
  numeric s || reader s || writer s || compares s || concatenates s ||
  existsb (String.eqb (sy_name s)) function_blocks) rust_symbols = true /\
  map sy_name (filter compares rust_symbols) =
    ["GT__STRING"; "GT__WSTRING"; "GE__STRING"; "GE__WSTRING"; "EQ__STRING"; "EQ__WSTRING";
     "LE__STRING"; "LE__WSTRING"; "LT__STRING"; "LT__WSTRING"]%string /\
  map sy_name (filter reader rust_symbols) =
    ["STRING_TO_LINT"; "STRING_TO_DINT"; "STRING_TO_LREAL"; "STRING_TO_REAL"; "LEN__STRING"; "LEN__WSTRING";
     "FIND__STRING"; "FIND__WSTRING"; "NE__STRING"; "NE__WSTRING"]%string /\
  length (filter writer rust_symbols) = 23%nat /\ length (filter concatenates rust_symbols) = 4%nat.
Proof. vm_compute. repeat split. Qed.

Theorem C95_results : forall P s a a', List.In s rust_symbols -> reader s = true -> same_args (sy_params s) a a' ->
  exists o, rust_call P (sy_name s) a = omap (fun r => (r, a)) o /\ rust_call P (sy_name s) a' = omap (fun r => (r, a')) o.
Proof. exact results. Qed.
Print Assumptions C95_results.

Theorem C95_comparisons : forall P s u a a', List.In s rust_symbols -> sy_params s = [I32; Ptr false u] -> is_text u = true ->
  Forall2 (same u) a a' ->
  exists o, rust_call P (sy_name s) a = omap (fun r => (r, a)) o /\ rust_call P (sy_name s) a' = omap (fun r => (r, a')) o.
Proof. exact arrays. Qed.
Print Assumptions C95_comparisons.

(** Missing: TIME_TO_STRING_EXT, for which the statement is false. *)
Theorem C95_destinations_partial : forall P s a a', List.In s rust_symbols -> writer s = true ->
  sy_name s <> "TIME_TO_STRING_EXT"%string -> same_args (writer_inputs s) a a' ->
  exists g n r, effect g n r /\
    forall dest, call_last P (sy_name s) a dest (g dest) /\ call_last P (sy_name s) a' dest (g dest).
Proof. exact destinations. Qed.
Print Assumptions C95_destinations_partial.

Theorem C95_concat : forall P s d u a a', List.In s rust_symbols -> sy_params s = [d; I32; Ptr false u] ->
  is_dest d = true -> is_text u = true -> Forall2 (same u) a a' ->
  (sy_ret s = I32 -> exists g n r, effect g n r /\
    forall dest, call_first P (sy_name s) a dest (g dest) /\ call_first P (sy_name s) a' dest (g dest)) /\
  (sy_ret s = Unit ->
    exists o, rust_call P (sy_name s) a = omap (fun r => (r, a)) o /\ rust_call P (sy_name s) a' = omap (fun r => (r, a')) o).
Proof. exact concats. Qed.
Print Assumptions C95_concat.

(** The duration 1 d 2 h written over an old text of ten letters: the rest of the old text stays between
    the days and the hours. *)
Definition old_text : list Z := str "zzzzzzzzzz" ++ repeat 0 200.
Definition no_text : list Z := repeat 0 210.
Definition never_ends : list Z := repeat 122 210.
Theorem C95_time_to_string_refuted : exists t dest dest' aborts after after' s s',
  length dest = length dest' /\ length aborts = length dest /\
  rust_call here "TIME_TO_STRING_EXT" [VZ t; VS dest] = Ok (VZ 0, [VZ t; VS after]) /\
  rust_call here "TIME_TO_STRING_EXT" [VZ t; VS dest'] = Ok (VZ 0, [VZ t; VS after']) /\
  rust_call here "TIME_TO_STRING_EXT" [VZ t; VS aborts] = Panic /\
  reads after s /\ reads after' s' /\ s = str "1dzzzzzzzz2h" /\ s' = str "1d2h".
Proof.
  exists (26 * 3600 * 1000000000), old_text, no_text, never_ends,
    (str "1dzzzzzzzz2h" ++ repeat 0 198), (str "1d2h" ++ repeat 0 206), (str "1dzzzzzzzz2h"), (str "1d2h").
  split; [reflexivity|]. split; [reflexivity|]. split; [vm_compute; reflexivity|]. split; [vm_compute; reflexivity|].
  split; [vm_compute; reflexivity|].
  split; [split; [vm_compute; repeat constructor; discriminate|now exists (repeat 0 197)]|].
  split; [split; [vm_compute; repeat constructor; discriminate|now exists (repeat 0 205)]|].
  split; reflexivity.
Qed.
Print Assumptions C95_time_to_string_refuted.

(** Different memory, equal texts. *)
Definition clean (s : string) : value := VS (str s ++ repeat 0 10).
Definition dirty (s : string) : value := VS (str s ++ [0; 255; 65; 66; 0; 7]).
Example C95_example :
  same_args [Ptr false U8; I32; I32] [clean "hello"; VZ 2; VZ 2] [dirty "hello"; VZ 2; VZ 2] /\
  Forall2 (same (Ptr false U8)) [clean "abc"; clean "abd"] [dirty "abc"; dirty "abd"] /\
  rust_call here "MID_EXT__STRING" [clean "hello"; VZ 2; VZ 2; VS [9; 9; 9; 9; 9]] =
    Ok (VZ 0, [clean "hello"; VZ 2; VZ 2; VS [101; 108; 0; 9; 9]]) /\
  rust_call here "MID_EXT__STRING" [dirty "hello"; VZ 2; VZ 2; VS [9; 9; 9; 9; 9]] =
    Ok (VZ 0, [dirty "hello"; VZ 2; VZ 2; VS [101; 108; 0; 9; 9]]) /\
  rust_call here "LT__STRING" [dirty "abc"; dirty "abd"] = Ok (VZ 1, [dirty "abc"; dirty "abd"]).
Proof.
  split; [|split; [|vm_compute; repeat split]].
  - split; [|split; [split; [reflexivity|vm_compute; split; discriminate]|split; [split; [reflexivity|vm_compute; split; discriminate]|exact I]]].
    exists (str "hello" ++ repeat 0 10), (str "hello" ++ [0; 255; 65; 66; 0; 7]), (str "hello").
    split; [reflexivity|]. split; [reflexivity|]. split; (split; [vm_compute; repeat constructor; discriminate|]).
    + now exists (repeat 0 9).
    + now exists [255; 65; 66; 0; 7].
  - repeat constructor.
    + exists (str "abc" ++ repeat 0 10), (str "abc" ++ [0; 255; 65; 66; 0; 7]), (str "abc").
      split; [reflexivity|]. split; [reflexivity|]. split; (split; [vm_compute; repeat constructor; discriminate|]).
      * now exists (repeat 0 9).
      * now exists [255; 65; 66; 0; 7].
    + exists (str "abd" ++ repeat 0 10), (str "abd" ++ [0; 255; 65; 66; 0; 7]), (str "abd").
      split; [reflexivity|]. split; [reflexivity|]. split; (split; [vm_compute; repeat constructor; discriminate|]).
      * now exists (repeat 0 9).
      * now exists [255; 65; 66; 0; 7].
Qed.
