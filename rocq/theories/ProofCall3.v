(** Proofs about calls of conversions between texts, numbers and times in a program. *)
From Coq Require Import String Ascii ZArith Lia List Bool SpecFloat.
From Verif Require Import Base ModelFloat ModelTimeNum ModelText ModelString ModelExtra ModelST ModelWrap ModelLink ModelLib
  ModelApi SpecScalar SpecText SpecLink SpecLib SpecName SpecWrap SpecCall ProofBase ProofLib ProofName ProofWrap ProofCall ProofCall2.
Import ListNotations.
Open Scope list_scope.
Open Scope string_scope.
Open Scope Z_scope.

Lemma unary_call : forall P f m e t u t' x p b a, find_decl f = Some (Decl m e [] (Ty u) [(x, p, Ty t')] b) ->
  p = Input \/ p = InputRef -> rty_eqb (repr t) (repr t') = true ->
  call P f [(t, a)] = let! '(v, _) := api P f [a] in Ok (u, v).
Proof.
  intros P f m e t u t' x p b a F Hp R. unfold call.
  assert (Y : coerce_all (formals (d_params (Decl m e [] (Ty u) [(x, p, Ty t')] b)) (map fst [(t, a)])) [(t, a)] = Ok [a]).
  { unfold coerce_all. destruct Hp as [-> | ->]; cbn [d_params formals map fst tl]; unfold coerce; now rewrite R. }
  rewrite (dispatch_eq (api P) f [(t, a)] _ f [a] u F); [|unfold resolve; now rewrite F|exact Y|now rewrite F].
  destruct (api P f [a]) as [[v o]| |]; reflexivity.
Qed.
Ltac by_unary := erewrite unary_call; [|vm_compute; reflexivity|first [left; reflexivity|right; reflexivity]|reflexivity].

(** Texts of integers and times: name, type, model. *)
Definition texts : list (string * sty * (Z -> outcome (list Z))) :=
  [("BYTE", S_BYTE, BYTE_TO_STRING); ("LWORD", S_LWORD, LWORD_TO_STRING); ("LINT", S_LINT, LINT_TO_STRING);
   ("DWORD", S_DWORD, DWORD_TO_STRING); ("DINT", S_DINT, DINT_TO_STRING);
   ("TIME", S_TIME, TIME_TO_STRING); ("LTIME", S_LTIME, TIME_TO_STRING);
   ("DATE", S_DATE, DATE_TO_STRING); ("LDATE", S_LDATE, DATE_TO_STRING);
   ("TOD", S_TOD, TOD_TO_STRING); ("LTOD", S_LTOD, TOD_TO_STRING);
   ("DT", S_DT, DT_TO_STRING); ("LDT", S_LDT, DT_TO_STRING)].
Lemma dword_coerce : forall x, of_type S_DWORD x -> coerce S_DWORD S_LWORD (VZ x) = Ok (VZ x).
Proof.
  intros x H. unfold of_type in H. cbn in H. unfold coerce. cbn -[wrap]. do 2 f_equal.
  apply wrap_id; [reflexivity|]. unfold in_ity. cbn. lia.
Qed.
Lemma dint_coerce : forall x, of_type S_DINT x -> coerce S_DINT S_LINT (VZ x) = Ok (VZ x).
Proof.
  intros x H. unfold of_type in H. cbn in H. unfold coerce. cbn -[wrap]. do 2 f_equal.
  apply wrap_id; [reflexivity|]. unfold in_ity. cbn. lia.
Qed.
Lemma text_api : forall P X t g x, List.In (X, t, g) texts -> of_type t x ->
  api P (X ++ "_TO_STRING") [VZ x] = obind (g x) (fun d => Ok (VS d, [VZ x])) /\
  api P (X ++ "_TO_WSTRING") [VZ x] = obind (g x) (fun d => obind (STRING_TO_WSTRING d) (fun e => Ok (VS e, [VZ x]))).
Proof.
  intros P X t g x I T. unfold api.
  assert (D : forall f h t' o, List.In (f, h, t') direct ->
    rust_call P (h ++ "_TO_STRING_EXT") [VZ x; VS ModelWrap.result] = obind o (fun d => Ok (VZ 0, [VZ x; VS d])) ->
    invoke P 5 (f ++ "_TO_STRING") [VZ x] = obind o (fun d => Ok (VS d, [VZ x])) /\
    invoke P 5 (f ++ "_TO_WSTRING") [VZ x] = obind o (fun d => obind (STRING_TO_WSTRING d) (fun e => Ok (VS e, [VZ x])))).
  { intros f h t' o Hin E. split; [exact (direct_text P 3 f h t' _ o Hin E)|exact (wide_text P 2 f h t' _ o Hin E)]. }
  assert (W : forall f h t' o, List.In (f, h, t') widening -> coerce t' (wider t') (VZ x) = Ok (VZ x) ->
    rust_call P (h ++ "_TO_STRING_EXT") [VZ x; VS ModelWrap.result] = obind o (fun d => Ok (VZ 0, [VZ x; VS d])) ->
    invoke P 5 (f ++ "_TO_STRING") [VZ x] = obind o (fun d => Ok (VS d, [VZ x])) /\
    invoke P 5 (f ++ "_TO_WSTRING") [VZ x] = obind o (fun d => obind (STRING_TO_WSTRING d) (fun e => Ok (VS e, [VZ x])))).
  { intros f h t' o Hin C E. split; [exact (widening_text P 3 f h t' _ _ o Hin C E)|exact (widening_wide P 1 f h t' _ _ o Hin C E)]. }
  destruct I as [I|I]; [injection I as <- <- <-; apply (D _ "BYTE" S_BYTE); [cbn; tauto|name_of; reflexivity]|].
  destruct I as [I|I]; [injection I as <- <- <-; apply (D _ "LWORD" S_LWORD); [cbn; tauto|name_of; reflexivity]|].
  destruct I as [I|I]; [injection I as <- <- <-; apply (D _ "LINT" S_LINT); [cbn; tauto|name_of; reflexivity]|].
  destruct I as [I|I]; [injection I as <- <- <-; apply (W _ "LWORD" S_DWORD); [cbn; tauto|now apply dword_coerce|name_of; reflexivity]|].
  destruct I as [I|I]; [injection I as <- <- <-; apply (W _ "LINT" S_DINT); [cbn; tauto|now apply dint_coerce|name_of; reflexivity]|].
  destruct I as [I|I]; [injection I as <- <- <-; apply (D _ "TIME" S_TIME); [cbn; tauto|name_of; reflexivity]|].
  destruct I as [I|I]; [injection I as <- <- <-; apply (D _ "TIME" S_TIME); [cbn; tauto|name_of; reflexivity]|].
  destruct I as [I|I]; [injection I as <- <- <-; apply (D _ "DATE" S_DATE); [cbn; tauto|name_of; reflexivity]|].
  destruct I as [I|I]; [injection I as <- <- <-; apply (D _ "DATE" S_DATE); [cbn; tauto|name_of; reflexivity]|].
  destruct I as [I|I]; [injection I as <- <- <-; apply (D _ "TOD" S_TOD); [cbn; tauto|name_of; reflexivity]|].
  destruct I as [I|I]; [injection I as <- <- <-; apply (D _ "TOD" S_TOD); [cbn; tauto|name_of; reflexivity]|].
  destruct I as [I|I]; [injection I as <- <- <-; apply (D _ "DT" S_DT); [cbn; tauto|name_of; reflexivity]|].
  destruct I as [I|I]; [injection I as <- <- <-; apply (D _ "DT" S_DT); [cbn; tauto|name_of; reflexivity]|].
  destruct I.
Qed.
Lemma text_call : forall P X t g x, List.In (X, t, g) texts -> of_type t x ->
  call P (X ++ "_TO_STRING") [(t, VZ x)] = string_value STRING (g x) /\
  call P (X ++ "_TO_WSTRING") [(t, VZ x)] = string_value WSTRING (to_wstring (g x)).
Proof.
  intros P X t g x I T. destruct (text_api P X t g x I T) as [A B].
  assert (C : call P (X ++ "_TO_STRING") [(t, VZ x)] = (let! '(v, _) := api P (X ++ "_TO_STRING") [VZ x] in Ok (S_STRING, v)) /\
    call P (X ++ "_TO_WSTRING") [(t, VZ x)] = (let! '(v, _) := api P (X ++ "_TO_WSTRING") [VZ x] in Ok (S_WSTRING, v))).
  { clear A B T. split; repeat (destruct I as [I|I]; [injection I as <- <- <-; by_unary; reflexivity|]); destruct I. }
  destruct C as [-> ->]. rewrite A, B. split; [destruct (g x); reflexivity|].
  unfold to_wstring, STRING_TO_WSTRING. change ModelWrap.result with st_string.
  destruct (g x) as [d| |]; try reflexivity. cbn [obind]. destruct (STRING_TO_WSTRING_EXT d st_string); reflexivity.
Qed.

(** Texts of floating-point numbers. *)
Lemma real_coerce : forall x, coerce S_REAL S_LREAL (VF x) = Ok (VF (fl_convert F64 x)).
Proof. reflexivity. Qed.
Lemma lreal_call : forall P x,
  call P "LREAL_TO_STRING" [(S_LREAL, VF x)] = string_value STRING (LREAL_TO_STRING x) /\
  call P "LREAL_TO_WSTRING" [(S_LREAL, VF x)] = string_value WSTRING (LREAL_TO_WSTRING x).
Proof.
  intros P x.
  assert (E : rust_call P ("LREAL" ++ "_TO_STRING_EXT") [VF x; VS ModelWrap.result] =
    obind (LREAL_TO_STRING x) (fun d => Ok (VZ 0, [VF x; VS d]))) by (name_of; reflexivity).
  pose proof (direct_text P 3 "LREAL" "LREAL" S_LREAL _ _ ltac:(cbn; tauto) E) as A.
  pose proof (wide_text P 2 "LREAL" "LREAL" S_LREAL _ _ ltac:(cbn; tauto) E) as B.
  unfold LREAL_TO_WSTRING, to_wstring. split; by_unary.
  - change (api P "LREAL_TO_STRING" [VF x]) with (invoke P 5 ("LREAL" ++ "_TO_STRING") [VF x]). rewrite A.
    destruct (LREAL_TO_STRING x); reflexivity.
  - change (api P "LREAL_TO_WSTRING" [VF x]) with (invoke P 5 ("LREAL" ++ "_TO_WSTRING") [VF x]). rewrite B.
    unfold STRING_TO_WSTRING. change ModelWrap.result with st_string.
    destruct (LREAL_TO_STRING x) as [d| |]; try reflexivity. cbn [obind]. destruct (STRING_TO_WSTRING_EXT d st_string); reflexivity.
Qed.
Lemma real_call : forall P x,
  call P "REAL_TO_STRING" [(S_REAL, VF x)] = string_value STRING (REAL_TO_STRING x) /\
  call P "REAL_TO_WSTRING" [(S_REAL, VF x)] = string_value WSTRING (REAL_TO_WSTRING x).
Proof.
  intros P x.
  assert (E : rust_call P ("LREAL" ++ "_TO_STRING_EXT") [VF (fl_convert F64 x); VS ModelWrap.result] =
    obind (REAL_TO_STRING x) (fun d => Ok (VZ 0, [VF (fl_convert F64 x); VS d]))) by (name_of; reflexivity).
  pose proof (widening_text P 3 "REAL" "LREAL" S_REAL _ _ _ ltac:(cbn; tauto) (real_coerce x) E) as A.
  pose proof (widening_wide P 1 "REAL" "LREAL" S_REAL _ _ _ ltac:(cbn; tauto) (real_coerce x) E) as B.
  unfold REAL_TO_WSTRING, to_wstring. split; by_unary.
  - change (api P "REAL_TO_STRING" [VF x]) with (invoke P 5 ("REAL" ++ "_TO_STRING") [VF x]). rewrite A.
    destruct (REAL_TO_STRING x); reflexivity.
  - change (api P "REAL_TO_WSTRING" [VF x]) with (invoke P 5 ("REAL" ++ "_TO_WSTRING") [VF x]). rewrite B.
    unfold STRING_TO_WSTRING. change ModelWrap.result with st_string.
    destruct (REAL_TO_STRING x) as [d| |]; try reflexivity. cbn [obind]. destruct (STRING_TO_WSTRING_EXT d st_string); reflexivity.
Qed.

(** Numbers from texts. *)
Lemma parse_int_call : forall P src,
  call P "STRING_TO_LINT" [(S_STRING, VS src)] = omap (fun z => (S_LINT, VZ z)) (STRING_TO_LINT src) /\
  call P "STRING_TO_DINT" [(S_STRING, VS src)] = omap (fun z => (S_DINT, VZ z)) (STRING_TO_DINT src) /\
  call P "WSTRING_TO_LINT" [(S_WSTRING, VS src)] = omap (fun z => (S_LINT, VZ z)) (WSTRING_TO_LINT src) /\
  call P "WSTRING_TO_DINT" [(S_WSTRING, VS src)] = omap (fun z => (S_DINT, VZ z)) (WSTRING_TO_DINT src).
Proof.
  intros P src. split; [|split; [|split]]; by_unary.
  - change (api P "STRING_TO_LINT" [VS src]) with (rust_call P "STRING_TO_LINT" [VS src]). name_of. cbv [s_z].
    destruct (STRING_TO_LINT src); reflexivity.
  - change (api P "STRING_TO_DINT" [VS src]) with (rust_call P "STRING_TO_DINT" [VS src]). name_of. cbv [s_z].
    destruct (STRING_TO_DINT src); reflexivity.
  - change (api P "WSTRING_TO_LINT" [VS src]) with (let! r := WSTRING_TO_LINT src in Ok (VZ r, [VS src])).
    destruct (WSTRING_TO_LINT src); reflexivity.
  - change (api P "WSTRING_TO_DINT" [VS src]) with (let! r := WSTRING_TO_DINT src in Ok (VZ r, [VS src])).
    destruct (WSTRING_TO_DINT src); reflexivity.
Qed.
Lemma parse_float_call : forall P src,
  call P "STRING_TO_LREAL" [(S_STRING, VS src)] = omap (fun z => (S_LREAL, VF z)) (STRING_TO_LREAL src) /\
  call P "STRING_TO_REAL" [(S_STRING, VS src)] = omap (fun z => (S_REAL, VF z)) (STRING_TO_REAL src) /\
  call P "WSTRING_TO_LREAL" [(S_WSTRING, VS src)] = omap (fun z => (S_LREAL, VF z)) (WSTRING_TO_LREAL src) /\
  call P "WSTRING_TO_REAL" [(S_WSTRING, VS src)] = omap (fun z => (S_REAL, VF z)) (WSTRING_TO_REAL src).
Proof.
  intros P src. split; [|split; [|split]]; by_unary.
  - change (api P "STRING_TO_LREAL" [VS src]) with (rust_call P "STRING_TO_LREAL" [VS src]). name_of. cbv [s_f].
    destruct (STRING_TO_LREAL src); reflexivity.
  - change (api P "STRING_TO_REAL" [VS src]) with (rust_call P "STRING_TO_REAL" [VS src]). name_of. cbv [s_f].
    destruct (STRING_TO_REAL src); reflexivity.
  - change (api P "WSTRING_TO_LREAL" [VS src]) with (let! r := WSTRING_TO_LREAL src in Ok (VF r, [VS src])).
    destruct (WSTRING_TO_LREAL src); reflexivity.
  - change (api P "WSTRING_TO_REAL" [VS src]) with (let! r := WSTRING_TO_REAL src in Ok (VF r, [VS src])).
    destruct (WSTRING_TO_REAL src); reflexivity.
Qed.
