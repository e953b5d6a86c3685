(** C96: the string functions on any memory, whether or not it holds well-formed text; see
    SpecAny.v for [has_items], [not_utf8], [delivers_items]. *)
From Coq Require Import ZArith List Bool Lia.
From Verif Require Import Base ModelText ModelString SpecText SpecAny ProofText ProofString ProofString2 ProofString3
  ProofAny PropertiesString.
Import ListNotations.
Open Scope Z_scope.

(** Every memory is of one of these kinds: characters (the theorems below), bytes that are not
    UTF-8 (the functions abort), or no NUL (the functions read beyond the memory). *)
Theorem C96_memory_cases : forall k src, Forall (unit_ok k) src ->
  (exists items, has_items k src items) \/ (k = STRING /\ not_utf8 src) \/ Forall (fun u => u <> 0) src.
Proof. exact every_string. Qed.
(** Characters either form a text or there is a first unpaired surrogate: the two cases of
    [delivers_items]. *)
Theorem C96_characters_cases : forall items : list (option Z),
  (exists t, items = map Some t) \/ (exists t rest, items = map Some t ++ None :: rest).
Proof. exact items_split. Qed.
(** An unpaired surrogate counts as one character and aborts the call only when it is among the
    characters to be written. *)
Theorem C96_left : forall k src items L dest, has_items k src items ->
  (0 <= L <= ilen items -> delivers_items k (firstn (Z.to_nat L) items) dest (LEFT_EXT k src L dest)) /\
  (~ 0 <= L <= ilen items -> LEFT_EXT k src L dest = Panic).
Proof. exact any_left. Qed.
Theorem C96_right : forall k src items L dest, has_items k src items ->
  (0 <= L <= ilen items ->
     delivers_items k (skipn (length items - Z.to_nat L) items) dest (RIGHT_EXT k src L dest)) /\
  (~ 0 <= L <= ilen items -> RIGHT_EXT k src L dest = Panic).
Proof. exact any_right. Qed.
Theorem C96_mid : forall p k src items L P dest, has_items k src items -> in_ity i32 L -> in_ity i32 P ->
  ilen items < 2 ^ 63 ->
  (0 <= L -> 1 <= P <= ilen items -> P - 1 + L <= ilen items ->
     delivers_items k (firstn (Z.to_nat L) (skipn (Z.to_nat (P - 1)) items)) dest (MID_EXT p k src L P dest)) /\
  (~ (0 <= L /\ 1 <= P <= ilen items /\ P - 1 + L <= ilen items) -> MID_EXT p k src L P dest = Panic).
Proof. exact any_mid. Qed.
Theorem C96_insert : forall k base ins s t P dest, has_items k base s -> has_items k ins t ->
  ilen s < 2 ^ 31 ->
  (0 <= P <= ilen s ->
     delivers_items k (firstn (Z.to_nat P) s ++ t ++ skipn (Z.to_nat P) s) dest (INSERT_EXT k base ins P dest)) /\
  (~ 0 <= P <= ilen s -> INSERT_EXT k base ins P dest = Panic).
Proof. exact any_insert. Qed.
Theorem C96_delete : forall p k src s L P dest, has_items k src s -> in_ity i32 L -> in_ity i32 P ->
  ilen s < 2 ^ 31 -> 0 <= L ->
  (1 <= P <= ilen s -> P - 1 + L <= ilen s ->
     delivers_items k (firstn (Z.to_nat (P - 1)) s ++ skipn (Z.to_nat (P - 1 + L)) s) dest
       (DELETE_EXT p k src L P dest)) /\
  (~ (1 <= P <= ilen s /\ P - 1 + L <= ilen s) -> DELETE_EXT p k src L P dest = Panic).
Proof. exact any_delete. Qed.
Theorem C96_replace : forall p k base rep s t L P dest, has_items k base s -> has_items k rep t ->
  in_ity i32 L -> in_ity i32 P -> ilen s < 2 ^ 31 -> 0 <= L ->
  (1 <= P <= ilen s -> P - 1 + L <= ilen s ->
     delivers_items k (firstn (Z.to_nat (P - 1)) s ++ t ++ skipn (Z.to_nat (P - 1 + L)) s) dest
       (REPLACE_EXT p k base rep L P dest)) /\
  (~ (1 <= P <= ilen s /\ P - 1 + L <= ilen s) -> REPLACE_EXT p k base rep L P dest = Panic).
Proof. exact any_replace. Qed.
(** CONCAT: the first unpaired surrogate aborts, unless the text before it overran the destination. *)
Theorem C96_concat_surrogate : forall k ts pre src t rest extra argc dest, Forall2 (holds k) pre ts ->
  has_items k src (map Some t ++ None :: rest) -> Z.of_nat (length pre) < argc ->
  let o := CONCAT k (Some dest) argc (Some (pre ++ src :: extra)) in
  (fits k (concat ts ++ t) dest -> o = Panic) /\
  ((length dest < length (units k (concat ts ++ t)))%nat -> o = Ub) /\
  (o = Panic \/ o = Ub).
Proof. exact concat_items. Qed.
Theorem C96_concat_not_utf8 : forall ts pre src extra argc dest, Forall2 (holds STRING) pre ts -> not_utf8 src ->
  Z.of_nat (length pre) < argc ->
  (ts = [] \/ fits STRING (concat ts) dest ->
     CONCAT STRING (Some dest) argc (Some (pre ++ src :: extra)) = Panic) /\
  (ts <> [] -> ~ fits STRING (concat ts) dest ->
     CONCAT STRING (Some dest) argc (Some (pre ++ src :: extra)) = Ub).
Proof. exact concat_not_utf8. Qed.
(** FIND searches units: what precedes the match must be UTF-8 (the match may begin in the middle of
    a character, and then the call aborts). *)
Theorem C96_find_bytes : forall p src1 src2 h n i, reads src1 h -> reads src2 n -> n <> [] -> first_at n h i ->
  (forall t, Forall is_scalar t -> firstn i h = units STRING t -> slen t < 2 ^ 31 - 1 ->
     FIND p STRING src1 src2 = Ok (slen t + 1)) /\
  ((forall t, Forall is_scalar t -> firstn i h <> units STRING t) -> FIND p STRING src1 src2 = Panic).
Proof. exact find_bytes. Qed.
Theorem C96_find_words : forall p src1 src2 h n i items, reads src1 h -> reads src2 n -> n <> [] -> first_at n h i ->
  utf16_parse (firstn i h) items -> ilen items < 2 ^ 31 - 1 ->
  FIND p WSTRING src1 src2 = Ok (ilen items + 1).
Proof. exact find_words. Qed.
Theorem C96_find_absent : forall p k src1 src2 h n, reads src1 h -> reads src2 n ->
  (n = [] \/ (forall i, ~ occurs_at n h i) -> FIND p k src1 src2 = Ok 0).
Proof. exact find_none. Qed.
(** Bytes that are not UTF-8 abort every call, whatever the other arguments. *)
Theorem C96_bytes_not_utf8 : forall p src other L P dest, not_utf8 src ->
  LEN STRING src = Panic /\ LEFT_EXT STRING src L dest = Panic /\ RIGHT_EXT STRING src L dest = Panic /\
  MID_EXT p STRING src L P dest = Panic /\ INSERT_EXT STRING src other P dest = Panic /\
  DELETE_EXT p STRING src L P dest = Panic /\ REPLACE_EXT p STRING src other L P dest = Panic /\
  STRING_TO_WSTRING_EXT src dest = Panic.
Proof. exact first_not_utf8. Qed.
Theorem C96_second_not_utf8 : forall p base s other L P dest, holds STRING base s -> not_utf8 other ->
  INSERT_EXT STRING base other P dest = Panic /\ REPLACE_EXT p STRING base other L P dest = Panic.
Proof. exact second_not_utf8. Qed.
(** Without a NUL the memory is read beyond its end. *)
Theorem C96_unterminated : forall p k src other L P dest, Forall (fun u => u <> 0) src ->
  LEN k src = Ub /\
  (0 <= L -> LEFT_EXT k src L dest = Ub /\ RIGHT_EXT k src L dest = Ub /\ MID_EXT p k src L P dest = Ub) /\
  INSERT_EXT k src other P dest = Ub /\ DELETE_EXT p k src L P dest = Ub /\
  REPLACE_EXT p k src other L P dest = Ub /\
  STRING_TO_WSTRING_EXT src dest = Ub /\ WSTRING_TO_STRING_EXT src dest = Ub /\
  FIND p k src other = Ub.
Proof. exact first_unterminated. Qed.

(** "A", an unpaired high surrogate, "B". *)
Definition ex_odd : list Z := [0x41; 0xD800; 0x42; 0; 7].
Lemma ex_odd_items : has_items WSTRING ex_odd [Some 0x41; None; Some 0x42].
Proof.
  exists [0x41; 0xD800; 0x42]. split; [split; [repeat constructor; discriminate|now exists [7]]|].
  apply (SpecText.parse_char 0x41 [0xD800; 0x42]); [unfold is_scalar; lia|].
  apply parse_high; [unfold high_surrogate; lia| |].
  - intros v r E. injection E as <- <-. unfold low_surrogate. lia.
  - apply (SpecText.parse_char 0x42 []); [unfold is_scalar; lia|constructor].
Qed.
Lemma ex_odd_not_utf8 : not_utf8 [0x41; 0xC3; 0x28; 0].
Proof.
  exists [0x41; 0xC3; 0x28]. split; [split; [repeat constructor; discriminate|now exists []]|].
  intros t S E. assert (D := decode8_text t S). unfold units in E. rewrite <- E in D. discriminate.
Qed.
Example C96_ex1 : LEFT_EXT WSTRING ex_odd 1 buf = Ok (written WSTRING [0x41] buf) /\
  LEFT_EXT WSTRING ex_odd 2 buf = Panic /\ RIGHT_EXT WSTRING ex_odd 1 buf = Ok (written WSTRING [0x42] buf).
Proof.
  split; [|split].
  - apply (proj1 (C96_left WSTRING ex_odd _ 1 buf ex_odd_items) ltac:(cbn; lia) : delivers_items _ [Some 0x41] _ _);
      [reflexivity|room].
  - refine (proj1 (proj2 (proj1 (C96_left WSTRING ex_odd _ 2 buf ex_odd_items) ltac:(cbn; lia)
      : delivers_items _ [Some 0x41; None] _ _) [0x41] [] eq_refl) _). vm_compute. lia.
  - apply (proj1 (C96_right WSTRING ex_odd _ 1 buf ex_odd_items) ltac:(cbn; lia) : delivers_items _ [Some 0x42] _ _);
      [reflexivity|room].
Qed.
(** Deleting the unpaired surrogate repairs the string. *)
Example C96_ex2 : DELETE_EXT Debug WSTRING ex_odd 1 2 buf = Ok (written WSTRING [0x41; 0x42] buf).
Proof.
  apply (proj1 (C96_delete Debug WSTRING ex_odd _ 1 2 buf ex_odd_items ltac:(i32_lit) ltac:(i32_lit)
    ltac:(reflexivity) ltac:(lia)) ltac:(cbn; lia) ltac:(cbn; lia) : delivers_items _ [Some 0x41; Some 0x42] _ _);
    [reflexivity|room].
Qed.
Example C96_ex3 : LEN STRING [0x41; 0xC3; 0x28; 0] = Panic.
Proof. exact (proj1 (C96_bytes_not_utf8 Debug _ [] 0 0 [] ex_odd_not_utf8)). Qed.
(** Searching the byte A9 in "é" (C3 A9) aborts. *)
Example C96_ex4 : FIND Release STRING [0xC3; 0xA9; 0] [0xA9; 0] = Panic.
Proof.
  apply (C96_find_bytes Release [0xC3; 0xA9; 0] [0xA9; 0] [0xC3; 0xA9] [0xA9] 1).
  - split; [repeat constructor; discriminate|now exists []].
  - split; [repeat constructor; discriminate|now exists []].
  - discriminate.
  - split; [now exists [0xC3], []|]. intros [|m] O; [|lia].
    destruct O as (a & b & E & L). destruct a; [discriminate|discriminate].
  - intros t S E. assert (D := decode8_text t S). cbn [firstn] in E. unfold units in E. rewrite <- E in D. discriminate.
Qed.
Example C96_ex5 : FIND Release WSTRING ex_odd [0x42; 0] = Ok 3.
Proof.
  apply (C96_find_words Release ex_odd [0x42; 0] [0x41; 0xD800; 0x42] [0x42] 2 [Some 0x41; None]).
  - split; [repeat constructor; discriminate|now exists [7]].
  - split; [repeat constructor; discriminate|now exists []].
  - discriminate.
  - split; [now exists [0x41; 0xD800], []|]. intros [|[|m]] O; [| |lia].
    + destruct O as (a & b & E & L). destruct a; [discriminate|discriminate].
    + destruct O as (a & b & E & L). destruct a as [|x [|y a]]; discriminate.
  - apply (SpecText.parse_char 0x41 [0xD800]); [unfold is_scalar; lia|].
    apply parse_high; [unfold high_surrogate; lia|intros v r E; discriminate|constructor].
  - reflexivity.
Qed.
Example C96_ex6 : CONCAT WSTRING (Some buf) 2 (Some [mem WSTRING ex_hello; ex_odd]) = Panic.
Proof.
  apply (C96_concat_surrogate WSTRING [ex_hello] [mem WSTRING ex_hello] ex_odd [0x41] [Some 0x42] [] 2 buf).
  - constructor; [apply ex_holds|constructor].
  - exact ex_odd_items.
  - cbn; lia.
  - room.
Qed.

Print Assumptions C96_memory_cases.
Print Assumptions C96_characters_cases.
Print Assumptions C96_left.
Print Assumptions C96_right.
Print Assumptions C96_mid.
Print Assumptions C96_insert.
Print Assumptions C96_delete.
Print Assumptions C96_replace.
Print Assumptions C96_concat_surrogate.
Print Assumptions C96_concat_not_utf8.
Print Assumptions C96_find_bytes.
Print Assumptions C96_find_words.
Print Assumptions C96_find_absent.
Print Assumptions C96_bytes_not_utf8.
Print Assumptions C96_second_not_utf8.
Print Assumptions C96_unterminated.
