(** C40-C54: the string functions.  [k] ranges over STRING (UTF-8 bytes) and WSTRING (UTF-16
    words); see SpecText.v for [holds], [fits], [written], [delivers]. *)
From Coq Require Import ZArith List Bool Lia.
From Verif Require Import Base ModelText ModelString SpecText ProofText ProofString ProofString2 ProofString3.
Import ListNotations.
Open Scope Z_scope.

(** Example texts: "héllo", a text with a character outside the BMP, "ll". *)
Definition ex_hello : list Z := [0x68; 0xE9; 0x6C; 0x6C; 0x6F].
Definition ex_smile : list Z := [0x1F600; 0x21; 0x6C].
Definition ex_ll : list Z := [0x6C; 0x6C].
Definition mem (k : kind) (t : list Z) : list Z := units k t ++ [0; 0x7F].
Definition buf : list Z := repeat 0x55 30.
Lemma ex_text : text ex_hello /\ text ex_smile /\ text ex_ll.
Proof. repeat split; repeat constructor; unfold is_scalar; lia. Qed.
Lemma ex_holds : forall k, holds k (mem k ex_hello) ex_hello /\ holds k (mem k ex_smile) ex_smile /\
  holds k (mem k ex_ll) ex_ll.
Proof.
  intros k. destruct ex_text as (A & B & C).
  split; [|split]; (split; [assumption|]); exists [0x7F]; reflexivity.
Qed.

Ltac room := unfold fits; apply Nat.ltb_lt; vm_compute; reflexivity.
Ltac slen_lia := repeat match goal with |- context [slen ?t] =>
  let v := eval vm_compute in (slen t) in change (slen t) with v end; lia.

(** ** C40 *)
Theorem C40_len_counts_characters : forall k src t, holds k src t -> slen t < 2 ^ 31 ->
  LEN k src = Ok (slen t).
Proof. exact len_small. Qed.
(** Any terminated bytes: the number of characters if they are UTF-8, abort otherwise. *)
Theorem C40_len_any_bytes : forall src s, reads src s ->
  (forall t, Forall is_scalar t -> s = units STRING t -> LEN STRING src = Ok (wrap i32 (slen t))) /\
  ((forall t, Forall is_scalar t -> s <> units STRING t) -> LEN STRING src = Panic).
Proof. exact len_bytes. Qed.
(** Any terminated words: an unpaired surrogate counts as one character. *)
Theorem C40_len_any_words : forall src s items, reads src s -> utf16_parse s items ->
  LEN WSTRING src = Ok (wrap i32 (Z.of_nat (length items))).
Proof. exact len_words. Qed.
(** Memory without a NUL is read beyond its end. *)
Theorem C40_unterminated_read_out_of_bounds : forall k src, Forall (fun u => u <> 0) src -> LEN k src = Ub.
Proof. exact unterminated. Qed.
Example C40_ex1 : LEN STRING (mem STRING ex_hello) = Ok 5 /\ length (units STRING ex_hello) = 6%nat.
Proof. split; [|reflexivity]. apply (C40_len_counts_characters STRING _ ex_hello); [apply ex_holds|reflexivity]. Qed.
Example C40_ex2 : LEN WSTRING (mem WSTRING ex_smile) = Ok 3 /\ length (units WSTRING ex_smile) = 4%nat.
Proof. split; [|reflexivity]. apply (C40_len_counts_characters WSTRING _ ex_smile); [apply ex_holds|reflexivity]. Qed.
Example C40_ex3 : LEN STRING [0xC3; 0x28; 0] = Panic.
Proof.
  apply (C40_len_any_bytes [0xC3; 0x28; 0] [0xC3; 0x28]).
  - split; [repeat constructor; discriminate|]. now exists [].
  - intros t S E. assert (D := decode8_text t S). unfold units in E. rewrite <- E in D. discriminate.
Qed.
Example C40_ex4 : LEN WSTRING [0xD800; 0x41; 0] = Ok 2.
Proof.
  rewrite (C40_len_any_words [0xD800; 0x41; 0] [0xD800; 0x41] [None; Some 0x41]); [reflexivity|..].
  - split; [repeat constructor; discriminate|]. now exists [].
  - apply parse_high; [unfold high_surrogate; lia| |].
    + intros v r E. injection E as <- <-. unfold low_surrogate. lia.
    + apply (SpecText.parse_char 0x41 []); [unfold is_scalar; lia|constructor].
Qed.
Example C40_ex5 : LEN STRING [0x41; 0x42] = Ub.
Proof. apply C40_unterminated_read_out_of_bounds. repeat constructor; discriminate. Qed.

(** ** C41 *)
Theorem C41_left : forall k src t L dest, holds k src t ->
  (0 <= L <= slen t -> delivers k (firstn (Z.to_nat L) t) dest (LEFT_EXT k src L dest)) /\
  (~ 0 <= L <= slen t -> LEFT_EXT k src L dest = Panic).
Proof. exact left_spec. Qed.
Theorem C41_right : forall k src t L dest, holds k src t ->
  (0 <= L <= slen t -> delivers k (skipn (length t - Z.to_nat L) t) dest (RIGHT_EXT k src L dest)) /\
  (~ 0 <= L <= slen t -> RIGHT_EXT k src L dest = Panic).
Proof. exact right_spec. Qed.
(** The full statement would allow every [1 <= P] with [P - 1 + L <= slen t]; [P = slen t + 1]
    (with [L = 0]) aborts. *)
Theorem C41_mid_partial : forall p k src t L P dest, holds k src t -> in_ity i32 L -> in_ity i32 P ->
  slen t < 2 ^ 63 ->
  (0 <= L -> 1 <= P <= slen t -> P - 1 + L <= slen t ->
     delivers k (firstn (Z.to_nat L) (skipn (Z.to_nat (P - 1)) t)) dest (MID_EXT p k src L P dest)) /\
  (~ (0 <= L /\ 1 <= P <= slen t /\ P - 1 + L <= slen t) -> MID_EXT p k src L P dest = Panic).
Proof. exact mid_spec. Qed.
Theorem C41_mid_after_the_end_refuted : exists p k src t L P dest, holds k src t /\
  0 <= L /\ 1 <= P /\ P - 1 + L <= slen t /\ fits k t dest /\ MID_EXT p k src L P dest = Panic.
Proof.
  exists Debug, STRING, (mem STRING ex_hello), ex_hello, 0, 6, buf.
  split; [apply ex_holds|]. split; [lia|]. split; [lia|]. split; [slen_lia|].
  split; [room|]. vm_compute. reflexivity.
Qed.
Example C41_ex1 : exists d, LEFT_EXT STRING (mem STRING ex_hello) 2 buf = Ok d /\ firstn 5 d = [0x68; 0xC3; 0xA9; 0; 0x55].
Proof.
  eexists. split; [|shelve]. apply (C41_left STRING (mem STRING ex_hello) ex_hello 2 buf (proj1 (ex_holds _))).
  - slen_lia.
  - room.
  Unshelve. reflexivity.
Qed.
Example C41_ex2 : RIGHT_EXT WSTRING (mem WSTRING ex_smile) 4 buf = Panic.
Proof. apply (C41_right WSTRING _ ex_smile); [apply ex_holds|]. slen_lia. Qed.
Example C41_ex3 : exists d, MID_EXT Release WSTRING (mem WSTRING ex_smile) 2 2 buf = Ok d /\ firstn 4 d = [0x21; 0x6C; 0; 0x55].
Proof.
  eexists. split; [|shelve].
  apply (C41_mid_partial Release WSTRING _ ex_smile 2 2 buf (proj1 (proj2 (ex_holds WSTRING)))).
  - vm_compute; split; discriminate.
  - vm_compute; split; discriminate.
  - reflexivity.
  - lia.
  - slen_lia.
  - slen_lia.
  - room.
  Unshelve. reflexivity.
Qed.
Example C41_ex4 : MID_EXT Release STRING (mem STRING ex_hello) 1 (-2147483648) buf = Panic /\
  MID_EXT Debug STRING (mem STRING ex_hello) 2147483647 2 buf = Panic.
Proof.
  split; (eapply C41_mid_partial; [apply ex_holds|vm_compute; split; discriminate|
    vm_compute; split; discriminate|reflexivity|slen_lia]).
Qed.

(** ** C42 *)
Theorem C42_left_right_concat : forall k src t n d1 d2 dest, holds k src t -> 0 <= n <= slen t ->
  fits k t d1 -> fits k t d2 -> fits k t dest ->
  exists l r, LEFT_EXT k src n d1 = Ok l /\ RIGHT_EXT k src (slen t - n) d2 = Ok r /\
    CONCAT k (Some dest) 2 (Some [l; r]) = Ok (written k t dest).
Proof. exact decompose. Qed.
(** Full statement: also for the empty text, where MID aborts. *)
Theorem C42_mid_is_left_partial : forall p k src t L dest, holds k src t -> slen t < 2 ^ 31 -> t <> [] ->
  0 <= L <= slen t -> MID_EXT p k src L 1 dest = LEFT_EXT k src L dest.
Proof. exact mid_is_left. Qed.
(** Full statement: also for [L = 0], where MID aborts. *)
Theorem C42_mid_is_right_partial : forall p k src t L dest, holds k src t -> slen t < 2 ^ 31 ->
  1 <= L <= slen t -> MID_EXT p k src L (slen t - L + 1) dest = RIGHT_EXT k src L dest.
Proof. exact mid_is_right. Qed.
Theorem C42_len_left : forall k src t n dest, holds k src t -> 0 <= n <= slen t -> slen t < 2 ^ 31 ->
  fits k t dest -> exists l, LEFT_EXT k src n dest = Ok l /\ LEN k l = Ok n.
Proof. exact len_left. Qed.
Theorem C42_mid_is_left_refuted : exists p k src dest, holds k src [] /\
  MID_EXT p k src 0 1 dest <> LEFT_EXT k src 0 dest.
Proof.
  exists Release, WSTRING, (mem WSTRING []), buf. split; [split; [constructor|exists [0x7F]; reflexivity]|].
  vm_compute. discriminate.
Qed.
Theorem C42_mid_is_right_refuted : exists p k src t dest, holds k src t /\
  MID_EXT p k src 0 (slen t - 0 + 1) dest <> RIGHT_EXT k src 0 dest.
Proof.
  exists Release, WSTRING, (mem WSTRING ex_smile), ex_smile, buf. split; [apply ex_holds|].
  vm_compute. discriminate.
Qed.
Example C42_ex1 : exists l r, LEFT_EXT STRING (mem STRING ex_hello) 2 buf = Ok l /\
  RIGHT_EXT STRING (mem STRING ex_hello) 3 buf = Ok r /\
  CONCAT STRING (Some buf) 2 (Some [l; r]) = Ok (written STRING ex_hello buf).
Proof.
  apply (C42_left_right_concat STRING (mem STRING ex_hello) ex_hello 2 buf buf buf (proj1 (ex_holds _)));
    [slen_lia|room..].
Qed.
Example C42_ex2 : MID_EXT Debug STRING (mem STRING ex_hello) 3 1 buf = LEFT_EXT STRING (mem STRING ex_hello) 3 buf /\
  MID_EXT Debug STRING (mem STRING ex_hello) 3 3 buf = RIGHT_EXT STRING (mem STRING ex_hello) 3 buf.
Proof.
  split.
  - apply (C42_mid_is_left_partial Debug STRING _ ex_hello); [apply ex_holds|reflexivity|discriminate|slen_lia].
  - apply (C42_mid_is_right_partial Debug STRING _ ex_hello 3); [apply ex_holds|reflexivity|slen_lia].
Qed.
Example C42_ex3 : exists l, LEFT_EXT WSTRING (mem WSTRING ex_smile) 1 buf = Ok l /\ LEN WSTRING l = Ok 1.
Proof.
  apply (C42_len_left WSTRING _ ex_smile); [apply ex_holds|slen_lia|reflexivity|room].
Qed.

(** ** C43 *)
Theorem C43_insert : forall k base ins s t P dest, holds k base s -> holds k ins t -> slen s < 2 ^ 31 ->
  (0 <= P <= slen s ->
     delivers k (firstn (Z.to_nat P) s ++ t ++ skipn (Z.to_nat P) s) dest (INSERT_EXT k base ins P dest)) /\
  (~ 0 <= P <= slen s -> INSERT_EXT k base ins P dest = Panic).
Proof. exact insert_spec. Qed.
Theorem C43_delete : forall p k src t L P dest, holds k src t -> in_ity i32 L -> in_ity i32 P ->
  slen t < 2 ^ 31 -> 0 <= L ->
  (1 <= P <= slen t -> P - 1 + L <= slen t ->
     delivers k (firstn (Z.to_nat (P - 1)) t ++ skipn (Z.to_nat (P - 1 + L)) t) dest
              (DELETE_EXT p k src L P dest)) /\
  (~ (1 <= P <= slen t /\ P - 1 + L <= slen t) -> DELETE_EXT p k src L P dest = Panic).
Proof. exact delete_spec. Qed.
Theorem C43_replace : forall p k base rep s t L P dest, holds k base s -> holds k rep t ->
  in_ity i32 L -> in_ity i32 P -> slen s < 2 ^ 31 -> 0 <= L ->
  (1 <= P <= slen s -> P - 1 + L <= slen s ->
     delivers k (firstn (Z.to_nat (P - 1)) s ++ t ++ skipn (Z.to_nat (P - 1 + L)) s) dest
              (REPLACE_EXT p k base rep L P dest)) /\
  (~ (1 <= P <= slen s /\ P - 1 + L <= slen s) -> REPLACE_EXT p k base rep L P dest = Panic).
Proof. exact replace_spec. Qed.
Theorem C43_replace_is_delete_then_insert : forall p k base rep s t L P mid m dest,
  holds k base s -> holds k rep t -> in_ity i32 L -> in_ity i32 P -> slen s < 2 ^ 31 -> 0 <= L ->
  DELETE_EXT p k base L P mid = Ok m ->
  REPLACE_EXT p k base rep L P dest = INSERT_EXT k m rep (P - 1) dest.
Proof. exact replace_is_delete_insert. Qed.
Theorem C43_delete_undoes_insert : forall p k base ins s t P mid m dest,
  holds k base s -> holds k ins t -> slen s + slen t < 2 ^ 31 -> t <> [] ->
  INSERT_EXT k base ins P mid = Ok m ->
  delivers k s dest (DELETE_EXT p k m (slen t) (P + 1) dest).
Proof. exact delete_undoes_insert. Qed.
Theorem C43_lengths_add_up : forall p k base rep s t L P dest dest',
  holds k base s -> holds k rep t -> in_ity i32 L -> in_ity i32 P -> slen s + slen t < 2 ^ 31 -> 0 <= L ->
  (INSERT_EXT k base rep P dest = Ok dest' -> LEN k dest' = Ok (slen s + slen t)) /\
  (DELETE_EXT p k base L P dest = Ok dest' -> LEN k dest' = Ok (slen s - L)) /\
  (REPLACE_EXT p k base rep L P dest = Ok dest' -> LEN k dest' = Ok (slen s - L + slen t)).
Proof. exact lengths_add_up. Qed.
Ltac i32_lit := vm_compute; split; discriminate.
Example C43_ex1 : INSERT_EXT STRING (mem STRING ex_hello) (mem STRING ex_ll) 2 buf =
  Ok (written STRING [0x68; 0xE9; 0x6C; 0x6C; 0x6C; 0x6C; 0x6F] buf).
Proof.
  apply (C43_insert STRING _ _ ex_hello ex_ll 2 buf (proj1 (ex_holds _)) (proj2 (proj2 (ex_holds _))));
    [reflexivity|slen_lia|room].
Qed.
Example C43_ex2 : DELETE_EXT Debug WSTRING (mem WSTRING ex_hello) 2 2 buf =
  Ok (written WSTRING [0x68; 0x6C; 0x6F] buf).
Proof.
  apply (C43_delete Debug WSTRING _ ex_hello 2 2 buf (proj1 (ex_holds _)));
    [i32_lit|i32_lit|reflexivity|lia|slen_lia|slen_lia|room].
Qed.
Example C43_ex3 : exists m, DELETE_EXT Release STRING (mem STRING ex_smile) 2 1 buf = Ok m /\
  REPLACE_EXT Release STRING (mem STRING ex_smile) (mem STRING ex_ll) 2 1 buf =
  INSERT_EXT STRING m (mem STRING ex_ll) 0 buf.
Proof.
  eexists. split; [vm_compute; reflexivity|].
  eapply (C43_replace_is_delete_then_insert Release STRING _ _ ex_smile ex_ll 2 1 buf);
    [apply ex_holds|apply ex_holds|i32_lit|i32_lit|reflexivity|lia|vm_compute; reflexivity].
Qed.
Example C43_ex4 : exists m, INSERT_EXT STRING (mem STRING ex_hello) (mem STRING ex_smile) 5 buf = Ok m /\
  DELETE_EXT Debug STRING m 3 6 buf = Ok (written STRING ex_hello buf).
Proof.
  eexists. split; [vm_compute; reflexivity|].
  eapply (C43_delete_undoes_insert Debug STRING (mem STRING ex_hello) (mem STRING ex_smile) ex_hello ex_smile 5 buf);
    [apply ex_holds|apply ex_holds|reflexivity|discriminate|vm_compute; reflexivity|room].
Qed.
Example C43_ex5 : exists m, REPLACE_EXT Debug STRING (mem STRING ex_hello) (mem STRING ex_smile) 4 1 buf = Ok m /\
  LEN STRING m = Ok 4.
Proof.
  eexists. split; [vm_compute; reflexivity|].
  eapply (C43_lengths_add_up Debug STRING (mem STRING ex_hello) (mem STRING ex_smile) ex_hello ex_smile 4 1 buf);
    [apply ex_holds|apply ex_holds|i32_lit|i32_lit|reflexivity|lia|vm_compute; reflexivity].
Qed.

(** ** C44: false in release builds.  DELETE("hello", -1, 3) gives "heello". *)
Theorem C44_negative_length_refuted : exists k src rep L P dest d1 d2, L < 0 /\ in_ity i32 L /\ in_ity i32 P /\
  holds k src [0x68; 0x65; 0x6C; 0x6C; 0x6F] /\ holds k rep ex_ll /\
  DELETE_EXT Release k src L P dest = Ok d1 /\ holds k d1 [0x68; 0x65; 0x65; 0x6C; 0x6C; 0x6F] /\
  REPLACE_EXT Release k src rep L P dest = Ok d2 /\
  holds k d2 [0x68; 0x65; 0x6C; 0x6C; 0x65; 0x6C; 0x6C; 0x6F].
Proof.
  exists STRING, (mem STRING [0x68; 0x65; 0x6C; 0x6C; 0x6F]), (mem STRING ex_ll), (-1), 3, buf.
  eexists _, _. split; [lia|]. split; [i32_lit|]. split; [i32_lit|].
  assert (T : forall l, forallb (fun c => (1 <=? c) && (c <=? 127)) l = true -> text l).
  { intros l H. apply Forall_forall. intros c I. rewrite forallb_forall in H. apply H in I.
    apply andb_true_iff in I. destruct I as [I1 I2]. apply Z.leb_le in I1, I2. unfold is_scalar. lia. }
  split; [split; [now apply T|now exists [0x7F]]|]. split; [apply ex_holds|].
  split; [vm_compute; reflexivity|]. split; [split; [now apply T|eexists; reflexivity]|].
  split; [vm_compute; reflexivity|]. split; [now apply T|eexists; reflexivity].
Qed.
(** What holds: debug builds abort. *)
Theorem C44_negative_length_debug_partial : forall k base rep s t L P dest,
  holds k base s -> holds k rep t -> in_ity i32 L -> in_ity i32 P -> slen s < 2 ^ 63 -> L < 0 ->
  DELETE_EXT Debug k base L P dest = Panic /\ REPLACE_EXT Debug k base rep L P dest = Panic.
Proof. exact negative_debug. Qed.
(** Release builds abort exactly when the start would lie before the string; otherwise the
    [- L] characters before position [P] are duplicated. *)
Theorem C44_negative_length_release_partial : forall k base rep s t L P dest,
  holds k base s -> holds k rep t -> in_ity i32 L -> in_ity i32 P -> slen s < 2 ^ 31 -> L < 0 ->
  (P - 1 + L < 0 \/ slen s < P ->
     DELETE_EXT Release k base L P dest = Panic /\ REPLACE_EXT Release k base rep L P dest = Panic) /\
  (0 <= P - 1 + L -> P <= slen s ->
     delivers k (firstn (Z.to_nat (P - 1)) s ++ skipn (Z.to_nat (P - 1 + L)) s) dest
              (DELETE_EXT Release k base L P dest) /\
     delivers k (firstn (Z.to_nat (P - 1)) s ++ t ++ skipn (Z.to_nat (P - 1 + L)) s) dest
              (REPLACE_EXT Release k base rep L P dest)).
Proof. exact negative_release. Qed.
Example C44_ex1 : DELETE_EXT Debug WSTRING (mem WSTRING ex_hello) (-1) 3 buf = Panic /\
  REPLACE_EXT Debug WSTRING (mem WSTRING ex_hello) (mem WSTRING ex_ll) (-1) 3 buf = Panic.
Proof.
  apply (C44_negative_length_debug_partial WSTRING _ _ ex_hello ex_ll);
    [apply ex_holds|apply ex_holds|i32_lit|i32_lit|reflexivity|lia].
Qed.
Example C44_ex2 : DELETE_EXT Release STRING (mem STRING ex_hello) (-3) 3 buf = Panic.
Proof.
  refine (proj1 (proj1 (C44_negative_length_release_partial STRING _ (mem STRING ex_ll) ex_hello ex_ll (-3) 3 buf
    _ _ _ _ _ _) _)); [apply ex_holds|apply ex_holds|i32_lit|i32_lit|reflexivity|lia|lia].
Qed.
Example C44_ex3 : DELETE_EXT Release STRING (mem STRING ex_hello) (-2) 5 buf =
  Ok (written STRING [0x68; 0xE9; 0x6C; 0x6C; 0x6C; 0x6C; 0x6F] buf).
Proof.
  refine (proj1 (proj1 (proj2 (C44_negative_length_release_partial STRING _ (mem STRING ex_ll) ex_hello ex_ll (-2) 5 buf
    _ _ _ _ _ _) _ _)) _); [apply ex_holds|apply ex_holds|i32_lit|i32_lit|reflexivity|lia|lia|slen_lia|room].
Qed.

(** ** C45, C46 *)
Theorem C45_find_string : forall p src1 src2 hs ns, holds STRING src1 hs -> holds STRING src2 ns ->
  slen hs < 2 ^ 31 ->
  (ns = [] \/ (forall i, ~ occurs_at ns hs i) -> FIND p STRING src1 src2 = Ok 0) /\
  (forall i, ns <> [] -> first_at ns hs i -> FIND p STRING src1 src2 = Ok (Z.of_nat i + 1)).
Proof. intros p. exact (find_result p STRING). Qed.
Theorem C46_find_wstring : forall p src1 src2 hs ns, holds WSTRING src1 hs -> holds WSTRING src2 ns ->
  slen hs < 2 ^ 31 ->
  (ns = [] \/ (forall i, ~ occurs_at ns hs i) -> FIND p WSTRING src1 src2 = Ok 0) /\
  (forall i, ns <> [] -> first_at ns hs i -> FIND p WSTRING src1 src2 = Ok (Z.of_nat i + 1)).
Proof. intros p. exact (find_result p WSTRING). Qed.
Lemma ex_first : first_at ex_ll ex_hello 2 /\ first_at [0x21; 0x6C] ex_smile 1.
Proof.
  split.
  - split; [exists [0x68; 0xE9], [0x6F]; split; reflexivity|].
    intros [|[|m]] (a & b & E & L); [| |lia].
    + destruct a; [discriminate E|discriminate L].
    + destruct a as [|x [|y a]]; [discriminate L|discriminate E|discriminate L].
  - split; [exists [0x1F600], []; split; reflexivity|].
    intros [|m] (a & b & E & L); [|lia]. destruct a; [discriminate E|discriminate L].
Qed.
Example C45_ex1 : FIND Debug STRING (mem STRING ex_hello) (mem STRING ex_ll) = Ok 3.
Proof.
  apply (C45_find_string Debug _ _ ex_hello ex_ll) with (i := 2%nat);
    [apply ex_holds|apply ex_holds|reflexivity|discriminate|apply ex_first].
Qed.
Example C45_ex2 : FIND Debug STRING (mem STRING ex_ll) (mem STRING ex_hello) = Ok 0.
Proof.
  apply (C45_find_string Debug _ _ ex_ll ex_hello); [apply ex_holds|apply ex_holds|reflexivity|].
  right. intros i O. apply occurs_len in O. cbn in O. lia.
Qed.
Example C46_ex1 : FIND Release WSTRING (mem WSTRING ex_smile) (mem WSTRING [0x21; 0x6C]) = Ok 2.
Proof.
  apply (C46_find_wstring Release _ _ ex_smile [0x21; 0x6C]) with (i := 1%nat);
    [apply ex_holds| |reflexivity|discriminate|apply ex_first].
  split; [repeat constructor; unfold is_scalar; lia|now exists [0x7F]].
Qed.

(** ** C47 *)
Theorem C47_concat : forall k argv ts dest, Forall2 (holds k) argv ts -> ts <> [] ->
  delivers k (concat ts) dest (CONCAT k (Some dest) (Z.of_nat (length ts)) (Some argv)).
Proof. exact concat_ok. Qed.
Theorem C47_concat_associative : forall k a b c s t u d1 d2 x y dest,
  holds k a s -> holds k b t -> holds k c u ->
  CONCAT k (Some d1) 2 (Some [a; b]) = Ok x -> CONCAT k (Some d2) 2 (Some [b; c]) = Ok y ->
  CONCAT k (Some dest) 2 (Some [x; c]) = CONCAT k (Some dest) 2 (Some [a; y]) /\
  CONCAT k (Some dest) 2 (Some [x; c]) = CONCAT k (Some dest) 3 (Some [a; b; c]).
Proof. exact concat_assoc. Qed.
Theorem C47_concat_len : forall k argv ts dest dest', Forall2 (holds k) argv ts -> ts <> [] ->
  fold_right Z.add 0 (map slen ts) < 2 ^ 31 ->
  CONCAT k (Some dest) (Z.of_nat (length ts)) (Some argv) = Ok dest' ->
  LEN k dest' = Ok (fold_right Z.add 0 (map slen ts)).
Proof. exact concat_len. Qed.
(** Without arguments nothing is written, not even a NUL; null pointers abort. *)
Theorem C47_concat_without_arguments : forall k dest argc argv, argc <= 0 ->
  CONCAT k (Some dest) argc (Some argv) = Ok dest.
Proof. exact concat_none. Qed.
Theorem C47_concat_null : forall k dest argc argv,
  CONCAT k None argc argv = Panic /\ CONCAT k dest argc None = Panic.
Proof. intros k [d|] argc [a|]; split; reflexivity. Qed.
Example C47_ex1 : CONCAT STRING (Some buf) 3 (Some [mem STRING ex_hello; mem STRING ex_smile; mem STRING ex_ll]) =
  Ok (written STRING (ex_hello ++ ex_smile ++ ex_ll) buf).
Proof.
  apply (C47_concat STRING [mem STRING ex_hello; mem STRING ex_smile; mem STRING ex_ll] [ex_hello; ex_smile; ex_ll]);
    [|discriminate|room].
  repeat (apply Forall2_cons; [apply ex_holds|]). apply Forall2_nil.
Qed.
Example C47_ex2 : exists x y, CONCAT STRING (Some buf) 2 (Some [mem STRING ex_hello; mem STRING ex_smile]) = Ok x /\
  CONCAT STRING (Some buf) 2 (Some [mem STRING ex_smile; mem STRING ex_ll]) = Ok y /\
  CONCAT STRING (Some buf) 2 (Some [x; mem STRING ex_ll]) = CONCAT STRING (Some buf) 2 (Some [mem STRING ex_hello; y]).
Proof.
  eexists _, _. split; [vm_compute; reflexivity|]. split; [vm_compute; reflexivity|].
  eapply (C47_concat_associative STRING (mem STRING ex_hello) (mem STRING ex_smile) (mem STRING ex_ll) ex_hello ex_smile ex_ll buf buf);
    [apply ex_holds|apply ex_holds|apply ex_holds|vm_compute; reflexivity|vm_compute; reflexivity].
Qed.
Example C47_ex3 : exists x, CONCAT WSTRING (Some buf) 2 (Some [mem WSTRING ex_hello; mem WSTRING ex_smile]) = Ok x /\
  LEN WSTRING x = Ok 8.
Proof.
  eexists. split; [vm_compute; reflexivity|].
  eapply (C47_concat_len WSTRING [mem WSTRING ex_hello; mem WSTRING ex_smile] [ex_hello; ex_smile] buf);
    [|discriminate|reflexivity|vm_compute; reflexivity].
  repeat (apply Forall2_cons; [apply ex_holds|]). apply Forall2_nil.
Qed.
Example C47_ex4 : CONCAT STRING (Some [1; 2]) 0 (Some []) = Ok [1; 2].
Proof. apply C47_concat_without_arguments. lia. Qed.

(** ** C48: whatever the (terminated or not, valid or not) sources hold. *)
Theorem C48_results_well_formed : forall p k src1 src2 L P dest dest',
  Forall (unit_ok k) src1 -> Forall (unit_ok k) src2 ->
  (LEFT_EXT k src1 L dest = Ok dest' -> well_written k dest dest') /\
  (RIGHT_EXT k src1 L dest = Ok dest' -> well_written k dest dest') /\
  (MID_EXT p k src1 L P dest = Ok dest' -> well_written k dest dest') /\
  (INSERT_EXT k src1 src2 P dest = Ok dest' -> well_written k dest dest') /\
  (DELETE_EXT p k src1 L P dest = Ok dest' -> well_written k dest dest') /\
  (REPLACE_EXT p k src1 src2 L P dest = Ok dest' -> well_written k dest dest').
Proof.
  intros p k src1 src2 L P dest dest' U1 U2.
  split; [exact (left_good k src1 L dest dest' U1)|].
  split; [exact (right_good k src1 L dest dest' U1)|].
  split; [exact (mid_good p k src1 L P dest dest' U1)|].
  split; [exact (insert_good k src1 src2 P dest dest' U1 U2)|].
  split; [exact (delete_good p k src1 L P dest dest' U1)|].
  exact (replace_good p k src1 src2 L P dest dest' U1 U2).
Qed.
Theorem C48_concat_well_formed : forall k dest argc argv dest', 1 <= argc ->
  Forall (Forall (unit_ok k)) argv -> CONCAT k (Some dest) argc (Some argv) = Ok dest' ->
  well_written k dest dest'.
Proof. exact concat_good. Qed.
(** The destination keeps its size and everything behind the NUL. *)
Theorem C48_written_in_place : forall k dest dest', well_written k dest dest' ->
  length dest' = length dest /\
  exists t, holds k dest' t /\
    forall i, (length (units k t) < i)%nat -> nth_error dest' i = nth_error dest i.
Proof.
  intros k dest dest' (t & T & F & ->). split; [now apply written_length|].
  exists t. split; [now apply written_holds|]. intros i Hi. now apply written_rest.
Qed.
Example C48_ex1 : exists d, LEFT_EXT WSTRING [0x41; 0xD83D; 0xDE00; 0xD800; 0; 9] 2 buf = Ok d /\ well_written WSTRING buf d.
Proof.
  eexists. split; [vm_compute; reflexivity|].
  refine (proj1 (C48_results_well_formed Debug WSTRING [0x41; 0xD83D; 0xDE00; 0xD800; 0; 9] [] 2 0 buf _ _ _) _);
    [repeat (apply Forall_cons; [cbn; lia|]); apply Forall_nil|apply Forall_nil|vm_compute; reflexivity].
Qed.
Example C48_ex2 : exists d, CONCAT STRING (Some buf) 2 (Some [mem STRING ex_hello; mem STRING ex_ll]) = Ok d /\ well_written STRING buf d.
Proof.
  eexists. split; [vm_compute; reflexivity|].
  eapply (C48_concat_well_formed STRING buf 2 [mem STRING ex_hello; mem STRING ex_ll]);
    [lia| |vm_compute; reflexivity].
  repeat (apply Forall_cons; [repeat (apply Forall_cons; [cbn; lia|]); apply Forall_nil|]); apply Forall_nil.
Qed.
Example C48_ex3 : exists d, LEFT_EXT STRING (mem STRING ex_hello) 1 [7; 8; 9; 10] = Ok d /\ nth_error d 3 = Some 10.
Proof. eexists. split; vm_compute; reflexivity. Qed.

(** ** C49 *)
Theorem C49_two_strings : forall a b s t, reads a s -> reads b t ->
  exists lt eq gt, LT_STR 2 [a; b] = Ok lt /\ EQ_STR 2 [a; b] = Ok eq /\ GT_STR 2 [a; b] = Ok gt /\
    GE_STR 2 [a; b] = Ok (negb lt) /\ LE_STR 2 [a; b] = Ok (negb gt) /\ NE_STR a b = Ok (negb eq) /\
    In (lt, eq, gt) [(true, false, false); (false, true, false); (false, false, true)] /\
    (lt = true <-> lex_lt s t) /\ (eq = true <-> s = t) /\ (gt = true <-> lex_lt t s).
Proof. exact two_strings. Qed.
Theorem C49_all_pairs : forall strs argv extra, Forall2 reads argv strs -> (2 <= length strs)%nat ->
  let n := Z.of_nat (length strs) in
  (exists r, GT_STR n (argv ++ extra) = Ok r /\ (r = true <-> all_pairs (fun a b => lex_lt b a) strs)) /\
  (exists r, GE_STR n (argv ++ extra) = Ok r /\ (r = true <-> all_pairs (fun a b => lex_le b a) strs)) /\
  (exists r, EQ_STR n (argv ++ extra) = Ok r /\ (r = true <-> all_pairs eq strs)) /\
  (exists r, LE_STR n (argv ++ extra) = Ok r /\ (r = true <-> all_pairs lex_le strs)) /\
  (exists r, LT_STR n (argv ++ extra) = Ok r /\ (r = true <-> all_pairs lex_lt strs)).
Proof. exact nary. Qed.
Theorem C49_too_few_arguments : forall argc argv, argc < 2 ->
  GT_STR argc argv = Panic /\ GE_STR argc argv = Panic /\ EQ_STR argc argv = Panic /\
  LE_STR argc argv = Panic /\ LT_STR argc argv = Panic.
Proof. intros argc argv H. repeat split; now apply compare_few. Qed.
(** The order used is a strict total order. *)
Theorem C49_strict_total_order : forall a b c,
  ~ lex_lt a a /\ (lex_lt a b -> lex_lt b c -> lex_lt a c) /\ (lex_lt a b \/ a = b \/ lex_lt b a).
Proof.
  intros a b c. split; [apply lex_irrefl|]. split; [apply lex_trans|].
  destruct (cmp_spec a b); auto.
Qed.
Example C49_ex1 : LT_STR 3 [[0x41; 0]; [0x41; 0x42; 0]; [0x43; 0]] = Ok true /\
  LT_STR 3 [[0x41; 0]; [0x43; 0]; [0x42; 0]] = Ok false /\
  Forall2 reads [[0x41; 0]; [0x41; 0x42; 0]; [0x43; 0]] [[0x41]; [0x41; 0x42]; [0x43]].
Proof.
  split; [reflexivity|]. split; [reflexivity|].
  repeat (apply Forall2_cons; [split; [repeat constructor; discriminate|now exists []]|]). apply Forall2_nil.
Qed.

(** ** C50 *)
Theorem C50_string_order_is_code_point_order : forall argv ts, Forall2 (holds STRING) argv ts ->
  (2 <= length ts)%nat ->
  let n := Z.of_nat (length ts) in
  (exists r, GT_STR n argv = Ok r /\ (r = true <-> all_pairs (fun a b => lex_lt b a) ts)) /\
  (exists r, GE_STR n argv = Ok r /\ (r = true <-> all_pairs (fun a b => lex_le b a) ts)) /\
  (exists r, EQ_STR n argv = Ok r /\ (r = true <-> all_pairs eq ts)) /\
  (exists r, LE_STR n argv = Ok r /\ (r = true <-> all_pairs lex_le ts)) /\
  (exists r, LT_STR n argv = Ok r /\ (r = true <-> all_pairs lex_lt ts)).
Proof. exact string_order. Qed.
Example C50_ex1 : Forall2 (holds STRING) [mem STRING ex_hello; mem STRING ex_ll; mem STRING ex_smile] [ex_hello; ex_ll; ex_smile] /\
  LT_STR 3 [mem STRING ex_hello; mem STRING ex_ll; mem STRING ex_smile] = Ok true.
Proof.
  split; [|reflexivity]. repeat (apply Forall2_cons; [apply ex_holds|]). apply Forall2_nil.
Qed.

(** ** C51: false.  U+FF5E is before U+1F600, but its word 0xFF5E is after 0xD83D. *)
Theorem C51_wstring_order_refuted : exists a b s t, holds WSTRING a s /\ holds WSTRING b t /\
  lex_lt s t /\ LT_STR 2 [a; b] = Ok false /\ GT_STR 2 [a; b] = Ok true.
Proof.
  exists [0xFF5E; 0], [0xD83D; 0xDE00; 0], [0xFF5E], [0x1F600].
  split; [split; [repeat constructor; unfold is_scalar; lia|now exists []]|].
  split; [split; [repeat constructor; unfold is_scalar; lia|now exists []]|].
  split; [right; exists [], 0xFF5E, 0x1F600, [], []; repeat split; lia|]. split; vm_compute; reflexivity.
Qed.
(** What holds: the order is that of the UTF-16 words, which is the code point order when all
    characters are in the basic multilingual plane; equality is always right. *)
Theorem C51_wstring_order_partial : forall a b s t, holds WSTRING a s -> holds WSTRING b t ->
  exists lt eq gt, LT_STR 2 [a; b] = Ok lt /\ EQ_STR 2 [a; b] = Ok eq /\ GT_STR 2 [a; b] = Ok gt /\
    (lt = true <-> lex_lt (units WSTRING s) (units WSTRING t)) /\ (eq = true <-> s = t) /\
    (gt = true <-> lex_lt (units WSTRING t) (units WSTRING s)).
Proof. exact wstring_order. Qed.
Theorem C51_wstring_order_bmp_partial : forall a b s t, holds WSTRING a s -> holds WSTRING b t ->
  Forall (fun c => c < 0x10000) s -> Forall (fun c => c < 0x10000) t ->
  exists lt eq gt, LT_STR 2 [a; b] = Ok lt /\ EQ_STR 2 [a; b] = Ok eq /\ GT_STR 2 [a; b] = Ok gt /\
    (lt = true <-> lex_lt s t) /\ (eq = true <-> s = t) /\ (gt = true <-> lex_lt t s).
Proof.
  intros a b s t Ha Hb Bs Bt. assert (W := C51_wstring_order_partial a b s t Ha Hb).
  rewrite (units16_bmp s Bs), (units16_bmp t Bt) in W. exact W.
Qed.
Example C51_ex1 : holds WSTRING (mem WSTRING ex_hello) ex_hello /\ Forall (fun c => c < 0x10000) ex_hello /\
  LT_STR 2 [mem WSTRING ex_hello; mem WSTRING ex_ll] = Ok true.
Proof.
  split; [apply ex_holds|]. split; [repeat constructor; lia|]. reflexivity.
Qed.

(** ** C52 *)
Theorem C52_string_round_trip : forall src t n dest, holds STRING src t ->
  (length (units WSTRING t) < n)%nat -> fits STRING t dest ->
  exists w, STRING_TO_WSTRING_EXT src (repeat 0 n) = Ok w /\
    WSTRING_TO_STRING_EXT w dest = Ok (written STRING t dest).
Proof. exact string_round_trip. Qed.
Theorem C52_wstring_round_trip : forall src t n mid, holds WSTRING src t ->
  (length (units WSTRING t) < n)%nat -> fits STRING t mid ->
  exists m w, WSTRING_TO_STRING_EXT src mid = Ok m /\ STRING_TO_WSTRING_EXT m (repeat 0 n) = Ok w /\
    holds WSTRING w t.
Proof. exact wstring_round_trip. Qed.
Theorem C52_unpaired_surrogates_are_replaced : forall src s items dest, reads src s -> utf16_parse s items ->
  delivers STRING (map (fun i => match i with Some c => c | None => 0xFFFD end) items) dest
    (WSTRING_TO_STRING_EXT src dest).
Proof.
  intros src s items dest R P. rewrite (w2s_parse src s items dest R P). apply write_delivers.
Qed.
(** Every sequence of 16-bit words has such a reading. *)
Theorem C52_every_wstring_is_readable : forall s, Forall (unit_ok WSTRING) s -> exists items, utf16_parse s items.
Proof. intros s U. eexists. now apply utf16_decode_parse. Qed.
Example C52_ex1 : exists w, STRING_TO_WSTRING_EXT (mem STRING ex_smile) (repeat 0 10) = Ok w /\
  WSTRING_TO_STRING_EXT w buf = Ok (written STRING ex_smile buf).
Proof. apply C52_string_round_trip; [apply ex_holds|cbn; lia|room]. Qed.
Example C52_ex2 : exists m w, WSTRING_TO_STRING_EXT (mem WSTRING ex_hello) buf = Ok m /\
  STRING_TO_WSTRING_EXT m (repeat 0 10) = Ok w /\ holds WSTRING w ex_hello.
Proof. apply C52_wstring_round_trip; [apply ex_holds|cbn; lia|room]. Qed.
Example C52_ex3 : WSTRING_TO_STRING_EXT [0xDC00; 0x41; 0] buf = Ok (written STRING [0xFFFD; 0x41] buf).
Proof.
  apply (C52_unpaired_surrogates_are_replaced [0xDC00; 0x41; 0] [0xDC00; 0x41] [None; Some 0x41]).
  - split; [repeat constructor; discriminate|now exists []].
  - apply parse_low; [unfold low_surrogate; lia|].
    apply (SpecText.parse_char 0x41 []); [unfold is_scalar; lia|constructor].
  - room.
Qed.

(** ** C53: false; the old contents shine through. *)
Theorem C53_string_to_wstring_refuted : exists src t dest w, holds STRING src t /\
  (length (units WSTRING t) < length dest)%nat /\ STRING_TO_WSTRING_EXT src dest = Ok w /\
  holds WSTRING w (t ++ [0x63]) /\ ~ holds WSTRING w t.
Proof.
  exists [0x61; 0], [0x61], [0x62; 0x63; 0], [0x61; 0x63; 0].
  split; [split; [repeat constructor; unfold is_scalar; lia|now exists []]|].
  split; [cbn; lia|]. split; [reflexivity|].
  split; [split; [repeat constructor; unfold is_scalar; lia|now exists []]|].
  intros [_ (r & E)]. discriminate.
Qed.
(** What holds: the result is right exactly when the destination already had a NUL there. *)
Theorem C53_string_to_wstring_partial : forall src t dest, holds STRING src t ->
  (length (units WSTRING t) < length dest)%nat ->
  exists w, STRING_TO_WSTRING_EXT src dest = Ok w /\
    (nth (length (units WSTRING t)) dest 1 = 0 -> holds WSTRING w t) /\
    (nth (length (units WSTRING t)) dest 0 <> 0 -> ~ holds WSTRING w t).
Proof. exact stale_wide. Qed.
Example C53_ex1 : exists w, STRING_TO_WSTRING_EXT (mem STRING ex_ll) [1; 2; 0; 3] = Ok w /\ holds WSTRING w ex_ll.
Proof.
  destruct (C53_string_to_wstring_partial (mem STRING ex_ll) ex_ll [1; 2; 0; 3]) as (w & E & A & _);
    [apply ex_holds|cbn; lia|]. exists w. split; [exact E|]. apply A. reflexivity.
Qed.

(** ** C54: false from 128 on. *)
Theorem C54_char_round_trip_refuted : exists c, 0 <= c < 256 /\ WCHAR_TO_CHAR (CHAR_TO_WCHAR c) <> c.
Proof. exists 200. split; [lia|]. vm_compute. discriminate. Qed.
Theorem C54_char_round_trip_partial : forall c, 0 <= c < 256 ->
  WCHAR_TO_CHAR (CHAR_TO_WCHAR c) = if c <? 128 then c else if c <? 192 then 0xC2 else 0xC3.
Proof. exact char_exact. Qed.
Example C54_ex1 : WCHAR_TO_CHAR (CHAR_TO_WCHAR 65) = 65.
Proof. apply C54_char_round_trip_partial. lia. Qed.

Print Assumptions C40_len_counts_characters.
Print Assumptions C40_len_any_bytes.
Print Assumptions C40_len_any_words.
Print Assumptions C40_unterminated_read_out_of_bounds.
Print Assumptions C41_left.
Print Assumptions C41_right.
Print Assumptions C41_mid_partial.
Print Assumptions C41_mid_after_the_end_refuted.
Print Assumptions C42_left_right_concat.
Print Assumptions C42_mid_is_left_partial.
Print Assumptions C42_mid_is_right_partial.
Print Assumptions C42_len_left.
Print Assumptions C42_mid_is_left_refuted.
Print Assumptions C42_mid_is_right_refuted.
Print Assumptions C43_insert.
Print Assumptions C43_delete.
Print Assumptions C43_replace.
Print Assumptions C43_replace_is_delete_then_insert.
Print Assumptions C43_delete_undoes_insert.
Print Assumptions C43_lengths_add_up.
Print Assumptions C44_negative_length_refuted.
Print Assumptions C44_negative_length_debug_partial.
Print Assumptions C44_negative_length_release_partial.
Print Assumptions C45_find_string.
Print Assumptions C46_find_wstring.
Print Assumptions C47_concat.
Print Assumptions C47_concat_associative.
Print Assumptions C47_concat_len.
Print Assumptions C47_concat_without_arguments.
Print Assumptions C47_concat_null.
Print Assumptions C48_results_well_formed.
Print Assumptions C48_concat_well_formed.
Print Assumptions C48_written_in_place.
Print Assumptions C49_two_strings.
Print Assumptions C49_all_pairs.
Print Assumptions C49_too_few_arguments.
Print Assumptions C49_strict_total_order.
Print Assumptions C50_string_order_is_code_point_order.
Print Assumptions C51_wstring_order_refuted.
Print Assumptions C51_wstring_order_partial.
Print Assumptions C51_wstring_order_bmp_partial.
Print Assumptions C52_string_round_trip.
Print Assumptions C52_wstring_round_trip.
Print Assumptions C52_unpaired_surrogates_are_replaced.
Print Assumptions C52_every_wstring_is_readable.
Print Assumptions C53_string_to_wstring_refuted.
Print Assumptions C53_string_to_wstring_partial.
Print Assumptions C54_char_round_trip_refuted.
Print Assumptions C54_char_round_trip_partial.
