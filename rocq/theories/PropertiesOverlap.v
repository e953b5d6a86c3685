(** C104: string functions whose source and destination share memory. *)
From Coq Require Import ZArith List Lia.
From Verif Require Import Base ModelText ModelString ModelOverlap SpecText SpecWrap SpecOverlap ProofOverlap.
Import ListNotations.
Open Scope Z_scope.

(** LEFT, RIGHT and MID do what they do with separate memory whenever the destination does not begin inside
    the source, in particular when it is the source. *)
Theorem C104_substrings : forall pf k m p t d L P, stored k m p t -> in_ity i32 L -> in_ity i32 P -> slen t < 2 ^ 63 ->
  (d <= p \/ p + size k t < d /\ room k t m d)%nat ->
  LEFT_at k m p L d = omap (replaced d m) (LEFT_EXT k (skipn p m) L (skipn d m)) /\
  RIGHT_at k m p L d = omap (replaced d m) (RIGHT_EXT k (skipn p m) L (skipn d m)) /\
  MID_at pf k m p L P d = omap (replaced d m) (MID_EXT pf k (skipn p m) L P (skipn d m)).
Proof.
  intros pf k m p t d L P H HL HP HN D.
  split; [exact (left_at k m p t d L H D)|]. split; [exact (right_at k m p t d L H D)|exact (mid_at pf k m p t d L P H HL HP HN D)].
Qed.
Print Assumptions C104_substrings.

(** DELETE: when the destination is the source, or apart from it. *)
Theorem C104_delete : forall pf k m p t d L P, stored k m p t -> in_ity i32 L -> in_ity i32 P -> slen t < 2 ^ 31 -> 0 <= L ->
  (d = p \/ apart d (size k t) p (size k t) /\ room k t m d)%nat ->
  DELETE_at pf k m p L P d = omap (replaced d m) (DELETE_EXT pf k (skipn p m) L P (skipn d m)).
Proof. exact delete_at. Qed.
Print Assumptions C104_delete.

(** INSERT: when the destination is apart from both, or is the base and the text is appended, or is the text
    inserted at the front, or when the inserted text is empty. *)
Theorem C104_insert : forall k m p q s t d P, stored k m p s -> stored k m q t -> slen s < 2 ^ 31 -> room k (s ++ t) m d ->
  apart d (size k (s ++ t)) p (size k s) /\ apart d (size k (s ++ t)) q (size k t) \/
  d = p /\ P = slen s /\ apart d (size k (s ++ t)) q (size k t) \/
  d = q /\ P = 0 /\ apart d (size k (s ++ t)) p (size k s) \/
  d = p /\ t = [] ->
  INSERT_at k m p q P d = omap (replaced d m) (INSERT_EXT k (skipn p m) (skipn q m) P (skipn d m)).
Proof. exact insert_at. Qed.
Print Assumptions C104_insert.

(** REPLACE: when the destination is apart from both sources. *)
Theorem C104_replace : forall pf k m p q s t d L P, stored k m p s -> stored k m q t -> in_ity i32 L -> in_ity i32 P ->
  slen s < 2 ^ 31 -> 0 <= L -> room k (s ++ t) m d ->
  apart d (size k (s ++ t)) p (size k s) /\ apart d (size k (s ++ t)) q (size k t) ->
  REPLACE_at pf k m p q L P d = omap (replaced d m) (REPLACE_EXT pf k (skipn p m) (skipn q m) L P (skipn d m)).
Proof. exact replace_at. Qed.
Print Assumptions C104_replace.

(** REPLACE in place: when the removed text begins with as many characters and as many units as are put in. *)
Theorem C104_replace_in_place : forall pf k m p q a r1 u c t L P, stored k m p (a ++ (r1 ++ u) ++ c) -> stored k m q t ->
  in_ity i32 L -> in_ity i32 P -> slen (a ++ (r1 ++ u) ++ c) < 2 ^ 31 ->
  P = slen a + 1 -> P <= slen (a ++ (r1 ++ u) ++ c) -> L = slen (r1 ++ u) ->
  slen t = slen r1 -> size k t = size k r1 -> apart p (size k (a ++ (r1 ++ u) ++ c)) q (size k t) ->
  REPLACE_at pf k m p q L P p = omap (replaced p m) (REPLACE_EXT pf k (skipn p m) (skipn q m) L P (skipn p m)).
Proof. exact replace_own. Qed.
Print Assumptions C104_replace_in_place.

(** So with one unit per character, when the replacement is not longer than what it replaces. *)
Theorem C104_replace_in_place_shorter : forall pf k m p q s t L P, stored k m p s -> stored k m q t -> in_ity i32 L -> in_ity i32 P ->
  slen s < 2 ^ 31 -> size k s = length s -> size k t = length t -> 1 <= P <= slen s -> P - 1 + L <= slen s -> slen t <= L ->
  apart p (size k s) q (size k t) ->
  REPLACE_at pf k m p q L P p = omap (replaced p m) (REPLACE_EXT pf k (skipn p m) (skipn q m) L P (skipn p m)).
Proof. exact replace_units. Qed.
Print Assumptions C104_replace_in_place_shorter.

(** CONCAT whose arguments may include the destination: exactly what it writes.  As first argument the destination
    stands for its text [s]; later, for what has been written so far. *)
Theorem C104_concat : forall k m d a args s, (a = Own -> stored k m d s) ->
  let first := match a with Own => s | Other _ t => t end in
  let r := joined first args in
  Forall (fun x => match x with Own => True | Other q t => stored k m q t /\ apart d (size k r) q (size k t) end) (a :: args) ->
  room k r m d ->
  CONCAT_at k m d (map (pointer d) (a :: args)) = Ok (replaced d m (written k r (skipn d m))).
Proof. exact concat_at. Qed.
Print Assumptions C104_concat.

(** So appending in place is right: s := CONCAT(s, t1, ..., tn). *)
Theorem C104_append : forall k m d s others, stored k m d s ->
  let r := s ++ concat (map snd others) in
  Forall (fun '(q, t) => stored k m q t /\ apart d (size k r) q (size k t)) others -> room k r m d ->
  CONCAT_at k m d (d :: map fst others) = Ok (replaced d m (written k r (skipn d m))).
Proof.
  intros k m d s others H r G R.
  assert (J : forall l acc, joined acc (map (fun '(q, t) => Other q t) l) = acc ++ concat (map snd l)).
  { induction l as [|[q t] l IH]; intros acc; cbn [map concat snd]; [now rewrite app_nil_r|].
    unfold joined. cbn [fold_left]. fold (joined (acc ++ t) (map (fun '(q, t) => Other q t) l)). now rewrite IH, <- app_assoc. }
  replace (d :: map fst others) with (map (pointer d) (Own :: map (fun '(q, t) => Other q t) others)).
  - pose proof (concat_at k m d Own (map (fun '(q, t) => Other q t) others) s (fun _ => H)) as X. cbn zeta in X.
    rewrite J in X. apply X; [|exact R]. constructor; [exact I|]. rewrite Forall_map.
    apply (Forall_impl _ (P := fun '(q, t) => stored k m q t /\ apart d (size k r) q (size k t))); [|exact G]. now intros [q t].
  - cbn [map pointer]. f_equal. rewrite map_map. apply map_ext. now intros [q t].
Qed.
Print Assumptions C104_append.

(** In the remaining cases the result is wrong: LEFT to a destination inside the source ... *)
Theorem C104_left_refuted : exists m p t L d, stored STRING m p t /\ 0 <= L <= slen t /\ room STRING t m d /\
  LEFT_at STRING m p L d <> omap (replaced d m) (LEFT_EXT STRING (skipn p m) L (skipn d m)).
Proof.
  exists [97;98;99;100;0;0;0;0], 0%nat, [97;98;99;100], 4, 1%nat.
  split; [split; [repeat constructor; unfold is_scalar; lia|exists [0;0;0]; reflexivity]|].
  split; [vm_compute; split; discriminate|]. split; [vm_compute; lia|]. vm_compute. discriminate.
Qed.
Print Assumptions C104_left_refuted.

(** ... INSERT into the middle of a string in place ('abcd' with 'xy' inserted after one character becomes 'axyxyx') ... *)
Theorem C104_insert_refuted : exists m p q s t P, stored STRING m p s /\ stored STRING m q t /\ 0 <= P <= slen s /\
  room STRING (s ++ t) m p /\ apart p (size STRING (s ++ t)) q (size STRING t) /\
  INSERT_EXT STRING (skipn p m) (skipn q m) P (skipn p m) = Ok (written STRING [97;120;121;98;99;100] (skipn p m)) /\
  INSERT_at STRING m p q P p = Ok (replaced p m (written STRING [97;120;121;120;121;120] (skipn p m))).
Proof.
  exists [97;98;99;100;0;0;0;0;120;121;0], 0%nat, 8%nat, [97;98;99;100], [120;121], 1.
  split; [split; [repeat constructor; unfold is_scalar; lia|exists [0;0;0;120;121;0]; reflexivity]|].
  split; [split; [repeat constructor; unfold is_scalar; lia|exists []; reflexivity]|].
  split; [vm_compute; split; discriminate|]. split; [vm_compute; lia|]. split; [left; vm_compute; lia|].
  split; vm_compute; reflexivity.
Qed.
Print Assumptions C104_insert_refuted.

(** ... REPLACE in place by a longer text ('abcd' with 'b' replaced by 'xyz' becomes 'axyzyz', not 'axyzcd') ... *)
Theorem C104_replace_refuted : exists m p q s t L P, stored STRING m p s /\ stored STRING m q t /\
  room STRING (s ++ t) m p /\ apart p (size STRING (s ++ t)) q (size STRING t) /\ forall pf,
  REPLACE_EXT pf STRING (skipn p m) (skipn q m) L P (skipn p m) = Ok (written STRING [97;120;121;122;99;100] (skipn p m)) /\
  REPLACE_at pf STRING m p q L P p = Ok (replaced p m (written STRING [97;120;121;122;121;122] (skipn p m))).
Proof.
  exists [97;98;99;100;0;0;0;0;120;121;122;0], 0%nat, 8%nat, [97;98;99;100], [120;121;122], 1, 2.
  split; [split; [repeat constructor; unfold is_scalar; lia|exists [0;0;0;120;121;122;0]; reflexivity]|].
  split; [split; [repeat constructor; unfold is_scalar; lia|exists []; reflexivity]|].
  split; [vm_compute; lia|]. split; [left; vm_compute; lia|].
  intros []; split; vm_compute; reflexivity.
Qed.
Print Assumptions C104_replace_refuted.

(** ... even undefined, when a character of two bytes is replaced by one of one byte in a STRING and the
    rest of the removed text is not a character (here 'éab', 'é' replaced by 'x', in place) ... *)
Theorem C104_replace_undefined_refuted : exists m p q s t L P, stored STRING m p s /\ stored STRING m q t /\
  room STRING (s ++ t) m p /\ apart p (size STRING (s ++ t)) q (size STRING t) /\ slen t <= L /\ forall pf,
  REPLACE_EXT pf STRING (skipn p m) (skipn q m) L P (skipn p m) = Ok (written STRING [120;98] (skipn p m)) /\
  REPLACE_at pf STRING m p q L P p = Ub.
Proof.
  exists ([195;169;97;98;0;0;0;0;120;0]), 0%nat, 8%nat, [233;97;98], [120], 2, 1.
  split; [split; [repeat constructor; unfold is_scalar; lia|exists [0;0;0;120;0]; reflexivity]|].
  split; [split; [repeat constructor; unfold is_scalar; lia|exists []; reflexivity]|].
  split; [vm_compute; lia|]. split; [left; vm_compute; lia|]. split; [vm_compute; discriminate|].
  intros []; split; vm_compute; reflexivity.
Qed.
Print Assumptions C104_replace_undefined_refuted.

(** ... and CONCAT with the destination after the first argument: s := CONCAT('xy', s) with s = 'ab' gives 'xyxy'. *)
Theorem C104_concat_refuted : exists m d q s t, stored STRING m d s /\ stored STRING m q t /\
  room STRING (t ++ s) m d /\ apart d (size STRING (t ++ s)) q (size STRING t) /\
  CONCAT_at STRING m d [q; d] = Ok (replaced d m (written STRING (t ++ t) (skipn d m))) /\ t ++ t <> t ++ s.
Proof.
  exists [97;98;0;0;0;0;120;121;0], 0%nat, 6%nat, [97;98], [120;121].
  split; [split; [repeat constructor; unfold is_scalar; lia|exists [0;0;0;120;121;0]; reflexivity]|].
  split; [split; [repeat constructor; unfold is_scalar; lia|exists []; reflexivity]|].
  split; [vm_compute; lia|]. split; [left; vm_compute; lia|]. split; [vm_compute; reflexivity|discriminate].
Qed.
Print Assumptions C104_concat_refuted.

(** A concrete memory for the theorems: 'héy' at 2 in a STRING memory, 'ab' at 12, room in between. *)
Definition example_memory : list Z := [7;7;104;195;169;121;0;7;7;7;7;7;97;98;0;7].
Example C104_example :
  stored STRING example_memory 2 [104;233;121] /\ stored STRING example_memory 12 [97;98] /\
  room STRING ([104;233;121] ++ [97;98]) example_memory 2 /\
  apart 2 (size STRING ([104;233;121] ++ [97;98])) 12 (size STRING [97;98]) /\
  RIGHT_at STRING example_memory 2 2 2 = Ok [7;7;195;169;121;0;0;7;7;7;7;7;97;98;0;7] /\
  DELETE_at Debug STRING example_memory 2 1 2 2 = Ok [7;7;104;121;0;121;0;7;7;7;7;7;97;98;0;7] /\
  INSERT_at STRING example_memory 2 12 3 2 = Ok [7;7;104;195;169;121;97;98;0;7;7;7;97;98;0;7] /\
  REPLACE_at Debug STRING example_memory 2 12 3 1 2 = Ub /\
  CONCAT_at STRING example_memory 2 [2%nat; 12%nat] = Ok [7;7;104;195;169;121;97;98;0;7;7;7;97;98;0;7] /\
  CONCAT_at STRING example_memory 2 [2%nat; 2%nat] = Ok [7;7;104;195;169;121;104;195;169;121;0;7;97;98;0;7].
Proof.
  split; [split; [repeat constructor; unfold is_scalar; lia|eexists; reflexivity]|].
  split; [split; [repeat constructor; unfold is_scalar; lia|eexists; reflexivity]|].
  split; [vm_compute; lia|]. split; [left; vm_compute; lia|]. repeat (split; [vm_compute; reflexivity|]). vm_compute. reflexivity.
Qed.
(** 'abcd' with 'bc' replaced by 'z' in place. *)
Example C104_example_replace : REPLACE_at Release STRING [97;98;99;100;0;0;122;0] 0 6 2 2 0 = Ok [97;122;100;0;0;0;122;0].
Proof. vm_compute. reflexivity. Qed.
