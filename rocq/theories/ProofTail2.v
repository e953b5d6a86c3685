(** Proofs for PropertiesTail.v, part 2: every exported string function. *)
From Coq Require Import String ZArith List Bool Lia.
From Verif Require Import Base ModelFloat ModelScalar ModelText ModelString ModelExtra ModelWrap ModelLink ModelLib
  SpecText SpecLib SpecSafe SpecTail ProofText ProofString2 ProofLib ProofTail.
Import ListNotations.
Open Scope list_scope.
Open Scope Z_scope.

(** * The functions *)

Definition ok1 (g : list Z -> list Z -> outcome (list Z)) : Prop :=
  forall m m' s, reads m s -> reads m' s -> has_effect (g m) /\ forall d, g m d = g m' d.
Definition ok2 (g : list Z -> list Z -> list Z -> outcome (list Z)) : Prop :=
  forall m m' s x x' t, reads m s -> reads m' s -> reads x t -> reads x' t ->
    has_effect (g m x) /\ forall d, g m x d = g m' x' d.

Ltac effects := repeat lazymatch goal with
  | |- has_effect (fun dest => if _ then _ else _) => apply effect_if
  | |- has_effect (fun dest => let! _ := _ in _) => apply effect_bind; [first [eapply decode_no_ub; eassumption|apply arith_no_ub]|intros ?]
  | |- has_effect (fun dest => encode_to _ _ dest) => apply effect_encode_to
  | |- has_effect (fun dest => Panic) => apply effect_panic
  end.

Lemma left_ok1 : forall k L, ok1 (fun m d => LEFT_EXT k m L d).
Proof.
  intros k L m m' s R R'. unfold LEFT_EXT. split; [effects|]. intros d. now rewrite (same_decode k m m' s R R').
Qed.
Lemma right_ok1 : forall k L, ok1 (fun m d => RIGHT_EXT k m L d).
Proof.
  intros k L m m' s R R'. unfold RIGHT_EXT. cbv zeta. split; [effects|]. intros d. now rewrite (same_decode k m m' s R R').
Qed.
Lemma mid_ok1 : forall p k L P, ok1 (fun m d => MID_EXT p k m L P d).
Proof.
  intros p k L P m m' s R R'. unfold MID_EXT. cbv zeta. split; [effects|]. intros d. now rewrite (same_decode k m m' s R R').
Qed.
Lemma delete_ok1 : forall p k L P, ok1 (fun m d => DELETE_EXT p k m L P d).
Proof.
  intros p k L P m m' s R R'. unfold DELETE_EXT. cbv zeta. split; [effects|]. intros d. now rewrite (same_decode k m m' s R R').
Qed.
Lemma insert_ok2 : forall k P, ok2 (fun m x d => INSERT_EXT k m x P d).
Proof.
  intros k P m m' s x x' t R R' X X'. unfold INSERT_EXT. split; [effects|]. intros d.
  now rewrite (same_decode k m m' s R R'), (same_decode k x x' t X X').
Qed.
Lemma replace_ok2 : forall p k L P, ok2 (fun m x d => REPLACE_EXT p k m x L P d).
Proof.
  intros p k L P m m' s x x' t R R' X X'. unfold REPLACE_EXT. cbv zeta. split; [effects|]. intros d.
  now rewrite (same_decode k m m' s R R'), (same_decode k x x' t X X').
Qed.
Lemma narrow_ok1 : ok1 WSTRING_TO_STRING_EXT.
Proof.
  intros m m' s R R'. unfold WSTRING_TO_STRING_EXT. split.
  - change (has_effect (fun dest => let! cs := decode WSTRING m in encode_to STRING (map or_replacement cs) dest)). effects.
  - intros d. now rewrite (same_decode WSTRING m m' s R R').
Qed.
Lemma widen_ok1 : ok1 STRING_TO_WSTRING_EXT.
Proof.
  intros m m' s R R'. unfold STRING_TO_WSTRING_EXT. split.
  - apply (effect_bind _ (decode STRING m) (fun cs dest => omap contents (encode_loop WSTRING cs ([], dest)))).
    + eapply decode_no_ub; eassumption.
    + intros cs. apply effect_widen.
  - intros d. now rewrite (same_decode STRING m m' s R R').
Qed.

(** * Calling patterns *)

Definition is_int (t : rty) : Prop := is_text t = false /\ forall v, typed t v -> exists z, v = VZ z.
Definition is_float (t : rty) : Prop := is_text t = false /\ forall v, typed t v -> exists x, v = VF x.

Definition writes (c : code) (ts : list rty) : Prop := forall P a a', same_args ts a a' -> exists g n r, effect g n r /\
  forall dest, c P (a ++ [VS dest]) = omap (fun d => (VZ 0, a ++ [VS d])) (g dest) /\
    c P (a' ++ [VS dest]) = omap (fun d => (VZ 0, a' ++ [VS d])) (g dest).

Ltac take_int := lazymatch goal with
  | T : is_int ?t, H : same ?t ?v ?v' |- _ => unfold same in H; rewrite (proj1 T) in H; destruct H as [<- H];
      destruct (proj2 T v H) as [? ->]; clear H
  end.
Ltac take_float := lazymatch goal with
  | T : is_float ?t, H : same ?t ?v ?v' |- _ => unfold same in H; rewrite (proj1 T) in H; destruct H as [<- H];
      destruct (proj2 T v H) as [? ->]; clear H
  end.
Ltac take_text := lazymatch goal with
  | T : is_text ?t = true, H : same ?t ?v ?v' |- _ => unfold same in H; rewrite T in H; destruct H as (? & ? & ? & -> & -> & ? & ?)
  end.
Ltac args := repeat lazymatch goal with
  | H : same_args (_ :: _) ?a ?a' |- _ => destruct a as [|? a], a' as [|? a']; try (destruct H; fail); destruct H as [? H]
  | H : same_args [] ?a ?a' |- _ => destruct a, a'; try (destruct H; fail); clear H
  end.

Lemma bind_omap : forall A B C (o : outcome A) (f : A -> B) (g : B -> C), omap g (omap f o) = omap (fun x => g (f x)) o.
Proof. intros A B C [] f g; reflexivity. Qed.
Lemma bind_is_omap : forall A B (o : outcome A) (f : A -> B), (let! x := o in Ok (f x)) = omap f o.
Proof. intros A B [] f; reflexivity. Qed.

Lemma zS_writes : forall g t, is_int t -> (forall z, has_effect (g z)) -> writes (zS g) [t].
Proof.
  intros g t T H P a a' S. args. take_int. destruct (H x) as (n & r & E). exists (g x), n, r. split; [exact E|].
  intros dest. cbn [zS app]. rewrite bind_is_omap. split; reflexivity.
Qed.
Lemma fS_writes : forall g t, is_float t -> (forall z, has_effect (g z)) -> writes (fS g) [t].
Proof.
  intros g t T H P a a' S. args. take_float. destruct (H x) as (n & r & E). exists (g x), n, r. split; [exact E|].
  intros dest. cbn [fS app]. rewrite bind_is_omap. split; reflexivity.
Qed.
Lemma sS_writes : forall g t, is_text t = true -> ok1 g -> writes (sS g) [t].
Proof.
  intros g t T H P a a' S. args. take_text. destruct (H x x0 x1) as [(n & r & E) Q]; try assumption.
  exists (g x), n, r. split; [exact E|].
  intros dest. cbn [sS app]. rewrite !bind_is_omap. split; [reflexivity|]. now rewrite Q.
Qed.
Lemma szS_writes : forall g t u, is_text t = true -> is_int u -> (forall P z, ok1 (fun m d => g P m z d)) -> writes (szS g) [t; u].
Proof.
  intros g t u T U H P a a' S. args. take_text. take_int. destruct (H P x2 x x0 x1) as [(n & r & E) Q]; try assumption.
  exists (g P x x2), n, r. split; [exact E|].
  intros dest. cbn [szS app]. rewrite !bind_is_omap. split; [reflexivity|]. now rewrite Q.
Qed.
Lemma szzS_writes : forall g t u w, is_text t = true -> is_int u -> is_int w -> (forall P y z, ok1 (fun m d => g P m y z d)) ->
  writes (szzS g) [t; u; w].
Proof.
  intros g t u w T U W H P a a' S. args. take_text.
  unfold same in H1, H2. rewrite (proj1 U) in H1. rewrite (proj1 W) in H2. destruct H1 as [<- H1], H2 as [<- H2].
  destruct (proj2 U _ H1) as [y ->], (proj2 W _ H2) as [z ->].
  destruct (H P y z x x0 x1) as [(n & r & E) Q]; try assumption.
  exists (g P x y z), n, r. split; [exact E|].
  intros dest. cbn [szzS app]. rewrite !bind_is_omap. split; [reflexivity|]. now rewrite Q.
Qed.
Lemma two_texts : forall t v v' w w', is_text t = true -> same t v v' -> same t w w' -> exists m m' s x x' y,
  v = VS m /\ v' = VS m' /\ w = VS x /\ w' = VS x' /\ reads m s /\ reads m' s /\ reads x y /\ reads x' y.
Proof.
  intros t v v' w w' T A B. unfold same in A, B. rewrite T in A, B.
  destruct A as (m & m' & s & -> & -> & R1 & R2), B as (x & x' & y & -> & -> & R3 & R4).
  exists m, m', s, x, x', y. repeat (split; [first [reflexivity|assumption]|]). assumption.
Qed.
Lemma sszS_writes : forall g t u, is_text t = true -> is_int u -> (forall P z, ok2 (fun m x d => g P m x z d)) ->
  writes (sszS g) [t; t; u].
Proof.
  intros g t u T U H P a a' S. args.
  destruct (two_texts t _ _ _ _ T H0 H1) as (m & m' & s & x & x' & y & -> & -> & -> & -> & R1 & R2 & R3 & R4). take_int.
  destruct (H P x0 m m' s x x' y) as [(n & r & E) Q]; try assumption.
  exists (g P m x x0), n, r. split; [exact E|].
  intros dest. cbn [sszS app]. rewrite !bind_is_omap. split; [reflexivity|]. now rewrite Q.
Qed.
Lemma sszzS_writes : forall g t u w, is_text t = true -> is_int u -> is_int w -> (forall P y z, ok2 (fun m x d => g P m x y z d)) ->
  writes (sszzS g) [t; t; u; w].
Proof.
  intros g t u w T U W H P a a' S. args.
  destruct (two_texts t _ _ _ _ T H0 H1) as (m & m' & s & x & x' & y & -> & -> & -> & -> & R1 & R2 & R3 & R4).
  unfold same in H2, H3. rewrite (proj1 U) in H2. rewrite (proj1 W) in H3. destruct H2 as [<- H2], H3 as [<- H3].
  destruct (proj2 U _ H2) as [a ->], (proj2 W _ H3) as [b ->].
  destruct (H P a b m m' s x x' y) as [(n & r & E) Q]; try assumption.
  exists (g P m x a b), n, r. split; [exact E|].
  intros dest. cbn [sszzS app]. rewrite !bind_is_omap. split; [reflexivity|]. now rewrite Q.
Qed.

(** Functions with a result. *)
Definition returns (c : code) (ts : list rty) : Prop := forall P a a', same_args ts a a' -> exists o : outcome value,
  c P a = omap (fun r => (r, a)) o /\ c P a' = omap (fun r => (r, a')) o.

Lemma sz_returns : forall g t, is_text t = true ->
  (forall P m m' s, reads m s -> reads m' s -> g P m = g P m') -> returns (s_z g) [t].
Proof.
  intros g t T H P a a' S. args. take_text. exists (omap VZ (g P x)). cbn [s_z].
  rewrite (H P x x0 x1) by assumption. destruct (g P x0); split; reflexivity.
Qed.
Lemma sf_returns : forall g t, is_text t = true ->
  (forall m m' s, reads m s -> reads m' s -> g m = g m') -> returns (s_f g) [t].
Proof.
  intros g t T H P a a' S. args. take_text. exists (omap VF (g x)). cbn [s_f].
  rewrite (H x x0 x1) by assumption. destruct (g x0); split; reflexivity.
Qed.
Lemma ssz_returns : forall g t, is_text t = true ->
  (forall P m m' s x x' y, reads m s -> reads m' s -> reads x y -> reads x' y -> g P m x = g P m' x') -> returns (ss_z g) [t; t].
Proof.
  intros g t T H P a a' S. args.
  destruct (two_texts t _ _ _ _ T H0 H1) as (m & m' & s & x & x' & y & -> & -> & -> & -> & R1 & R2 & R3 & R4).
  exists (omap VZ (g P m x)). cbn [ss_z].
  rewrite (H P m m' s x x' y) by assumption. destruct (g P m' x'); split; reflexivity.
Qed.

Lemma len_tail : forall k m m' s, reads m s -> reads m' s -> LEN k m = LEN k m'.
Proof. intros k m m' s R R'. unfold LEN. now rewrite (same_decode k m m' s R R'). Qed.
Lemma find_tail : forall p k m m' s x x' y, reads m s -> reads m' s -> reads x y -> reads x' y -> FIND p k m x = FIND p k m' x'.
Proof.
  intros p k m m' s x x' y R1 R2 R3 R4. unfold FIND. now rewrite (same_slice m m' s R1 R2), (same_slice x x' y R3 R4).
Qed.
Lemma ne_tail : forall m m' s x x' y, reads m s -> reads m' s -> reads x y -> reads x' y -> NE_STR m x = NE_STR m' x'.
Proof.
  intros m m' s x x' y R1 R2 R3 R4. unfold NE_STR. now rewrite (same_slice m m' s R1 R2), (same_slice x x' y R3 R4).
Qed.
Lemma int_tail : forall t m m' s, reads m s -> reads m' s -> string_to_int t m = string_to_int t m'.
Proof. intros t m m' s R R'. unfold string_to_int. now rewrite (same_slice m m' s R R'). Qed.
Lemma float_tail : forall f m m' s, reads m s -> reads m' s -> string_to_float f m = string_to_float f m'.
Proof. intros f m m' s R R'. unfold string_to_float. now rewrite (same_slice m m' s R R'). Qed.

(** * Every exported function *)

Ltac int_type := split; [reflexivity|]; intros [z|x|m] T; [now exists z|destruct T|destruct T].
Ltac float_type := split; [reflexivity|]; intros [z|x|m] T; [destruct T|now exists x|destruct T].
Ltac one_writer := lazymatch goal with
  | |- writes (zS _) _ => apply zS_writes; [int_type|intros; apply effect_buf]
  | |- writes (fS _) _ => apply fS_writes; [float_type|intros; apply effect_buf]
  | |- writes (sS WSTRING_TO_STRING_EXT) _ => apply sS_writes; [reflexivity|exact narrow_ok1]
  | |- writes (sS STRING_TO_WSTRING_EXT) _ => apply sS_writes; [reflexivity|exact widen_ok1]
  | |- writes (szS (fun _ => LEFT_EXT _)) _ => apply szS_writes; [reflexivity|int_type|intros; apply left_ok1]
  | |- writes (szS (fun _ => RIGHT_EXT _)) _ => apply szS_writes; [reflexivity|int_type|intros; apply right_ok1]
  | |- writes (szzS (fun P => MID_EXT _ _)) _ => apply szzS_writes; [reflexivity|int_type|int_type|intros; apply mid_ok1]
  | |- writes (szzS (fun P => DELETE_EXT _ _)) _ => apply szzS_writes; [reflexivity|int_type|int_type|intros; apply delete_ok1]
  | |- writes (sszS (fun _ => INSERT_EXT _)) _ => apply sszS_writes; [reflexivity|int_type|intros; apply insert_ok2]
  | |- writes (sszzS (fun P => REPLACE_EXT _ _)) _ => apply sszzS_writes; [reflexivity|int_type|int_type|intros; apply replace_ok2]
  end.

Definition writer_ok (s : symbol) : Prop := sy_name s = "TIME_TO_STRING_EXT"%string \/
  exists c, (forall P a, rust_call P (sy_name s) a = c P a) /\ writes c (writer_inputs s).
Lemma all_writers : Forall writer_ok (filter writer rust_symbols).
Proof.
  let l := eval vm_compute in (filter writer rust_symbols) in change (Forall writer_ok l).
  repeat (apply Forall_cons; [first [left; reflexivity|
    right; eexists; split; [intros P a; cbn [sy_name]; name_of; reflexivity|cbn [writer_inputs sy_params removelast]; one_writer]]|]).
  apply Forall_nil.
Qed.
Ltac one_reader := lazymatch goal with
  | |- returns (s_z (fun _ => LEN _)) _ => apply sz_returns; [reflexivity|intros P; apply len_tail]
  | |- returns (s_z (fun _ => STRING_TO_LINT)) _ => apply sz_returns; [reflexivity|intros P; exact (int_tail i64)]
  | |- returns (s_z (fun _ => STRING_TO_DINT)) _ => apply sz_returns; [reflexivity|intros P; exact (int_tail i32)]
  | |- returns (s_f _) _ => apply sf_returns; [reflexivity|first [exact (float_tail F64)|exact (float_tail F32)]]
  | |- returns (ss_z (fun P => FIND _ _)) _ => apply ssz_returns; [reflexivity|intros P; apply find_tail]
  | |- returns (ss_z _) _ => apply ssz_returns; [reflexivity|intros P m m' s x x' y R1 R2 R3 R4; now rewrite (ne_tail m m' s x x' y R1 R2 R3 R4)]
  end.
Definition reader_ok (s : symbol) : Prop :=
  exists c, (forall P a, rust_call P (sy_name s) a = c P a) /\ returns c (sy_params s).
Lemma all_readers : Forall reader_ok (filter reader rust_symbols).
Proof.
  let l := eval vm_compute in (filter reader rust_symbols) in change (Forall reader_ok l).
  repeat (apply Forall_cons; [eexists; split; [intros P a; cbn [sy_name]; name_of; reflexivity|cbn [sy_params]; one_reader]|]).
  apply Forall_nil.
Qed.

(** Arrays of strings. *)
Definition same_strings (u : rty) (a a' : list value) : Prop := Forall2 (same u) a a'.
Lemma some_strings : forall u a a', is_text u = true -> Forall2 (same u) a a' -> exists l l',
  strings a = Some l /\ strings a' = Some l' /\ length l = length l' /\
  Forall (fun m => exists s, reads m s) l /\ Forall2 (fun m m' => exists s, reads m s /\ reads m' s) l l'.
Proof.
  intros u a a' U F. induction F as [|v v' a a' S F (l & l' & E & E' & L & G & H)].
  - exists [], []. repeat (split; [first [reflexivity|constructor]|]). constructor.
  - unfold same in S. rewrite U in S. destruct S as (m & m' & s & -> & -> & R & R').
    exists (m :: l), (m' :: l'). cbn [strings length]. rewrite E, E', L.
    split; [reflexivity|]. split; [reflexivity|]. split; [reflexivity|].
    split; constructor; [now exists s|assumption|exists s; now split|assumption].
Qed.

Definition returns_array (c : code) : Prop := forall P u a a', is_text u = true -> Forall2 (same u) a a' -> exists o : outcome value,
  c P a = omap (fun r => (r, a)) o /\ c P a' = omap (fun r => (r, a')) o.
Lemma snz_returns : forall g, (forall n a a', Forall2 (fun m m' => exists s, reads m s /\ reads m' s) a a' -> g n a = g n a') ->
  returns_array (sn_z g).
Proof.
  intros g H P u a a' U F. destruct (some_strings u a a' U F) as (l & l' & E & E' & L & _ & G).
  exists (omap (fun b => VZ (Z.b2z b)) (g (size l) l)). unfold sn_z. rewrite E, E'. unfold size. rewrite <- L, <- (H _ l l' G).
  destruct (g _ l); split; reflexivity.
Qed.
Lemma concat_fn_returns : forall k, returns_array (concat_fn k).
Proof.
  intros k P u a a' U F. destruct (some_strings u a a' U F) as (l & l' & E & E' & L & _ & G).
  exists (omap VS (CONCAT_ALL k l)). unfold concat_fn. rewrite E, E'. unfold CONCAT_ALL, CONCAT. rewrite <- L.
  rewrite <- (concat_loop_tail k _ l l' _ G). destruct (omap contents _); split; reflexivity.
Qed.
Definition array_ok (s : symbol) : Prop :=
  exists c, (forall P a, rust_call P (sy_name s) a = c P a) /\ returns_array c.
Ltac one_array := lazymatch goal with
  | |- returns_array (concat_fn _) => apply concat_fn_returns
  | |- returns_array (sn_z _) => apply snz_returns; intros n a a' F; exact (compare_tail _ n a a' F)
  end.
Lemma all_arrays : Forall array_ok (filter compares rust_symbols).
Proof.
  let l := eval vm_compute in (filter compares rust_symbols) in change (Forall array_ok l).
  repeat (apply Forall_cons; [eexists; split; [intros P a; cbn [sy_name]; name_of; reflexivity|one_array]|]).
  apply Forall_nil.
Qed.

Definition writes_first (c : code) : Prop := forall P u a a', is_text u = true -> Forall2 (same u) a a' -> exists g n r, effect g n r /\
  forall dest, c P (VS dest :: a) = omap (fun d => (VZ 0, VS d :: a)) (g dest) /\
    c P (VS dest :: a') = omap (fun d => (VZ 0, VS d :: a')) (g dest).
Lemma concat_writes : forall k, writes_first (concat_ext k).
Proof.
  intros k P u a a' U F. destruct (some_strings u a a' U F) as (l & l' & E & E' & L & R & G).
  destruct (effect_concat k l R) as (n & r & H).
  exists (fun dest => CONCAT k (Some dest) (size l) (Some l)), n, r. split; [exact H|]. intros dest.
  unfold concat_ext. rewrite E, E', !bind_is_omap. split; [reflexivity|].
  unfold CONCAT, size. now rewrite <- L, (concat_loop_tail k _ l l' _ G).
Qed.
Definition concat_ok (s : symbol) : Prop :=
  exists c, (forall P a, rust_call P (sy_name s) a = c P a) /\
    ((sy_ret s = I32 /\ writes_first c) \/ (sy_ret s = Unit /\ returns_array c)).
Lemma all_concats : Forall concat_ok (filter concatenates rust_symbols).
Proof.
  let l := eval vm_compute in (filter concatenates rust_symbols) in change (Forall concat_ok l).
  repeat (apply Forall_cons; [eexists; split; [intros P a; cbn [sy_name]; name_of; reflexivity|first [left; split; [reflexivity|apply concat_writes]|right; split; [reflexivity|apply concat_fn_returns]]]|]).
  apply Forall_nil.
Qed.

(** * The theorems *)

Lemma of_filter : forall (Q : symbol -> Prop) f s, Forall Q (filter f rust_symbols) -> List.In s rust_symbols -> f s = true -> Q s.
Proof. intros Q f s F I E. refine (proj1 (Forall_forall Q _) F s _). apply filter_In. now split. Qed.

Lemma results : forall P s a a', List.In s rust_symbols -> reader s = true -> same_args (sy_params s) a a' ->
  exists o, rust_call P (sy_name s) a = omap (fun r => (r, a)) o /\ rust_call P (sy_name s) a' = omap (fun r => (r, a')) o.
Proof.
  intros P s a a' I E S. destruct (of_filter _ _ _ all_readers I E) as (c & C & R). rewrite !C. exact (R P a a' S).
Qed.
Lemma arrays : forall P s u a a', List.In s rust_symbols -> sy_params s = [I32; Ptr false u] -> is_text u = true -> Forall2 (same u) a a' ->
  exists o, rust_call P (sy_name s) a = omap (fun r => (r, a)) o /\ rust_call P (sy_name s) a' = omap (fun r => (r, a')) o.
Proof.
  intros P s u a a' I E U S.
  assert (K : compares s = true) by (unfold compares; now rewrite E).
  destruct (of_filter _ _ _ all_arrays I K) as (c & C & R). rewrite !C. exact (R P u a a' U S).
Qed.
Lemma destinations : forall P s a a', List.In s rust_symbols -> writer s = true -> sy_name s <> "TIME_TO_STRING_EXT"%string ->
  same_args (writer_inputs s) a a' -> exists g n r, effect g n r /\
    forall dest, call_last P (sy_name s) a dest (g dest) /\ call_last P (sy_name s) a' dest (g dest).
Proof.
  intros P s a a' I E N S. destruct (of_filter _ _ _ all_writers I E) as [K|(c & C & R)]; [now elim N|].
  destruct (R P a a' S) as (g & n & r & H & Q). exists g, n, r. split; [exact H|]. intros dest. unfold call_last. rewrite !C. exact (Q dest).
Qed.
Lemma concats : forall P s d u a a', List.In s rust_symbols -> sy_params s = [d; I32; Ptr false u] -> is_dest d = true -> is_text u = true ->
  Forall2 (same u) a a' ->
  (sy_ret s = I32 -> exists g n r, effect g n r /\
    forall dest, call_first P (sy_name s) a dest (g dest) /\ call_first P (sy_name s) a' dest (g dest)) /\
  (sy_ret s = Unit ->
    exists o, rust_call P (sy_name s) a = omap (fun r => (r, a)) o /\ rust_call P (sy_name s) a' = omap (fun r => (r, a')) o).
Proof.
  intros P s d u a a' I E D U S.
  assert (K : concatenates s = true) by (unfold concatenates; rewrite E, D; exact U).
  destruct (of_filter _ _ _ all_concats I K) as (c & C & [[T R]|[T R]]); split; intros T'; rewrite T in T'; try discriminate T'.
  - destruct (R P u a a' U S) as (g & n & r & H & Q). exists g, n, r. split; [exact H|]. intros dest. unfold call_first. rewrite !C. exact (Q dest).
  - rewrite !C. exact (R P u a a' U S).
Qed.
