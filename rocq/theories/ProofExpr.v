(** Calls of numeric functions by the names a program uses. *)
From Coq Require Import String Ascii ZArith Lia List Bool SpecFloat Reals.
From Verif Require Import Base ModelFloat ModelScalar ModelTimeNum ModelText ModelString ModelExtra ModelDate ModelChrono ModelST ModelWrap ModelLink ModelLib
  ModelApi SpecScalar SpecST SpecDate SpecText SpecLink SpecConv SpecLib SpecName SpecWrap SpecCall SpecExpr ProofBase ProofScalar ProofST ProofST2 ProofLib ProofLib2 ProofConv ProofCall2 ProofCall4.
Import ListNotations.
Open Scope string_scope.
Open Scope list_scope.
Open Scope Z_scope.

(** * Functions of ModelST.v *)
Definition plain_body (b : body) : bool := match b with Assign _ | Do _ => false | _ => true end.
(** A conversion executed by [st_call]. *)
Definition st_conv (a b : sty) : bool :=
  let n := conversion_name a b in
  match find_decl n with
  | Some (Decl _ false [] (Ty t) [(_, Input, Ty a')] bd) =>
      plain_body bd && sty_eqb t b && rty_eqb (repr a) (repr a') &&
      match find_code n with None => true | Some _ => false end &&
      match find (fun e => String.eqb (fst e) n) text_functions with None => true | Some _ => false end
  | _ => false
  end.
Lemma conv_call : forall P a b v w, st_conv a b = true -> to_val v = Some w ->
  call P (conversion_name a b) [(a, v)] = obind (st_call (p_chrono P) (conversion_name a b) [w]) (fun r => Ok (b, of_val r)).
Proof.
  intros P a b v w H W. unfold st_conv in H. set (n := conversion_name a b) in *. clearbody n.
  destruct (find_decl n) as [[m e g ret ps bd]|] eqn:D; [|discriminate].
  destruct e; [discriminate|]. destruct g; [|discriminate]. destruct ret as [t|]; [|discriminate].
  destruct ps as [|[[x k] [a'|]] ps]; try discriminate; destruct k; try discriminate. destruct ps; [|discriminate].
  apply andb_true_iff in H as [H H5]. apply andb_true_iff in H as [H H4]. apply andb_true_iff in H as [H H3].
  apply andb_true_iff in H as [H1 H2]. apply ProofConv.sty_eqb_iff in H2. subst t.
  destruct (find_code n) eqn:C; [discriminate|]. clear H4.
  destruct (find (fun e => String.eqb (fst e) n) text_functions) eqn:T; [discriminate|]. clear H5.
  assert (A : api P n [v] = obind (st_call (p_chrono P) n [w]) (fun r => Ok (of_val r, [v]))).
  { unfold api. cbn [invoke]. rewrite D. transitivity (basic P n [v]); [destruct bd; try discriminate H1; reflexivity|].
    unfold basic. rewrite C, T. cbn [map all_some]. rewrite W. reflexivity. }
  unfold call. rewrite (dispatch_eq _ n _ _ n [v] b D).
  - rewrite A. destruct (st_call (p_chrono P) n [w]); reflexivity.
  - unfold resolve. rewrite D. reflexivity.
  - cbn [map fst d_params ModelApi.formals tl coerce_all]. unfold coerce. rewrite H3. reflexivity.
  - rewrite D. reflexivity.
Qed.
Definition words_ints : list sty := word_types ++ integer_types.
Lemma conv_checked : forallb (fun a => forallb (fun b => sty_eqb a b || st_conv a b) words_ints) words_ints = true.
Proof. vm_compute. reflexivity. Qed.
Definition ity_of (t : sty) : ity :=
  match t with
  | S_SINT => i8 | S_INT => i16 | S_DINT => i32 | S_LINT => i64 | S_USINT | S_BYTE => u8 | S_UINT | S_WORD => u16
  | S_UDINT | S_DWORD => u32 | _ => u64
  end.
Lemma ity_named : forall t, List.In t words_ints -> List.In (type_name t, ity_of t) int_names.
Proof. intros t T. cbn in T. repeat (destruct T as [<-|T]; [cbn; tauto|]). destruct T. Qed.
Lemma ity_typed : forall t z, List.In t words_ints -> of_type t z <-> in_ity (ity_of t) z.
Proof. intros t z T. cbn in T. repeat (destruct T as [<-|T]; [reflexivity|]). destruct T. Qed.
Lemma ity_bits_of : forall t, List.In t words_ints -> 0 < it_bits (ity_of t) /\ values t = 2 ^ it_bits (ity_of t).
Proof. intros t T. cbn in T. repeat (destruct T as [<-|T]; [split; reflexivity|]). destruct T. Qed.
Lemma type_name_inj : forall a b, type_name a = type_name b -> a = b.
Proof. intros a b. destruct a; destruct b; intros E; try reflexivity; discriminate E. Qed.
Lemma convert_call : forall P a b z, List.In a words_ints -> List.In b words_ints -> a <> b -> of_type a z ->
  call P (conversion_name a b) [(a, VZ z)] = Ok (b, VZ (wrap (ity_of b) z)).
Proof.
  intros P a b z A B N Z.
  assert (C : st_conv a b = true).
  { pose proof conv_checked as H. rewrite forallb_forall in H. specialize (H a A). rewrite forallb_forall in H. specialize (H b B).
    apply orb_true_iff in H as [H|H]; [|exact H]. apply sty_eqb_iff in H. contradiction. }
  rewrite (conv_call P a b (VZ z) (VInt z) C eq_refl). unfold conversion_name.
  change (type_name a ++ "_TO_" ++ type_name b)%string with (to (type_name a) (type_name b)).
  rewrite (int_conv _ _ (ity_of a) _ (ity_of b) z (ity_named a A) (ity_named b B)); [reflexivity| |now apply ity_typed].
  intros E. now apply type_name_inj in E.
Qed.
Lemma convert_typed : forall b z, List.In b words_ints -> of_type b (wrap (ity_of b) z) /\ (wrap (ity_of b) z) mod values b = z mod values b /\
  (of_type b z -> wrap (ity_of b) z = z).
Proof.
  intros b z B. destruct (ity_bits_of b B) as [W ->]. split; [|split].
  - apply ity_typed; [exact B|]. now apply wrap_range.
  - destruct (wrap_cong (ity_of b) z W) as [k ->]. apply Z.mod_add. apply Z.pow_nonzero; lia.
  - intros H. apply wrap_id; [exact W|now apply ity_typed].
Qed.
Lemma typed_unique : forall b u w, List.In b words_ints -> of_type b u -> of_type b w -> u mod values b = w mod values b -> u = w.
Proof.
  intros b u w B U W E. destruct (convert_typed b u B) as (_ & _ & Iu). destruct (convert_typed b w B) as (_ & _ & Iw).
  rewrite <- (Iu U), <- (Iw W). destruct (ity_bits_of b B) as [G V]. rewrite V in E. 
  unfold wrap. destruct (it_signed (ity_of b)); [|exact E].
  rewrite (Zplus_mod u), (Zplus_mod w), E. reflexivity.
Qed.
Lemma wrap_via : forall b c z, List.In b words_ints -> List.In c words_ints -> values c <= values b \/ of_type b z ->
  wrap (ity_of c) (wrap (ity_of b) z) = wrap (ity_of c) z.
Proof.
  intros b c z B C [L|Z]; [|now rewrite (proj2 (proj2 (convert_typed b z B)) Z)].
  destruct (ity_bits_of b B) as [Wb Vb]. destruct (ity_bits_of c C) as [Wc Vc].
  destruct (convert_typed c (wrap (ity_of b) z) C) as (T1 & M1 & _). destruct (convert_typed c z C) as (T2 & M2 & _).
  apply (typed_unique c); [exact C|exact T1|exact T2|]. rewrite M1, M2.
  destruct (wrap_cong (ity_of b) z Wb) as [k ->]. rewrite Vb, Vc in L. apply Z.pow_le_mono_r_iff in L; [|lia|lia].
  rewrite Vc. replace (2 ^ it_bits (ity_of b)) with (2 ^ (it_bits (ity_of b) - it_bits (ity_of c)) * 2 ^ it_bits (ity_of c))
    by (rewrite <- Z.pow_add_r by lia; f_equal; lia).
  rewrite Z.mul_assoc. apply Z.mod_add. apply Z.pow_nonzero; lia.
Qed.

(** ** Expressions *)
Lemma value_1 : forall P r f a tv, value_in P r a = Ok tv -> value_in P r (Call f [a]) = call P f [tv].
Proof. intros P r f a tv H. apply value_call. repeat constructor; exact H. Qed.
Lemma value_2 : forall P r f a b tv tw, value_in P r a = Ok tv -> value_in P r b = Ok tw -> value_in P r (Call f [a; b]) = call P f [tv; tw].
Proof. intros P r f a b tv tw H G. apply value_call. constructor; [exact H|]. constructor; [exact G|constructor]. Qed.
Lemma value_3 : forall P r f a b c tv tw tx, value_in P r a = Ok tv -> value_in P r b = Ok tw -> value_in P r c = Ok tx ->
  value_in P r (Call f [a; b; c]) = call P f [tv; tw; tx].
Proof. intros P r f a b c tv tw tx H G I. apply value_call. constructor; [exact H|]. constructor; [exact G|]. constructor; [exact I|constructor]. Qed.
Lemma value_var : forall P r x t z, var r x t z -> value_in P r (Arg x) = Ok (t, VZ z).
Proof. intros P r x t z [H _]. now apply value_arg. Qed.

Lemma convert_chain : forall P r x a b c z, List.In a (word_types ++ integer_types) -> List.In b (word_types ++ integer_types) ->
  List.In c (word_types ++ integer_types) -> a <> b -> b <> c -> a <> c -> var r x a z -> values c <= values b \/ of_type b z ->
  same P r (Call (conversion_name b c) [Call (conversion_name a b) [Arg x]]) (Call (conversion_name a c) [Arg x]).
Proof.
  intros P r x a b c z A B C N1 N2 N3 V H. pose proof (proj2 V) as Z. unfold same.
  rewrite (value_1 P r _ _ _ (value_var P r x a z V)), (convert_call P a c z A C N3 Z).
  assert (E : value_in P r (Call (conversion_name a b) [Arg x]) = Ok (b, VZ (wrap (ity_of b) z))).
  { rewrite (value_1 P r _ _ _ (value_var P r x a z V)). now apply convert_call. }
  rewrite (value_1 P r _ _ _ E), (convert_call P b c _ B C N2 (proj1 (convert_typed b z B))).
  now rewrite (wrap_via b c z B C H).
Qed.
Lemma convert_back : forall P r x a b z, List.In a (word_types ++ integer_types) -> List.In b (word_types ++ integer_types) ->
  a <> b -> var r x a z -> values a <= values b \/ of_type b z ->
  value_in P r (Call (conversion_name b a) [Call (conversion_name a b) [Arg x]]) = Ok (a, VZ z).
Proof.
  intros P r x a b z A B N V H. pose proof (proj2 V) as Z.
  assert (E : value_in P r (Call (conversion_name a b) [Arg x]) = Ok (b, VZ (wrap (ity_of b) z))).
  { rewrite (value_1 P r _ _ _ (value_var P r x a z V)). now apply convert_call. }
  rewrite (value_1 P r _ _ _ E), (convert_call P b a _ B A (not_eq_sym N) (proj1 (convert_typed b z B))).
  rewrite (wrap_via b a z B A H). now rewrite (proj2 (proj2 (convert_typed a z A)) Z).
Qed.
Lemma convert_one : forall P r x a b z, List.In a (word_types ++ integer_types) -> List.In b (word_types ++ integer_types) ->
  a <> b -> var r x a z -> exists w, value_in P r (Call (conversion_name a b) [Arg x]) = Ok (b, VZ w) /\ of_type b w /\
    w mod values b = z mod values b /\ (of_type b z -> w = z).
Proof.
  intros P r x a b z A B N V. exists (wrap (ity_of b) z). split; [|exact (convert_typed b z B)].
  rewrite (value_1 P r _ _ _ (value_var P r x a z V)). apply convert_call; try assumption. exact (proj2 V).
Qed.
