(** Proofs for C91: instances in one memory. *)
From Coq Require Import String ZArith List Bool Lia.
From Verif Require Import Base ModelFB ModelCounters ModelTimers ModelLayout ModelMachine
  SpecFB SpecLayout SpecMachine ProofBase ProofScalar ProofLayout.
Import ListNotations.
Open Scope list_scope.
Open Scope string_scope.
Open Scope Z_scope.

(** * Locality *)

Lemma to_le_length : forall n z, length (to_le n z) = n.
Proof. induction n; intros; cbn; auto. Qed.

Lemma encode_length : forall r t v, length (encode r t v) = Z.to_nat (fsize r t).
Proof.
  intros r t v. destruct t; cbn [encode fsize].
  - reflexivity.
  - apply to_le_length.
  - apply repeat_length.
  - destruct r, v as [| |[s|]]; reflexivity.
Qed.

Lemma encode_size : forall r t v, 0 <= fsize r t -> Z.of_nat (length (encode r t v)) = fsize r t.
Proof. intros. rewrite encode_length. lia. Qed.

Lemma store_fields_frame : forall r fs vs m base pos x,
  fields_wf r fs -> x < base + pos \/ base + fields_end r pos fs <= x ->
  store_fields m base (offsets r pos fs) (encode_fields r fs vs) x = m x.
Proof.
  induction fs as [|[n t] fs IH]; intros vs m base pos x W H; destruct vs as [|v vs]; try reflexivity.
  destruct (Forall_inv W) as [A S]. pose proof (Forall_inv_tail W : fields_wf r fs) as Wf.
  cbn [snd] in *. cbn [fields_end] in H. cbn [offsets encode_fields store_fields].
  pose proof (round_up_ge (falign t) pos ltac:(lia)).
  pose proof (fields_end_ge r fs (round_up (falign t) pos + fsize r t) Wf).
  rewrite IH; [|exact Wf|lia]. apply store_out. rewrite encode_size by lia. lia.
Qed.

Lemma load_ext : forall m1 m2 a n,
  (forall x, a <= x < a + Z.of_nat n -> m1 x = m2 x) -> load m1 a n = load m2 a n.
Proof.
  intros. unfold load. apply map_ext_in. intros i Hi. apply in_seq in Hi. apply H. lia.
Qed.

Lemma load_fields_ext : forall r fs m1 m2 base pos,
  fields_wf r fs ->
  (forall x, base + pos <= x < base + fields_end r pos fs -> m1 x = m2 x) ->
  load_fields r m1 base pos fs = load_fields r m2 base pos fs.
Proof.
  induction fs as [|[n t] fs IH]; intros m1 m2 base pos W H; cbn [load_fields]; trivial.
  destruct (Forall_inv W) as [A S]. pose proof (Forall_inv_tail W : fields_wf r fs) as Wf.
  cbn [snd] in *. cbn [fields_end] in H.
  pose proof (round_up_ge (falign t) pos ltac:(lia)).
  pose proof (fields_end_ge r fs (round_up (falign t) pos + fsize r t) Wf).
  rewrite (load_ext m1 m2); [rewrite (IH m1 m2); trivial|]; intros; apply H; lia.
Qed.

Lemma store_ext : forall m1 m2 a v x, m1 x = m2 x -> store m1 a v x = store m2 a v x.
Proof. intros. unfold store. destruct (_ && _); trivial. Qed.

Lemma store_fields_ext : forall offs vals m1 m2 base x,
  m1 x = m2 x -> store_fields m1 base offs vals x = store_fields m2 base offs vals x.
Proof.
  induction offs as [|o offs IH]; intros vals m1 m2 base x H; destruct vals; cbn [store_fields]; trivial.
  apply IH. apply store_ext, H.
Qed.

Lemma st_var_bound : forall r fs var pos t o,
  fields_wf r fs -> st_var r pos fs var = Some (t, o) ->
  pos <= o /\ 0 <= fsize r t /\ o + fsize r t <= fields_end r pos fs.
Proof.
  induction fs as [|[n u] fs IH]; intros var pos t o W H; cbn [st_var] in H; [discriminate|].
  destruct (Forall_inv W) as [A S]. pose proof (Forall_inv_tail W : fields_wf r fs) as Wf.
  cbn [snd] in *. cbn [fields_end].
  pose proof (round_up_ge (falign u) pos ltac:(lia)).
  pose proof (fields_end_ge r fs (round_up (falign u) pos + fsize r u) Wf).
  destruct (String.eqb n var).
  - injection H as <- <-. lia.
  - apply IH in H; trivial. lia.
Qed.

Lemma st_wf : forall r name ss, block name st_blocks = Some ss -> fields_wf r ss.
Proof.
  intros r name ss H. unfold st_blocks in H. cbn [block] in H.
  repeat match type of H with
  | (if ?b then Some ?x else _) = _ =>
      destruct b; [injection H as <-; destruct r; unfold fields_wf; repeat constructor; cbn; lia|]
  end.
  discriminate H.
Qed.

Lemma struct_align_pos : forall fs, 0 < struct_align fs.
Proof.
  induction fs as [|f fs IH]; [reflexivity|].
  change (0 < Z.max (falign (snd f)) (struct_align fs)). lia.
Qed.

Lemma store_inputs_frame : forall r ss ins m base x,
  fields_wf r ss -> x < base \/ base + struct_size r ss <= x ->
  store_inputs r m base ss ins x = m x.
Proof.
  induction ins as [|[var v] ins IH]; intros m base x W H; cbn [store_inputs]; trivial.
  rewrite IH; trivial. destruct (st_var r 0 ss var) as [[t o]|] eqn:E; trivial.
  apply st_var_bound in E; trivial. apply store_out. rewrite encode_size by lia.
  pose proof (round_up_ge (struct_align ss) (fields_end r 0 ss) (struct_align_pos ss)).
  unfold struct_size in H. lia.
Qed.

Lemma store_inputs_ext : forall r ss ins m1 m2 base x,
  m1 x = m2 x -> store_inputs r m1 base ss ins x = store_inputs r m2 base ss ins x.
Proof.
  induction ins as [|[var v] ins IH]; intros m1 m2 base x H; cbn [store_inputs]; trivial.
  apply IH. destruct (st_var r 0 ss var) as [[t o]|]; trivial. apply store_ext, H.
Qed.

Lemma call_frame : forall r p m c m' a,
  st_call r p m c = Ok m' -> ~ occupies r (c_inst c) a -> m' a = m a.
Proof.
  intros r p m c m' a H N. unfold st_call in H. unfold occupies, size_of in N.
  destruct (block (i_name (c_inst c)) st_blocks) as [ss|] eqn:ES; [|discriminate].
  destruct (block (i_name (c_inst c)) rust_blocks) as [rs|] eqn:ER; [|discriminate].
  destruct (linked _ _) as [code|]; [|discriminate].
  pose proof (block_size r _ _ _ ER ES) as SZ.
  unfold rust_call in H. destruct (load_fields _ _ _ _ _) as [vs| |]; try discriminate. cbn [obind] in H.
  destruct (code vs) as [vs'| |]; try discriminate. cbn [obind] in H. injection H as <-.
  rewrite store_fields_frame; [|exact (blocks_wf r _ _ ER)|lia].
  apply store_inputs_frame; [exact (st_wf r _ _ ES)|lia].
Qed.

Lemma call_local : forall r p m1 m2 c,
  (forall a, occupies r (c_inst c) a -> m1 a = m2 a) ->
  same_on (occupies r (c_inst c)) (st_call r p m1 c) (st_call r p m2 c).
Proof.
  intros r p m1 m2 c H. unfold st_call. unfold occupies, size_of in *.
  destruct (block (i_name (c_inst c)) st_blocks) as [ss|] eqn:ES; [|exact I].
  destruct (block (i_name (c_inst c)) rust_blocks) as [rs|] eqn:ER; [|exact I].
  destruct (linked _ _) as [code|]; [|exact I].
  pose proof (block_size r _ _ _ ER ES) as SZ.
  unfold rust_call.
  rewrite (load_fields_ext r rs (store_inputs r m1 (i_base (c_inst c)) ss (c_inputs c))
             (store_inputs r m2 (i_base (c_inst c)) ss (c_inputs c))).
  - destruct (load_fields _ _ _ _ _) as [vs| |]; cbn [obind]; try exact I.
    destruct (code vs) as [vs'| |]; cbn [obind]; try exact I.
    cbn [same_on]. intros a A. apply store_fields_ext, store_inputs_ext, H, A.
  - exact (blocks_wf r _ _ ER).
  - intros x X. apply store_inputs_ext, H. lia.
Qed.

Lemma same_instance_iff : forall i j, same_instance i j = true <-> i = j.
Proof.
  intros [n b] [n' b']. unfold same_instance. cbn [i_name i_base]. rewrite andb_true_iff, String.eqb_eq, Z.eqb_eq.
  split; [intros [-> ->]; reflexivity | intros E; injection E as -> ->; auto].
Qed.

Lemma run_local : forall r p insts i prog m1 m2,
  placed r insts -> In i insts -> Forall (fun c => In (c_inst c) insts) prog ->
  (forall a, occupies r i a -> m1 a = m2 a) ->
  forall m', run r p m1 prog = Ok m' ->
  exists mi, run r p m2 (calls_of i prog) = Ok mi /\ (forall a, occupies r i a -> m' a = mi a).
Proof.
  intros r p insts i prog m1 m2 PL Hi. revert m1 m2.
  induction prog as [|c prog IH]; intros m1 m2 F A m' H.
  - injection H as <-. exists m2. split; [reflexivity|exact A].
  - cbn [run] in H. destruct (st_call r p m1 c) as [m1'| |] eqn:E; try discriminate. cbn [obind] in H.
    inversion F as [|? ? Hc F']; subst. unfold calls_of. cbn [filter]. fold (calls_of i prog).
    destruct (same_instance (c_inst c) i) eqn:SI.
    + apply same_instance_iff in SI. cbn [run]. rewrite <- SI in A.
      pose proof (call_local r p m1 m2 c A) as L. rewrite E in L.
      destruct (st_call r p m2 c) as [m2'| |]; try contradiction. cbn [same_on] in L.
      rewrite SI in L. cbn [obind]. exact (IH m1' m2' F' L m' H).
    + apply (IH m1' m2 F'); trivial. intros a O. rewrite <- A by exact O.
      apply (call_frame r p m1 c); trivial. intros O'.
      rewrite (proj2 PL _ _ a Hc Hi O' O) in SI.
      rewrite (proj2 (same_instance_iff i i) eq_refl) in SI. discriminate.
Qed.

Lemma run_frame : forall r p insts prog m m' a,
  Forall (fun c => In (c_inst c) insts) prog -> run r p m prog = Ok m' ->
  (forall i, In i insts -> ~ occupies r i a) -> m' a = m a.
Proof.
  induction prog as [|c prog IH]; intros m m' a F H N.
  - injection H as <-. reflexivity.
  - cbn [run] in H. destruct (st_call r p m c) as [m1| |] eqn:E; try discriminate. cbn [obind] in H.
    inversion F as [|? ? Hc F']; subst. rewrite (IH m1 m' a F' H N).
    apply (call_frame r p m c); trivial. apply N, Hc.
Qed.

Lemma run_ext : forall r p i prog m1 m2,
  Forall (fun c => c_inst c = i) prog -> (forall a, occupies r i a -> m1 a = m2 a) ->
  same_on (occupies r i) (run r p m1 prog) (run r p m2 prog).
Proof.
  induction prog as [|c prog IH]; intros m1 m2 F A; [exact A|].
  inversion F as [|? ? Hc F']; subst. cbn [run].
  pose proof (call_local r p m1 m2 c A) as L.
  destruct (st_call r p m1 c), (st_call r p m2 c); try contradiction; cbn [obind]; trivial.
  apply IH; trivial.
Qed.

Lemma calls_of_inst : forall i prog, Forall (fun c => c_inst c = i) (calls_of i prog).
Proof.
  intros. apply Forall_forall. intros c H. apply filter_In in H. apply same_instance_iff, H.
Qed.

Lemma run_succeeds : forall r p insts prog m,
  placed r insts -> Forall (fun c => In (c_inst c) insts) prog ->
  (forall i, In i insts -> exists mi, run r p m (calls_of i prog) = Ok mi) ->
  exists m', run r p m prog = Ok m'.
Proof.
  intros r p insts prog m PL. revert m.
  induction prog as [|c prog IH]; intros m F H; [exists m; reflexivity|].
  inversion F as [|? ? Hc F']; subst. cbn [run].
  assert (C : exists m1, st_call r p m c = Ok m1).
  { destruct (H (c_inst c) Hc) as [mi Hi]. unfold calls_of in Hi. cbn [filter] in Hi.
    rewrite (proj2 (same_instance_iff _ _) eq_refl) in Hi. cbn [run] in Hi.
    destruct (st_call r p m c) as [m1| |]; try discriminate Hi. eauto. }
  destruct C as [m1 C]. rewrite C. cbn [obind]. apply IH; trivial.
  intros i Hi. destruct (H i Hi) as [mi R]. unfold calls_of in R. cbn [filter] in R. fold (calls_of i prog) in R.
  destruct (same_instance (c_inst c) i) eqn:SI.
  - apply same_instance_iff in SI. cbn [run] in R. rewrite C in R. cbn [obind] in R. eauto.
  - pose proof (run_ext r p i (calls_of i prog) m1 m (calls_of_inst i prog)) as X.
    rewrite R in X. destruct (run r p m1 (calls_of i prog)) as [m2| |]; eauto.
    all: exfalso; apply X; intros a O; apply (call_frame r p m c m1 a C); intros O';
      rewrite (proj2 PL _ _ a Hc Hi O' O) in SI;
      rewrite (proj2 (same_instance_iff i i) eq_refl) in SI; discriminate.
Qed.

Lemma read_same : forall r i m1 m2 var,
  (forall a, occupies r i a -> m1 a = m2 a) -> st_read r m1 i var = st_read r m2 i var.
Proof.
  intros r i m1 m2 var A. unfold st_read. unfold occupies, size_of in A.
  destruct (block (i_name i) st_blocks) as [ss|] eqn:E; trivial.
  destruct (st_var r 0 ss var) as [[t o]|] eqn:V; trivial.
  apply st_var_bound in V; [|exact (st_wf r _ _ E)].
  pose proof (round_up_ge (struct_align ss) (fields_end r 0 ss) (struct_align_pos ss)).
  f_equal. apply load_ext. intros x X. apply A. unfold struct_size. lia.
Qed.

(** * Refinement: bytes against field values *)

(** The values a field of a type can hold. *)
Definition fits (t : ftype) (v : fval) : Prop :=
  match t, v with
  | FBool, VBool _ => True
  | FInt i, VInt z => In i [i16; i32; u32; i64; u64] /\ in_ity i z
  | FInstant, VStart None => True
  | FInstant, VStart (Some s) => 0 <= s < 2 ^ 63
  | _, _ => False
  end.

Lemma le_to_le : forall n z, le (to_le n z) = z mod 2 ^ (8 * Z.of_nat n).
Proof.
  induction n as [|n IH]; intros z.
  - cbn. rewrite Z.mod_1_r. reflexivity.
  - cbn [to_le le]. rewrite IH. replace (8 * Z.of_nat (S n)) with (8 + 8 * Z.of_nat n) by lia.
    rewrite Z.pow_add_r by lia. change (2 ^ 8) with 256.
    rewrite Z.rem_mul_r by lia. reflexivity.
Qed.

Lemma to_le_small : forall n z, 0 <= z < 2 ^ (8 * Z.of_nat n) -> le (to_le n z) = z.
Proof. intros. rewrite le_to_le. apply Z.mod_small, H. Qed.

Lemma first_le : forall n z l, firstn n (to_le n z ++ l) = to_le n z.
Proof.
  intros. rewrite firstn_app, to_le_length, Nat.sub_diag, firstn_O, app_nil_r.
  apply firstn_all2. rewrite to_le_length. apply Nat.le_refl.
Qed.

Lemma skip_le : forall n z l, skipn n (to_le n z ++ l) = l.
Proof.
  intros. rewrite skipn_app, to_le_length, Nat.sub_diag, skipn_O.
  rewrite skipn_all2 by (rewrite to_le_length; apply Nat.le_refl). reflexivity.
Qed.

Lemma decode_encode : forall r t v, fits t v -> decode r t (encode r t v) = Ok v.
Proof.
  intros r t v F. destruct t as [|i|n|], v as [b|z|s]; try contradiction; cbn [encode decode].
  - destruct b; reflexivity.
  - destruct F as [I R]. f_equal. f_equal. rewrite le_to_le.
    assert (B : 8 * Z.of_nat (Z.to_nat (it_bits i / 8)) = it_bits i /\ 0 < it_bits i).
    { cbn [In] in I. repeat (destruct I as [<-|I]; [split; reflexivity|]). contradiction. }
    destruct B as [-> B]. rewrite wrap_of_mod by exact B. apply wrap_id; trivial.
  - f_equal. f_equal. destruct s as [s|].
    + assert (Q : 0 <= s / 10 ^ 9 < 2 ^ 64).
      { change (0 <= s < 2 ^ 63) in F. split; [apply Z.div_pos; [lia|reflexivity]|].
        apply Z.div_lt_upper_bound; [reflexivity|].
        change (10 ^ 9 * 2 ^ 64) with (2 ^ 63 * 2000000000). lia. }
      assert (M : 0 <= s mod 10 ^ 9 < 10 ^ 9) by (apply Z.mod_pos_bound; reflexivity).
      assert (D : s / 10 ^ 9 * 10 ^ 9 + s mod 10 ^ 9 = s).
      { rewrite Z.mul_comm. symmetry. apply Z.div_mod. discriminate. }
      assert (M' : 0 <= s mod 10 ^ 9 < 2 ^ 32).
      { split; [apply M|]. eapply Z.lt_trans; [apply M|reflexivity]. }
      destruct r; unfold decode_start.
      * change (firstn 8 (skipn 16 (to_le 8 1 ++ to_le 8 (s / 10 ^ 9) ++ to_le 8 (s mod 10 ^ 9))))
          with (to_le 8 (s mod 10 ^ 9)).
        rewrite first_le, skip_le, first_le.
        rewrite (to_le_small 8 1) by (split; [discriminate|reflexivity]).
        rewrite (to_le_small 8 (s / 10 ^ 9)) by exact Q.
        rewrite (to_le_small 8 (s mod 10 ^ 9))
          by (split; [apply M | eapply Z.lt_trans; [apply M|reflexivity]]).
        cbn [Z.eqb]. f_equal. exact D.
      * rewrite skip_le, !first_le. rewrite (to_le_small 8) by exact Q. rewrite (to_le_small 4) by exact M'.
        destruct (s mod 10 ^ 9 =? 10 ^ 9) eqn:E; [apply Z.eqb_eq in E|].
        -- exfalso. destruct M as [_ M]. rewrite E in M. discriminate M.
        -- f_equal. exact D.
    + destruct r; reflexivity.
Qed.

Lemma load_store : forall m a v, load (store m a v) a (length v) = v.
Proof. exact read_store. Qed.

Lemma load_store_out : forall m a v b n,
  b + Z.of_nat n <= a \/ a + Z.of_nat (length v) <= b -> load (store m a v) b n = load m b n.
Proof. exact read_store_out. Qed.

Definition fit (fs : list (string * ftype)) (vs : list fval) : Prop :=
  Forall2 (fun f v => fits (snd f) v) fs vs.

(** Writing all fields, then reading them. *)
Lemma load_after_store : forall r fs vs m base pos,
  fields_wf r fs -> fit fs vs ->
  load_fields r (store_fields m base (offsets r pos fs) (encode_fields r fs vs)) base pos fs = Ok vs.
Proof.
  induction fs as [|[n t] fs IH]; intros vs m base pos W F; inversion F as [|? v ? vs' Fv F']; subst; trivial.
  destruct (Forall_inv W) as [A S]. pose proof (Forall_inv_tail W : fields_wf r fs) as Wf.
  cbn [snd] in *. cbn [offsets encode_fields store_fields load_fields].
  rewrite IH by assumption.
  rewrite (load_ext _ (store m (base + round_up (falign t) pos) (encode r t v))).
  - rewrite <- (encode_length r t v), load_store, decode_encode by exact Fv. reflexivity.
  - intros x X. apply store_fields_frame; trivial. lia.
Qed.

Fixpoint upd (k : nat) (v : fval) (vs : list fval) : list fval :=
  match vs, k with
  | [], _ => []
  | _ :: vs', O => v :: vs'
  | x :: vs', S k' => x :: upd k' v vs'
  end.

(** Writing one field. *)
Lemma load_upd : forall r fs vs m base pos k f t o v,
  fields_wf r fs -> nth_error fs k = Some (f, t) -> nth_error (offsets r pos fs) k = Some o ->
  fits t v -> load_fields r m base pos fs = Ok vs ->
  load_fields r (store m (base + o) (encode r t v)) base pos fs = Ok (upd k v vs).
Proof.
  induction fs as [|[n u] fs IH]; intros vs m base pos k f t o v W N O F L; [destruct k; discriminate|].
  destruct (Forall_inv W) as [A S]. pose proof (Forall_inv_tail W : fields_wf r fs) as Wf.
  cbn [snd] in *. cbn [load_fields] in *. cbn [offsets] in O.
  pose proof (round_up_ge (falign u) pos ltac:(lia)).
  set (q := round_up (falign u) pos) in *.
  destruct (decode r u (load m (base + q) (Z.to_nat (fsize r u)))) as [x| |] eqn:D; try discriminate L.
  cbn [obind] in L.
  destruct (load_fields r m base (q + fsize r u) fs) as [xs| |] eqn:T; try discriminate L.
  cbn [obind] in L. injection L as <-.
  destruct k as [|k]; cbn [nth_error upd] in *.
  - injection N as _ ->. injection O as <-.
    rewrite <- (encode_length r t v), load_store, decode_encode by exact F. cbn [obind].
    rewrite (load_fields_ext r fs _ m); trivial.
    + rewrite T. reflexivity.
    + intros y Y. apply store_out. rewrite encode_size by lia. lia.
  - assert (B : q + fsize r u <= o).
    { clear - Wf O. set (p := q + fsize r u) in *. clearbody p. revert p k O.
      induction fs as [|[n t] fs IH]; intros p k O; [destruct k; discriminate|].
      destruct (Forall_inv Wf) as [A S]. cbn [snd] in *. cbn [offsets] in O.
      pose proof (round_up_ge (falign t) p ltac:(lia)).
      destruct k; cbn [nth_error] in O; [injection O as <-; lia|].
      apply IH in O; [lia|]. exact (Forall_inv_tail Wf). }
    rewrite load_store_out by lia. rewrite D. cbn [obind].
    rewrite (IH xs m base _ k f t o v Wf N O F T). reflexivity.
Qed.

Fixpoint var_index (ss : list (string * ftype)) (var : string) : option (nat * ftype) :=
  match ss with
  | [] => None
  | (n, t) :: ss' =>
      if String.eqb n var then Some (O, t)
      else match var_index ss' var with Some (k, u) => Some (S k, u) | None => None end
  end.

Lemma var_index_nth : forall r ss var pos k t,
  var_index ss var = Some (k, t) ->
  nth_error ss k = Some (var, t) /\
  exists o, st_var r pos ss var = Some (t, o) /\ nth_error (offsets r pos ss) k = Some o.
Proof.
  induction ss as [|[n u] ss IH]; intros var pos k t H; cbn [var_index] in H; [discriminate|].
  cbn [st_var offsets]. destruct (String.eqb n var) eqn:E.
  - injection H as <- <-. apply String.eqb_eq in E. subst. split; [reflexivity|].
    eexists. split; reflexivity.
  - destruct (var_index ss var) as [[k' u']|] eqn:V; [|discriminate]. injection H as <- <-.
    cbn [nth_error]. exact (IH var _ k' u' V).
Qed.

Fixpoint upds (ss : list (string * ftype)) (ins : list (string * fval)) (vs : list fval) : list fval :=
  match ins with
  | [] => vs
  | (var, v) :: ins' =>
      upds ss ins' (match var_index ss var with Some (k, _) => upd k v vs | None => vs end)
  end.

Definition inputs_fit (ss : list (string * ftype)) (ins : list (string * fval)) : Prop :=
  Forall (fun iv => exists k t, var_index ss (fst iv) = Some (k, t) /\
                    fst iv <> "__BUFFER__" /\ fits t (snd iv)) ins.

Lemma load_inputs : forall r name rs ss ins m base vs,
  block name rust_blocks = Some rs -> block name st_blocks = Some ss -> inputs_fit ss ins ->
  load_fields r m base 0 rs = Ok vs ->
  load_fields r (store_inputs r m base ss ins) base 0 rs = Ok (upds ss ins vs).
Proof.
  intros r name rs ss ins m base vs HR HS. revert m vs.
  induction ins as [|[var v] ins IH]; intros m vs F L; [exact L|].
  inversion F as [|? ? Fv F']; subst. destruct Fv as (k & t & V & NB & Ft). cbn [fst snd] in *.
  cbn [store_inputs upds]. rewrite V.
  destruct (var_index_nth r ss var 0 k t V) as (N & o & SV & O). rewrite SV.
  destruct (block_vars r name rs ss HR HS k var t N NB) as [(f & Nf & _) OE].
  apply IH; trivial. eapply load_upd; try eassumption; [exact (blocks_wf r _ _ HR)|].
  rewrite OE. exact O.
Qed.

Lemma load_nth : forall r fs m base pos vs k f t o,
  load_fields r m base pos fs = Ok vs ->
  nth_error fs k = Some (f, t) -> nth_error (offsets r pos fs) k = Some o ->
  exists v, nth_error vs k = Some v /\ decode r t (load m (base + o) (Z.to_nat (fsize r t))) = Ok v.
Proof.
  induction fs as [|[n u] fs IH]; intros m base pos vs k f t o L N O; [destruct k; discriminate|].
  cbn [load_fields offsets] in *. set (q := round_up (falign u) pos) in *.
  destruct (decode r u (load m (base + q) (Z.to_nat (fsize r u)))) as [x| |] eqn:D; try discriminate L.
  cbn [obind] in L.
  destruct (load_fields r m base (q + fsize r u) fs) as [xs| |] eqn:T; try discriminate L.
  cbn [obind] in L. injection L as <-.
  destruct k as [|k]; cbn [nth_error] in *.
  - injection N as _ ->. injection O as <-. eauto.
  - eapply IH; eassumption.
Qed.

Lemma read_var : forall r name rs ss m base vs var k t,
  block name rust_blocks = Some rs -> block name st_blocks = Some ss ->
  load_fields r m base 0 rs = Ok vs -> var_index ss var = Some (k, t) -> var <> "__BUFFER__" ->
  exists v, nth_error vs k = Some v /\ st_read r m (Inst name base) var = Ok v.
Proof.
  intros r name rs ss m base vs var k t HR HS L V NB.
  destruct (var_index_nth r ss var 0 k t V) as (N & o & SV & O).
  destruct (block_vars r name rs ss HR HS k var t N NB) as [(f & Nf & _) OE].
  rewrite O in OE. destruct (load_nth r rs m base 0 vs k f t o L Nf OE) as (v & Nv & D).
  exists v. split; trivial. unfold st_read. cbn [i_name i_base]. rewrite HS, SV. exact D.
Qed.

(** * Simulation of an abstract instance *)

Section Simulation.
  Context (r : option_repr) (p : profile) (name : string) (base : Z)
    (rs ss : list (string * ftype))
    (HR : block name rust_blocks = Some rs) (HS : block name st_blocks = Some ss)
    (S I : Type) (good : S -> Prop) (enc : S -> list fval) (step : S -> I -> outcome S)
    (ok : I -> Prop) (ins : I -> list (string * fval)) (now1 now2 : I -> Z)
    (Hins : forall i, ok i -> inputs_fit ss (ins i))
    (Hfit : forall s, good s -> fit rs (enc s))
    (Hstep : forall s i, good s -> ok i ->
       exists code, linked name (rust_code p (now1 i) (now2 i)) = Some code /\
       code (upds ss (ins i) (enc s)) = omap enc (step s i))
    (Hgood : forall s i s', good s -> ok i -> step s i = Ok s' -> good s').

  Fixpoint steps (s : S) (h : list I) : outcome S :=
    match h with [] => Ok s | i :: h' => let! s' := step s i in steps s' h' end.

  Lemma simulate : forall h m s, good s -> Forall ok h -> load_fields r m base 0 rs = Ok (enc s) ->
    match run r p m (map (fun i => Call (Inst name base) (ins i) (now1 i) (now2 i)) h), steps s h with
    | Ok m', Ok s' => good s' /\ load_fields r m' base 0 rs = Ok (enc s')
    | Panic, Panic => True
    | Ub, Ub => True
    | _, _ => False
    end.
  Proof.
    induction h as [|i h IH]; intros m s G F L; [split; trivial|].
    inversion F as [|? ? Fi F']; subst. cbn [map run steps].
    unfold st_call at 1. cbn [c_inst i_name i_base c_now1 c_now2 c_inputs]. rewrite HS, HR.
    destruct (Hstep s i G Fi) as (code & -> & E).
    unfold rust_call. rewrite (load_inputs r name rs ss (ins i) m base (enc s) HR HS (Hins i Fi) L).
    cbn [obind]. rewrite E. destruct (step s i) as [s'| |] eqn:ES; cbn [omap obind]; trivial.
    pose proof (Hgood s i s' G Fi ES) as G'. apply IH; trivial.
    apply load_after_store; [exact (blocks_wf r _ _ HR)|]. apply Hfit, G'.
  Qed.

  (** The outputs read by ST. *)
  Lemma simulate_outputs : forall h m s vars ks,
    good s -> Forall ok h -> load_fields r m base 0 rs = Ok (enc s) ->
    Forall2 (fun var k => exists t, var_index ss var = Some (k, t) /\ var <> "__BUFFER__") vars ks ->
    outputs r (Inst name base) vars
      (run r p m (map (fun i => Call (Inst name base) (ins i) (now1 i) (now2 i)) h)) =
    omap (fun s' => map (fun k => Ok (nth k (enc s') (VBool false))) ks) (steps s h).
  Proof.
    intros h m s vars ks G F L V. pose proof (simulate h m s G F L) as X.
    destruct (run r p m _) as [m'| |], (steps s h) as [s'| |]; try contradiction; trivial.
    destruct X as [_ L']. cbn [outputs omap]. f_equal.
    induction V as [|var k vars ks (t & Vk & NB) V IH]; trivial. cbn [map]. f_equal; trivial.
    destruct (read_var r name rs ss m' base (enc s') var k t HR HS L' Vk NB) as (v & N & ->).
    f_equal. symmetry. apply nth_error_nth. exact N.
  Qed.
End Simulation.
