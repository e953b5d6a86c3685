(** The rules of the reference about times and real numbers. *)
From Coq Require Import String Ascii ZArith Lia List Bool SpecFloat Reals Lra.
From Flocq Require Import Core BinarySingleNaN.
From Verif Require Import Base ModelFloat ModelTimeNum ModelST ModelLink ModelLib ModelApi SpecScalar SpecTimeNum SpecReal SpecTicks SpecLink SpecConv SpecLib SpecCall SpecExpr SpecNum SpecTerm
  ProofBase ProofTimeNum ProofTimeAcc ProofTimeExact ProofReal2 ProofLib ProofLib2 ProofConv ProofName3 ProofApi3 ProofCall ProofExpr ProofExpr2 ProofNum.
Import ListNotations.
Open Scope string_scope.
Open Scope list_scope.
Open Scope Z_scope.
Local Opaque ModelApi.call api.

Definition scaling : list (string * string * sty) :=
  [("MUL", "MUL__TIME", S_TIME); ("MUL_TIME", "MUL_TIME", S_TIME); ("MUL_LTIME", "MUL_LTIME", S_LTIME);
   ("DIV", "DIV__TIME", S_TIME); ("DIV_TIME", "DIV_TIME", S_TIME); ("DIV_LTIME", "DIV_LTIME", S_LTIME)].
Lemma scaling_checked : forall f F u t, List.In (f, F, u) scaling -> List.In t reals -> exported f [u; t] (instance_name F [t]) u = true.
Proof.
  intros f F u t I T. assert (H : forallb (fun F => forallb (fun t => exported (fst (fst F)) [snd F; t] (instance_name (snd (fst F)) [t]) (snd F)) reals) scaling = true) by (vm_compute; reflexivity).
  rewrite forallb_forall in H. specialize (H _ I). rewrite forallb_forall in H. exact (H t T).
Qed.
Lemma scaling_call : forall P f u t a v, List.In t reals ->
  (List.In (f, u) real_multipliers -> call P f [(u, VZ a); (t, VF v)] = omap (fun z => (u, VZ z)) (MUL_TIME_REAL (p_durgen P) (fmt_of t) a v)) /\
  (List.In (f, u) real_dividers -> call P f [(u, VZ a); (t, VF v)] = omap (fun z => (u, VZ z)) (DIV_TIME_REAL (p_durgen P) (fmt_of t) a v)).
Proof.
  intros P f u t a v T.
  assert (G : forall F o, List.In (f, F, u) scaling -> rust_call P (F ++ "__" ++ type_name t)%string [VZ a; VF v] = obind o (fun r => Ok (VZ r, [VZ a; VF v])) ->
    call P f [(u, VZ a); (t, VF v)] = omap (fun z => (u, VZ z)) o).
  { intros F o I R. rewrite (generic_call P f [(u, VZ a); (t, VF v)] (instance_name F [t]) u (scaling_checked f F u t I T)), (one_type F t T).
    cbn [map snd]. rewrite R. destruct o; reflexivity. }
  split; intros I.
  - assert (exists F, List.In (f, F, u) scaling /\ rust_call P (F ++ "__" ++ type_name t)%string [VZ a; VF v] =
      obind (MUL_TIME_REAL (p_durgen P) (fmt_of t) a v) (fun r => Ok (VZ r, [VZ a; VF v]))) as (F & J & R).
    { repeat (destruct I as [I|I]; [injection I as <- <-; eexists; split; [cbn; intuition reflexivity|destruct T as [<-|[<-|[]]]; reflexivity]|]). destruct I. }
    exact (G F _ J R).
  - assert (exists F, List.In (f, F, u) scaling /\ rust_call P (F ++ "__" ++ type_name t)%string [VZ a; VF v] =
      obind (DIV_TIME_REAL (p_durgen P) (fmt_of t) a v) (fun r => Ok (VZ r, [VZ a; VF v]))) as (F & J & R).
    { repeat (destruct I as [I|I]; [injection I as <- <-; eexists; split; [cbn; intuition reflexivity|destruct T as [<-|[<-|[]]]; reflexivity]|]). destruct I. }
    exact (G F _ J R).
Qed.
Lemma scaling_typed : forall f u a, List.In (f, u) real_multipliers \/ List.In (f, u) real_dividers -> of_type u a -> in_ity i64 a.
Proof. intros f u a [I|I] A; repeat (destruct I as [I|I]; [injection I as <- <-; exact A|]); destruct I. Qed.
Lemma scaled_exactly : forall P f u t a b v, List.In t reals -> of_type u a -> of_type u b -> fl_valid (fmt_of t) v -> fl_finite v = true ->
  unrounded (p_durgen P) (fmt_of t) a b ->
  (List.In (f, u) real_multipliers -> IZR b = (IZR a * fl_value v)%R -> call P f [(u, VZ a); (t, VF v)] = Ok (u, VZ b)) /\
  (List.In (f, u) real_dividers -> fl_value v <> 0%R -> IZR b = (IZR a / fl_value v)%R -> call P f [(u, VZ a); (t, VF v)] = Ok (u, VZ b)).
Proof.
  intros P f u t a b v T A B V W U. destruct (scaling_call P f u t a v T) as [M D].
  pose proof (fun Ia Ib => time_exact (p_durgen P) (fmt_of t) a b v (real_fmt t T) Ia Ib V W U) as X. split.
  - intros I E. rewrite (M I), (proj1 (X (scaling_typed f u a (or_introl I) A) (scaling_typed f u b (or_introl I) B)) E). reflexivity.
  - intros I N E. rewrite (D I), (proj2 (X (scaling_typed f u a (or_intror I) A) (scaling_typed f u b (or_intror I) B)) N E). reflexivity.
Qed.
Lemma scaled_away : forall P f u t a v, List.In t reals -> of_type u a -> fl_valid (fmt_of t) v -> fl_finite v = true ->
  (List.In (f, u) real_multipliers -> (IZR (2 ^ 63) + time_error (p_durgen P) (fmt_of t) (IZR a * fl_value v) < Rabs (IZR a * fl_value v))%R ->
     call P f [(u, VZ a); (t, VF v)] = Panic) /\
  (List.In (f, u) real_dividers -> fl_value v <> 0%R -> (IZR (2 ^ 63) + time_error (p_durgen P) (fmt_of t) (IZR a / fl_value v) < Rabs (IZR a / fl_value v))%R ->
     call P f [(u, VZ a); (t, VF v)] = Panic) /\
  (List.In (f, u) real_dividers -> fl_value v = 0%R -> call P f [(u, VZ a); (t, VF v)] = Panic).
Proof.
  intros P f u t a v T A V W. destruct (scaling_call P f u t a v T) as [M D].
  pose proof (fun Ia => time_overflow (p_durgen P) (fmt_of t) a v (real_fmt t T) Ia V W) as X. change (IZR (2 ^ 63)) with 9223372036854775808%R. split; [|split].
  - intros I E. rewrite (M I), (proj1 (X (scaling_typed f u a (or_introl I) A)) E). reflexivity.
  - intros I N E. rewrite (D I), (proj2 (X (scaling_typed f u a (or_intror I) A)) N E). reflexivity.
  - intros I E. rewrite (D I). assert (exists s, v = FNum (S754_zero s)) as [s ->].
    { destruct v as [[s|s| |s m e]|]; try discriminate W; [now exists s|]. exfalso. unfold fl_value, sf_value in E. cbn [fl_sf SF2R] in E.
      apply eq_0_F2R in E. destruct s; discriminate E. }
    rewrite div_by_zero. reflexivity.
Qed.
