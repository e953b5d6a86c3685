(** Proofs about the declarations of functions and their bodies. *)
From Coq Require Import String ZArith Lia List Bool.
From Verif Require Import Base ModelText ModelString ModelLink ModelLib ModelApi SpecText SpecLink SpecCall ProofText ProofString.
Import ListNotations.
Open Scope string_scope.
Open Scope list_scope.
Open Scope Z_scope.

Fixpoint scoped (ps : list string) (e : expr) : bool :=
  match e with
  | Arg x => existsb (String.eqb x) ps
  | Result => true
  | Call f l => existsb (fun d => String.eqb (d_name d) f && Nat.eqb (length (d_params d)) (length l)) st_decls && forallb (scoped ps) l
  end.
Fixpoint scoped_ok (ps : list string) (e : expr) {struct e} : scoped ps e = true -> well_scoped ps e.
Proof.
  destruct e as [x| |f l]; intros H.
  - cbn [scoped] in H. apply existsb_exists in H as (y & I & E). apply String.eqb_eq in E as ->. now constructor.
  - constructor.
  - cbn [scoped] in H. apply andb_true_iff in H as [H F]. apply existsb_exists in H as (d & I & E).
    apply andb_true_iff in E as [E L]. apply String.eqb_eq in E. apply Nat.eqb_eq in L.
    apply (scoped_call ps f l d I E L). clear - F scoped_ok. induction l as [|a l IH]; [constructor|].
    cbn [forallb] in F. apply andb_true_iff in F as [A F]. constructor; [exact (scoped_ok ps a A)|exact (IH F)].
Qed.
Definition body_expr (b : body) : option expr := match b with Assign e | Do e => Some e | _ => None end.
Lemma bodies : forall d e, List.In d st_decls -> d_body d = Assign e \/ d_body d = Do e ->
  well_scoped (map (fun p => fst (fst p)) (d_params d)) e.
Proof.
  assert (C : forallb (fun d => match body_expr (d_body d) with
    | Some e => scoped (map (fun p => fst (fst p)) (d_params d)) e | None => true end) st_decls = true) by (vm_compute; reflexivity).
  intros d e D B. rewrite forallb_forall in C. specialize (C d D). apply scoped_ok.
  destruct B as [B|B]; rewrite B in C; exact C.
Qed.
Definition exported (n : string) : bool := existsb (fun s => String.eqb (sy_name s) n) rust_symbols.
Lemma exported_iff : forall n, exported n = true <-> exists s, List.In s rust_symbols /\ sy_name s = n.
Proof.
  intros n. unfold exported. rewrite existsb_exists. split; intros (s & I & E); exists s; (split; [exact I|]);
    [now apply String.eqb_eq|now apply String.eqb_eq].
Qed.
Lemma code_of : forall d, List.In d st_decls ->
  ((exists s, List.In s rust_symbols /\ sy_name s = d_name d) -> d_external d = true /\ d_body d = Empty) /\
  (d_generic d = [] -> d_body d = Empty -> exists s, List.In s rust_symbols /\ sy_name s = d_name d) /\
  (d_generic d <> [] -> d_body d = Empty).
Proof.
  assert (C : forallb (fun d => (negb (exported (d_name d)) || (d_external d && match d_body d with Empty => true | _ => false end)) &&
     (negb (match d_generic d with [] => true | _ => false end && match d_body d with Empty => true | _ => false end) || exported (d_name d)) &&
     (match d_generic d with [] => true | _ => false end || match d_body d with Empty => true | _ => false end)) st_decls = true)
    by (vm_compute; reflexivity).
  intros d D. rewrite forallb_forall in C. specialize (C d D).
  apply andb_true_iff in C as [C C3]. apply andb_true_iff in C as [C1 C2]. rewrite <- exported_iff. repeat split.
  - rewrite H in C1. cbn in C1. apply andb_true_iff in C1 as [C1 _]. exact C1.
  - rewrite H in C1. cbn in C1. apply andb_true_iff in C1 as [_ C1]. destruct (d_body d); [reflexivity|discriminate C1..].
  - intros G B. rewrite G, B in C2. exact C2.
  - intros G. destruct (d_generic d); [contradiction|]. cbn in C3. destruct (d_body d); [reflexivity|discriminate C3..].
Qed.
Lemma split_ldt_bodies : forall t, List.In t wide_ints -> exists d, List.In d st_decls /\ d_name d = instance_name "SPLIT_LDT" [t] /\
  d_external d = true /\ ~ (exists s, List.In s rust_symbols /\ sy_name s = d_name d) /\
  d_body d = Assign (Call (instance_name "SPLIT_DT" [t]) (map (fun p => Arg (fst (fst p))) (d_params d))).
Proof.
  intros t I. destruct (find_decl (instance_name "SPLIT_LDT" [t])) as [d|] eqn:F.
  - pose proof F as G. unfold find_decl in G. apply find_some in G as [D N]. apply String.eqb_eq in N.
    exists d. split; [exact D|]. split; [exact N|]. rewrite <- exported_iff, N. clear D N.
    repeat (destruct I as [<-|I]; [vm_compute in F; injection F as <-; split; [reflexivity|]; split; [vm_compute; discriminate|reflexivity]|]).
    destruct I.
  - repeat (destruct I as [<-|I]; [vm_compute in F; discriminate F|]). destruct I.
Qed.
Lemma hd_utf8 : forall c, hd 255 (utf8_char c) = hd 0 (utf8_char c).
Proof. intros c. unfold utf8_char. destruct (c <? 0x80); [reflexivity|]. destruct (c <? 0x800); [reflexivity|]. now destruct (c <? 0x10000). Qed.
Lemma wchar : forall w, 0 <= w < 65536 ->
  WCHAR_TO_CHAR w = hd 0 (utf8_char (if (0xD800 <=? w) && (w <=? 0xDFFF) then 0xFFFD else w)).
Proof.
  intros w H. unfold WCHAR_TO_CHAR. cbn [decode_utf16]. rewrite surrogate_test by lia. unfold between.
  destruct (Z.leb_spec 0xD800 w), (Z.leb_spec w 0xDFFF); cbn [andb negb].
  - assert (E : (if 0xDC00 <=? w then [None] else [None]) = [@None Z]) by now destruct (0xDC00 <=? w).
    rewrite E. reflexivity.
  - cbn [map or_replacement]. rewrite encode_utf8_spec by (unfold is_scalar; lia). apply hd_utf8.
  - cbn [map or_replacement]. rewrite encode_utf8_spec by (unfold is_scalar; lia). apply hd_utf8.
  - lia.
Qed.
Lemma char_wide : forall c, 0 <= c < 256 -> CHAR_TO_WCHAR c = c.
Proof.
  intros c H. assert (A : forallb (fun n => CHAR_TO_WCHAR (Z.of_nat n) =? Z.of_nat n) (seq 0 256) = true) by (vm_compute; reflexivity).
  rewrite forallb_forall in A. specialize (A (Z.to_nat c)). rewrite Z2Nat.id in A by lia. apply Z.eqb_eq, A, in_seq. lia.
Qed.
