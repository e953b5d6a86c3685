(** Lemmas about the interface tables: the properties are decided by computation. *)
From Coq Require Import String ZArith List Bool Lia.
From Verif Require Import Base ModelLink SpecLink.
Import ListNotations.
Open Scope string_scope.
Open Scope list_scope.

Lemma rty_eqb_eq : forall a b, rty_eqb a b = true -> a = b.
Proof.
  induction a; destruct b; intros H; try discriminate H; try reflexivity.
  cbn in H. apply andb_true_iff in H as [A B]. apply Bool.eqb_prop in A. apply IHa in B. now subst.
Qed.
Definition mem_rty (r : rty) (l : list rty) : bool := existsb (rty_eqb r) l.
Lemma mem_rty_in : forall r l, mem_rty r l = true -> List.In r l.
Proof.
  intros r l H. apply existsb_exists in H as (x & I & E). apply rty_eqb_eq in E. now subst.
Qed.
Definition stringb (t : sty) : bool := match t with S_STRING | S_WSTRING => true | _ => false end.
Lemma stringb_is : forall t, stringb t = true -> is_string t.
Proof. intros t H. destruct t; try discriminate H; [now left|now right]. Qed.

(** Strip the types of one parameter. *)
Definition strip1 (k : pkind) (t : sty) (l : list rty) : option (list rty * list rty) :=
  match k, l with
  | Input, Ptr false r :: q => if stringb t && mem_rty r (memory_types t) then Some ([Ptr false r], q) else None
  | Input, r :: q => if mem_rty r (value_types t) then Some ([r], q) else None
  | InputRef, Ptr false r :: q => if mem_rty r (memory_types t) then Some ([Ptr false r], q) else None
  | Output, Ptr true r :: q => if mem_rty r (memory_types t) then Some ([Ptr true r], q) else None
  | InOut, Ptr true r :: q => if mem_rty r (memory_types t) then Some ([Ptr true r], q) else None
  | Sized, n :: Ptr false r :: q =>
      if mem_rty n [I32; U32] && mem_rty r (value_types t) then Some ([n; Ptr false r], q) else None
  | SizedRef, n :: Ptr false (Ptr false r) :: q =>
      if mem_rty n [I32; U32] && mem_rty r (memory_types t) then Some ([n; Ptr false (Ptr false r)], q) else None
  | _, _ => None
  end.
Lemma strip1_passed : forall k t l p q, strip1 k t l = Some (p, q) -> passed k t p /\ l = p ++ q.
Proof.
  intros k t l p q H. unfold strip1 in H.
  destruct k; repeat match type of H with
    | (match ?x with _ => _ end) = _ => destruct x eqn:?; try discriminate H
    end;
  injection H as <- <-;
  repeat match goal with E : (_ && _) = true |- _ => apply andb_true_iff in E as [? ?] end;
  (split; [|reflexivity]); subst;
  repeat match goal with E : mem_rty _ _ = true |- _ => apply mem_rty_in in E end;
  first [now apply string_by_value; [apply stringb_is|] | now constructor].
Qed.
Fixpoint strip_all (ps : list (pkind * sty)) (l : list rty) : bool :=
  match ps with
  | [] => match l with [] => true | _ => false end
  | (k, t) :: ps' => match strip1 k t l with Some (_, q) => strip_all ps' q | None => false end
  end.
Lemma strip_all_passed : forall ps l, strip_all ps l = true ->
  exists parts, Forall2 (fun p l => passed (fst p) (snd p) l) ps parts /\ l = concat parts.
Proof.
  induction ps as [|[k t] ps IH]; intros l H; cbn [strip_all] in H.
  - destruct l; [|discriminate H]. exists []. split; [constructor|reflexivity].
  - destruct (strip1 k t l) as [[p q]|] eqn:E; [|discriminate H].
    apply strip1_passed in E as [P ->]. apply IH in H as (parts & F & ->).
    exists (p :: parts). split; [now constructor|reflexivity].
Qed.
Definition implementsb (s : symbol) (ret : sty) (ps : list (pkind * sty)) : bool :=
  match ret, sy_ret s, sy_params s with
  | S_STRING, Unit, Ptr true U8 :: q => strip_all ps q
  | S_WSTRING, Unit, Ptr true U16 :: q => strip_all ps q
  | _, r, l => mem_rty r (value_types ret) && strip_all ps l
  end.
Lemma implementsb_implements : forall s ret ps, implementsb s ret ps = true -> implements s ret ps.
Proof.
  intros s ret ps H.
  assert (G : mem_rty (sy_ret s) (value_types ret) && strip_all ps (sy_params s) = true -> implements s ret ps).
  { intros K. apply andb_true_iff in K as [A B]. apply mem_rty_in in A. apply strip_all_passed in B as (parts & F & E).
    exists parts. split; [exact F|]. now right. }
  unfold implementsb in H. destruct ret; try (exact (G H)).
  - destruct (sy_ret s) eqn:R; try (exact (G H)). destruct (sy_params s) as [|r q] eqn:P; [exact (G H)|].
    destruct r; try (exact (G H)). destruct mutable; [|exact (G H)]. destruct r; try (exact (G H)).
    apply strip_all_passed in H as (parts & F & E). exists parts. split; [exact F|]. left.
    split; [now left|]. split; [exact R|]. exists U8. split; [now left|]. now rewrite P, E.
  - destruct (sy_ret s) eqn:R; try (exact (G H)). destruct (sy_params s) as [|r q] eqn:P; [exact (G H)|].
    destruct r; try (exact (G H)). destruct mutable; [|exact (G H)]. destruct r; try (exact (G H)).
    apply strip_all_passed in H as (parts & F & E). exists parts. split; [exact F|]. left.
    split; [now right|]. split; [exact R|]. exists U16. split; [now left|]. now rewrite P, E.
Qed.

(** Types of an instance. *)
Fixpoint inst_params (g : list (string * class)) (ts : list sty) (ps : list (string * pkind * tyref))
    : option (list (pkind * sty)) :=
  match ps with
  | [] => Some []
  | (_, k, r) :: ps' =>
      match subst g ts r, inst_params g ts ps' with
      | Some t, Some l => Some ((k, t) :: l)
      | _, _ => None
      end
  end.
Lemma subst_means : forall d ts r t, subst (d_generic d) ts r = Some t -> means d ts r t.
Proof.
  intros d ts [s|x] t H; cbn [subst] in H.
  - left. congruence.
  - right. exists x. split; [reflexivity|].
    destruct (find _ _) as [[y u]|] eqn:E; [|discriminate H]. apply find_some in E as [I E].
    cbn in E, H. apply String.eqb_eq in E. injection H as <-. now subst.
Qed.
Lemma inst_params_means : forall d ts ps l, inst_params (d_generic d) ts ps = Some l ->
  Forall2 (fun p q => snd (fst p) = fst q /\ means d ts (snd p) (snd q)) ps l.
Proof.
  intros d ts. induction ps as [|[[x k] r] ps IH]; intros l H; cbn [inst_params] in H.
  - injection H as <-. constructor.
  - destruct (subst _ _ r) eqn:E; [|discriminate H]. destruct (inst_params _ _ ps); [|discriminate H].
    injection H as <-. constructor; [|now apply IH]. split; [reflexivity|]. now apply subst_means.
Qed.
Definition agrees (d : decl) (ts : list sty) (s : symbol) : bool :=
  match subst (d_generic d) ts (d_ret d), inst_params (d_generic d) ts (d_params d) with
  | Some ret, Some ps => (length ts =? length (d_generic d))%nat && implementsb s ret ps
  | _, _ => false
  end.
Lemma agrees_spec : forall d ts s, agrees d ts s = true ->
  exists ret ps, typed d ts ret ps /\ implements s ret ps.
Proof.
  intros d ts s H. unfold agrees in H. destruct (subst _ _ _) as [ret|] eqn:A; [|discriminate H].
  destruct (inst_params _ _ _) as [ps|] eqn:B; [|discriminate H]. apply andb_true_iff in H as [L I].
  exists ret, ps. split; [|now apply implementsb_implements]. split; [now apply Nat.eqb_eq|].
  split; [now apply subst_means|now apply inst_params_means].
Qed.

(** All lists of types of a given length. *)
Definition all_sty : list sty :=
  [S_BOOL; S_BYTE; S_WORD; S_DWORD; S_LWORD; S_SINT; S_INT; S_DINT; S_LINT; S_USINT; S_UINT; S_UDINT;
   S_ULINT; S_REAL; S_LREAL; S_CHAR; S_WCHAR; S_TIME; S_LTIME; S_DATE; S_LDATE; S_TOD; S_LTOD; S_DT;
   S_LDT; S_STRING; S_WSTRING].
Lemma all_sty_all : forall t, List.In t all_sty.
Proof. destruct t; cbn; repeat (first [left; reflexivity | right]). Qed.
Fixpoint tuples (n : nat) : list (list sty) :=
  match n with O => [[]] | S k => flat_map (fun t => map (cons t) (tuples k)) all_sty end.
Lemma tuples_all : forall ts, List.In ts (tuples (length ts)).
Proof.
  induction ts as [|t ts IH]; [now left|]. cbn [length tuples]. apply in_flat_map. exists t.
  split; [apply all_sty_all|]. now apply in_map.
Qed.

(** The names of the symbols are few: test the symbol first. *)
Definition check_name (syms : list symbol) (d : decl) (ts : list sty) (n : string) : bool :=
  forallb (fun s => if String.eqb (sy_name s) n then agrees d ts s else true) syms.
Definition check_interfaces (decls : list decl) (syms : list symbol) : bool :=
  forallb (fun d => forallb (fun ts => check_name syms d ts (instance_name (d_name d) ts))
    (tuples (length (d_generic d)))) decls.
Lemma check_interfaces_sound : forall decls syms, check_interfaces decls syms = true ->
  forall d ts s, List.In d decls -> length ts = length (d_generic d) ->
  List.In s syms -> sy_name s = instance_name (d_name d) ts -> agrees d ts s = true.
Proof.
  intros decls syms H d ts s D L S N. unfold check_interfaces in H.
  rewrite forallb_forall in H. specialize (H d D). rewrite forallb_forall in H.
  specialize (H ts). rewrite <- L in H. specialize (H (tuples_all ts)). unfold check_name in H.
  rewrite forallb_forall in H. specialize (H s S). now rewrite N, String.eqb_refl in H.
Qed.
Lemma interfaces_checked : check_interfaces st_decls rust_symbols = true.
Proof. vm_compute. reflexivity. Qed.
Lemma interfaces_agree : forall d ts s, List.In d st_decls -> length ts = length (d_generic d) ->
  List.In s rust_symbols -> sy_name s = instance_name (d_name d) ts ->
  exists ret ps, typed d ts ret ps /\ implements s ret ps.
Proof.
  intros d ts s D L S N. apply agrees_spec.
  exact (check_interfaces_sound _ _ interfaces_checked d ts s D L S N).
Qed.

Definition split_ldt : list string :=
  ["SPLIT_LDT__INT"; "SPLIT_LDT__UINT"; "SPLIT_LDT__DINT"; "SPLIT_LDT__UDINT"; "SPLIT_LDT__LINT"; "SPLIT_LDT__ULINT"].
Definition memb (x : string) (l : list string) : bool := existsb (String.eqb x) l.
Lemma memb_in : forall x l, memb x l = true <-> List.In x l.
Proof.
  intros x l. unfold memb. rewrite existsb_exists. split.
  - intros (y & I & E). apply String.eqb_eq in E. now subst.
  - intros I. exists x. split; [exact I|apply String.eqb_refl].
Qed.
Definition symbol_names : list string := map sy_name rust_symbols.
Lemma symbol_named : forall n, memb n symbol_names = true <-> exists s, List.In s rust_symbols /\ sy_name s = n.
Proof.
  intros n. rewrite memb_in. unfold symbol_names. rewrite in_map_iff. split.
  - intros (s & E & I). now exists s.
  - intros (s & I & E). now exists s.
Qed.
Definition check_externals (decls : list decl) (names : list string) : bool :=
  forallb (fun d => if d_external d && match d_generic d with [] => true | _ => false end
                    then Bool.eqb (memb (d_name d) names) (negb (memb (d_name d) split_ldt)) else true) decls.
Lemma check_externals_sound : forall decls names, check_externals decls names = true ->
  forall d, List.In d decls -> d_external d = true -> d_generic d = [] ->
  memb (d_name d) names = negb (memb (d_name d) split_ldt).
Proof.
  intros decls names H d D E G. unfold check_externals in H. rewrite forallb_forall in H.
  specialize (H d D). rewrite E, G in H. cbn [andb] in H. now apply Bool.eqb_prop in H.
Qed.
Lemma externals_checked : check_externals st_decls symbol_names = true.
Proof. vm_compute. reflexivity. Qed.
Lemma externals : forall d, List.In d st_decls -> d_external d = true -> d_generic d = [] ->
  ((exists s, List.In s rust_symbols /\ sy_name s = d_name d) <-> ~ List.In (d_name d) split_ldt).
Proof.
  intros d D E G. pose proof (check_externals_sound _ _ externals_checked d D E G) as H.
  rewrite <- symbol_named, <- memb_in, H. destruct (memb (d_name d) split_ldt); cbn; intuition congruence.
Qed.

Fixpoint nodupb (l : list string) : bool :=
  match l with [] => true | x :: r => negb (memb x r) && nodupb r end.
Lemma nodupb_NoDup : forall l, nodupb l = true -> NoDup l.
Proof.
  induction l as [|x l IH]; intros H; [constructor|]. cbn in H. apply andb_true_iff in H as [A B].
  constructor; [|now apply IH]. rewrite <- memb_in. destruct (memb x l); [discriminate A|discriminate].
Qed.
Lemma unique_names : NoDup (map sy_name rust_symbols) /\ NoDup (map d_name st_decls).
Proof. split; apply nodupb_NoDup; vm_compute; reflexivity. Qed.

(** * Calling convention *)
Definition rust_abi : list string :=
  ["SHL"; "SHR"; "ROL"; "ROR"; "TO_BIG_ENDIAN"; "TO_LITTLE_ENDIAN"; "FROM_BIG_ENDIAN"; "FROM_LITTLE_ENDIAN"].
Definition check_c (syms : list symbol) : bool :=
  forallb (fun s => Bool.eqb (sy_c s)
     (negb (memb (sy_name s) (flat_map (fun g => map (fun t => instance_name g [t]) all_sty) rust_abi)))) syms.
Lemma check_c_sound : forall syms, check_c syms = true -> forall s, List.In s syms ->
  (sy_c s = false <-> exists g t, List.In g rust_abi /\ sy_name s = instance_name g [t]).
Proof.
  intros syms H s S. unfold check_c in H. rewrite forallb_forall in H. specialize (H s S).
  apply Bool.eqb_prop in H. rewrite H. rewrite Bool.negb_false_iff, memb_in, in_flat_map. split.
  - intros (g & G & I). apply in_map_iff in I as (t & E & _). now exists g, t.
  - intros (g & t & G & E). exists g. split; [exact G|]. apply in_map_iff. exists t.
    split; [now symmetry|apply all_sty_all].
Qed.
Lemma c_checked : check_c rust_symbols = true.
Proof. vm_compute. reflexivity. Qed.

(** * Code for the instances of generic functions *)
Definition bodies : list string :=
  map d_name (filter (fun d => negb (d_external d) && match d_generic d with [] => true | _ => false end
                               && match d_body d with Empty => false | _ => true end) st_decls).
Definition code_names : list string := symbol_names ++ bodies.
Lemma has_code_names : forall n, has_code n <-> memb n code_names = true.
Proof.
  intros n. rewrite memb_in. unfold code_names. rewrite in_app_iff. unfold has_code.
  rewrite <- symbol_named, memb_in. unfold bodies. rewrite in_map_iff. split; (intros [H|H]; [now left|right]).
  - destruct H as (d & D & N & G & E & B). exists d. split; [exact N|]. apply filter_In. split; [exact D|].
    rewrite E, G. destruct (d_body d); [congruence|reflexivity..].
  - destruct H as (d & N & F). apply filter_In in F as [D F]. exists d. rewrite !andb_true_iff in F.
    destruct F as [[E G] B]. split; [exact D|]. split; [exact N|]. split; [destruct (d_generic d); [reflexivity|discriminate G]|].
    split; [destruct (d_external d); [discriminate E|reflexivity]|]. intros X. rewrite X in B. discriminate B.
Qed.
Definition sty_eqb (a b : sty) : bool :=
  match a, b with
  | S_BOOL, S_BOOL | S_BYTE, S_BYTE | S_WORD, S_WORD | S_DWORD, S_DWORD | S_LWORD, S_LWORD | S_SINT, S_SINT
  | S_INT, S_INT | S_DINT, S_DINT | S_LINT, S_LINT | S_USINT, S_USINT | S_UINT, S_UINT | S_UDINT, S_UDINT
  | S_ULINT, S_ULINT | S_REAL, S_REAL | S_LREAL, S_LREAL | S_CHAR, S_CHAR | S_WCHAR, S_WCHAR | S_TIME, S_TIME
  | S_LTIME, S_LTIME | S_DATE, S_DATE | S_LDATE, S_LDATE | S_TOD, S_TOD | S_LTOD, S_LTOD | S_DT, S_DT
  | S_LDT, S_LDT | S_STRING, S_STRING | S_WSTRING, S_WSTRING => true
  | _, _ => false
  end.
Lemma sty_eqb_eq : forall a b, sty_eqb a b = true <-> a = b.
Proof. intros a b. split; [destruct a, b; intros H; first [reflexivity|discriminate H]|intros <-; now destruct a]. Qed.
Definition without (m : list (string * list sty)) (g : string) (t : sty) : bool :=
  existsb (fun p => String.eqb (fst p) g && existsb (sty_eqb t) (snd p)) m.
Lemma without_in : forall m g t, without m g t = true <-> exists l, List.In (g, l) m /\ List.In t l.
Proof.
  intros m g t. unfold without. rewrite existsb_exists. split.
  - intros ([h l] & I & E). cbn in E. apply andb_true_iff in E as [A B]. apply String.eqb_eq in A. subst.
    apply existsb_exists in B as (u & J & B). apply sty_eqb_eq in B. subst. now exists l.
  - intros (l & I & J). exists (g, l). split; [exact I|]. cbn. rewrite String.eqb_refl. cbn.
    apply existsb_exists. exists t. split; [exact J|now apply sty_eqb_eq].
Qed.
Definition check_generic (decls : list decl) (names : list string) (m : list (string * list sty)) : bool :=
  forallb (fun d => match d_generic d with
    | [(_, c)] => forallb (fun t => Bool.eqb (memb (instance_name (d_name d) [t]) names) (negb (without m (d_name d) t))) (members c)
    | _ => true end) decls.
Lemma check_generic_sound : forall decls names m, check_generic decls names m = true ->
  forall d x c t, List.In d decls -> d_generic d = [(x, c)] -> List.In t (members c) ->
  memb (instance_name (d_name d) [t]) names = negb (without m (d_name d) t).
Proof.
  intros decls names m H d x c t D G T. unfold check_generic in H. rewrite forallb_forall in H.
  specialize (H d D). rewrite G in H. rewrite forallb_forall in H. specialize (H t T).
  now apply Bool.eqb_prop in H.
Qed.
Lemma generic_checked : check_generic st_decls code_names no_code = true.
Proof. vm_compute. reflexivity. Qed.
Lemma generic_code : forall d x c t, List.In d st_decls -> d_generic d = [(x, c)] -> List.In t (members c) ->
  (has_code (instance_name (d_name d) [t]) <-> ~ exists l, List.In (d_name d, l) no_code /\ List.In t l).
Proof.
  intros d x c t D G T. pose proof (check_generic_sound _ _ _ generic_checked d x c t D G T) as H.
  rewrite has_code_names, H, <- without_in. destruct (without no_code (d_name d) t); cbn; split; intros; congruence.
Qed.
Lemma expt_checked : forallb (fun t => forallb (fun u => memb (instance_name "EXPT" [t; u]) code_names) (members ANY_NUM)) (members ANY_REAL) = true.
Proof. vm_compute. reflexivity. Qed.
Lemma expt_code : forall t u, List.In t (members ANY_REAL) -> List.In u (members ANY_NUM) ->
  has_code (instance_name "EXPT" [t; u]).
Proof.
  intros t u T U. apply has_code_names. pose proof expt_checked as H. rewrite forallb_forall in H.
  specialize (H t T). rewrite forallb_forall in H. exact (H u U).
Qed.

(** * Symbols without a declaration *)
Definition declared_names (decls : list decl) : list string :=
  flat_map (fun d => map (instance_name (d_name d)) (tuples (length (d_generic d)))) decls.
Definition undeclared : list string := ["concat_date"; "concat_tod"; "REAL_TO_STRING_EXT"].
Lemma tuples_length : forall n ts, List.In ts (tuples n) -> length ts = n.
Proof.
  induction n as [|n IH]; cbn [tuples]; intros ts I.
  - destruct I as [<-|[]]. reflexivity.
  - apply in_flat_map in I as (t & _ & I). apply in_map_iff in I as (us & <- & I). cbn. f_equal. now apply IH.
Qed.
Definition check_symbols (decls : list decl) (syms : list symbol) : bool :=
  let names := declared_names decls in
  forallb (fun s => Bool.eqb (memb (sy_name s) names) (negb (memb (sy_name s) (undeclared ++ function_blocks)%list))) syms.
Lemma check_symbols_sound : forall decls syms, check_symbols decls syms = true -> forall s, List.In s syms ->
  ((exists d ts, List.In d decls /\ length ts = length (d_generic d) /\ sy_name s = instance_name (d_name d) ts) <->
   ~ List.In (sy_name s) (undeclared ++ function_blocks)%list).
Proof.
  intros decls syms H s S. unfold check_symbols in H. rewrite forallb_forall in H. specialize (H s S).
  apply Bool.eqb_prop in H. rewrite <- memb_in.
  assert (D : memb (sy_name s) (declared_names decls) = true <->
    (exists d ts, List.In d decls /\ length ts = length (d_generic d) /\ sy_name s = instance_name (d_name d) ts)).
  { rewrite memb_in. unfold declared_names. rewrite in_flat_map. split.
    - intros (d & D & I). apply in_map_iff in I as (ts & E & T). exists d, ts. split; [exact D|]. split; [|now symmetry].
      now apply tuples_length.
    - intros (d & ts & D & L & E). exists d. split; [exact D|]. apply in_map_iff. exists ts. split; [now symmetry|].
      rewrite <- L. apply tuples_all. }
  rewrite <- D, H. destruct (memb (sy_name s) (undeclared ++ function_blocks)); cbn; split; congruence.
Qed.
Lemma symbols_checked : check_symbols st_decls rust_symbols = true.
Proof. vm_compute. reflexivity. Qed.

(** * Delegation *)
Ltac take_args L := match type of L with
  | length ?l = O => destruct l; [clear L|discriminate L]
  | length ?l = S _ => let a := fresh "a" in destruct l as [|a l]; [discriminate L
      |apply (f_equal Nat.pred) in L; cbn [Nat.pred length] in L; take_args L]
  end.
Ltac known_args L :=
  match type of L with _ = ?n => let m := eval vm_compute in n in change n with m in L end; take_args L.
Ltac outs_cases o := first [reflexivity | destruct o as [|? o]; [reflexivity|outs_cases o]].

Lemma alias_calls : forall V (ext : string -> list V -> outcome (V * list V)) init f g args,
  List.In (f, g) aliases -> length args = arity f ->
  omap fst (calls ext init f args) = omap fst (ext g args).
Proof.
  intros V ext init f g args I L. unfold aliases in I.
  repeat (destruct I as [I|I];
    [injection I as <- <-; known_args L; vm_compute;
     match goal with |- context [ext ?a ?b] => destruct (ext a b) as [[v o]| |] end;
     [outs_cases o|reflexivity|reflexivity]| ]).
  destruct I.
Qed.

Lemma result_calls : forall V (ext : string -> list V -> outcome (V * list V)) init f g t args,
  List.In (f, g, t) result_of -> S (length args) = arity g ->
  (forall v outs, ext g (args ++ [init t])%list = Ok (v, outs) -> length outs = S (length args)) ->
  omap fst (calls ext init f args) = let! '(_, outs) := ext g (args ++ [init t])%list in Ok (last outs (init t)).
Proof.
  intros V ext init f g t args I L O. unfold result_of in I.
  repeat (destruct I as [I|I];
   [injection I as <- <- <-; match type of L with _ = ?n => let m := eval vm_compute in n in change n with m in L end;
    apply (f_equal Nat.pred) in L; cbn [Nat.pred] in L; take_args L;
    cbn [app length] in O; set (b := init _) in *;
    match type of O with forall v o, ?e = _ -> _ => destruct e as [[v o]| |] eqn:E end;
    [specialize (O _ _ eq_refl); take_args O; vm_compute; vm_compute in E; unfold b in E; rewrite E; reflexivity
    |vm_compute; vm_compute in E; unfold b in E; rewrite E; reflexivity..]| ]).
  destruct I.
Qed.

Lemma widened_calls : forall V (ext : string -> list V -> outcome (V * list V)) init f g a u p v q w,
  List.In (f, g) widened ->
  ext g [a; init S_STRING] = Ok (u, [p; v]) ->
  ext "STRING_TO_WSTRING_EXT" [v; init S_WSTRING] = Ok (q, w) -> length w = 2%nat ->
  omap fst (calls ext init f [a]) = Ok (last w (init S_WSTRING)).
Proof.
  intros V ext init f g a u p v q w I E F W. take_args W. unfold widened in I.
  repeat (destruct I as [I|I];
   [injection I as <- <-; vm_compute in E, F; vm_compute; rewrite E; rewrite F; reflexivity| ]).
  destruct I.
Qed.

Lemma concat_calls : forall V (ext : string -> list V -> outcome (V * list V)) init t c
    y m d h mi s ms date outs tod outs',
  List.In t wide_ints -> List.In c ["CONCAT_DT"; "CONCAT_LDT"] ->
  ext (instance_name "CONCAT_DATE" [t]) [y; m; d] = Ok (date, outs) -> length outs = 3%nat ->
  ext (instance_name "CONCAT_TOD" [t]) [h; mi; s; ms] = Ok (tod, outs') -> length outs' = 4%nat ->
  omap fst (calls ext init (instance_name c [t]) [y; m; d; h; mi; s; ms]) =
  omap fst (ext "CONCAT_DATE_TOD" [date; tod]).
Proof.
  intros V ext init t c y m d h mi s ms date outs tod outs' T C E L F M. take_args L. take_args M.
  unfold wide_ints in T.
  repeat (destruct T as [<-|T];
   [repeat (destruct C as [<-|C];
     [vm_compute in E, F; vm_compute; rewrite E; rewrite F;
      match goal with |- context [ext ?a ?b] => destruct (ext a b) as [[v o]| |] end;
      [outs_cases o|reflexivity|reflexivity]| ]); destruct C| ]).
  destruct T.
Qed.

Lemma split_ltod_calls : forall V (ext : string -> list V -> outcome (V * list V)) init t x v vs outs,
  List.In t wide_ints -> length vs = 4%nat -> length outs = 4%nat ->
  ext (instance_name "SPLIT_TOD" [t]) (x :: vs) = Ok (v, x :: outs) ->
  calls ext init (instance_name "SPLIT_LTOD" [t]) (x :: vs) = Ok (v, x :: outs).
Proof.
  intros V ext init t x v vs outs T L M E. take_args L. take_args M.
  unfold wide_ints in T.
  repeat (destruct T as [<-|T]; [vm_compute in E; vm_compute; rewrite E; reflexivity| ]).
  destruct T.
Qed.

(** * Instances declared in ST *)
Definition alikeb (t u : sty) : bool := rty_eqb (repr t) (repr u) && Bool.eqb (sty_eqb t S_BOOL) (sty_eqb u S_BOOL).
Lemma alikeb_alike : forall t u, alikeb t u = true -> alike t u.
Proof. intros t u H. destruct t, u; first [discriminate H | split; reflexivity]. Qed.
Definition pkind_eqb (a b : pkind) : bool :=
  match a, b with
  | Input, Input | InputRef, InputRef | Output, Output | InOut, InOut | Sized, Sized | SizedRef, SizedRef => true
  | _, _ => false
  end.
Fixpoint params_alikeb (l m : list (pkind * sty)) : bool :=
  match l, m with
  | [], [] => true
  | (k, t) :: l', (j, u) :: m' => pkind_eqb k j && alikeb t u && params_alikeb l' m'
  | _, _ => false
  end.
Lemma params_alikeb_alike : forall l m, params_alikeb l m = true ->
  Forall2 (fun p q => fst p = fst q /\ alike (snd p) (snd q)) l m.
Proof.
  induction l as [|[k t] l IH]; intros [|[j u] m] H; cbn in H; try discriminate H; constructor.
  - apply andb_true_iff in H as [H _]. apply andb_true_iff in H as [K A]. split; [|now apply alikeb_alike].
    destruct k, j; first [reflexivity|discriminate K].
  - apply IH. now apply andb_true_iff in H as [_ H].
Qed.
Definition same_types (d e : decl) (ts : list sty) : bool :=
  match subst (d_generic d) ts (d_ret d), inst_params (d_generic d) ts (d_params d),
        subst [] [] (d_ret e), inst_params [] [] (d_params e) with
  | Some r, Some ps, Some r', Some ps' => alikeb r r' && params_alikeb ps ps'
  | _, _, _, _ => false
  end.
Definition check_instances (decls : list decl) : bool :=
  let gen := flat_map (fun d => match d_generic d with [] => []
               | g => map (fun ts => (d, ts, instance_name (d_name d) ts)) (tuples (length g)) end) decls in
  let plain := filter (fun e => match d_generic e with [] => true | _ => false end) decls in
  forallb (fun '(d, ts, n) => forallb (fun e => if String.eqb (d_name e) n then same_types d e ts else true) plain) gen.
Lemma check_instances_sound : forall decls, check_instances decls = true ->
  forall d e ts, List.In d decls -> d_generic d <> [] -> length ts = length (d_generic d) ->
  List.In e decls -> d_generic e = [] -> d_name e = instance_name (d_name d) ts ->
  exists r ps r' ps', typed d ts r ps /\ typed e [] r' ps' /\ alike r r' /\
    Forall2 (fun p q => fst p = fst q /\ alike (snd p) (snd q)) ps ps'.
Proof.
  intros decls H d e ts D G L E F N. unfold check_instances in H. rewrite forallb_forall in H.
  assert (I : List.In (d, ts, instance_name (d_name d) ts) (flat_map (fun d => match d_generic d with [] => []
               | g => map (fun ts => (d, ts, instance_name (d_name d) ts)) (tuples (length g)) end) decls)).
  { apply in_flat_map. exists d. split; [exact D|]. destruct (d_generic d) as [|g gs]; [now contradiction G|].
    apply in_map_iff. exists ts. split; [reflexivity|]. rewrite <- L. apply tuples_all. }
  specialize (H _ I). cbn beta iota in H. rewrite forallb_forall in H.
  assert (J : List.In e (filter (fun e => match d_generic e with [] => true | _ => false end) decls)).
  { apply filter_In. split; [exact E|]. now rewrite F. }
  specialize (H e J). cbn beta in H. rewrite N, String.eqb_refl in H. unfold same_types in H.
  destruct (subst (d_generic d) ts (d_ret d)) as [r|] eqn:A; [|discriminate H].
  destruct (inst_params (d_generic d) ts (d_params d)) as [ps|] eqn:B; [|discriminate H].
  destruct (subst [] [] (d_ret e)) as [r'|] eqn:A'; [|discriminate H].
  destruct (inst_params [] [] (d_params e)) as [ps'|] eqn:B'; [|discriminate H].
  apply andb_true_iff in H as [P Q]. exists r, ps, r', ps'.
  split; [split; [exact L|]; split; [now apply subst_means|now apply inst_params_means]|].
  split; [split; [now rewrite F|]; split; [apply subst_means|apply inst_params_means]; now rewrite F|].
  split; [now apply alikeb_alike|now apply params_alikeb_alike].
Qed.
Lemma instances_checked : check_instances st_decls = true.
Proof. vm_compute. reflexivity. Qed.
