(** Checks over the table of declarations. *)
From Coq Require Import String ZArith List Bool.
From Verif Require Import Base ModelLink SpecConv.
Import ListNotations.
Open Scope list_scope.
Open Scope string_scope.

Definition sty_eq (a b : sty) : {a = b} + {a <> b}.
Proof. decide equality. Defined.
Definition sty_eqb (a b : sty) : bool := if sty_eq a b then true else false.
Definition pkind_eq (a b : pkind) : {a = b} + {a <> b}.
Proof. decide equality. Defined.

Definition well_typed (d : decl) (a b : sty) : bool :=
  match d_params d, d_ret d with
  | [(x, k, Ty a')], Ty b' =>
      String.eqb (upper x) "IN" && match k with Input | InputRef => true | _ => false end &&
      sty_eqb (unlong a') (unlong a) && sty_eqb (unlong b') (unlong b)
  | _, _ => false
  end.
Lemma sty_eqb_iff : forall a b, sty_eqb a b = true -> a = b.
Proof. intros a b. unfold sty_eqb. destruct (sty_eq a b); [auto|discriminate]. Qed.
Lemma well_typed_ok : forall d a b, well_typed d a b = true ->
  exists x k a' b', d_params d = [(x, k, Ty a')] /\ upper x = "IN" /\ (k = Input \/ k = InputRef) /\ d_ret d = Ty b' /\
    unlong a' = unlong a /\ unlong b' = unlong b.
Proof.
  intros d a b H. unfold well_typed in H.
  destruct (d_params d) as [|[[x k] [a'|v]] [|q l]]; try discriminate.
  destruct (d_ret d) as [b'|v]; [|discriminate].
  apply andb_true_iff in H. destruct H as [H Hb]. apply andb_true_iff in H. destruct H as [H Ha].
  apply andb_true_iff in H. destruct H as [Hx Hk]. apply String.eqb_eq in Hx.
  apply sty_eqb_iff in Ha, Hb. exists x, k, a', b'. repeat split; auto.
  destruct k; try discriminate; auto.
Qed.

Lemma all_types_all : forall t, In t all_types.
Proof. intros []; cbn; tauto. Qed.

Lemma named_checked :
  forallb (fun d => forallb (fun a => forallb (fun b =>
    if String.eqb (d_name d) (conversion_name a b) then well_typed d a b else true) all_types) all_types) st_decls = true.
Proof. vm_compute. reflexivity. Qed.
Lemma named : forall d a b, In d st_decls -> d_name d = conversion_name a b -> converts a b.
Proof.
  intros d a b I E. assert (C := named_checked).
  rewrite forallb_forall in C. specialize (C d I). rewrite forallb_forall in C. specialize (C a (all_types_all a)).
  rewrite forallb_forall in C. specialize (C b (all_types_all b)). cbv beta in C. rewrite E, String.eqb_refl in C.
  destruct (well_typed_ok d a b C) as (x & k & a' & b' & H). exists d, x, k, a', b'. auto.
Qed.

Definition declared (a b : sty) : bool := existsb (fun d => String.eqb (d_name d) (conversion_name a b)) st_decls.
Lemma declared_converts : forall a b, declared a b = true -> converts a b.
Proof.
  intros a b D. apply existsb_exists in D. destruct D as (d & I & E). apply String.eqb_eq in E.
  exact (named d a b I E).
Qed.
Definition complete (l m : list sty) : bool :=
  forallb (fun a => forallb (fun b => sty_eqb a b || declared a b) m) l.
Lemma complete_ok : forall l m, complete l m = true -> forall a b, In a l -> In b m -> a <> b -> converts a b.
Proof.
  intros l m C a b A B N. unfold complete in C. rewrite forallb_forall in C. specialize (C a A).
  rewrite forallb_forall in C. specialize (C b B). apply orb_true_iff in C. destruct C as [C|C].
  - now apply sty_eqb_iff in C.
  - now apply declared_converts.
Qed.
Lemma numbers : forall a b, In a (integer_types ++ real_types)%list -> In b (integer_types ++ real_types)%list ->
  a <> b -> converts a b.
Proof. apply complete_ok. vm_compute. reflexivity. Qed.
Lemma words : forall a b, In a (word_types ++ integer_types)%list -> In b (word_types ++ integer_types)%list ->
  a <> b -> converts a b.
Proof. apply complete_ok. vm_compute. reflexivity. Qed.
Lemma from_bool : forall b, In b (word_types ++ integer_types)%list -> converts S_BOOL b.
Proof.
  intros b B. apply (complete_ok [S_BOOL] (word_types ++ integer_types)%list); [vm_compute; reflexivity|cbn; auto|exact B|].
  intros <-. revert B. cbn. intuition discriminate.
Qed.
Lemma not_declared : forall a b, declared a b = false -> ~ converts a b.
Proof.
  intros a b F (d & x & k & a' & b' & I & E & _). unfold declared in F.
  rewrite <- not_true_iff_false in F. apply F. apply existsb_exists. exists d. split; [exact I|].
  now apply String.eqb_eq.
Qed.

Definition formals_eq (a b : list (string * pkind)) : {a = b} + {a <> b}.
Proof. apply list_eq_dec. intros [x k] [y l]. destruct (string_dec x y), (pkind_eq k l); (left; congruence) || (right; congruence). Defined.
Lemma instances_checked :
  forallb (fun d => forallb (fun d' =>
    if String.prefix (d_name d ++ "__") (d_name d')
    then if formals_eq (formals d') (formals d) then true else false else true) st_decls) st_decls = true.
Proof. vm_compute. reflexivity. Qed.
Lemma prefix_app : forall a b, String.prefix a (a ++ b) = true.
Proof.
  induction a as [|c a IH]; intros b; [now destruct b|]. cbn. destruct (Ascii.ascii_dec c c); [apply IH|congruence].
Qed.
Lemma append_assoc : forall a b c, (a ++ (b ++ c)) = ((a ++ b) ++ c).
Proof. induction a as [|x a IH]; intros b c; [reflexivity|]. cbn. now rewrite IH. Qed.
Lemma instances : forall d d', In d st_decls -> In d' st_decls -> instance_of d' d -> formals d' = formals d.
Proof.
  intros d d' I I' (s & E). assert (C := instances_checked).
  rewrite forallb_forall in C. specialize (C d I). rewrite forallb_forall in C. specialize (C d' I').
  cbv beta in C. rewrite E, append_assoc, prefix_app in C.
  destruct (formals_eq (formals d') (formals d)); [assumption|discriminate].
Qed.

Lemma converts_declared : forall a b, converts a b -> declared a b = true.
Proof. intros a b C. destruct (declared a b) eqn:E; [reflexivity|]. now apply not_declared in E. Qed.
Definition in_one_way (a b : sty) : bool := existsb (fun q => sty_eqb (fst q) a && sty_eqb (snd q) b) one_way.
Lemma in_one_way_iff : forall a b, in_one_way a b = true <-> In (a, b) one_way.
Proof.
  intros a b. unfold in_one_way. rewrite existsb_exists. split.
  - intros ([x y] & I & E). apply andb_true_iff in E. destruct E as [E F]. apply sty_eqb_iff in E, F. cbn in E, F. now subst.
  - intros I. exists (a, b). split; [exact I|]. cbn. unfold sty_eqb.
    destruct (sty_eq a a), (sty_eq b b); auto; contradiction.
Qed.
Lemma reverse_checked :
  forallb (fun a => forallb (fun b =>
    if scalar a && scalar b then Bool.eqb (in_one_way a b) (declared a b && negb (declared b a)) else true) all_types) all_types = true.
Proof. vm_compute. reflexivity. Qed.
Lemma reverse : forall a b, scalar a = true -> scalar b = true -> (In (a, b) one_way <-> converts a b /\ ~ converts b a).
Proof.
  intros a b A B. assert (C := reverse_checked).
  rewrite forallb_forall in C. specialize (C a (all_types_all a)). rewrite forallb_forall in C.
  specialize (C b (all_types_all b)). cbv beta in C. rewrite A, B in C. cbn [andb] in C. apply eqb_prop in C.
  rewrite <- in_one_way_iff, C, andb_true_iff, negb_true_iff. split; intros [D R]; split.
  - now apply declared_converts.
  - now apply not_declared.
  - now apply converts_declared.
  - apply not_true_iff_false. intros T. apply R. now apply declared_converts.
Qed.

Fixpoint has_suffix_type (s : string) : bool :=
  String.prefix "__" s || match s with String _ r => has_suffix_type r | EmptyString => false end.
Lemma has_suffix_type_app : forall b s, has_suffix_type (b ++ "__" ++ s) = true.
Proof.
  induction b as [|c b IH]; intros s; [cbn; now destruct s|].
  change (has_suffix_type (String c b ++ "__" ++ s)) with
    (String.prefix "__" (String c (b ++ "__" ++ s)) || has_suffix_type (b ++ "__" ++ s)).
  rewrite IH. apply orb_true_r.
Qed.
Lemma prefix_ex : forall a s, String.prefix a s = true -> exists r, s = a ++ r.
Proof.
  induction a as [|c a IH]; intros s H; [now exists s|]. destruct s as [|x s]; [discriminate|].
  cbn in H. destruct (Ascii.ascii_dec c x) as [->|]; [|discriminate].
  destruct (IH s H) as [r ->]. now exists r.
Qed.
Lemma generic_checked :
  forallb (fun d' => if has_suffix_type (d_name d')
    then existsb (fun d => String.prefix (d_name d ++ "__") (d_name d')) st_decls else true) st_decls = true.
Proof. vm_compute. reflexivity. Qed.
Lemma generic : forall d' b s, In d' st_decls -> d_name d' = b ++ "__" ++ s ->
  exists d, In d st_decls /\ instance_of d' d.
Proof.
  intros d' b s I E. assert (C := generic_checked). rewrite forallb_forall in C. specialize (C d' I). cbv beta in C.
  replace (has_suffix_type (d_name d')) with true in C by (rewrite E; symmetry; apply has_suffix_type_app).
  apply existsb_exists in C. destruct C as (d & I' & P). destruct (prefix_ex _ _ P) as [r Hr].
  exists d. split; [exact I'|]. exists r. now rewrite append_assoc.
Qed.

Definition strings_eq (a b : list string) : {a = b} + {a <> b} := list_eq_dec string_dec a b.
Lemma standard_checked :
  forallb (fun q => existsb (String.eqb (fst q)) ["LIMIT"; "SIN"; "COS"; "TAN"] ||
    existsb (fun d => String.eqb (d_name d) (fst q) && (if strings_eq (formal_names d) (snd q) then true else false)) st_decls)
    standard_formals = true.
Proof. vm_compute. reflexivity. Qed.
Lemma standard : forall n l, In (n, l) standard_formals -> ~ In n ["LIMIT"; "SIN"; "COS"; "TAN"] ->
  exists d, In d st_decls /\ d_name d = n /\ formal_names d = l.
Proof.
  intros n l I N. assert (C := standard_checked). rewrite forallb_forall in C. specialize (C (n, l) I). cbv beta in C.
  cbn [fst snd] in C. apply orb_true_iff in C. destruct C as [C|C].
  - exfalso. apply N. apply existsb_exists in C. destruct C as (x & X & E). apply String.eqb_eq in E. now subst.
  - apply existsb_exists in C. destruct C as (d & X & E). apply andb_true_iff in E. destruct E as [E F].
    apply String.eqb_eq in E. exists d. split; [exact X|]. split; [exact E|].
    destruct (strings_eq (formal_names d) l); [assumption|discriminate].
Qed.
Lemma nonstandard_checked :
  forallb (fun q => if existsb (String.eqb (fst q)) ["LIMIT"; "SIN"; "COS"; "TAN"] then
    forallb (fun d => negb (String.eqb (d_name d) (fst q)) || (if strings_eq (formal_names d) (snd q) then false else true)) st_decls
    else true) standard_formals = true.
Proof. vm_compute. reflexivity. Qed.
Lemma nonstandard : forall n l d, In (n, l) standard_formals -> In n ["LIMIT"; "SIN"; "COS"; "TAN"] ->
  In d st_decls -> d_name d = n -> formal_names d <> l.
Proof.
  intros n l d I N D E. assert (C := nonstandard_checked). rewrite forallb_forall in C. specialize (C (n, l) I). cbv beta in C.
  cbn [fst snd] in C. replace (existsb (String.eqb n) ["LIMIT"; "SIN"; "COS"; "TAN"]) with true in C.
  - rewrite forallb_forall in C. specialize (C d D). cbv beta in C. rewrite E, String.eqb_refl in C. cbn [negb orb] in C.
    destruct (strings_eq (formal_names d) l); [discriminate|assumption].
  - symmetry. apply existsb_exists. exists n. split; [exact N|apply String.eqb_refl].
Qed.
