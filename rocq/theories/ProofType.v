(** Proofs: typed expressions have values of their types, unless a function they call is listed. *)
From Coq Require Import String ZArith Lia List Bool SpecFloat.
From Verif Require Import Base ModelFloat ModelScalar ModelTimeNum ModelText ModelString
  ModelExtra ModelST ModelWrap ModelLink ModelLib ModelApi SpecScalar SpecTimeNum SpecLink SpecLib SpecSafe SpecApi SpecCall SpecType
  ProofBase ProofLink ProofLib2 ProofSafe ProofSafe2 ProofApi ProofApi2 ProofApi3 ProofCall4.
Import ListNotations.
Open Scope string_scope.
Open Scope Z_scope.
Open Scope list_scope.

(** * Declarations *)
Definition sty_eq_dec : forall a b : sty, {a = b} + {a <> b}. Proof. decide equality. Defined.
Definition eq_ty (a b : sty) : bool := if sty_eq_dec a b then true else false.
Lemma eq_ty_ok : forall a b, eq_ty a b = true -> a = b.
Proof. intros a b. unfold eq_ty. now destruct (sty_eq_dec a b). Qed.
Lemma find_unique : forall (l : list decl) d, NoDup (map d_name l) -> List.In d l -> find (fun e => String.eqb (d_name e) (d_name d)) l = Some d.
Proof.
  induction l as [|e l IH]; intros d N I; [destruct I|]. inversion N as [|? ? N1 N2]; subst. cbn [find]. destruct I as [->|I]; [now rewrite String.eqb_refl|].
  destruct (String.eqb (d_name e) (d_name d)) eqn:E; [|now apply IH]. apply String.eqb_eq in E. exfalso. apply N1. rewrite E. now apply in_map.
Qed.
Lemma find_declared : forall d, List.In d st_decls -> find_decl (d_name d) = Some d.
Proof. intros d I. exact (find_unique st_decls d (proj2 unique_names) I). Qed.
Lemma find_undeclared : forall n, (forall d, List.In d st_decls -> d_name d <> n) -> find_decl n = None.
Proof.
  intros n H. unfold find_decl. destruct (find _ st_decls) as [d|] eqn:F; [|reflexivity]. apply find_some in F. destruct F as [I E].
  apply String.eqb_eq in E. now apply H in E.
Qed.

(** * Conversions *)
Definition conversions : list (sty * sty) :=
  list_prod wholes (wholes ++ floats) ++ list_prod floats floats.
Lemma conversions_checked : forallb (fun q => match a_coerce (fst q) (snd q) with Some e => negb (e_panic e) && negb (e_ub e) | None => false end) conversions = true.
Proof. vm_compute. reflexivity. Qed.
Lemma rty_eqb_refl : forall a, rty_eqb a a = true.
Proof. induction a; try reflexivity. cbn. rewrite IHa, eqb_reflx. reflexivity. Qed.
Lemma converted : forall s t v, converts s t -> holds s v -> exists w, coerce s t v = Ok w /\ holds t w.
Proof.
  intros s t v C H. destruct C as [->|C]; [exists v; split; [unfold coerce; now rewrite rty_eqb_refl|exact H]|].
  assert (I : List.In (s, t) conversions) by (apply in_or_app; destruct C as [C|C]; [left|right]; apply in_prod; apply C).
  pose proof (proj1 (forallb_forall _ _) conversions_checked _ I) as K. cbn [fst snd] in K.
  destruct (a_coerce s t) as [e|] eqn:A; [|discriminate]. pose proof (coerce_sound s t v e H A) as S.
  apply andb_prop in K. destruct K as [K1 K2]. destruct (coerce s t v) as [w| |]; [now exists w| |]; cbn [within] in S; rewrite S in *; discriminate.
Qed.
Lemma converts_no_string : forall s t, converts s t -> no_string s -> no_string t.
Proof.
  intros s t [->|[[_ I]|[_ I]]] N; [exact N| |]; cbn in I; repeat (destruct I as [<-|I]; [split; discriminate|]); destruct I.
Qed.

(** * One call *)
Definition inst (d : decl) (ts : list sty) (n : string) : option sty :=
  match find_decl n with
  | Some d' => match d_ret d' with Ty t => Some t | Var _ => None end
  | None => subst (d_generic d) ts (d_ret d)
  end.
Definition type_check (p : profile) (d : decl) (ts : list sty) : bool :=
  let n := instance_name (d_name d) ts in
  negb (has_codeb n) ||
  match all_some (map (fun q => subst (d_generic d) ts (snd q)) (d_params d)) with
  | Some us =>
      existsb stringb us ||
      match resolve (d_name d) us with Some n' => String.eqb n' n | None => false end &&
      match inst d ts n with
      | Some t =>
          stringb t ||
          match result_type d n (d_params d) us with Some t' => eq_ty t t' | None => false end &&
          match a_invoke p 5 n us t with
          | Some e => implb (e_panic e) (mem n aborting || mem n (can_abort p)) && implb (e_ub e) (mem n undefined)
          | None => false
          end
      | None => true
      end
  | None => false
  end.
Definition types_check (p : profile) (d : decl) : bool :=
  distinct (map fst (d_generic d)) && (sized d || forallb (type_check p d) (assignments (d_generic d))).
Lemma types_checked : forall p, forallb (types_check p) st_decls = true.
Proof. intros []; vm_compute; reflexivity. Qed.
Lemma not_sized : forall d ts ss, Forall2 (suits d ts) (d_params d) ss -> sized d = false.
Proof.
  intros d ts ss H. unfold sized. induction H as [|[[x k] r] s ps ss [K _] H IH]; [reflexivity|]. cbn [existsb fst snd] in *. rewrite K. exact IH.
Qed.
Lemma formals_same : forall d ts ps ss, Forall2 (suits d ts) ps ss -> forall us, formals ps us = ps.
Proof.
  intros d ts ps ss H. induction H as [|[[x k] r] s ps ss [K _] H IH]; intros us; [reflexivity|]. cbn [fst snd] in K. subst k.
  destruct ps as [|p ps]; [reflexivity|]. change (formals ((x, Input, r) :: p :: ps) us) with ((x, Input, r) :: formals (p :: ps) (tl us)).
  now rewrite (IH (tl us)).
Qed.
Lemma not_variadic : forall d ts ss, Forall2 (suits d ts) (d_params d) ss -> variadic d = None.
Proof.
  intros d ts ss H. unfold variadic. destruct H as [|[[x k] r] s ps ss [K _] H]; [reflexivity|]. cbn [fst snd] in K. subst k. now destruct ps.
Qed.
Lemma suits_types : forall d ts ps ss, distinct (map fst (d_generic d)) = true -> Forall2 (suits d ts) ps ss ->
  exists us, all_some (map (fun q => subst (d_generic d) ts (snd q)) ps) = Some us /\ existsb stringb us = false /\
    (forall x, infer x ps ss = infer x ps us) /\
    (forall l, map fst l = ss -> Forall (fun b => holds (fst b) (snd b)) l -> exists args, coerce_all ps l = Ok args /\ Forall2 holds us args).
Proof.
  intros d ts ps ss D H. induction H as [|[[x k] r] s ps ss (K & N & S) H IH].
  - exists []. repeat split. intros [|b l] E _; [|discriminate E]. exists []. split; [reflexivity|constructor].
  - cbn [fst snd] in *. destruct IH as (us & A & B & C & F). destruct r as [t|y].
    + exists (t :: us). cbn [map snd subst all_some]. rewrite A. split; [reflexivity|]. split; [cbn [existsb]; rewrite B; now rewrite (stringb_no t (converts_no_string s t S N))|].
      split; [exact C|]. intros [|[s' v] l] E G; [discriminate E|]. cbn [map fst] in E. injection E as -> E. inversion G as [|? ? G1 G2]; subst.
      destruct (F l eq_refl G2) as (args & X & Y). destruct (converted s t v S G1) as (w & W & Hw). exists (w :: args). cbn [coerce_all]. rewrite W. cbn [obind].
      rewrite X. split; [reflexivity|now constructor].
    + exists (s :: us). cbn [map snd all_some]. rewrite (subst_means d ts (Var y) s D) by (right; now exists y). rewrite A. split; [reflexivity|].
      split; [cbn [existsb]; now rewrite B, (stringb_no s N)|]. split; [intros z; cbn [infer]; now rewrite (C z)|].
      intros [|[s' v] l] E G; [discriminate E|]. cbn [map fst] in E. injection E as -> E. inversion G as [|? ? G1 G2]; subst.
      destruct (F l eq_refl G2) as (args & X & Y). exists (v :: args). cbn [coerce_all]. rewrite X. split; [reflexivity|now constructor].
Qed.
Lemma inst_is : forall d ts t, distinct (map fst (d_generic d)) = true -> result_is d ts t -> inst d ts (instance_name (d_name d) ts) = Some t /\ stringb t = false.
Proof.
  intros d ts t D (N & R). split; [|now apply stringb_no]. unfold inst. destruct R as [(d' & I & <- & R)|[U R]].
  - rewrite (find_declared d' I). now rewrite R.
  - rewrite (find_undeclared _ U). now apply subst_means.
Qed.
Lemma typed_call : forall d ts ss t, List.In d st_decls -> Forall2 (fun x t => List.In t (members (snd x))) (d_generic d) ts ->
  has_code (instance_name (d_name d) ts) -> Forall2 (suits d ts) (d_params d) ss -> result_is d ts t ->
  let n := instance_name (d_name d) ts in
  resolve (d_name d) ss = Some n /\ result_type d n (d_params d) ss = Some t /\
  forall P l, sane P -> map fst l = ss -> Forall (fun b => holds (fst b) (snd b)) l ->
  match call P (d_name d) l with
  | Ok (t', v) => t' = t /\ holds t v
  | Panic => List.In n (aborting ++ can_abort (p_profile P))
  | Ub => List.In n undefined
  end.
Proof.
  intros d ts ss t D M C S R n.
  assert (K : forall p, distinct (map fst (d_generic d)) = true /\ type_check p d ts = true).
  { intros p. pose proof (proj1 (forallb_forall _ _) (types_checked p) d D) as K. unfold types_check in K. apply andb_prop in K. destruct K as [K1 K2].
    split; [exact K1|]. rewrite (not_sized d ts ss S) in K2. exact (proj1 (forallb_forall _ _) K2 ts (assignments_in _ _ M)). }
  destruct (suits_types d ts (d_params d) ss (proj1 (K Debug)) S) as (us & A & B & I & F).
  destruct (inst_is d ts t (proj1 (K Debug)) R) as [E N].
  assert (Q : forall p, resolve (d_name d) us = Some n /\ result_type d n (d_params d) us = Some t /\ exists e, a_invoke p 5 n us t = Some e /\
    implb (e_panic e) (mem n aborting || mem n (can_abort p)) = true /\ implb (e_ub e) (mem n undefined) = true).
  { intros p. pose proof (proj2 (K p)) as L. unfold type_check in L. cbv zeta in L. rewrite (has_codeb_ok _ C), A, B, E, N in L. cbn [negb orb] in L. fold n in L.
    destruct (resolve (d_name d) us) as [n'|]; [|discriminate]. apply andb_prop in L. destruct L as [L1 L]. apply String.eqb_eq in L1. subst n'.
    apply andb_prop in L. destruct L as [L2 L3]. destruct (result_type d n (d_params d) us) as [t'|]; [|discriminate]. apply eq_ty_ok in L2. subst t'.
    split; [reflexivity|]. split; [reflexivity|]. destruct (a_invoke p 5 n us t) as [e|]; [|discriminate]. exists e. apply andb_prop in L3. now split. }
  assert (RS : resolve (d_name d) ss = Some n).
  { rewrite <- (proj1 (Q Debug)). unfold resolve. rewrite (find_declared d D), (not_variadic d ts ss S). destruct (d_generic d) as [|g gs]; [reflexivity|].
    f_equal. f_equal. apply map_ext. intros x. apply I. }
  assert (RT : result_type d n (d_params d) ss = Some t).
  { rewrite <- (proj1 (proj2 (Q Debug))). unfold result_type. destruct (match find_decl n with Some d' => d_ret d' | None => d_ret d end); [reflexivity|apply I]. }
  split; [exact RS|]. split; [exact RT|]. intros P l SP L H. destruct (F l L H) as (args & X & Y). destruct (Q (p_profile P)) as (_ & _ & e & Ae & P1 & P2).
  pose proof (invoke_sound P SP 5 n us t e args Ae Y) as Z. unfold call, dispatch. cbv zeta. rewrite L, RS, (find_declared d D), (formals_same d ts _ ss S), X. cbn [obind].
  change (invoke P 5) with (api P) in Z. unfold result_type in RT. destruct (api P n args) as [[v outs]| |]; cbn [obind].
  - cbn [within fst] in Z. destruct (match find_decl n with Some d' => d_ret d' | None => d_ret d end) as [u|x].
    + injection RT as ->. cbn [obind]. split; [reflexivity|apply Z].
    + rewrite RT. cbn [obind]. split; [reflexivity|apply Z].
  - cbn [within] in Z. rewrite Z in P1. cbn [implb] in P1. apply in_or_app. apply orb_true_iff in P1. destruct P1 as [P1|P1]; [left|right]; now apply mem_In.
  - cbn [within] in Z. rewrite Z in P2. now apply mem_In.
Qed.

(** * Expressions *)
(** The arguments of a call, evaluated from the left. *)
Fixpoint arguments_in (P : platform) (r : env value) (es : list expr) : outcome (list (sty * value)) :=
  match es with [] => Ok [] | e :: es' => let! tv := value_in P r e in let! tvs := arguments_in P r es' in Ok (tv :: tvs) end.
Lemma value_of_call : forall P r f es, value_in P r (Call f es) = let! l := arguments_in P r es in call P f l.
Proof.
  intros P r f es. unfold value_in. cbn [value_of].
  match goal with |- omap fst (obind (?go es) ?c) = _ => assert (E : go es = arguments_in P r es) end.
  { induction es as [|a es IH]; [reflexivity|]. rewrite IH. cbn [arguments_in]. unfold value_in at 1. destruct (value_of (api P) r a) as [[tv r']| |]; reflexivity. }
  rewrite E. destruct (arguments_in P r es) as [l| |]; [|reflexivity|reflexivity]. cbn [obind].
  unfold call. destruct (dispatch (api P) f l) as [[[[t v] ps] o]| |]; reflexivity.
Qed.
Local Opaque call api.
Scheme has_type_ind2 := Minimality for has_type Sort Prop with have_types_ind2 := Minimality for have_types Sort Prop.
Combined Scheme types_ind from has_type_ind2, have_types_ind2.
Definition listed (P : platform) (fs : list string) {A} (o : outcome A) (Q : A -> Prop) : Prop :=
  match o with
  | Ok a => Q a
  | Panic => exists n, List.In n fs /\ List.In n (aborting ++ can_abort (p_profile P))
  | Ub => exists n, List.In n fs /\ List.In n undefined
  end.
Lemma pairs : forall t n l, map fst l = repeat t n -> Forall (fun b => holds (fst b) (snd b)) l -> l = map (pair t) (map snd l) /\ Forall (holds t) (map snd l).
Proof.
  intros t n. induction n as [|n IH]; intros [|[s v] l] E H; try discriminate E; [split; [reflexivity|constructor]|].
  cbn [map fst repeat] in E. injection E as -> E. inversion H; subst. destruct (IH l E ltac:(assumption)) as [X Y]. cbn [map snd]. split; [now f_equal|now constructor].
Qed.
Lemma expressions : forall P r, sane P ->
  (forall e t fs, has_type (variable r) e t fs -> listed P fs (value_in P r e) (fun tv => fst tv = t /\ holds t (snd tv))) /\
  (forall es ss fs, have_types (variable r) es ss fs ->
     listed P fs (arguments_in P r es) (fun l => map fst l = ss /\ Forall (fun b => holds (fst b) (snd b)) l)).
Proof.
  intros P r SP. apply types_ind.
  - intros x t (v & G & H). rewrite (value_arg P r x (t, v) G). now split.
  - intros d ts es ss t fs D M C _ IH S R. rewrite value_of_call. destruct (arguments_in P r es) as [l| |]; cbn [obind listed] in *.
    + destruct IH as [L H]. pose proof (proj2 (proj2 (typed_call d ts ss t D M C S R)) P l SP L H) as Z. destruct (call P (d_name d) l) as [[t' v]| |]; [exact Z| |].
      * exists (instance_name (d_name d) ts). split; [now left|exact Z].
      * exists (instance_name (d_name d) ts). split; [now left|exact Z].
    + destruct IH as (n & I & N). exists n. split; [now right|exact N].
    + destruct IH as (n & I & N). exists n. split; [now right|exact N].
  - intros f e es t n fs F T N _ IH. rewrite value_of_call. destruct (arguments_in P r (e :: es)) as [l| |] eqn:A; cbn [obind listed] in *.
    + destruct IH as [L H]. destruct (pairs t n l L H) as [X Y]. rewrite X.
      destruct (any_number f t P (map snd l) F T N SP Y) as (v & E & V).
      { intros Z. destruct l as [|b l]; [|discriminate Z]. cbn [arguments_in] in A. destruct (value_in P r e); [|discriminate A|discriminate A].
        cbn [obind] in A. destruct (arguments_in P r es); discriminate A. }
      rewrite E. now split.
    + destruct IH as (m & I & K). exists m. split; [now right|exact K].
    + destruct IH as (m & I & K). exists m. split; [now right|exact K].
  - split; [reflexivity|constructor].
  - intros e es t ts fs gs _ IHe _ IHs. cbn [arguments_in]. destruct (value_in P r e) as [[t' v]| |]; cbn [obind listed fst snd] in *.
    + destruct IHe as [-> V]. destruct (arguments_in P r es) as [l| |]; cbn [obind listed] in *.
      * destruct IHs as [L H]. split; [cbn [map fst]; now rewrite L|now constructor].
      * destruct IHs as (m & I & K). exists m. split; [apply in_or_app; now right|exact K].
      * destruct IHs as (m & I & K). exists m. split; [apply in_or_app; now right|exact K].
    + destruct IHe as (m & I & K). exists m. split; [apply in_or_app; now left|exact K].
    + destruct IHe as (m & I & K). exists m. split; [apply in_or_app; now left|exact K].
Qed.
Lemma typed_value : forall P r e t fs, sane P -> has_type (variable r) e t fs ->
  match value_in P r e with
  | Ok (t', v) => t' = t /\ holds t v
  | Panic => exists n, List.In n fs /\ List.In n (aborting ++ can_abort (p_profile P))
  | Ub => exists n, List.In n fs /\ List.In n undefined
  end.
Proof.
  intros P r e t fs SP H. pose proof (proj1 (expressions P r SP) e t fs H) as L. destruct (value_in P r e) as [[t' v]| |]; exact L.
Qed.

(** * Types are unique *)
Lemma max_min_sized : forall d f, List.In d st_decls -> d_name d = f -> List.In f ["MAX"; "MIN"] -> d = many_decl f.
Proof.
  intros d f D E F. pose proof (find_declared d D) as X. rewrite E in X.
  assert (Y : find_decl f = Some (many_decl f)) by (destruct F as [<-|[<-|[]]]; vm_compute; reflexivity). congruence.
Qed.
Lemma extreme_not_call : forall d ts ss, List.In d st_decls -> List.In (d_name d) ["MAX"; "MIN"] -> ~ Forall2 (suits d ts) (d_params d) ss.
Proof.
  intros d ts ss D F H. pose proof (max_min_sized d _ D eq_refl F) as E. pose proof (not_sized d ts ss H) as N. rewrite E in N. discriminate N.
Qed.
Lemma unique : forall G : string -> sty -> Prop, (forall x t t', G x t -> G x t' -> t = t') ->
  (forall e t fs, has_type G e t fs -> forall t' fs', has_type G e t' fs' -> t = t' /\ fs = fs') /\
  (forall es ss fs, have_types G es ss fs -> forall ss' fs', have_types G es ss' fs' -> ss = ss' /\ fs = fs').
Proof.
  intros G U. apply types_ind.
  - intros x t H t' fs' H'. inversion H'; subst. split; [now apply (U x)|reflexivity].
  - intros d ts es ss t fs D M C _ IH S R t' fs' H'. inversion H' as [|d' ts' es' ss' u fs'' D' M' C' A' S' R' E1 E2 E3|f e es' u n fs'' F T N A' E1 E2 E3]; subst.
    + destruct (IH _ _ A') as [-> ->]. assert (d' = d) by (pose proof (find_declared d D) as X; pose proof (find_declared d' D') as Y; rewrite E1 in Y; congruence).
      subst d'. destruct (typed_call d ts ss' t D M C S R) as (X1 & X2 & _). destruct (typed_call d ts' ss' t' D' M' C' S' R') as (Y1 & Y2 & _).
      rewrite X1 in Y1. injection Y1 as Y1. rewrite <- Y1 in *. rewrite X2 in Y2. injection Y2 as ->. now split.
    + exfalso. exact (extreme_not_call d ts ss D F S).
  - intros f e es t n fs F T N _ IH t' fs' H'. inversion H' as [|d' ts' es' ss' u fs'' D' M' C' A' S' R' E1 E2 E3|f' e' es' u m fs'' F' T' N' A' E1 E2 E3]; subst.
    + exfalso. exact (extreme_not_call d' ts' ss' D' F S').
    + destruct (IH _ _ A') as [X ->]. destruct n as [|n], m as [|m]; try discriminate X; [inversion A'|]. cbn [repeat] in X. injection X as -> _. now split.
  - intros ss' fs' H'. inversion H'. now split.
  - intros e es t ts fs gs _ IHe _ IHs ss' fs' H'. inversion H' as [|e' es' t' ts' fs0 gs' He Hs]; subst. destruct (IHe _ _ He) as [-> ->]. destruct (IHs _ _ Hs) as [-> ->]. now split.
Qed.
Lemma variable_unique : forall r x t t', variable r x t -> variable r x t' -> t = t'.
Proof. intros r x t t' (v & E & _) (v' & E' & _). congruence. Qed.

(** * Programs *)
Lemma get_put : forall x y w (r : env value) t v, get y r = Ok (t, v) -> get y (ModelLink.put x w r) = Ok (t, if String.eqb y x then w else v).
Proof.
  intros x y w r t v. unfold get, ModelLink.put. induction r as [|[z [u a]] r IH]; cbn [find map fst snd]; [discriminate|].
  destruct (String.eqb z x) eqn:E; cbn [find map fst snd].
  - apply String.eqb_eq in E. subst z. destruct (String.eqb x y) eqn:F.
    + apply String.eqb_eq in F. subst y. rewrite String.eqb_refl. intros H. now injection H as -> _.
    + exact IH.
  - destruct (String.eqb z y) eqn:F; [|exact IH]. apply String.eqb_eq in F. subst z. rewrite E. exact (fun H => H).
Qed.
Lemma put_variable : forall x w r t, variable r x t -> holds t w -> forall y u, variable r y u -> variable (ModelLink.put x w r) y u.
Proof.
  intros x w r t (a & A & _) W y u (v & V & H). exists (if String.eqb y x then w else v). split; [now apply get_put|].
  destruct (String.eqb y x) eqn:E; [|exact H]. apply String.eqb_eq in E. subst y. rewrite A in V. now injection V as <- _.
Qed.
Lemma types_weaken : forall G G' : string -> sty -> Prop, (forall x t, G x t -> G' x t) ->
  (forall e t fs, has_type G e t fs -> has_type G' e t fs) /\ (forall es ss fs, have_types G es ss fs -> have_types G' es ss fs).
Proof.
  intros G G' W. apply types_ind.
  - intros x t H. constructor. now apply W.
  - intros d ts es ss t fs D M C _ IH S R. exact (ht_call G' d ts es ss t fs D M C IH S R).
  - intros f e es t n fs F T N _ IH. exact (ht_extreme G' f e es t n fs F T N IH).
  - constructor.
  - intros e es t ts fs gs _ IHe _ IHs. now constructor.
Qed.
Lemma program_weaken : forall (G G' : string -> sty -> Prop) prog fs, (forall x t, G x t -> G' x t) -> well_typed G prog fs -> well_typed G' prog fs.
Proof.
  intros G G' prog fs W H. induction H as [|x e t s fs prog gs X E C H IH]; [constructor|]. econstructor; [apply W; exact X|exact (proj1 (types_weaken G G' W) e s fs E)|exact C|exact IH].
Qed.
Lemma program_runs : forall P prog r fs, sane P -> well_typed (variable r) prog fs ->
  match executes P r prog with
  | Ok r' => forall x t, variable r x t -> variable r' x t
  | Panic => exists n, List.In n fs /\ List.In n (aborting ++ can_abort (p_profile P))
  | Ub => exists n, List.In n fs /\ List.In n undefined
  end.
Proof.
  intros P prog. induction prog as [|[x e] prog IH]; intros r fs SP H; [inversion H; subst; exact (fun x t V => V)|].
  inversion H as [|? ? t s fs0 ? gs X E C W]; subst. cbn [executes]. pose proof (typed_value P r e s fs0 SP E) as Z.
  destruct (value_in P r e) as [[s' v]| |]; cbn [obind].
  - destruct Z as [-> V]. destruct X as (a & A & Ha). rewrite A. cbn [obind]. destruct (converted s t v C V) as (w & -> & Hw). cbn [obind].
    assert (M : forall y u, variable r y u -> variable (ModelLink.put x w r) y u) by (apply (put_variable x w r t); [now exists a|exact Hw]).
    specialize (IH (ModelLink.put x w r) gs SP (program_weaken _ _ prog gs M W)). destruct (executes P (ModelLink.put x w r) prog) as [r'| |].
    + intros y u Y. apply IH. now apply M.
    + destruct IH as (n & I & N). exists n. split; [apply in_or_app; now right|exact N].
    + destruct IH as (n & I & N). exists n. split; [apply in_or_app; now right|exact N].
  - destruct Z as (n & I & N). exists n. split; [apply in_or_app; now left|exact N].
  - destruct Z as (n & I & N). exists n. split; [apply in_or_app; now left|exact N].
Qed.
Lemma executes_app : forall P p q r, executes P r (p ++ q) = let! r' := executes P r p in executes P r' q.
Proof.
  intros P p. induction p as [|[x e] p IH]; intros q r; [reflexivity|]. cbn [app executes]. destruct (value_in P r e) as [[s v]| |]; [|reflexivity|reflexivity]. cbn [obind].
  destruct (get x r) as [[t a]| |]; [|reflexivity|reflexivity]. cbn [obind]. destruct (coerce s t v) as [w| |]; [|reflexivity|reflexivity]. cbn [obind]. apply IH.
Qed.
Lemma cycles : forall P prog fs r, sane P -> well_typed (variable r) prog fs ->
  (forall n, List.In n fs -> ~ List.In n (aborting ++ can_abort (p_profile P) ++ undefined)) ->
  forall k, exists r', executes P r (concat (repeat prog k)) = Ok r' /\ forall x t, variable r x t -> variable r' x t.
Proof.
  intros P prog fs r SP W N k. revert r W. induction k as [|k IH]; intros r W; [exists r; split; [reflexivity|exact (fun x t H => H)]|].
  cbn [repeat concat]. rewrite executes_app. pose proof (program_runs P prog r fs SP W) as R. destruct (executes P r prog) as [r'| |]; cbn [obind].
  - destruct (IH r' (program_weaken _ _ prog fs R W)) as (r'' & E & H). exists r''. split; [exact E|]. intros x t V. apply H. now apply R.
  - exfalso. destruct R as (n & I & L). apply (N n I). rewrite app_assoc. apply in_or_app. now left.
  - exfalso. destruct R as (n & I & L). apply (N n I). rewrite app_assoc. apply in_or_app. now right.
Qed.

(** For the examples. *)
Lemma declared_in : forall n d, find_decl n = Some d -> List.In d st_decls.
Proof. intros n d F. unfold find_decl in F. apply find_some in F. apply F. Qed.
Lemma undeclared_of : forall n, find_decl n = None -> forall d, List.In d st_decls -> d_name d <> n.
Proof. intros n F d I E. subst n. rewrite (find_declared d I) in F. discriminate F. Qed.
Lemma has_code_of : forall n, existsb (fun s => String.eqb (sy_name s) n) rust_symbols || match find_decl n with
  | Some (Decl _ false [] _ _ b) => match b with Empty => false | _ => true end | _ => false end = true -> has_code n.
Proof.
  intros n H. apply orb_true_iff in H. destruct H as [H|H].
  - left. apply existsb_exists in H. destruct H as (s & I & E). exists s. split; [exact I|]. now apply String.eqb_eq.
  - right. destruct (find_decl n) as [d|] eqn:F; [|discriminate]. pose proof F as G. unfold find_decl in G. apply find_some in G. destruct G as [I E]. apply String.eqb_eq in E.
    exists d. split; [exact I|]. split; [exact E|]. destruct d as [m x g u ps b]. destruct x; [discriminate|]. destruct g; [|discriminate]. cbn.
    repeat split. intros ->. discriminate H.
Qed.
Lemma In_mem : forall n l, List.In n l -> mem n l = true.
Proof. intros n l I. apply existsb_exists. exists n. split; [exact I|apply String.eqb_refl]. Qed.
