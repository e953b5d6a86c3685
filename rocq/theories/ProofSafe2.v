(** Proofs: every exported function on numbers; the listed functions do abort. *)
From Coq Require Import String Ascii ZArith Lia List Bool SpecFloat.
From Verif Require Import Base ModelFloat ModelTimeNum ModelArith ModelScalar ModelChrono ModelDate
  ModelText ModelString ModelExtra ModelST ModelWrap ModelLink ModelLib SpecScalar SpecLink SpecLib SpecSafe
  ProofScalar ProofLib ProofSafe.
Import ListNotations.
Open Scope list_scope.
Open Scope string_scope.
Open Scope Z_scope.

Ltac ft := first [exact float32|exact float64].
Ltac listed := let p := fresh in intros p; destruct p; vm_compute; reflexivity.
Ltac in_types := solve [repeat (first [left; reflexivity|right])].
Ltac width_r := let z := fresh in intros z; reflexivity.
Ltac abort_fn := intros; lazymatch goal with
  | |- okz _ _ (DATE_AND_TIME_TO_DATE _ _) => apply dt_to_date_ok
  | |- okz _ _ (CONCAT_DATE_TOD _ _ _) => apply concat_date_tod_ok
  | |- okz _ _ (concat_date _ _ _ _) => apply concat_date_ok
  | |- okz _ _ (CONCAT_DATE _ _ _ _) => apply concat_date_ok
  | |- okz _ _ (concat_tod _ _ _ _ _) => apply concat_tod_ok
  | |- okz _ _ (CONCAT_TOD _ _ _ _ _) => apply concat_tod_ok
  | |- okz _ _ (ADD_TIME _ _) => apply add_time_ok
  | |- okz _ _ (SUB_TIME _ _) => apply sub_time_ok
  | |- okz _ _ (MUL_TIME_SIGNED _ _) => apply mul_signed_ok
  | |- okz _ _ (MUL_TIME_UNSIGNED _ _) => apply mul_unsigned_ok
  | |- okz _ _ (DIV_TIME_SIGNED _ _) => apply div_signed_ok
  | |- okz _ _ (DIV_TIME_UNSIGNED _ _) => apply div_unsigned_ok
  | |- okz _ _ (MUL_TIME_REAL _ _ _ _) => apply mul_real_ok
  | |- okz _ _ (DIV_TIME_REAL _ _ _ _) => apply div_real_ok
  | |- okz _ _ (_ _ _ _) => apply okz_ts
  | |- _ => apply sub_datetimes_ok
  end.
Ltac the_code := lazymatch goal with
  | |- code_ok (z1 (fun P x => Ok (_ (p_endian P) ?t x))) _ _ _ =>
      apply endian_code; [in_types|width_r|reflexivity|intros; first [apply to_be_ok; [in_types|assumption]|apply to_le_ok; [in_types|assumption]]]
  | |- code_ok (z1 (pure1 WCHAR_TO_CHAR)) _ _ _ => apply z1_ok; [reflexivity|intros P x _ X; apply narrow_char; exact (proj1 X)]
  | |- code_ok (z1 (pure1 CHAR_TO_WCHAR)) _ _ _ => apply z1_ok; [reflexivity|intros P x _ X; apply small_char; exact X]
  | |- code_ok (z1 (pure1 DAY_OF_WEEK)) _ _ _ => apply z1_ok; [reflexivity|intros P x _ _; apply dow_ok]
  | |- code_ok (z1 (pure1 _)) _ _ _ => apply bcd_code; reflexivity
  | |- code_ok (z1 (fun P => DATE_AND_TIME_TO_TIME_OF_DAY _)) _ _ _ =>
      apply z1_ok; [reflexivity|intros P x _ _; apply okz_any, dt_to_tod_ok]
  | |- code_ok (z1 _) _ _ _ => apply abort1; [listed|abort_fn]
  | |- code_ok (z2 (fun P => SHL _ _)) _ _ _ => apply shl_code; [reflexivity|width_r|reflexivity|vm_compute; reflexivity]
  | |- code_ok (z2 (fun P => SHR _ _)) _ _ _ => apply shr_code; [reflexivity|width_r|reflexivity|vm_compute; reflexivity]
  | |- code_ok (z2 (fun _ x n => Ok (ROL _ x n))) _ _ _ => apply rol_code; [reflexivity|width_r|reflexivity]
  | |- code_ok (z2 (fun _ x n => Ok (ROR _ x n))) _ _ _ => apply ror_code; [reflexivity|width_r|reflexivity]
  | |- code_ok (z2 _) _ _ _ => apply abort2; [reflexivity|reflexivity|listed|abort_fn]
  | |- code_ok (z3 (fun _ x y z => Ok _)) _ _ _ => apply limit_code; reflexivity
  | |- code_ok (z3 _) _ _ _ => apply abort3; [reflexivity|reflexivity|reflexivity|listed|abort_fn]
  | |- code_ok (z4 _) _ _ _ => apply abort4; [reflexivity|listed|abort_fn]
  | |- code_ok (zf _) _ _ _ => eapply abortf; [ft|listed|abort_fn]
  | |- code_ok (split_date _) _ _ _ => apply split_date_ok; [in_types|width_r]
  | |- code_ok (split_tod _) _ _ _ => apply split_tod_ok; [in_types|width_r]
  | |- code_ok (split_dt _) _ _ _ => apply split_dt_ok; [in_types|width_r]
  | |- code_ok clock _ _ _ => apply clock_ok
  | |- code_ok (limit_float _) _ _ _ => apply limit_ok; ft
  | |- code_ok (math1 _ _) _ _ _ => apply math1_ok; ft
  | |- code_ok (math2 _ _) _ _ _ => apply math2_ok; ft
  | |- code_ok powf_narrowed _ _ _ => apply powf_narrowed_ok
  | |- code_ok powf_widened _ _ _ => apply powf_widened_ok
  | |- code_ok (f1 (fun _ => SQRT _)) _ _ _ => apply sqrt_code; ft
  | |- code_ok (f1 _) _ _ _ => apply round_code; ft
  | |- code_ok (fz _) _ _ _ => apply expt_code; ft
  | |- code_ok (z_f LWORD_TO_LREAL) _ _ _ => apply lword_code
  | |- code_ok (z_f _) _ _ _ => apply dword_code
  | |- code_ok (f_z LREAL_TO_LWORD) _ _ _ => apply lreal_code
  | |- code_ok (f_z REAL_TO_DWORD) _ _ _ => apply real_code
  | |- code_ok (f_z _) _ _ _ => eapply valid_code; ft
  | |- code_ok (bits1 _ _) _ _ _ => apply bits1_ok; [ft|let x := fresh in let X := fresh in intros x X; apply (float_endian_id _ x X)]
  end.
Definition numeric_ok (s : symbol) : Prop := numeric s = true -> symbol_ok s.
Ltac the_list := lazymatch goal with
  | |- list_ok (zs MAX_ord) _ => apply zs_max; reflexivity
  | |- list_ok (zs MIN_ord) _ => apply zs_min; reflexivity
  | |- list_ok (fs _ MAX_float) _ => apply fs_max; ft
  | |- list_ok (fs _ MIN_float) _ => apply fs_min; ft
  end.
Ltac the_symbol := lazymatch goal with
  | |- numeric_ok (Sym _ _ [U32; Ptr false ?t] _) =>
      first [intros H; vm_compute in H; discriminate H
            |intros _; eapply from_list; [reflexivity|intros P a; name_of; reflexivity|the_list]]
  | |- _ => first [intros H; vm_compute in H; discriminate H
            |intros _; eapply from_code; [reflexivity|intros P a; name_of; reflexivity|the_code]]
  end.
Ltac the_symbols k := let l := eval vm_compute in (firstn 40 (skipn k rust_symbols)) in change (Forall numeric_ok l);
  repeat (apply Forall_cons; [the_symbol|]); apply Forall_nil.
Lemma symbols0 : Forall numeric_ok (firstn 40 (skipn 0 rust_symbols)).
Proof. the_symbols 0%nat. Qed.
Lemma symbols1 : Forall numeric_ok (firstn 40 (skipn 40 rust_symbols)).
Proof. the_symbols 40%nat. Qed.
Lemma symbols2 : Forall numeric_ok (firstn 40 (skipn 80 rust_symbols)).
Proof. the_symbols 80%nat. Qed.
Lemma symbols3 : Forall numeric_ok (firstn 40 (skipn 120 rust_symbols)).
Proof. the_symbols 120%nat. Qed.
Lemma symbols4 : Forall numeric_ok (firstn 40 (skipn 160 rust_symbols)).
Proof. the_symbols 160%nat. Qed.
Lemma symbols5 : Forall numeric_ok (firstn 40 (skipn 200 rust_symbols)).
Proof. the_symbols 200%nat. Qed.
Lemma symbols6 : Forall numeric_ok (firstn 40 (skipn 240 rust_symbols)).
Proof. the_symbols 240%nat. Qed.
Lemma symbols7 : Forall numeric_ok (firstn 40 (skipn 280 rust_symbols)).
Proof. the_symbols 280%nat. Qed.
Lemma symbols8 : Forall numeric_ok (firstn 40 (skipn 320 rust_symbols)).
Proof. the_symbols 320%nat. Qed.
Lemma symbols9 : Forall numeric_ok (firstn 40 (skipn 360 rust_symbols)).
Proof. the_symbols 360%nat. Qed.
Lemma chunk : forall (Q : symbol -> Prop) k l, Forall Q (firstn 40 (skipn k l)) -> Forall Q (skipn (40 + k) l) -> Forall Q (skipn k l).
Proof.
  intros Q k l A B. rewrite <- (firstn_skipn 40 (skipn k l)). apply Forall_app. split; [exact A|].
  replace (skipn 40 (skipn k l)) with (skipn (40 + k) l); [exact B|]. clear.
  revert l. induction k as [|k IH]; intros [|x l]; try reflexivity. rewrite Nat.add_succ_r. apply IH.
Qed.
Lemma all_symbols : forall s, List.In s rust_symbols -> numeric s = true -> symbol_ok s.
Proof.
  refine (proj1 (Forall_forall numeric_ok rust_symbols) _). change rust_symbols with (skipn 0 rust_symbols).
  apply chunk; [exact symbols0|]. apply chunk; [exact symbols1|]. apply chunk; [exact symbols2|].
  apply chunk; [exact symbols3|]. apply chunk; [exact symbols4|]. apply chunk; [exact symbols5|].
  apply chunk; [exact symbols6|]. apply chunk; [exact symbols7|]. apply chunk; [exact symbols8|].
  apply chunk; [exact symbols9|]. apply Forall_nil.
Qed.

(** * The listed functions abort *)

Definition a_platform (p : profile) : platform :=
  Platform p (Chrono true false) DurRound LittleEndian (fun _ _ => true) (0, 0) (fun _ _ _ => FNum (S754_zero false)).
Lemma a_platform_sane : forall p, sane (a_platform p).
Proof. intros p. unfold sane. cbn. repeat split; lia || discriminate. Qed.
Definition last : Z := 2 ^ 63 - 1.
Definition bad_args (s : symbol) : list value :=
  let n := sy_name s in
  if prefix "SHL" n || prefix "SHR" n then [VZ 0; VZ 64]
  else if prefix "CONCAT_DATE_TOD" n then [VZ last; VZ 86399000000000]
  else if prefix "CONCAT_DATE" n || prefix "concat_date" n then [VZ 2000; VZ 13; VZ 1]
  else if prefix "CONCAT_TOD" n || prefix "concat_tod" n then [VZ 24; VZ 0; VZ 0; VZ 0]
  else if prefix "DATE_AND_TIME" n then [VZ (- last)]
  else if prefix "ADD" n then [VZ last; VZ 1]
  else if prefix "SUB" n then [VZ (- last); VZ last]
  else let k := if prefix "DIV" n then 0 else 2 in
       [VZ last; match sy_params s with [_; RF32] => VF (FNum (f_of_int F32 k)) | [_; RF64] => VF (FNum (f_of_int F64 k)) | _ => VZ k end].
Definition typedb (t : rty) (v : value) : bool :=
  match t, v with
  | U8, VZ z => (0 <=? z) && (z <=? 2 ^ 8 - 1)
  | U16, VZ z => (0 <=? z) && (z <=? 2 ^ 16 - 1)
  | U32, VZ z => (0 <=? z) && (z <=? 2 ^ 32 - 1)
  | U64, VZ z => (0 <=? z) && (z <=? 2 ^ 64 - 1)
  | I8, VZ z => (- 2 ^ 7 <=? z) && (z <=? 2 ^ 7 - 1)
  | I16, VZ z => (- 2 ^ 15 <=? z) && (z <=? 2 ^ 15 - 1)
  | I32, VZ z => (- 2 ^ 31 <=? z) && (z <=? 2 ^ 31 - 1)
  | I64, VZ z => (- 2 ^ 63 <=? z) && (z <=? 2 ^ 63 - 1)
  | RF32, VF (FNum S754_nan) => false
  | RF32, VF (FNum x) => valid_binary (f_prec F32) (f_emax F32) x
  | RF64, VF (FNum S754_nan) => false
  | RF64, VF (FNum x) => valid_binary (f_prec F64) (f_emax F64) x
  | _, _ => false
  end.
Lemma typedb_ok : forall t v, typedb t v = true -> typed t v.
Proof.
  intros t v H. destruct t; destruct v as [z|[[]|]|m]; try discriminate H; try exact H;
    cbn [typed]; cbn [typedb] in H; apply andb_true_iff in H; destruct H as [A B]; apply Z.leb_le in A, B; exact (conj A B).
Qed.
Fixpoint typedsb (ts : list rty) (vs : list value) : bool :=
  match ts, vs with [], [] => true | t :: r, v :: w => typedb t v && typedsb r w | _, _ => false end.
Lemma typedsb_ok : forall ts vs, typedsb ts vs = true -> Forall2 typed ts vs.
Proof.
  induction ts as [|t ts IH]; intros [|v vs] H; try discriminate H; [constructor|].
  apply andb_true_iff in H. destruct H. constructor; [now apply typedb_ok|now apply IH].
Qed.
Definition abort_check (p : profile) (n : string) : bool :=
  match find (fun s => String.eqb (sy_name s) n) rust_symbols with
  | Some s => match array (sy_params s) with Some _ => false | None => true end && numeric s && typedsb (sy_params s) (bad_args s) &&
      match rust_call (a_platform p) n (bad_args s) with Panic => true | _ => false end
  | None => false
  end.
Lemma abort_checks : forall p, forallb (abort_check p) (can_abort p) = true.
Proof. intros []; vm_compute; reflexivity. Qed.
Lemma all_abort : forall p n, List.In n (can_abort p) -> exists s P args, List.In s rust_symbols /\ sy_name s = n /\ numeric s = true /\
  sane P /\ p_profile P = p /\ arguments s args /\ rust_call P n args = Panic.
Proof.
  intros p n N. pose proof (proj1 (forallb_forall _ _) (abort_checks p) n N) as C. unfold abort_check in C.
  destruct (find _ rust_symbols) as [s|] eqn:E; [|discriminate C]. apply find_some in E. destruct E as [I E].
  apply String.eqb_eq in E. apply andb_true_iff in C. destruct C as [C C4]. apply andb_true_iff in C. destruct C as [C C3].
  apply andb_true_iff in C. destruct C as [C1 C2].
  exists s, (a_platform p), (bad_args s). split; [exact I|]. split; [exact E|]. split; [exact C2|].
  split; [apply a_platform_sane|]. split; [reflexivity|]. split.
  - unfold arguments. destruct (array (sy_params s)); [discriminate C1|]. now apply typedsb_ok.
  - destruct (rust_call _ n _) as [?| |]; [discriminate C4|reflexivity|discriminate C4].
Qed.
