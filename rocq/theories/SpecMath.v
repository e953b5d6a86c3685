(** Specification of the elementary functions, in the real numbers of the standard library. *)
From Coq Require Import String ZArith List Bool Reals.
From Verif Require Import Base ModelFloat SpecReal SpecScalar SpecTimeNum ModelLib.
Import ListNotations.
Open Scope string_scope.
Open Scope R_scope.

(** Name, domain and real function. *)
Definition elementary := (string * (R -> Prop) * (R -> R))%type.
Definition everywhere (x : R) : Prop := True.

(** The methods of Rust's f32 and f64, as its documentation describes them. *)
Definition methods : list elementary :=
  [("ln", fun x => 0 < x, ln); ("log10", fun x => 0 < x, fun x => ln x / ln 10); ("exp", everywhere, exp);
   ("sin", everywhere, sin); ("cos", everywhere, cos); ("tan", fun x => cos x <> 0, tan);
   ("asin", fun x => -1 <= x <= 1, asin); ("acos", fun x => -1 <= x <= 1, acos); ("atan", everywhere, atan)].
(** The functions of IEC 61131-3. *)
Definition functions : list elementary :=
  [("ACOS", fun x => -1 <= x <= 1, acos); ("ASIN", fun x => -1 <= x <= 1, asin); ("ATAN", everywhere, atan);
   ("TAN", fun x => cos x <> 0, tan); ("COS", everywhere, cos); ("SIN", everywhere, sin);
   ("EXP", everywhere, exp); ("LOG", fun x => 0 < x, fun x => ln x / ln 10); ("LN", fun x => 0 < x, ln)].

(** [t] is the angle of the point with abscissa [x] and ordinate [y]. *)
Definition angle (t y x : R) : Prop :=
  - PI < t <= PI /\ exists r, 0 < r /\ x = r * cos t /\ y = r * sin t.
(** [r] is [x] to the power [e]: for a positive [x], or an integer [e]. *)
Definition power (r x e : R) : Prop :=
  0 < x /\ r = Rpower x e \/ x <> 0 /\ exists n, e = IZR n /\ r = powerRZ x n.

(** What is assumed of the mathematical library of the platform: each method returns a number that
    is [close] to the real value (in whatever sense; [close] may depend on the format). *)
Record accurate (P : platform) (close : fmt -> fl -> R -> Prop) : Prop := {
  acc_one : forall m D g f x, List.In (m, D, g) methods -> binary_format f ->
    fl_valid f x -> fl_finite x = true -> D (fl_value x) -> close f (p_math P m f [x]) (g (fl_value x));
  acc_atan2 : forall f y x t, binary_format f ->
    fl_valid f y -> fl_finite y = true -> fl_valid f x -> fl_finite x = true ->
    fl_value y <> 0 \/ 0 < fl_value x -> angle t (fl_value y) (fl_value x) ->
    close f (p_math P "atan2" f [y; x]) t;
  acc_powf : forall f x e r, binary_format f ->
    fl_valid f x -> fl_finite x = true -> fl_valid f e -> fl_finite e = true ->
    power r (fl_value x) (fl_value e) -> close f (p_math P "powf" f [x; e]) r }.
