(** Specification vocabulary for strings whose units are not the encoding of a text. *)
From Coq Require Import ZArith List.
From Verif Require Import Base ModelString SpecText.
Import ListNotations.
Open Scope Z_scope.

(** The terminated string at [src] consists of the characters [items].  The bytes of a STRING
    must be the UTF-8 of a text; the words of a WSTRING may be anything, an unpaired surrogate is
    the item [None]. *)
Definition has_items (k : kind) (src : list Z) (items : list (option Z)) : Prop :=
  match k with
  | STRING => exists t, holds STRING src t /\ items = map Some t
  | WSTRING => exists s, reads src s /\ utf16_parse s items
  end.
(** The terminated bytes at [src] are not the UTF-8 of anything. *)
Definition not_utf8 (src : list Z) : Prop :=
  exists s, reads src s /\ forall t, Forall is_scalar t -> s <> units STRING t.

Definition ilen (items : list (option Z)) : Z := Z.of_nat (length items).

(** The call writes the characters [items]: if all of them are proper, the text they form is
    delivered; the first unpaired surrogate aborts the call, unless the text before it already
    overran the destination. *)
Definition delivers_items (k : kind) (items : list (option Z)) (dest : list Z)
    (o : outcome (list Z)) : Prop :=
  (forall t, items = map Some t -> delivers k t dest o) /\
  (forall t rest, items = map Some t ++ None :: rest ->
     ((length (units k t) <= length dest)%nat -> o = Panic) /\
     ((length dest < length (units k t))%nat -> o = Ub)).
