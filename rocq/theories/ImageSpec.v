(** Alpha compositing, stated on pixels without reference to the model's
    formula: a pixel is (colours, alpha), and "over" is described with
    premultiplied colours. *)
From Coq Require Import List Reals.
Import ListNotations.
Local Open Scope R_scope.

Definition at_ (p : list R) (k : nat) : R := nth k p 0.
Definition alpha (p : list R) : R := at_ p 3.

(** [over below above out]: light passing through both layers is what passes
    through the top times what passes through the bottom, and where something
    is visible the premultiplied colour is the top's plus what the top lets
    through of the bottom's. *)
Definition over (below above out : list R) : Prop :=
  length out = 4%nat /\
  1 - alpha out = (1 - alpha above) * (1 - alpha below) /\
  (alpha out <> 0 -> forall k, (k < 3)%nat ->
     at_ out k * alpha out = at_ above k * alpha above + (1 - alpha above) * (at_ below k * alpha below)).

Definition unit_range (p : list R) : Prop := length p = 4%nat /\ forall k, (k < 4)%nat -> 0 <= at_ p k <= 1.

(** Equal as seen: same alpha, same colours unless fully transparent. *)
Definition looks_like (p q : list R) : Prop :=
  alpha p = alpha q /\ (alpha p <> 0 -> forall k, (k < 3)%nat -> at_ p k = at_ q k).
