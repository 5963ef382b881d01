(** Vocabulary of the statistics properties, independent of the model. *)
From Coq Require Import List ZArith Bool Reals.
Import ListNotations.
From Verif Require Import Base Num.
Local Open Scope num_scope.

(** Equality and [<] form a strict total order. *)
Class NumTotal (A : Type) `{Num A} := {
  neq_spec : forall x y : A, (x =. y) = true <-> x = y;
  nlt_irr : forall x : A, (x <. x) = false;
  nlt_tr : forall x y z : A, (x <. y) = true -> (y <. z) = true -> (x <. z) = true;
  nlt_tot : forall x y : A, x <> y -> (x <. y) = true \/ (y <. x) = true }.

(** Number of occurrences of [v]. *)
Definition occurrences {A} `{Num A} (v : A) (y : list A) : Z :=
  Z.of_nat (length (filter (fun e => e =. v) y)).
Definition zsum (l : list Z) : Z := fold_right Z.add 0%Z l.

Local Close Scope num_scope.
Local Open Scope R_scope.

(** Sample [x] belongs to bin [i]: half-open, the last bin closed. *)
Definition in_bin (edges : list R) (i : nat) (x : R) : bool :=
  match nth_error edges i, nth_error edges (i + 1) with
  | Some a, Some b => Rleb a x && (if (i + 2 =? length edges)%nat then Rleb x b else Rltb x b)
  | _, _ => false
  end.

(** Area of a histogram with heights [d] and widths [w]. *)
Definition rsum_prod (d w : list R) : R := fold_right Rplus 0 (map (fun p => fst p * snd p) (combine d w)).
