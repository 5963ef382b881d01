(** Vocabulary of the properties of sinc interpolation, clock generation,
    Gaussian functions and exponential bins. *)
From Coq Require Import ZArith Reals Bool List.
Import ListNotations.
From Verif Require Import Base MathModel.
Local Open Scope R_scope.

Definition total (l : list R) : R := fold_right Rplus 0 l.
(** One-dimensional array *)
Definition vector (l : list R) : array := Arr [Z.of_nat (length l)] l.
(** Elements and shape belong together. *)
Definition proper (a : array) : Prop := Z.of_nat (length (elements a)) = fold_right Z.mul 1%Z (shape a).
(** n points [step] apart *)
Definition grid (start step : R) (n : nat) : list R := map (fun i => start + INR i * step) (seq 0 n).
(** a times the first plus b times the second *)
Definition combination (a b : R) (y z : list R) : list R := map (fun p => a * fst p + b * snd p) (combine y z).

(** Generators that return as many numbers as asked for, within the range asked
    for. *)
Definition draws_normal (normal : R -> R -> nat -> list R) : Prop := forall m s n, length (normal m s n) = n.
Definition draws_uniform (uniform : R -> R -> nat -> list R) : Prop :=
  forall a b n, a <= b -> length (uniform a b n) = n /\ forall x, In x (uniform a b n) -> a <= x <= b.

(** i is the first of the indices of x closest to m. *)
Definition closest (m : R) (x : list R) (i : nat) : Prop :=
  exists v, nth_error x i = Some v
    /\ forall j w, nth_error x j = Some w -> Rabs (v - m) <= Rabs (w - m) /\ ((j < i)%nat -> Rabs (v - m) < Rabs (w - m)).
Definition impulse (g : gaussian) : Prop := stddev g = 0.
(** The finite components' sum *)
Definition smooth (components : list gaussian) (x : R) : R :=
  total (map (fun g => amplitude g / (Rabs (stddev g) * sqrt (2 * PI)) * exp (- ((x - mean g)² / (2 * (stddev g)²)))) (filter (fun g => if Req_EM_T (stddev g) 0 then false else true) components)).

(** A sample between 10^a and 10^b; -inf stands for 10^a = 0. *)
Definition decade_ge (a : option R) (x : R) : Prop := match a with Some e => Rpower 10 e <= x | None => 0 <= x end.
Definition decade_lt (b : option R) (x : R) : Prop := match b with Some e => x < Rpower 10 e | None => False end.
Definition decade_le (b : option R) (x : R) : Prop := match b with Some e => x <= Rpower 10 e | None => x = 0 end.
(** Half-open bins, the last one closed *)
Definition in_decades (edges : list (option R)) (i : nat) (x : R) : Prop :=
  exists a b, nth_error edges i = Some a /\ nth_error edges (i + 1) = Some b /\ decade_ge a x
    /\ if (i + 2 =? length edges)%nat then decade_le b x else decade_lt b x.
(** n elements of l satisfy P. *)
Inductive number_of {X} (P : X -> Prop) : list X -> nat -> Prop :=
| number_nil : number_of P [] 0
| number_yes x l n : P x -> number_of P l n -> number_of P (x :: l) (S n)
| number_no x l n : ~ P x -> number_of P l n -> number_of P (x :: l) n.
