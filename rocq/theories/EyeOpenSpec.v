(** Open eyes: most of what is needed to decide bits without being told levels. *)
From Coq Require Import ZArith Reals Bool List.
Import ListNotations.
From Verif Require Import Base Num RBool.
Local Open Scope R_scope.

(** [lo] and [hi] are the least and the greatest sample. *)
Definition ranges (lo hi : R) (y : list R) : Prop := In lo y /\ In hi y /\ forall v, In v y -> lo <= v <= hi.
(** What is assumed of a mixture fit (components are weight, mean, variance): it
    has as many components as asked for, and their means, being averages of the
    samples, lie among the samples. *)
Definition averages (fit : nat -> list R -> result (list (R * R * R))) : Prop :=
  forall k l m, fit k l = Ok m -> length m = k /\
    forall c lo hi, In c m -> (forall v, In v l -> lo <= v <= hi) -> lo <= snd (fst c) <= hi.
(** Every k-th element, from the first. *)
Definition every_kth {X} (k : nat) (y z : list X) : Prop := forall i, nth_error z i = nth_error y (i * k).
(** The samples looked at for a limit of [n]: all, or, of more than ten times
    the limit, every k-th where k is half of how many times, rounded down. *)
Definition looked_at (n : R) (y z : list R) : Prop :=
  (INR (length y) <= 10 * n /\ z = y)
  \/ (10 * n < INR (length y) /\ exists k, INR k <= INR (length y) / n / 2 < INR k + 1 /\ every_kth k y z).
Definition at_most (x : R) (y : list R) : nat := length (filter (fun v => Rleb v x) y).
Definition at_least (x : R) (y : list R) : nat := length (filter (fun v => Rleb x v) y).
(** Up to the limit every sample counts.  Beyond it, of the samples looked at a
    share of 200 / limit (2 % of them for the default limit of 10000) lies in the
    lowest and in the highest 19 % of the range. *)
Definition represented (limit : option R) (lo hi : R) (y : list R) : Prop :=
  match limit with
  | None => True
  | Some n => INR (length y) <= n \/
      (0 < n /\ exists z, looked_at n y z
        /\ 200 * INR (length z) <= n * INR (at_most (lo + 19 / 100 * (hi - lo)) z)
        /\ 200 * INR (length z) <= n * INR (at_least (hi - 19 / 100 * (hi - lo)) z))
  end.
