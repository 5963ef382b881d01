(** What clock data recovery means, stated without the code. *)
From Coq Require Import ZArith Reals List Permutation Sorted.
Import ListNotations.
Local Open Scope R_scope.

Definition total (l : list R) : R := fold_right Rplus 0 l.

(** Symbol numbers of the edges: between adjacent edges the number grows by the
    integer nearest to their distance in periods. *)
Fixpoint numbered (t : R) (edges : list R) (numbers : list Z) : Prop :=
  match edges, numbers with
  | [_], [_] => True
  | e1 :: ((e2 :: _) as edges'), k1 :: ((k2 :: _) as numbers') =>
      Rabs (e2 - e1 - IZR (k2 - k1) * t) <= t / 2 /\ numbered t edges' numbers'
  | _, _ => False
  end.

(** No distance is half way between two integers. *)
Fixpoint clearly_numbered (t : R) (edges : list R) (numbers : list Z) : Prop :=
  match edges, numbers with
  | [_], [_] => True
  | e1 :: ((e2 :: _) as edges'), k1 :: ((k2 :: _) as numbers') =>
      Rabs (e2 - e1 - IZR (k2 - k1) * t) < t / 2 /\ clearly_numbered t edges' numbers'
  | _, _ => False
  end.
Definition differ (numbers : list Z) : Prop := exists a b, In a numbers /\ In b numbers /\ a <> b.

(** Squared distance of the edges from a clock of period p and phase c. *)
Definition misfit (edges : list R) (numbers : list Z) (c p : R) : R :=
  total (map (fun q => (fst q - c - IZR (snd q) * p)²) (combine edges numbers)).
(** The least squares period. *)
Definition best_period (edges : list R) (numbers : list Z) (p : R) : Prop :=
  exists c, forall c' p', misfit edges numbers c p <= misfit edges numbers c' p'.

(** Sum of the squared distances of the numbers from their mean. *)
Definition spread (numbers : list Z) : R :=
  let m := total (map IZR numbers) / INR (length numbers) in total (map (fun k => (IZR k - m)²) numbers).

(** The time interval error of x against a clock of period t: x is a whole
    number of periods and y, with y at most half a period. *)
Definition tie (t x y : R) : Prop := exists k, x = IZR k * t + y /\ - (t / 2) <= y < t / 2.
(** Places where adjacent values differ by more than half a period. *)
Fixpoint jumps (t : R) (l : list R) : nat :=
  match l with
  | a :: ((b :: _) as l') => ((if Rlt_dec (t / 2) (Rabs (b - a)) then 1 else 0) + jumps t l')%nat
  | _ => 0%nat
  end.
(** Edges seen against a clock of period t in phase with the first edge jump
    n times. *)
Definition disjoints (t : R) (edges : list R) (n : nat) : Prop :=
  exists ties, Forall2 (tie t) (map (fun e => e - hd 0 edges) edges) ties /\ jumps t ties = n.

(** Edges of an ideal clock of period T that starts at e0, at the given symbol
    numbers. *)
Definition ideal (e0 T : R) (numbers : list Z) : list R := map (fun k => e0 + IZR k * T) numbers.
Fixpoint ascending (numbers : list Z) : Prop :=
  match numbers with
  | a :: ((b :: _) as l) => (a <= b)%Z /\ ascending l
  | _ => True
  end.
(** Adjacent symbol numbers differ by at most n. *)
Fixpoint gaps_at_most (n : Z) (numbers : list Z) : Prop :=
  match numbers with
  | a :: ((b :: _) as l) => (Z.abs (b - a) <= n)%Z /\ gaps_at_most n l
  | _ => True
  end.
Fixpoint rising (l : list R) : Prop :=
  match l with
  | a :: ((b :: _) as l') => a <= b /\ rising l'
  | _ => True
  end.
(** The value at the last point at or before x, [first] if there is none. *)
Definition held (points : list (R * R)) (first x v : R) : Prop :=
  (v = first /\ forall p, In p points -> x < fst p)
  \/ (exists a p b, points = a ++ p :: b /\ v = snd p /\ fst p <= x /\ forall q, In q b -> x < fst q).

(** Sorting by the second component. *)
Definition sorts (sort : list (R * R) -> list (R * R)) : Prop :=
  forall l, Permutation l (sort l) /\ StronglySorted (fun a b => snd a <= snd b) (sort l).

(** A clock of period t recovered from edges: clock edges every period, half a
    period after the phase, one for each period from the first to the last
    edge.  Every edge is a whole number of periods from the phase, apart from
    its time interval error; the errors have zero mean and no jumps.  They are
    given for each edge or, resampled, for each clock edge. *)
Definition clock_of (edges : list R) (t : R) (resampled : bool) (clk ties : list R) : Prop :=
  exists phase n numbers errors,
    hd 0 edges - t / 2 <= phase < hd 0 edges + t / 2
    /\ clk = map (fun i => phase + t / 2 + INR i * t) (seq 0 n)
    /\ (INR n - 1) * t < last edges 0 - hd 0 edges <= INR n * t
    /\ length numbers = length edges /\ length errors = length edges
    /\ edges = map (fun q => phase + IZR (fst q) * t + snd q) (combine numbers errors)
    /\ total errors = 0 /\ jumps t errors = 0%nat
    /\ (if resampled then Forall2 (held (combine edges errors) (hd 0 errors)) clk ties else ties = errors).

Fixpoint gaps (l : list R) : list R :=
  match l with
  | a :: ((b :: _) as l') => (b - a) :: gaps l'
  | _ => []
  end.
(** The mean number of periods between adjacent edges, each rounded to the
    nearest integer (half up). *)
Definition mean_gap (t : R) (edges : list R) (m : R) : Prop :=
  exists ks, Forall2 (fun d k => IZR k - 1 / 2 <= d / t < IZR k + 1 / 2) (gaps edges) ks
    /\ m = total (map IZR ks) / INR (length ks).

(** The value at the first point at or after x, [last_] if there is none. *)
Definition upcoming (points : list (R * R)) (last_ x v : R) : Prop :=
  (v = last_ /\ forall p, In p points -> fst p < x)
  \/ (exists a p b, points = a ++ p :: b /\ v = snd p /\ x <= fst p /\ forall q, In q a -> fst q < x).
(** Adding two lists element by element. *)
Definition plus (a b : list R) : list R := map (fun p => fst p + snd p) (combine a b).
(** Without 100 elements at either end. *)
Definition middle (l : list R) : list R := firstn (length l - 200) (skipn 100 l).
Definition even_part (n : nat) : nat := if Nat.even n then n else pred n.
