(** Specification vocabulary for level crossings, edges and intersections. *)
From Coq Require Import List ZArith Bool Reals Sorted.
Import ListNotations.
From Verif Require Import Base Num.
Local Open Scope num_scope.

(** Sample [i] of [l] is [a]. *)
Definition sample {A} (l : list A) (i : nat) (a : A) : Prop := nth_error l i = Some a.

Section Generic.
Context {A : Type} `{Num A}.

(** Samples k-1 and k of [s] are on different sides of [v] ("> v" or not). *)
Definition crosses (s : list A) (v : A) (k : nat) : Prop :=
  (1 <= k)%nat /\ exists a b, sample s (k - 1) a /\ sample s k b /\ (a >. v) <> (b >. v).

(** The detector is low at [i]: the last sample that left the band, if any,
    went below [y_fall]. *)
Definition low_at (y : list A) (y_rise y_fall : A) (i : nat) : Prop :=
  exists j a, (j <= i)%nat /\ sample y j a /\ (a <. y_fall) = true /\
    forall k b, (j < k <= i)%nat -> sample y k b -> (b >. y_rise) = false.

(** A rising (falling) edge is due at sample [i]. *)
Definition rising_at (y : list A) (y_rise y_fall : A) (i : nat) : Prop :=
  (1 <= i)%nat /\ low_at y y_rise y_fall (i - 1) /\
  exists a, sample y i a /\ (a >. y_rise) = true.
Definition falling_at (y : list A) (y_rise y_fall : A) (i : nat) : Prop :=
  (1 <= i)%nat /\ ~ low_at y y_rise y_fall (i - 1) /\
  exists a, sample y i a /\ (a <. y_fall) = true.

(** No sample is at once below [y_fall] and above [y_rise]: true whenever
    y_fall <= y_rise. *)
Definition proper_band (y : list A) (y_rise y_fall : A) : Prop :=
  forall a, In a y -> (a <. y_fall) = true -> (a >. y_rise) = true -> False.

End Generic.

(** [l1] and [l2] merged alternately, starting with [l1]. *)
Fixpoint interleave {X} (l1 l2 : list X) : list X :=
  match l1, l2 with
  | [], _ => l2
  | _, [] => l1
  | x :: l1', y :: l2' => x :: y :: interleave l1' l2'
  end.

(** [l] lists, in increasing index order, one value for each index below [n]
    satisfying [P]; the value of index [i] satisfies [val i]. *)
Definition listed_at {X} (n : nat) (P : nat -> Prop) (val : nat -> X -> Prop) (l : list X) : Prop :=
  exists idx, StronglySorted lt idx /\ (forall i, In i idx <-> (i < n)%nat /\ P i) /\
              Forall2 val idx l.

(** Real geometry. *)
Definition point := (R * R)%type.

(** [x] is the point [p + t (q - p)]. *)
Definition at_param (p q x : point) (t : R) : Prop :=
  fst x = (fst p + t * (fst q - fst p))%R /\ snd x = (snd p + t * (snd q - snd p))%R.
Definition on_segment (p q x : point) : Prop := exists t, (0 <= t <= 1)%R /\ at_param p q x t.
Definition on_line (p q x : point) : Prop := exists t, at_param p q x t.
(** Directions p-q and r-s are parallel (or one of them is degenerate). *)
Definition parallel (p q r s : point) : Prop :=
  ((fst q - fst p) * (snd s - snd r) - (snd q - snd p) * (fst s - fst r) = 0)%R.

(** Consecutive elements of a list. *)
Fixpoint adjacent {X} (l : list X) : list (X * X) :=
  match l with
  | a :: ((b :: _) as l') => (a, b) :: adjacent l'
  | _ => []
  end.

(** Samples k-1 and k of [s] straddle [v]. *)
Definition straddles (s : list R) (v : R) (k : nat) : Prop :=
  (1 <= k)%nat /\ exists a b, sample s (k - 1) a /\ sample s k b /\
                              (a <= v < b \/ b <= v < a)%R.

(** [x] is the linear interpolation of [ret] at level [v] of [s] between
    samples j-1 and j; it lies between the two neighbouring [ret] samples. *)
Definition interpolates (ret s : list R) (v : R) (j : nat) (x : R) : Prop :=
  exists x1 x2 y1 y2, sample ret (j - 1) x1 /\ sample ret j x2 /\
    sample s (j - 1) y1 /\ sample s j y2 /\ y1 <> y2 /\
    ((x - x1) * (y2 - y1) = (v - y1) * (x2 - x1))%R /\
    (Rmin x1 x2 <= x <= Rmax x1 x2)%R.
