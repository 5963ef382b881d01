(** Vocabulary for the edges of data: signals that change from one bit to the
    other without going back and forth. *)
From Coq Require Import ZArith Reals Bool List.
Import ListNotations.
From Verif Require Import EyeRunModel EyeDataSpec.
Local Open Scope R_scope.

(** Above the upper threshold, for a 1, or below the lower one, for a 0. *)
Definition beyond (rise fall : R) (d : bool) (v : R) : Prop := if d then rise < v else v < fall.
(** Near the middle of a symbol the samples (every [td] from [first] on) show its
    bit.  Between two equal symbols no sample shows the other bit.  Between two
    different ones no sample shows the old bit after one that shows the new. *)
Definition clean (rise fall period near td first : R) (y : list R) (s : signal) : Prop :=
  let time j := first + INR j * td in
  let between n j := middle period s (n - 1) + near < time j < middle period s n - near in
  (forall j n v, nth_error y j = Some v -> Rabs (time j - middle period s n) <= near -> beyond rise fall (snd s n) v)
  /\ (forall j n v, nth_error y j = Some v -> between n j -> snd s (n - 1)%Z = snd s n -> ~ beyond rise fall (negb (snd s n)) v)
  /\ (forall j j' n v v', nth_error y j = Some v -> nth_error y j' = Some v' -> (j < j')%nat -> between n j -> between n j' ->
        beyond rise fall (snd s n) v -> ~ beyond rise fall (negb (snd s n)) v').
(** The record starts and ends near the middle of symbols. *)
Definition spans (period near td first : R) (y : list R) (s : signal) (n0 n1 : Z) : Prop :=
  y <> [] /\ Rabs (first - middle period s n0) <= near /\ Rabs (first + INR (length y - 1) * td - middle period s n1) <= near.
(** The changes of the data that are looked for. *)
Definition change (p : polarity) (s : signal) (n : Z) : Prop :=
  snd s (n - 1)%Z <> snd s n /\ match p with RISING => snd s n = true | FALLING => snd s n = false | BOTH => True end.
(** Of the symbols of a record, those that start with such a change. *)
Definition transitions (p : polarity) (s : signal) (n0 n1 : Z) (ns : list Z) : Prop :=
  Sorted.StronglySorted Z.lt ns /\ forall n, In n ns <-> (n0 < n <= n1)%Z /\ change p s n.
(** A record of clean data. *)
Definition clean_record (p : polarity) (rise fall period near td : R) (w : list R * list R) (s : signal) (n0 n1 : Z) (ns : list Z) : Prop :=
  exists first, fst w = map (fun j => first + INR j * td) (seq 0 (length (snd w)))
    /\ clean rise fall period near td first (snd w) s /\ spans period near td first (snd w) s n0 n1 /\ transitions p s n0 n1 ns.
(** Changes often enough to recover a clock from: at most 19 symbols apart and,
    on average, at most [m]; few enough for the search. *)
Definition often (m : R) (n_comp : Z) (ns : list Z) : Prop :=
  (2 <= length ns)%nat /\ (forall i a b, nth_error ns i = Some a -> nth_error ns (S i) = Some b -> (b - a <= 19)%Z)
  /\ IZR (last ns 0%Z - hd 0%Z ns) <= m * (INR (length ns) - 1)
  /\ ((last ns 0 - hd 0 ns + 18) * (last ns 0 - hd 0 ns + 3) <= 8 * n_comp)%Z.
(** The same without mention of thresholds: near the middle of a symbol and all
    the time between two equal symbols the samples show the bit, and between two
    different ones they only go up, or only down. *)
Definition monotone (k : bands) (period near td first : R) (y : list R) (s : signal) : Prop :=
  let time j := first + INR j * td in
  let between n j := middle period s (n - 1) + near < time j < middle period s n - near in
  (forall j n v, nth_error y j = Some v -> between n j -> snd s (n - 1)%Z = snd s n -> shows k (snd s n) v)
  /\ (forall j j' n v v', nth_error y j = Some v -> nth_error y j' = Some v' -> (j < j')%nat -> between n j -> between n j' -> snd s (n - 1)%Z <> snd s n ->
        if snd s n then v <= v' else v' <= v).
Definition smooth_record (p : polarity) (k : bands) (period near td : R) (w : list R * list R) (s : signal) (n0 n1 : Z) (ns : list Z) : Prop :=
  exists first, fst w = map (fun j => first + INR j * td) (seq 0 (length (snd w)))
    /\ carries k period near td first (snd w) s /\ monotone k period near td first (snd w) s /\ spans period near td first (snd w) s n0 n1 /\ transitions p s n0 n1 ns.
