(** Vocabulary for the PAM2 sampling properties. *)
From Coq Require Import List ZArith Bool Reals.
Import ListNotations.
From Verif Require Import Base Num StatsModel.
Local Open Scope R_scope.

(** Values of the points (time, value) whose time is within width/2 of c. *)
Definition values_in (c width : R) (ps : list (R * R)) : list R :=
  map snd (filter (fun p => Rleb (c - width / 2) (fst p) && Rleb (fst p) (c + width / 2)) ps).
(** Times of the points whose value is within height/2 of c. *)
Definition times_at (c height : R) (ps : list (R * R)) : list R :=
  map fst (filter (fun p => Rleb (c - height / 2) (snd p) && Rleb (snd p) (c + height / 2)) ps).
Definition mean (l : list R) : R := rsum l / INR (length l).

(** [d] says whether the mean of the samples around c is above the threshold;
    there are such samples. *)
Definition decides (c width y_half : R) (ps : list (R * R)) (d : bool) : Prop :=
  values_in c width ps <> [] /\ (d = true <-> y_half < mean (values_in c width ps)).

(** Decisions of a symbol: previous, current, next. *)
Definition decision : Type := (bool * bool * bool)%type.
Definition prev (d : decision) : bool := fst (fst d).
Definition cur (d : decision) : bool := snd (fst d).
Definition next (d : decision) : bool := snd d.
Definition decision_dec (p q : decision) : {p = q} + {p <> q}.
Proof. decide equality; [apply bool_dec|decide equality; apply bool_dec]. Defined.
Definition all_decisions : list decision :=
  [(false,false,false); (false,false,true); (false,true,false); (false,true,true);
   (true,false,false); (true,false,true); (true,true,false); (true,true,true)].
(** 1 for a rising edge into the symbol, -1 for a falling one, else 0. *)
Definition edge_of (d : decision) : Z :=
  match prev d, cur d with false, true => 1 | true, false => -1 | _, _ => 0 end.
Definition zsum (l : list Z) : Z := fold_right Z.add 0%Z l.

(** Each symbol's decision about its predecessor is the predecessor's own. *)
Definition chained (decs : list decision) : Prop :=
  forall l a b l', decs = l ++ a :: b :: l' -> prev b = cur a.

(** Points number i to j. *)
Definition between {X} (i j : nat) (l : list X) : list X := firstn (S j - i) (skipn i l).
(** [i] is where the values with index in lo .. lo + n are extreme: [ge x z] for
    the value x there and any other z. *)
Definition extreme (ge : R -> R -> Prop) (lo n i : nat) (ps : list (R * R)) : Prop :=
  (lo <= i <= lo + n)%nat /\ exists p, nth_error ps i = Some p /\
    forall k q, (lo <= k <= lo + n)%nat -> nth_error ps k = Some q -> ge (snd p) (snd q).

(** The reported times of one kind of edge and level, symbol by symbol, from the
    given part of each symbol's window. *)
Definition edge_times (dir : Z) (level height : R) (edges : list Z) (parts : list (list (R * R))) : list R :=
  flat_map (fun ep => if (fst ep =? dir)%Z then times_at level height (snd ep) else []) (combine edges parts).
(** The swing of an edge: from the extreme of the first half (before the symbol
    centre, w samples) to the opposite extreme of the middle half. *)
Definition swing (w : nat) (e : Z) (ps part : list (R * R)) : Prop :=
  let q := ((2 * w + 1) / 4)%nat in
  (e <> 0)%Z -> exists i j, part = between i j ps /\
    if (e =? 1)%Z then extreme Rle 0 w i ps /\ extreme Rge q w j ps
    else extreme Rge 0 w i ps /\ extreme Rle q w j ps.
