(** Data edges with jitter. *)
From Coq Require Import ZArith Reals List.
Import ListNotations.
Local Open Scope R_scope.

(** Each edge is at the start of the symbol with its number, apart from jitter. *)
Definition jittered (jitter start period : R) (edges : list R) (numbers : list Z) : Prop :=
  Forall2 (fun e k => Rabs (e - (start + IZR k * period)) <= jitter) edges numbers.
(** From the first to the last symbol. *)
Definition duration (numbers : list Z) : Z := (last numbers 0 - hd 0 numbers)%Z.
(** Distance of adjacent clock edges. *)
Definition spacing (clk : list R) (p : R) : Prop := exists i a b, nth_error clk i = Some a /\ nth_error clk (S i) = Some b /\ p = b - a.
