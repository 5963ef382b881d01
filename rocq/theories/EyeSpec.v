(** Vocabulary for the eye diagram properties. *)
From Coq Require Import List ZArith Bool Reals Sorted.
Import ListNotations.
From Verif Require Import Base Num LinesModel MaskModel.
Local Open Scope R_scope.

(** int(x) on the reals rounds towards zero; x % d has the sign of d > 0. *)
Definition truncR (x : R) : Z := if Rltb x 0 then (- Int_part (- x))%Z else Int_part x.
Definition int_of_float (x : R) : result Z := Ok (truncR x).
Definition float_mod (x d : R) : R := x - d * IZR (Int_part (x / d)).

(** A window of [w] samples on each side of sample [c] lies inside a record of
    [n] samples. *)
Definition fits (w n c : Z) : bool := (0 <=? c - w)%Z && (c + w <? n)%Z.

Section Generic.
Context {A : Type} `{Num A}.
(** The piece of waveform [w] (times, values) touches the mask outline. *)
Definition touches (w : list A * list A) (m : list path) : Prop :=
  exists h, hits (fst w) (snd w) m = Ok h /\ h <> [].
(** The hit search terminates normally. *)
Definition testable (w : list A * list A) (m : list path) : Prop :=
  exists h, hits (fst w) (snd w) m = Ok h.
(** Masks are ordered from the largest to the smallest as far as this waveform
    can tell: touching one implies touching all before it. *)
Definition monotone (w : list A * list A) (masks : list (list path)) : Prop :=
  forall j k m m', (j <= k)%nat -> nth_error masks j = Some m -> nth_error masks k = Some m' ->
    touches w m' -> touches w m.
(** Mask number k, if there is one, is touched by no / by some window. *)
Definition untouched (ws : list (list A * list A)) (masks : list (list path)) (k : nat) : Prop :=
  exists m, nth_error masks k = Some m /\ forall w, In w ws -> ~ touches w m.
Definition violated (ws : list (list A * list A)) (masks : list (list path)) (k : nat) : Prop :=
  exists m w, nth_error masks k = Some m /\ In w ws /\ touches w m.
End Generic.

(** Ascending list of exactly the indices satisfying P. *)
Definition exactly (P : nat -> Prop) (l : list nat) : Prop :=
  StronglySorted lt l /\ forall i, In i l <-> P i.
