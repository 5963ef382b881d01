(** The same records in another order. *)
From Coq Require Import ZArith Reals Bool List Permutation.
Import ListNotations.
From Verif Require Import Base Num MaskModel EyeModel EyeImageModel EyeRunModel EyeUnitsSpec.
Local Open Scope R_scope.

(** An order of n records: position j is taken by record number p_j. *)
Definition order (n : nat) (p : list nat) : Prop := Permutation p (seq 0 n).
(** The entries of a list in that order. *)
Definition pick {X} (p : list nat) (l : list X) : list X :=
  flat_map (fun i => match nth_error l i with Some x => [x] | None => [] end) p.
(** [w'] has the records of [w] in that order. *)
Definition reordered (p : list nat) (w w' : ndarray) : Prop :=
  length (shape w) = 3%nat /\ shape w' = shape w
  /\ forall i k j, (i < dim w 0)%nat -> at_ w' [i; k; j] = at_ w [nth i p O; k; j].
Definition reordered_clocks (p : list nat) (c c' : option ndarray) : Prop :=
  match c, c' with
  | None, None => True
  | Some c, Some c' => reordered p c c'
  | _, _ => False
  end.
Definition reordered_edges (p : list nat) (c c' : option edges_arg) : Prop :=
  match c, c' with
  | None, None => True
  | Some (ListOf l), Some (ListOf l') => l' = pick p l
  | _, _ => False
  end.
(** Images but for the one of hits, in which offending symbols of later records
    are drawn over those of earlier ones. *)
Definition same_images (i i' : images) : Prop :=
  im_clean i' = im_clean i /\ im_grid i' = im_grid i /\ im_mask i' = im_mask i /\ im_margin i' = im_margin i.
(** What the object reports: values of all records together are the same, lists
    with an entry for each record are in the other order. *)
Definition same_results (p : list nat) (e e' : eye) : Prop :=
  get_measures e' = get_measures e
  /\ get_raw_heatmap e' = get_raw_heatmap e
  /\ get_clock_edges e' = mapped (option_map (pick p)) (get_clock_edges e)
  /\ (forall nrzm, bit_stream e' nrzm = mapped (pick p) (bit_stream e nrzm))
  /\ exists i i', get_images e = Ok (Some i) /\ get_images e' = Ok (Some i') /\ same_images i i'.
(** A function of values that does not depend on their order. *)
Definition of_values {X} (f : list R -> X) : Prop := forall l l', Permutation l l' -> f l = f l'.
