(** Specification of rasterised polylines, independent of the algorithm. *)
From Coq Require Import List ZArith Bool.
Import ListNotations.
Local Open Scope Z_scope.

Definition pixel := (Z * Z)%type.

(** Number of pixels from [a] up to but not including [b]. *)
Definition steps (a b : pixel) : Z :=
  Z.max (Z.abs (fst b - fst a)) (Z.abs (snd b - snd a)).

Definition neighbours (p q : pixel) : Prop :=
  p <> q /\ Z.abs (fst p - fst q) <= 1 /\ Z.abs (snd p - snd q) <= 1.

(** Every pixel of the list and its successor are 8-neighbours. *)
Fixpoint connected (l : list pixel) : Prop :=
  match l with
  | p :: ((q :: _) as l') => neighbours p q /\ connected l'
  | _ => True
  end.

Definition in_box (a b p : pixel) : Prop :=
  Z.min (fst a) (fst b) <= fst p <= Z.max (fst a) (fst b) /\
  Z.min (snd a) (snd b) <= snd p <= Z.max (snd a) (snd b).

(** [p] is within half a pixel of the line a-b, measured along the minor axis:
    |cross product| <= steps / 2. *)
Definition near_line (a b p : pixel) : Prop :=
  2 * Z.abs ((snd p - snd a) * (fst b - fst a) - (fst p - fst a) * (snd b - snd a))
  <= steps a b.

(** [seg] is the rasterised segment from [a] (included) to [b] (excluded). *)
Definition raster (a b : pixel) (seg : list pixel) : Prop :=
  Z.of_nat (length seg) = steps a b /\
  (a <> b -> hd_error seg = Some a) /\
  ~ In b seg /\
  NoDup seg /\
  connected (seg ++ [b]) /\
  Forall (in_box a b) seg /\
  Forall (near_line a b) seg.

(** [pts] is the rasterised polyline through the vertices [ps]. *)
Inductive raster_polyline : list pixel -> list pixel -> Prop :=
| raster_last : forall p, raster_polyline [p] [p]
| raster_cons : forall p q ps seg pts,
    raster p q seg -> raster_polyline (q :: ps) pts ->
    raster_polyline (p :: q :: ps) (seg ++ pts).

(** Number of occurrences of a pixel. *)
Definition visits (a b : Z) (l : list pixel) : Z :=
  Z.of_nat (length (filter (fun p => (fst p =? a) && (snd p =? b)) l)).

Definition inside (nx ny a b : Z) : Prop := 0 <= a < nx /\ 0 <= b < ny.

(** Grid contents [after] = [before] plus one per visit of an inside cell. *)
Definition adds_visits (nx ny : Z) (before after : Z -> Z -> Z) (l : list pixel) : Prop :=
  forall a b, (inside nx ny a b -> after a b = before a b + visits a b l) /\
              (~ inside nx ny a b -> after a b = before a b).
