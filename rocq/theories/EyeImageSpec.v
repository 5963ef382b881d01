(** Vocabulary for the images of an eye diagram. *)
From Coq Require Import ZArith Reals List.
Import ListNotations.
From Verif Require Import LinesSpec EyeReportSpec.
Local Open Scope R_scope.

(** [p] is [x] without its fraction. *)
Definition truncated (x : R) (p : Z) : Prop := (0 <= x -> IZR p <= x < IZR p + 1) /\ (x < 0 -> x <= IZR p < x + 1).
(** The pixel of a position from -1/2 to 3/2 (symbols, or amplitudes above the
    low level) of an image of [res] pixels, counted from the left or from below. *)
Definition place (res : Z) (u : R) (p : Z) : Prop := truncated ((u + 1 / 2) / 2 * IZR res) p.
Definition places (res : Z) (c : R * R) (p : Z * Z) : Prop := place res (fst c) (fst p) /\ place res (snd c) (snd p).
(** The pixels of an image as (row from above, column). *)
Definition in_image (res row col : Z) : Prop := (0 <= row < res /\ 0 <= col < res)%Z.

(** Largest value of a map. *)
Definition peak (res : Z) (h : Z -> Z -> R) (v : R) : Prop :=
  (forall row col, in_image res row col -> h row col <= v) /\ exists row col, in_image res row col /\ h row col = v.

(** Lines of the grid: drawn at every [every]-th pixel. *)
Definition grid_line (edge_lower edge_upper : R) (vertical : bool) (u : R) (every : Z) : Prop :=
  every = 1%Z /\ (u = 0 \/ u = 1) \/ every = 3%Z /\ u = 1 / 2 \/ every = 10%Z /\ (u = - (1 / 4) \/ u = 1 / 4 \/ u = 3 / 4 \/ u = 5 / 4)
  \/ vertical = false /\ every = 5%Z /\ (u = edge_lower \/ u = edge_upper).
Definition on_grid (edge_lower edge_upper : R) (res row col : Z) : Prop :=
  exists vertical u every, grid_line edge_lower edge_upper vertical u every
    /\ if vertical then place res u col /\ ((res - 1 - row) mod every = 0)%Z else place res u (res - 1 - row) /\ (col mod every = 0)%Z.

(** A pixel of the area inside one of the paths; [polygon] fills a figure. *)
Definition in_areas (polygon : list (Z * Z) -> Z -> Z -> bool) (res : Z) (paths : list (list (R * R))) (row col : Z) : Prop :=
  exists path ps, In path paths /\ Forall2 (places res) path ps /\ polygon ps col (res - 1 - row)%Z = true.

(** Where the line through the samples of a symbol meets the outline of a mask,
    both in symbols and amplitudes above the low level. *)
Definition meets (low amp : R) (paths : list (list (R * R))) (samples : list (R * R)) (p : R * R) : Prop :=
  exists path a b c d, In path paths /\ In (a, b) (LinesSpec.adjacent (map (fun s => (fst s, (snd s - low) / amp)) samples)) /\ In (c, d) (LinesSpec.adjacent path)
    /\ ~ parallel a b c d /\ on_segment a b p /\ on_segment c d p.
(** A pixel of a circle around such a point, if it is in the image. *)
Definition circled (circle : Z -> Z -> Z -> Z -> Z -> bool) (res : Z) (p : R * R) (row col : Z) : Prop :=
  exists x y r, places res p (x, y) /\ in_image res y x /\ truncated (Rmax 3 (IZR res / 500)) r /\ circle x y r col (res - 1 - row)%Z = true.
(** The weight of a pixel in a list: the last one. *)
Definition weighs (l : list (Z * Z * R)) (x y : Z) (v : R) : Prop :=
  exists l1 l2, l = l1 ++ (x, y, v) :: l2 /\ forall v', ~ In (x, y, v') l2.
(** A pixel of a line through the samples of a symbol; [line_aa] lists the pixels
    of a line and their weights. *)
Definition on_trace (cast : R -> Z) (line_aa : Z -> Z -> Z -> Z -> list (Z * Z * R)) (res : Z) (low amp : R) (samples : list (R * R)) (row col : Z) : Prop :=
  exists a b v, In (a, b) (LinesSpec.adjacent (map (image_point cast res low amp) samples)) /\ (0 <= fst b)%Z /\ (fst a <= res)%Z
    /\ weighs (line_aa (fst b) (snd b) (fst a) (snd a)) col (res - 1 - row)%Z v /\ 0 < v.
(** Weights are between 0 and 1. *)
Definition fair (line_aa : Z -> Z -> Z -> Z -> list (Z * Z * R)) : Prop := forall a b c d x y v, In (x, y, v) (line_aa a b c d) -> 0 <= v <= 1.
(** A pixel (red, green, blue, alpha) is visible just if [P], and then red. *)
Definition red (P : Prop) (p : list R) : Prop :=
  length p = 4%nat /\ 0 <= nth 3 p 0 <= 1 /\ (0 < nth 3 p 0 <-> P) /\ (0 < nth 3 p 0 -> firstn 3 p = [1; 0; 0]).
