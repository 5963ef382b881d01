(** Properties C01, C02: rasterising polylines and points. *)
From Coq Require Import List ZArith Lia.
Import ListNotations.
From Verif Require Import Base DrawModel DrawSpec DrawProofs.
Local Open Scope Z_scope.

(** C01/C02: every polyline of at least two vertices is drawn, with finitely
    many loop iterations, as a connected raster of its segments (see [raster]:
    number of pixels, start, end excluded, no repetition, 8-connected, in the
    bounding box, within half a pixel of the line) followed by the last vertex;
    the grid gains exactly one per visit of an inside cell. *)
Theorem C01_draw_polyline : forall (p q : pixel) (ps : list pixel),
  exists pts, raster_polyline (p :: q :: ps) pts /\
  exists enough_fuel, forall fuel g, (enough_fuel <= fuel)%nat ->
    exists g', draw fuel (p :: q :: ps) g = Ok g' /\
      n_x g' = n_x g /\ n_y g' = n_y g /\
      adds_visits (n_x g) (n_y g) (cell g) (cell g') pts.
Proof. exact draw_polyline_full. Qed.
Print Assumptions C01_draw_polyline.

(** C01: the loop of one segment makes exactly max(|dx|,|dy|) steps: it stops
    with one more test than that and not with fewer. *)
Theorem C01_segment_exact_steps : forall x1 y1 x2 y2 fuel g,
  (steps (x1, y1) (x2, y2) < Z.of_nat fuel ->
     exists g', draw_segment fuel x1 y1 x2 y2 g = Ok g') /\
  (Z.of_nat fuel <= steps (x1, y1) (x2, y2) ->
     draw_segment fuel x1 y1 x2 y2 g = Err OutOfFuel).
Proof. exact segment_exact_steps. Qed.
Print Assumptions C01_segment_exact_steps.

(** C01: fewer than two vertices raise instead of drawing. *)
Theorem C01_draw_too_short : forall fuel ps g, (length ps < 2)%nat ->
  draw fuel ps g = Err UnboundLocalError.
Proof. exact draw_too_short. Qed.
Print Assumptions C01_draw_too_short.

(** C01: the compiled int32 version does the same for coordinates within
    +-2^28 (no wrap-around occurs). *)
Theorem C01_compiled_segment_same : forall fuel x1 y1 x2 y2 g,
  Z.abs x1 <= 268435456 -> Z.abs y1 <= 268435456 ->
  Z.abs x2 <= 268435456 -> Z.abs y2 <= 268435456 ->
  draw_segment32 fuel x1 y1 x2 y2 g = draw_segment fuel x1 y1 x2 y2 g.
Proof. exact compiled_segment_same. Qed.
Print Assumptions C01_compiled_segment_same.

(** C01 finding: without the range hypothesis the compiled version can loop
    forever: a horizontal segment of 2^30 pixels never terminates because the
    error term wraps and x never advances. *)
Theorem C01_compiled_terminates_refuted : exists x1 y1 x2 y2, forall fuel g,
  draw_segment32 fuel x1 y1 x2 y2 g = Err OutOfFuel.
Proof. exact compiled_diverges. Qed.
Print Assumptions C01_compiled_terminates_refuted.

(** C02: draw_points adds one per listed inside point and changes nothing else. *)
Theorem C02_draw_points : forall ps g,
  n_x (draw_points ps g) = n_x g /\ n_y (draw_points ps g) = n_y g /\
  adds_visits (n_x g) (n_y g) (cell g) (cell (draw_points ps g)) ps.
Proof. exact draw_points_full. Qed.
Print Assumptions C02_draw_points.

(** Concrete, non-trivial instances. *)
Definition grid0 : grid := {| n_x := 4; n_y := 3; cell := fun _ _ => 0 |}.
Example draw_example :
  match draw 10 [(-1, 0); (4, 2); (2, 2)] grid0 with
  | Ok g => map (fun x => map (cell g x) [0; 1; 2]) [0; 1; 2; 3]
            = [[1; 0; 0]; [0; 1; 0]; [0; 1; 1]; [0; 0; 2]]
  | Err _ => False
  end.
Proof. vm_compute. reflexivity. Qed.
Example compiled_range_example :
  draw_segment32 10 (-1) 0 4 2 grid0 = draw_segment 10 (-1) 0 4 2 grid0.
Proof. apply C01_compiled_segment_same; lia. Qed.
