(** Model of the Point2D and Line2D classes of hardware_tools/math/lines.py
    over the reals.  Simplification: coordinates are exact reals, so float
    rounding and overflow are not modelled; the tolerance of [orientation] is
    the parameter [tol] (np.finfo(float).eps * 10 in the code). *)
From Coq Require Import List ZArith Bool Reals.
From Verif Require Import Base Num.
Local Open Scope R_scope.
Local Open Scope result_scope.

(** math/lines.py:35-51 Point2D. *)
Record point2d := Point2D { px : R; py : R }.
(** math/lines.py:108-128 Line2D. *)
Record line2d := Line2D { lp : point2d; lq : point2d }.

(** math/lines.py:56-69 Point2D.in_rect. *)
Definition in_rect (a start stop : point2d) : bool :=
  Rleb (px a) (Rmax (px start) (px stop)) && Rleb (Rmin (px start) (px stop)) (px a) &&
  Rleb (py a) (Rmax (py start) (py stop)) && Rleb (Rmin (py start) (py stop)) (py a).

(** math/lines.py:99 -- [val] before normalisation. *)
Definition turn (p q r : point2d) : R :=
  (py q - py p) * (px r - px q) - (px q - px p) * (py r - py q).

(** math/lines.py:100 -- the product under the cube root. *)
Definition norm_cubed (p q r : point2d) : R :=
  (px p ^ 2 + py p ^ 2) * (px q ^ 2 + py q ^ 2) * (px r ^ 2 + py r ^ 2).

(** math/lines.py:100 -- [... ** (1 / 3)] of a nonnegative number. *)
Definition cube_root (m : R) : R := if Reqb m 0 then 0 else Rpower m (1 / 3).

(** numpy.sign. *)
Definition sign (x : R) : Z := if Rltb x 0 then (-1)%Z else if Rltb 0 x then 1%Z else 0%Z.

(** math/lines.py:71-105 Point2D.orientation. *)
Definition orientation (tol : R) (p q r : point2d) : result Z :=
  let val := turn p q r in
  let norm := cube_root (norm_cubed p q r) in
  val <- py_div val norm ;;
  Ok (if Rltb (Rabs val) tol then 0%Z else sign val).

(** math/lines.py:144-184 Line2D.intersecting_points. *)
Definition intersecting_points (tol : R) (self : line2d) (p q : point2d) : result bool :=
  o1 <- orientation tol (lp self) (lq self) p ;;
  o2 <- orientation tol (lp self) (lq self) q ;;
  o3 <- orientation tol p q (lp self) ;;
  o4 <- orientation tol p q (lq self) ;;
  Ok (if negb (o1 =? o2)%Z && negb (o3 =? o4)%Z then true
      else if (o1 =? 0)%Z && in_rect p (lp self) (lq self) then true
      else if (o2 =? 0)%Z && in_rect q (lp self) (lq self) then true
      else if (o3 =? 0)%Z && in_rect (lp self) p q then true
      else if (o4 =? 0)%Z && in_rect (lq self) p q then true
      else false).

(** math/lines.py:131-142 Line2D.intersecting. *)
Definition intersecting (tol : R) (self l : line2d) : result bool :=
  intersecting_points tol self (lp l) (lq l).

(** math/lines.py:208-221 line_params. *)
Definition line_params (p q : point2d) : R * R * R :=
  let dy := py p - py q in
  let dx := px q - px p in
  let det := px p * py q - px q * py p in
  (dy, dx, - det).

(** math/lines.py:197-230 Line2D.intersection_points (the divisor is the
    tested nonzero determinant). *)
Definition intersection_points (self : line2d) (p q : point2d) : option point2d :=
  let '(a1, b1, c1) := line_params (lp self) (lq self) in
  let '(a2, b2, c2) := line_params p q in
  let det := a1 * b2 - b1 * a2 in
  if Reqb det 0 then None
  else
    let det_x := b2 * c1 - c2 * b1 in
    let det_y := a1 * c2 - c1 * a2 in
    Some (Point2D (det_x / det) (det_y / det)).

(** math/lines.py:186-195 Line2D.intersection. *)
Definition line_intersection (self l : line2d) : option point2d :=
  intersection_points self (lp l) (lq l).
