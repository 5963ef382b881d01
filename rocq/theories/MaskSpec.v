(** What a mask is supposed to look like, from the class docstrings' drawings
    (mask.py:117-161,265-309), and what "inside a polygon" means. *)
From Coq Require Import List Reals Lra.
Import ListNotations.
From Verif Require Import Num MaskModel.
Local Open Scope R_scope.

(** A length given in real-world units (seconds or volts) is measured in units
    of [u]; a plain number already is. *)
Definition in_units (m : mixed R) (u : R) : R :=
  match m with Plain a => a | RealUnits a => a / u end.

(** The two drawings: with zero_ref, heights are measured from the levels 0 and
    1; without, from the level 0.5. *)
Definition drawn_low (zero_ref : bool) (y : R) : R := if zero_ref then y else 1/2 - y.
Definition drawn_high (zero_ref : bool) (y : R) : R := if zero_ref then 1 - y else 1/2 + y.
Definition drawn_upper (zero_ref : bool) (yu : R) : R := if zero_ref then 1 + yu else 1/2 + yu.
Definition drawn_lower (zero_ref : bool) (yl : R) : R := if zero_ref then - yl else 1/2 - yl.

Definition drawn_limits (z : bool) (yl yu : R) : list (list (R * R)) :=
  [ [(0, 2); (0, drawn_upper z yu); (1, drawn_upper z yu); (1, 2)];
    [(0, -1); (0, drawn_lower z yl); (1, drawn_lower z yl); (1, -1)] ].
Definition drawn_hexagon (z : bool) (x1 x2 y1 yl yu : R) : list (list (R * R)) :=
  [ (x1, 1/2); (x2, drawn_high z y1); (1 - x2, drawn_high z y1);
    (1 - x1, 1/2); (1 - x2, drawn_low z y1); (x2, drawn_low z y1); (x1, 1/2) ]
  :: drawn_limits z yl yu.
Definition drawn_decagon (z : bool) (x1 x2 x3 y1 y2 yl yu : R) : list (list (R * R)) :=
  [ (x1, 1/2); (x2, drawn_high z y2); (x3, drawn_high z y1); (1 - x3, drawn_high z y1);
    (1 - x2, drawn_high z y2); (1 - x1, 1/2); (1 - x2, drawn_low z y2); (1 - x3, drawn_low z y1);
    (x3, drawn_low z y1); (x2, drawn_low z y2); (x1, 1/2) ]
  :: drawn_limits z yl yu.

(** Geometry of paths. *)
Definition on_seg (p q r : R * R) : Prop :=
  exists t, 0 <= t <= 1 /\ fst r = fst p + t * (fst q - fst p) /\ snd r = snd p + t * (snd q - snd p).
Fixpoint on_path (l : list (R * R)) (r : R * R) : Prop :=
  match l with
  | p :: ((q :: _) as l') => on_seg p q r \/ on_path l' r
  | _ => False
  end.
(** Inside a closed outline: between two of its points at the same height. *)
Definition inside (l : list (R * R)) (r : R * R) : Prop :=
  exists xl xr, on_path l (xl, snd r) /\ on_path l (xr, snd r) /\ xl <= fst r <= xr.

Definition center_path (ps : list (list (R * R))) : list (R * R) := hd [] ps.
(** The area a mask forbids: the inside of the central outline, and beyond the
    upper and lower limit lines. *)
Definition upper_limit (ps : list (list (R * R))) : R := snd (nth 1 (nth 1 ps []) (0, 0)).
Definition lower_limit (ps : list (list (R * R))) : R := snd (nth 1 (nth 2 ps []) (0, 0)).
Definition forbidden (ps : list (list (R * R))) (r : R * R) : Prop :=
  inside (center_path ps) r \/ upper_limit ps <= snd r \/ snd r <= lower_limit ps.

(** Masks shaped as drawn. *)
Definition shaped_hexagon (m : hexagon R) : Prop :=
  0 <= val (hx1 m) <= val (hx2 m) /\ val (hx2 m) <= 1/2 /\ val (hx1 m) < 1/2 /\
  0 <= val (hy1 m) < 1/2 /\ 0 <= val (hyl m) <= 1/2 /\ 0 <= val (hyu m) <= 1/2.
Definition shaped_decagon (m : decagon R) : Prop :=
  0 <= val (dx1 m) <= val (dx2 m) /\ val (dx2 m) <= val (dx3 m) <= 1/2 /\ val (dx1 m) < 1/2 /\
  0 <= val (dy1 m) <= val (dy2 m) /\ val (dy2 m) <= 1/2 /\ val (dy1 m) < 1/2 /\
  0 <= val (dyl m) <= 1/2 /\ 0 <= val (dyu m) <= 1/2.
