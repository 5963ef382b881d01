(** Model of the line rasteriser: math/_lines_fb.py:10-89 ([_draw_segment],
    [draw], [draw_points]) and the identical math/_lines.pyx:15-138.
    A grid of shape (n_x, n_y) is a function from cells to counts together with
    its shape; integers are unbounded (int32 wrap-around of the compiled version
    is covered by a separate range theorem). *)
From Coq Require Import List ZArith Bool.
Import ListNotations.
From Verif Require Import Base.
Local Open Scope Z_scope.

Record grid := { n_x : Z; n_y : Z; cell : Z -> Z -> Z }.

(** [grid[x, y] += 1]. *)
Definition incr (g : grid) (x y : Z) : grid :=
  {| n_x := n_x g; n_y := n_y g;
     cell := fun a b => if (a =? x) && (b =? y) then cell g a b + 1 else cell g a b |}.

(** _lines_fb.py:47-48 (also 73-74, 88-89): increment when inside of the grid. *)
Definition plot (g : grid) (x y : Z) : grid :=
  if ((0 <=? x) && (x <? n_x g)) && ((0 <=? y) && (y <? n_y g)) then incr g x y else g.

(** _lines_fb.py:41-56 -- the [while True] loop; state x1, y1, err, grid. *)
Fixpoint segment_loop (fuel : nat) (x2 y2 dx dy sx sy : Z) (x1 y1 err : Z) (g : grid)
  : result grid :=
  match fuel with
  | O => Err OutOfFuel
  | S fuel' =>
      if (x1 =? x2) && (y1 =? y2) then Ok g
      else
        let g := plot g x1 y1 in
        let e2 := 2 * err in
        let '(err, x1) := if - dy <? e2 then (err - dy, x1 + sx) else (err, x1) in
        let '(err, y1) := if e2 <? dx then (err + dx, y1 + sy) else (err, y1) in
        segment_loop fuel' x2 y2 dx dy sx sy x1 y1 err g
  end.

(** _lines_fb.py:10-39 [_draw_segment]; [fuel] bounds the number of loop tests. *)
Definition draw_segment (fuel : nat) (x1 y1 x2 y2 : Z) (g : grid) : result grid :=
  let dx := Z.abs (x2 - x1) in
  let dy := Z.abs (y2 - y1) in
  let sx := if x1 <? x2 then 1 else -1 in
  let sy := if y1 <? y2 then 1 else -1 in
  segment_loop fuel x2 y2 dx dy sx sy x1 y1 (dx - dy) g.

(** _lines_fb.py:67-72 -- the loop over consecutive vertices of [draw]; the
    vertex lists x and y are given as one list of pairs (x.size = y.size). *)
Fixpoint draw_loop (fuel : nat) (p : Z * Z) (ps : list (Z * Z)) (g : grid)
  : result (grid * (Z * Z)) :=
  match ps with
  | [] => Ok (g, p)
  | q :: ps' =>
      match draw_segment fuel (fst p) (snd p) (fst q) (snd q) g with
      | Ok g => draw_loop fuel q ps' g
      | Err e => Err e
      end
  end.

(** _lines_fb.py:59-74 [draw].  With fewer than two vertices x2, y2 are unbound
    (the compiled version reads uninitialised variables). *)
Definition draw (fuel : nat) (ps : list (Z * Z)) (g : grid) : result grid :=
  match ps with
  | p :: (_ :: _) as qs =>
      match draw_loop fuel p (tl ps) g with
      | Ok (g, (x2, y2)) => Ok (plot g x2 y2)
      | Err e => Err e
      end
  | _ => Err UnboundLocalError
  end.

(** _lines_fb.py:77-89 [draw_points]. *)
Definition draw_points (ps : list (Z * Z)) (g : grid) : grid :=
  fold_left (fun g p => plot g (fst p) (snd p)) ps g.

(** Wrap-around of the C type int32 used by the compiled version. *)
Definition wrap32 (z : Z) : Z := (z + 2147483648) mod 4294967296 - 2147483648.

(** math/_lines.pyx:60-75 -- the loop of [_draw_segment_c], every int32
    operation wrapped. *)
Fixpoint segment_loop32 (fuel : nat) (x2 y2 dx dy sx sy : Z) (x1 y1 err : Z) (g : grid)
  : result grid :=
  match fuel with
  | O => Err OutOfFuel
  | S fuel' =>
      if (x1 =? x2) && (y1 =? y2) then Ok g
      else
        let g := plot g x1 y1 in
        let e2 := wrap32 (2 * err) in
        let '(err, x1) := if wrap32 (- dy) <? e2
                          then (wrap32 (err - dy), wrap32 (x1 + sx)) else (err, x1) in
        let '(err, y1) := if e2 <? dx
                          then (wrap32 (err + dx), wrap32 (y1 + sy)) else (err, y1) in
        segment_loop32 fuel' x2 y2 dx dy sx sy x1 y1 err g
  end.

(** math/_lines.pyx:15-58 [_draw_segment_c]. *)
Definition draw_segment32 (fuel : nat) (x1 y1 x2 y2 : Z) (g : grid) : result grid :=
  let dx := if x1 <? x2 then wrap32 (x2 - x1) else wrap32 (x1 - x2) in
  let dy := if y1 <? y2 then wrap32 (y2 - y1) else wrap32 (y1 - y2) in
  let sx := if x1 <? x2 then 1 else -1 in
  let sy := if y1 <? y2 then 1 else -1 in
  segment_loop32 fuel x2 y2 dx dy sx sy x1 y1 (wrap32 (dx - dy)) g.
