(** Model of hardware_tools/measurement/mask.py. *)
From Coq Require Import List ZArith Bool.
Import ListNotations.
From Verif Require Import Base Num.
Local Open Scope num_scope.
Local Open Scope result_scope.

Section Mask.
Context {A : Type} `{Num A}.

(** mask.py:10-16 -- MixedUnits: a float, possibly of the subclass RealUnits.
    Arithmetic on a RealUnits gives a plain float. *)
Inductive mixed := Plain (a : A) | RealUnits (a : A).
Definition val (m : mixed) : A := match m with Plain a | RealUnits a => a end.

(** mask.py:49-63 [_convert_ua] and 65-79 [_convert_ui] (same code). *)
Definition convert (actual : mixed) (unit_ : A) : result mixed :=
  match actual with
  | RealUnits a => v <- py_div a unit_ ;; Ok (Plain v)
  | Plain a => Ok (Plain a)
  end.

Definition point : Type := (A * A)%type.
Definition path : Type := list point.

Definition one : A := nofZ 1.
Definition neg (x : A) : A := nofZ 0 -. x.

(** mask.py:31-40,42-47 -- [converted] is set by convert_mixed_units; the
    property [paths] raises before. *)
Definition get_paths (converted : bool) (paths : list path) : result (list path) :=
  if converted then Ok paths else Err ValueError.

(** mask.py:163-190 -- fields of a MaskHexagon.  The paths are a function of
    them, see [hex_paths]. *)
Record hexagon := Hexagon {
  hx1 : mixed; hx2 : mixed; hy1 : mixed; hyl : mixed; hyu : mixed;
  hzero : bool; hconv : bool }.

(** mask.py:193-218. *)
Definition limit_paths (yl yu : A) : list path :=
  [ [(nofZ 0, nofZ 2); (nofZ 0, one +. yu); (one, one +. yu); (one, nofZ 2)];
    [(nofZ 0, nofZ (-1)); (nofZ 0, neg yl); (one, neg yl); (one, nofZ (-1))] ].
Definition hex_paths (m : hexagon) : list path :=
  let x1 := val (hx1 m) in let x2 := val (hx2 m) in let y1 := val (hy1 m) in
  [ (x1, nhalf);
    (x2, one -. y1);
    (one -. x2, one -. y1);
    (one -. x1, nhalf);
    (one -. x2, y1);
    (x2, y1);
    (x1, nhalf) ] :: limit_paths (val (hyl m)) (val (hyu m)).
Definition hex_get_paths (m : hexagon) : result (list path) := get_paths (hconv m) (hex_paths m).

(** mask.py:163-218 -- the constructor leaves the mask unconverted. *)
Definition new_hexagon (x1 x2 y1 yl yu : mixed) (zero_ref : bool) : hexagon :=
  Hexagon x1 x2 y1 yl yu zero_ref false.

(** mask.py:220-233 [MaskHexagon.convert_mixed_units]. *)
Definition hex_convert (m : hexagon) (ua ui : A) : result hexagon :=
  x1 <- convert (hx1 m) ui ;;
  x2 <- convert (hx2 m) ui ;;
  y1 <- convert (hy1 m) ua ;;
  yl <- convert (hyl m) ua ;;
  yu <- convert (hyu m) ua ;;
  let y1' := if hzero m then y1 else Plain (nhalf -. val y1) in
  let yl' := if hzero m then yl else Plain (val yl -. nhalf) in
  let yu' := if hzero m then yu else Plain (val yu -. nhalf) in
  Ok (Hexagon x1 x2 y1' yl' yu' (hzero m) true).

(** mask.py:239 etc.: 0.5 - (0.5 - c1) * (0.5 - c) / (0.5 - c1_old). *)
Definition proportional (c1 c c1_old : A) : result A :=
  d <- py_div ((nhalf -. c1) *. (nhalf -. c)) (nhalf -. c1_old) ;;
  Ok (nhalf -. d).
(** mask.py:245 etc.: factor * 0.5 + (1 - factor) * c. *)
Definition towards_half (factor c : A) : A := factor *. nhalf +. (one -. factor) *. c.

(** mask.py:235-252 [MaskHexagon.adjust]. *)
Definition hex_adjust (m : hexagon) (factor : A) : result hexagon :=
  if factor >. nofZ 0 then
    let x1 := (one -. factor) *. val (hx1 m) in
    x2 <- proportional x1 (val (hx2 m)) (val (hx1 m)) ;;
    let y1 := (one -. factor) *. val (hy1 m) in
    let yl := (one -. factor) *. val (hyl m) in
    let yu := (one -. factor) *. val (hyu m) in
    Ok (Hexagon (Plain x1) (Plain x2) (Plain y1) (Plain yl) (Plain yu) (hzero m) (hconv m))
  else
    let factor := neg factor in
    let a c := Plain (towards_half factor (val c)) in
    Ok (Hexagon (a (hx1 m)) (a (hx2 m)) (a (hy1 m)) (a (hyl m)) (a (hyu m)) (hzero m) (hconv m)).

(** mask.py:311-344 -- fields of a MaskDecagon. *)
Record decagon := Decagon {
  dx1 : mixed; dx2 : mixed; dx3 : mixed; dy1 : mixed; dy2 : mixed; dyl : mixed; dyu : mixed;
  dzero : bool; dconv : bool }.

(** mask.py:346-376. *)
Definition dec_paths (m : decagon) : list path :=
  let x1 := val (dx1 m) in let x2 := val (dx2 m) in let x3 := val (dx3 m) in
  let y1 := val (dy1 m) in let y2 := val (dy2 m) in
  [ (x1, nhalf);
    (x2, one -. y2);
    (x3, one -. y1);
    (one -. x3, one -. y1);
    (one -. x2, one -. y2);
    (one -. x1, nhalf);
    (one -. x2, y2);
    (one -. x3, y1);
    (x3, y1);
    (x2, y2);
    (x1, nhalf) ] :: limit_paths (val (dyl m)) (val (dyu m)).
Definition dec_get_paths (m : decagon) : result (list path) := get_paths (dconv m) (dec_paths m).

Definition new_decagon (x1 x2 x3 y1 y2 yl yu : mixed) (zero_ref : bool) : decagon :=
  Decagon x1 x2 x3 y1 y2 yl yu zero_ref false.

(** mask.py:378-394 [MaskDecagon.convert_mixed_units]. *)
Definition dec_convert (m : decagon) (ua ui : A) : result decagon :=
  x1 <- convert (dx1 m) ui ;;
  x2 <- convert (dx2 m) ui ;;
  x3 <- convert (dx3 m) ui ;;
  y1 <- convert (dy1 m) ua ;;
  y2 <- convert (dy2 m) ua ;;
  yl <- convert (dyl m) ua ;;
  yu <- convert (dyu m) ua ;;
  let y1' := if dzero m then y1 else Plain (nhalf -. val y1) in
  let y2' := if dzero m then y2 else Plain (nhalf -. val y2) in
  let yl' := if dzero m then yl else Plain (val yl -. nhalf) in
  let yu' := if dzero m then yu else Plain (val yu -. nhalf) in
  Ok (Decagon x1 x2 x3 y1' y2' yl' yu' (dzero m) true).

(** mask.py:396-417 [MaskDecagon.adjust]. *)
Definition dec_adjust (m : decagon) (factor : A) : result decagon :=
  if factor >. nofZ 0 then
    let x1 := (one -. factor) *. val (dx1 m) in
    x2 <- proportional x1 (val (dx2 m)) (val (dx1 m)) ;;
    x3 <- proportional x1 (val (dx3 m)) (val (dx1 m)) ;;
    let y1 := (one -. factor) *. val (dy1 m) in
    y2 <- proportional y1 (val (dy2 m)) (val (dy1 m)) ;;
    let yl := (one -. factor) *. val (dyl m) in
    let yu := (one -. factor) *. val (dyu m) in
    Ok (Decagon (Plain x1) (Plain x2) (Plain x3) (Plain y1) (Plain y2) (Plain yl) (Plain yu) (dzero m) (dconv m))
  else
    let factor := neg factor in
    let a c := Plain (towards_half factor (val c)) in
    Ok (Decagon (a (dx1 m)) (a (dx2 m)) (a (dx3 m)) (a (dy1 m)) (a (dy2 m)) (a (dyl m)) (a (dyu m))
          (dzero m) (dconv m)).
End Mask.
Arguments mixed : clear implicits.
Arguments hexagon : clear implicits.
Arguments decagon : clear implicits.
