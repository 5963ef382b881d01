(** Model of the to_dict methods of hardware_tools/measurement/mask.py. *)
From Coq Require Import String List ZArith Bool.
Import ListNotations.
From Verif Require Import Base Num PyStr MaskModel.
Local Open Scope result_scope.

Section MaskDict.
Context {A : Type} `{Num A}.

(** Values of the dictionaries. *)
Inductive entry := Text (s : pystr) | Number (x : @mixed A) | Paths (l : list (@path A)).
Definition mask_dict := list (pystr * entry).

(** mask.py:106-114 [Mask.to_dict], of masks that are neither hexagons nor
    decagons: the property paths raises before conversion. *)
Definition paths_to_dict (converted : bool) (paths : list (@path A)) : result mask_dict :=
  paths <- get_paths converted paths ;;
  Ok [(str "paths", Paths paths)].

(** mask.py:254-262 [MaskHexagon.to_dict]. *)
Definition hex_to_dict (m : @hexagon A) : mask_dict :=
  [(str "type", Text (str "hexagon"));
   (str "x1", Number (hx1 m)); (str "x2", Number (hx2 m)); (str "y1", Number (hy1 m));
   (str "yl", Number (hyl m)); (str "yu", Number (hyu m))].

(** mask.py:419-429 [MaskDecagon.to_dict]. *)
Definition dec_to_dict (m : @decagon A) : mask_dict :=
  [(str "type", Text (str "decagon"));
   (str "x1", Number (dx1 m)); (str "x2", Number (dx2 m)); (str "x3", Number (dx3 m));
   (str "y1", Number (dy1 m)); (str "y2", Number (dy2 m));
   (str "yl", Number (dyl m)); (str "yu", Number (dyu m))].
End MaskDict.
