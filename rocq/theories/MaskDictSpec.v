(** Masks made from dictionaries of masks: vocabulary for MaskDictProps.v. *)
From Coq Require Import String List ZArith Bool Reals.
Import ListNotations.
From Verif Require Import Base Num PyStr MaskModel MaskDictModel.

(** The number stored under a name.  JSON has one kind of numbers: what is read
    back is plain. *)
Definition number (d : @mask_dict R) (name : string) : option (@mixed R) :=
  match find (fun kv => if list_eq_dec Z.eq_dec (fst kv) (str name) then true else false) d with
  | Some (_, Number x) => Some (Plain (val x))
  | _ => None
  end.
Definition kind (d : @mask_dict R) : option pystr :=
  match find (fun kv => if list_eq_dec Z.eq_dec (fst kv) (str "type") then true else false) d with
  | Some (_, Text s) => Some s
  | _ => None
  end.

(** [MaskHexagon(x1, x2, y1, yl, yu)] with the numbers of a dictionary. *)
Definition remade_hexagon (d : @mask_dict R) (m : @hexagon R) : Prop :=
  kind d = Some (str "hexagon") /\ exists x1 x2 y1 yl yu,
    number d "x1" = Some x1 /\ number d "x2" = Some x2 /\ number d "y1" = Some y1 /\
    number d "yl" = Some yl /\ number d "yu" = Some yu /\ m = new_hexagon x1 x2 y1 yl yu true.
Definition remade_decagon (d : @mask_dict R) (m : @decagon R) : Prop :=
  kind d = Some (str "decagon") /\ exists x1 x2 x3 y1 y2 yl yu,
    number d "x1" = Some x1 /\ number d "x2" = Some x2 /\ number d "x3" = Some x3 /\ number d "y1" = Some y1 /\
    number d "y2" = Some y2 /\ number d "yl" = Some yl /\ number d "yu" = Some yu /\
    m = new_decagon x1 x2 x3 y1 y2 yl yu true.

(** The outline of a mask for an amplitude and an interval. *)
Definition hex_outline (m : @hexagon R) (ua ui : R) (paths : list (list (R * R))) : Prop :=
  exists c, hex_convert m ua ui = Ok c /\ hex_get_paths c = Ok paths.
Definition dec_outline (m : @decagon R) (ua ui : R) (paths : list (list (R * R))) : Prop :=
  exists c, dec_convert m ua ui = Ok c /\ dec_get_paths c = Ok paths.
