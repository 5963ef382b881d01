(** Model of hardware_tools/math/image.py. *)
From Coq Require Import List ZArith Bool.
Import ListNotations.
From Verif Require Import Base Num.
Local Open Scope num_scope.
Local Open Scope result_scope.

Section Image.
Context {A : Type} `{Num A}.

(** A numpy array [row, column, channel]: its shape and its pixels in row-major
    order, each the list of its channels.  Arrays have a floating dtype. *)
Record image := Image { shape : list nat; pixels : list (list A) }.

(** Channels of an RGBA pixel (shape[2] = 4 was checked). *)
Definition chan (k : nat) (p : list A) : A := nth k p (nofZ 0).

(** math/image.py:33-37 etc. (the file's own numbering) -- one colour channel:
    np.divide(..., where=alpha_out != 0) writes into an uninitialised array, so
    the skipped elements are arbitrary: [junk]. *)
Definition blend (junk colour_a alpha_a colour_b alpha_b alpha_out : A) : A :=
  if alpha_out =. nofZ 0 then junk
  else (colour_a *. alpha_a +. colour_b *. alpha_b *. (nofZ 1 -. alpha_a)) /. alpha_out.

(** math/image.py:33-52 -- one pixel; [junk k] is the uninitialised value of
    channel k. *)
Definition layer_pixel (junk : nat -> A) (below above : list A) : list A :=
  let alpha_a := chan 3 above in
  let alpha_b := chan 3 below in
  let alpha_out := alpha_a +. alpha_b *. (nofZ 1 -. alpha_a) in
  map (fun k => blend (junk k) (chan k above) alpha_a (chan k below) alpha_b alpha_out) [0; 1; 2]%nat
    ++ [alpha_out].

Fixpoint map2i {X Y Z} (f : nat -> X -> Y -> Z) (i : nat) (a : list X) (b : list Y) : list Z :=
  match a, b with
  | x :: a', y :: b' => f i x y :: map2i f (S i) a' b'
  | _, _ => []
  end.

(** math/image.py:11-53 [layer_rgba]. *)
Definition layer_rgba (junk : nat -> nat -> A) (below above : image) : result image :=
  if list_eq_dec Nat.eq_dec (shape below) (shape above) then
    c <- get (shape below) 2 ;;
    if (c =? 4)%nat then
      Ok (Image (shape below) (map2i (fun i => layer_pixel (junk i)) 0 (pixels below) (pixels above)))
    else Err ValueError
  else Err ValueError.

(** A well-formed array. *)
Definition wf (im : image) : Prop :=
  exists h w, shape im = [h; w; 4%nat] /\ length (pixels im) = (h * w)%nat /\
    forall p, In p (pixels im) -> length p = 4%nat.
End Image.

(** math/image.py:56-68,71-79: (255 * image).astype("uint8"), the conversion
    before PNG encoding; truncation of a value in range.  Encoding is not
    modelled. *)
From Coq Require Import Reals.
Definition to_uint8 (x : R) : Z := (Int_part (255 * x) mod 256)%Z.
