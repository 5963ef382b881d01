(** Model of AnalogChannel.autoscale (hardware_tools/equipment/scope.py:188-271).
    The operations on the instrument are parameters: any instrument, any
    failure.  Numbers are a [Num] instance; comparisons with constants such as
    0.45 use the decimal fraction instead of the nearest float. *)
From Coq Require Import ZArith Bool List.
Import ListNotations.
From Verif Require Import Base Num IOModel.
Local Open Scope num_scope.
Local Open Scope io_scope.

Section Auto.
Context {D : Type} {T : Type} `{Num T}.
Definition cst (n d : Z) : T := nofZ n /. nofZ d.

(** numpy division by zero gives inf or nan; what follows is not modelled. *)
Definition np_div (a b : T) : result T := if b =. nofZ 0 then Err UndefinedBehaviour else Ok (a /. b).

(** scope.py:217-219: data in screen units, -0.5 to 0.5 *)
Definition screen (data : list T) (clip_min clip_max : T) : result (list T) :=
  mapM (fun y => bind (np_div (y -. clip_min) (clip_max -. clip_min)) (fun q => Ok (q -. cst 1 2))) data.

(** scope.py:222-262: new scale and position, None if no update is needed *)
Definition recentre (n_div : Z) (position scale mid new_scale : T) : result T :=
  np_div ((position -. nofZ n_div *. mid) *. scale) new_scale.
Definition clipped_scale (scale span : T) : T :=
  if cst 6 10 <. span then scale *. nofZ 4
  else if span <. cst 1 10 then scale /. nofZ 4
  else scale.
Definition correction (n_div : Z) (position scale : T) (data : list T) : result (option (T * T)) :=
  bind (py_min data) (fun data_min =>
  bind (py_max data) (fun data_max =>
  let mid := (data_min +. data_max) /. nofZ 2 in
  let span := data_max -. data_min in
  if cst 45 100 <. data_max then
    let new_scale := clipped_scale scale span in
    bind (recentre n_div position scale mid new_scale) (fun p => Ok (Some (new_scale, p)))
  else if data_min <. nofZ 0 -. cst 45 100 then
    let new_scale := clipped_scale scale span in
    bind (recentre n_div position scale mid new_scale) (fun p => Ok (Some (new_scale, p)))
  else if span <. cst 5 100 then
    let new_scale := scale /. nofZ 10 in
    bind (recentre n_div position scale mid new_scale) (fun p => Ok (Some (new_scale, p)))
  else
    let rescale := (span <. cst 75 100) || (cst 85 100 <. span) in
    bind (if rescale then np_div scale (cst 8 10 /. span) else Ok scale) (fun new_scale =>
    if (cst 1 10 <. mid) || (mid <. nofZ 0 -. cst 1 10) || negb (new_scale =. scale) then
      bind (recentre n_div position scale mid new_scale) (fun p => Ok (Some (new_scale, p)))
    else if rescale then Ok (Some (new_scale, position))
    else Ok None))).

(** The instrument: read_waveform returns the vertical samples and the clip
    limits. *)
Variable n_div_vert : Z.
Variable get_points : io D Z.
Variable set_points : Z -> io D unit.
Variable get_position get_scale : io D T.
Variable set_position set_scale : T -> io D unit.
Variable single : io D unit.
Variable read : io D (list T * T * T).

(** scope.py:207-265; [k] attempts left, returns what is left of them *)
Fixpoint attempts (k : nat) : io D nat :=
  match k with
  | O => ret O
  | S k =>
      position <~ get_position ;;
      scale <~ get_scale ;;
      single ;>
      ' (data, clip_min, clip_max) <~ read ;;
      data <~ lift (screen data clip_min clip_max) ;;
      c <~ lift (correction n_div_vert position scale data) ;;
      match c with
      | Some (new_scale, new_position) => set_scale new_scale ;> set_position new_position ;> attempts k
      | None => ret k
      end
  end.
Definition autoscale : io D unit :=
  original <~ get_points ;;
  set_points 1000000 ;>
  left <~ attempts 10 ;;
  set_points original ;>
  match left with
  | O => raise TimeoutError
  | S _ => ret tt
  end.
End Auto.
