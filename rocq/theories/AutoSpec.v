(** Specification of autoscaling. *)
From Coq Require Import ZArith Reals List.
Import ListNotations.
From Verif Require Import Base IOModel.
Local Open Scope R_scope.

(** A picture as wanted: on the screen with a margin of 5 %, spanning 75 % to
    85 % of its height, its middle at most 10 % off the middle of the screen.
    [lo] and [hi] are the limits of the screen in the units of the samples. *)
Definition height (lo hi y : R) : R := (y - lo) / (hi - lo).
Definition well_placed (data : list R) (lo hi : R) : Prop := lo <> hi /\
  exists bottom top, In bottom (map (height lo hi) data) /\ In top (map (height lo hi) data) /\
    (forall y, In y data -> bottom <= height lo hi y <= top) /\
    5 / 100 <= bottom /\ top <= 95 / 100 /\
    75 / 100 <= top - bottom <= 85 / 100 /\
    4 / 10 <= (bottom + top) / 2 <= 6 / 10.

(** ** Runs of autoscale *)
Section Runs.
Context {D : Type}.
Variable get_points : io D Z.
Variable set_points : Z -> io D unit.
Variable get_position get_scale : io D R.
Variable set_position set_scale : R -> io D unit.
Variable single : io D unit.
Variable read : io D (list R * R * R).

(** One acquisition with its picture, at vertical scale [s]. *)
Definition acquires_at (s : R) (w : world D) (data : list R) (lo hi : R) (w' : world D) : Prop :=
  exists p w1 w2 w3, get_position w = (Ok p, w1) /\ get_scale w1 = (Ok s, w2) /\ single w2 = (Ok tt, w3) /\ read w3 = (Ok (data, lo, hi), w').
Definition acquires (w : world D) (data : list R) (lo hi : R) (w' : world D) : Prop := exists s, acquires_at s w data lo hi w'.
(** [k] acquisitions that were not accepted, each followed by new settings. *)
Inductive tries : nat -> world D -> world D -> Prop :=
| tries_none w : tries 0 w w
| tries_one k w data lo hi w1 s w2 p w3 w4 : acquires w data lo hi w1 -> ~ well_placed data lo hi ->
    set_scale s w1 = (Ok tt, w2) -> set_position p w2 = (Ok tt, w3) -> tries k w3 w4 -> tries (S k) w w4.
(** An operation on the instrument failed, leaving it in [w']. *)
Definition failed (e : exn) (w' : world D) : Prop := exists w x z,
  get_points w = (Err e, w') \/ set_points z w = (Err e, w') \/ get_position w = (Err e, w') \/ get_scale w = (Err e, w') \/
  set_position x w = (Err e, w') \/ set_scale x w = (Err e, w') \/ single w = (Err e, w') \/ read w = (Err e, w').
End Runs.

(** ** An ideal channel *)
(** A channel with a vertical scale (volts per division) and a position
    (divisions) showing the samples of a [signal] on a screen of [n] divisions;
    the scope digitises what is on the screen and clips the rest.  Settings are
    applied exactly; every acquisition shows the same signal. *)
Record ideal := Ideal { i_scale : R; i_position : R; i_points : Z }.
Definition on_screen (c : ideal) (v : R) : R := v / i_scale c + i_position c.
Definition clip (n : Z) (y : R) : R := Rmax (- (IZR n / 2)) (Rmin (IZR n / 2) y).
Definition picture (n : Z) (c : ideal) (signal : list R) : list R := map (fun v => clip n (on_screen c v)) signal.
Definition set_dev (d : ideal) (w : world ideal) : result unit * world ideal := (Ok tt, World d (w_next w) (w_log w) (w_inst w)).
Definition ideal_get_points : io ideal Z := fun w => (Ok (i_points (w_dev w)), w).
Definition ideal_set_points (z : Z) : io ideal unit := fun w => set_dev (Ideal (i_scale (w_dev w)) (i_position (w_dev w)) z) w.
Definition ideal_get_position : io ideal R := fun w => (Ok (i_position (w_dev w)), w).
Definition ideal_get_scale : io ideal R := fun w => (Ok (i_scale (w_dev w)), w).
Definition ideal_set_position (x : R) : io ideal unit := fun w => set_dev (Ideal (i_scale (w_dev w)) x (i_points (w_dev w))) w.
Definition ideal_set_scale (x : R) : io ideal unit := fun w => set_dev (Ideal x (i_position (w_dev w)) (i_points (w_dev w))) w.
Definition ideal_single : io ideal unit := ret tt.
Definition ideal_read (n : Z) (signal : list R) : io ideal (list R * R * R) :=
  fun w => (Ok (picture n (w_dev w) signal, - (IZR n / 2), IZR n / 2), w).
