(** Model of AnalogChannel.autoscale (hardware_tools/equipment/scope.py:188-271)
    of the scopes of family_mso4000.py and family_mso456.py, down to the
    commands sent.  Numbers are exact rationals: of the float arithmetic only
    the rounding of numbers read ([fl]) and the seven digits of numbers sent
    are modelled. *)
From Coq Require Import String ZArith Bool QArith List.
Import ListNotations.
From Verif Require Import Base Num PyStr IOModel EquipModel TekModel ScopeModel ScopeSpec ScopeUseModel AutoModel.
Local Open Scope Z_scope.
Local Open Scope io_scope.

Section ScopeAuto.
Context {D : Type}.
Variable dev : device D.
Variable fl : Q -> Q.
Variable uniform : Z -> Z -> list Q.
Variable utf8 : list Z -> option pystr.

(** family_mso4000.py:166, family_mso456.py:166 *)
Definition n_div_vert (f : family) : Z := match f with F4000 => 10 | F456 => 10 end.
(** family_mso4000.py:267-269, family_mso456.py:269-273 *)
Definition set_time_points (f : family) : Z -> io D unit :=
  match f with F4000 => set_time_points_4000 dev | F456 => set_time_points_456 dev end.
(** scope.py:212-214: the vertical samples and the clip limits *)
Definition read_vertical (f : family) (name : pystr) : io D (list Q * Q * Q) :=
  w <~ read_waveform dev (to_float fl) uniform utf8 f name false false ;;
  ret (y_axis w, y_clip_min w, y_clip_max w).
(** scope.py:188-271; [trigger_cmd] None is sleeping for 0.1 s *)
Definition autoscale_channel (f : family) (name : pystr) (trigger_cmd : option (io D unit)) : io D unit :=
  autoscale (n_div_vert f) (get_time_points dev) (set_time_points f)
    (get_position dev fl name) (get_scale dev fl name) (set_position dev name) (set_scale dev name)
    (single dev (match trigger_cmd with Some m => m | None => sleep end) true 20)
    (read_vertical f name).
End ScopeAuto.
