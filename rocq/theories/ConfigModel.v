(** Model of eye diagram configuration: hardware_tools/measurement/eyediagram/
    eyediagram.py Config and pam2.py PAM2Config. *)
From Coq Require Import String ZArith QArith Bool List.
Import ListNotations.
From Verif Require Import Base PyStr.
Local Open Scope result_scope.

(** Values of attributes; [Obj] is any other object, by identity. *)
Inductive pyval := VNone | VBool (b : bool) | VNum (q : Q) | VRising | VUncertain (value stddev : Q) | Obj (id : Z).
(** Instance attributes in order of creation. *)
Definition attrs := list (pystr * pyval).

Definition lookup (a : attrs) (k : pystr) : option pyval :=
  match find (fun p => str_eqb (fst p) k) a with Some p => Some (snd p) | None => None end.
(** setattr on an instance without slots or properties *)
Fixpoint setattr (a : attrs) (k : pystr) (v : pyval) : attrs :=
  match a with
  | [] => [(k, v)]
  | p :: a' => if str_eqb (fst p) k then (k, v) :: a' else p :: setattr a' k v
  end.
(** Attributes of the class; names like __x__ that object provides are refused
    below because setting some of them has other effects. *)
Definition class_attrs : list pystr := [str "consume"].
Definition hasattr (a : attrs) (k : pystr) : bool :=
  match lookup a k with Some _ => true | None => existsb (str_eqb k) class_attrs end.
Definition dunder (k : pystr) : bool := str_eqb (firstn 2 k) (str "__").
(** eyediagram.py:343-355 consume; the keys of a dictionary are visited in
    order, what was set before an exception stays.  Names starting with two
    underscores are not modelled. *)
Fixpoint consume (a : attrs) (config : list (pystr * pyval)) : result unit * attrs :=
  match config with
  | [] => (Ok tt, a)
  | (k, v) :: config' =>
      if dunder k then (Err UndefinedBehaviour, a)
      else if negb (hasattr a k) then (Err KeyError, a)
      else consume (setattr a k v) config'
  end.
(** eyediagram.py:318-339 *)
Definition config_defaults : attrs :=
  [ (str "hysteresis", VNone); (str "hysteresis_ua", VNum (1 # 10)); (str "levels_n_max", VNum 10000);
    (str "clock_polarity", VRising); (str "cdr", VNone); (str "fallback_period", VNum (1 # 10000000));
    (str "skip_measures", VBool false); (str "level_width", VNum (2 # 10)); (str "cross_width", VNum (1 # 10));
    (str "time_height", VNum (5 # 100)); (str "edge_lower", VNum (2 # 10)); (str "edge_upper", VNum (8 # 10));
    (str "noise_floor", VUncertain 0 0); (str "point_cloud", VBool false) ].
(** pam2.py:144-146 *)
Definition pam2_defaults : attrs := [(str "y_0", VNone); (str "y_1", VNone); (str "y_th", VNone)].
(** eyediagram.py:311-341 Config( **kwargs ) and pam2.py:141-156 PAM2Config( **kwargs ) *)
Definition new_config (pam2 : bool) (kwargs : list (pystr * pyval)) : result attrs :=
  let '(r, a) := consume (if pam2 then config_defaults ++ pam2_defaults else config_defaults) kwargs in
  _ <- r ;; Ok a.
