(** Model of a session with a scope: hardware_tools/equipment/utility.py
    [connect] with the built-in drivers, the constructor of the scope, and the
    [with] statement of equipment.py [Equipment.__enter__], [__exit__]. *)
From Coq Require Import ZArith QArith List.
Import ListNotations.
From Verif Require Import Base PyStr IOModel EquipModel ScopeModel ScopeSpec ScopeUseModel.
Local Open Scope io_scope.

Section Session.
Context {D : Type}.
Variable dev : device D.
Variable fl : Q -> Q.
Variable digit : Z -> bool.

(** The object is released: equipment.py:51-52 [__del__]; Python drops its
    exceptions.  It is taken to happen at once, as in CPython when the exception
    of a constructor is handled. *)
Definition release : io D unit := fun w => (Ok tt, snd (del dev w)).
(** [m] builds an object that is released if [m] fails. *)
Definition building {A} (m : io D A) : io D A := fun w =>
  let '(r, w) := m w in
  match r with
  | Ok a => (Ok a, w)
  | Err e => (Err e, snd (release w))
  end.
(** utility.py:12-17 *)
Definition family_of (d : builtin) : family := match d with MSO4000Family => F4000 | MSO456Family => F456 end.
(** utility.py:47-74 [connect] without installed drivers; scope.py:417-425 *)
Definition connect_scope (address : pystr) : io D (family * scope) :=
  identity <~ probe dev address ;;
  d <~ lift (dispatch builtin (builtin_match digit) builtin_registry identity) ;;
  s <~ building (new_scope dev fl digit (family_of d) address) ;;
  ret (family_of d, s).
(** with connect(address) as scope: body; then the object is released;
    equipment.py:59-63 *)
Definition with_scope {A} (address : pystr) (body : family -> scope -> io D A) : io D A :=
  s <~ connect_scope address ;;
  finally (finally (body (fst s) (snd s)) (exit dev)) release.
End Session.
