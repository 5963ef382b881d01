(** What the properties of sessions talk about. *)
From Coq Require Import String ZArith QArith Bool List.
Import ListNotations.
From Verif Require Import Base PyStr IOModel EquipModel EquipSpec.

(** Programs of a user of one instrument object: any control flow, any handling
    of exceptions, and nothing else than sending, asking, reading, sleeping and
    closing with that object. *)
Inductive program {D} (dev : device D) : forall A, io D A -> Prop :=
| p_ret A (a : A) : program dev A (ret a)
| p_raise A e : program dev A (raise e)
| p_lift A (r : result A) : program dev A (lift r)
| p_bind A B (m : io D A) (f : A -> io D B) : program dev A m -> (forall a, program dev B (f a)) -> program dev B (iobind m f)
| p_try A (m : io D A) (h : exn -> io D A) : program dev A m -> (forall e, program dev A (h e)) ->
    program dev A (fun w => let '(r, w) := m w in match r with Ok a => (Ok a, w) | Err e => h e w end)
| p_send c : program dev unit (send dev c)
| p_ask c : program dev pystr (ask dev c)
| p_receive : program dev (list Z) (receive dev)
| p_sleep : program dev unit sleep
| p_close : program dev unit (close dev).
Arguments program {D} dev {A}.

(** Events in good order, from an open resource or none to an open resource or
    none: one resource at a time is open, and only the open one is used. *)
Definition in_use (c : option nat) (ev : event) : Prop :=
  match ev with
  | Slept => True
  | Opened _ | Closed _ => False
  | _ => c <> None /\ resource_of ev = c
  end.
Inductive orderly : option nat -> list event -> option nat -> Prop :=
| o_nil c : orderly c [] c
| o_open r evs c : orderly (Some r) evs c -> orderly None (Opened r :: evs) c
| o_close r evs c : orderly None evs c -> orderly (Some r) (Closed r :: evs) c
| o_use c ev evs c' : in_use c ev -> orderly c evs c' -> orderly c (ev :: evs) c'.
(** The resources opened. *)
Definition opened (evs : list event) : list nat := flat_map (fun ev => match ev with Opened r => [r] | _ => [] end) evs.
(** Resources are message based and can be closed. *)
Definition sound_resources {D} (dev : device D) : Prop :=
  (forall d address, fst (dev_open dev d address) <> Ok false) /\ (forall d, fst (dev_close dev d) = Ok tt).
