(** Talking to an instrument: Python code with side effects on a VISA resource
    as functions on a world.  The instrument is arbitrary: its reaction to each
    operation, including failures, is given by a [device]. *)
From Coq Require Import String ZArith Bool List.
Import ListNotations.
From Verif Require Import Base PyStr.

(** What the instrument (and the VISA library) does.  [D] is its state. *)
Record device (D : Type) := Device {
  dev_open : D -> pystr -> result bool * D;       (* message based? *)
  dev_close : D -> result unit * D;
  dev_write : D -> pystr -> result unit * D;
  dev_query : D -> pystr -> result pystr * D;
  dev_raw : D -> result (list Z) * D }.
Arguments Device {D}. Arguments dev_open {D}. Arguments dev_close {D}.
Arguments dev_write {D}. Arguments dev_query {D}. Arguments dev_raw {D}.

(** What happened, in order; resources are numbered as they are opened. *)
Inductive event :=
| Opened (r : nat) | Closed (r : nat) | CloseFailed (r : nat) (e : exn)
| Wrote (r : nat) (cmd : pystr) | WriteFailed (r : nat) (cmd : pystr) (e : exn)
| Queried (r : nat) (cmd reply : pystr) | QueryFailed (r : nat) (cmd : pystr) (e : exn)
| ReadRaw (r : nat) (data : list Z) | ReadFailed (r : nat) (e : exn)
| Slept.

(** The world: instrument, number of resources opened so far, events, and the
    attribute [_instrument] of the Equipment object (None: closed). *)
Record world (D : Type) := World {
  w_dev : D; w_next : nat; w_log : list event; w_inst : option nat }.
Arguments World {D}. Arguments w_dev {D}. Arguments w_next {D}. Arguments w_log {D}. Arguments w_inst {D}.

(** Effectful code.  An exception keeps the effects done before it. *)
Definition io (D A : Type) : Type := world D -> result A * world D.

Section IO.
Context {D : Type}.
Variable dev : device D.

Definition ret {A} (a : A) : io D A := fun w => (Ok a, w).
Definition raise {A} (e : exn) : io D A := fun w => (Err e, w).
Definition iobind {A B} (m : io D A) (f : A -> io D B) : io D B :=
  fun w => let '(r, w) := m w in
           match r with
           | Ok a => f a w
           | Err e => (Err e, w)
           end.
(** A pure computation that may raise. *)
Definition lift {A} (r : result A) : io D A := fun w => (r, w).
(** try: m finally: f  (an exception of f replaces the one of m). *)
Definition finally {A} (m : io D A) (f : io D unit) : io D A :=
  fun w => let '(r, w) := m w in
           let '(r', w) := f w in
           match r' with
           | Ok _ => (r, w)
           | Err e => (Err e, w)
           end.

(** ** The resource *)
Definition open_resource (address : pystr) : io D (nat * bool) := fun w =>
  let '(r, d) := dev_open dev (w_dev w) address in
  match r with
  | Err e => (Err e, World d (w_next w) (w_log w) (w_inst w))
  | Ok mb => (Ok (w_next w, mb), World d (S (w_next w)) (w_log w ++ [Opened (w_next w)]) (w_inst w))
  end.
Definition close_resource (n : nat) : io D unit := fun w =>
  let '(r, d) := dev_close dev (w_dev w) in
  (r, World d (w_next w) (w_log w ++ [match r with Ok _ => Closed n | Err e => CloseFailed n e end]) (w_inst w)).
Definition write_resource (n : nat) (cmd : pystr) : io D unit := fun w =>
  let '(r, d) := dev_write dev (w_dev w) cmd in
  (r, World d (w_next w) (w_log w ++ [match r with Ok _ => Wrote n cmd | Err e => WriteFailed n cmd e end]) (w_inst w)).
Definition query_resource (n : nat) (cmd : pystr) : io D pystr := fun w =>
  let '(r, d) := dev_query dev (w_dev w) cmd in
  (r, World d (w_next w) (w_log w ++ [match r with Ok a => Queried n cmd a | Err e => QueryFailed n cmd e end]) (w_inst w)).
Definition raw_resource (n : nat) : io D (list Z) := fun w =>
  let '(r, d) := dev_raw dev (w_dev w) in
  (r, World d (w_next w) (w_log w ++ [match r with Ok a => ReadRaw n a | Err e => ReadFailed n e end]) (w_inst w)).
(** time.sleep *)
Definition sleep : io D unit := fun w => (Ok tt, World (w_dev w) (w_next w) (w_log w ++ [Slept]) (w_inst w)).
Definition set_inst (i : option nat) : io D unit := fun w => (Ok tt, World (w_dev w) (w_next w) (w_log w) i).
Definition get_inst : io D (option nat) := fun w => (Ok (w_inst w), w).
End IO.

Declare Scope io_scope.
Notation "x <~ e ;; f" := (iobind e (fun x => f)) (at level 61, e at next level, right associativity) : io_scope.
Notation "' p <~ e ;; f" := (iobind e (fun p => f)) (at level 61, p pattern, e at next level, right associativity) : io_scope.
Notation "e ;> f" := (iobind e (fun _ => f)) (at level 61, right associativity) : io_scope.
