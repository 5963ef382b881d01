(** What the properties of Equipment and connect talk about. *)
From Coq Require Import String ZArith Bool List.
Import ListNotations.
From Verif Require Import Base PyStr IOModel EquipModel.
Local Open Scope Z_scope.

(** ** C23: the exchange of a polling sequence that got [replies]. *)
Definition one_poll (r : nat) (command : pystr) (additional : option pystr) (reply : pystr) : list event :=
  match additional with Some c => [Wrote r c] | None => [] end ++ [Queried r command reply].
Fixpoint exchange (r : nat) (command : pystr) (additional : option pystr) (replies : list pystr) : list event :=
  match replies with
  | [] => []
  | [a] => one_poll r command additional a
  | a :: rest => one_poll r command additional a ++ [Slept] ++ exchange r command additional rest
  end.
(** A reply, stripped, is one of the states. *)
Definition wanted (states : list pystr) (reply : pystr) : Prop := In (strip reply) states.
(** An I/O operation on the instrument failed with e. *)
Definition failure (ev : event) (e : exn) : Prop :=
  exists r c, ev = WriteFailed r c e \/ ev = QueryFailed r c e.

(** ** C24: programs using an Equipment object *)
Inductive op :=
| OSend (c : pystr) | OAsk (c : pystr) | OReceive | OReset
| OAskWait (c : pystr) (states : list pystr) (polls : Z) (additional : option pystr)
| OClose | OExit | ODel.
Section Run.
Context {D : Type}.
Variable dev : device D.
Definition do_op (o : op) : io D unit :=
  match o with
  | OSend c => send dev c
  | OAsk c => iobind (ask dev c) (fun _ => ret tt)
  | OReceive => iobind (receive dev) (fun _ => ret tt)
  | OReset => reset dev
  | OAskWait c states n add => iobind (ask_and_wait dev c states n add) (fun _ => ret tt)
  | OClose => close dev
  | OExit => exit dev
  | ODel => del dev
  end.
(** The caller catches every exception and carries on. *)
Fixpoint run_ops (ops : list op) (w : world D) : world D :=
  match ops with
  | [] => w
  | o :: ops => run_ops ops (snd (do_op o w))
  end.
End Run.
(** The resource an event belongs to. *)
Definition resource_of (ev : event) : option nat :=
  match ev with
  | Opened r | Closed r | CloseFailed r _ | Wrote r _ | WriteFailed r _ _
  | Queried r _ _ | QueryFailed r _ _ | ReadRaw r _ | ReadFailed r _ => Some r
  | Slept => None
  end.
Definition is_closed (r : nat) (ev : event) : bool := match ev with Closed r' => Nat.eqb r r' | _ => false end.
Definition closes (log : list event) (r : nat) : nat := length (filter (is_closed r) log).
(** Nothing happens on r after it was closed. *)
Definition quiet_after_close (log : list event) (r : nat) : Prop :=
  forall l1 l2 ev, log = l1 ++ Closed r :: l2 -> In ev l2 -> resource_of ev <> Some r.
Definition closing (o : op) : bool := match o with OClose | OExit | ODel => true | _ => false end.

(** ** C18 *)
(** [d] is the driver of the first registered pattern that matches. *)
Definition first_match {driver} (re_match : pystr -> pystr -> result bool) (reg : registry driver) (identity : pystr) (d : driver) : Prop :=
  exists before regex after, reg = before ++ (regex, d) :: after /\ re_match regex identity = Ok true /\
    forall k d', In (k, d') before -> re_match k identity = Ok false.
Definition no_match {driver} (re_match : pystr -> pystr -> result bool) (reg : registry driver) (identity : pystr) : Prop :=
  forall k d, In (k, d) reg -> re_match k identity = Ok false.
(** The models named by the two built-in patterns. *)
Section Models.
Variable digit : Z -> bool.
Definition ascii_digits : Prop := forall c, c < 128 -> digit c = (48 <=? c) && (c <=? 57).
Inductive model4000 : pystr -> Prop :=
| Model4000 series a b c suffix : In series [str "MDO3"; str "MDO4"; str "MSO4"; str "DPO4"] ->
    digit a = true -> digit b = true -> digit c = true -> In suffix [str ""; str "B"] ->
    model4000 (series ++ [a; b; c] ++ suffix).
Inductive model456_pattern : pystr -> Prop :=
| Model456 series a suffix : In series [str "MSO4"; str "MSO5"; str "MSO6"] -> digit a = true ->
    In suffix [str ""; str "B"; str "LP"] -> model456_pattern (series ++ [a] ++ suffix)
| ModelLPD : model456_pattern (str "LPD64").
End Models.
(** The models the 4/5/6 series driver supports. *)
Definition models456 : list pystr :=
  map str ["MSO44"; "MSO46"; "MSO54"; "MSO54B"; "MSO56"; "MSO56B"; "MSO58"; "MSO58B"; "MSO58LP"; "MSO64"; "MSO64B"; "MSO66B"; "MSO68B"; "LPD64"]%string.
Definition identity_of (model rest : pystr) : pystr := str "TEKTRONIX," ++ model ++ str "," ++ rest.
