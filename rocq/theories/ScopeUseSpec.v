(** What the properties of acquisitions, waveform transfers and the opening of
    a scope talk about. *)
From Coq Require Import String ZArith Bool List.
Import ListNotations.
From Verif Require Import Base Num PyStr ScpiModel ScpiSpec IOModel EquipModel EquipSpec TekModel TekSpec ScopeModel ScopeSpec.
Local Open Scope Z_scope.
Local Open Scope list_scope.

(** ** Conversations with an instrument *)
(** One step: send a command, poll until one of the states is reported (at
    most n + 1 polls), call a function of the user, pause, read the answer. *)
Inductive step :=
| Cmd (c : string)
| Wait (command : string) (states : list string) (n : Z) (additional : option string)
| User
| Pause
| Read (data : list Z).
(** What the function of the user does to the log, and with which result. *)
Definition behaviour := result unit -> list event -> Prop.

(** The events of a step that was completed on resource [r] ... *)
Definition did (user : behaviour) (r : nat) (s : step) (evs : list event) : Prop :=
  match s with
  | Cmd c => evs = [Wrote r (str c)]
  | Wait command states n additional => exists before reply,
      evs = exchange r (str command) (option_map str additional) (before ++ [reply]) /\
      Forall (fun a => ~ wanted (map str states) a) before /\ wanted (map str states) reply /\ Z.of_nat (length before) <= n
  | User => user (Ok tt) evs
  | Pause => evs = [Slept]
  | Read data => evs = [ReadRaw r data]
  end.
(** ... and of one that failed with [e]. *)
Definition broke (user : behaviour) (r : nat) (s : step) (e : exn) (evs : list event) : Prop :=
  match s with
  | Cmd c => evs = [WriteFailed r (str c) e]
  | Wait command states n additional =>
      (exists before reply, e = TimeoutError /\
         evs = exchange r (str command) (option_map str additional) (before ++ [reply]) /\
         Forall (fun a => ~ wanted (map str states) a) before /\ Z.of_nat (length before) = Z.max 0 (n + 1)) \/
      (exists evs' ev, evs = evs' ++ [ev] /\ failure ev e)
  | User => user (Err e) evs
  | Pause => False
  | Read _ => evs = [ReadFailed r e]
  end.
(** Steps are carried out in order up to the first that fails; nothing is done
    after a failure, and its exception is the result. *)
Inductive carried_out (user : behaviour) (r : nat) : list step -> result unit -> list event -> Prop :=
| co_done : carried_out user r [] (Ok tt) []
| co_step s rest evs evs' res : did user r s evs -> carried_out user r rest res evs' ->
    carried_out user r (s :: rest) res (evs ++ evs')
| co_failed s rest evs e : broke user r s e evs -> carried_out user r (s :: rest) (Err e) evs.

(** A function of the user that leaves the object open; [user] is what it does. *)
Definition behaves {D} (r : nat) (m : io D unit) (user : behaviour) : Prop :=
  forall w res w', w_inst w = Some r -> m w = (res, w') ->
    w_inst w' = Some r /\ exists evs, w_log w' = w_log w ++ evs /\ user res evs.

(** ** An instrument that acquires *)
(** [runs]: how often an acquisition was started; [taken]: waveforms taken since
    the last start; [stopped]: it takes no more.  It only starts when told to,
    a stopped instrument stays as it is while it is asked, and it reports truly. *)
Record acquires {D} (dev : device D) (stopped : D -> Prop) (runs : D -> nat) (taken : D -> Z) : Prop := {
  acquires_run : forall d d', dev_write dev d (str "ACQUIRE:STATE RUN") = (Ok tt, d') -> runs d' = S (runs d);
  acquires_write : forall d c d', c <> str "ACQUIRE:STATE RUN" -> dev_write dev d c = (Ok tt, d') -> runs d' = runs d;
  acquires_query : forall d c a d', dev_query dev d c = (Ok a, d') ->
    runs d' = runs d /\ (stopped d -> stopped d' /\ taken d' = taken d);
  acquires_state : forall d a d', dev_query dev d (str "TRIGGER:STATE?") = (Ok a, d') -> strip a = str "SAVE" -> stopped d';
  acquires_count : forall d a d' n, dev_query dev d (str "ACQUIRE:NUMACQ?") = (Ok a, d') -> parse_int (strip a) = Some n -> taken d' = n }.
(** A function of the user that does not start another acquisition. *)
Definition no_restart {D} (runs : D -> nat) (m : io D unit) : Prop :=
  forall w w', m w = (Ok tt, w') -> w_inst w' = w_inst w /\ runs (w_dev w') = runs (w_dev w).

(** ** An instrument that sends its waveforms *)
Definition active_setting (f : family) (name : pystr) : pystr :=
  match f with F4000 => str "SELECT:" ++ name | F456 => str "DISPLAY:GLOBAL:" ++ name ++ str ":STATE" end.
(** The settings of a transfer: all of the record, in a binary format. *)
Definition transfer (f : family) (name : pystr) : list (pystr * pystr) :=
  [(active_setting f name, str "1"); (str "DATA:SOURCE", name); (str "DATA:START", str "1"); (str "DATA:STOP", str "1E9")] ++
  match f with
  | F4000 => [(str "DATA:WIDTH", str "1"); (str "DATA:ENCDG", str "FASTEST")]
  | F456 => [(str "DATA:WIDTH", str "2"); (str "DATA:ENCDG", str "RIBINARY")]
  end.
(** [record d name]: preamble and codes of the waveform held for a channel.
    Asked with these settings and headers on, the instrument answers with it. *)
Record sends_waveforms {D A} `{Num A} (to_float : pystr -> result A) (utf8 : list Z -> option pystr)
    (dev : device D) (f : family) (reg : D -> pystr -> pystr) (record : D -> pystr -> preamble A * list Z) : Prop := {
  sends_stores : stores dev (words f) reg;
  sends_keeps : forall d name k v d', In k (str "HEADER" :: map fst (transfer f name)) ->
    dev_write dev d (k ++ str " " ++ v) = (Ok tt, d') -> forall c, record d' c = record d c;
  sends_answer : forall d, exists d1 bytes d2,
    dev_write dev d (str "WAVFRM?") = (Ok tt, d1) /\ dev_raw dev d1 = (Ok bytes, d2) /\
    (forall k, reg d2 k = reg d k) /\ (forall c, record d2 c = record d c) /\
    forall name, Forall (fun kv => reg d (fst kv) = snd kv) ((str "HEADER", str "1") :: transfer f name) ->
      waveform_reply to_float utf8 (fst (record d name)) (snd (record d name)) bytes }.

(** What the user gets for a waveform without added noise. *)
Definition result_of {A} `{Num A} (raw : bool) (pre : preamble A) (codes : list Z) (w : waveform A) : Prop :=
  let m := limit (p_size pre) in
  let unit_of (v : A) := if raw then v else ((v -. p_yoff pre) *. p_ymult pre +. p_yzero pre)%num in
  y_axis w = map (fun c => unit_of (nofZ c)) codes /\
  length (x_axis w) = length codes /\
  (forall i, (i < length codes)%nat -> nth_error (x_axis w) i = Some (p_xzero pre +. p_xincr pre *. nofZ (Z.of_nat i))%num) /\
  (clipping_top w = true <-> exists c, In c codes /\ m <= c) /\
  (clipping_bottom w = true <-> exists c, In c codes /\ c <= - m) /\
  y_clip_min w = unit_of (nofZ (- m)) /\ y_clip_max w = unit_of (nofZ m) /\
  y_unit w = if raw then str "ADC Counts" else p_yunit pre.

(** ** Opening a scope *)
(** The channels named in a DISPLAY reply. *)
Definition displayed (settings : list setting) (i : Z) : Prop :=
  0 <= i <= 9 /\ exists s rest, In s settings /\
    map upper (fst s) = str "DISPLAY" :: str "GLOBAL" :: (str "CH" ++ str_int i) :: rest.
(** The models a family supports; a model name has no comma and does not end
    in a newline. *)
Definition supports (digit : Z -> bool) (f : family) (model : pystr) : Prop :=
  match f with F4000 => model4000 digit model | F456 => In model models456 end.
Definition model_name (m : pystr) : Prop := ~ In 44 m /\ forall m', m <> m' ++ [10].
(** The channels a lookup finds are those with an index in [P], under the given
    names; any other index raises KeyError. *)
Definition finds (lookup : Z -> result pystr) (name : Z -> channel) (P : Z -> Prop) : Prop :=
  forall i, (P i -> lookup i = Ok (alias (name i))) /\ (~ P i -> lookup i = Err KeyError).
