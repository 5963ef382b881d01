(** What autoscaling a channel of a scope may do and achieve. *)
From Coq Require Import String ZArith Bool QArith Qabs List.
Import ListNotations.
From Verif Require Import Base Num PyStr IOModel TekSpec ScopeModel ScopeSpec ScopeUseSpec.
Local Open Scope Z_scope.
Local Open Scope list_scope.

(** ** The conversation *)
(** Commands: the record length, scale and position of the channel, the control
    of an acquisition and the transfer of the waveform of the channel. *)
Definition may_write (f : family) (name : pystr) (c : pystr) : Prop :=
  (exists n, c = str "HORIZONTAL:RECORDLENGTH " ++ str_int n) \/
  (f = F456 /\ c = str "HORIZONTAL:MODE MANUAL") \/
  (exists v, c = name ++ str ":SCALE " ++ sci 6 v) \/
  (exists v, c = name ++ str ":POSITION " ++ sci 6 v) \/
  In c (map str ["ACQUIRE:STATE STOP"; "ACQUIRE:STOPAFTER SEQUENCE"; "ACQUIRE:STATE RUN"; "TRIGGER FORCE";
                 "HEADER 1"; "WAVFRM?"; "HEADER 0"]%string) \/
  (exists k v, In (k, v) (transfer f name) /\ c = k ++ str " " ++ v).
Definition may_ask (name : pystr) (c : pystr) : Prop :=
  In c [str "HORIZONTAL:RECORDLENGTH?"; name ++ str ":POSITION?"; name ++ str ":SCALE?";
        str "TRIGGER:STATE?"; str "ACQUIRE:STATE?"; str "ACQUIRE:NUMACQ?"].
Definition may_happen (f : family) (name : pystr) (ev : event) : Prop :=
  match ev with
  | Wrote _ c | WriteFailed _ c _ => may_write f name c
  | Queried _ c _ | QueryFailed _ c _ => may_ask name c
  | ReadRaw _ _ | ReadFailed _ _ | Slept => True
  | Opened _ | Closed _ | CloseFailed _ _ => False
  end.
(** All that [m] does, whatever its outcome, is in [P]. *)
Definition does {D X} (m : io D X) (P : event -> Prop) : Prop :=
  forall w res w', m w = (res, w') -> exists evs, w_log w' = w_log w ++ evs /\ Forall P evs.

(** ** The picture *)
(** Codes of a well placed waveform, for a digitiser clipping at -m and m: none
    beyond nine tenths, spanning 75 % to 85 % of the range, its middle at most a
    tenth of the range off the centre. *)
Definition well_digitised (m : Z) (codes : list Z) : Prop :=
  exists lo hi, In lo codes /\ In hi codes /\ (forall c, In c codes -> lo <= c <= hi) /\
    - (9 * m) <= 10 * lo /\ 10 * hi <= 9 * m /\
    15 * m <= 10 * (hi - lo) <= 17 * m /\ - (4 * m) <= 10 * (lo + hi) <= 4 * m.
(** Reading the waveform starts no acquisition. *)
Definition reading_starts_none {D} (dev : device D) (runs : D -> nat) : Prop :=
  forall d b d', dev_raw dev d = (Ok b, d') -> runs d' = runs d.

(** ** A scope showing a signal *)
(** Height on a screen of ten divisions, 0 in the middle, 1/2 at the top, of a
    voltage at a scale (volts per division) and a position (divisions); what is
    off the screen is clipped. *)
Local Open Scope Q_scope.
Definition screen_height (scale position v : Q) : Q := (v / scale + position) / 10.
Definition clipped (x : Q) : Q := if Qle_bool (1 # 2) x then 1 # 2 else if Qle_bool x (- (1 # 2)) then - (1 # 2) else x.
(** Codes that are right within one step, for a signal between two voltages. *)
Definition digitises (m : Z) (scale position lowest highest : Q) (codes : list Z) : Prop :=
  exists lo hi, In lo codes /\ In hi codes /\ (forall c, In c codes -> (lo <= c <= hi)%Z) /\
    Qabs (inject_Z lo - inject_Z (2 * m) * clipped (screen_height scale position lowest)) <= 1 /\
    Qabs (inject_Z hi - inject_Z (2 * m) * clipped (screen_height scale position highest)) <= 1.
(** A signal that keeps a margin to the middle and covers at least a part of
    the screen, in screen heights. *)
Definition fits_screen (scale position lowest highest margin least : Q) : Prop :=
  - margin <= screen_height scale position lowest /\ screen_height scale position highest <= margin /\
  least <= screen_height scale position highest - screen_height scale position lowest.
Definition scale_key (c : channel) : pystr := alias c ++ str ":SCALE".
Definition position_key (c : channel) : pystr := alias c ++ str ":POSITION".
(** Every single acquisition succeeds, and shows the signal at the settings
    the scope has; only settings of the acquisition are touched. *)
Record displays {D} (dev : device D) (reg : D -> pystr -> pystr) (record : D -> pystr -> preamble Q * list Z)
    (c : channel) (cmd : io D unit) (lowest highest : Q) : Prop := {
  displays_single : forall n w, w_inst w = Some n -> exists w', single dev cmd true 20 w = (Ok tt, w') /\ w_inst w' = Some n /\
    (forall k, ~ In k [str "ACQUIRE:STATE"; str "ACQUIRE:STOPAFTER"; str "TRIGGER"] -> reg (w_dev w') k = reg (w_dev w) k) /\
    forall s p, 0 < s -> parse_dec (reg (w_dev w) (scale_key c)) = Some s -> parse_dec (reg (w_dev w) (position_key c)) = Some p ->
      digitises (limit (p_size (fst (record (w_dev w') (alias c))))) s p lowest highest (snd (record (w_dev w') (alias c))) /\
      ~ p_ymult (fst (record (w_dev w') (alias c))) == 0 }.
(** The settings of a channel, as numbers in whatever notation. *)
Definition stands_at {D} (reg : D -> pystr -> pystr) (d : D) (c : channel) (scale position : Q) : Prop :=
  word (reg d (scale_key c)) /\ parse_dec (reg d (scale_key c)) = Some scale /\
  word (reg d (position_key c)) /\ parse_dec (reg d (position_key c)) = Some position.
(** Reading a number rounds it to a float. *)
Definition rounds (fl : Q -> Q) : Prop :=
  Morphisms.Proper (Morphisms.respectful Qeq Qeq) fl /\
  forall x, Qabs x <= 10 ^ 300 -> Qabs (fl x - x) <= (1 # 1000000000000000) * Qabs x + (1 # 10 ^ 300).
