(** Specification of a scope that stores its settings. *)
From Coq Require Import String ZArith Bool QArith Qabs List.
Import ListNotations.
From Verif Require Import Base PyStr IOModel TekModel ScopeModel.
Local Open Scope Z_scope.
Local Open Scope list_scope.

(** A command "KEY VALUE": the key has no blank, question mark or semicolon, the
    value is a word of printable characters without quotes and semicolons or a
    text in single quotes containing no single quote. *)
Definition plain (k : pystr) : Prop := Forall (fun c => 32 < c < 127 /\ c <> 59 /\ c <> 63) k.
Definition word (v : pystr) : Prop := Forall (fun c => 32 < c < 127 /\ c <> 34 /\ c <> 39 /\ c <> 59) v.
Definition quoted (v : pystr) : Prop := exists t, v = 39 :: t ++ [39] /\ Forall (fun c => c <> 39) t.
Definition proper (v : pystr) : Prop := word v \/ quoted v.

(** How a stored value may be reported: texts in double quotes, numbers in any
    notation, words exactly or in another documented spelling, the display
    switches also as ON and OFF. *)
Definition is_switch (k : pystr) : bool := startswith (str "SELECT:") k || startswith (str "DISPLAY:") k.
Definition shows (spellings : list (pystr * pystr)) (k v r : pystr) : Prop :=
  (exists t, v = 39 :: t ++ [39] /\ r = 34 :: t ++ [34]) \/
  (word v /\ (r = v \/ In (v, r) (if is_switch k then [(str "1", str "ON"); (str "0", str "OFF")] else spellings) \/
              (In 46 v /\ exists q q', parse_dec v = Some q /\ parse_dec r = Some q' /\ (q == q')%Q))).

(** What the instrument reports about its acquisition is no setting. *)
Definition status (k : pystr) : bool := existsb (str_eqb k) (map str ["ACQUIRE:STATE"; "ACQUIRE:NUMACQ"; "TRIGGER:STATE"]%string).
Definition settable (k : pystr) : Prop := plain k /\ status k = false.
(** [reg d k]: what the instrument in state [d] stores under the key [k]. *)
Record stores {D} (dev : device D) (spellings : list (pystr * pystr)) (reg : D -> pystr -> pystr) : Prop := {
  stores_write : forall d k v, settable k -> proper v -> exists d', dev_write dev d (k ++ str " " ++ v) = (Ok tt, d') /\
    reg d' k = v /\ forall k', k' <> k -> reg d' k' = reg d k';
  stores_query : forall d k, settable k -> proper (reg d k) -> exists d' r, dev_query dev d (k ++ str "?") = (Ok r, d') /\
    (forall k', reg d' k' = reg d k') /\ shows spellings k (reg d k) (strip r) }.

(** Documented spellings of the words a 4000 series scope is sent. *)
Definition pairs (l : list (string * string)) : list (pystr * pystr) := map (fun p => (str (fst p), str (snd p))) l.
Local Open Scope string_scope.
Definition words_common : list (string * string) :=
  [("EDGE", "EDG"); ("TIMEOUT", "TIMEO"); ("WIDTH", "WID");
   ("RISE", "RIS"); ("EITHER", "EIT"); ("STAYSHIGH", "STAYSH"); ("STAYSLOW", "STAYSL");
   ("LESSTHAN", "LESS"); ("MORETHAN", "MORE"); ("EQUAL", "EQ"); ("UNEQUAL", "UNE"); ("WITHIN", "WIT"); ("OUTSIDE", "OUT");
   ("POSITIVE", "POS"); ("NEGATIVE", "NEG"); ("SAMPLE", "SAM"); ("AVERAGE", "AVE"); ("ENVELOPE", "ENV")].
Definition words_4000 : list (pystr * pystr) := pairs (("PULSE", "PULS") :: words_common).
Definition words_456 : list (pystr * pystr) := pairs (("AUX", "AUXILIARY") :: words_common).
Local Close Scope string_scope.

Inductive family := F4000 | F456.
Definition words (f : family) := match f with F4000 => words_4000 | F456 => words_456 end.

(** A number comes back as the float nearest to its first seven significant
    digits. *)
Definition reads_back (fl : Q -> Q) (x y : Q) : Prop := exists v, (y == fl v)%Q /\
  (Qabs (v - x) <= (5 # 10000000) * Qabs x)%Q /\
  forall k j, 0 < k < 10000000 ->
    (Qabs (Qabs x - inject_Z k * Qpow10 j) <= (1 # 1000000000) * (inject_Z k * Qpow10 j))%Q ->
    (Qabs v == inject_Z k * Qpow10 j)%Q.

(** ** Assignments to properties of the scope and its channels *)
Inductive channel := Analog (i : Z) | Digital (i : Z).
Definition alias (c : channel) : pystr :=
  match c with Analog i => str "CH" ++ str_int i | Digital i => str "D" ++ str_int i end.
Inductive quantity := Position | VScale | Bandwidth | Deskew | Offset | Termination | ProbeGain | Threshold.
Inductive assignment :=
| AQuantity (c : channel) (q : quantity) (v : Q)
| ACoupling (c : channel) (dc : bool)
| AActive (c : channel) (on : bool)
| ALabel (c : channel) (text : pystr)
| AInverted (c : channel) (b : bool)
| ATimeScale (v : Q) | ATimeOffset (v : Q) | ATimePoints (n : Z) | ASampleMode (m : sample_mode)
| ATrigger (t : trigger).

(** The property an assignment changes. *)
Inductive property :=
| PQuantity (c : channel) (q : quantity) | PCoupling (c : channel) | PActive (c : channel) | PLabel (c : channel)
| PInverted (c : channel) | PTimeScale | PTimeOffset | PTimePoints | PSampleMode | PTrigger.
Definition property_of (a : assignment) : property :=
  match a with
  | AQuantity c q _ => PQuantity c q | ACoupling c _ => PCoupling c | AActive c _ => PActive c | ALabel c _ => PLabel c
  | AInverted c _ => PInverted c | ATimeScale _ => PTimeScale | ATimeOffset _ => PTimeOffset | ATimePoints _ => PTimePoints
  | ASampleMode _ => PSampleMode | ATrigger _ => PTrigger
  end.

(** Triggers a scope can be given. *)
Definition source_ok (f : family) (s : scope) (edge : bool) (src : pystr) : Prop :=
  (exists i, In i (channels s) /\ src = alias (Analog i)) \/
  match f with
  | F4000 => src = str "LINE" \/ (exists i, In i (digitals s) /\ src = alias (Digital i)) \/ (aux s = true /\ src = str "AUX")
  | F456 => edge = true /\ (src = str "LINE" \/ src = str "AUX")
  end.
Definition width_ok (w : pulse_width) (c : comparison) : Prop :=
  match c, w with
  | (WITHIN | WITHININC | OUTSIDE | OUTSIDEINC), Limits _ _ => True
  | (LESS | LESSEQUAL | MORE | MOREEQUAL | EQUAL | UNEQUAL), Width _ => True
  | _, _ => False
  end.
Definition trigger_ok (f : family) (s : scope) (t : trigger) : Prop :=
  match t with
  | TriggerEdge src _ slope _ _ => source_ok f s true src /\ exists p, slope = inl p
  | TriggerEdgeTimeout src _ _ slope _ => source_ok f s false src /\ exists p, slope = inl p
  | TriggerPulseWidth src _ w c _ _ => source_ok f s false src /\ exists c', c = inl c' /\ width_ok w c'
  | TriggerOther => False
  end.

(** Inclusive comparisons are not kept. *)
Definition exclusive (c : comparison) : comparison :=
  match c with LESSEQUAL => LESS | MOREEQUAL => MORE | WITHININC => WITHIN | OUTSIDEINC => OUTSIDE | c => c end.
Definition width_back (fl : Q -> Q) (w w' : pulse_width) : Prop :=
  match w, w' with
  | Width a, Width a' => reads_back fl a a'
  | Limits a b, Limits a' b' => reads_back fl a a' /\ reads_back fl b b'
  | _, _ => False
  end.
(** The 4/5/6 series has no level for the line source; it reads as 0. *)
Definition level_back (f : family) (fl : Q -> Q) (src : pystr) (x y : Q) : Prop :=
  match f with
  | F456 => (src = str "LINE" /\ y = 0%Q) \/ (src <> str "LINE" /\ reads_back fl x y)
  | F4000 => reads_back fl x y
  end.
Definition trigger_back (f : family) (fl : Q -> Q) (t t' : trigger) : Prop :=
  match t, t' with
  | TriggerEdge src level slope dc h, TriggerEdge src' level' slope' dc' h' =>
      src' = src /\ level_back f fl src level level' /\ slope' = slope /\ dc' = dc /\ reads_back fl h h'
  | TriggerEdgeTimeout src level timeout slope h, TriggerEdgeTimeout src' level' timeout' slope' h' =>
      src' = src /\ level_back f fl src level level' /\ reads_back fl timeout timeout' /\ slope' = slope /\ reads_back fl h h'
  | TriggerPulseWidth src level w c pos h, TriggerPulseWidth src' level' w' c' pos' h' =>
      src' = src /\ level_back f fl src level level' /\ width_back fl w w' /\
      (exists k, c = inl k /\ c' = inl (exclusive k)) /\ pos' = pos /\ reads_back fl h h'
  | _, _ => False
  end.

(** A label that fits: at most 30 ASCII characters, no quotes. *)
Definition label_ok (t : pystr) : Prop := (length t <= 30)%nat /\ Forall (fun c => 0 <= c < 128 /\ c <> 34 /\ c <> 39) t.
Definition assignment_ok (f : family) (s : scope) (a : assignment) : Prop :=
  match a with
  | ALabel c t => label_ok t
  | ATrigger t => trigger_ok f s t
  | _ => True
  end /\
  match f, a with
  | F456, (AQuantity (Digital _) _ _ | ACoupling (Digital _) _ | AActive (Digital _) _ | ALabel (Digital _) _
           | AInverted (Digital _) _) => False
  | _, _ => True
  end.

(** The part of the instrument an assignment may change. *)
Definition subsystem (f : family) (a : assignment) : pystr :=
  match a with
  | AQuantity c _ _ | ACoupling c _ | ALabel c _ | AInverted c _ => alias c ++ str ":"
  | AActive c _ => match f with F4000 => str "SELECT:" ++ alias c | F456 => str "DISPLAY:GLOBAL:" ++ alias c ++ str ":" end
  | ATimeScale _ | ATimeOffset _ | ATimePoints _ => str "HORIZONTAL:"
  | ASampleMode _ => str "ACQUIRE:MODE"
  | ATrigger _ => str "TRIGGER:"
  end.

Section Run.
Context {D : Type}.
Variable dev : device D.
Variable fl : Q -> Q.
Variable f : family.
Variable s : scope.

Definition set_quantity (a : pystr) (q : quantity) : Q -> io D unit :=
  match q with
  | Position => set_position dev a | VScale => set_scale dev a | Bandwidth => set_bandwidth dev a | Deskew => set_deskew dev a
  | Offset => set_offset dev a | Termination => set_termination dev a | ProbeGain => set_probe_gain dev a
  | Threshold => set_threshold dev a
  end.
Definition get_quantity (a : pystr) (q : quantity) : io D Q :=
  match q with
  | Position => get_position dev fl a | VScale => get_scale dev fl a | Bandwidth => get_bandwidth dev fl a
  | Deskew => get_deskew dev fl a | Offset => get_offset dev fl a | Termination => get_termination dev fl a
  | ProbeGain => get_probe_gain dev fl a | Threshold => get_threshold dev fl a
  end.
(** scope.property = value *)
Definition assign (a : assignment) : io D unit :=
  match a with
  | AQuantity c q v => set_quantity (alias c) q v
  | ACoupling c dc => set_dc_coupling dev (alias c) dc
  | AActive c on => match f with F4000 => set_active_4000 dev (alias c) on | F456 => set_active_456 dev (alias c) on end
  | ALabel c t => match f with F4000 => set_label_4000 dev (alias c) t | F456 => set_label_456 dev (alias c) t end
  | AInverted c b => set_inverted dev (alias c) b
  | ATimeScale v => match f with F4000 => set_time_scale_4000 dev v | F456 => set_time_scale_456 dev v end
  | ATimeOffset v => match f with F4000 => set_time_offset_4000 dev v | F456 => set_time_offset_456 dev v end
  | ATimePoints n => match f with F4000 => set_time_points_4000 dev n | F456 => set_time_points_456 dev n end
  | ASampleMode m => set_sample_mode dev (Some m)
  | ATrigger t => match f with F4000 => set_trigger_4000 dev s t | F456 => set_trigger_456 dev s t end
  end.
Fixpoint assign_all (l : list assignment) : io D unit :=
  match l with
  | [] => ret tt
  | a :: l => iobind (assign a) (fun _ => assign_all l)
  end.
(** [yields m w P]: reading [m] succeeds and its value satisfies [P]. *)
Definition yields {X} (m : io D X) (w : world D) (P : X -> Prop) : Prop := exists x w', m w = (Ok x, w') /\ P x.
(** Reading the property of [a] gives the value assigned by [a]. *)
Definition gives (a : assignment) (w : world D) : Prop :=
  match a with
  | AQuantity c q v => yields (get_quantity (alias c) q) w (reads_back fl v)
  | ACoupling c dc => yields (get_dc_coupling dev (alias c)) w (eq dc)
  | AActive c on => yields (match f with F4000 => get_active_4000 dev (alias c) | F456 => get_active_456 dev (alias c) end) w (eq on)
  | ALabel c t => yields (match f with F4000 => get_label_4000 dev (alias c) | F456 => get_label_456 dev (alias c) end) w (eq t)
  | AInverted c b => True
  | ATimeScale v => yields (get_time_scale dev fl) w (reads_back fl v)
  | ATimeOffset v => yields (get_time_offset dev fl) w (reads_back fl v)
  | ATimePoints n => yields (get_time_points dev) w (eq n)
  | ASampleMode m => yields (get_sample_mode dev) w (eq (Some m))
  | ATrigger t => yields (match f with F4000 => get_trigger_4000 dev fl | F456 => get_trigger_456 dev fl end) w
                    (fun r => exists t', r = Some t' /\ trigger_back f fl t t')
  end.
End Run.
