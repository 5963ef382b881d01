(** Model of hardware_tools/equipment/tektronix/family_mso4000.py and
    family_mso456.py: settings, triggers, acquisition control and reading of
    waveforms, as sequences of commands sent to an instrument.
    Numbers are the exact values of finite floats; inf and nan are not
    modelled. *)
From Coq Require Import String ZArith Bool QArith List.
Import ListNotations.
From Verif Require Import Base PyStr ScpiModel IOModel EquipModel TekModel.
Local Open Scope Z_scope.
Local Open Scope io_scope.
Local Open Scope list_scope.

(** equipment/scope.py:293-395, the trigger classes.  [slope] and [comparison]
    are enumeration members or, when read from the instrument and not
    recognised, texts.  A source given as a Channel is replaced by its alias. *)
Inductive pulse_width := Width (w : Q) | Limits (lower upper : Q).
Inductive trigger :=
| TriggerEdge (src : pystr) (level : Q) (slope : polarity + pystr) (dc_coupling : bool) (holdoff : Q)
| TriggerEdgeTimeout (src : pystr) (level timeout : Q) (slope : polarity + pystr) (holdoff : Q)
| TriggerPulseWidth (src : pystr) (level : Q) (width : pulse_width) (when_ : comparison + pystr) (positive : bool) (holdoff : Q)
| TriggerOther.

(** Attributes of the scope object: keys of _channels and _digitals, _aux. *)
Record scope := Scope { channels : list Z; digitals : list Z; aux : bool }.

Section Scope.
Context {D : Type}.
Variable dev : device D.
(** Rounding of a decimal to the nearest float, done by float(). *)
Variable fl : Q -> Q.

Local Notation send := (send dev).
Local Notation ask := (ask dev).

(** float(s), int(s) *)
Definition to_float (s : pystr) : result Q := match parse_dec s with Some q => Ok (fl q) | None => Err ValueError end.
Definition to_int (s : pystr) : result Z := match parse_int s with Some n => Ok n | None => Err ValueError end.
(** float(self.ask(f"{key}?")), self.send(f"{key} {float(value):.6E}") *)
Definition get_float (key : pystr) : io D Q := s <~ ask (key ++ str "?") ;; lift (to_float s).
Definition set_float (key : pystr) (v : Q) : io D unit := send (key ++ str " " ++ sci 6 v).
Definition get_int (key : pystr) : io D Z := s <~ ask (key ++ str "?") ;; lift (to_int s).
Definition set_int (key : pystr) (v : Z) : io D unit := send (key ++ str " " ++ str_int v).
(** int(bool) *)
Definition set_switch (key : pystr) (on : bool) : io D unit := send (key ++ str " " ++ (if on then str "1" else str "0")).

(** ** Channels; family_mso4000.py:22-157, family_mso456.py:23-154.  [alias] is the name of
    the channel; the numeric settings are equal in both families. *)
Section Channel.
Variable alias : pystr.
Definition key_of (suffix : string) : pystr := alias ++ 58 :: str suffix.
Definition get_position := get_float (key_of "POSITION").
Definition set_position := set_float (key_of "POSITION").
Definition get_scale := get_float (key_of "SCALE").
Definition set_scale := set_float (key_of "SCALE").
Definition get_bandwidth := get_float (key_of "BANDWIDTH").
Definition set_bandwidth := set_float (key_of "BANDWIDTH").
Definition get_deskew := get_float (key_of "DESKEW").
Definition set_deskew := set_float (key_of "DESKEW").
Definition get_offset := get_float (key_of "OFFSET").
Definition set_offset := set_float (key_of "OFFSET").
Definition get_termination := get_float (key_of "TERMINATION").
Definition set_termination := set_float (key_of "TERMINATION").
Definition get_probe_gain := get_float (key_of "PROBE:GAIN").
Definition set_probe_gain := set_float (key_of "PROBE:GAIN").
(** family_mso4000.py:146-157, digital channels only *)
Definition get_threshold : io D Q := s <~ ask (key_of "THRESHOLD" ++ str "?") ;; lift (parse_threshold to_float s).
Definition set_threshold := set_float (key_of "THRESHOLD").
Definition get_dc_coupling : io D bool := s <~ ask (key_of "COUPLING" ++ str "?") ;; ret (str_eqb s (str "DC")).
Definition set_dc_coupling (dc : bool) : io D unit :=
  send (key_of "COUPLING" ++ str " " ++ (if dc then str "DC" else str "AC")).
(** bool(str): true unless empty *)
Definition get_inverted : io D bool :=
  s <~ ask (key_of "INVERT" ++ str "?") ;; ret (match s with [] => false | _ => true end).
Definition set_inverted : bool -> io D unit := set_switch (key_of "INVERT").

(** family_mso4000.py:35-42, family_mso456.py:39-46; encode("ascii", errors="ignore") *)
Definition ascii (s : pystr) : pystr := filter (fun c => (0 <=? c) && (c <? 128)) s.
Definition get_text (key : pystr) : io D pystr := s <~ ask (key ++ str "?") ;; ret (strip_of 34 s).
Definition set_text (key value : pystr) : io D unit := send (key ++ str " '" ++ firstn 30 (ascii value) ++ str "'").
Definition get_label_4000 := get_text (key_of "LABEL").
Definition set_label_4000 := set_text (key_of "LABEL").
Definition get_label_456 := get_text (key_of "LABEL:NAME").
Definition set_label_456 := set_text (key_of "LABEL:NAME").
(** family_mso4000.py:44-50, family_mso456.py:48-55 *)
Definition get_switch (key : pystr) : io D bool := s <~ ask (key ++ str "?") ;; ret (mem s [str "ON"; str "1"]).
Definition active_4000 : pystr := str "SELECT:" ++ alias.
Definition get_active_4000 := get_switch active_4000.
Definition set_active_4000 := set_switch active_4000.
Definition active_456 : pystr := str "DISPLAY:GLOBAL:" ++ alias ++ str ":STATE".
Definition get_active_456 := get_switch active_456.
Definition set_active_456 := set_switch active_456.

(** family_mso4000.py:52-70, family_mso456.py:57-78, up to the parsing of the reply *)
Definition fetch_4000 : io D (list Z) :=
  set_active_4000 true ;>
  send (str "DATA:SOURCE " ++ alias) ;>
  send (str "DATA:START 1") ;>
  send (str "DATA:STOP 1E9") ;>
  send (str "DATA:WIDTH 1") ;>
  send (str "DATA:ENCDG FASTEST") ;>
  send (str "HEADER 1") ;>
  send (str "WAVFRM?") ;>
  data <~ receive dev ;;
  send (str "HEADER 0") ;>
  ret data.
Definition fetch_456 : io D (list Z) :=
  set_active_456 true ;>
  send (str "DATA:SOURCE " ++ alias) ;>
  send (str "DATA:START 1") ;>
  send (str "DATA:STOP 1E9") ;>
  send (str "DATA:WIDTH 2") ;>
  send (str "DATA:ENCDG RIBINARY") ;>
  send (str "HEADER 1") ;>
  send (str "WAVFRM?") ;>
  sleep ;>
  data <~ receive dev ;;
  send (str "HEADER 0") ;>
  ret data.
End Channel.

(** ** Horizontal settings; family_mso4000.py:200-269, family_mso456.py:201-273 *)
Definition get_sample_rate := get_float (str "HORIZONTAL:SAMPLERATE").
Definition get_time_scale := get_float (str "HORIZONTAL:SCALE").
Definition get_time_offset := get_float (str "HORIZONTAL:DELAY:TIME").
Definition get_time_points := get_int (str "HORIZONTAL:RECORDLENGTH").
Definition set_time_scale_4000 := set_float (str "HORIZONTAL:SCALE").
(** Float arithmetic is taken to be exact. *)
Definition set_sample_rate_4000 (value : Q) : io D unit :=
  points <~ get_time_points ;;
  if Qeq_bool value 0 then raise ZeroDivisionError
  else set_time_scale_4000 (inject_Z points / value / 10)%Q.
Definition set_time_offset_4000 (value : Q) : io D unit :=
  send (str "HORIZONTAL:DELAY:MODE ON") ;> set_float (str "HORIZONTAL:DELAY:TIME") value.
Definition set_time_points_4000 := set_int (str "HORIZONTAL:RECORDLENGTH").
Definition manual : io D unit := send (str "HORIZONTAL:MODE MANUAL").
Definition set_sample_rate_456 (value : Q) : io D unit :=
  manual ;>
  send (str "HORIZONTAL:MODE:MANUAL:CONFIGURE RECORDLENGTH") ;>
  set_float (str "HORIZONTAL:SAMPLERATE") value.
Definition set_time_scale_456 (value : Q) : io D unit := manual ;> set_float (str "HORIZONTAL:SCALE") value.
Definition set_time_offset_456 (value : Q) : io D unit :=
  manual ;> send (str "HORIZONTAL:DELAY:MODE ON") ;> set_float (str "HORIZONTAL:DELAY:TIME") value.
Definition set_time_points_456 (value : Z) : io D unit := manual ;> set_int (str "HORIZONTAL:RECORDLENGTH") value.

(** Sample modes; None is "not enumerated". *)
Definition get_sample_mode : io D (option sample_mode) :=
  mode <~ ask (str "ACQUIRE:MODE?") ;;
  ret (if startswith (str "SAM") mode then Some SAMPLE
       else if startswith (str "AVE") mode then Some AVERAGE
       else if startswith (str "ENV") mode then Some ENVELOPE else None).
Definition set_sample_mode (mode : option sample_mode) : io D unit :=
  match mode with
  | Some SAMPLE => send (str "ACQUIRE:MODE SAMPLE")
  | Some AVERAGE => send (str "ACQUIRE:MODE AVERAGE")
  | Some ENVELOPE => send (str "ACQUIRE:MODE ENVELOPE")
  | None => raise ValueError
  end.
Definition get_sample_mode_n_4000 : io D Z :=
  mode <~ get_sample_mode ;;
  match mode with
  | Some AVERAGE => get_int (str "ACQUIRE:NUMAVG")
  | Some ENVELOPE => get_int (str "ACQUIRE:NUMENV")
  | _ => ret 1
  end.
Definition set_sample_mode_n_4000 (value : Z) : io D unit :=
  set_int (str "ACQUIRE:NUMAVG") value ;> set_int (str "ACQUIRE:NUMENV") value.
Definition get_sample_mode_n_456 : io D Z :=
  mode <~ get_sample_mode ;;
  match mode with
  | Some AVERAGE => get_int (str "ACQUIRE:NUMAVG")
  | _ => ret 1
  end.
Definition set_sample_mode_n_456 (value : Z) : io D unit := set_int (str "ACQUIRE:NUMAVG") value.

(** ** Triggers *)
(** re.match("^EDG(E)?$", s) on a stripped text: one of the two spellings *)
Definition one_of (s : pystr) (l : list pystr) : bool := mem s l.
Definition read_polarity (s : pystr) : polarity + pystr := match parse_polarity s with Some p => inl p | None => inr s end.
Definition read_comparison (s : pystr) : comparison + pystr := match parse_comparison s with Some c => inl c | None => inr s end.
Definition ranged (c : comparison + pystr) : bool :=
  match c with
  | inl WITHIN | inl WITHININC | inl OUTSIDE | inl OUTSIDEINC => true
  | _ => false
  end.
Definition get_edge_4000 (holdoff : Q) : io D trigger :=
  src <~ ask (str "TRIGGER:A:EDGE:SOURCE?") ;;
  level <~ get_float (str "TRIGGER:A:LEVEL:" ++ src) ;;
  slope <~ ask (str "TRIGGER:A:EDGE:SLOPE?") ;;
  coupling <~ ask (str "TRIGGER:A:EDGE:COUPLING?") ;;
  ret (TriggerEdge src level (read_polarity slope) (str_eqb coupling (str "DC")) holdoff).
Definition get_timeout (get_level : pystr -> io D Q) (holdoff : Q) : io D trigger :=
  src <~ ask (str "TRIGGER:A:TIMEOUT:SOURCE?") ;;
  level <~ get_level src ;;
  timeout <~ get_float (str "TRIGGER:A:TIMEOUT:TIME") ;;
  slope <~ ask (str "TRIGGER:A:TIMEOUT:POLARITY?") ;;
  ret (TriggerEdgeTimeout src level timeout (read_polarity slope) holdoff).
Definition get_pulse_width (get_level : pystr -> io D Q) (holdoff : Q) : io D trigger :=
  src <~ ask (str "TRIGGER:A:PULSEWIDTH:SOURCE?") ;;
  level <~ get_level src ;;
  w <~ ask (str "TRIGGER:A:PULSEWIDTH:WHEN?") ;;
  p <~ ask (str "TRIGGER:A:PULSEWIDTH:POLARITY?") ;;
  let comparison := read_comparison w in
  let positive := startswith (str "POS") (upper p) in
  if ranged comparison then
    lower <~ get_float (str "TRIGGER:A:PULSEWIDTH:LOWLIMIT") ;;
    upper <~ get_float (str "TRIGGER:A:PULSEWIDTH:HIGHLIMIT") ;;
    ret (TriggerPulseWidth src level (Limits lower upper) comparison positive holdoff)
  else
    width <~ get_float (str "TRIGGER:A:PULSEWIDTH:WIDTH") ;;
    ret (TriggerPulseWidth src level (Width width) comparison positive holdoff).
(** family_mso4000.py:271-310 *)
Definition level_4000 (src : pystr) : io D Q := get_float (str "TRIGGER:A:LEVEL:" ++ src).
Definition get_trigger_4000 : io D (option trigger) :=
  t_type <~ ask (str "TRIGGER:A:TYPE?") ;;
  holdoff <~ get_float (str "TRIGGER:A:HOLDOFF:TIME") ;;
  if one_of t_type [str "EDG"; str "EDGE"] then
    t <~ get_edge_4000 holdoff ;; ret (Some t)
  else if one_of t_type [str "PULS"; str "PULSE"] then
    p_class <~ ask (str "TRIGGER:A:PULSE:CLASS?") ;;
    if one_of p_class [str "TIMEO"; str "TIMEOUT"] then
      t <~ get_timeout level_4000 holdoff ;; ret (Some t)
    else if one_of p_class [str "WID"; str "WIDTH"] then
      t <~ get_pulse_width level_4000 holdoff ;; ret (Some t)
    else ret None
  else ret None.
(** family_mso456.py:275-320 *)
Definition level_456 (src : pystr) : io D Q :=
  if str_eqb src (str "LINE") then ret 0%Q
  else if str_eqb src (str "AUX") then get_float (str "TRIGGER:AUXLEVEL")
  else get_float (str "TRIGGER:A:LEVEL:" ++ src).
Definition get_edge_456 (holdoff : Q) : io D trigger :=
  src <~ ask (str "TRIGGER:A:EDGE:SOURCE?") ;;
  let src := if str_eqb src (str "AUXILIARY") then str "AUX" else src in
  level <~ level_456 src ;;
  slope <~ ask (str "TRIGGER:A:EDGE:SLOPE?") ;;
  coupling <~ ask (str "TRIGGER:A:EDGE:COUPLING?") ;;
  ret (TriggerEdge src level (read_polarity slope) (str_eqb coupling (str "DC")) holdoff).
Definition get_trigger_456 : io D (option trigger) :=
  t_type <~ ask (str "TRIGGER:A:TYPE?") ;;
  holdoff <~ get_float (str "TRIGGER:A:HOLDOFF:TIME") ;;
  if one_of t_type [str "EDG"; str "EDGE"] then
    t <~ get_edge_456 holdoff ;; ret (Some t)
  else if one_of t_type [str "TIMEO"; str "TIMEOUT"] then
    t <~ get_timeout level_456 holdoff ;; ret (Some t)
  else if one_of t_type [str "WID"; str "WIDTH"] then
    t <~ get_pulse_width level_456 holdoff ;; ret (Some t)
  else ret None.

(** The dictionaries of the setters; a missing key is KeyError. *)
Definition edge_word (s : polarity + pystr) : result pystr :=
  match s with
  | inl RISING => Ok (str "RISE") | inl FALLING => Ok (str "FALL") | inl BOTH => Ok (str "EITHER")
  | inr _ => Err KeyError
  end.
Definition stays_word (s : polarity + pystr) : result pystr :=
  match s with
  | inl RISING => Ok (str "STAYSHIGH") | inl FALLING => Ok (str "STAYSLOW") | inl BOTH => Ok (str "EITHER")
  | inr _ => Err KeyError
  end.
Definition when_word (c : comparison + pystr) : result pystr :=
  match c with
  | inl LESS | inl LESSEQUAL => Ok (str "LESSTHAN")
  | inl MORE | inl MOREEQUAL => Ok (str "MORETHAN")
  | inl EQUAL => Ok (str "EQUAL")
  | inl UNEQUAL => Ok (str "UNEQUAL")
  | inl WITHIN | inl WITHININC => Ok (str "WITHIN")
  | inl OUTSIDE | inl OUTSIDEINC => Ok (str "OUTSIDE")
  | inr _ => Err KeyError
  end.
Definition check_source (src : pystr) (sources : list pystr) : io D unit :=
  if mem src sources then ret tt else raise ValueError.
(** width[0] of a number is a TypeError, reported as ValueError; float() of a
    pair is a TypeError. *)
Definition set_width (width : pulse_width) (c : comparison + pystr) : io D unit :=
  if ranged c then
    match width with
    | Limits lower upper =>
        set_float (str "TRIGGER:A:PULSEWIDTH:LOWLIMIT") lower ;> set_float (str "TRIGGER:A:PULSEWIDTH:HIGHLIMIT") upper
    | Width _ => raise ValueError
    end
  else
    match width with
    | Width w => set_float (str "TRIGGER:A:PULSEWIDTH:WIDTH") w
    | Limits _ _ => raise TypeError
    end.
Definition send_word (key : string) (w : result pystr) : io D unit := w <~ lift w ;; send (str key ++ str " " ++ w).

(** family_mso4000.py:313-322: the sources *)
Definition analog (s : scope) : list pystr := map (fun i => str "CH" ++ str_int i) (channels s).
Definition digital (s : scope) : list pystr := map (fun i => str "D" ++ str_int i) (digitals s).
Definition sources_4000 (s : scope) : list pystr :=
  str "LINE" :: analog s ++ digital s ++ (if aux s then [str "AUX"] else []).
(** family_mso4000.py:312-420; sources named "RF" are never available. *)
Definition set_trigger_4000 (s : scope) (value : trigger) : io D unit :=
  match value with
  | TriggerEdge src level slope dc holdoff =>
      send (str "TRIGGER:A:TYPE EDGE") ;>
      check_source src (sources_4000 s) ;>
      send (str "TRIGGER:A:EDGE:SOURCE " ++ src) ;>
      set_float (str "TRIGGER:A:LEVEL:" ++ src) level ;>
      send_word "TRIGGER:A:EDGE:SLOPE" (edge_word slope) ;>
      send (str "TRIGGER:A:EDGE:COUPLING " ++ (if dc then str "DC" else str "AC")) ;>
      set_float (str "TRIGGER:A:HOLDOFF:TIME") holdoff
  | TriggerEdgeTimeout src level timeout slope holdoff =>
      send (str "TRIGGER:A:TYPE PULSE") ;>
      send (str "TRIGGER:A:PULSE:CLASS TIMEOUT") ;>
      check_source src (sources_4000 s) ;>
      send (str "TRIGGER:A:TIMEOUT:SOURCE " ++ src) ;>
      set_float (str "TRIGGER:A:LEVEL:" ++ src) level ;>
      set_float (str "TRIGGER:A:TIMEOUT:TIME") timeout ;>
      send_word "TRIGGER:A:TIMEOUT:POLARITY" (stays_word slope) ;>
      set_float (str "TRIGGER:A:HOLDOFF:TIME") holdoff
  | TriggerPulseWidth src level width c positive holdoff =>
      send (str "TRIGGER:A:TYPE PULSE") ;>
      send (str "TRIGGER:A:PULSE:CLASS WIDTH") ;>
      check_source src (sources_4000 s) ;>
      send (str "TRIGGER:A:PULSEWIDTH:SOURCE " ++ src) ;>
      set_float (str "TRIGGER:A:LEVEL:" ++ src) level ;>
      set_width width c ;>
      send_word "TRIGGER:A:PULSEWIDTH:WHEN" (when_word c) ;>
      send (str "TRIGGER:A:PULSEWIDTH:POLARITY " ++ (if positive then str "POSITIVE" else str "NEGATIVE")) ;>
      set_float (str "TRIGGER:A:HOLDOFF:TIME") holdoff
  | TriggerOther => raise ValueError
  end.
(** family_mso456.py:322-404 *)
Definition set_trigger_456 (s : scope) (value : trigger) : io D unit :=
  match value with
  | TriggerEdge src level slope dc holdoff =>
      send (str "TRIGGER:A:TYPE EDGE") ;>
      check_source src (str "LINE" :: str "AUX" :: analog s) ;>
      send (str "TRIGGER:A:EDGE:SOURCE " ++ src) ;>
      (if mem src (analog s) then set_float (str "TRIGGER:A:LEVEL:" ++ src) level
       else if str_eqb src (str "AUX") then set_float (str "TRIGGER:AUXLEVEL") level
       else ret tt) ;>
      send_word "TRIGGER:A:EDGE:SLOPE" (edge_word slope) ;>
      send (str "TRIGGER:A:EDGE:COUPLING " ++ (if dc then str "DC" else str "LFREJ")) ;>
      set_float (str "TRIGGER:A:HOLDOFF:TIME") holdoff
  | TriggerEdgeTimeout src level timeout slope holdoff =>
      send (str "TRIGGER:A:TYPE TIMEOUT") ;>
      check_source src (analog s) ;>
      send (str "TRIGGER:A:TIMEOUT:SOURCE " ++ src) ;>
      set_float (str "TRIGGER:A:LEVEL:" ++ src) level ;>
      set_float (str "TRIGGER:A:TIMEOUT:TIME") timeout ;>
      send_word "TRIGGER:A:TIMEOUT:POLARITY" (stays_word slope) ;>
      set_float (str "TRIGGER:A:HOLDOFF:TIME") holdoff
  | TriggerPulseWidth src level width c positive holdoff =>
      send (str "TRIGGER:A:TYPE WIDTH") ;>
      check_source src (analog s) ;>
      send (str "TRIGGER:A:PULSEWIDTH:SOURCE " ++ src) ;>
      set_float (str "TRIGGER:A:LEVEL:" ++ src) level ;>
      set_width width c ;>
      send_word "TRIGGER:A:PULSEWIDTH:WHEN" (when_word c) ;>
      send (str "TRIGGER:A:PULSEWIDTH:POLARITY " ++ (if positive then str "POSITIVE" else str "NEGATIVE")) ;>
      set_float (str "TRIGGER:A:HOLDOFF:TIME") holdoff
  | TriggerOther => raise ValueError
  end.

(** ** Acquisition control, equal in both families; 
    family_mso4000.py:422-458, family_mso456.py:406-442.  [timeout] counts polls (int(timeout / 0.05)); the last
    wait of [single] uses the default of 1 s. *)
Definition wait_for (command : string) (states : list string) (timeout : Z) (additional : option pystr) : io D unit :=
  _ <~ ask_and_wait dev (str command) (map str states) timeout additional ;; ret tt.
Definition stop (timeout : Z) : io D unit :=
  send (str "ACQUIRE:STATE STOP") ;> wait_for "TRIGGER:STATE?" ["SAVE"%string] timeout None.
Definition run (normal : bool) (timeout : Z) : io D unit :=
  send (str "ACQUIRE:STATE STOP") ;>
  send (str "ACQUIRE:STOPAFTER RUNSTOP") ;>
  send (str "TRIGGER:A:MODE " ++ (if normal then str "NORMAL" else str "AUTO")) ;>
  send (str "ACQUIRE:STATE RUN") ;>
  wait_for "TRIGGER:STATE?" ["ARMED"; "AUTO"; "TRIGGER"; "READY"]%string timeout None.
(** [trigger_cmd] is a callable of the user; the default sleeps. *)
Definition single (trigger_cmd : io D unit) (force : bool) (timeout : Z) : io D unit :=
  send (str "ACQUIRE:STATE STOP") ;>
  wait_for "TRIGGER:STATE?" ["SAVE"%string] timeout None ;>
  send (str "ACQUIRE:STOPAFTER SEQUENCE") ;>
  send (str "ACQUIRE:STATE RUN") ;>
  trigger_cmd ;>
  wait_for "ACQUIRE:STATE?" ["0"%string] timeout (if force then Some (str "TRIGGER FORCE") else None) ;>
  wait_for "TRIGGER:STATE?" ["SAVE"%string] timeout None ;>
  wait_for "ACQUIRE:NUMACQ?" ["1"%string] 20 None.

(** ** Construction; family_mso4000.py:168-198 *)
Variable unicode_digit : Z -> bool.
Definition init_4000 : io D scope :=
  id_str <~ ask (str "*IDN?") ;;
  _ <~ lift (check_identity unicode_digit re_model4000 id_str) ;;
  send (str "HEADER OFF") ;>
  send (str "VERBOSE ON") ;>
  n_a <~ get_int (str "CONFIGURATION:ANALOG:NUMCHANNELS") ;;
  n_d <~ get_int (str "CONFIGURATION:DIGITAL:NUMCHANNELS") ;;
  a <~ ask (str "CONFIGURATION:AUXIN?") ;;
  _ <~ get_float (str "CONFIGURATION:ANALOG:BANDWIDTH") ;;
  ret (Scope (zrange 1 n_a) (zrange 0 (n_d - 1)) (match a with [] => false | _ => true end)).
(** family_mso456.py:168-199.  int() of a digit outside ASCII is not modelled: the
    digit is one of 0 to 9. *)
Definition channel_number (name : pystr) : option Z :=
  match name with
  | [67; 72; d] | [67; 72; d; 10] => if is_digit d then Some (d - 48) else None
  | _ => None
  end.
(** dict assignment keeps the position of a key *)
Definition add_key (l : list Z) (k : Z) : list Z := if existsb (Z.eqb k) l then l else l ++ [k].
Definition subtree (l : list (pystr * tree pystr)) (k : string) : result (list (pystr * tree pystr)) :=
  match tfind l (str k) with
  | None => Err KeyError
  | Some (Node l') => Ok l'
  | Some (Leaf _) => Err TypeError
  end.
(** A text at GLOBAL is iterated by characters, none of which matches. *)
Definition channels_456 (reply : pystr) : result (list Z) :=
  bind (parse_scpi_nested (fun s => s) None reply) (fun buf =>
  bind (subtree buf "DISPLAY") (fun d =>
  bind (match tfind d (str "GLOBAL") with None => Err KeyError | Some (Node g) => Ok g | Some (Leaf _) => Ok [] end) (fun g =>
  Ok (fold_left (fun l kt => match channel_number (fst kt) with Some i => add_key l i | None => l end) g [])))).
Definition init_456 : io D scope :=
  id_str <~ ask (str "*IDN?") ;;
  _ <~ lift (check_identity unicode_digit re_model456 id_str) ;;
  send (str "HEADER ON") ;>
  send (str "VERBOSE ON") ;>
  reply <~ ask (str "DISPLAY?") ;;
  chs <~ lift (channels_456 reply) ;;
  send (str "HEADER OFF") ;>
  _ <~ get_float (str "CONFIGURATION:ANALOG:BANDWIDTH") ;;
  ret (Scope chs [] false).
End Scope.
