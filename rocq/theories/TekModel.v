(** Model of hardware_tools/equipment/tektronix/common.py: enumerated replies,
    the table of reply types and [parse_waveform_query]. *)
From Coq Require Import String ZArith Bool List QArith.
Import ListNotations.
From Verif Require Import Base Num PyStr ScpiModel.
Local Open Scope Z_scope.
Local Open Scope result_scope.

(** math/stats.py:14-38, math/lines.py:23-32, equipment/scope.py:18-28 *)
Inductive comparison := LESS | LESSEQUAL | MORE | MOREEQUAL | EQUAL | UNEQUAL | WITHIN | WITHININC | OUTSIDE | OUTSIDEINC.
Inductive polarity := RISING | FALLING | BOTH.
Inductive sample_mode := SAMPLE | AVERAGE | ENVELOPE.

(** re.sub(r"[a-z]+$", "", kd): without newlines, the trailing run of lower
    case letters is removed. *)
Fixpoint drop_lower (s : pystr) : pystr :=
  match s with
  | c :: s' => if is_lower c then drop_lower s' else s
  | [] => []
  end.
Definition short_form (kd : pystr) : pystr := rev (drop_lower (rev kd)).
(** The loops of parse_comparison, parse_sample_mode, parse_polarity.  None:
    the text itself is returned. *)
Fixpoint parse_enum {E} (d : list (string * E)) (v : pystr) : option E :=
  match d with
  | [] => None
  | (kd, e) :: d' => if startswith (short_form (str kd)) v then Some e else parse_enum d' v
  end.
Local Open Scope string_scope.
(** common.py:19-45 *)
Definition parse_comparison : pystr -> option comparison :=
  parse_enum [("LESSthan", LESS); ("MOREthan", MORE); ("EQual", EQUAL); ("UNEqual", UNEQUAL); ("LESSEQual", LESSEQUAL);
              ("MOREEQual", MOREEQUAL); ("WIThin", WITHIN); ("INrange", WITHIN); ("OUTside", OUTSIDE); ("OUTrange", OUTSIDE)].
(** common.py:48-67 *)
Definition parse_sample_mode : pystr -> option sample_mode :=
  parse_enum [("SAMple", SAMPLE); ("AVErage", AVERAGE); ("ENVelope", ENVELOPE)].
(** common.py:70-93 *)
Definition parse_polarity : pystr -> option polarity :=
  parse_enum [("RISe", RISING); ("POSitive", RISING); ("STAYSHigh", RISING); ("FALL", FALLING); ("NEGative", FALLING);
              ("STAYSLow", FALLING); ("EITher", BOTH)].

Section Tek.
Context {A : Type} `{Num A}.
(** float(s); raises ValueError on other texts. *)
Variable to_float : pystr -> result A.

(** common.py:96-110; [to_float] also stands for the literals -1.3 and 1.4. *)
Definition parse_threshold (v : pystr) : result A :=
  if str_eqb v (str "ECL") then to_float (str "-1.3")
  else if str_eqb v (str "TTL") then to_float (str "1.4")
  else to_float v.

(** Values of the reply dictionary. *)
Inductive value := VStr (s : pystr) | VInt (n : Z) | VFloat (a : A)
| VComparison (c : comparison) | VPolarity (p : polarity).
Definition as_int (s : pystr) : result value := match parse_int s with Some n => Ok (VInt n) | None => Err ValueError end.
Definition as_float (s : pystr) : result value := a <- to_float s ;; Ok (VFloat a).
Definition as_threshold (s : pystr) : result value := a <- parse_threshold s ;; Ok (VFloat a).
Definition as_upper (s : pystr) : result value := Ok (VStr (upper s)).
Definition as_quoted (s : pystr) : result value := Ok (VStr (strip_of 34 s)).
Definition as_polarity (s : pystr) : result value := Ok (match parse_polarity s with Some p => VPolarity p | None => VStr s end).
Definition as_comparison (s : pystr) : result value := Ok (match parse_comparison s with Some c => VComparison c | None => VStr s end).
Definition dict (l : list (string * types value)) : types value := TDict (map (fun kt => (str (fst kt), snd kt)) l).
(** common.py:113-184 [TEK_TYPES] *)
Definition trigger_types : types value :=
  dict [("A", dict [("BANDWidth", dict [("RF", dict [("HIGH", TCall as_float); ("LOW", TCall as_float)])]);
    ("EDGE", dict [("COUPling", TCall as_upper); ("SLOpe", TCall as_polarity); ("SOUrce", TCall as_upper)]);
    ("HOLDoff", dict [("TIMe", TCall as_float)]);
    ("LEVel", dict [("AUXin", TCall as_threshold); ("CH<1-4>", TCall as_threshold); ("D<0-15>", TCall as_threshold)]);
    ("MODe", TCall as_upper);
    ("PULse", dict [("CLAss", TCall as_upper)]);
    ("PULSEWidth", dict [("HIGHLimit", TCall as_float); ("LOWLimit", TCall as_float); ("POLarity", TCall as_polarity);
                         ("SOUrce", TCall as_upper); ("WHEn", TCall as_comparison); ("WIDth", TCall as_float)]);
    ("TIMEOut", dict [("POLarity", TCall as_polarity); ("SOUrce", TCall as_upper); ("TIMe", TCall as_float)]);
    ("TYPe", TCall as_upper)])].
Definition waveform_types : types value :=
  dict [("BYT_Nr", TCall as_int); ("BIT_Nr", TCall as_int); ("ENCdg", TCall as_upper); ("BN_Fmt", TCall as_upper);
        ("BYT_Or", TCall as_upper); ("WFId", TCall as_quoted); ("NR_Pt", TCall as_int); ("PT_Fmt", TCall as_upper);
        ("XUNit", TCall as_quoted); ("XINcr", TCall as_float); ("XZEro", TCall as_float); ("PT_Off", TCall as_int);
        ("PT_ORder", TCall as_upper); ("YUNit", TCall as_quoted); ("YMUlt", TCall as_float); ("YOFf", TCall as_float);
        ("YZEro", TCall as_float); ("VSCALE", TCall as_float); ("HSCALE", TCall as_float); ("VPOS", TCall as_float);
        ("VOFFSET", TCall as_float); ("HDELAY", TCall as_float); ("DOMain", TCall as_upper); ("WFMTYPe", TCall as_upper);
        ("CENTERFREQuency", TCall as_float); ("SPAN", TCall as_float); ("REFLEvel", TCall as_float)].
Definition tek_types : types value := dict [("TRIGger", trigger_types); ("WFMOutpre|WFMInpre|WFMPre", waveform_types)].

Local Close Scope string_scope.

(** ** parse_waveform_query *)
(** data.split(sep) for a nonempty separator: cut at its leftmost
    occurrences; [skip] bytes of the last one are still to be dropped. *)
Fixpoint split_sub (sep s : list Z) (skip : nat) : list (list Z) :=
  match s with
  | [] => [[]]
  | x :: s' =>
      match skip with
      | S k => split_sub sep s' k
      | O => if startswith sep s then [] :: split_sub sep s' (length sep - 1)
             else match split_sub sep s' 0 with
                  | [] => [[x]]
                  | p :: ps => (x :: p) :: ps
                  end
      end
  end.
(** common.py:213-217 *)
Definition split_reply (data : list Z) : result (list Z * list Z) :=
  match split_sub (str ";:CURVE ") data 0 with
  | [h; c] => Ok (h, c)
  | _ => match split_sub (str ";:CURV ") data 0 with
         | [h; c] => Ok (h, c)
         | _ => Err ValueError
         end
  end.
(** common.py:228: a double quote is put before each ";NR_PT" not following
    one; [prev] is the character before. *)
Fixpoint close_quotes (prev : Z) (s : pystr) : pystr :=
  match s with
  | [] => []
  | c :: s' => (if startswith (str ";NR_PT") s && negb (prev =? 34) then [34] else []) ++ c :: close_quotes c s'
  end.
(** The entry of a dictionary; entries of another type fail in the arithmetic
    that uses them (simplified to TypeError at the access). *)
Definition entry (l : list (pystr * tree value)) (k : string) : result value :=
  match tfind l (str k) with
  | None => Err KeyError
  | Some (Leaf v) => Ok v
  | Some (Node _) => Err TypeError
  end.
Definition int_entry l k : result Z := v <- entry l k ;; match v with VInt n => Ok n | _ => Err TypeError end.
Definition float_entry l k : result A := v <- entry l k ;; match v with VFloat a => Ok a | _ => Err TypeError end.
Definition str_entry l k : result pystr := v <- entry l k ;; match v with VStr s => Ok s | _ => Err TypeError end.
(** header.popitem()[1]: the value inserted last. *)
Definition popitem (l : list (pystr * tree value)) : result (list (pystr * tree value)) :=
  match rev l with
  | [] => Err KeyError
  | (_, Node l') :: _ => Ok l'
  | (_, Leaf _) :: _ => Err TypeError
  end.
(** int(chr(c), 16) *)
Definition hex_digit (c : Z) : result Z :=
  if (48 <=? c) && (c <=? 57) then Ok (c - 48)
  else if (65 <=? c) && (c <=? 70) then Ok (c - 55)
  else if (97 <=? c) && (c <=? 102) then Ok (c - 87)
  else Err ValueError.
(** l[start:stop] for start >= 0; a negative stop counts from the end. *)
Definition slice {X} (l : list X) (start stop : Z) : list X :=
  let stop := if stop <? 0 then stop + Z.of_nat (length l) else stop in
  firstn (Z.to_nat (stop - start)) (skipn (Z.to_nat start) l).
(** Integers of [size] bytes: unsigned value, least significant byte first. *)
Fixpoint unsigned_le (bs : list Z) : Z :=
  match bs with
  | [] => 0
  | b :: bs' => b + 256 * unsigned_le bs'
  end.
Definition signed_of (size u : Z) : Z := if u <? 2 ^ (8 * size - 1) then u else u - 2 ^ (8 * size).
Definition decode_int (msb signed : bool) (bs : list Z) : Z :=
  let u := unsigned_le (if msb then rev bs else bs) in
  if signed then signed_of (Z.of_nat (length bs)) u else u.
Fixpoint chunks (size : nat) (fuel : nat) (bs : list Z) : list (list Z) :=
  match fuel, bs with
  | S fuel, _ :: _ => firstn size bs :: chunks size fuel (skipn size bs)
  | _, _ => []
  end.
(** np.frombuffer(bytes, dtype); numpy knows sizes 1, 2, 4 and 8. *)
Definition frombuffer (msb signed : bool) (size : Z) (bs : list Z) : result (list Z) :=
  if (size =? 1) || (size =? 2) || (size =? 4) || (size =? 8) then
    if (Z.of_nat (length bs)) mod size =? 0
    then Ok (map (decode_int msb signed) (chunks (Z.to_nat size) (length bs) bs))
    else Err ValueError
  else Err TypeError.
(** np.arange(n), nonnegative integers below n *)
Definition arange (n : Z) : list Z := map Z.of_nat (seq 0 (Z.to_nat n)).
(** common.py:256-268 *)
Definition max_val (size : Z) : result Z :=
  if size =? 1 then Ok 127 else if size =? 2 then Ok (32768 * 127 / 128) else Err ValueError.
(** wave.max(), wave.min(): ValueError if empty. *)
Definition zmax (l : list Z) : result Z := match l with [] => Err ValueError | x :: l' => Ok (fold_left Z.max l' x) end.
Definition zmin (l : list Z) : result Z := match l with [] => Err ValueError | x :: l' => Ok (fold_left Z.min l' x) end.

(** common.py:277-279: lowest bit set in some code, at most [8 * size]. *)
Fixpoint find_lsb (n : nat) (lsb : Z) (all_or : Z) : Z :=
  match n with
  | O => lsb
  | S n => if Z.testbit all_or lsb then lsb else find_lsb n (lsb + 1) all_or
  end.
Definition lsb_of (size : Z) (codes : list Z) : Z := find_lsb (Z.to_nat (8 * size)) 0 (fold_left Z.lor codes 0).
(** _rng.uniform(-0.5 * 2^lsb, 0.5 * 2^lsb, n): the draws, any function. *)
Variable uniform : Z -> Z -> list A.
(** common.py:281-284; numpy broadcasting of other lengths than 1 raises. *)
Local Open Scope num_scope.
Definition dither1 (max_ : Z) (y u : A) : A :=
  let w := y +. u in
  let w := if w >=. nofZ max_ -. nhalf then nofZ max_ else w in
  if w <. nofZ (- max_) +. nhalf then nofZ (- max_) else w.
Definition dither (size max_ points : Z) (codes : list Z) : result (list A) :=
  let us := uniform (lsb_of size codes) points in
  if Nat.eqb (length us) (length codes)
  then Ok (map (fun yu => dither1 max_ (nofZ (fst yu)) (snd yu)) (combine codes us))
  else Err ValueError.

(** The samples and the information dictionary. *)
Record waveform := Waveform {
  x_axis : list A; y_axis : list A;
  config_string : pystr; x_unit : pystr; y_unit : pystr; x_incr : A; y_incr : A;
  y_clip_min : A; y_clip_max : A; clipping_top : bool; clipping_bottom : bool }.

(** Decoding of UTF-8; None is UnicodeDecodeError. *)
Variable utf8 : list Z -> option pystr.

(** common.py:219-230 *)
Definition parse_header (text : list Z) : result (list (pystr * tree value)) :=
  match utf8 text with
  | None => Err ValueError
  | Some s => t <- parse_scpi_nested VStr (Some tek_types) (close_quotes 0 s) ;; popitem t
  end.
(** common.py:187-304.  np.stack raises ValueError if the axes differ in
    length. *)
Definition parse_waveform_query (data : list Z) (raw add_noise : bool) : result waveform :=
  hc <- split_reply data ;;
  let '(text, curve) := hc in
  header <- parse_header text ;;
  points <- int_entry header "NR_PT" ;;
  x_incr <- float_entry header "XINCR" ;;
  x_zero <- float_entry header "XZERO" ;;
  x_unit <- str_entry header "XUNIT" ;;
  wfid <- str_entry header "WFID" ;;
  c1 <- get curve 1 ;;
  n <- hex_digit c1 ;;
  let header_len := 2 + n in
  byt_or <- str_entry header "BYT_OR" ;;
  bn_fmt <- str_entry header "BN_FMT" ;;
  byte_size <- int_entry header "BYT_NR" ;;
  codes <- frombuffer (str_eqb byt_or (str "MSB")) (str_eqb bn_fmt (str "RI")) byte_size
             (slice curve header_len (header_len + points * byte_size)) ;;
  let x := map (fun i => x_zero +. x_incr *. nofZ i) (arange points) in
  max_ <- max_val byte_size ;;
  hi <- zmax codes ;;
  lo <- zmin codes ;;
  let top := (max_ <=? hi)%Z in
  let bottom := (lo <=? - max_)%Z in
  wave <- (if add_noise then dither byte_size max_ points codes else Ok (map nofZ codes)) ;;
  if Nat.eqb (length x) (length wave) then
    if raw then Ok (Waveform x wave wfid x_unit (str "ADC Counts") x_incr (nofZ 1) (nofZ (- max_)) (nofZ max_) top bottom)
    else
      y_mult <- float_entry header "YMULT" ;;
      y_zero <- float_entry header "YZERO" ;;
      y_off <- float_entry header "YOFF" ;;
      y_unit <- str_entry header "YUNIT" ;;
      let scale w := (w -. y_off) *. y_mult +. y_zero in
      Ok (Waveform x (map scale wave) wfid x_unit y_unit x_incr y_mult (scale (nofZ (- max_))) (scale (nofZ max_)) top bottom)
  else Err ValueError.
End Tek.
Arguments value : clear implicits.
Arguments waveform : clear implicits.
