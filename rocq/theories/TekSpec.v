(** What the properties of the Tektronix replies talk about. *)
From Coq Require Import String ZArith Bool List Reals.
Import ListNotations.
From Verif Require Import Base Num PyStr ScpiModel ScpiSpec TekModel.
Local Open Scope Z_scope.

Definition occurs (sub s : list Z) : Prop := exists a b, s = a ++ sub ++ b.
Definition begins (p v : pystr) : Prop := exists r, v = p ++ r.

(** ** Binary blocks *)
(** A sample code on the wire: [size] bytes, two's complement. *)
Fixpoint bytes_le (size : nat) (u : Z) : list Z :=
  match size with
  | O => []
  | S n => u mod 256 :: bytes_le n (u / 256)
  end.
Definition wire (msb : bool) (size : Z) (code : Z) : list Z :=
  let bs := bytes_le (Z.to_nat size) (code mod 256 ^ size) in
  if msb then rev bs else bs.
Definition payload (msb : bool) (size : Z) (codes : list Z) : list Z := flat_map (wire msb size) codes.
Definition fits (signed : bool) (size code : Z) : Prop :=
  if signed then - 2 ^ (8 * size - 1) <= code < 2 ^ (8 * size - 1) else 0 <= code < 2 ^ (8 * size).
(** '#', number of length digits (one hexadecimal digit), length digits, data. *)
Definition hex_char (k : nat) : Z := if (k <=? 9)%nat then 48 + Z.of_nat k else 65 + (Z.of_nat k - 10).
Definition block (digits data : list Z) : list Z := 35 :: hex_char (length digits) :: digits ++ data.
(** The code from which a sample counts as clipped. *)
Definition limit (size : Z) : Z := if size =? 1 then 127 else 32512.

(** ** The preamble of a waveform reply *)
Record preamble (A : Type) := Preamble {
  p_size : Z; p_msb : bool; p_signed : bool; p_points : Z; p_id : pystr;
  p_xunit : pystr; p_xincr : A; p_xzero : A;
  p_yunit : pystr; p_ymult : A; p_yoff : A; p_yzero : A }.
Arguments p_size {A}. Arguments p_msb {A}. Arguments p_signed {A}. Arguments p_points {A}. Arguments p_id {A}.
Arguments p_xunit {A}. Arguments p_xincr {A}. Arguments p_xzero {A}.
Arguments p_yunit {A}. Arguments p_ymult {A}. Arguments p_yoff {A}. Arguments p_yzero {A}.
Arguments Preamble {A}.

(** The text sent for [full]: the double quote before ;NR_PT may be lost. *)
Definition quote_lost (full text : pystr) : Prop :=
  (text = full /\ forall a b, full = a ++ str ";NR_PT" ++ b -> exists a', a = a' ++ [34]) \/
  (exists a b, full = a ++ [34] ++ str ";NR_PT" ++ b /\ text = a ++ str ";NR_PT" ++ b /\
     ~ occurs (str ";NR_PT") a /\ ~ occurs (str ";NR_PT") b /\ (forall a', a <> a' ++ [34])).
(** [text] is a list of settings, all below one header, that describe [pre]
    (other settings may be among them). *)
Definition sent {A} `{Num A} (to_float : pystr -> result A) (pre : preamble A) (text : pystr) : Prop :=
  exists settings cs rs outer byt_or bn_fmt,
    let field k v := survives rs [outer; str k] v in
    settings <> [] /\ Forall well_formed settings /\ last_text_ok settings /\ reply [] settings cs /\
    Forall2 (stored VStr (Some (tek_types to_float))) settings rs /\
    quote_lost (join 59 cs) text /\
    Forall (fun r => exists k rest, fst r = outer :: k :: rest) rs /\
    field "BYT_NR"%string (VInt (p_size pre)) /\ field "NR_PT"%string (VInt (p_points pre)) /\
    field "BYT_OR"%string (VStr byt_or) /\ (p_msb pre = true <-> byt_or = str "MSB") /\
    field "BN_FMT"%string (VStr bn_fmt) /\ (p_signed pre = true <-> bn_fmt = str "RI") /\
    field "WFID"%string (VStr (p_id pre)) /\
    field "XUNIT"%string (VStr (p_xunit pre)) /\ field "XINCR"%string (VFloat (p_xincr pre)) /\ field "XZERO"%string (VFloat (p_xzero pre)) /\
    field "YUNIT"%string (VStr (p_yunit pre)) /\ field "YMULT"%string (VFloat (p_ymult pre)) /\
    field "YOFF"%string (VFloat (p_yoff pre)) /\ field "YZERO"%string (VFloat (p_yzero pre)).

(** The entries of a preamble that matter, and how their texts are read. *)
Inductive kind := Integer | Real | Word_ | Quoted.
Definition preamble_entries : list (string * kind) :=
  [("BYT_Nr", Integer); ("NR_Pt", Integer); ("BYT_Or", Word_); ("BN_Fmt", Word_); ("WFId", Quoted);
   ("XUNit", Quoted); ("XINcr", Real); ("XZEro", Real); ("YUNit", Quoted); ("YMUlt", Real); ("YOFf", Real); ("YZEro", Real)]%string.
Definition read_as {A} (to_float : pystr -> result A) (k : kind) (text : pystr) (v : value A) : Prop :=
  match k with
  | Integer => exists n, parse_int text = Some n /\ v = VInt n
  | Real => exists a, to_float text = Ok a /\ v = VFloat a
  | Word_ => v = VStr (upper text)
  | Quoted => exists i j t, text = repeat 34 i ++ t ++ repeat 34 j /\ (forall u, t <> 34 :: u) /\ (forall u, t <> u ++ [34]) /\ v = VStr t
  end.

(** A reply: preamble text, ";:CURVE " or ";:CURV ", block, anything. *)
Definition curve_mark (long : bool) : list Z := if long then str ";:CURVE " else str ";:CURV ".
Definition reply_bytes (long : bool) (text curve : list Z) : list Z := text ++ curve_mark long ++ curve.
(** The mark is recognised: it occurs once, and the long mark not at all if
    the short one is used. *)
Definition marked (long : bool) (text curve : list Z) : Prop :=
  ~ occurs (curve_mark long) text /\ ~ occurs (curve_mark long) curve /\
  (long = false -> ~ occurs (curve_mark true) (reply_bytes long text curve)).

(** A waveform reply that carries [codes]. *)
Definition waveform_reply {A} `{Num A} (to_float : pystr -> result A) (utf8 : list Z -> option pystr)
    (pre : preamble A) (codes : list Z) (bytes : list Z) : Prop :=
  exists long text s digits tail,
    let curve := block digits (payload (p_msb pre) (p_size pre) codes ++ tail) in
    bytes = reply_bytes long text curve /\ marked long text curve /\ (length digits <= 15)%nat /\
    utf8 text = Some s /\ sent to_float pre s /\
    (p_size pre = 1 \/ p_size pre = 2) /\ codes <> [] /\ Forall (fits (p_signed pre) (p_size pre)) codes /\
    p_points pre = Z.of_nat (length codes).

(** ** C28 *)
(** The granularity of the codes: the largest power of two dividing them all;
    the word size if they are all zero. *)
Definition granularity (size : Z) (codes : list Z) (k : Z) : Prop :=
  (Forall (fun c => (2 ^ k | c)) codes /\ 0 <= k < 8 * size /\ exists c, In c codes /\ ~ (2 ^ (k + 1) | c)) \/
  (Forall (fun c => c = 0) codes /\ k = 8 * size).
(** The draws of a uniform distribution on [-2^k/2, 2^k/2). *)
Definition draws_ok (uniform : Z -> Z -> list R) : Prop :=
  forall k n, 0 <= k -> 0 <= n -> length (uniform k n) = Z.to_nat n /\
    Forall (fun u => (- (IZR (2 ^ k) / 2) <= u < IZR (2 ^ k) / 2)%R) (uniform k n).

(** ** C31: the shortest forms of the enumerated replies *)
Definition comparison_forms (e : comparison) : list string :=
  match e with
  | LESS => ["LESS"] | MORE => ["MORE"] | EQUAL => ["EQ"] | UNEQUAL => ["UNE"]
  | WITHIN => ["WIT"; "IN"] | OUTSIDE => ["OUT"] | _ => []
  end%string.
Definition polarity_forms (e : polarity) : list string :=
  match e with
  | RISING => ["RIS"; "POS"; "STAYSH"] | FALLING => ["FALL"; "NEG"; "STAYSL"] | BOTH => ["EIT"]
  end%string.
Definition sample_mode_forms (e : sample_mode) : list string :=
  match e with
  | SAMPLE => ["SAM"] | AVERAGE => ["AVE"] | ENVELOPE => ["ENV"]
  end%string.
Definition has_form (forms : list string) (v : pystr) : Prop := exists f, In f forms /\ begins (str f) v.
