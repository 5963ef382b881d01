(** What the properties of .wfm files talk about. *)
From Coq Require Import String ZArith Bool List.
Import ListNotations.
From Verif Require Import Base Num PyStr TekSpec.
Local Open Scope Z_scope.

(** The [n] bytes from [off] on, and their value, least significant first. *)
Definition at_ (data : list Z) (off n : Z) : list Z := firstn (Z.to_nat n) (skipn (Z.to_nat off) data).
Definition le (bs : list Z) : Z := fold_right (fun b acc => b + 256 * acc) 0 bs.
Definition number (data : list Z) (off n : Z) : Z := le (at_ data off n).
Definition is_bytes (data : list Z) : Prop := Forall (fun b => 0 <= b < 256) data.
Definition sum (bs : list Z) : Z := fold_right Z.add 0 bs.

(** ** C29 *)
(** The length announced by a file: header, 54 bytes per additional frame, the
    curve buffers and the checksum. *)
Definition expected_length (data : list Z) : Z :=
  let additional := number data 72 4 in
  838 + 54 * additional + number data 834 4 * (additional + 1) + 8.
(** The bytes it depends on. *)
Definition length_field (i : Z) : Prop := 72 <= i < 76 \/ 834 <= i < 838.

(** ** C30 *)
(** The supported types of samples: code, signedness, bytes. *)
Definition sample_types : list (Z * (bool * Z)) :=
  [(0, (true, 2)); (1, (true, 4)); (2, (false, 4)); (3, (false, 8)); (6, (false, 1)); (7, (true, 1))].
Definition lowest (signed : bool) (size : Z) : Z := if signed then - (2 ^ (8 * size - 1) - 1) else 0.
Definition highest (signed : bool) (size : Z) : Z := if signed then 2 ^ (8 * size - 1) - 1 else 2 ^ (8 * size) - 1.

(** The contents of a file: [c_frames] are the codes of each frame, of which
    the first and the last [c_pre] are charge samples. *)
Record contents (A T : Type) := Contents {
  c_code : Z; c_signed : bool; c_size : Z; c_pre : nat; c_count : nat; c_label : pystr;
  c_frames : list (list Z); c_stamps : list T; c_triggers : list A;
  c_xscale : A; c_xoff : A; c_xunit : pystr; c_yscale : A; c_yoff : A; c_yunit : pystr }.
Arguments c_code {A T}. Arguments c_signed {A T}. Arguments c_size {A T}. Arguments c_pre {A T}. Arguments c_count {A T}.
Arguments c_label {A T}. Arguments c_frames {A T}. Arguments c_stamps {A T}. Arguments c_triggers {A T}.
Arguments c_xscale {A T}. Arguments c_xoff {A T}. Arguments c_xunit {A T}. Arguments c_yscale {A T}. Arguments c_yoff {A T}. Arguments c_yunit {A T}.
Arguments Contents {A T}.

(** A text of at most 20 bytes, ended by a zero byte if shorter. *)
Definition text_at (utf8 : list Z -> option pystr) (data : list Z) (off : Z) (s : pystr) : Prop :=
  exists name pad, at_ data off 20 = name ++ pad /\ ~ In 0 name /\ (pad = [] \/ exists p, pad = 0 :: p) /\ utf8 name = Some s.
Definition double_at {A} (double : list Z -> A) (data : list Z) (off : Z) (v : A) : Prop := double (at_ data off 8) = v.
(** Where the trigger position and the time of a frame are stored. *)
Definition update_at (j : nat) : Z := match j with O => 784 | S i => 838 + 24 * Z.of_nat i end.
Definition signed4 (u : Z) : Z := if u <? 2 ^ 31 then u else u - 2 ^ 32.

Definition wfm_file {A T} (double : list Z -> A) (utf8 : list Z -> option pystr) (timestamp : Z -> A -> result T)
    (c : contents A T) (data : list Z) : Prop :=
  let additional := Z.of_nat (length (c_frames c)) - 1 in
  let all := (c_pre c + c_count c + c_pre c)%nat in
  let size := c_size c in
  In (c_code c, (c_signed c, size)) sample_types /\
  c_frames c <> [] /\ Forall (fun f => length f = all /\ Forall (fits (c_signed c) size) f) (c_frames c) /\
  length (c_triggers c) = length (c_frames c) /\ length (c_stamps c) = length (c_frames c) /\
  838 <= Z.of_nat (length data) /\ at_ data 0 2 = [15; 15] /\ at_ data 7 3 = str "003" /\
  number data 15 1 = size /\ text_at utf8 data 40 (c_label c) /\ number data 72 4 = additional /\
  number data 114 4 = 1 /\ number data 118 4 = 1 /\ number data 122 4 = 2 /\
  double_at double data 168 (c_yscale c) /\ double_at double data 176 (c_yoff c) /\ text_at utf8 data 188 (c_yunit c) /\
  number data 240 4 = c_code c /\ number data 244 4 = 0 /\
  double_at double data 488 (c_xscale c) /\ double_at double data 496 (c_xoff c) /\ text_at utf8 data 508 (c_xunit c) /\
  (forall j tt, nth_error (c_triggers c) j = Some tt -> double_at double data (update_at j + 4) tt) /\
  (forall j ts, nth_error (c_stamps c) j = Some ts ->
     timestamp (signed4 (number data (update_at j + 20) 4)) (double (at_ data (update_at j + 12) 8)) = Ok ts) /\
  number data 818 4 = 0 /\ number data 822 4 = Z.of_nat (c_pre c) * size /\
  number data 826 4 = Z.of_nat (c_pre c + c_count c) * size /\
  number data 830 4 = Z.of_nat all * size /\ number data 834 4 = Z.of_nat all * size /\
  expected_length data <= Z.of_nat (length data) /\
  at_ data (838 + 54 * additional) (Z.of_nat (length (payload false size (concat (c_frames c))))) = payload false size (concat (c_frames c)) /\
  number data (expected_length data - 8) 8 = sum (firstn (Z.to_nat (expected_length data - 8)) data).
