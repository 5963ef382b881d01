(** Model of hardware_tools/equipment/tektronix/common.py: [parse_wfm_file]. *)
From Coq Require Import String ZArith Bool List.
Import ListNotations.
From Verif Require Import Base Num PyStr TekModel EyeModel.
Local Open Scope Z_scope.
Local Open Scope result_scope.

Section Wfm.
Context {A : Type} `{Num A}.
(** Eight bytes read as a double. *)
Variable double : list Z -> A.
(** Decoding of UTF-8; None is UnicodeDecodeError, a ValueError. *)
Variable utf8 : list Z -> option pystr.
(** datetime.fromtimestamp(gmt_sec + frac_sec, utc): any type, may raise. *)
Context {T : Type}.
Variable timestamp : Z -> A -> result T.
(** _rng.uniform(-0.5 * 2^lsb, 0.5 * 2^lsb, n): the draws, any function. *)
Variable uniform : Z -> Z -> list A.

(** struct.unpack_from("<" + fmt, data, offset)[0], common.py:359-360: the
    bytes of the field. *)
Definition unpack (data : list Z) (n offset : Z) : result (list Z) :=
  if offset + n <=? Z.of_nat (length data) then Ok (slice data offset (offset + n)) else Err StructError.
Definition unpack_u data n offset : result Z := b <- unpack data n offset ;; Ok (unsigned_le b).
Definition unpack_s data n offset : result Z := b <- unpack data n offset ;; Ok (signed_of n (unsigned_le b)).
Definition unpack_d data offset : result A := b <- unpack data 8 offset ;; Ok (double b).
(** str_raw.split(b"\x00", maxsplit=1)[0] *)
Fixpoint until_nul (bs : list Z) : list Z :=
  match bs with
  | [] => []
  | b :: bs' => if b =? 0 then [] else b :: until_nul bs'
  end.
Definition unpack_text data offset : result pystr :=
  b <- unpack data 20 offset ;;
  match utf8 (until_nul b) with Some s => Ok s | None => Err ValueError end.

(** common.py:416-428: signed, size, smallest and largest code. *)
Definition format_of (code : Z) : option (bool * Z * Z * Z) :=
  if code =? 0 then Some (true, 2, - (2 ^ 15 - 1), 2 ^ 15 - 1)
  else if code =? 1 then Some (true, 4, - (2 ^ 31 - 1), 2 ^ 31 - 1)
  else if code =? 2 then Some (false, 4, 0, 2 ^ 32 - 1)
  else if code =? 3 then Some (false, 8, 0, 2 ^ 64 - 1)
  else if code =? 6 then Some (false, 1, 0, 2 ^ 8 - 1)
  else if code =? 7 then Some (true, 1, - (2 ^ 7 - 1), 2 ^ 7 - 1)
  else None.

(** np.arange(lo, hi) *)
Definition zrange_from (lo hi : Z) : list Z := map (fun i => lo + Z.of_nat i) (seq 0 (Z.to_nat (hi - lo))).
Local Open Scope num_scope.
(** common.py:440-441, 516-517 *)
Definition time_axis (n_samples n_postcharge : Z) (tt_offset scale offset : A) : list A :=
  map (fun i => (nofZ i +. tt_offset) *. scale +. offset) (zrange_from (- n_postcharge) (n_samples + n_postcharge)).
Local Close Scope num_scope.
(** np.frombuffer(data, dtype, offset=, count=); a negative count reads to the
    end. *)
Definition frombuffer_at (signed : bool) (size offset count : Z) (data : list Z) : result (list Z) :=
  let rest := skipn (Z.to_nat offset) data in
  if count <? 0 then frombuffer false signed size rest
  else if Z.of_nat (length rest) <? count * size then Err ValueError
  else frombuffer false signed size (firstn (Z.to_nat (count * size)) rest).
(** common.py:476-488 *)
Local Open Scope num_scope.
Definition dither_in (min_ max_ : Z) (y u : A) : A :=
  let w := y +. u in
  let w := if w >=. nofZ max_ -. nhalf then nofZ max_ else w in
  if w <. nofZ min_ +. nhalf then nofZ min_ else w.
Local Close Scope num_scope.
Definition dither_codes (size min_ max_ count : Z) (codes : list Z) : result (list A) :=
  if count <? 0 then Err ValueError
  else let us := uniform (lsb_of size codes) count in
       if Nat.eqb (length us) (length codes)
       then Ok (map (fun yu => dither_in min_ max_ (nofZ (fst yu)) (snd yu)) (combine codes us))
       else Err ValueError.
(** np.split(y, n): n equal parts. *)
Fixpoint parts {X} (n : nat) (len : nat) (l : list X) : list (list X) :=
  match n with
  | O => []
  | S n => firstn len l :: parts n len (skipn len l)
  end.
Definition np_split {X} (l : list X) (n : Z) : result (list (list X)) :=
  if Z.of_nat (length l) mod n =? 0 then Ok (parts (Z.to_nat n) (Z.to_nat (Z.of_nat (length l) / n)) l) else Err ValueError.
(** np.array([[t, y], ...]): rows of different lengths raise (numpy >= 1.24). *)
Definition np_rows (frames : list (list A * list A)) : result (list (list A * list A)) :=
  match frames with
  | [] => Ok []
  | f :: _ => if forallb (fun g => Nat.eqb (length (fst g)) (length (fst f)) && Nat.eqb (length (snd g)) (length (fst f))) frames
              then Ok frames else Err ValueError
  end.

(** The samples (one pair of axes per frame) and the information dictionary. *)
Record recording := Recording {
  frames : list (list A * list A);
  r_config : pystr; r_x_unit : pystr; r_y_unit : pystr; r_x_incr : A; r_y_incr : A;
  r_clip_min : A; r_clip_max : A; r_clipping_top : bool; r_clipping_bottom : bool;
  r_timestamps : list T }.

Definition check (b : bool) : result unit := if b then Ok tt else Err ValueError.
Definition check_some {X} (o : option X) : result X := match o with Some x => Ok x | None => Err ValueError end.

(** common.py:506-519: time axis and time stamp of fast frame [i]; the header
    of frame [i] is taken at 0x346 + 24 i. *)
Definition fast_frame (data : list Z) (n_samples n_postcharge : Z) (scale offset : A) (i : Z) : result (list A * T) :=
  let o := 838 + i * 24 in
  tt_offset <- unpack_d data (o + 4) ;;
  frac_sec <- unpack_d data (o + 12) ;;
  gmt_sec <- unpack_s data 4 (o + 20) ;;
  ts <- timestamp gmt_sec frac_sec ;;
  Ok (time_axis n_samples n_postcharge tt_offset scale offset, ts).

(** common.py:307-525.  The two time bases are read but not used; memory is
    unbounded. *)
Definition parse_wfm_file (data : list Z) (raw add_noise include_prepost : bool) : result recording :=
  let len_data := Z.of_nat (length data) in
  _ <- check (838 <=? len_data) ;;
  _ <- check (str_eqb (firstn 2 data) [15; 15]) ;;
  vb <- unpack data 3 7 ;;
  version <- check_some (parse_int vb) ;;
  _ <- check (version =? 3) ;;
  bytes_per_point <- unpack_s data 1 15 ;;
  label <- unpack_text data 40 ;;
  n_fast_frames <- unpack_u data 4 72 ;;
  let n_frames := n_fast_frames + 1 in
  imp_dim_count <- unpack_u data 4 114 ;;
  exp_dim_count <- unpack_u data 4 118 ;;
  data_type <- unpack_u data 4 122 ;;
  _ <- check ((imp_dim_count =? 1) && (exp_dim_count =? 1) && (data_type =? 2)) ;;
  exp_dim_scale <- unpack_d data 168 ;;
  exp_dim_offset <- unpack_d data 176 ;;
  exp_dim_units <- unpack_text data 188 ;;
  exp_dim_format <- unpack_u data 4 240 ;;
  storage <- unpack_u data 4 244 ;;
  _ <- check (storage =? 0) ;;
  imp_dim_scale <- unpack_d data 488 ;;
  imp_dim_offset <- unpack_d data 496 ;;
  imp_dim_units <- unpack_text data 508 ;;
  tt_offset <- unpack_d data 788 ;;
  frac_sec <- unpack_d data 796 ;;
  gmt_sec <- unpack_s data 4 804 ;;
  ts <- timestamp gmt_sec frac_sec ;;
  offset_precharge <- unpack_u data 4 818 ;;
  offset_data <- unpack_u data 4 822 ;;
  offset_postcharge <- unpack_u data 4 826 ;;
  offset_postcharge_stop <- unpack_u data 4 830 ;;
  offset_end <- unpack_u data 4 834 ;;
  fmt <- check_some (format_of exp_dim_format) ;;
  let '(signed, size, min_, max_) := fmt in
  _ <- check (size * 8 =? bytes_per_point * 8) ;;
  let n_precharge := (offset_data - offset_precharge) / bytes_per_point in
  let n_samples := (offset_postcharge - offset_data) / bytes_per_point in
  let n_postcharge := (offset_postcharge_stop - offset_postcharge) / bytes_per_point in
  let n_all := n_precharge + n_samples + n_postcharge in
  let t := time_axis n_samples n_postcharge tt_offset imp_dim_scale imp_dim_offset in
  let len_expected := 838 + 54 * n_fast_frames + offset_end * n_frames + 8 in
  _ <- check (len_expected <=? len_data) ;;
  checksum_expected <- unpack_u data 8 (len_expected - 8) ;;
  _ <- check (fold_left Z.add (slice data 0 (len_expected - 8)) 0 =? checksum_expected) ;;
  codes <- frombuffer_at signed size (838 + 54 * n_fast_frames) (n_all * n_frames) data ;;
  let top := existsb (fun c => max_ <=? c) codes in
  let bottom := existsb (fun c => c <=? min_) codes in
  y <- (if add_noise then dither_codes size min_ max_ (n_all * n_frames) codes else Ok (map nofZ codes)) ;;
  let scale w := (w *. exp_dim_scale +. exp_dim_offset)%num in
  let y := if raw then y else map scale y in
  let n_shown := if include_prepost then n_all else n_samples in
  let config := str "Label: " ++ label ++ str ", " ++ str_int n_shown ++ str " points, " ++ str_int n_frames ++ str " frame"
                ++ (if 1 <? n_frames then str "s" else []) in
  let cut (f : list A * list A) :=
    if include_prepost then f
    else (pyslice (fst f) n_precharge (n_precharge + n_samples), pyslice (snd f) n_precharge (n_precharge + n_samples)) in
  let done fs stamps :=
    Recording (map cut fs) config imp_dim_units (if raw then str "ADC Counts" else exp_dim_units) imp_dim_scale
      (if raw then nofZ 1 else exp_dim_scale) (if raw then nofZ min_ else scale (nofZ min_)) (if raw then nofZ max_ else scale (nofZ max_))
      top bottom stamps in
  if n_frames =? 1 then
    fs <- np_rows [(t, y)] ;;
    Ok (done fs [ts])
  else
    ys <- np_split y n_frames ;;
    rest <- mapM (fast_frame data n_samples n_postcharge imp_dim_scale imp_dim_offset) (map Z.of_nat (seq 0 (Z.to_nat n_fast_frames))) ;;
    fs <- np_rows (combine (t :: map fst rest) ys) ;;
    Ok (done fs (ts :: map snd rest)).
End Wfm.
Arguments recording : clear implicits.
