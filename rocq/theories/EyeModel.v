(** Model of the symbol windows of an eye diagram:
    measurement/eyediagram/eyediagram.py [_step3_sample], [_sample_mask],
    [_generate_bathtub_curves], [_uia_to_image], and the helpers
    _eyediagram_fb.py (fallback) and _eyediagram.pyx (compiled, without bounds
    checks) [sample_mask], [y_slice].

    [trunc] is Python's int() on a float (OverflowError or ValueError on
    infinities and NaN); [pymod] is the float operator %.  Both are parameters,
    so theorems hold for exact and for rounded arithmetic alike.

    centers_t and centers_i are always appended together and have the same
    length: a symbol is a pair (centre offset, centre index).  centers_i is
    stored as int32 (records of at least 2^31 points are not modelled). *)
From Coq Require Import List ZArith Bool.
Import ListNotations.
From Verif Require Import Base Num LinesModel LinesCyModel StatsModel MaskModel DrawModel.
Local Open Scope num_scope.
Local Open Scope result_scope.

(** l[lo:hi] for Python integers. *)
Definition slice_index (n i : Z) : Z :=
  if (i <? 0)%Z then Z.max 0 (i + n) else Z.min i n.
Definition pyslice {X} (l : list X) (lo hi : Z) : list X :=
  let n := Z.of_nat (length l) in
  let lo := slice_index n lo in
  let hi := slice_index n hi in
  firstn (Z.to_nat (hi - lo)) (skipn (Z.to_nat lo) l).

Section Eye.
Context {A : Type} `{Num A}.
Variable trunc : A -> result Z.
Variable pymod : A -> A -> A.
(** numpy's astype(np.int32) and C's (int) on a double: never raise. *)
Variable cast : A -> Z.

Definition symbol : Type := (A * Z)%type.

(** eyediagram.py:622; the same expression in _eyediagram_fb.py:32,81,129,
    _pam2_fb.py:38,178 and the pyx files: int((t_sym / t_delta) + 0.5) + 2.
    The operands are numpy floats: division by zero does not raise. *)
Definition get_i_width (t_sym t_delta : A) : result Z :=
  k <- trunc (t_sym /. t_delta +. nhalf) ;; Ok (k + 2)%Z.

(** eyediagram.py:631-638 -- one clock edge [b] of one waveform. *)
Definition sample_edge (i_width max_i : Z) (t_zero t_delta : A) (acc : list symbol) (b : A)
  : result (list symbol) :=
  let center_t := pymod b t_delta in
  center_i <- trunc ((b -. t_zero -. center_t) /. t_delta +. nhalf) ;;
  if ((center_i - i_width) <? 0)%Z || (max_i <=? (center_i + i_width))%Z then Ok acc
  else Ok (acc ++ [(neg center_t, center_i)]).

(** eyediagram.py:619-641 [_step3_sample], one waveform of [max_i] points. *)
Definition step3_sample (t_sym t_delta t_zero : A) (max_i : Z) (clock_edges : list A)
  : result (list symbol) :=
  i_width <- get_i_width t_sym t_delta ;;
  foldM (sample_edge i_width max_i t_zero t_delta) [] clock_edges.

(** _eyediagram_fb.py:129-133 (also 32-36, 81-84): the time axis of a window,
    in UI, before the sub-sample offset is added. *)
Definition window_axis (i_width : Z) (t_sym t_delta : A) : result (list A) :=
  let t_width_ui := nofZ i_width *. t_delta /. t_sym in
  let n := (i_width * 2 + 1)%Z in
  if (n <? 0)%Z then Err ValueError
  else Ok (linspace (nhalf -. t_width_ui) (nhalf +. t_width_ui) (Z.to_nat n)).

(** _eyediagram_fb.py:135 (also 38, and 86 with min_y, max_y - min_y). *)
Definition normalise_y (waveform_y : list A) (y_zero y_ua : A) : list A :=
  map (fun y => (y -. y_zero) /. y_ua) waveform_y.

(** _eyediagram_fb.py:143-147 (also 48-52, 89-93) -- the window of a symbol. *)
Definition window_fb (t0 waveform_y : list A) (i_width : Z) (t_sym : A) (s : symbol) : list A * list A :=
  let c_t := fst s /. t_sym in
  (map (fun t => t +. c_t) t0,
   pyslice waveform_y (snd s - i_width)%Z (snd s + i_width + 1)%Z).
(** _eyediagram.pyx:74-79 (also 162-167, 240-245): unchecked reads. *)
Definition window_c (t0 waveform_y : list A) (i_width : Z) (t_sym : A) (s : symbol)
  : result (list A * list A) :=
  let c_i := (snd s - i_width)%Z in
  let c_t := fst s /. t_sym in
  y <- mapM (fun ii => cget waveform_y (c_i + Z.of_nat ii)%Z) (seq 0 (length t0)) ;;
  Ok (map (fun t => t +. c_t) t0, y).

(** _eyediagram_fb.py:149-151 -- the [while] loop; fuel n_masks + 1 - i_margin
    suffices (proved). *)
Fixpoint margin_loop (fuel : nat) (hitting : nat -> result bool) (n_masks i_margin : nat) : result nat :=
  match fuel with
  | O => Err OutOfFuel
  | S fuel =>
      if (i_margin <? n_masks)%nat then
        h <- hitting i_margin ;;
        if h then margin_loop fuel hitting n_masks (S i_margin) else Ok i_margin
      else Ok i_margin
  end.

Record mask_values := MaskValues {
  offenders : list nat; mask_hits : list (A * A); margin : A }.

(** _eyediagram_fb.py:142-159 -- one symbol.  State: i (loop index), i_margin,
    offenders, hits. *)
Definition mask_step (t0 waveform_y : list A) (i_width : Z) (t_sym : A)
           (mask_paths : list (list path)) (n_masks : nat)
           (st : nat * nat * list nat * list (A * A)) (s : symbol)
  : result (nat * nat * list nat * list (A * A)) :=
  let '(i, i_margin, offs, hs) := st in
  let '(t, y) := window_fb t0 waveform_y i_width t_sym s in
  let i_zero := (n_masks / 2)%nat in
  i_margin <- margin_loop (S n_masks) (fun k => m <- get mask_paths k ;; is_hitting_np t y m) n_masks i_margin ;;
  if (i_margin <? i_zero)%nat then Ok (S i, i_margin, offs, hs)
  else
    m0 <- get mask_paths i_zero ;;
    h <- hits_np t y m0 ;;
    match h with
    | [] => Ok (S i, i_margin, offs, hs)
    | _ => Ok (S i, i_margin, offs ++ [i], hs ++ h)
    end.

(** _eyediagram_fb.py:103-162 [sample_mask]. *)
Definition sample_mask (waveform_y : list A) (symbols : list symbol) (t_delta t_sym y_zero y_ua : A)
           (mask_paths : list (list path)) (mask_margins : list A) : result mask_values :=
  i_width <- get_i_width t_sym t_delta ;;
  t0 <- window_axis i_width t_sym t_delta ;;
  let waveform_y := normalise_y waveform_y y_zero y_ua in
  let n_masks := length mask_margins in
  st <- foldM (mask_step t0 waveform_y i_width t_sym mask_paths n_masks) (0, 0, [], [])%nat symbols ;;
  let '(_, i_margin, offs, hs) := st in
  m <- getz mask_margins (Z.min (Z.of_nat n_masks - 1) (Z.of_nat i_margin)) ;;
  Ok (MaskValues offs hs m).

(** _eyediagram.pyx:73-98 -- one symbol of the compiled version; the current
    mask is looked up when the pointer moves. *)
Fixpoint margin_loop_c (fuel : nat) (t y : list A) (mask_paths : list (list path)) (n_masks i_margin : nat)
         (mask_margin : list path) : result (nat * list path) :=
  match fuel with
  | O => Err OutOfFuel
  | S fuel =>
      if (i_margin <? n_masks)%nat then
        h <- is_hitting_c t y mask_margin ;;
        if h then
          if (S i_margin <? n_masks)%nat then
            m <- cget mask_paths (Z.of_nat (S i_margin)) ;;
            margin_loop_c fuel t y mask_paths n_masks (S i_margin) m
          else margin_loop_c fuel t y mask_paths n_masks (S i_margin) mask_margin
        else Ok (i_margin, mask_margin)
      else Ok (i_margin, mask_margin)
  end.
Definition mask_step_c (t0 waveform_y : list A) (i_width : Z) (t_sym : A)
           (mask_paths : list (list path)) (mask_zero : list path) (n_masks : nat)
           (st : nat * nat * list path * list nat * list (A * A)) (s : symbol)
  : result (nat * nat * list path * list nat * list (A * A)) :=
  let '(i, i_margin, mask_margin, offs, hs) := st in
  ty <- window_c t0 waveform_y i_width t_sym s ;;
  let '(t, y) := ty in
  let i_zero := (n_masks / 2)%nat in
  im <- margin_loop_c (S n_masks) t y mask_paths n_masks i_margin mask_margin ;;
  let '(i_margin, mask_margin) := im in
  if (i_margin <? i_zero)%nat then Ok (S i, i_margin, mask_margin, offs, hs)
  else
    h <- hits_np_c t y mask_zero ;;
    match h with
    | [] => Ok (S i, i_margin, mask_margin, offs, hs)
    | _ => Ok (S i, i_margin, mask_margin, offs ++ [i], hs ++ h)
    end.

(** _eyediagram.pyx:15-101 [sample_mask_c]. *)
Definition sample_mask_c (waveform_y : list A) (symbols : list symbol) (t_delta t_sym y_zero y_ua : A)
           (mask_paths : list (list path)) (mask_margins : list A) : result mask_values :=
  i_width <- get_i_width t_sym t_delta ;;
  t0 <- window_axis i_width t_sym t_delta ;;
  let waveform_y := normalise_y waveform_y y_zero y_ua in
  let n_masks := length mask_margins in
  mask_zero <- cget mask_paths (Z.of_nat (n_masks / 2)) ;;
  mask_margin <- cget mask_paths 0%Z ;;
  st <- foldM (mask_step_c t0 waveform_y i_width t_sym mask_paths mask_zero n_masks)
              (0%nat, 0%nat, mask_margin, [], []) symbols ;;
  let '(_, i_margin, _, offs, hs) := st in
  m <- cget mask_margins (Z.min (Z.of_nat n_masks - 1) (Z.of_nat i_margin)) ;;
  Ok (MaskValues offs hs m).

(** Masks of either shape (Python duck typing). *)
Inductive mask := MHexagon (m : hexagon A) | MDecagon (m : decagon A).
Definition mask_convert (m : mask) (ua ui : A) : result mask :=
  match m with
  | MHexagon m => m' <- hex_convert m ua ui ;; Ok (MHexagon m')
  | MDecagon m => m' <- dec_convert m ua ui ;; Ok (MDecagon m')
  end.
(** mask.adjust(factor).paths *)
Definition mask_adjusted (m : mask) (factor : A) : result (list path) :=
  match m with
  | MHexagon m => m' <- hex_adjust m factor ;; hex_get_paths m'
  | MDecagon m => m' <- dec_adjust m factor ;; dec_get_paths m'
  end.

(** eyediagram.py:773-777 -- the margins 1.000, 0.999, ..., -1.000. *)
Definition margins : list A :=
  map (fun i => nofZ (1000 - Z.of_nat i) /. nofZ 1000) (seq 0 2001).

(** eyediagram.py:758-793 [_sample_mask].  [waves]: per waveform its samples and
    symbols.  Result: offenders per waveform, all hits, margin, offender count. *)
Definition eye_sample_mask (m : option mask) (t_delta t_sym y_zero y_ua : A)
           (waves : list (list A * list symbol))
  : result (list (list nat) * list (A * A) * A * nat) :=
  match m with
  | None => Ok ([], [], nofZ 1, O)
  | Some m =>
      mc <- mask_convert m y_ua t_sym ;;
      paths <- mapM (mask_adjusted mc) margins ;;
      foldM (fun st w =>
        let '(offs, hs, mg, cnt) := st in
        o <- sample_mask (fst w) (snd w) t_delta t_sym y_zero y_ua paths margins ;;
        Ok (offs ++ [offenders o], hs ++ mask_hits o,
            if margin o <. mg then margin o else mg, (cnt + length (offenders o))%nat))
        ([], [], nofZ 1, O) waves
  end.

(** _eyediagram_fb.py:12-59 [y_slice]: per level, the times where symbol windows
    cross the level between 0 and 1 UI. *)
Definition y_slice (waveform_y : list A) (symbols : list symbol) (t_delta t_sym y_zero y_ua : A)
           (levels : list A) : result (list (list A)) :=
  i_width <- get_i_width t_sym t_delta ;;
  t0 <- window_axis i_width t_sym t_delta ;;
  let waveform_y := normalise_y waveform_y y_zero y_ua in
  foldM (fun slices s =>
    let '(t, y) := window_fb t0 waveform_y i_width t_sym s in
    mapM (fun sl : list A * A =>
      h <- hits_np t y [[(nofZ 0, snd sl); (nofZ 1, snd sl)]] ;;
      Ok (fst sl ++ map fst h)) (combine slices levels))
    (map (fun _ => []) levels) symbols.
(** _eyediagram.pyx:110-180 [y_slice_c]. *)
Definition y_slice_c (waveform_y : list A) (symbols : list symbol) (t_delta t_sym y_zero y_ua : A)
           (levels : list A) : result (list (list A)) :=
  i_width <- get_i_width t_sym t_delta ;;
  t0 <- window_axis i_width t_sym t_delta ;;
  let waveform_y := normalise_y waveform_y y_zero y_ua in
  foldM (fun slices s =>
    ty <- window_c t0 waveform_y i_width t_sym s ;;
    let '(t, y) := ty in
    mapM (fun sl : list A * A =>
      h <- hits_np_c t y [[(nofZ 0, snd sl); (nofZ 1, snd sl)]] ;;
      Ok (fst sl ++ map fst h)) (combine slices levels))
    (map (fun _ => []) levels) symbols.

(** eyediagram.py:738-755 -- one bathtub curve from the unsorted crossing
    times: np.sort (finite values), split at 0.5, ranks. *)
Definition bathtub (hits : list A) : list A * list A :=
  let hits := sorted hits in
  let left_ := filter (fun t => t <=. nhalf) hits in
  let right_ := filter (fun t => t >. nhalf) hits in
  let n := length left_ in
  let ber_left := map (fun i => nofZ 1 -. nofZ (Z.of_nat i) /. nofZ (Z.of_nat n)) (seq 0 n) in
  let n' := length right_ in
  let ber_right := map (fun i => nofZ 1 -. nofZ (Z.of_nat i) /. nofZ (Z.of_nat n')) (rev (seq 0 n')) in
  ([nofZ 0] ++ left_ ++ right_ ++ [nofZ 1], [nofZ 1] ++ ber_left ++ ber_right ++ [nofZ 1]).

(** eyediagram.py:713-756 [_generate_bathtub_curves]; the dict keys are kept
    with their levels. *)
Definition bathtub_curves (t_delta t_sym y_zero y_ua : A) (waves : list (list A * list symbol))
           (levels : list A) : result (list (list A * list A)) :=
  output <- mapM (fun w => y_slice (fst w) (snd w) t_delta t_sym y_zero y_ua levels) waves ;;
  mapM (fun i =>
    hs <- mapM (fun o => get o i) output ;;
    Ok (bathtub (concat hs))) (seq 0 (length levels)).

(** eyediagram.py:814-833 [_uia_to_image]: None without clipping. *)
Definition uia_to_image (resolution : Z) (u : A) : result Z :=
  trunc ((u +. nhalf) /. nofZ 2 *. nofZ resolution).
Definition uia_to_image_list (resolution : Z) (u : A) : result (list Z) :=
  pos <- uia_to_image resolution u ;;
  Ok (if (0 <=? pos)%Z && (pos <=? resolution)%Z then [pos] else []).
(** _eyediagram_fb.py:62-100 [stack]: every symbol window is drawn into the
    heat map, as points or as a polyline ([fuel] bounds the rasteriser's loop). *)
Definition stack_draw (fuel : nat) (point_cloud : bool) (td yd : list Z) (g : grid) : result grid :=
  if point_cloud then Ok (draw_points (combine td yd) g) else draw fuel (combine td yd) g.
Definition stack (fuel : nat) (waveform_y : list A) (symbols : list symbol) (t_delta t_sym min_y max_y : A)
           (resolution : Z) (g : grid) (point_cloud : bool) : result grid :=
  i_width <- get_i_width t_sym t_delta ;;
  t0 <- window_axis i_width t_sym t_delta ;;
  let waveform_y := normalise_y waveform_y min_y (max_y -. min_y) in
  foldM (fun g s =>
    let '(t, y) := window_fb t0 waveform_y i_width t_sym s in
    let td := map (fun t => cast ((t +. nhalf) /. nofZ 2 *. nofZ resolution)) t in
    let yd := map (fun y => cast (y *. nofZ resolution)) y in
    stack_draw fuel point_cloud td yd g) g symbols.
(** _eyediagram.pyx:190-250 [stack_c]: the same with the scaling of the time
    axis done once and the samples converted once. *)
Definition stack_c (fuel : nat) (waveform_y : list A) (symbols : list symbol) (t_delta t_sym min_y max_y : A)
           (resolution : Z) (g : grid) (point_cloud : bool) : result grid :=
  i_width <- get_i_width t_sym t_delta ;;
  t0 <- window_axis i_width t_sym t_delta ;;
  let t0 := map (fun t => (t +. nhalf) /. nofZ 2 *. nofZ resolution) t0 in
  let waveform_y := normalise_y waveform_y min_y (max_y -. min_y) in
  let waveform_yd := map (fun y => cast (y *. nofZ resolution)) waveform_y in
  foldM (fun g s =>
    let c_i := (snd s - i_width)%Z in
    let c_t := fst s /. t_sym /. nofZ 2 *. nofZ resolution in
    yd <- mapM (fun ii => cget waveform_yd (c_i + Z.of_nat ii)%Z) (seq 0 (length t0)) ;;
    let td := map (fun t => cast (t +. c_t)) t0 in
    stack_draw fuel point_cloud td yd g) g symbols.

(** Sum of column x of a heat map (np.sum(raw[x])). *)
Definition column_sum (resolution : Z) (raw : Z -> Z -> A) (x : Z) : A :=
  fold_left (fun acc y => acc +. raw x (Z.of_nat y)) (seq 0 (Z.to_nat resolution)) (nofZ 0).
Definition amax (a b : A) : A := if a <. b then b else a.
(** eyediagram.py:848-873 of [_step5_stack]: stack every waveform over
    [-0.5, 1.5] UA, normalise the columns of a point cloud, rotate.  The result
    is indexed [row, column] of the image.  float32 rounding of the counts is
    not modelled.  [n_sym] is measures.n_sym. *)
Definition step5_heatmap (fuel : nat) (t_delta t_sym y_zero y_ua : A) (waves : list (list A * list symbol))
           (resolution : Z) (point_cloud : bool) (n_sym : Z) : result (Z -> Z -> A) :=
  let min_y := neg nhalf *. y_ua +. y_zero in
  let max_y := (one +. nhalf) *. y_ua +. y_zero in
  let zeros := {| n_x := resolution; n_y := resolution; cell := fun _ _ => 0%Z |} in
  g <- foldM (fun g w => stack fuel (fst w) (snd w) t_delta t_sym min_y max_y resolution g point_cloud)
             zeros waves ;;
  let raw := fun x y => nofZ (cell g x y) in
  let raw := if point_cloud then
               fun x y => raw x y *. (nofZ n_sym /. amax (nofZ 1) (column_sum resolution raw x))
             else raw in
  Ok (fun row col => raw col (resolution - 1 - row)%Z).
End Eye.
Arguments mask : clear implicits.
