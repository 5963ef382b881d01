(** Model of PAM2 sampling and measuring: measurement/eyediagram/_pam2_fb.py,
    its compiled form _pam2.pyx (no bounds checks), and of the parts of
    measurement/eyediagram/pam2.py that derive measures and the bit stream. *)
From Coq Require Import List ZArith Bool Reals.
Import ListNotations.
From Verif Require Import Base Num LinesModel LinesCyModel StatsModel MaskModel EyeModel.
Local Open Scope num_scope.
Local Open Scope result_scope.

Section Pam2.
Context {A : Type} `{Num A}.
Variable trunc : A -> result Z.

(** lo <= t <= hi *)
Definition within (lo hi t : A) : bool := (lo <=. t) && (t <=. hi).

(** A PAM2 sequence "abc": previous, current and next symbol are high. *)
Definition seq3 : Type := (bool * bool * bool)%type.
Definition seq3_eqb (p q : seq3) : bool :=
  let '(a, b, c) := p in let '(a', b', c') := q in eqb a a' && eqb b b' && eqb c c'.

(** _pam2_fb.py:62-80 -- the dictionary of values. *)
Record vertical := Vertical {
  v_0 : list A; v_1 : list A; v_cross : list A; v_0_cross : list A; v_1_cross : list A; v_avg : list A;
  v_transitions : seq3 -> Z; v_edge_dir : list Z }.
Definition no_vertical : vertical := Vertical [] [] [] [] [] [] (fun _ => 0%Z) [].

(** _pam2_fb.py:38-60 -- the limits of the windows. *)
Definition abc_width (level_width t_delta t_sym : A) : A :=
  amax level_width (nofZ 101 /. nofZ 100 *. t_delta /. t_sym).
Definition around (centre width : A) (t : A) : bool :=
  within (centre -. width /. nofZ 2) (centre +. width /. nofZ 2) t.

(** _pam2_fb.py:82-91,95-113 -- the samples of one symbol, per window. *)
Record bins := Bins {
  s_a : list A; s_b : list A; s_c : list A; s_sym : list A; s_in_cross : list A; s_sym_cross : list A; s_avg : list A }.
Definition bin_point (abc level cross : A) (b : bins) (p : A * A) : bins :=
  let '(t, y) := p in
  let b := if around (neg nhalf) abc t then Bins (s_a b ++ [y]) (s_b b) (s_c b) (s_sym b) (s_in_cross b) (s_sym_cross b) (s_avg b)
           else if around nhalf abc t then Bins (s_a b) (s_b b ++ [y]) (s_c b) (s_sym b) (s_in_cross b) (s_sym_cross b) (s_avg b)
           else if around (one +. nhalf) abc t then Bins (s_a b) (s_b b) (s_c b ++ [y]) (s_sym b) (s_in_cross b) (s_sym_cross b) (s_avg b)
           else b in
  let b := if around nhalf level t then Bins (s_a b) (s_b b) (s_c b) (s_sym b ++ [y]) (s_in_cross b) (s_sym_cross b) (s_avg b) else b in
  let b := if around (nofZ 0) cross t then Bins (s_a b) (s_b b) (s_c b) (s_sym b) (s_in_cross b ++ [y]) (s_sym_cross b) (s_avg b) else b in
  let b := if around nhalf level t then Bins (s_a b) (s_b b) (s_c b) (s_sym b) (s_in_cross b) (s_sym_cross b ++ [y]) (s_avg b) else b in
  if within (nofZ 0) (nofZ 1) t then Bins (s_a b) (s_b b) (s_c b) (s_sym b) (s_in_cross b) (s_sym_cross b) (s_avg b ++ [y]) else b.

(** np.mean(samples) > y_half; the mean of no samples is NaN.  numpy's pairwise
    summation is modelled as left-to-right summation. *)
Definition asum (l : list A) : A := fold_left nadd l (nofZ 0).
Definition mean_above (samples : list A) (y_half : A) : bool :=
  match samples with
  | [] => false
  | _ => asum samples /. nofZ (Z.of_nat (length samples)) >. y_half
  end.

(** _pam2_fb.py:119-140 -- file the samples of a decided symbol. *)
Definition file (v : vertical) (sym_a sym_b sym_c : bool) (sym cross sym_cross avg : list A) : vertical :=
  let edge := negb (eqb sym_a sym_b) in
  Vertical (if sym_b then v_0 v else v_0 v ++ sym)
           (if sym_b then v_1 v ++ sym else v_1 v)
           (if edge then v_cross v ++ cross else v_cross v)
           (if edge then v_0_cross v else if sym_b then v_0_cross v else v_0_cross v ++ sym_cross)
           (if edge then v_1_cross v else if sym_b then v_1_cross v ++ sym_cross else v_1_cross v)
           (v_avg v ++ avg)
           (fun q => (v_transitions v q + if seq3_eqb q (sym_a, sym_b, sym_c) then 1 else 0)%Z)
           (v_edge_dir v ++ [if edge then if sym_b then 1 else -1 else 0]%Z).

(** _pam2_fb.py:93-97 -- time (UI) and value of the samples of a symbol; numpy
    indexing wraps negative indices and raises past the end. *)
Definition symbol_points (t0 waveform_y : list A) (i_width : Z) (t_sym : A) (s : symbol) : result (list (A * A)) :=
  let c_t := fst s /. t_sym in
  mapM (fun ii =>
    t <- get t0 ii ;;
    y <- getz waveform_y (snd s - i_width + Z.of_nat ii)%Z ;;
    Ok (t +. c_t, y)) (seq 0 (Z.to_nat (i_width * 2 + 1))).

(** _pam2_fb.py:10-142 [sample_vertical]. *)
Definition vertical_step (t0 waveform_y : list A) (i_width : Z) (t_delta t_sym y_half level_width cross_width : A)
           (v : vertical) (s : symbol) : result vertical :=
  ps <- symbol_points t0 waveform_y i_width t_sym s ;;
  let b := fold_left (bin_point (abc_width level_width t_delta t_sym) level_width cross_width) ps
                     (Bins [] [] [] [] [] [] []) in
  Ok (file v (mean_above (s_a b) y_half) (mean_above (s_b b) y_half) (mean_above (s_c b) y_half)
           (s_sym b) (s_in_cross b) (s_sym_cross b) (s_avg b)).
Definition sample_vertical (waveform_y : list A) (symbols : list symbol)
           (t_delta t_sym y_half level_width cross_width : A) : result vertical :=
  i_width <- get_i_width trunc t_sym t_delta ;;
  t0 <- window_axis i_width t_sym t_delta ;;
  foldM (vertical_step t0 waveform_y i_width t_delta t_sym y_half level_width cross_width) no_vertical symbols.

(** _pam2.pyx:15-166 [sample_vertical_c]: running sums instead of lists, the
    decision compares the sum with y_half times the count, unchecked reads. *)
Record sums := Sums {
  c_a : A; n_a : A; c_b : A; n_b : A; c_c : A; n_c : A;
  c_sym : list A; c_cross : list A; c_sym_cross : list A; c_avg : list A }.
Definition sum_point (abc level cross : A) (b : sums) (p : A * A) : sums :=
  let '(t, y) := p in
  let b := if around (neg nhalf) abc t then
             Sums (c_a b +. y) (n_a b +. nofZ 1) (c_b b) (n_b b) (c_c b) (n_c b) (c_sym b) (c_cross b) (c_sym_cross b) (c_avg b)
           else if around nhalf abc t then
             Sums (c_a b) (n_a b) (c_b b +. y) (n_b b +. nofZ 1) (c_c b) (n_c b) (c_sym b) (c_cross b) (c_sym_cross b) (c_avg b)
           else if around (one +. nhalf) abc t then
             Sums (c_a b) (n_a b) (c_b b) (n_b b) (c_c b +. y) (n_c b +. nofZ 1) (c_sym b) (c_cross b) (c_sym_cross b) (c_avg b)
           else b in
  let set b sym cross sym_cross avg := Sums (c_a b) (n_a b) (c_b b) (n_b b) (c_c b) (n_c b) sym cross sym_cross avg in
  let b := if around nhalf level t then set b (c_sym b ++ [y]) (c_cross b) (c_sym_cross b) (c_avg b) else b in
  let b := if around (nofZ 0) cross t then set b (c_sym b) (c_cross b ++ [y]) (c_sym_cross b) (c_avg b) else b in
  let b := if around nhalf level t then set b (c_sym b) (c_cross b) (c_sym_cross b ++ [y]) (c_avg b) else b in
  if within (nofZ 0) (nofZ 1) t then set b (c_sym b) (c_cross b) (c_sym_cross b) (c_avg b ++ [y]) else b.
Definition symbol_points_c (t0 waveform_y : list A) (i_width : Z) (t_sym : A) (s : symbol) : result (list (A * A)) :=
  let c_t := fst s /. t_sym in
  mapM (fun ii =>
    t <- cget t0 (Z.of_nat ii) ;;
    y <- cget waveform_y (snd s - i_width + Z.of_nat ii)%Z ;;
    Ok (t +. c_t, y)) (seq 0 (Z.to_nat (i_width * 2 + 1))).
Definition vertical_step_c (t0 waveform_y : list A) (i_width : Z) (t_delta t_sym y_half level_width cross_width : A)
           (v : vertical) (s : symbol) : result vertical :=
  ps <- symbol_points_c t0 waveform_y i_width t_sym s ;;
  let z := nofZ 0 in
  let b := fold_left (sum_point (abc_width level_width t_delta t_sym) level_width cross_width) ps
                     (Sums z z z z z z [] [] [] []) in
  Ok (file v (c_a b >. y_half *. n_a b) (c_b b >. y_half *. n_b b) (c_c b >. y_half *. n_c b)
           (c_sym b) (c_cross b) (c_sym_cross b) (c_avg b)).
Definition sample_vertical_c (waveform_y : list A) (symbols : list symbol)
           (t_delta t_sym y_half level_width cross_width : A) : result vertical :=
  i_width <- get_i_width trunc t_sym t_delta ;;
  t0 <- window_axis i_width t_sym t_delta ;;
  foldM (vertical_step_c t0 waveform_y i_width t_delta t_sym y_half level_width cross_width) no_vertical symbols.

(** _pam2_fb.py:203-212 -- the dictionary of times. *)
Record horizontal := Horizontal {
  h_rise_lower : list A; h_rise_upper : list A; h_rise_half : list A;
  h_fall_lower : list A; h_fall_upper : list A; h_fall_half : list A;
  h_left : list A; h_right : list A }.
Definition no_horizontal : horizontal := Horizontal [] [] [] [] [] [] [] [].

(** _pam2_fb.py:221-228 -- the crossing window. *)
Definition cross_point (y_cross height : A) (h : horizontal) (p : A * A) : horizontal :=
  let '(t, y) := p in
  if around y_cross height y then
    if within (neg nhalf) nhalf t then
      Horizontal (h_rise_lower h) (h_rise_upper h) (h_rise_half h) (h_fall_lower h) (h_fall_upper h) (h_fall_half h)
                 (h_left h ++ [t]) (h_right h)
    else if (nhalf <. t) && (t <=. one +. nhalf) then
      Horizontal (h_rise_lower h) (h_rise_upper h) (h_rise_half h) (h_fall_lower h) (h_fall_upper h) (h_fall_half h)
                 (h_left h) (h_right h ++ [t])
    else h
  else h.
(** _pam2_fb.py:249-265 -- the lower, upper and middle windows of an edge. *)
Definition edge_point (lower upper height : A) (e : Z) (h : horizontal) (p : A * A) : horizontal :=
  let '(t, y) := p in
  let h := if around lower height y then
             if (e =? 1)%Z
             then Horizontal (h_rise_lower h ++ [t]) (h_rise_upper h) (h_rise_half h) (h_fall_lower h) (h_fall_upper h) (h_fall_half h) (h_left h) (h_right h)
             else Horizontal (h_rise_lower h) (h_rise_upper h) (h_rise_half h) (h_fall_lower h ++ [t]) (h_fall_upper h) (h_fall_half h) (h_left h) (h_right h)
           else h in
  let h := if around upper height y then
             if (e =? 1)%Z
             then Horizontal (h_rise_lower h) (h_rise_upper h ++ [t]) (h_rise_half h) (h_fall_lower h) (h_fall_upper h) (h_fall_half h) (h_left h) (h_right h)
             else Horizontal (h_rise_lower h) (h_rise_upper h) (h_rise_half h) (h_fall_lower h) (h_fall_upper h ++ [t]) (h_fall_half h) (h_left h) (h_right h)
           else h in
  if around nhalf height y then
    if (e =? 1)%Z
    then Horizontal (h_rise_lower h) (h_rise_upper h) (h_rise_half h ++ [t]) (h_fall_lower h) (h_fall_upper h) (h_fall_half h) (h_left h) (h_right h)
    else Horizontal (h_rise_lower h) (h_rise_upper h) (h_rise_half h) (h_fall_lower h) (h_fall_upper h) (h_fall_half h ++ [t]) (h_left h) (h_right h)
  else h.

(** np.argmin and np.argmax: first index of the extreme value (no NaN). *)
Fixpoint arg_from (better : A -> A -> bool) (l : list A) (i best_i : nat) (best : A) : nat :=
  match l with
  | [] => best_i
  | x :: l => if better x best then arg_from better l (S i) i x else arg_from better l (S i) best_i best
  end.
Definition argbest (better : A -> A -> bool) (l : list A) : result nat :=
  match l with [] => Err ValueError | x :: l => Ok (arg_from better l 1 0 x) end.
Definition argmin := argbest (fun x b => x <. b).
Definition argmax := argbest (fun x b => x >. b).

(** _pam2_fb.py:145-265 [sample_horizontal].  int(n * 1 / 4) is floor for n >= 0.
    The [while] loop is a fold over ii .. ii_stop. *)
Definition horizontal_step (t0 waveform_y : list A) (i_width : Z) (t_sym y_cross height lower upper : A)
           (h : horizontal) (se : symbol * Z) : result horizontal :=
  let '(s, e) := se in
  let n := (i_width * 2 + 1)%Z in
  let offset := (n / 4)%Z in
  ps <- symbol_points t0 waveform_y i_width t_sym s ;;
  let h := fold_left (cross_point y_cross height) ps h in
  if (e =? 0)%Z then Ok h
  else
    let y_front := pyslice waveform_y (snd s - i_width) (snd s + 1) in
    let y_center := pyslice waveform_y (snd s - i_width + offset) (snd s + offset + 1) in
    ii <- (if (e =? 1)%Z then argmin y_front else argmax y_front) ;;
    i_c <- (if (e =? 1)%Z then argmax y_center else argmin y_center) ;;
    let ii_stop := (Z.to_nat offset + i_c)%nat in
    ps <- mapM (fun ii =>
            t <- get t0 ii ;;
            y <- getz waveform_y (snd s - i_width + Z.of_nat ii)%Z ;;
            Ok (t +. fst s /. t_sym, y)) (seq ii (S ii_stop - ii)) ;;
    Ok (fold_left (edge_point lower upper height e) ps h).
(** [edge_dir[i]] is read for every symbol: IndexError if there are too few. *)
Definition with_edges (symbols : list (@symbol A)) (edge_dir : list Z) : list (symbol * Z) := combine symbols edge_dir.
Definition sample_horizontal (waveform_y : list A) (symbols : list symbol) (edge_dir : list Z)
           (t_delta t_sym y_zero y_ua y_cross hist_height edge_lower edge_upper : A) : result horizontal :=
  i_width <- get_i_width trunc t_sym t_delta ;;
  t0 <- window_axis i_width t_sym t_delta ;;
  let waveform_y := normalise_y waveform_y y_zero y_ua in
  let y_cross := (y_cross -. y_zero) /. y_ua in
  h <- foldM (horizontal_step t0 waveform_y i_width t_sym y_cross hist_height edge_lower edge_upper)
             no_horizontal (with_edges symbols edge_dir) ;;
  if (length edge_dir <? length symbols)%nat then Err IndexError else Ok h.

(** _pam2.pyx:177-292 [sample_horizontal_c]: one pass, an edge is sampled up to
    t = 0.5 instead of between its extremes. *)
Definition both_point (y_cross lower upper height : A) (e : Z) (h : horizontal) (p : A * A) : horizontal :=
  let h := cross_point y_cross height h p in
  if (e =? 0)%Z || (nhalf <. fst p) then h else edge_point lower upper height e h p.
Definition horizontal_step_c (t0 waveform_y : list A) (i_width : Z) (t_sym y_cross height lower upper : A)
           (h : horizontal) (se : symbol * Z) : result horizontal :=
  ps <- symbol_points_c t0 waveform_y i_width t_sym (fst se) ;;
  Ok (fold_left (both_point y_cross lower upper height (snd se)) ps h).
(** An edge list shorter than the symbols is an unchecked read. *)
Definition sample_horizontal_c (waveform_y : list A) (symbols : list symbol) (edge_dir : list Z)
           (t_delta t_sym y_zero y_ua y_cross hist_height edge_lower edge_upper : A) : result horizontal :=
  i_width <- get_i_width trunc t_sym t_delta ;;
  t0 <- window_axis i_width t_sym t_delta ;;
  let waveform_y := normalise_y waveform_y y_zero y_ua in
  let y_cross := (y_cross -. y_zero) /. y_ua in
  h <- foldM (horizontal_step_c t0 waveform_y i_width t_sym y_cross hist_height edge_lower edge_upper)
             no_horizontal (with_edges symbols edge_dir) ;;
  if (length edge_dir <? length symbols)%nat then Err UndefinedBehaviour else Ok h.

(** pam2.py:393-412 -- samples of all waveforms together. *)
Definition merge (v o : vertical) : vertical :=
  Vertical (v_0 v ++ v_0 o) (v_1 v ++ v_1 o) (v_cross v ++ v_cross o) (v_0_cross v ++ v_0_cross o)
           (v_1_cross v ++ v_1_cross o) (v_avg v ++ v_avg o)
           (fun q => (v_transitions v q + v_transitions o q)%Z) [].
Definition measure_vertical (t_delta t_sym y_half level_width cross_width : A) (waves : list (list A * list symbol))
  : result (vertical * list (list Z)) :=
  foldM (fun st w =>
    o <- sample_vertical (fst w) (snd w) t_delta t_sym y_half level_width cross_width ;;
    Ok (merge (fst st) o, snd st ++ [v_edge_dir o])) (no_vertical, []) waves.
(** pam2.py:464-494 -- the times of all waveforms. *)
Definition hmerge (h o : horizontal) : horizontal :=
  Horizontal (h_rise_lower h ++ h_rise_lower o) (h_rise_upper h ++ h_rise_upper o) (h_rise_half h ++ h_rise_half o)
    (h_fall_lower h ++ h_fall_lower o) (h_fall_upper h ++ h_fall_upper o) (h_fall_half h ++ h_fall_half o)
    (h_left h ++ h_left o) (h_right h ++ h_right o).
Definition measure_horizontal (t_delta t_sym y_zero y_ua y_cross hist_height edge_lower edge_upper : A)
  (waves : list (list A * list symbol * list Z)) : result horizontal :=
  foldM (fun h w =>
    let '(y, symbols, dirs) := w in
    o <- sample_horizontal y symbols dirs t_delta t_sym y_zero y_ua y_cross hist_height edge_lower edge_upper ;;
    Ok (hmerge h o)) no_horizontal waves.
End Pam2.

(** pam2.py:750-782 [get_bit_stream]; [calculated] is [_calculated], the edge
    directions are None when measuring was skipped. *)
Fixpoint nrzl (state : Z) (edge_dir : list Z) : list Z :=
  match edge_dir with
  | [] => []
  | e :: l => let state := if (e =? 1)%Z then 1%Z else if (e =? -1)%Z then 0%Z else state in
              state :: nrzl state l
  end.
Definition bits_of (is_nrzm : bool) (edge_dir : list Z) : list Z :=
  if is_nrzm then map Z.abs edge_dir
  else
    let state := match filter (fun b => negb (b =? 0)%Z) edge_dir with
                 | [] => 0%Z
                 | b :: _ => if (b =? 1)%Z then 0%Z else 1%Z
                 end in
    nrzl state edge_dir.
Definition get_bit_stream (calculated : bool) (edge_dir : option (list (list Z))) (is_nrzm : bool)
  : result (list (list Z)) :=
  if negb calculated then Err RuntimeError
  else match edge_dir with
       | None => Err TypeError
       | Some l => Ok (map (bits_of is_nrzm) l)
       end.

(** ** Derived measures, over the reals *)
Section Measures.
Local Open Scope R_scope.
(** NaN results (no samples) are None; they propagate. *)
Definition lift2 (f : uvalue -> operand -> uvalue) (a b : option uvalue) : option uvalue :=
  match a, b with Some a, Some b => Some (f a (OU b)) | _, _ => None end.
Definition lift1 (f : uvalue -> operand -> uvalue) (a : option uvalue) (b : uvalue -> R) : option uvalue :=
  match a with Some a => Some (f a (ON (b a))) | None => None end.
Definition both (f : uvalue -> uvalue -> uvalue) (a b : option uvalue) : option uvalue :=
  match a, b with Some a, Some b => Some (f a b) | _, _ => None end.

(** pam2.py:421-449. *)
Record measures_y := MeasuresY {
  m_y_0 : option uvalue; m_y_1 : option uvalue; m_y_cross : option uvalue; m_y_0_cross : option uvalue;
  m_y_1_cross : option uvalue; m_y_avg : option uvalue;
  m_amp : option uvalue; m_height : option uvalue; m_height_r : option uvalue; m_snr : option uvalue;
  m_y_cross_r : option uvalue; m_extinction_ratio : option uvalue; m_oma_cross : option uvalue; m_vecp : option uvalue }.
(** [percentile] is np.percentile with method median_unbiased. *)
Definition measure_y (percentile : list R -> R -> R) (noise_floor : R) (v : @vertical R) : measures_y :=
  let y_0 := usamples (v_0 v) in let y_1 := usamples (v_1 v) in let y_cross := usamples (v_cross v) in
  let y_0_cross := usamples (v_0_cross v) in let y_1_cross := usamples (v_1_cross v) in
  let amp := lift2 usub y_1 y_0 in
  let height := lift2 usub (lift1 usub y_1 (fun y => 3 * stddev y)) (lift1 uadd y_0 (fun y => 3 * stddev y)) in
  let snr := match amp, y_1, y_0 with
             | Some amp, Some y_1, Some y_0 => Some (udiv amp (ON (stddev y_1 + stddev y_0)))
             | _, _, _ => None
             end in
  let oma_cross := lift2 usub y_1_cross y_0_cross in
  let vecp := match v_0 v, v_1 v with
              | [], _ | _, [] => None
              | s0, s1 =>
                  let a_0 := percentile s1 (5 / 100) - percentile s0 (9995 / 100) in
                  match oma_cross with
                  | Some oma => match ulog10 (udiv oma (ON a_0)) with
                                | Some l => Some (umul l (ON 10))
                                | None => None
                                end
                  | None => None
                  end
              end in
  MeasuresY y_0 y_1 y_cross y_0_cross y_1_cross (usamples (v_avg v))
    amp height (lift2 udiv height amp) snr (lift2 udiv (lift2 usub y_cross y_0) amp)
    (lift2 udiv (lift1 usub y_1 (fun _ => noise_floor)) (lift1 usub y_0 (fun _ => noise_floor)))
    oma_cross vecp.

(** pam2.py:451-459 -- levels after measuring; manual levels are kept. *)
Definition update_levels (y_0 y_1 y_th : option R) (m0 amp y_zero y_half : R) : R * R * R :=
  let y_zero := match y_0 with None => m0 | Some _ => y_zero end in
  let y_ua := match y_1 with None => amp | Some y => y - y_zero end in
  let y_half := match y_th with None => y_ua / 2 + y_zero | Some _ => y_half end in
  (y_zero, y_ua, y_half).

(** pam2.py:494-541. *)
Record measures_t := MeasuresT {
  m_t_sym : option uvalue; m_t_0 : option uvalue; m_t_1 : option uvalue; m_t_0_start : option uvalue; m_t_1_start : option uvalue;
  m_t_rise : option uvalue; m_t_fall : option uvalue; m_t_rise_start : option uvalue; m_t_fall_start : option uvalue; m_t_cross : option uvalue;
  m_f_sym : option uvalue; m_width : option uvalue; m_width_r : option uvalue; m_dcd : option uvalue; m_dcd_r : option uvalue;
  m_jitter_pp : option R; m_jitter_rms : option R }.
(** ndarray.ptp() of a nonempty array. *)
Definition ptp (l : list R) : option R :=
  match l with [] => None | x :: l => Some (fold_left Rmax l x - fold_left Rmin l x) end.
Definition measure_t (t_sym : R) (h : @horizontal R) : measures_t :=
  let scale := map (fun t => t * t_sym) in
  let rise_lower := usamples (scale (h_rise_lower h)) in let rise_upper := usamples (scale (h_rise_upper h)) in
  let rise_half := usamples (scale (h_rise_half h)) in
  let fall_lower := usamples (scale (h_fall_lower h)) in let fall_upper := usamples (scale (h_fall_upper h)) in
  let fall_half := usamples (scale (h_fall_half h)) in
  let left_ := usamples (scale (h_left h)) in let right_ := usamples (scale (h_right h)) in
  let m_sym := lift2 usub right_ left_ in
  let t_0 := lift1 uadd (lift2 usub rise_half fall_half) (fun _ => t_sym) in
  let t_1 := lift1 uadd (lift2 usub fall_half rise_half) (fun _ => t_sym) in
  let width := lift2 usub (lift1 usub right_ (fun u => 3 * stddev u)) (lift1 uadd left_ (fun u => 3 * stddev u)) in
  let dcd := lift1 udiv (lift2 usub t_1 t_0) (fun _ => 2) in
  MeasuresT m_sym t_0 t_1 fall_half rise_half (lift2 usub rise_upper rise_lower) (lift2 usub fall_lower fall_upper)
    rise_lower fall_upper left_ (lift2 udiv (Some (UV 1 0)) m_sym) width (lift2 udiv width m_sym)
    dcd (lift2 udiv dcd m_sym) (ptp (scale (h_left h)))
    (match left_ with Some u => Some (stddev u) | None => None end).
End Measures.
