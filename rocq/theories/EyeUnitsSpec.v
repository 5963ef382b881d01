(** The same records, settings and results in other units of the values: v
    becomes a * v + b. *)
From Coq Require Import ZArith Reals Bool List.
Import ListNotations.
From Verif Require Import Base Num StatsModel MaskModel EyeModel Pam2Model EyeRunModel EyeLevelsProps.
Local Open Scope R_scope.

(** Waveforms: of the last two indices the first says time (0) or value (1). *)
Definition rescaled (a b : R) (w : ndarray) : ndarray :=
  NdArray (shape w) (fun i => if (nth (length (shape w) - 2) i 0 =? 1)%nat then a * at_ w i + b else at_ w i).
(** Masks: heights in real units change, heights relative to the eye stay. *)
Definition height (a : R) (m : mixed R) : mixed R := match m with Plain v => Plain v | RealUnits v => RealUnits (a * v) end.
Definition rescaled_mask (a : R) (m : mask R) : mask R :=
  match m with
  | MHexagon h => MHexagon (Hexagon (hx1 h) (hx2 h) (height a (hy1 h)) (height a (hyl h)) (height a (hyu h)) (hzero h) (hconv h))
  | MDecagon d => MDecagon (Decagon (dx1 d) (dx2 d) (dx3 d) (height a (dy1 d)) (height a (dy2 d)) (height a (dyl d)) (height a (dyu d)) (dzero d) (dconv d))
  end.
(** Configurations: levels change with the units, hysteresis as a height. *)
Definition rescaled_config (a b : R) (cfg : option (option config)) : option (option config) :=
  match cfg with
  | None => Some (Some (in_units a b default_config))
  | Some None => Some None
  | Some (Some c) => Some (Some (in_units a b c))
  end.
(** The same changes of configuration, one in each units. *)
Inductive same_call (a b : R) : call -> call -> Prop :=
| same_calculate d : same_call a b (Calculate d) (Calculate d)
| same_configure g g' : (forall c, g' (in_units a b c) = in_units a b (g c)) -> same_call a b (Configure g) (Configure g').

(** Results: a level is moved, a difference of levels (b = 0) is multiplied. *)
Definition moved (a b : R) (u : uvalue) : uvalue := UV (a * value u + b) (a * stddev u).
Definition y_in_units (a b : R) (m : measures_y) : measures_y :=
  let level := option_map (moved a b) in
  let difference := option_map (moved a 0) in
  MeasuresY (level (m_y_0 m)) (level (m_y_1 m)) (level (m_y_cross m)) (level (m_y_0_cross m)) (level (m_y_1_cross m)) (level (m_y_avg m))
    (difference (m_amp m)) (difference (m_height m)) (m_height_r m) (m_snr m) (m_y_cross_r m) (m_extinction_ratio m)
    (difference (m_oma_cross m)) (m_vecp m).
(** Everything but the levels and their differences stays. *)
Definition measures_in_units (a b : R) (m : measures) : measures :=
  Measures (n_sym m) (n_samples m) (transition_dist m) (option_map (y_in_units a b) (in_y m)) (in_t m) (mask_margin m) (n_sym_bad m) (bathtub_curve m).
Definition mapped {X Y} (g : X -> Y) (r : result X) : result Y := match r with Ok x => Ok (g x) | Err x => Err x end.

(** A percentile of measured values is in the units of the values. *)
Definition percentile_in_units (a b : R) (percentile : list R -> R -> R) : Prop :=
  forall l q, l <> [] -> percentile (map (fun v => a * v + b) l) q = a * percentile l q + b.
(** numpy.percentile, method median_unbiased: q percent of the way through the
    sorted values, between the two nearest. *)
Definition median_unbiased (l : list R) (q : R) : R :=
  let s := sorted l in
  let last := IZR (Z.of_nat (length s) - 1) in
  let at_ := INR (length s) * (q / 100) + (1 / 3 + q / 100 * (1 / 3)) - 1 in
  let at_ := Rmax 0 (Rmin last at_) in
  let i := Z.to_nat (Int_part at_) in
  let lo := nth i s 0 in
  let hi := nth (Nat.min (S i) (length s - 1)) s 0 in
  lo + (hi - lo) * (at_ - INR i).

(** The object in other units: what it was given, found and reports. *)
Definition levels_in_units (a b : R) (l : levels) : levels :=
  Levels (a * l_zero l + b) (a * l_ua l) (a * l_half l + b) (a * l_rising l + b) (a * l_falling l + b) (l_low_snr l).
Definition eye_in_units (a b : R) (e : eye) : eye :=
  Eye (rescaled a b (e_waveforms e)) (option_map (rescaled a b) (e_clocks e)) (option_map (rescaled_mask a) (e_mask e)) (e_resolution e) (e_t_delta e)
    (in_units a b (e_config e)) (option_map (levels_in_units a b) (e_levels e)) (e_clock_edges e) (e_ties e) (e_t_sym e) (e_centers e) (e_edge_dir e)
    (option_map (measures_in_units a b) (e_measures e)) (e_heatmap e) (e_calculated e) (e_converted e) (e_offenders e) (e_hits e) (e_images e).
