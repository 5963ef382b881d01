(** The same records, settings and results with another unit and origin of
    time: t becomes s * t + o, a duration d becomes s * d. *)
From Coq Require Import ZArith Reals Bool List.
Import ListNotations.
From Verif Require Import Base Num StatsModel MaskModel EyeModel Pam2Model EyeRunModel EyeUnitsSpec.
Local Open Scope R_scope.

(** Waveforms: of the last two indices the first says time (0) or value (1). *)
Definition retimed (s o : R) (w : ndarray) : ndarray :=
  NdArray (shape w) (fun i => if (nth (length (shape w) - 2) i 0 =? 0)%nat then s * at_ w i + o else at_ w i).
Definition retimed_edges (s o : R) (l : edges_arg) : edges_arg :=
  match l with NotAList => NotAList | ListOf l => ListOf (map (fun x => (fst x, map (fun t => s * t + o) (snd x))) l) end.
(** Masks: widths in real units change, widths relative to the symbol stay. *)
Definition retimed_mask (s : R) (m : mask R) : mask R :=
  match m with
  | MHexagon h => MHexagon (Hexagon (height s (hx1 h)) (height s (hx2 h)) (hy1 h) (hyl h) (hyu h) (hzero h) (hconv h))
  | MDecagon d => MDecagon (Decagon (height s (dx1 d)) (height s (dx2 d)) (height s (dx3 d)) (dy1 d) (dy2 d) (dyl d) (dyu d) (dzero d) (dconv d))
  end.
(** A clock recovery that works in the other time: clock edges are times,
    interval errors durations. *)
Definition retimed_cdr (s o : R) (c : cdr) : cdr :=
  fun edges => mapped (fun r => (map (fun t => s * t + o) (fst r), map (fun d => s * d) (snd r))) (c (map (fun t => (t - o) / s) edges)).
Definition in_time (s o : R) (c : config) : config :=
  Config (c_hysteresis c) (c_hysteresis_ua c) (c_levels_n_max c) (c_polarity c) (option_map (retimed_cdr s o) (c_cdr c)) (s * c_fallback_period c)
    (c_skip_measures c) (c_level_width c) (c_cross_width c) (c_time_height c) (c_edge_lower c) (c_edge_upper c)
    (c_noise_floor c) (c_point_cloud c) (c_y_0 c) (c_y_1 c) (c_y_th c).
Definition retimed_config (s o : R) (cfg : option (option config)) : option (option config) :=
  match cfg with
  | None => Some (Some (in_time s o default_config))
  | Some None => Some None
  | Some (Some c) => Some (Some (in_time s o c))
  end.
Inductive same_call_in_time (s o : R) : call -> call -> Prop :=
| retimed_calculate d : same_call_in_time s o (Calculate d) (Calculate d)
| retimed_configure g g' : (forall c, g' (in_time s o c) = in_time s o (g c)) -> same_call_in_time s o (Configure g) (Configure g').

(** Results: durations are multiplied, the symbol rate divided, the rest stays. *)
Definition t_in_time (s : R) (m : measures_t) : measures_t :=
  let duration := option_map (moved s 0) in
  MeasuresT (duration (m_t_sym m)) (duration (m_t_0 m)) (duration (m_t_1 m)) (duration (m_t_0_start m)) (duration (m_t_1_start m))
    (duration (m_t_rise m)) (duration (m_t_fall m)) (duration (m_t_rise_start m)) (duration (m_t_fall_start m)) (duration (m_t_cross m))
    (option_map (moved (/ s) 0) (m_f_sym m)) (duration (m_width m)) (m_width_r m) (duration (m_dcd m)) (m_dcd_r m)
    (option_map (Rmult s) (m_jitter_pp m)) (option_map (Rmult s) (m_jitter_rms m)).
Definition measures_in_time (s : R) (m : measures) : measures :=
  Measures (n_sym m) (n_samples m) (transition_dist m) (in_y m) (option_map (t_in_time s) (in_t m)) (mask_margin m) (n_sym_bad m) (bathtub_curve m).
Definition edges_in_time (s o : R) : list (list R) -> list (list R) := map (map (fun t => s * t + o)).

(** The object in the other time. *)
Definition eye_in_time (s o : R) (e : eye) : eye :=
  Eye (retimed s o (e_waveforms e)) (option_map (retimed s o) (e_clocks e)) (option_map (retimed_mask s) (e_mask e)) (e_resolution e) (s * e_t_delta e)
    (in_time s o (e_config e)) (e_levels e) (option_map (edges_in_time s o) (e_clock_edges e)) (option_map (map (map (Rmult s))) (e_ties e))
    (option_map (Rmult s) (e_t_sym e)) (option_map (map (map (fun c => (s * fst c, snd c)))) (e_centers e)) (e_edge_dir e)
    (option_map (measures_in_time s) (e_measures e)) (e_heatmap e) (e_calculated e) (e_converted e) (e_offenders e) (e_hits e) (e_images e).
