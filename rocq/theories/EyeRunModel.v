(** Model of a two-level eye diagram object from construction to results:
    hardware_tools/measurement/eyediagram/eyediagram.py EyeDiagram and pam2.py
    PAM2, over the reals.  The parts modelled elsewhere (edge detection, clock
    recovery, symbol sampling, measuring, mask test, stacking) are used here as
    the object uses them.  Printing is not modelled.  Of the debug plots only
    the computations that can raise or that change results are. *)
From Coq Require Import ZArith Reals Bool List.
Import ListNotations.
From Verif Require Import Base Num RBool LinesModel StatsModel MaskModel EyeModel EyeSpec Pam2Model MathModel EyeImageModel.
From Verif Require CdrModel.
Local Open Scope R_scope.
Local Open Scope result_scope.

(** A numpy array of floats. *)
Record ndarray := NdArray { shape : list nat; at_ : list nat -> R }.
Definition dim (a : ndarray) (k : nat) : nat := nth k (shape a) O.
(** a[i, k] as a list *)
Definition row (a : ndarray) (i k : nat) : list R := map (fun j => at_ a [i; k; j]) (seq 0 (dim a 2)).
(** Times and values of all waveforms. *)
Definition waves (a : ndarray) : list (list R * list R) := map (fun i => (row a i 0, row a i 1)) (seq 0 (dim a 0)).

Inductive polarity := RISING | FALLING | BOTH.
(** A CDR object by its run method; it is copied before each use. *)
Definition cdr := list R -> result (list R * list R).
(** pam2.py:132-156, eyediagram.py:318-339; noise_floor by its value. *)
Record config := Config {
  c_hysteresis : option R; c_hysteresis_ua : R; c_levels_n_max : option R;
  c_polarity : polarity; c_cdr : option cdr; c_fallback_period : R;
  c_skip_measures : bool; c_level_width : R; c_cross_width : R; c_time_height : R;
  c_edge_lower : R; c_edge_upper : R; c_noise_floor : R; c_point_cloud : bool;
  c_y_0 : option R; c_y_1 : option R; c_y_th : option R }.
Definition with_cdr (c : config) (x : cdr) : config :=
  Config (c_hysteresis c) (c_hysteresis_ua c) (c_levels_n_max c) (c_polarity c) (Some x) (c_fallback_period c)
    (c_skip_measures c) (c_level_width c) (c_cross_width c) (c_time_height c) (c_edge_lower c) (c_edge_upper c)
    (c_noise_floor c) (c_point_cloud c) (c_y_0 c) (c_y_1 c) (c_y_th c).
Definition default_config : config :=
  Config None (1 / 10) (Some 10000) RISING None (1 / 10000000) false (2 / 10) (1 / 10) (5 / 100) (2 / 10) (8 / 10) 0 false None None None.

(** _y_zero, _y_ua, _y_half, _y_rising, _y_falling, _low_snr *)
Record levels := Levels { l_zero : R; l_ua : R; l_half : R; l_rising : R; l_falling : R; l_low_snr : bool }.
(** pam2.py:88-129 MeasuresPAM2 without images; not measured is None. *)
Record measures := Measures {
  n_sym : Z; n_samples : Z; transition_dist : seq3 -> Z;
  in_y : option measures_y; in_t : option measures_t;
  mask_margin : option R; n_sym_bad : option nat;
  bathtub_curve : option (list (list R * list R)) }.

(** The object.  Ties None is the Python None, [t_sym] None is None or nan.
    [e_converted], [e_offenders] and [e_hits] are _mask_converted, _offenders and
    _hits; [e_images] are the images of the measures. *)
Record eye := Eye {
  e_waveforms : ndarray; e_clocks : option ndarray; e_mask : option (mask R); e_resolution : Z; e_t_delta : R;
  e_config : config;
  e_levels : option levels; e_clock_edges : option (list (list R)); e_ties : option (list (list R)); e_t_sym : option R;
  e_centers : option (list (list (R * Z))); e_edge_dir : option (list (list Z)); e_measures : option measures;
  e_heatmap : Z -> Z -> R; e_calculated : bool;
  e_converted : option (mask R); e_offenders : list (list nat); e_hits : list (R * R); e_images : option images }.
Definition set_config c e := Eye (e_waveforms e) (e_clocks e) (e_mask e) (e_resolution e) (e_t_delta e) c (e_levels e) (e_clock_edges e) (e_ties e) (e_t_sym e) (e_centers e) (e_edge_dir e) (e_measures e) (e_heatmap e) (e_calculated e) (e_converted e) (e_offenders e) (e_hits e) (e_images e).
Definition set_levels l e := Eye (e_waveforms e) (e_clocks e) (e_mask e) (e_resolution e) (e_t_delta e) (e_config e) (Some l) (e_clock_edges e) (e_ties e) (e_t_sym e) (e_centers e) (e_edge_dir e) (e_measures e) (e_heatmap e) (e_calculated e) (e_converted e) (e_offenders e) (e_hits e) (e_images e).
Definition set_clock edges ties e := Eye (e_waveforms e) (e_clocks e) (e_mask e) (e_resolution e) (e_t_delta e) (e_config e) (e_levels e) (Some edges) (Some ties) (e_t_sym e) (e_centers e) (e_edge_dir e) (e_measures e) (e_heatmap e) (e_calculated e) (e_converted e) (e_offenders e) (e_hits e) (e_images e).
Definition set_t_sym t e := Eye (e_waveforms e) (e_clocks e) (e_mask e) (e_resolution e) (e_t_delta e) (e_config e) (e_levels e) (e_clock_edges e) (e_ties e) t (e_centers e) (e_edge_dir e) (e_measures e) (e_heatmap e) (e_calculated e) (e_converted e) (e_offenders e) (e_hits e) (e_images e).
Definition set_centers c e := Eye (e_waveforms e) (e_clocks e) (e_mask e) (e_resolution e) (e_t_delta e) (e_config e) (e_levels e) (e_clock_edges e) (e_ties e) (e_t_sym e) (Some c) (e_edge_dir e) (e_measures e) (e_heatmap e) (e_calculated e) (e_converted e) (e_offenders e) (e_hits e) (e_images e).
Definition set_edge_dir d e := Eye (e_waveforms e) (e_clocks e) (e_mask e) (e_resolution e) (e_t_delta e) (e_config e) (e_levels e) (e_clock_edges e) (e_ties e) (e_t_sym e) (e_centers e) (Some d) (e_measures e) (e_heatmap e) (e_calculated e) (e_converted e) (e_offenders e) (e_hits e) (e_images e).
(** A new object of measures has no images yet. *)
Definition set_measures m e := Eye (e_waveforms e) (e_clocks e) (e_mask e) (e_resolution e) (e_t_delta e) (e_config e) (e_levels e) (e_clock_edges e) (e_ties e) (e_t_sym e) (e_centers e) (e_edge_dir e) (Some m) (e_heatmap e) (e_calculated e) (e_converted e) (e_offenders e) (e_hits e) None.
Definition set_heatmap h e := Eye (e_waveforms e) (e_clocks e) (e_mask e) (e_resolution e) (e_t_delta e) (e_config e) (e_levels e) (e_clock_edges e) (e_ties e) (e_t_sym e) (e_centers e) (e_edge_dir e) (e_measures e) h (e_calculated e) (e_converted e) (e_offenders e) (e_hits e) (e_images e).
Definition set_calculated e := Eye (e_waveforms e) (e_clocks e) (e_mask e) (e_resolution e) (e_t_delta e) (e_config e) (e_levels e) (e_clock_edges e) (e_ties e) (e_t_sym e) (e_centers e) (e_edge_dir e) (e_measures e) (e_heatmap e) true (e_converted e) (e_offenders e) (e_hits e) (e_images e).
Definition set_converted m e := Eye (e_waveforms e) (e_clocks e) (e_mask e) (e_resolution e) (e_t_delta e) (e_config e) (e_levels e) (e_clock_edges e) (e_ties e) (e_t_sym e) (e_centers e) (e_edge_dir e) (e_measures e) (e_heatmap e) (e_calculated e) (Some m) (e_offenders e) (e_hits e) (e_images e).
Definition set_hits o h e := Eye (e_waveforms e) (e_clocks e) (e_mask e) (e_resolution e) (e_t_delta e) (e_config e) (e_levels e) (e_clock_edges e) (e_ties e) (e_t_sym e) (e_centers e) (e_edge_dir e) (e_measures e) (e_heatmap e) (e_calculated e) (e_converted e) o h (e_images e).
Definition set_images i e := Eye (e_waveforms e) (e_clocks e) (e_mask e) (e_resolution e) (e_t_delta e) (e_config e) (e_levels e) (e_clock_edges e) (e_ties e) (e_t_sym e) (e_centers e) (e_edge_dir e) (e_measures e) (e_heatmap e) (e_calculated e) (e_converted e) (e_offenders e) (e_hits e) (Some i).

(** Methods: they may raise and what they changed before stays. *)
Definition act (A : Type) := eye -> result A * eye.
Definition aret {A} (x : A) : act A := fun e => (Ok x, e).
Definition araise {A} (x : exn) : act A := fun e => (Err x, e).
Definition abind {A B} (m : act A) (f : A -> act B) : act B :=
  fun e => match m e with (Ok x, e') => f x e' | (Err x, e') => (Err x, e') end.
Definition alift {A} (r : result A) : act A := fun e => (r, e).
Definition read {A} (f : eye -> A) : act A := fun e => (Ok (f e), e).
Definition update (f : eye -> eye) : act unit := fun e => (Ok tt, f e).
Declare Scope act_scope.
Notation "x <! m ;; f" := (abind m (fun x => f)) (at level 61, m at next level, right associativity) : act_scope.
Notation "m ;! f" := (abind m (fun _ => f)) (at level 61, right associativity) : act_scope.
Local Open Scope act_scope.
(** out = []; for x in l: out.append(f(x)) -- what was appended is there after
    an exception. *)
Fixpoint collect {X Y} (f : X -> result Y) (l : list X) : list Y * option exn :=
  match l with
  | [] => ([], None)
  | x :: l' => match f x with
               | Err e => ([], Some e)
               | Ok y => let '(ys, o) := collect f l' in (y :: ys, o)
               end
  end.
Definition outcome (o : option exn) : result unit := match o with Some e => Err e | None => Ok tt end.

(** ** Construction *)
Inductive edges_arg := NotAList | ListOf (l : list (bool * list R)).
(** eyediagram.py:391-394, 400-403 *)
Definition as_3d (a : ndarray) : result ndarray :=
  match length (shape a) with
  | 2%nat => Ok (NdArray (1%nat :: shape a) (fun i => at_ a (tl i)))
  | 3%nat => Ok a
  | _ => Err ValueError
  end.
(** eyediagram.py:364-449 EyeDiagram.__init__ and pam2.py:165-210.  In
    [clock_edges] each entry says whether it is a list (else another sequence).
    [config] None is the default; [Some None] another type.  A sample period of
    0/0 (one sample per waveform) is not modelled. *)
Definition construct (waveforms : ndarray) (clocks : option ndarray) (clock_edges : option edges_arg)
    (m : option (mask R)) (resolution : Z) (cfg : option (option config)) : result eye :=
  w <- as_3d waveforms ;;
  if negb (dim w 1 =? 2)%nat || (dim w 2 <? dim w 0)%nat then Err ValueError else
  c <- match clocks with
       | None => Ok None
       | Some c => c <- as_3d c ;;
                   if list_eq_dec Nat.eq_dec (shape c) (shape w) then Ok (Some c) else Err ValueError
       end ;;
  edges <- match clock_edges with
           | None => Ok None
           | Some NotAList => Err ValueError
           | Some (ListOf l) =>
               if negb (length l =? dim w 0)%nat then Err ValueError else
               first <- get l 0 ;;
               if negb (fst first) then Err ValueError else Ok (Some (map snd l))
           end ;;
  if (resolution <? 0)%Z then Err ValueError else
  if (dim w 0 =? 0)%nat then Err IndexError else
  if (dim w 2 =? 1)%nat then Err UndefinedBehaviour else
  let t_delta := (at_ w [0%nat; 0%nat; (dim w 2 - 1)%nat] - at_ w [0%nat; 0%nat; 0%nat]) / INR (dim w 2 - 1) in
  cf <- match cfg with
        | None => Ok default_config
        | Some (Some c) => Ok c
        | Some None => Err ValueError
        end ;;
  Ok (Eye w c m resolution t_delta cf None edges None None None None None (fun _ _ => 0) false None [[]] [] None).

Section Run.
(** sklearn's mixtures (gaussian.py:164-205) *)
Variable round6 : R -> R.
Variable fit : nat -> list R -> result (list (R * R * R)).
Variable aic : list (R * R * R) -> list R -> R.
(** The clock recovery built from fallback_period: cdr.CDR(period) *)
Variable new_cdr : R -> cdr.
(** numpy.percentile, method median_unbiased *)
Variable percentile : list R -> R -> R.
(** astype(np.int32) *)
Variable cast : R -> Z.
(** Bound on the rasteriser's loop *)
Variable fuel : nat.
(** Drawing, see EyeImageModel *)
Variable draw : drawing.

(** l[::k] *)
Definition every {X} (k : nat) (l : list X) : list X :=
  map snd (filter (fun p => (fst p mod k =? 0)%nat) (combine (seq 0 (length l)) l)).
(** pam2.py:805-850 _runner_levels: levels 0 and 1.  The deviation of no values
    is nan; fitting raises then. *)
Definition runner_levels (y : list R) (n_max : option R) : result (uvalue * uvalue) :=
  y <- match n_max with
       | None => Ok y
       | Some n_max =>
           ratio <- py_div (INR (length y)) n_max ;;
           let y := if Rltb 10 ratio then every (Nat.max 1 (Z.to_nat (truncR (ratio / 2)))) y else y in
           downsample Int_part (5 / 100) y n_max (Some 500%nat)
       end ;;
  y_min <- py_min y ;;
  y_max <- py_max y ;;
  let y_mid := (y_min + y_max) / 2 in
  let values_0 := filter (fun v => Rltb v y_mid) y in
  let values_1 := filter (fun v => Rltb y_mid v) y in
  let dev l := match usamples l with Some u => StatsModel.stddev u | None => 0 end in
  fit_0 <- fit_mix_samples round6 fit aic values_0 2 ;;
  fit_1 <- fit_mix_samples round6 fit aic values_1 2 ;;
  y_0 <- center fit_0 ;;
  y_1 <- center fit_1 ;;
  Ok (UV y_0 (dev values_0), UV y_1 (dev values_1)).
(** pam2.py:212-256 _step1_levels up to the plot.  [debug]: debug_plots given. *)
Definition find_levels (c : config) (y : list R) (debug : bool) : result levels :=
  auto <- (match c_y_0 c, c_y_1 c, debug with
           | Some _, Some _, false => Ok (UV 0 0, UV 0 0)
           | _, _, _ => runner_levels y (c_levels_n_max c)
           end) ;;
  let '(y_0, y_1) := auto in
  let y_0 := match c_y_0 c with Some v => UV v (StatsModel.stddev y_0) | None => y_0 end in
  let y_1 := match c_y_1 c with Some v => UV v (StatsModel.stddev y_1) | None => y_1 end in
  let hys := match c_hysteresis c with Some h => h | None => c_hysteresis_ua c * value (usub y_1 (OU y_0)) end in
  let half := match c_y_th c with Some h => h | None => value (udiv (uadd y_1 (OU y_0)) (ON 2)) end in
  let noise := StatsModel.stddev y_1 + StatsModel.stddev y_0 in
  Ok (Levels (value y_0) (value (usub y_1 (OU y_0))) half (half + hys / 2) (half - hys / 2)
        (if Reqb noise 0 then false else ult (udiv (usub y_1 (OU y_0)) (ON noise)) (ON 2))).
Definition step1_levels (debug : bool) : act unit :=
  e <! read (fun e => e) ;;
  l <! alift (find_levels (e_config e) (concat (map snd (waves (e_waveforms e)))) debug) ;;
  update (set_levels l).

(** pam2.py:785-802 _filter_edge_polarity *)
Definition filter_edge_polarity (edges : list R * list R) (p : polarity) : list R :=
  match p with
  | RISING => fst edges
  | FALLING => snd edges
  | BOTH => sorted (fst edges ++ snd edges)
  end.
(** lines.edges_np; an edge without crossing (nan) is not followed further *)
Definition finite_edges (l : list (option R)) : result (list R) :=
  mapM (fun o => match o with Some x => Ok x | None => Err UndefinedBehaviour end) l.
Definition selected_edges (l : levels) (p : polarity) (w : list R * list R) : result (list R) :=
  e <- edges_np (fst w) (snd w) (l_rising l) (l_half l) (l_falling l) ;;
  match p with
  | RISING => finite_edges (fst e)
  | FALLING => finite_edges (snd e)
  | BOTH => r <- finite_edges (fst e) ;; f <- finite_edges (snd e) ;; Ok (filter_edge_polarity (r, f) BOTH)
  end.
(** pam2.py:853-876 _runner_cdr *)
Definition runner_cdr (l : levels) (p : polarity) (c : cdr) (w : list R * list R) : result (list R * list R) :=
  e <- selected_edges l p w ;; c e.
(** pam2.py:300-327 of PAM2._step2_clock *)
Definition pam2_clock : act unit :=
  e <! read (fun e => e) ;;
  match e_clock_edges e, e_levels e with
  | Some _, _ => aret tt
  | None, None => araise AttributeError
  | None, Some l =>
      match e_clocks e with
      | Some clocks =>
          let '(edges, failed) := collect (selected_edges l (c_polarity (e_config e))) (waves clocks) in
          update (set_clock edges (map (fun _ => []) edges)) ;!
          alift (outcome failed)
      | None =>
          if l_low_snr l then aret tt else
          let c := match c_cdr (e_config e) with Some c => c | None => new_cdr (c_fallback_period (e_config e)) end in
          let '(r, failed) := collect (runner_cdr l (c_polarity (e_config e)) c) (waves (e_waveforms e)) in
          update (set_config (with_cdr (e_config e) c)) ;!
          update (set_clock (map fst r) (map snd r)) ;!
          alift (outcome failed)
      end
  end.
(** numpy.arange(start, stop, step); a zero step gives inf or nan elements *)
Definition arange (start stop step : R) : result (list R) :=
  if Reqb step 0 then Err ValueError
  else Ok (map (fun i => start + INR i * step) (seq 0 (Z.to_nat (ceil ((stop - start) / step))))).
(** eyediagram.py:547-557 fixed rate clock *)
Definition fallback_clock (period : R) (w : list R * list R) : result (list R) :=
  t0 <- get (fst w) 0 ;;
  t1 <- get (fst w) (length (fst w) - 1) ;;
  arange (t0 + period) t1 period.
(** eyediagram.py:559-569 two pass average; without periods it is nan *)
Definition symbol_period (clock_edges : list (list R)) : result (option R) :=
  match clock_edges with
  | [] => Err ValueError
  | _ =>
      let periods := concat (map CdrModel.diff clock_edges) in
      let kept := filter (fun p => Rltb p (10 * CdrModel.mean periods)) periods in
      Ok (match usamples kept with Some u => Some (value u) | None => None end)
  end.
(** eyediagram.py:531-605 EyeDiagram._step2_clock; the plot concatenates the
    ties, which are None when the clock edges were given. *)
Definition base_clock (debug : bool) : act unit :=
  e <! read (fun e => e) ;;
  match e_clock_edges e with
  | Some _ => aret tt
  | None =>
      let '(edges, failed) := collect (fallback_clock (c_fallback_period (e_config e))) (waves (e_waveforms e)) in
      update (set_clock edges (map (fun _ => []) edges)) ;!
      alift (outcome failed)
  end ;!
  e <! read (fun e => e) ;;
  t <! alift (match e_clock_edges e with Some l => symbol_period l | None => Err TypeError end) ;;
  update (set_t_sym t) ;!
  match debug, e_ties e with
  | true, None => araise TypeError
  | _, _ => aret tt
  end.
Definition step2_clock (debug : bool) : act unit := pam2_clock ;! base_clock debug.

(** eyediagram.py:607-642 _step3_sample; int(nan) raises; a zero sample period
    (inf) is not modelled. *)
Definition sample_all (t_sym t_delta : R) (clock_edges : list (list R)) (ws : list (list R * list R)) : result (list (list (R * Z))) :=
  mapM (fun p =>
    let '(i, w) := p in
    t_zero <- get (fst w) 0 ;;
    edges <- get clock_edges i ;;
    step3_sample int_of_float float_mod t_sym t_delta t_zero (Z.of_nat (length (fst w))) edges)
    (combine (seq 0 (length ws)) ws).
Definition step3_sample_ : act unit :=
  e <! read (fun e => e) ;;
  match e_t_sym e, e_clock_edges e with
  | Some t_sym, Some edges =>
      if Reqb (e_t_delta e) 0 then araise UndefinedBehaviour else
      c <! alift (sample_all t_sym (e_t_delta e) edges (waves (e_waveforms e))) ;;
      update (set_centers c)
  | None, _ => araise ValueError
  | _, None => araise TypeError
  end.

(** Number of symbols and of samples: pam2.py:352-356, 414-417 *)
Definition count_symbols (centers : list (list (R * Z))) : Z := Z.of_nat (length (concat centers)).
Definition count_samples (centers : list (list (R * Z))) (t_sym t_delta : R) : Z := truncR (IZR (count_symbols centers) * t_sym / t_delta).
(** pam2.py:348-551 PAM2._step4_measure.  Levels of nan (no samples at a level or
    crossing) are not followed further.  Of _sample_mask (eyediagram.py:758-793)
    the converted mask stays when the sampling then fails; offenders and hits
    found until then are not modelled, as they are never drawn. *)
Definition some_value (u : option uvalue) : result R := match u with Some u => Ok (value u) | None => Err UndefinedBehaviour end.
Definition step4_measure : act unit :=
  e <! read (fun e => e) ;;
  match e_t_sym e, e_levels e, e_centers e with
  | Some t_sym, Some l, Some centers =>
      let c := e_config e in
      let t_delta := e_t_delta e in
      let ys := map snd (waves (e_waveforms e)) in
      if c_skip_measures c then
        update (set_measures (Measures (count_symbols centers) (count_samples centers t_sym t_delta) (fun _ => 0%Z) None None None None None))
      else
        let '(vs, failed) := collect (fun w : list R * list (R * Z) =>
             sample_vertical int_of_float (fst w) (snd w) t_delta t_sym (l_half l) (c_level_width c) (c_cross_width c))
             (combine ys centers) in
        let dirs := map (fun v => v_edge_dir v) vs in
        update (set_edge_dir dirs) ;!
        alift (outcome failed) ;!
        let v := fold_left merge vs no_vertical in
        let my := measure_y percentile (c_noise_floor c) v in
        m0 <! alift (some_value (m_y_0 my)) ;;
        amp <! alift (some_value (m_amp my)) ;;
        let '(y_zero, y_ua, y_half) := update_levels (c_y_0 c) (c_y_1 c) (c_y_th c) m0 amp (l_zero l) (l_half l) in
        update (set_levels (Levels y_zero y_ua y_half (l_rising l) (l_falling l) (l_low_snr l))) ;!
        y_cross <! alift (some_value (m_y_cross my)) ;;
        h <! alift (measure_horizontal int_of_float t_delta t_sym y_zero y_ua y_cross (c_time_height c) (c_edge_lower c) (c_edge_upper c)
               (combine (combine ys centers) dirs)) ;;
        match e_mask e with
        | None => aret tt
        | Some m => mc <! alift (mask_convert m y_ua t_sym) ;; update (set_converted mc)
        end ;!
        mv <! alift (eye_sample_mask int_of_float (e_mask e) t_delta t_sym y_zero y_ua (combine ys centers)) ;;
        let '(offenders, hits, margin, bad) := mv in
        match e_mask e with None => aret tt | Some _ => update (set_hits offenders hits) end ;!
        curves <! alift (bathtub_curves int_of_float t_delta t_sym y_zero y_ua (combine ys centers) [1 / 2]) ;;
        update (set_measures (Measures (count_symbols centers) (count_samples centers t_sym t_delta) (v_transitions v)
          (Some my) (Some (measure_t t_sym h))
          (match e_mask e with Some _ => Some margin | None => None end)
          (match e_mask e with Some _ => Some bad | None => None end) (Some curves)))
  | _, _, _ => araise AttributeError
  end.

(** eyediagram.py:835-962 _step5_stack.  The heat map as it is while being drawn
    is not modelled. *)
Definition step5_stack : act unit :=
  e <! read (fun e => e) ;;
  match e_t_sym e, e_levels e, e_centers e, e_measures e with
  | Some t_sym, Some l, Some centers, Some m =>
      let ws := combine (map snd (waves (e_waveforms e))) centers in
      h <! alift (step5_heatmap int_of_float cast fuel (e_t_delta e) t_sym (l_zero l) (l_ua l) ws (e_resolution e) (c_point_cloud (e_config e)) (n_sym m)) ;;
      update (set_heatmap h) ;!
      i <! alift (draw_images draw cast (e_resolution e) h (c_edge_lower (e_config e)) (c_edge_upper (e_config e))
             (e_converted e) (mask_margin m) (e_hits e) (e_offenders e) (e_t_delta e) t_sym (l_zero l) (l_ua l) ws) ;;
      update (set_images i)
  | _, _, _, _ => araise AttributeError
  end.

(** eyediagram.py:451-510 calculate *)
Definition calculate (debug : bool) : act measures :=
  step1_levels debug ;!
  step2_clock debug ;!
  step3_sample_ ;!
  step4_measure ;!
  step5_stack ;!
  update set_calculated ;!
  e <! read (fun e => e) ;;
  match e_measures e with Some m => aret m | None => araise AttributeError end.

(** ** Results *)
(** eyediagram.py:964-992, 994-1005, 1007-1031 and pam2.py:750-782 *)
Definition get_raw_heatmap (e : eye) : result (Z -> Z -> R) := if e_calculated e then Ok (e_heatmap e) else Err RuntimeError.
(** Measures.image_clean, image_grid, ... of get_measures() *)
Definition get_images (e : eye) : result (option images) := if e_calculated e then Ok (e_images e) else Err RuntimeError.
Definition get_measures (e : eye) : result (option measures) := if e_calculated e then Ok (e_measures e) else Err RuntimeError.
Definition get_clock_edges (e : eye) : result (option (list (list R))) := if e_calculated e then Ok (e_clock_edges e) else Err RuntimeError.
Definition bit_stream (e : eye) (nrzm : bool) : result (list (list Z)) := get_bit_stream (e_calculated e) (e_edge_dir e) nrzm.

(** What a user does with an object: calculate, or change its configuration. *)
Inductive call := Calculate (debug : bool) | Configure (f : config -> config).
Definition perform (c : call) (e : eye) : result (option measures) * eye :=
  match c with
  | Calculate debug => let '(r, e') := calculate debug e in (m <- r ;; Ok (Some m), e')
  | Configure f => (Ok None, set_config (f (e_config e)) e)
  end.
Fixpoint performs (cs : list call) (e : eye) : list (result (option measures)) * eye :=
  match cs with
  | [] => ([], e)
  | c :: cs' => let '(r, e') := perform c e in let '(rs, e'') := performs cs' e' in (r :: rs, e'')
  end.
End Run.
