(** Proofs for C69: changing the unit and origin of time. *)
From Coq Require Import ZArith Reals Bool List Lia Lra FunctionalExtensionality.
Import ListNotations.
From Verif Require CdrModel EyeProps.
From Verif Require Import Base Num RBool DrawSpec LinesModel LinesProps StatsModel MaskModel EyeModel EyeSpec Pam2Model EyeImageModel EyeRunModel EyeRunSpec EyeUnitsSpec EyeUnitsProofs EyeTimeSpec.
Local Open Scope R_scope.
Local Open Scope result_scope.

Section Time.
Variables s o : R.
Hypothesis S0 : 0 < s.
Let g (t : R) : R := s * t + o.
Let d (t : R) : R := s * t.

Lemma mapM_hom2 {X X' Y Y'} (f : X' -> result Y') (h : X -> result Y) (k : X -> X') (m : Y -> Y') l : (forall x, f (k x) = (y <- h x ;; Ok (m y))) -> mapM f (map k l) = (ys <- mapM h l ;; Ok (map m ys)).
Proof. intros E. rewrite EyeProps.mapM_map_arg. apply mapM_hom. exact E. Qed.

(** ** Waveforms *)
Lemma waves_retimed w : three w -> waves (retimed s o w) = map (fun v => (map g (fst v), snd v)) (waves w).
Proof.
  intros T. unfold waves. rewrite map_map. apply map_ext. intros i. unfold row, retimed, dim. cbn [fst snd shape at_]. rewrite T. rewrite map_map. reflexivity.
Qed.
Lemma snd_retimed w : three w -> map snd (waves (retimed s o w)) = map snd (waves w).
Proof. intros T. rewrite waves_retimed, !map_map by exact T. reflexivity. Qed.

(** ** Edges *)
Lemma crossing_time ret y i v fwd n : crossing (map g ret) y i v fwd n = (r <- crossing ret y i v fwd n ;; Ok (option_map g (fst r), snd r)).
Proof.
  unfold crossing. destruct (crossing_loop _ _ _ _ _ _) as [k|]; [|reflexivity]. cbn [bind]. destruct ((k <? 1)%Z || _); [reflexivity|].
  rewrite !getz_map. destruct (getz ret (k - 1)) as [x1|]; [|reflexivity]. cbn [bind]. destruct (getz ret k) as [x2|]; [|reflexivity]. cbn [bind]. destruct (getz y (k - 1)) as [y1|]; [|reflexivity]. cbn [bind]. destruct (getz y k) as [y2|]; [|reflexivity]. cbn [bind].
  unfold py_div. cbn [neq nsub nofZ ndiv nmul nadd NumR]. destruct (Reqb (y2 - y1) 0); [reflexivity|]. cbn [bind fst snd option_map]. do 3 f_equal. unfold g, Rdiv. ring.
Qed.
Definition emove (e : bool * list (option R) * list (option R)) : bool * list (option R) * list (option R) :=
  (fst (fst e), map (option_map g) (snd (fst e)), map (option_map g) (snd e)).
Lemma edges_time t y r h l : LinesModel.edges (map g t) y r h l = (e <- LinesModel.edges t y r h l ;; Ok (map (option_map g) (fst e), map (option_map g) (snd e))).
Proof.
  unfold LinesModel.edges. destruct (get y 0) as [y0|]; [|reflexivity]. cbn [bind].
  change (y0 <. l, @nil (option R), @nil (option R))%num with (emove (y0 <. l, @nil (option R), @nil (option R))%num) at 1.
  rewrite (foldM_hom (edges_step (map g t) y r h l 0) (edges_step t y r h l 0) emove).
  - destruct (foldM (edges_step t y r h l 0) _ _) as [[[low er] ef]|]; reflexivity.
  - intros [[low er] ef] i. unfold edges_step, emove. cbn [fst snd]. destruct (get y i) as [yi|]; [|reflexivity]. cbn [bind]. rewrite crossing_time. destruct low.
    + destruct (r <. yi)%num; [|reflexivity]. destruct (crossing t y _ h false 0) as [c|]; [|reflexivity]. cbn [bind fst snd]. rewrite map_app. reflexivity.
    + destruct (yi <. l)%num; [|reflexivity]. destruct (crossing t y _ h false 0) as [c|]; [|reflexivity]. cbn [bind fst snd]. rewrite map_app. reflexivity.
Qed.
Lemma finite_time l : finite_edges (map (option_map g) l) = (r <- finite_edges l ;; Ok (map g r)).
Proof. unfold finite_edges. apply mapM_hom2. intros [x|]; reflexivity. Qed.
Lemma sorted_time l : sorted (map g l) = map g (sorted l).
Proof.
  assert (I : forall x k, insert (g x) (map g k) = map g (insert x k)). { intros x k. induction k as [|y k IH]; [reflexivity|]. cbn [map insert]. cbn [nlt NumR]. unfold g at 1 2. rewrite (Rltb_f s o S0). destruct (Rltb x y); [reflexivity|]. cbn [map]. rewrite IH. reflexivity. }
  unfold sorted. change (@nil R) with (map g []) at 1. generalize (@nil R). induction l as [|x l IH]; intros acc; [reflexivity|]. cbn [map fold_left]. rewrite I. apply IH.
Qed.
Lemma selected_time l p v : length (fst v) = length (snd v) -> selected_edges l p (map g (fst v), snd v) = (r <- selected_edges l p v ;; Ok (map g r)).
Proof.
  intros L. unfold selected_edges. cbn [fst snd]. rewrite !C09_edges_np_same by (rewrite ?map_length; exact L). rewrite edges_time. destruct (LinesModel.edges _ _ _ _ _) as [[er ef]|]; [|reflexivity]. cbn [bind fst snd].
  destruct p; [apply finite_time|apply finite_time|]. rewrite !finite_time. destruct (finite_edges er) as [r1|]; [|reflexivity]. cbn [bind]. destruct (finite_edges ef) as [r2|]; [|reflexivity]. cbn [bind filter_edge_polarity fst snd]. rewrite <- map_app, sorted_time. reflexivity.
Qed.
Lemma collect_time l p w : three w -> collect (selected_edges l p) (waves (retimed s o w)) = (map (map g) (fst (collect (selected_edges l p) (waves w))), snd (collect (selected_edges l p) (waves w))).
Proof. intros T. rewrite waves_retimed, collect_map by exact T. apply collect_hom. intros v I. apply selected_time. apply (row_lengths w). exact I. Qed.
Definition rmove (r : list R * list R) : list R * list R := (map g (fst r), map d (snd r)).
Lemma retimed_cdr_eq c e : retimed_cdr s o c (map g e) = (r <- c e ;; Ok (rmove r)).
Proof.
  unfold retimed_cdr. rewrite map_map. rewrite (map_ext _ (fun x => x)) by (intros x; unfold g; field; lra). rewrite map_id. destruct (c e); reflexivity.
Qed.
Lemma collect_cdr_time l p c w : three w -> collect (runner_cdr l p (retimed_cdr s o c)) (waves (retimed s o w)) = (map rmove (fst (collect (runner_cdr l p c) (waves w))), snd (collect (runner_cdr l p c) (waves w))).
Proof.
  intros T. rewrite waves_retimed, collect_map by exact T. apply collect_hom. intros v I. unfold runner_cdr. rewrite selected_time by (apply (row_lengths w); exact I). destruct (selected_edges l p v) as [e|]; [|reflexivity]. cbn [bind]. apply retimed_cdr_eq.
Qed.
Lemma collect_fallback_time p w : three w -> collect (fallback_clock (s * p)) (waves (retimed s o w)) = (map (map g) (fst (collect (fallback_clock p) (waves w))), snd (collect (fallback_clock p) (waves w))).
Proof.
  intros T. rewrite waves_retimed, collect_map by exact T. apply collect_hom. intros v I. unfold fallback_clock. cbn [fst]. rewrite map_length, !get_map. destruct (get (fst v) 0) as [t0|]; [|reflexivity]. cbn [bind]. destruct (get (fst v) _) as [t1|]; [|reflexivity]. cbn [bind].
  unfold arange. destruct (Reqb p 0) eqn:P; [apply Reqb_true in P|apply Reqb_false in P].
  - rewrite (proj2 (Reqb_true (s * p) 0)) by (rewrite P; ring). reflexivity.
  - rewrite (proj2 (Reqb_false (s * p) 0)) by (intros Q; apply Rmult_integral in Q; lra). cbn [bind]. replace (g t1 - (g t0 + s * p)) with (s * (t1 - (t0 + p))) by (unfold g; ring). rewrite (ratio_units s S0). rewrite map_map. f_equal. apply map_ext. intros i. unfold g. ring.
Qed.
Lemma diff_time l : CdrModel.diff (map g l) = map d (CdrModel.diff l).
Proof. induction l as [|x [|y l] IH]; [reflexivity..|]. cbn [map CdrModel.diff] in *  . rewrite IH. f_equal. cbn [nsub NumR]. unfold g, d. ring. Qed.
Lemma mean_time l : CdrModel.mean (map d l) = s * CdrModel.mean l.
Proof.
  unfold CdrModel.mean. rewrite map_length. cbn [ndiv nofZ NumR]. assert (N : CdrModel.nsum (map d l) = s * CdrModel.nsum l).
  { unfold CdrModel.nsum. cbn [nadd nofZ NumR]. assert (G : forall x, fold_left Rplus (map d l) (s * x) = s * fold_left Rplus l x) by (induction l as [|y l IH]; intros x; [reflexivity|]; cbn [map fold_left]; unfold d at 2; rewrite <- Rmult_plus_distr_l; apply IH). rewrite <- (G 0). f_equal. ring. }
  rewrite N. unfold Rdiv. ring.
Qed.
Lemma usamples_time l : usamples (map d l) = option_map (moved s 0) (usamples l).
Proof. rewrite <- (usamples_units s 0 S0). f_equal. apply map_ext. intros x. unfold d. ring. Qed.
Lemma period_time edges : symbol_period (map (map g) edges) = (t <- symbol_period edges ;; Ok (option_map (Rmult s) t)).
Proof.
  assert (C : concat (map CdrModel.diff (map (map g) edges)) = map d (concat (map CdrModel.diff edges))).
  { induction edges as [|l ls IH]; [reflexivity|]. cbn [map concat]. rewrite diff_time, IH, map_app. reflexivity. }
  destruct edges as [|l ls]; [reflexivity|]. unfold symbol_period. cbv zeta. rewrite C. clear C. generalize (concat (map CdrModel.diff (l :: ls))) as ps. intros ps. cbn [map]. rewrite mean_time. cbn [bind]. f_equal.
  assert (F : filter (fun p => Rltb p (10 * (s * CdrModel.mean ps))) (map d ps) = map d (filter (fun p => Rltb p (10 * CdrModel.mean ps)) ps)).
  { generalize (CdrModel.mean ps) as m. intros m. induction ps as [|p ps IH]; [reflexivity|]. cbn [map filter]. assert (E : Rltb (d p) (10 * (s * m)) = Rltb p (10 * m)) by (unfold d; replace (10 * (s * m)) with (s * (10 * m) + 0) by ring; replace (s * p) with (s * p + 0) by ring; apply (Rltb_f s 0 S0)). rewrite E, IH. destruct (Rltb p (10 * m)); reflexivity. }
  rewrite F, usamples_time. destruct (usamples _) as [u|]; [|reflexivity]. cbn [option_map]. f_equal. unfold moved. cbn [value]. ring.
Qed.

(** ** Symbols *)
Definition smove (c : R * Z) : R * Z := (s * fst c, snd c).
Lemma width_time t td : get_i_width int_of_float (s * t) (s * td) = get_i_width int_of_float t td.
Proof. unfold get_i_width. cbn [ndiv NumR]. rewrite (ratio_units s S0). reflexivity. Qed.
Lemma Int_part_shift x k : Int_part (x + IZR k) = (Int_part x + k)%Z.
Proof. unfold Int_part. enough (up (x + IZR k) = (up x + k)%Z) by lia. symmetry. destruct (archimed x). apply tech_up; rewrite plus_IZR; lra. Qed.
Lemma sample_time t td t0 n edges k : td <> 0 -> o = IZR k * (s * td) ->
  step3_sample int_of_float float_mod (s * t) (s * td) (g t0) n (map g edges) = (r <- step3_sample int_of_float float_mod t td t0 n edges ;; Ok (map smove r)).
Proof.
  intros D O. unfold step3_sample. rewrite width_time. destruct (get_i_width _ _ _) as [w|]; [|reflexivity]. cbn [bind]. rewrite foldM_map. refine (foldM_hom _ (sample_edge int_of_float float_mod w n t0 td) (map smove) edges _ []). intros acc b. unfold sample_edge. cbv zeta.
  assert (FM : float_mod (g b) (s * td) = s * float_mod b td).
  { unfold float_mod. replace (g b / (s * td)) with (b / td + IZR k) by (unfold g; rewrite O; field; split; lra). rewrite Int_part_shift, plus_IZR. unfold g. rewrite O. ring. }
  rewrite FM. cbn [nsub ndiv NumR]. replace (g b - g t0 - s * float_mod b td) with (s * (b - t0 - float_mod b td)) by (unfold g; ring). rewrite (ratio_units s S0). destruct (int_of_float _) as [c|]; [|reflexivity]. cbn [bind]. destruct ((c - w <? 0)%Z || _); [reflexivity|]. cbn [bind]. rewrite map_app. cbn [map]. unfold smove at 2. cbn [fst snd]. unfold neg. cbn [nsub nofZ NumR]. do 3 f_equal. unfold smove. cbn [fst snd]. apply (f_equal2 pair); [ring|reflexivity].
Qed.
Lemma sample_all_time t td edges w k : three w -> td <> 0 -> o = IZR k * (s * td) ->
  sample_all (s * t) (s * td) (map (map g) edges) (waves (retimed s o w)) = (r <- sample_all t td edges (waves w) ;; Ok (map (map smove) r)).
Proof.
  intros T D O. unfold sample_all. rewrite waves_retimed, map_length by exact T. set (ks := seq 0 (length (waves w))).
  replace (combine ks (map (fun v => (map g (fst v), snd v)) (waves w))) with (map (fun p => (fst p, (map g (fst (snd p)), snd (snd p)))) (combine ks (waves w))).
  2:{ generalize (waves w). generalize ks. clear ks. intros ks. induction ks as [|i ks IH]; intros [|v ws]; [reflexivity..|]. cbn. rewrite IH. reflexivity. }
  apply mapM_hom2. intros [i v]. cbn [fst snd]. rewrite !get_map, map_length. destruct (get (fst v) 0) as [t0|]; [|reflexivity]. cbn [bind]. destruct (get edges i) as [ed|]; [|reflexivity]. cbn [bind]. apply (sample_time t td t0 _ ed k D O).
Qed.
Definition tw (p : list R * list (R * Z)) : list R * list (R * Z) := (fst p, map smove (snd p)).
Lemma combine_map_r {X Y Z'} (h : Y -> Z') (l : list X) : forall k, combine l (map h k) = map (fun p => (fst p, h (snd p))) (combine l k).
Proof. induction l as [|x l IH]; intros [|z k]; [reflexivity..|]. cbn. rewrite IH. reflexivity. Qed.
Lemma combine_time w centers : three w -> combine (map snd (waves (retimed s o w))) (map (map smove) centers) = map tw (combine (map snd (waves w)) centers).
Proof. intros T. rewrite snd_retimed by exact T. apply combine_map_r. Qed.
Lemma axis_time w t td : window_axis w (s * t) (s * td) = window_axis w t td.
Proof. unfold window_axis. cbn [nmul ndiv NumR]. replace (nofZ w * (s * td)) with (s * (nofZ w * td)) by ring. rewrite (ratio_units s S0). reflexivity. Qed.
Lemma points_time t0 y w t c : symbol_points t0 y w (s * t) (smove c) = symbol_points t0 y w t c.
Proof. unfold symbol_points, smove. cbn [fst snd]. cbn [ndiv NumR]. rewrite (ratio_units s S0). reflexivity. Qed.
Lemma window_time t0 y w t c : window_fb t0 y w (s * t) (smove c) = window_fb t0 y w t c.
Proof. unfold window_fb, smove. cbn [fst snd]. cbn [ndiv NumR]. rewrite (ratio_units s S0). reflexivity. Qed.
Lemma vertical_time y ss td t h lw cw : sample_vertical int_of_float y (map smove ss) (s * td) (s * t) h lw cw = sample_vertical int_of_float y ss td t h lw cw.
Proof.
  unfold sample_vertical. rewrite width_time. destruct (get_i_width _ _ _) as [w|]; [|reflexivity]. cbn [bind]. rewrite axis_time. destruct (window_axis _ _ _) as [t0|]; [|reflexivity]. cbn [bind]. rewrite foldM_map. apply foldM_ext. intros v c. unfold vertical_step. rewrite points_time.
  assert (AB : abc_width lw (s * td) (s * t) = abc_width lw td t) by (unfold abc_width; f_equal; cbn [nmul ndiv NumR]; replace (nofZ 101 / nofZ 100 * (s * td)) with (s * (nofZ 101 / nofZ 100 * td)) by ring; apply (ratio_units s S0)). rewrite AB. reflexivity.
Qed.
Lemma collect_vertical_time td t h lw cw ws :
  collect (fun w : list R * list (R * Z) => sample_vertical int_of_float (fst w) (snd w) (s * td) (s * t) h lw cw) (map tw ws)
  = collect (fun w : list R * list (R * Z) => sample_vertical int_of_float (fst w) (snd w) td t h lw cw) ws.
Proof. rewrite collect_map. apply collect_ext. intros w _. apply vertical_time. Qed.
Lemma horizontal_time td t z ua c th lo hi ws : measure_horizontal int_of_float (s * td) (s * t) z ua c th lo hi (map (fun p => (tw (fst p), snd p)) ws) = measure_horizontal int_of_float td t z ua c th lo hi ws.
Proof.
  unfold measure_horizontal. rewrite foldM_map. apply foldM_ext. intros h [[y ss] ds]. unfold tw. cbn [fst snd]. unfold sample_horizontal. rewrite width_time. destruct (get_i_width _ _ _) as [w|]; [|reflexivity]. cbn [bind]. rewrite axis_time. destruct (window_axis _ _ _) as [t0|]; [|reflexivity]. cbn [bind]. cbv zeta. rewrite map_length.
  assert (CM : with_edges (map smove ss) ds = map (fun p => (smove (fst p), snd p)) (with_edges ss ds)) by apply combine_map_l. rewrite CM, foldM_map.
  match goal with |- bind (bind ?x _) _ = bind (bind ?y _) _ => replace x with y; [reflexivity|] end. symmetry. apply foldM_ext. intros h0 [c0 e]. unfold horizontal_step. cbn [fst snd]. rewrite points_time. destruct (symbol_points _ _ _ _ _) as [ps|]; [|reflexivity]. cbn [bind]. destruct (e =? 0)%Z; [reflexivity|].
  change (snd (smove c0)) with (snd c0). change (fst (smove c0)) with (s * fst c0). cbn [ndiv NumR]. rewrite (ratio_units s S0). reflexivity.
Qed.
Lemma mask_convert_time m ua t : mask_convert (retimed_mask s m) ua (s * t) = mask_convert m ua t.
Proof. destruct m as [h|h]; cbn [retimed_mask mask_convert]; [unfold hex_convert|unfold dec_convert]; cbn [hx1 hx2 hy1 hyl hyu hzero hconv dx1 dx2 dx3 dy1 dy2 dyl dyu dzero dconv]; rewrite !(convert_units s S0); reflexivity. Qed.
Lemma mask_time mk td t z ua ws : eye_sample_mask int_of_float (option_map (retimed_mask s) mk) (s * td) (s * t) z ua (map tw ws) = eye_sample_mask int_of_float mk td t z ua ws.
Proof.
  destruct mk as [m|]; [|reflexivity]. cbn [option_map eye_sample_mask]. rewrite mask_convert_time. destruct (mask_convert m ua t) as [mc|]; [|reflexivity]. cbn [bind]. destruct (mapM _ margins) as [paths|]; [|reflexivity]. cbn [bind]. rewrite foldM_map. apply foldM_ext. intros [[[offs hs] mg] cnt] w. unfold tw. cbn [fst snd].
  match goal with |- bind ?x _ = bind ?y _ => replace x with y; [reflexivity|] end. symmetry. unfold sample_mask. rewrite width_time. destruct (get_i_width _ _ _) as [iw|]; [|reflexivity]. cbn [bind]. rewrite axis_time. destruct (window_axis _ _ _) as [t0|]; [|reflexivity]. cbn [bind]. rewrite foldM_map.
  match goal with |- bind ?x _ = bind ?y _ => replace x with y; [reflexivity|] end. symmetry. apply foldM_ext. intros [[[i im] of] hh] c. unfold mask_step. rewrite window_time. reflexivity.
Qed.
Lemma bathtub_time td t z ua ws lv : bathtub_curves int_of_float (s * td) (s * t) z ua (map tw ws) lv = bathtub_curves int_of_float td t z ua ws lv.
Proof.
  unfold bathtub_curves. rewrite EyeProps.mapM_map_arg. rewrite (mapM_ext' _ (fun w => y_slice int_of_float (fst w) (snd w) td t z ua lv)); [reflexivity|]. intros w _. unfold tw. cbn [fst snd]. unfold y_slice. rewrite width_time. destruct (get_i_width _ _ _) as [iw|]; [|reflexivity]. cbn [bind]. rewrite axis_time. destruct (window_axis _ _ _) as [t0|]; [|reflexivity]. cbn [bind]. rewrite foldM_map. apply foldM_ext. intros sl c. rewrite window_time. reflexivity.
Qed.
Section Draw.
Variable cast : R -> Z.
Variable fuel : nat.
Variable draw : drawing.
Lemma heatmap_time td t z ua ws res pc n : step5_heatmap int_of_float cast fuel (s * td) (s * t) z ua (map tw ws) res pc n = step5_heatmap int_of_float cast fuel td t z ua ws res pc n.
Proof.
  unfold step5_heatmap. cbv zeta. rewrite foldM_map. match goal with |- bind ?x _ = bind ?y _ => replace x with y; [reflexivity|] end. symmetry. apply foldM_ext. intros gr w. unfold tw. cbn [fst snd]. unfold stack. rewrite width_time. destruct (get_i_width _ _ _) as [iw|]; [|reflexivity]. cbn [bind]. rewrite axis_time. destruct (window_axis _ _ _) as [t0|]; [|reflexivity]. cbn [bind]. rewrite foldM_map. apply foldM_ext. intros g0 c. rewrite window_time. reflexivity.
Qed.
Lemma offenders_time res td t z ua ws of im : draw_offenders draw cast res (s * td) (s * t) z ua (map tw ws) of im = draw_offenders draw cast res td t z ua ws of im.
Proof.
  unfold draw_offenders. cbv zeta. rewrite map_length, combine_map_r, foldM_map. apply foldM_ext. intros im0 [i w]. unfold tw. cbn [fst snd]. destruct (get of i) as [l|]; [|reflexivity]. cbn [bind].
  match goal with |- bind ?x _ = bind ?y _ => replace x with y; [reflexivity|] end. symmetry. unfold draw_symbols. rewrite width_time. destruct (get_i_width _ _ _) as [iw|]; [|reflexivity]. cbn [bind]. rewrite axis_time. destruct (window_axis _ _ _) as [t0|]; [|reflexivity]. cbn [bind]. apply foldM_ext. intros im1 j. rewrite get_map. destruct (get (snd w) j) as [c|]; [|reflexivity]. cbn [bind]. rewrite window_time. reflexivity.
Qed.
Lemma images_time res h lo hi mc mg hs of td t z ua ws : draw_images draw cast res h lo hi mc mg hs of (s * td) (s * t) z ua (map tw ws) = draw_images draw cast res h lo hi mc mg hs of td t z ua ws.
Proof.
  unfold draw_images. destruct (clean_image _ _ _); [|reflexivity]. cbn [bind]. destruct (draw_grid _ _ _); [|reflexivity]. cbn [bind]. destruct mc as [m|]; [|reflexivity]. destruct (mask_paths m); [|reflexivity]. cbn [bind]. destruct (draw_paths _ _ _); [|reflexivity]. cbn [bind]. destruct mg; [|reflexivity]. cbn [bind].
  destruct (mask_adjusted _ _); [|reflexivity]. cbn [bind]. destruct (draw_paths _ _ _); [|reflexivity]. cbn [bind]. destruct (draw_hits _ _ _); [|reflexivity]. cbn [bind]. rewrite offenders_time. reflexivity.
Qed.
End Draw.

(** ** Measures *)
Lemma count_time centers : count_symbols (map (map smove) centers) = count_symbols centers.
Proof. unfold count_symbols. rewrite <- concat_map, map_length. reflexivity. Qed.
Lemma samples_time centers t td : count_samples (map (map smove) centers) (s * t) (s * td) = count_samples centers t td.
Proof. unfold count_samples. rewrite count_time. replace (IZR (count_symbols centers) * (s * t)) with (s * (IZR (count_symbols centers) * t)) by ring. rewrite (ratio_units s S0). reflexivity. Qed.
Lemma ptp_time l : ptp (map d l) = option_map (Rmult s) (ptp l).
Proof.
  destruct l as [|x l]; [reflexivity|]. cbn [map ptp option_map]. f_equal.
  assert (MX : forall y, fold_left Rmax (map d l) (d y) = d (fold_left Rmax l y)). { induction l as [|z l IH]; intros y; [reflexivity|]. cbn [map fold_left]. replace (Rmax (d y) (d z)) with (d (Rmax y z)) by (unfold d; symmetry; apply RmaxRmult; lra). apply IH. }
  assert (MN : forall y, fold_left Rmin (map d l) (d y) = d (fold_left Rmin l y)). { clear MX. induction l as [|z l IH]; intros y; [reflexivity|]. cbn [map fold_left]. replace (Rmin (d y) (d z)) with (d (Rmin y z)). - apply IH. - unfold d, Rmin. destruct (Rle_dec y z), (Rle_dec (s * y) (s * z)); try reflexivity; nra. }
  rewrite MX, MN. unfold d. ring.
Qed.
Lemma measure_t_time t h : measure_t (s * t) h = t_in_time s (measure_t t h).
Proof.
  assert (SC : forall l, map (fun x => x * (s * t)) l = map d (map (fun x => x * t) l)) by (intros l; rewrite map_map; apply map_ext; intros x; unfold d; ring).
  unfold measure_t. cbv zeta. rewrite !SC, !usamples_time, !ptp_time. unfold t_in_time. cbn [m_t_sym m_t_0 m_t_1 m_t_0_start m_t_1_start m_t_rise m_t_fall m_t_rise_start m_t_fall_start m_t_cross m_f_sym m_width m_width_r m_dcd m_dcd_r m_jitter_pp m_jitter_rms].
  generalize (usamples (map (fun x => x * t) (h_rise_lower h))) (usamples (map (fun x => x * t) (h_rise_upper h))) (usamples (map (fun x => x * t) (h_rise_half h))) (usamples (map (fun x => x * t) (h_fall_lower h))) (usamples (map (fun x => x * t) (h_fall_upper h))) (usamples (map (fun x => x * t) (h_fall_half h))) (usamples (map (fun x => x * t) (h_left h))) (usamples (map (fun x => x * t) (h_right h))).
  intros rl ru rh fl fu fh lf rt. rewrite !(lift2_sub s 0 S0).
  assert (PL : forall u, lift1 uadd (option_map (moved s 0) u) (fun _ => s * t) = option_map (moved s 0) (lift1 uadd u (fun _ => t))). { intros [u|]; [|reflexivity]. unfold lift1, option_map, uadd, moved. cbn [value stddev]. do 2 f_equal. ring. }
  rewrite !PL, !(lift2_sub s 0 S0).
  assert (WD : lift2 usub (lift1 usub (option_map (moved s 0) rt) (fun u => 3 * stddev u)) (lift1 uadd (option_map (moved s 0) lf) (fun u => 3 * stddev u)) = option_map (moved s 0) (lift2 usub (lift1 usub rt (fun u => 3 * stddev u)) (lift1 uadd lf (fun u => 3 * stddev u)))).
  { destruct rt as [u1|], lf as [u0|]; try reflexivity. unfold lift2, lift1, option_map, usub, uadd, moved. cbn [value stddev]. rewrite (sqrt_units s S0). do 2 f_equal; ring. }
  rewrite WD.
  assert (DC : forall u, lift1 udiv (option_map (moved s 0) u) (fun _ => 2) = option_map (moved s 0) (lift1 udiv u (fun _ => 2))). { intros [u|]; [|reflexivity]. unfold lift1, option_map, udiv, moved. cbn [value stddev]. do 2 f_equal; unfold Rdiv; ring. }
  rewrite !DC, !(lift2_div s S0). f_equal.
  - destruct rt as [u1|], lf as [u0|]; try reflexivity. cbn [lift2 option_map]. f_equal. set (u := usub u1 (OU u0)). unfold udiv, moved. cbn [value stddev]. rewrite !Rplus_0_r. rewrite (ratio_units s S0). assert (Q : 1 / (s * value u) = / s * (1 / value u)) by (unfold Rdiv; rewrite Rinv_mult; ring). rewrite Q. f_equal. rewrite Rabs_mult, (Rabs_right (/ s)) by (left; apply Rinv_0_lt_compat; exact S0). ring.
  - destruct lf as [u|]; reflexivity.
Qed.
End Time.
