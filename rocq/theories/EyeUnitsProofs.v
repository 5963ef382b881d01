(** Proofs for C68: changing the units of the values. *)
From Coq Require Import ZArith Reals Bool List Lia Lra.
Import ListNotations.
From Coq Require Import FunctionalExtensionality.
From Verif Require CdrModel EyeProps EyeLevelsProofs UncertainProofs.
From Verif Require Import Base Num RBool DrawSpec LinesModel LinesProps StatsModel MaskModel EyeModel EyeSpec Pam2Model EyeImageModel EyeRunModel EyeRunSpec EyeRunProofs EyeLevelsProps EyeUnitsSpec.
Local Open Scope R_scope.
Local Open Scope result_scope.

Section Units.
Variables a b : R.
Hypothesis A : 0 < a.
Let f (v : R) : R := a * v + b.

Lemma Rltb_f x y : Rltb (f x) (f y) = Rltb x y.
Proof. apply EyeLevelsProofs.Rltb_aff. exact A. Qed.
Lemma Rleb_f x y : Rleb (f x) (f y) = Rleb x y.
Proof. apply EyeLevelsProofs.Rleb_aff. exact A. Qed.

(** ** Lists *)
Lemma get_map {X Y} (g : X -> Y) l i : get (map g l) i = (x <- get l i ;; Ok (g x)).
Proof. unfold get. rewrite nth_error_map. destruct (nth_error l i); reflexivity. Qed.
Lemma getz_map {X Y} (g : X -> Y) l i : getz (map g l) i = (x <- getz l i ;; Ok (g x)).
Proof. unfold getz. rewrite map_length. destruct (0 <=? i)%Z; [apply get_map|]. destruct (0 <=? i + Z.of_nat (length l))%Z; [apply get_map|reflexivity]. Qed.
Lemma foldM_ext {S X} (g h : S -> X -> result S) l : (forall s x, g s x = h s x) -> forall s, foldM g s l = foldM h s l.
Proof. intros E. induction l as [|x l IH]; intros s; [reflexivity|]. cbn [foldM]. rewrite E. destruct (h s x); [apply IH|reflexivity]. Qed.
Lemma mapM_ext' {X Y} (g h : X -> result Y) l : (forall x, In x l -> g x = h x) -> mapM g l = mapM h l.
Proof. induction l as [|x l IH]; intros E; [reflexivity|]. cbn [mapM]. rewrite (E x (or_introl eq_refl)), IH by (intros y I; apply E; right; exact I). reflexivity. Qed.
Lemma combine_map_l {X Y Z} (g : X -> Y) (l : list X) : forall (k : list Z), combine (map g l) k = map (fun p => (g (fst p), snd p)) (combine l k).
Proof. induction l as [|x l IH]; intros [|z k]; [reflexivity..|]. cbn. rewrite IH. reflexivity. Qed.
Lemma foldM_map {S X Y} (g : S -> Y -> result S) (h : X -> Y) l : forall s, foldM g s (map h l) = foldM (fun s x => g s (h x)) s l.
Proof. induction l as [|x l IH]; intros s; [reflexivity|]. cbn [map foldM]. destruct (g s (h x)); [apply IH|reflexivity]. Qed.
Lemma foldM_hom {S X} (g h : S -> X -> result S) (m : S -> S) l : (forall s x, g (m s) x = (s' <- h s x ;; Ok (m s'))) -> forall s, foldM g (m s) l = (s' <- foldM h s l ;; Ok (m s')).
Proof. intros E. induction l as [|x l IH]; intros s; [reflexivity|]. cbn [foldM]. rewrite E. destruct (h s x); [apply IH|reflexivity]. Qed.
Lemma mapM_hom {X Y Z} (g : X -> result Z) (h : X -> result Y) (m : Y -> Z) l : (forall x, g x = (y <- h x ;; Ok (m y))) -> mapM g l = (ys <- mapM h l ;; Ok (map m ys)).
Proof. intros E. induction l as [|x l IH]; [reflexivity|]. cbn [mapM]. rewrite E. destruct (h x); [|reflexivity]. cbn [bind]. rewrite IH. destruct (mapM h l); reflexivity. Qed.
Lemma collect_hom {X Y Z} (g : X -> result Z) (h : X -> result Y) (m : Y -> Z) l : (forall x, In x l -> g x = (y <- h x ;; Ok (m y))) -> collect g l = (map m (fst (collect h l)), snd (collect h l)).
Proof. induction l as [|x l IH]; intros E; [reflexivity|]. cbn [collect]. rewrite (E x (or_introl eq_refl)). destruct (h x) as [y|]; [|reflexivity]. cbn [bind]. rewrite IH by (intros z I; apply E; right; exact I). destruct (collect h l). reflexivity. Qed.
Lemma collect_map {X Y Z} (g : Y -> result Z) (h : X -> Y) l : collect g (map h l) = collect (fun x => g (h x)) l.
Proof. induction l as [|x l IH]; [reflexivity|]. cbn [map collect]. rewrite IH. reflexivity. Qed.
Lemma pyslice_map {X Y} (g : X -> Y) l i j : pyslice (map g l) i j = map g (pyslice l i j).
Proof. unfold pyslice. rewrite map_length. rewrite skipn_map, firstn_map. reflexivity. Qed.

(** ** Waveforms *)
Definition three (w : ndarray) : Prop := length (shape w) = 3%nat.
Lemma waves_rescaled w : three w -> waves (rescaled a b w) = map (fun v => (fst v, map f (snd v))) (waves w).
Proof.
  intros T. unfold waves. rewrite map_map. apply map_ext. intros i. unfold row, rescaled, dim. cbn [fst snd shape at_]. rewrite T. rewrite map_map. reflexivity.
Qed.
Lemma snd_rescaled w : three w -> map snd (waves (rescaled a b w)) = map (map f) (map snd (waves w)).
Proof. intros T. rewrite waves_rescaled, !map_map by exact T. reflexivity. Qed.
Lemma fst_rescaled w : three w -> map fst (waves (rescaled a b w)) = map fst (waves w).
Proof. intros T. rewrite waves_rescaled, !map_map by exact T. reflexivity. Qed.
Lemma samples_rescaled w : three w -> all_samples (rescaled a b w) = map f (all_samples w).
Proof. intros T. unfold all_samples. rewrite snd_rescaled, concat_map by exact T. reflexivity. Qed.
Lemma row_lengths w v : In v (waves w) -> length (fst v) = length (snd v).
Proof. intros I. unfold waves in I. apply in_map_iff in I. destruct I as (i & <- & _). unfold row. cbn [fst snd]. rewrite !map_length. reflexivity. Qed.

(** ** Edges *)
Lemma crossing_loop_units fuel s n v fwd : forall i, crossing_loop fuel (map f s) i n (f v) fwd = crossing_loop fuel s i n v fwd.
Proof.
  induction fuel as [|fuel IH]; intros i; [reflexivity|]. cbn [crossing_loop]. destruct ((0 <? i)%Z && (i <? n)%Z); [|reflexivity]. rewrite !getz_map. destruct (getz s i) as [si|]; [|reflexivity]. cbn [bind]. destruct (getz s (i - 1)) as [sp|]; [|reflexivity]. cbn [bind].
  cbn [nlt NumR]. rewrite !Rltb_f. rewrite IH. reflexivity.
Qed.
Lemma crossing_units ret s i v fwd n : crossing ret (map f s) i (f v) fwd n = crossing ret s i v fwd n.
Proof.
  unfold crossing. rewrite map_length, crossing_loop_units. destruct (crossing_loop _ _ _ _ _ _) as [k|]; [|reflexivity]. cbn [bind]. destruct ((k <? 1)%Z || _); [reflexivity|].
  destruct (getz ret (k - 1)) as [x1|]; [|reflexivity]. cbn [bind]. destruct (getz ret k) as [x2|]; [|reflexivity]. cbn [bind]. rewrite !getz_map. destruct (getz s (k - 1)) as [y1|]; [|reflexivity]. cbn [bind]. destruct (getz s k) as [y2|]; [|reflexivity]. cbn [bind].
  unfold py_div. cbn [neq nsub ndiv nmul nadd nofZ NumR]. replace (f y2 - f y1) with (a * (y2 - y1)) by (unfold f; ring).
  destruct (Reqb (y2 - y1) 0) eqn:E; [apply Reqb_true in E|apply Reqb_false in E].
  - rewrite (proj2 (Reqb_true (a * (y2 - y1)) 0)) by (rewrite E; ring). reflexivity.
  - rewrite (proj2 (Reqb_false (a * (y2 - y1)) 0)) by (intros Q; apply Rmult_integral in Q; lra). cbn [bind]. do 3 f_equal. unfold f. field. split; lra.
Qed.
Lemma edges_units t y r h l : LinesModel.edges t (map f y) (f r) (f h) (f l) = LinesModel.edges t y r h l.
Proof.
  unfold LinesModel.edges. rewrite get_map, map_length. destruct (get y 0) as [y0|]; [|reflexivity]. cbn [bind]. cbn [nlt NumR]. rewrite Rltb_f.
  rewrite (foldM_ext (edges_step t (map f y) (f r) (f h) (f l) 0) (edges_step t y r h l 0)); [reflexivity|]. intros [[low er] ef] i. unfold edges_step. rewrite get_map. destruct (get y i) as [yi|]; [|reflexivity]. cbn [bind]. cbn [nlt NumR]. rewrite !Rltb_f. rewrite crossing_units. reflexivity.
Qed.
Notation move_levels := (levels_in_units a b).
Definition fw (p : list R * list (R * Z)) : list R * list (R * Z) := (map f (fst p), snd p).
Lemma selected_units l p v : length (fst v) = length (snd v) -> selected_edges (move_levels l) p (fst v, map f (snd v)) = selected_edges l p v.
Proof. intros L. unfold selected_edges. cbn [fst snd levels_in_units l_rising l_half l_falling]. rewrite !C09_edges_np_same by (rewrite ?map_length; exact L). fold (f (l_rising l)) (f (l_half l)) (f (l_falling l)). rewrite edges_units. reflexivity. Qed.
Lemma collect_ext {X Y} (g h : X -> result Y) l : (forall x, In x l -> g x = h x) -> collect g l = collect h l.
Proof. induction l as [|x l IH]; intros E; [reflexivity|]. cbn [collect]. rewrite (E x (or_introl eq_refl)), IH by (intros y I; apply E; right; exact I). reflexivity. Qed.
Lemma collect_units l p w : three w -> collect (selected_edges (move_levels l) p) (waves (rescaled a b w)) = collect (selected_edges l p) (waves w).
Proof. intros T. rewrite waves_rescaled, collect_map by exact T. apply collect_ext. intros v I. apply selected_units. apply (row_lengths w). exact I. Qed.
Lemma collect_cdr_units l p c w : three w -> collect (runner_cdr (move_levels l) p c) (waves (rescaled a b w)) = collect (runner_cdr l p c) (waves w).
Proof. intros T. rewrite waves_rescaled, collect_map by exact T. apply collect_ext. intros v I. unfold runner_cdr. rewrite selected_units by (apply (row_lengths w); exact I). reflexivity. Qed.
Lemma collect_fallback_units p w : three w -> collect (fallback_clock p) (waves (rescaled a b w)) = collect (fallback_clock p) (waves w).
Proof. intros T. rewrite waves_rescaled, collect_map by exact T. apply collect_ext. intros v I. reflexivity. Qed.
Lemma sample_all_units t td edges w : three w -> sample_all t td edges (waves (rescaled a b w)) = sample_all t td edges (waves w).
Proof.
  intros T. unfold sample_all. rewrite waves_rescaled, map_length by exact T. generalize (seq 0 (length (waves w))) as ks. induction (waves w) as [|v ws IH]; intros [|k ks]; [reflexivity..|]. cbn [map combine mapM fst]. rewrite IH. reflexivity.
Qed.
Lemma combine_units w (centers : list (list (R * Z))) : three w -> combine (map snd (waves (rescaled a b w))) centers = map fw (combine (map snd (waves w)) centers).
Proof. intros T. rewrite snd_rescaled by exact T. apply combine_map_l. Qed.

(** ** Vertical sampling *)
Definition vmove (v : @vertical R) : @vertical R :=
  Vertical (map f (v_0 v)) (map f (v_1 v)) (map f (v_cross v)) (map f (v_0_cross v)) (map f (v_1_cross v)) (map f (v_avg v)) (v_transitions v) (v_edge_dir v).
Definition bmove (v : @bins R) : @bins R :=
  Bins (map f (s_a v)) (map f (s_b v)) (map f (s_c v)) (map f (s_sym v)) (map f (s_in_cross v)) (map f (s_sym_cross v)) (map f (s_avg v)).
Definition pmove (p : R * R) : R * R := (fst p, f (snd p)).
Lemma bin_units w1 w2 w3 v p : bin_point w1 w2 w3 (bmove v) (pmove p) = bmove (bin_point w1 w2 w3 v p).
Proof.
  destruct p as [t y], v as [v1 v2 v3 v4 v5 v6 v7]. cbv beta iota delta [bin_point pmove fst snd].
  generalize (around (neg nhalf) w1 t) (around nhalf w1 t) (around (one +. nhalf)%num w1 t) (around nhalf w2 t) (around (nofZ 0) w3 t) (within (nofZ 0) (nofZ 1) t). intros [] c2 c3 c4 c5 c6; [|destruct c2; [|destruct c3]];
    destruct c4, c5, c6; cbv beta iota zeta delta [bmove s_a s_b s_c s_sym s_in_cross s_sym_cross s_avg]; rewrite ?map_app; reflexivity.
Qed.
Lemma bins_units w1 w2 w3 ps : forall v, fold_left (bin_point w1 w2 w3) (map pmove ps) (bmove v) = bmove (fold_left (bin_point w1 w2 w3) ps v).
Proof. induction ps as [|p ps IH]; intros v; [reflexivity|]. cbn [map fold_left]. rewrite bin_units. apply IH. Qed.
Lemma points_units t0 y w t s : symbol_points t0 (map f y) w t s = (ps <- symbol_points t0 y w t s ;; Ok (map pmove ps)).
Proof.
  unfold symbol_points. apply mapM_hom. intros i. destruct (get t0 i) as [x|]; [|reflexivity]. cbn [bind]. rewrite getz_map. destruct (getz y _) as [v|]; reflexivity.
Qed.
Lemma asum_units l : forall x n, fold_left Rplus (map f l) (a * x + b * n) = a * fold_left Rplus l x + b * (n + INR (length l)).
Proof.
  induction l as [|v l IH]; intros x n; [cbn; ring|]. cbn [map fold_left length]. replace (a * x + b * n + f v) with (a * (x + v) + b * (n + 1)) by (unfold f; ring). rewrite IH, S_INR. ring.
Qed.
Lemma mean_units l h : mean_above (map f l) (f h) = mean_above l h.
Proof.
  destruct l as [|x l]; [reflexivity|]. unfold mean_above. rewrite map_length. cbn [map]. change (f x :: map f l) with (map f (x :: l)). set (k := x :: l). unfold asum. cbn [nadd nofZ ndiv nlt NumR].
  replace (fold_left Rplus (map f k) 0) with (a * fold_left Rplus k 0 + b * (0 + INR (length k))) by (rewrite <- asum_units; f_equal; ring). rewrite <- INR_IZR_INZ. assert (N : INR (length k) <> 0) by (apply not_0_INR; discriminate).
  replace ((a * fold_left Rplus k 0 + b * (0 + INR (length k))) / INR (length k)) with (f (fold_left Rplus k 0 / INR (length k))) by (unfold f; field; exact N). apply Rltb_f.
Qed.
Lemma file_units v x y z s1 s2 s3 s4 : file (vmove v) x y z (map f s1) (map f s2) (map f s3) (map f s4) = vmove (file v x y z s1 s2 s3 s4).
Proof. destruct x, y; unfold file, vmove; cbn [v_0 v_1 v_cross v_0_cross v_1_cross v_avg v_transitions v_edge_dir eqb negb]; rewrite ?map_app; reflexivity. Qed.
Lemma sample_vertical_units y ss td t h lw cw : sample_vertical int_of_float (map f y) ss td t (f h) lw cw = (v <- sample_vertical int_of_float y ss td t h lw cw ;; Ok (vmove v)).
Proof.
  unfold sample_vertical. destruct (get_i_width _ _ _) as [w|]; [|reflexivity]. cbn [bind]. destruct (window_axis _ _ _) as [t0|]; [|reflexivity]. cbn [bind].
  change no_vertical with (vmove no_vertical) at 1. apply (foldM_hom _ _ vmove). intros v s. unfold vertical_step. rewrite points_units. destruct (symbol_points t0 y w t s) as [ps|]; [|reflexivity]. cbn [bind].
  change (Bins [] [] [] [] [] [] []) with (bmove (Bins [] [] [] [] [] [] [])) at 1 2 3 4 5 6 7. rewrite bins_units. unfold bmove at 1 2 3 4 5 6 7. cbn [s_a s_b s_c s_sym s_in_cross s_sym_cross s_avg]. rewrite !mean_units, file_units. reflexivity.
Qed.
Lemma collect_vertical_units td t h lw cw ws :
  collect (fun w : list R * list (R * Z) => sample_vertical int_of_float (fst w) (snd w) td t (f h) lw cw) (map fw ws)
  = (map vmove (fst (collect (fun w : list R * list (R * Z) => sample_vertical int_of_float (fst w) (snd w) td t h lw cw) ws)), snd (collect (fun w : list R * list (R * Z) => sample_vertical int_of_float (fst w) (snd w) td t h lw cw) ws)).
Proof. rewrite collect_map. apply collect_hom. intros w _. apply sample_vertical_units. Qed.
Lemma merge_units vs : forall v, fold_left merge (map vmove vs) (vmove v) = vmove (fold_left merge vs v).
Proof.
  induction vs as [|u vs IH]; intros v; [reflexivity|]. cbn [map fold_left]. replace (merge (vmove v) (vmove u)) with (vmove (merge v u)) by (unfold merge, vmove; cbn [v_0 v_1 v_cross v_0_cross v_1_cross v_avg v_transitions v_edge_dir]; rewrite !map_app; reflexivity). apply IH.
Qed.

(** ** Measures *)
Lemma usamples_units l : usamples (map f l) = option_map (moved a b) (usamples l).
Proof.
  destruct (usamples l) as [u|] eqn:U; [|destruct l; [reflexivity|discriminate]]. change (map f l) with (map (fun e => a * e + b) l). rewrite (UncertainProofs.usamples_affine a b l u U). unfold uadd, umul, moved. cbn. rewrite Rabs_right by lra. do 2 f_equal; ring.
Qed.
Lemma sqrt_units x y : sqrt ((a * x) ^ 2 + (a * y) ^ 2) = a * sqrt (x ^ 2 + y ^ 2).
Proof.
  replace ((a * x) ^ 2 + (a * y) ^ 2) with (a ^ 2 * (x ^ 2 + y ^ 2)) by ring. rewrite sqrt_mult_alt by nra. rewrite sqrt_pow2 by lra. reflexivity.
Qed.
Lemma ratio_units x y : a * x / (a * y) = x / y.
Proof. unfold Rdiv. rewrite Rinv_mult. replace (a * x * (/ a * / y)) with (a * / a * (x * / y)) by ring. rewrite Rinv_r by lra. ring. Qed.
Lemma usub_units b1 u v : usub (moved a b1 u) (OU (moved a b1 v)) = moved a 0 (usub u (OU v)).
Proof. unfold usub, moved. cbn [value stddev]. rewrite sqrt_units. f_equal; ring. Qed.
Lemma udiv_units u v : udiv (moved a 0 u) (OU (moved a 0 v)) = udiv u (OU v).
Proof. unfold udiv, moved. cbn [value stddev]. rewrite !Rplus_0_r, !ratio_units. reflexivity. Qed.
Lemma udivn_units u x : udiv (moved a 0 u) (ON (a * x)) = udiv u (ON x).
Proof. unfold udiv, moved. cbn [value stddev]. rewrite !Rplus_0_r, ratio_units. f_equal. rewrite Rabs_mult, (Rabs_right a) by lra. apply ratio_units. Qed.
Lemma lift2_sub x y : lift2 usub (option_map (moved a b) x) (option_map (moved a b) y) = option_map (moved a 0) (lift2 usub x y).
Proof. destruct x, y; try reflexivity. cbn [option_map lift2]. rewrite usub_units. reflexivity. Qed.
Lemma lift2_div x y : lift2 udiv (option_map (moved a 0) x) (option_map (moved a 0) y) = lift2 udiv x y.
Proof. destruct x, y; try reflexivity. cbn [option_map lift2]. rewrite udiv_units. reflexivity. Qed.
Section Percentile.
Variable percentile : list R -> R -> R.
Hypothesis PU : percentile_in_units a b percentile.
Lemma measure_y_units nf v : measure_y percentile (f nf) (vmove v) = y_in_units a b (measure_y percentile nf v).
Proof.
  unfold measure_y, y_in_units. cbv zeta. cbn [m_y_0 m_y_1 m_y_cross m_y_0_cross m_y_1_cross m_y_avg m_amp m_height m_height_r m_snr m_y_cross_r m_extinction_ratio m_oma_cross m_vecp].
  unfold vmove. cbn [v_0 v_1 v_cross v_0_cross v_1_cross v_avg]. rewrite !usamples_units.
  assert (HT : lift2 usub (lift1 usub (option_map (moved a b) (usamples (v_1 v))) (fun y => 3 * stddev y)) (lift1 uadd (option_map (moved a b) (usamples (v_0 v))) (fun y => 3 * stddev y))
    = option_map (moved a 0) (lift2 usub (lift1 usub (usamples (v_1 v)) (fun y => 3 * stddev y)) (lift1 uadd (usamples (v_0 v)) (fun y => 3 * stddev y)))).
  { destruct (usamples (v_1 v)) as [u1|], (usamples (v_0 v)) as [u0|]; try reflexivity. unfold lift2, lift1, option_map, usub, uadd, moved. cbn [value stddev]. rewrite sqrt_units. do 2 f_equal; ring. }
  rewrite HT. rewrite !lift2_sub, !lift2_div. f_equal.
  - destruct (usamples (v_1 v)) as [u1|], (usamples (v_0 v)) as [u0|]; try reflexivity. cbn [option_map lift2]. f_equal. replace (stddev (moved a b u1) + stddev (moved a b u0)) with (a * (stddev u1 + stddev u0)) by (unfold moved; cbn [stddev]; ring). apply udivn_units.
  - assert (NF : forall x, lift1 usub (option_map (moved a b) x) (fun _ => f nf) = option_map (moved a 0) (lift1 usub x (fun _ => nf))). { intros [u|]; [|reflexivity]. unfold lift1, option_map, usub, moved, f. cbn [value stddev]. do 2 f_equal; ring. }
    rewrite !NF. apply lift2_div.
  - destruct (v_0 v) as [|x0 l0] eqn:E0; [reflexivity|]. destruct (v_1 v) as [|x1 l1] eqn:E1; [reflexivity|]. cbn [map]. change (f x0 :: map f l0) with (map (fun v => a * v + b) (x0 :: l0)). change (f x1 :: map f l1) with (map (fun v => a * v + b) (x1 :: l1)). rewrite !PU by discriminate.
    destruct (lift2 usub (usamples (v_1_cross v)) (usamples (v_0_cross v))) as [oma|]; [|reflexivity]. cbn [option_map].
    match goal with |- context [ON (a * ?p + b - (a * ?q + b))] => replace (a * p + b - (a * q + b)) with (a * (p - q)) by ring end. rewrite udivn_units. reflexivity.
Qed.

(** ** What is drawn relative to the levels *)
Lemma normalise_units y z ua : normalise_y (map f y) (f z) (a * ua) = normalise_y y z ua.
Proof. unfold normalise_y. rewrite map_map. apply map_ext. intros v. cbn [nsub ndiv NumR]. replace (f v - f z) with (a * (v - z)) by (unfold f; ring). apply ratio_units. Qed.
Lemma normalise_units' y z u v : normalise_y (map f y) (f z) (f u - f v) = normalise_y y z (u - v).
Proof. replace (f u - f v) with (a * (u - v)) by (unfold f; ring). apply normalise_units. Qed.
Lemma horizontal_units td t z ua c th lo hi ws : measure_horizontal int_of_float td t (f z) (a * ua) (f c) th lo hi (map (fun p => (fw (fst p), snd p)) ws) = measure_horizontal int_of_float td t z ua c th lo hi ws.
Proof.
  unfold measure_horizontal. rewrite foldM_map. apply foldM_ext. intros h [[y ss] ds]. unfold fw. cbn [fst snd]. unfold sample_horizontal. cbv zeta. rewrite normalise_units. cbn [nsub ndiv NumR]. replace (f c - f z) with (a * (c - z)) by (unfold f; ring). rewrite ratio_units. reflexivity.
Qed.
Lemma convert_units m ua : convert (height a m) (a * ua) = convert m ua.
Proof.
  destruct m as [v|v]; [reflexivity|]. cbn [height convert]. unfold py_div. cbn [neq nofZ ndiv NumR]. destruct (Reqb ua 0) eqn:E; [apply Reqb_true in E|apply Reqb_false in E].
  - rewrite (proj2 (Reqb_true (a * ua) 0)) by (rewrite E; ring). reflexivity.
  - rewrite (proj2 (Reqb_false (a * ua) 0)) by (intros Q; apply Rmult_integral in Q; lra). cbn [bind]. rewrite ratio_units. reflexivity.
Qed.
Lemma mask_convert_units m ua t : mask_convert (rescaled_mask a m) (a * ua) t = mask_convert m ua t.
Proof. destruct m as [h|h]; cbn [rescaled_mask mask_convert]; [unfold hex_convert|unfold dec_convert]; cbn [hx1 hx2 hy1 hyl hyu hzero hconv dx1 dx2 dx3 dy1 dy2 dyl dyu dzero dconv]; rewrite !convert_units; reflexivity. Qed.
Lemma mask_units mk td t z ua ws : eye_sample_mask int_of_float (option_map (rescaled_mask a) mk) td t (f z) (a * ua) (map fw ws) = eye_sample_mask int_of_float mk td t z ua ws.
Proof.
  destruct mk as [m|]; [|reflexivity]. cbn [option_map eye_sample_mask]. rewrite mask_convert_units. destruct (mask_convert m ua t) as [mc|]; [|reflexivity]. cbn [bind]. destruct (mapM _ margins) as [paths|]; [|reflexivity]. cbn [bind]. rewrite foldM_map. apply foldM_ext. intros [[[offs hs] mg] cnt] w. unfold fw. cbn [fst snd]. unfold sample_mask. rewrite normalise_units. reflexivity.
Qed.
Lemma bathtub_units td t z ua ws lv : bathtub_curves int_of_float td t (f z) (a * ua) (map fw ws) lv = bathtub_curves int_of_float td t z ua ws lv.
Proof. unfold bathtub_curves. rewrite EyeProps.mapM_map_arg. rewrite (mapM_ext' _ (fun w => y_slice int_of_float (fst w) (snd w) td t z ua lv)); [reflexivity|]. intros w _. unfold fw. cbn [fst snd]. unfold y_slice. rewrite normalise_units. reflexivity. Qed.
Section Draw.
Variable cast : R -> Z.
Variable fuel : nat.
Variable draw : drawing.
Lemma heatmap_units td t z ua ws res pc n : step5_heatmap int_of_float cast fuel td t (f z) (a * ua) (map fw ws) res pc n = step5_heatmap int_of_float cast fuel td t z ua ws res pc n.
Proof.
  unfold step5_heatmap. cbv zeta. rewrite foldM_map. rewrite (foldM_ext _ (fun g w => stack int_of_float cast fuel (fst w) (snd w) td t (neg nhalf *. ua +. z)%num ((one +. nhalf) *. ua +. z)%num res g pc)); [reflexivity|]. intros g w. unfold fw. cbn [fst snd].
  cbn [nadd nmul NumR]. replace (neg nhalf * (a * ua) + f z) with (f (neg nhalf * ua + z)) by (unfold f; ring). replace ((one + nhalf) * (a * ua) + f z) with (f ((one + nhalf) * ua + z)) by (unfold f; ring). unfold stack. cbn [nsub NumR]. rewrite normalise_units'. reflexivity.
Qed.
Lemma offenders_units res td t z ua ws o im : draw_offenders draw cast res td t (f z) (a * ua) (map fw ws) o im = draw_offenders draw cast res td t z ua ws o im.
Proof.
  unfold draw_offenders. cbv zeta. rewrite map_length. replace (- (1 / 2) * (a * ua) + f z) with (f (- (1 / 2) * ua + z)) by (unfold f; ring). replace (3 / 2 * (a * ua) + f z) with (f (3 / 2 * ua + z)) by (unfold f; ring).
  replace (combine (seq 0 (length ws)) (map fw ws)) with (map (fun p => (fst p, fw (snd p))) (combine (seq 0 (length ws)) ws)).
  2:{ generalize (seq 0 (length ws)). induction ws as [|w ws IH]; intros [|i k]; [reflexivity..|]. cbn. rewrite IH. reflexivity. }
  rewrite foldM_map. apply foldM_ext. intros im0 [i w]. unfold fw. cbn [fst snd]. unfold draw_symbols. rewrite normalise_units'. reflexivity.
Qed.
Lemma images_units res h lo hi mc mg hs o td t z ua ws : draw_images draw cast res h lo hi mc mg hs o td t (f z) (a * ua) (map fw ws) = draw_images draw cast res h lo hi mc mg hs o td t z ua ws.
Proof.
  unfold draw_images. destruct (clean_image _ _ _); [|reflexivity]. cbn [bind]. destruct (draw_grid _ _ _); [|reflexivity]. cbn [bind]. destruct mc as [m|]; [|reflexivity]. destruct (mask_paths m); [|reflexivity]. cbn [bind]. destruct (draw_paths _ _ _); [|reflexivity]. cbn [bind]. destruct mg; [|reflexivity]. cbn [bind].
  destruct (mask_adjusted _ _); [|reflexivity]. cbn [bind]. destruct (draw_paths _ _ _); [|reflexivity]. cbn [bind]. destruct (draw_hits _ _ _); [|reflexivity]. cbn [bind]. rewrite offenders_units. reflexivity.
Qed.
End Draw.
End Percentile.
End Units.
